(** * Which code nests its calls to a bounded depth: a syntactic check

    Classes have ranks: an attribute of an instance only refers to instances of lower rank, and [parse] and [__init__] only call [parse] and
    constructors on lower ranks, or the same method of a base class.  Other functions that decoding calls ([lev]: readers and the like) call nothing but
    functions of a lower level.  DepthOk.v proves what the check says; PropDepth.v runs it on the translated program. *)
From Coq Require Import ZArith String List Bool Lia PeanoNat.
From Verif Require Import Lang Ind Bytes Interp CostCheck.
Import ListNotations.
Open Scope string_scope. Open Scope list_scope. Open Scope nat_scope.

(** What is known about a value: an instance of rank below [b_inst] (or below that of self, if [b_self]), or a class of rank below [b_cls], or neither *)
Record bnd := mkb { b_inst : nat; b_self : bool; b_cls : nat }.
Definition bzero : bnd := mkb 0 false 0.
Definition bjoin (a b : bnd) : bnd := mkb (Nat.max (b_inst a) (b_inst b)) (b_self a || b_self b) (Nat.max (b_cls a) (b_cls b)).

Section Check.
Variable P : prog.
Variable rank : string -> nat.          (* of a class *)
Variable frank : string -> nat.         (* of a function *)
Variable TOP B L : nat.                 (* above all ranks; above all levels; above the lengths of the resolution orders *)
Variable lev : string -> option nat.    (* the level of a method or property that decoding may call *)
Variable slow : list string.            (* properties that it may not read *)

Definition btop : bnd := mkb TOP false 0.
Definition ble (a b : bnd) : bool :=
  (TOP <=? b_inst b) || (b_inst a <=? b_inst b) && implb (b_self a) (b_self b) && (b_cls a <=? b_cls b).
Definition isz (a : bnd) : bool := (b_inst a =? 0) && negb (b_self a) && (b_cls a =? 0).

Section Body.
Variable deep : bool.                   (* parse, __init__ or a function; otherwise a function with a level *)
Variable selfC : option string.         (* the class that defines parse or __init__ *)
Variable k r : nat.                     (* the level and rank *)
Variable G : string -> bnd.             (* the local variables *)

Definition selfe (e : expr) : bool := match selfC, e with Some _, Loc x => String.eqb x "self" | _, _ => false end.
Definition is_cls (g : string) : bool := match get_cls P g with Some _ => true | None => false end.

Definition is_fun (g : string) : bool := String.eqb g "getStandardVariableClass" || match assoc g (p_funs P) with Some _ => true | None => false end.

Fixpoint bn (e : expr) : bnd :=
  match e with
  | Lit _ => bzero
  | Loc x => G x
  | Glob g => if is_cls g then mkb 0 false (S (rank g)) else if is_fun g then btop else bzero
  | Attr e _ => if selfe e then mkb 0 true 0 else mkb (b_inst (bn e)) (b_self (bn e)) 0
  | Sub (Builtin BUnpack _) _ => bzero
  | Sub _ _ => btop
  | CallV (Glob g) _ _ => if is_cls g then mkb (S (rank g)) false 0 else if String.eqb g "getStandardVariableClass" then mkb 0 false (frank g) else mkb (frank g) false 0
  | CallV f _ _ => mkb (b_cls (bn f)) false 0
  | Builtin BUnpack _ | Builtin BFilterNone _ | TupleE _ => btop
  | OrE a b | AndE a b | IfE _ a b => bjoin (bn a) (bn b)
  | _ => bzero
  end.

(** no class that inherits from this one has a property of this name *)
Definition plain_attr (C a : string) : bool :=
  forallb (fun p => negb (memb C (mro P (fst p))) ||
    match lookup P (fst p) a with Some (MMeth m) => match m_kind m with KProperty => false | _ => true end | _ => true end) (p_classes P).
Definition attr_ok (e : expr) (a : string) : bool :=
  if negb (memb a slow) && match lev a with Some j => j <? k | None => true end then true
  else selfe e && match selfC with Some C => plain_attr C a | None => false end.
Definition kw_ok (args : list expr) (kws : list string) : bool := length kws <=? length args.

(** C.parse(x), without an object: too few arguments *)
Definition too_few (e : expr) (m : string) (args : list expr) (kws : list string) : bool :=
  match e with
  | Glob g =>
      is_cls g && nilb kws &&
      match lookup P g m with
      | Some (MMeth k) => existsb (fun p => match snd p with None => true | Some _ => false end) (skipn (length args) (m_params k))
      | _ => false
      end
  | _ => false
  end.

Fixpoint ck (e : expr) : bool :=
  match e with
  | Lit _ | Loc _ | Glob _ => true
  | Attr e a => ck e && attr_ok e a
  | Sub e i => ck e && ck i
  | CallV f args kws =>
      deep && forallb ck args && kw_ok args kws &&
      match f with
      | Glob g =>
          if is_cls g then (rank g <? r) && forallb (fun e => isz (bn e)) args
          else String.eqb g "getStandardVariableClass" || (frank g <? r)
      | _ => ck f && (b_inst (bn f) <? TOP) && (b_cls (bn f) <=? r) && forallb (fun e => isz (bn e)) args
      end
  | Meth e m args kws =>
      ck e && forallb ck args && kw_ok args kws &&
      match lev m with
      | Some j => j <? k
      | None => deep && (String.eqb m "parse" && (b_inst (bn e) <=? r) && (b_cls (bn e) =? 0) || too_few e m args kws)
      end
  | Super C m args kws =>
      deep && forallb ck args && kw_ok args kws &&
      match selfC with Some D => String.eqb C D | None => false end &&
      (String.eqb m "parse" || String.eqb m "__init__" && forallb (fun e => isz (bn e)) args)
  | Builtin _ args => forallb ck args
  | HasAttr e _ | NotE e => ck e
  | ListE es | TupleE es => forallb ck es
  | OrE a b | AndE a b | Bin _ a b | Cmp _ a b => ck a && ck b
  | IfE t a b => ck t && ck a && ck b
  end.

Definition not_self (x : string) : bool := match selfC with Some _ => negb (String.eqb x "self") | None => true end.
Variable rb : bnd.                      (* what it returns *)

Fixpoint cks (c : stmt) : bool :=
  match c with
  | Expr e | Assert e => ck e
  | Assign x e => ck e && ble (bn e) (G x) && not_self x
  | SetAttr o _ e => deep && selfe o && ck e && (b_inst (bn e) <=? r) && (b_cls (bn e) =? 0)
  | SetSub o i e => ck o && ck i && ck e
  | If t a b => ck t && forallb cks a && forallb cks b
  | For x e b => ck e && not_self x && match e with Builtin BRange _ => true | _ => TOP <=? b_inst (G x) end && forallb cks b
  | Return e => ck e && ble (bn e) rb
  | Raise RecursionError => false
  | Raise _ | Pass => true
  end.
End Body.

(** the local variables, from the assignments to them *)
Definition gfun (l : list (string * bnd)) (x : string) : bnd := match assoc x l with Some b => b | None => btop end.
Fixpoint gam (selfC : option string) (l : list (string * bnd)) (c : stmt) : list (string * bnd) :=
  match c with
  | Assign x e =>
      let b := bn selfC (gfun l) e in
      match assoc x l with Some b' => upd x (bjoin b b') l | None => upd x b l end
  | If _ a b => fold_left (gam selfC) b (fold_left (gam selfC) a l)
  | For x (Builtin BRange _) b => fold_left (gam selfC) b (match assoc x l with Some _ => l | None => upd x bzero l end)
  | For _ _ b => fold_left (gam selfC) b l
  | _ => l
  end.
Definition gam_of (selfC : option string) (ps : list (string * bnd)) (m : meth) : string -> bnd := gfun (fold_left (gam selfC) (m_body m) ps).

Definition lits (ps : list (string * option dflt)) : bool := forallb (fun p => match snd p with Some (DCell _) => false | _ => true end) ps.
Definition self_first (ps : list (string * option dflt)) : bool :=
  match ps with (x, _) :: q => String.eqb x "self" && negb (memb "self" (map fst q)) | [] => false end.
Definition nml (m : meth) : bool := match m_kind m with KNormal => true | _ => false end.

Definition ok_parse (C : string) (m : meth) : bool :=
  let G := gam_of (Some C) (map (fun p => (fst p, btop)) (m_params m)) m in
  nml m && self_first (m_params m) && forallb (fun p => TOP <=? b_inst (G (fst p))) (m_params m) && forallb (cks true (Some C) B (rank C) G bzero) (m_body m).
Definition ok_init (C : string) (m : meth) : bool :=
  let G := gam_of (Some C) (map (fun p => (fst p, if String.eqb (fst p) "self" then btop else bzero)) (m_params m)) m in
  nml m && self_first (m_params m) && lits (m_params m) && (TOP <=? b_inst (G "self")) && forallb (cks true (Some C) B (rank C) G bzero) (m_body m).
Definition ok_fun (g : string) (m : meth) : bool :=
  let G := gam_of None (map (fun p => (fst p, btop)) (m_params m)) m in
  (frank g <? TOP) && forallb (fun p => TOP <=? b_inst (G (fst p))) (m_params m) && forallb (cks true None B (frank g) G (mkb (frank g) false 0)) (m_body m).
(** a function with level [j] *)
Definition ok_lev (j : nat) (m : meth) : bool :=
  let G := gam_of None (map (fun p => (fst p, btop)) (m_params m)) m in
  forallb (fun p => TOP <=? b_inst (G (fst p))) (m_params m) && forallb (cks false None j 0 G bzero) (m_body m).

Definition ok_mem (C nm : string) (x : member) : bool :=
  match x with
  | MAttr _ => true
  | MMeth m =>
      (negb (String.eqb nm "parse") || ok_parse C m) && (negb (String.eqb nm "__init__") || ok_init C m) &&
      match lev nm with Some j => (j <? B) && ok_lev j m | None => match m_kind m with KProperty => memb nm slow | _ => true end end
  end.
Fixpoint nodupb (l : list string) : bool := match l with [] => true | x :: r => negb (memb x r) && nodupb r end.
Definition ok_class (d : string) : bool :=
  (rank d <? TOP) && (length (mro P d) <=? L) && nodupb (mro P d) && forallb (fun C => rank C <=? rank d) (mro P d).
Definition no_lev (x : string) : bool := match lev x with None => true | _ => false end.
Definition no_method (c m : string) : bool := match lookup P c m with Some (MMeth _) => false | _ => true end.
Definition ok_depth : bool :=
  no_method "DataInputStream" "parse" && no_method "DataOutputStream" "parse" &&
  forallb no_lev ["parse"; "__init__"; "serialize"] && match lev "read_bytes" with Some j => j <? B | None => false end &&
  forallb (fun p => ok_class (fst p) && forallb (fun q => ok_mem (fst p) (fst q) (snd q)) (c_members (snd p))) (p_classes P) &&
  forallb (fun p => ok_fun (fst p) (snd p)) (p_funs P) &&
  forallb (fun c => rank c <? frank "getStandardVariableClass") ("UnknownStandardVariableRecord" :: map snd variableRecordClasses) &&
  (frank "getStandardVariableClass" <? TOP) && (0 <? L) && (0 <? B).
End Check.
