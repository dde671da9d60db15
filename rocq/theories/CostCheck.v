(** * Which code takes time linear in what it reads: a syntactic check

    [okm]: a function whose calls are to a known set of names and whose loops read something from the input in every round.
    [usem]: a function that reads at least one byte if it returns.
    CostLin.v proves what the check says; PropCost.v runs it on the translated program. *)
From Coq Require Import ZArith String List Bool Lia.
From Verif Require Import Lang Ind Bytes Interp.
Import ListNotations.
Open Scope string_scope. Open Scope list_scope.

Definition memb (x : string) (l : list string) : bool := existsb (String.eqb x) l.
Definition nilb {A} (l : list A) : bool := match l with [] => true | _ => false end.

(** what is known about the local variables: these are None; self's class has no property of these names; these are instances of these classes *)
Record ctx := mkctx { c_none : list string; c_plain : list string; c_inst : list (string * string) }.
Definition c0 : ctx := mkctx [] [] [].

Section Check.
Variable P : prog.
(** names of the methods that may be called *)
Variable names : list string.
(** properties that may not be read (they compute sizes by going through lists) *)
Variable slow : list string.
(** methods that always read *)
Variable reads : list string.

Definition mulok (a b : expr) : bool := match a, b with Lit _, _ => true | ListE _, Lit (LInt _) => true | _, _ => false end.
Definition loc_in (l : list string) (e : expr) : bool := match e with Loc x => memb x l | _ => false end.

Section Init.
(** may this class be constructed with arguments? *)
Variable init_any : string -> bool.

Fixpoint cke (c : ctx) (e : expr) : bool :=
  match e with
  | Lit _ | Loc _ | Glob _ => true
  | Attr e a => cke c e && (negb (memb a slow) || loc_in ["self"] e && memb a (c_plain c))
  | Sub e i => cke c e && cke c i
  | CallV f args kws => cke c f && forallb (cke c) args && (nilb args && nilb kws || match f with Glob g => init_any g | _ => false end)
  | Meth e m args kws => cke c e && forallb (cke c) args && memb m names
  | Super _ m args kws => forallb (cke c) args && (memb m names || String.eqb m "__init__" && nilb args && nilb kws)
  | Builtin b args => forallb (cke c) args && match b with BList | BBytes | BFilterNone => false | _ => true end
  | HasAttr e _ => cke c e
  | ListE es | TupleE es => forallb (cke c) es
  | OrE a b | AndE a b => cke c a && cke c b
  | NotE a => cke c a
  | Bin o a b => cke c a && cke c b && match o with OMul => mulok a b | _ => true end
  | Cmp o a b => cke c a && cke c b && match o with CIn => match b with TupleE _ => true | _ => false end | _ => true end
  | IfE t a b => if loc_in (c_none c) t then cke c b else cke c t && cke c a && cke c b
  end.

(** what is known after a statement *)
Definition nx (c : ctx) (s : stmt) : ctx :=
  match s with
  | Expr _ | SetSub _ _ _ | Assert _ | Pass => c
  | SetAttr o a _ => if loc_in ["self"] o then mkctx (c_none c) (a :: c_plain c) (c_inst c) else c
  | Assign x e =>
      if String.eqb x "self" then c0
      else mkctx (filter (fun y => negb (String.eqb x y)) (c_none c)) (c_plain c)
                 (match e with
                  | CallV (Glob g) [] [] => match get_cls P g with Some _ => [(x, g)] | None => [] end
                  | _ => []
                  end ++ filter (fun y => negb (String.eqb x (fst y))) (c_inst c))
  | _ => c0
  end.

Section Use.
(** does this function read at least one byte? *)
Variable usem : meth -> bool.

Definition use_meth (c : ctx) (e : expr) (m : string) : bool :=
  memb m reads ||
  match e with
  | Loc y => match assoc y (c_inst c) with Some d => match lookup P d m with Some (MMeth k) => usem k | _ => false end | None => false end
  | _ => false
  end.
Fixpoint use (c : ctx) (e : expr) : bool :=
  match e with
  | Lit _ | Loc _ | Glob _ => false
  | Attr e a => use c e
  | Sub e i => use c e || use c i
  | CallV f args kws =>
      use c f || existsb (use c) args ||
      match f with
      | Glob g => match get_cls P g with Some _ => false | None => if String.eqb g "getStandardVariableClass" then false else match assoc g (p_funs P) with Some m => usem m | None => true end end
      | _ => false
      end
  | Meth e m args kws => use c e || existsb (use c) args || use_meth c e m
  | Super _ m args kws => existsb (use c) args
  | Builtin b args =>
      existsb (use c) args ||
      match b, args with BUnpack, [Lit (LStr _); Meth _ r [_] []] => String.eqb r "read" | _, _ => false end
  | HasAttr e _ => use c e
  | ListE es | TupleE es => existsb (use c) es
  | OrE a _ | AndE a _ => use c a
  | NotE a => use c a
  | Bin _ a b | Cmp _ a b => use c a || use c b
  | IfE t a b => use c t || use c a && use c b
  end.

Fixpoint noret (s : stmt) : bool :=
  match s with Return _ => false | If _ a b => forallb noret a && forallb noret b | For _ _ b => forallb noret b | _ => true end.

Definition useb_ (us : ctx -> stmt -> bool) : ctx -> list stmt -> bool :=
  fix go c l := match l with [] => false | s :: r => us c s || noret s && go (nx c s) r end.
Fixpoint uses (c : ctx) (s : stmt) : bool :=
  match s with
  | Expr e | Assign _ e | Return e | Assert e => use c e
  | SetAttr o _ e => use c e || use c o
  | SetSub o i e => use c e || use c o || use c i
  | If t a b => use c t || useb_ uses c a && useb_ uses c b
  | For _ e _ => use c e
  | Raise _ => true
  | Pass => false
  end.
Definition useb := useb_ uses.

Definition ckb_ (ck : ctx -> stmt -> bool) : ctx -> list stmt -> bool :=
  fix go c l := match l with [] => true | s :: r => ck c s && go (nx c s) r end.
Fixpoint cks (c : ctx) (s : stmt) : bool :=
  match s with
  | Expr e | Assign _ e | Return e | Assert e => cke c e
  | SetAttr o _ e => cke c o && cke c e
  | SetSub o i e => cke c o && cke c i && cke c e
  | If t a b => cke c t && ckb_ cks c a && ckb_ cks c b
  | For _ e b => cke c e && ckb_ cks c0 b && useb c0 b
  | Raise _ | Pass => true
  end.
Definition ckb := ckb_ cks.
End Use.
End Init.

(** functions that read something: through a call depth of [n] *)
Fixpoint usem (n : nat) (m : meth) : bool :=
  match n with O => false | S k => useb (usem k) c0 (m_body m) end.

(** parameters, after the first, that are None when the function is called with one argument *)
Definition nones (ps : list (string * option dflt)) : list string :=
  match ps with
  | [] => []
  | (x0, _) :: r =>
      filter (fun x => negb (String.eqb x x0) && match assoc x r with Some (Some (DLit LNone)) => true | _ => false end) (map fst r)
  end.
(** [D]: the depth to which [usem] looks.  [okl n]: with any arguments, through [n] levels of constructors with arguments *)
Variable D : nat.
Definition init_ok (ok : meth -> bool) (g : string) : bool :=
  match get_cls P g with
  | None => true
  | Some _ => match lookup P g "__init__" with Some (MMeth i) => ok i | _ => true end
  end.
Fixpoint okl (n : nat) (m : meth) : bool :=
  match n with O => false | S k => ckb (init_ok (okl k)) (usem D) c0 (m_body m) end.
(** with one argument *)
Definition okl1 (n : nat) (m : meth) : bool := ckb (init_ok (okl n)) (usem D) (mkctx (nones (m_params m)) [] []) (m_body m).

Definition native_names : list string := ["append"; "read"; "write"; "parse"; "marshalledSize"; "serialize"; "decode"].
Definition ok_member (n : nat) (nm : string) (x : member) : bool :=
  negb (String.eqb nm "read") &&
  match x with
  | MAttr _ => negb (memb nm reads)
  | MMeth m =>
      (negb (memb nm names) || okl n m) &&
      (negb (memb nm reads) || usem D m) &&
      (negb (String.eqb nm "__init__") || okl1 n m && match m_kind m with KNormal => true | _ => false end) &&
      match m_kind m with KProperty => memb nm slow || okl n m | _ => true end
  end.
Definition ok_prog (n : nat) : bool :=
  negb (memb "__init__" names) && negb (memb "serialize" names) && negb (memb "decode" names) && memb "read_bytes" names && forallb (fun x => negb (memb x native_names)) reads &&
  forallb (fun p => forallb (fun q => ok_member n (fst q) (snd q)) (c_members (snd p))) (p_classes P) &&
  forallb (fun p => okl n (snd p)) (p_funs P).
End Check.
