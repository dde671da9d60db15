(** * The interpreter as a thread: one operation at a time

    Interp.v once more, with the same cases, but the result is a tree of the operations still to be done on the common memory, so that other threads can run between any two of them.
    An operation ([TOp]) is what CPython does without giving up control: reading or setting one attribute or list entry, creating one object, one append, one read or write
    of the stream, one call of a function of struct or of a builtin.  Calls of the library's functions are not atomic.
    [itp] runs a tree without interruption; [run_same] and [getPdu_same]: that is the interpreter of Interp.v. *)
From Coq Require Import ZArith String List Bool Lia.
From Coq Require Import Strings.Byte.
From Verif Require Import Lang Ind Bytes Interp.
Import ListNotations.
Open Scope string_scope. Open Scope list_scope.

Inductive T (A : Type) : Type :=
| TRet (a : A)
| TExc (e : exn)
| TOp (X : Set) (m : M X) (k : X -> T A).
Arguments TRet {A}. Arguments TExc {A}. Arguments TOp {A X}.
Definition retY {A} (a : A) : T A := TRet a.
Fixpoint bindY {A B} (t : T A) (f : A -> T B) : T B :=
  match t with
  | TRet a => f a
  | TExc e => TExc e
  | TOp m k => TOp m (fun x => bindY (k x) f)
  end.
Definition prim {A : Set} (m : M A) : T A := TOp m TRet.
Notation "x <~ m ;; k" := (bindY m (fun x => k)) (at level 61, m at next level, right associativity).
Definition is_true (v : val) : T bool := prim (fun s => (Ok (truth (heap s) v), s)).

(** running a tree *)
Fixpoint itp {A} (t : T A) (s : st) : res A * st :=
  match t with
  | TRet a => (Ok a, s)
  | TExc e => (Exc e, s)
  | TOp m k => match m s with (Ok x, s') => itp (k x) s' | (Exc e, s') => (Exc e, s') end
  end.

Section WithProg.
Variable P : prog.
Section WithCall.
Variable call : meth -> list val -> list string -> T val.

Definition get_attrY (v : val) (a : string) : T val :=
  match v with
  | VRef l =>
      ob <~ prim (hget l) ;;
      match ob with
      | Some (HInst c attrs) =>
          match lookup P c a with
          | Some (MMeth m) =>
              match m_kind m with
              | KProperty => call m [v] []
              | _ => match assoc a attrs with Some x => retY x | None => TExc Unsupported end
              end
          | Some (MAttr l) => match assoc a attrs with Some x => retY x | None => retY (lit_val l) end
          | None => match assoc a attrs with Some x => retY x | None => TExc AttributeError end
          end
      | _ => TExc AttributeError
      end
  | VIn => if String.eqb a "stream" then retY VRawIn else TExc AttributeError
  | VOut => if String.eqb a "stream" then retY VRawOut else TExc AttributeError
  | VBitInst fs vs => match bits_field a fs vs with Some z => retY (VInt z) | None => TExc AttributeError end
  | VClass c => match lookup P c a with Some (MAttr l) => retY (lit_val l) | Some _ => TExc Unsupported | None => TExc AttributeError end
  | _ => TExc AttributeError
  end.

Definition nativeY (v : val) (m : string) (args : list val) : T val :=
  match v, args with
  | VBitCls fs, [i] =>
      if String.eqb m "parse" then
        c <~ prim (resolve P i "read_bytes") ;;
        match c with
        | KMeth k pre =>
            r <~ call k (pre ++ [VInt (Z.of_nat (bits_size fs))]) [] ;;
            match r with
            | VBytes l =>
                if (length l <? bits_size fs)%nat then TExc ValueError
                else retY (VBitInst fs (bits_unpack fs (be_val (firstn (bits_size fs) l))))
            | _ => TExc TypeError
            end
        | _ => TExc Unsupported
        end
      else TExc TypeError
  | VBitInst fs vs, [o] =>
      if String.eqb m "serialize" then
        c <~ prim (resolve P o "write_bytes") ;;
        match c with
        | KMeth k pre => _ <~ call k (pre ++ [VBytes (be (bits_size fs) (bits_pack fs vs))]) [] ;; retY VNone
        | _ => TExc Unsupported
        end
      else TExc TypeError
  | VBytes l, [VStr _] => match utf8_decode l with Some cs => retY (VStr cs) | None => TExc UnicodeDecodeError end
  | _, _ => prim (native P (fun _ _ _ => raise Unsupported) v m args)      (* these do not call *)
  end.

Definition applyY (c : callee) (args : list val) (kws : list string) : T val :=
  match c with
  | KMeth m pre => call m (pre ++ args) kws
  | KNew cn attrs =>
      if is_abstract P cn then TExc TypeError
      else
        o <~ prim (halloc (HInst cn attrs)) ;;
        match lookup P cn "__init__" with
        | Some (MMeth m) => _ <~ call m (o :: args) kws ;; retY o
        | Some _ => TExc TypeError
        | None => match args with [] => retY o | _ => TExc TypeError end
        end
  | KNewBits fs =>
      match kws with
      | [] =>
          match as_ints args with
          | Some vs =>
              if (length fs <? length vs)%nat then TExc TypeError
              else retY (VBitInst fs (bits_unpack fs (bits_pack fs vs)))
          | None => TExc TypeError
          end
      | _ => TExc Unsupported
      end
  | KNative v m => match kws with [] => nativeY v m args | _ => TExc TypeError end
  | KGetSV => prim (apply P (fun _ _ _ => raise Unsupported) KGetSV args kws)   (* does not call *)
  end.

Definition eval_listY (ev : expr -> env -> T val) : list expr -> env -> T (list val) :=
  fix go l rho :=
    match l with
    | [] => retY []
    | e :: r => v <~ ev e rho ;; vs <~ go r rho ;; retY (v :: vs)
    end.

Fixpoint evalY (e : expr) (rho : env) {struct e} : T val :=
  match e with
  | Lit l => retY (lit_val l)
  | Loc x => match assoc x rho with Some v => retY v | None => TExc NameError end
  | Glob x => prim (glob P x)
  | Attr e a => v <~ evalY e rho ;; get_attrY v a
  | Sub e i => v <~ evalY e rho ;; j <~ evalY i rho ;; prim (sub_val v j)
  | CallV f args kws =>
      v <~ evalY f rho ;; c <~ prim (callee_of P v) ;; vs <~ eval_listY evalY args rho ;; applyY c vs kws
  | Meth e m args kws =>
      v <~ evalY e rho ;; c <~ prim (resolve P v m) ;; vs <~ eval_listY evalY args rho ;; applyY c vs kws
  | Super cn m args kws =>
      match assoc "self" rho with
      | Some self =>
          c <~ prim (resolve_super P self cn m) ;;
          vs <~ eval_listY evalY args rho ;;
          match c with
          | Some k => applyY k vs kws
          | None => match vs with [] => retY VNone | _ => TExc TypeError end
          end
      | None => TExc NameError
      end
  | Builtin b args => vs <~ eval_listY evalY args rho ;; prim (builtin_val b vs)
  | HasAttr e a => v <~ evalY e rho ;; prim (has_attr P v a)
  | ListE es => vs <~ eval_listY evalY es rho ;; prim (halloc (HList vs))
  | TupleE es => vs <~ eval_listY evalY es rho ;; retY (VTuple vs)
  | OrE a b => v <~ evalY a rho ;; (t <~ is_true v ;; if t then retY v else evalY b rho)
  | AndE a b => v <~ evalY a rho ;; (t <~ is_true v ;; if t then evalY b rho else retY v)
  | NotE a => v <~ evalY a rho ;; (t <~ is_true v ;; retY (VBool (negb t)))
  | Bin o a b => x <~ evalY a rho ;; y <~ evalY b rho ;; prim (binop_val o x y)
  | Cmp o a b => x <~ evalY a rho ;; y <~ evalY b rho ;; prim (cmp_val o x y)
  | IfE c a b => v <~ evalY c rho ;; (t <~ is_true v ;; if t then evalY a rho else evalY b rho)
  end.

Definition run_blockY (ex : stmt -> env -> T R) : list stmt -> env -> T R :=
  fix go l rho :=
    match l with
    | [] => retY (rho, None)
    | s :: r =>
        p <~ ex s rho ;;
        match snd p with Some _ => retY p | None => go r (fst p) end
    end.

Definition for_loopY (bd : env -> T R) (x : string) : list val -> env -> T R :=
  fix go vs rho :=
    match vs with
    | [] => retY (rho, None)
    | v :: r =>
        p <~ bd (upd x v rho) ;;
        match snd p with Some _ => retY p | None => go r (fst p) end
    end.

Fixpoint execY (c : stmt) (rho : env) {struct c} : T R :=
  match c with
  | Expr e => _ <~ evalY e rho ;; retY (rho, None)
  | Assign x e => v <~ evalY e rho ;; retY (upd x v rho, None)
  | SetAttr o a e => v <~ evalY e rho ;; ov <~ evalY o rho ;; _ <~ prim (set_attr P ov a v) ;; retY (rho, None)
  | SetSub o i e => v <~ evalY e rho ;; ov <~ evalY o rho ;; iv <~ evalY i rho ;; _ <~ prim (set_sub ov iv v) ;; retY (rho, None)
  | If c a b =>
      v <~ evalY c rho ;;
      (t <~ is_true v ;; if t then run_blockY execY a rho else run_blockY execY b rho)
  | For x e body =>
      v <~ evalY e rho ;; vs <~ prim (iter_vals v) ;;
      for_loopY (run_blockY execY body) x vs rho
  | Return e => v <~ evalY e rho ;; retY (rho, Some v)
  | Raise x => TExc x
  | Assert e => v <~ evalY e rho ;; (t <~ is_true v ;; if t then retY (rho, None) else TExc AssertionError)
  | Pass => retY (rho, None)
  end.
End WithCall.

Fixpoint runY (fuel : nat) (m : meth) (args : list val) (kws : list string) {struct fuel} : T val :=
  match fuel with
  | O => TExc RecursionError
  | S n =>
      match bind_args (m_params m) args kws with
      | None => TExc TypeError
      | Some rho =>
          p <~ run_blockY (execY (runY n)) (m_body m) rho ;;
          retY match snd p with Some v => v | None => VNone end
      end
  end.

Definition call_methodY (fuel : nat) (v : val) (m : string) (args : list val) : T val :=
  c <~ prim (resolve P v m) ;; applyY (runY fuel) c args [].
Definition newY (fuel : nat) (c : string) (args : list val) : T val := applyY (runY fuel) (KNew c []) args [].

(** opendis/PduFactory.py:65-91, as in Interp.v *)
Definition getPduY (table : list (Z * string)) (fuel : nat) : T val :=
  _ <~ prim (raw_seek 2) ;;
  t <~ call_methodY fuel VIn "read_byte" [] ;;
  _ <~ prim (raw_seek 0) ;;
  match t with
  | VInt z =>
      match zassoc z table with
      | Some c => p <~ newY fuel c [] ;; _ <~ call_methodY fuel p "parse" [VIn] ;; retY p
      | None => retY VNone
      end
  | _ => TExc Unsupported
  end.
(** ** Without interruption *)
Definition er {A} (t : T A) (m : M A) : Prop := forall s, itp t s = m s.

Lemma er_ret {A} (a : A) : er (retY a) (ret a). Proof. now intros s. Qed.
Lemma er_exc {A} e : er (@TExc A e) (raise e). Proof. now intros s. Qed.
Lemma er_prim {A : Set} (m : M A) : er (prim m) m. Proof. intros s. unfold prim. cbn [itp]. destruct (m s) as [[a|e] s']; reflexivity. Qed.
Lemma er_bind {A B} (t : T A) m (kt : A -> T B) k : er t m -> (forall a, er (kt a) (k a)) -> er (bindY t kt) (bind m k).
Proof.
  intros H K s. unfold bind. rewrite <- H. clear H m. revert s. induction t as [a|e|X m k0 IH]; intros s; cbn [bindY itp]; [apply K|reflexivity|]. destruct (m s) as [[x|e] s']; [apply IH|reflexivity].
Qed.
Lemma er_if {A} v (a b : T A) a' b' : er a a' -> er b b' -> er (t <~ is_true v ;; if t then a else b) (fun s => if truth (heap s) v then a' s else b' s).
Proof. intros HA HB s. unfold is_true, prim. cbn [bindY itp]. destruct (truth (heap s) v); auto. Qed.

Arguments bindY : simpl never.
Arguments prim : simpl never.

Ltac erc := repeat first [ apply er_ret | apply er_exc | apply er_prim
  | match goal with |- er (match ?x with _ => _ end) _ => destruct x end
  | match goal with |- er (if ?x then _ else _) _ => destruct x end ].

Section Erase.
Variable callt : meth -> list val -> list string -> T val.
Variable call : meth -> list val -> list string -> M val.
Hypothesis EC : forall m args kws, er (callt m args kws) (call m args kws).

Lemma er_get_attr v a : er (get_attrY callt v a) (get_attr P call v a).
Proof.
  destruct v; simpl; erc. apply er_bind; [apply er_prim|]. intros [[c at_|vs]|]; erc. apply EC.
Qed.
Lemma er_native v m args : er (nativeY callt v m args) (native P call v m args).
Proof.
  destruct v; try (destruct args as [|x [|y r]]; exact (er_prim _)); destruct args as [|x [|y r]]; try exact (er_prim _);
    try (destruct x; exact (er_prim _)).
  - destruct x; try exact (er_prim _). simpl. erc.
  - simpl. destruct (String.eqb m "parse"); [|erc]. apply er_bind; [apply er_prim|]. intros c. destruct c; try exact (er_exc _).
    apply er_bind; [apply EC|]. intros a. erc.
  - simpl. destruct (String.eqb m "serialize"); [|erc]. apply er_bind; [apply er_prim|]. intros c. destruct c; try exact (er_exc _).
    apply er_bind; [apply EC|]. intros a. erc.
Qed.
Lemma er_apply c args kws : er (applyY callt c args kws) (apply P call c args kws).
Proof.
  destruct c; simpl.
  - apply EC.
  - destruct (is_abstract P c); [erc|]. apply er_bind; [apply er_prim|]. intros o. destruct (lookup P c "__init__") as [[k|]|]; erc. apply er_bind; [apply EC|]. intros. erc.
  - erc.
  - destruct kws; [apply er_native|erc].
  - exact (er_prim _).
Qed.
Lemma er_list es rho : Forall (fun e => forall rho, er (evalY callt e rho) (eval P call e rho)) es -> er (eval_listY (evalY callt) es rho) (eval_list (eval P call) es rho).
Proof. induction 1 as [|e r He Hr IH]; simpl; [erc|]. apply er_bind; [apply He|intros v]. apply er_bind; [apply IH|intros; erc]. Qed.
Lemma er_eval e : forall rho, er (evalY callt e rho) (eval P call e rho).
Proof.
  induction e using expr_ind'; intros rho; cbn [evalY eval].
  - erc.
  - erc.
  - erc.
  - apply er_bind; [auto|intros; apply er_get_attr].
  - apply er_bind; [apply IHe1|intros]. apply er_bind; [apply IHe2|intros; erc].
  - apply er_bind; [apply IHe|intros v]. apply er_bind; [erc|intros c]. apply er_bind; [now apply er_list|intros; apply er_apply].
  - apply er_bind; [auto|intros v]. apply er_bind; [erc|intros c]. apply er_bind; [now apply er_list|intros; apply er_apply].
  - destruct (assoc "self" rho) as [v|]; [|erc]. apply er_bind; [erc|]. intros o. apply er_bind; [now apply er_list|intros vs]. destruct o; [apply er_apply|erc].
  - apply er_bind; [now apply er_list|intros; erc].
  - apply er_bind; [auto|intros; erc].
  - apply er_bind; [now apply er_list|intros; erc].
  - apply er_bind; [now apply er_list|intros; erc].
  - apply er_bind; [apply IHe1|intros]. apply (er_if a (retY a) _ (ret a)); [erc|apply IHe2].
  - apply er_bind; [apply IHe1|intros]. apply (er_if a _ (retY a) _ (ret a)); [apply IHe2|erc].
  - apply er_bind; [auto|intros a s; reflexivity].
  - apply er_bind; [apply IHe1|intros]. apply er_bind; [apply IHe2|intros; erc].
  - apply er_bind; [apply IHe1|intros]. apply er_bind; [apply IHe2|intros; apply er_prim].
  - apply er_bind; [apply IHe1|intros]. apply er_if; [apply IHe2|apply IHe3].
Qed.
Lemma er_block b : Forall (fun c => forall rho, er (execY callt c rho) (exec P call c rho)) b -> forall rho, er (run_blockY (execY callt) b rho) (run_block (exec P call) b rho).
Proof. induction 1 as [|c r Hc Hr IH]; simpl; intros rho; [erc|]. apply er_bind; [now apply Hc|]. intros [rho' o]. simpl. destruct o; [erc|apply IH]. Qed.
Lemma er_for bt b x : (forall rho, er (bt rho) (b rho)) -> forall vs rho, er (for_loopY bt x vs rho) (for_loop b x vs rho).
Proof. intros H. induction vs as [|v r IH]; intros rho; simpl; [erc|]. apply er_bind; [apply H|]. intros [rho' o]. simpl. destruct o; [erc|apply IH]. Qed.
Lemma er_exec c : forall rho, er (execY callt c rho) (exec P call c rho).
Proof.
  induction c using stmt_ind'; intros rho; cbn [execY exec].
  - apply er_bind; [apply er_eval|intros; erc].
  - apply er_bind; [apply er_eval|intros; erc].
  - apply er_bind; [apply er_eval|intros]. apply er_bind; [apply er_eval|intros]. apply er_bind; [erc|intros; erc].
  - apply er_bind; [apply er_eval|intros]. apply er_bind; [apply er_eval|intros]. apply er_bind; [apply er_eval|intros]. apply er_bind; [erc|intros; erc].
  - apply er_bind; [apply er_eval|intros v]. apply er_if; now apply er_block.
  - apply er_bind; [apply er_eval|intros v]. apply er_bind; [erc|intros vs]. apply er_for. intros rho'. now apply er_block.
  - apply er_bind; [apply er_eval|intros; erc].
  - erc.
  - apply er_bind; [apply er_eval|intros v]. apply (er_if v _ _ (ret (rho, None)) (raise AssertionError)); erc.
  - erc.
Qed.
End Erase.

Theorem run_same fuel : forall m args kws, er (runY fuel m args kws) (run P fuel m args kws).
Proof.
  induction fuel as [|n IH]; intros m args kws; cbn [runY run]; [erc|]. destruct (bind_args (m_params m) args kws) as [rho|]; [|erc].
  apply er_bind; [|intros; erc]. apply er_block. apply Forall_forall. intros c _ rho'. now apply er_exec.
Qed.
Theorem call_same fuel v m args : er (call_methodY fuel v m args) (call_method P fuel v m args).
Proof. apply er_bind; [apply er_prim|intros c]. apply er_apply. apply run_same. Qed.
Theorem getPdu_same table fuel : er (getPduY table fuel) (getPdu P table fuel).
Proof.
  apply er_bind; [apply er_prim|intros ?]. apply er_bind; [apply call_same|intros t]. apply er_bind; [apply er_prim|intros ?].
  destruct t; erc. apply er_bind; [apply er_apply, run_same|intros p]. apply er_bind; [apply call_same|intros; erc].
Qed.
End WithProg.
