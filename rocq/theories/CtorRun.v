(** * Running constructors

    A checker of the bodies of the constructors (the method __init__ of a class and, through
    super(), those of its base classes) and its soundness: a constructor that passes only
    allocates new objects and sets attributes of the object under construction, whatever the
    arguments and the heap. *)
From Coq Require Import ZArith String List Bool Lia.
From Verif Require Import Lang Ind Bytes Interp.
Import ListNotations.
Open Scope string_scope. Open Scope list_scope.

Section Ctor.
Variable P : prog.

Definition memb (x : string) (l : list string) : bool := existsb (String.eqb x) l.

(** may attribute [a] be stored on an instance of [c]? (not if it is a property) *)
Definition settable (c a : string) : bool :=
  match lookup P c a with
  | Some (MMeth m) => match m_kind m with KProperty => false | _ => true end
  | _ => true
  end.

(** right-hand sides: literals, parameters, [x or y], [x & n], lists, list repetition and
    constructor calls.  [ints] are the parameters known to hold integers. *)
Fixpoint rhs (ck : string -> nat -> bool) (loc ints : list string) (e : expr) {struct e} : bool :=
  match e with
  | Lit _ => true
  | Loc x => memb x loc
  | OrE a b => rhs ck loc ints a && rhs ck loc ints b
  | ListE es => forallb (rhs ck loc ints) es
  | Bin OMul (ListE es) (Lit (LInt _)) => forallb (rhs ck loc ints) es
  | Bin OBitAnd (Loc x) (Lit (LInt _)) => memb x ints
  | CallV (Glob c) es [] => match get_cls P c with Some _ => ck c (length es) && forallb (rhs ck loc ints) es | None => false end
  | _ => false
  end.

(** a call with [j] positional arguments binds all parameters *)
Definition binds (ps : list (string * option dflt)) (j : nat) : bool :=
  (j <=? length ps)%nat && forallb (fun p => match snd p with Some _ => true | None => false end) (skipn j ps).

(** the parameters that a call with [j] arguments leaves to an integer default *)
Definition int_defaults (ps : list (string * option dflt)) (j : nat) : list string :=
  filter (fun x => negb (memb x (map fst (firstn j ps))) &&
                   match assoc x (skipn j ps) with Some (Some (DLit (LInt _))) => true | _ => false end) (map fst (skipn j ps)).

Definition stm (ck : string -> nat -> bool) (ini : meth -> nat -> bool) (c : string) (loc ints : list string) (st : stmt) : bool :=
  match st with
  | Pass => true
  | Expr (Lit _) => true
  | SetAttr (Loc x) a e => String.eqb x "self" && settable c a && rhs ck loc ints e
  | Expr (Super cn m es []) =>
      String.eqb m "__init__" && forallb (rhs ck loc ints) es &&
      match after cn (mro P c) with
      | Some rest =>
          match lookup_in P rest "__init__" with
          | Some (MMeth m) => match m_kind m with KNormal => ini m (S (length es)) | _ => false end
          | Some _ => false
          | None => match es with [] => true | _ => false end
          end
      | None => false
      end
  | If (AndE (Cmp CIs (Loc x) (Lit LNone)) (NotE (HasAttr (Loc y) b))) [Raise _] [If (Cmp CIsNot (Loc z) (Lit LNone)) [SetAttr (Loc w) a e] []] =>
      memb x loc && String.eqb y "self" && match lookup P c b with Some _ => true | None => false end &&
      memb z loc && String.eqb w "self" && settable c a && rhs ck loc ints e
  | _ => false
  end.

(** [init k c m j]: the body of the constructor [m], called with self and j-1 arguments on
    an instance of [c], passes, with at most [k] nested calls *)
Fixpoint init (k : nat) (c : string) (m : meth) (j : nat) {struct k} : bool :=
  match k with
  | O => false
  | S k =>
      let ck d i :=
        negb (is_abstract P d) &&
        match lookup P d "__init__" with
        | Some (MMeth m) => init k d m (S i)
        | Some _ => false
        | None => match i with O => true | _ => false end
        end in
      match j with O => false | S _ => true end &&
      binds (m_params m) j && match m_params m with (x, _) :: _ => String.eqb x "self" | [] => false end &&
      forallb (stm ck (init k c) c (map fst (m_params m)) (int_defaults (m_params m) j)) (m_body m)
  end.

Definition ctor (k : nat) (c : string) (j : nat) : bool :=
  negb (is_abstract P c) &&
  match lookup P c "__init__" with
  | Some (MMeth m) => init k c m (S j)
  | Some _ => false
  | None => match j with O => true | _ => false end
  end.

(** ** Association lists *)
Lemma assoc_memb {A} x (l : list (string * A)) : memb x (map fst l) = true -> exists v, assoc x l = Some v.
Proof.
  induction l as [|[y v] r IH]; cbn [map fst memb existsb assoc]; [discriminate|]. destruct (String.eqb x y); [eauto|]. exact IH.
Qed.
Lemma assoc_upd_eq {A} x (v : A) l : assoc x (upd x v l) = Some v.
Proof. induction l as [|[y w] r IH]; cbn [upd assoc]; [now rewrite String.eqb_refl|]. destruct (String.eqb x y) eqn:E; cbn [assoc]; now rewrite E. Qed.
Lemma assoc_upd_ne {A} x y (v : A) l : String.eqb x y = false -> assoc x (upd y v l) = assoc x l.
Proof.
  intros E. induction l as [|[z w] r IH]; cbn [upd assoc]; [now rewrite E|]. destruct (String.eqb y z) eqn:F; cbn [assoc].
  - apply String.eqb_eq in F. subst z. now rewrite E.
  - destruct (String.eqb x z); auto.
Qed.
Lemma assoc_app_ {A} x (l r : list (string * A)) : assoc x (l ++ r) = match assoc x l with Some v => Some v | None => assoc x r end.
Proof. induction l as [|[y v] l IH]; cbn [app assoc]; [reflexivity|]. now destruct (String.eqb x y). Qed.

(** ** Binding of positional arguments *)
Lemma bind_pos_ok ps : forall vs, (length vs <= length ps)%nat ->
  bind_pos ps vs = Some (combine (map fst ps) vs, skipn (length vs) ps).
Proof.
  induction ps as [|[x d] ps IH]; intros [|v vs] H; cbn [bind_pos length map fst combine skipn] in *; try reflexivity; [lia|].
  now rewrite (IH vs) by lia.
Qed.
Lemma bind_rest_ok ps : forallb (fun p => match snd p with Some _ => true | None => false end) ps = true ->
  exists e, bind_rest ps [] = Some e /\ map fst e = map fst ps /\
    forall x, assoc x e = match assoc x ps with Some (Some d) => Some (dflt_val d) | _ => None end.
Proof.
  induction ps as [|[x d] ps IH]; cbn [forallb bind_rest assoc snd]; intros H; [exists []; auto|].
  destruct d as [dv|]; [|discriminate]. destruct (IH H) as (e & E & F & G). rewrite E. eexists. split; [reflexivity|].
  cbn [map fst assoc]. rewrite F. split; [reflexivity|]. intros y. destruct (String.eqb y x); auto.
Qed.

Definition env_ok (loc ints : list string) (rho : env) : Prop :=
  (forall x, memb x loc = true -> exists v, assoc x rho = Some v) /\
  (forall x, memb x ints = true -> exists z, assoc x rho = Some (VInt z)).

Lemma memb_In x l : memb x l = true <-> In x l.
Proof.
  unfold memb. rewrite existsb_exists. split.
  - intros (y & H & E). apply String.eqb_eq in E. now subst.
  - intros H. exists x. split; [exact H|apply String.eqb_refl].
Qed.

Lemma assoc_None {A} x (l : list (string * A)) : memb x (map fst l) = false -> assoc x l = None.
Proof. induction l as [|[y v] r IH]; cbn [map fst memb existsb assoc]; [reflexivity|]. destruct (String.eqb x y); [discriminate|]. exact IH. Qed.

Lemma map_fst_combine {A} (a : list string) : forall b : list A, (length b <= length a)%nat -> map fst (combine a b) = firstn (length b) a.
Proof. induction a as [|x a IH]; intros [|y b] H; cbn [combine map fst length firstn] in *; try reflexivity. now rewrite IH by lia. Qed.

Lemma binds_ok ps vs : binds ps (length vs) = true -> exists rho, bind_args ps vs [] = Some rho /\
  env_ok (map fst ps) (int_defaults ps (length vs)) rho /\
  (match ps, vs with (x, _) :: _, v :: _ => assoc x rho = Some v | _, _ => True end).
Proof.
  unfold binds. intros H. apply andb_prop in H as [L D]. apply Nat.leb_le in L. unfold bind_args. cbn [length combine].
  rewrite Nat.sub_0_r, firstn_all. rewrite bind_pos_ok by exact L. destruct (bind_rest_ok _ D) as (e & E & F & G). cbn [combine]. rewrite E.
  eexists. split; [reflexivity|]. split; [split|].
  - intros x Hx. apply assoc_memb. rewrite map_app, F, map_fst_combine by (rewrite map_length; lia).
    rewrite <- skipn_map, firstn_skipn. exact Hx.
  - intros x Hx. apply memb_In in Hx. unfold int_defaults in Hx. apply filter_In in Hx as [_ Hx]. apply andb_prop in Hx as [N Hx]. apply negb_true_iff in N.
    rewrite assoc_app_, (assoc_None x (combine _ _)) by (rewrite map_fst_combine by (rewrite map_length; lia); now rewrite firstn_map). rewrite G.
    destruct (assoc x (skipn (length vs) ps)) as [[[[]|]|]|]; try discriminate. cbn [dflt_val lit_val]. eauto.
  - destruct ps as [|[x d] ps], vs as [|v vs]; auto. cbn [map fst combine app assoc]. now rewrite String.eqb_refl.
Qed.

(** ** Right-hand sides *)
Section Run.
Variables (i fu o : list Byte.byte) (call : meth -> list val -> list string -> M val).
Notation S_ h := (mkst h i fu o).

Definition good_ck (ck : string -> nat -> bool) : Prop := forall c vs h, ck c (length vs) = true ->
  exists at_ t, apply P call (KNew c []) vs [] (S_ h) = (Ok (VRef (length h)), S_ (h ++ HInst c at_ :: t)).

Definition shape (e : expr) (rho : env) (h : list hobj) (v : val) : Prop :=
  match e with
  | Loc x => assoc x rho = Some v
  | Lit l => v = lit_val l
  | ListE _ | Bin OMul _ _ | CallV _ _ _ => exists l, v = VRef l /\ (length h <= l)%nat
  | _ => True
  end.

Lemma rhs_list ck loc ints rho es :
  Forall (fun e => rhs ck loc ints e = true -> forall h, exists v t, eval P call e rho (S_ h) = (Ok v, S_ (h ++ t)) /\ shape e rho h v) es ->
  forallb (rhs ck loc ints) es = true ->
  forall h, exists vs t, eval_list (eval P call) es rho (S_ h) = (Ok vs, S_ (h ++ t)) /\ length vs = length es.
Proof.
  induction 1 as [|e es He _ IH]; cbn [forallb eval_list]; intros H h.
  - exists [], []. rewrite app_nil_r. auto.
  - apply andb_prop in H as [A B]. destruct (He A h) as (v & t & E & _). unfold bind. rewrite E.
    destruct (IH B (h ++ t)) as (vs & t' & E' & L). change (eval_list (eval P call)) with (eval_list (eval P call)) in E'. rewrite E'.
    exists (v :: vs), (t ++ t'). rewrite app_assoc. cbn [length]. rewrite L. auto.
Qed.

Lemma rhs_ok ck loc ints rho : good_ck ck -> env_ok loc ints rho -> forall e, rhs ck loc ints e = true ->
  forall h, exists v t, eval P call e rho (S_ h) = (Ok v, S_ (h ++ t)) /\ shape e rho h v.
Proof.
  intros HC [HL HI]. induction e using expr_ind'; cbn [rhs]; intros Hr h; try discriminate.
  - exists (lit_val l), []. rewrite app_nil_r. split; reflexivity.
  - destruct (HL _ Hr) as [v E]. exists v, []. rewrite app_nil_r. cbn [eval shape]. rewrite E. split; reflexivity.
  - destruct e; try discriminate. destruct kws; try discriminate. destruct (get_cls P x) eqn:G; [|discriminate]. apply andb_prop in Hr as [A B].
    destruct (rhs_list ck loc ints rho args H B h) as (vs & t & E & L). cbn [eval]. unfold bind at 1. unfold glob. rewrite G. unfold ret at 1.
    unfold bind at 1. cbn [callee_of]. unfold ret at 1. unfold bind at 1. rewrite E. rewrite <- L in A.
    destruct (HC x vs (h ++ t) A) as (at_ & t' & E'). rewrite E'. exists (VRef (length (h ++ t))), (t ++ HInst x at_ :: t'). rewrite app_assoc. split; [reflexivity|].
    cbn [shape]. eexists. split; [reflexivity|]. rewrite app_length. lia.
  - destruct (rhs_list ck loc ints rho es H Hr h) as (vs & t & E & L). cbn [eval]. unfold bind at 1. rewrite E. unfold halloc. cbn [heap irest ifull out].
    exists (VRef (length (h ++ t))), (t ++ [HList vs]). rewrite app_assoc. split; [reflexivity|]. cbn [shape]. eexists. split; [reflexivity|]. rewrite app_length. lia.
  - apply andb_prop in Hr as [A B]. destruct (IHe1 A h) as (v & t & E & _). cbn [eval]. unfold bind at 1. rewrite E.
    destruct (truth (heap (S_ (h ++ t))) v).
    + exists v, t. split; [reflexivity|exact I].
    + destruct (IHe2 B (h ++ t)) as (w & t' & E' & _). rewrite E'. exists w, (t ++ t'). rewrite app_assoc. split; [reflexivity|exact I].
  - destruct o0; try discriminate.
    + destruct e1; try discriminate. destruct e2; try discriminate. destruct l; try discriminate. cbn [rhs] in IHe1.
      destruct (IHe1 Hr h) as (v & t & E & Sh). clear Sh IHe1 IHe2. cbn [eval] in E. unfold bind in E at 1.
      change (eval P call (Bin OMul (ListE es) (Lit (LInt z))) rho (S_ h)) with
        (bind (bind (eval_list (eval P call) es rho) (fun vs => halloc (HList vs))) (fun x => bind (ret (VInt z)) (fun y => binop_val OMul x y)) (S_ h)).
      unfold bind at 1. unfold bind at 1. destruct (eval_list (eval P call) es rho (S_ h)) as [[vs|] s1] eqn:El; [|discriminate].
      injection E as Ev Eh Ei Ef Eo. destruct s1 as [h1 i1 f1 o1]. cbn [heap irest ifull out] in *. subst i1 f1 o1.
      unfold halloc at 1. cbn [heap irest ifull out]. unfold bind, ret, binop_val. cbn [as_int].
      unfold hget, bind. cbn [heap]. rewrite nth_error_app2, Nat.sub_diag by lia. cbn [nth_error]. unfold halloc. cbn [heap irest ifull out].
      rewrite Eh. exists (VRef (length (h ++ t))), (t ++ [HList (repeat_list (Z.to_nat z) vs)]). rewrite app_assoc. split; [reflexivity|].
      cbn [shape]. eexists. split; [reflexivity|]. rewrite app_length. lia.
    + destruct e1; try discriminate. destruct e2; try discriminate. destruct l; try discriminate. destruct (HI _ Hr) as [y E].
      exists (VInt (Z.land y z)), []. rewrite app_nil_r. cbn [eval]. rewrite E. split; [reflexivity|exact I].
Qed.

(** ** Statements *)
Definition sets (a : string) (st : stmt) : bool :=
  match st with
  | SetAttr _ b _ => String.eqb a b
  | Pass => false
  | Expr (Lit _) => false
  | _ => true
  end.

Section Obj.
Variables (h0 : list hobj) (c : string).
Notation O_ at_ t := (S_ (h0 ++ HInst c at_ :: t)).

Definition good_ini (ini : meth -> nat -> bool) : Prop := forall m vs at_ t, ini m (S (length vs)) = true ->
  exists v at' t', call m (VRef (length h0) :: vs) [] (O_ at_ t) = (Ok v, O_ at' (t ++ t')).

Lemma nth_self at_ t : nth_error (h0 ++ HInst c at_ :: t) (length h0) = Some (HInst c at_).
Proof. rewrite nth_error_app2, Nat.sub_diag by lia. reflexivity. Qed.
Lemma set_self (x : hobj) at_ t : set_nth (length h0) x (h0 ++ HInst c at_ :: t) = h0 ++ x :: t.
Proof. induction h0 as [|y h IH]; cbn [length app set_nth]; [reflexivity|]. now rewrite IH. Qed.

Lemma set_attr_self a v at_ t : settable c a = true ->
  set_attr P (VRef (length h0)) a v (O_ at_ t) = (Ok tt, O_ (upd a v at_) t).
Proof.
  intros H. unfold set_attr, hget, bind. cbn [heap]. rewrite nth_self. unfold settable in H.
  destruct (lookup P c a) as [[m|l]|]; [destruct (m_kind m); try discriminate| |]; unfold hset; cbn [heap irest ifull out]; now rewrite set_self.
Qed.

Lemma app_obj at_ t t' : (h0 ++ HInst c at_ :: t) ++ t' = h0 ++ HInst c at_ :: t ++ t'.
Proof. now rewrite <- app_assoc. Qed.

Lemma exec_set ck loc ints rho a e at_ t :
  good_ck ck -> env_ok loc ints rho -> assoc "self" rho = Some (VRef (length h0)) -> settable c a = true -> rhs ck loc ints e = true ->
  exists v t', eval P call e rho (O_ at_ t) = (Ok v, O_ at_ (t ++ t')) /\ shape e rho (h0 ++ HInst c at_ :: t) v /\
    exec P call (SetAttr (Loc "self") a e) rho (O_ at_ t) = (Ok (rho, None), O_ (upd a v at_) (t ++ t')).
Proof.
  intros HC HE HS Ha Hr. destruct (rhs_ok ck loc ints rho HC HE e Hr (h0 ++ HInst c at_ :: t)) as (v & t' & E & Sh). rewrite app_obj in E.
  exists v, t'. split; [exact E|]. split; [exact Sh|]. cbn [exec]. unfold bind at 1. rewrite E. cbn [eval]. rewrite HS. unfold bind at 1, ret at 1.
  unfold bind at 1. now rewrite (set_attr_self a v at_ (t ++ t') Ha).
Qed.

Lemma exec_stm ck ini loc ints rho st at_ t :
  good_ck ck -> good_ini ini -> env_ok loc ints rho -> assoc "self" rho = Some (VRef (length h0)) -> stm ck ini c loc ints st = true ->
  exists at' t', exec P call st rho (O_ at_ t) = (Ok (rho, None), O_ at' (t ++ t')) /\
    forall a, sets a st = false -> assoc a at' = assoc a at_.
Proof.
  intros HC HI HE HS H. destruct st; try discriminate.
  - destruct e; try discriminate.
    + exists at_, []. rewrite app_nil_r. split; [reflexivity|auto].
    + destruct kws; try discriminate. cbn [stm] in H. apply andb_prop in H as [H B]. apply andb_prop in H as [M A]. apply String.eqb_eq in M. subst m.
      destruct (after c0 (mro P c)) as [rest|] eqn:Ea; [|discriminate].
      assert (R : forall r, bind (resolve_super P (VRef (length h0)) c0 "__init__") r (O_ at_ t) =
         match lookup_in P rest "__init__" with
         | Some (MMeth k) => match m_kind k with KNormal => r (Some (KMeth k [VRef (length h0)])) (O_ at_ t) | KStatic => r (Some (KMeth k [])) (O_ at_ t) | KProperty => (Exc Unsupported, O_ at_ t) end
         | Some _ => (Exc TypeError, O_ at_ t)
         | None => r None (O_ at_ t)
         end :> res val * st).
      { intros r. unfold bind, resolve_super, hget, bind. cbn [heap]. rewrite nth_self, Ea. destruct (lookup_in P rest "__init__") as [[k|]|]; [destruct (m_kind k)| |]; reflexivity. }
      destruct (rhs_list ck loc ints rho args ltac:(apply Forall_forall; intros; now apply (rhs_ok ck loc ints)) A (h0 ++ HInst c at_ :: t)) as (vs & t1 & E & L).
      rewrite app_obj in E. cbn [exec eval]. rewrite HS. unfold bind at 1. rewrite R. clear R.
      destruct (lookup_in P rest "__init__") as [[k|]|]; [|discriminate|].
      * destruct (m_kind k); try discriminate. unfold bind at 1. rewrite E. rewrite <- L in B. destruct (HI k vs at_ (t ++ t1) B) as (v & at' & t' & E').
        cbn [apply app]. rewrite E'. exists at', (t1 ++ t'). rewrite app_assoc. split; [reflexivity|discriminate].
      * destruct args; [|discriminate]. cbn [eval_list]. unfold bind, ret. exists at_, []. rewrite app_nil_r. split; [reflexivity|auto].
  - destruct o0; try discriminate. cbn [stm] in H. apply andb_prop in H as [H B]. apply andb_prop in H as [X A]. apply String.eqb_eq in X. subst x.
    destruct (exec_set ck loc ints rho a e at_ t HC HE HS A B) as (v & t' & _ & _ & E). exists (upd a v at_), t'. split; [exact E|].
    intros b Hb. now apply assoc_upd_ne.
  - destruct c0; try discriminate. destruct c0_1; try discriminate. destruct o0; try discriminate. destruct c0_1_1; try discriminate. destruct c0_1_2; try discriminate. destruct l; try discriminate.
    destruct c0_2; try discriminate. destruct c0_2; try discriminate. destruct c0_2; try discriminate.
    destruct a as [|[] la]; try discriminate. destruct la; [|discriminate]. destruct b as [|[] lb]; try discriminate.
    destruct c0; try discriminate. destruct o0; try discriminate. destruct c0_1; try discriminate. destruct c0_2; try discriminate. destruct l; try discriminate.
    destruct a as [|[] la]; try discriminate. destruct o0; try discriminate. destruct la; [|discriminate]. destruct b; [|discriminate]. destruct lb; [|discriminate]. cbn [stm] in H.
    apply andb_prop in H as [H Hr]. apply andb_prop in H as [H Ha]. apply andb_prop in H as [H Hw]. apply andb_prop in H as [H Hz]. apply andb_prop in H as [H Hb].
    apply andb_prop in H as [Hx Hy]. apply String.eqb_eq in Hw, Hy. subst x0 x3.
    destruct (lookup P c a0) as [mb|] eqn:Eb; [|discriminate]. destruct HE as [HL HI']. destruct (HL _ Hx) as [vx Ex]. destruct (HL _ Hz) as [vz Ez].
    assert (F : eval P call (AndE (Cmp CIs (Loc x) (Lit LNone)) (NotE (HasAttr (Loc "self") a0))) rho (O_ at_ t) = (Ok (VBool false), O_ at_ t)).
    { cbn [eval]. rewrite Ex, HS. unfold bind, ret. cbn [lit_val cmp_val ret]. unfold ret. cbn [truth heap].
      destruct (match vx with VNone => true | _ => false end); [|reflexivity]. unfold has_attr, hget, bind. cbn [heap]. rewrite nth_self, Eb. destruct mb; reflexivity. }
    assert (F2 : eval P call (Cmp CIsNot (Loc x2) (Lit LNone)) rho (O_ at_ t) = (Ok (VBool match vz with VNone => false | _ => true end), O_ at_ t)).
    { cbn [eval]. rewrite Ez. reflexivity. }
    destruct (exec_set ck loc ints rho a e at_ t HC (conj HL HI') HS Ha Hr) as (v & t' & _ & _ & E).
    change (exec P call (If ?c ?x ?y) rho) with (bind (eval P call c rho) (fun v s => if truth (heap s) v then run_block (exec P call) x rho s else run_block (exec P call) y rho s)).
    unfold bind at 1. rewrite F. cbn [truth run_block]. unfold bind at 1.
    change (exec P call (If ?c ?x ?y) rho) with (bind (eval P call c rho) (fun v s => if truth (heap s) v then run_block (exec P call) x rho s else run_block (exec P call) y rho s)).
    unfold bind at 1. rewrite F2. cbn [truth run_block]. destruct (match vz with VNone => false | _ => true end).
    + unfold bind. rewrite E. exists (upd a v at_), t'. split; [reflexivity|discriminate].
    + exists at_, []. rewrite app_nil_r. split; [reflexivity|discriminate].
  - exists at_, []. rewrite app_nil_r. split; [reflexivity|auto].
Qed.

Lemma exec_body ck ini loc ints rho b : 
  good_ck ck -> good_ini ini -> env_ok loc ints rho -> assoc "self" rho = Some (VRef (length h0)) -> forallb (stm ck ini c loc ints) b = true ->
  forall at_ t, exists at' t', run_block (exec P call) b rho (O_ at_ t) = (Ok (rho, None), O_ at' (t ++ t')) /\
    forall a, existsb (sets a) b = false -> assoc a at' = assoc a at_.
Proof.
  intros HC HI HE HS. induction b as [|st b IH]; cbn [forallb run_block existsb]; intros H at_ t.
  - exists at_, []. rewrite app_nil_r. split; [reflexivity|auto].
  - apply andb_prop in H as [A B]. destruct (exec_stm ck ini loc ints rho st at_ t HC HI HE HS A) as (at1 & t1 & E & F). unfold bind. rewrite E. cbn [snd fst].
    destruct (IH B at1 (t ++ t1)) as (at2 & t2 & E2 & F2). change (run_block (exec P call)) with (run_block (exec P call)) in E2. rewrite E2.
    exists at2, (t1 ++ t2). rewrite app_assoc. split; [reflexivity|]. intros a Ha. apply orb_false_elim in Ha as [Ha1 Ha2]. now rewrite F2, F.
Qed.

Lemma run_block_app b1 b2 rho s :
  run_block (exec P call) (b1 ++ b2) rho s =
  match run_block (exec P call) b1 rho s with
  | (Ok (rho', None), s') => run_block (exec P call) b2 rho' s'
  | (Ok (rho', Some v), s') => (Ok (rho', Some v), s')
  | (Exc e, s') => (Exc e, s')
  end.
Proof.
  revert rho s. induction b1 as [|st b1 IH]; intros rho s; [reflexivity|]. cbn [app run_block]. unfold bind.
  destruct (exec P call st rho s) as [[[r [v|]]|e] s']; cbn [snd fst]; [reflexivity|apply IH|reflexivity].
Qed.

(** the value that attribute [a] has at the end: that of the last assignment to it *)
Lemma exec_last ck ini loc ints rho b1 a e b2 at_ t :
  good_ck ck -> good_ini ini -> env_ok loc ints rho -> assoc "self" rho = Some (VRef (length h0)) ->
  forallb (stm ck ini c loc ints) (b1 ++ SetAttr (Loc "self") a e :: b2) = true -> existsb (sets a) b2 = false ->
  exists at1 t1 v t2 at' t',
    eval P call e rho (O_ at1 (t ++ t1)) = (Ok v, O_ at1 ((t ++ t1) ++ t2)) /\ shape e rho (h0 ++ HInst c at1 :: t ++ t1) v /\
    run_block (exec P call) (b1 ++ SetAttr (Loc "self") a e :: b2) rho (O_ at_ t) = (Ok (rho, None), O_ at' (((t ++ t1) ++ t2) ++ t')) /\
    assoc a at' = Some v.
Proof.
  intros HC HI HE HS H H2. rewrite forallb_app in H. apply andb_prop in H as [A B]. cbn [forallb] in B. apply andb_prop in B as [B C].
  destruct (exec_body ck ini loc ints rho b1 HC HI HE HS A at_ t) as (at1 & t1 & E1 & _).
  cbn [stm] in B. apply andb_prop in B as [B Br]. apply andb_prop in B as [_ Ba].
  destruct (exec_set ck loc ints rho a e at1 (t ++ t1) HC HE HS Ba Br) as (v & t2 & Ev & Sh & E2).
  destruct (exec_body ck ini loc ints rho b2 HC HI HE HS C (upd a v at1) ((t ++ t1) ++ t2)) as (at' & t' & E3 & F3).
  exists at1, t1, v, t2, at', t'. split; [exact Ev|]. split; [exact Sh|]. split.
  - rewrite run_block_app, E1. cbn [run_block]. unfold bind. rewrite E2. cbn [snd fst]. exact E3.
  - rewrite F3 by exact H2. apply assoc_upd_eq.
Qed.
End Obj.
End Run.

(** ** Soundness of the checker *)
Lemma ctor_of_init i fu o call k :
  (forall c m vs h0 at_ t, init k c m (S (length vs)) = true ->
    exists at' t', call m (VRef (length h0) :: vs) [] (mkst (h0 ++ HInst c at_ :: t) i fu o) = (Ok VNone, mkst (h0 ++ HInst c at' :: t ++ t') i fu o)) ->
  good_ck i fu o call (ctor k).
Proof.
  intros IH c vs h H. unfold ctor in H. apply andb_prop in H as [A B]. apply negb_true_iff in A. cbn [apply]. rewrite A. unfold halloc, bind. cbn [heap irest ifull out].
  destruct (lookup P c "__init__") as [[m|]|]; [|discriminate|].
  - destruct (IH c m vs h [] [] B) as (at' & t' & E). rewrite E. exists at', t'. reflexivity.
  - destruct vs; [|discriminate]. exists [], []. reflexivity.
Qed.

Lemma init_sound i fu o k : forall n c m vs h0 at_ t, (k <= n)%nat -> init k c m (S (length vs)) = true ->
  exists at' t', run P n m (VRef (length h0) :: vs) [] (mkst (h0 ++ HInst c at_ :: t) i fu o) = (Ok VNone, mkst (h0 ++ HInst c at' :: t ++ t') i fu o).
Proof.
  induction k as [|k IH]; intros n c m vs h0 at_ t Hn H; [discriminate|]. destruct n as [|n]; [lia|]. cbn [init] in H.
  apply andb_prop in H as [H B]. apply andb_prop in H as [H S]. cbn [andb] in H. change (Datatypes.S (length vs)) with (length (VRef (length h0) :: vs)) in H, B.
  destruct (binds_ok _ _ H) as (rho & E & HE & HS). destruct (m_params m) as [|[x d] ps] eqn:Ep; [discriminate|]. apply String.eqb_eq in S. subst x.
  assert (HC : good_ck i fu o (run P n) (ctor k)) by (apply ctor_of_init; intros; apply IH; [lia|assumption]).
  assert (HI : good_ini i fu o (run P n) h0 c (init k c)).
  { intros m' vs' at0 t0 H0. destruct (IH n c m' vs' h0 at0 t0 ltac:(lia) H0) as (at' & t' & E'). exists VNone, at', t'. exact E'. }
  destruct (exec_body i fu o (run P n) h0 c (ctor k) (init k c) _ _ rho (m_body m) HC HI HE HS B at_ t) as (at' & t' & E' & _).
  exists at', t'. cbn [run]. rewrite Ep, E. unfold bind, ret. now rewrite E'.
Qed.

Lemma ctor_sound i fu o k n : (k <= n)%nat -> good_ck i fu o (run P n) (ctor k).
Proof. intros H. apply ctor_of_init. intros. now apply init_sound with (k := k). Qed.
Lemma ini_sound i fu o k n h0 c : (k <= n)%nat -> good_ini i fu o (run P n) h0 c (init k c).
Proof. intros H m vs at_ t Hi. destruct (init_sound i fu o k n c m vs h0 at_ t H Hi) as (at' & t' & E). eauto. Qed.
End Ctor.
