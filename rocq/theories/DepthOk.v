(** * Checked code does not run out of stack

    Soundness of the check of DepthCheck.v: with enough room for nested calls, a function that passes it does not end with RecursionError.
    No theorem of this file depends on the translated program. *)
From Coq Require Import ZArith String List Bool Lia PeanoNat.
From Coq Require Import Strings.Byte.
From Verif Require Import Lang Ind Bytes Interp Inv CostCheck DepthCheck.
Import ListNotations.
Open Scope string_scope. Open Scope list_scope. Open Scope nat_scope.

(** the heap only grows and objects keep their class *)
Definition kk (h h' : list hobj) : Prop := forall l o, nth_error h l = Some o -> exists o', nth_error h' l = Some o' /\ kind o' = kind o.
Lemma kk_refl h : kk h h. Proof. intros l o H. eauto. Qed.
Lemma kk_trans a b c : kk a b -> kk b c -> kk a c.
Proof. intros H K l o E. destruct (H _ _ E) as (o' & E' & K'). destruct (K _ _ E') as (o'' & E'' & K''). exists o''. split; congruence. Qed.
Lemma kk_app h o : kk h (h ++ [o]).
Proof. intros l x H. exists x. split; [|reflexivity]. rewrite nth_error_app1; [exact H|]. apply nth_error_Some. congruence. Qed.
Lemma kk_set h l o o' : nth_error h l = Some o -> kind o' = kind o -> kk h (set_nth l o' h).
Proof.
  intros E K m x H. destruct (Nat.eq_dec l m) as [<-|N].
  - exists o'. split; [eapply set_nth_same; eauto|congruence].
  - exists x. split; [now rewrite set_nth_other|reflexivity].
Qed.
Lemma kk_inst h h' l c at_ : kk h h' -> nth_error h l = Some (HInst c at_) -> exists at', nth_error h' l = Some (HInst c at').
Proof. intros K E. destruct (K _ _ E) as ([d at'|] & E' & X); [|discriminate]. injection X as ->. eauto. Qed.

Lemma assoc_in {A} x l (v : A) : assoc x l = Some v -> In (x, v) l.
Proof. induction l as [|[y w] r IH]; simpl; [discriminate|]. destruct (String.eqb x y) eqn:E; [apply String.eqb_eq in E; intros [= ->]; subst; auto|auto]. Qed.
Lemma upd_eq {A} x (v : A) l : assoc x (upd x v l) = Some v.
Proof. induction l as [|[y w] r IH]; simpl; [now rewrite String.eqb_refl|]. destruct (String.eqb x y) eqn:E; simpl; rewrite E; auto. Qed.
Lemma upd_ne {A} x y (v : A) l : x <> y -> assoc y (upd x v l) = assoc y l.
Proof.
  intros N. induction l as [|[z w] r IH]; simpl.
  - destruct (String.eqb y x) eqn:E; [apply String.eqb_eq in E; congruence|reflexivity].
  - destruct (String.eqb x z) eqn:E; simpl.
    + apply String.eqb_eq in E. subst z. destruct (String.eqb y x) eqn:E; [apply String.eqb_eq in E; congruence|reflexivity].
    + destruct (String.eqb y z); auto.
Qed.
Lemma memb_In x l : memb x l = true -> In x l.
Proof. unfold memb. intros H. apply existsb_exists in H. destruct H as (y & H & E). apply String.eqb_eq in E. now subst. Qed.
Lemma In_memb x l : In x l -> memb x l = true.
Proof. intros H. apply existsb_exists. exists x. split; [exact H|apply String.eqb_refl]. Qed.
Lemma nodupb_ok l : nodupb l = true -> NoDup l.
Proof. induction l as [|x r IH]; simpl; [constructor|]. intros H. apply andb_prop in H. destruct H as [A B]. constructor; [|auto]. intros I. rewrite (In_memb _ _ I) in A. discriminate. Qed.
Lemma after_app C p r : ~ In C p -> after C (p ++ C :: r) = Some r.
Proof.
  induction p as [|x p IH]; simpl; intros N; [now rewrite String.eqb_refl|]. destruct (String.eqb C x) eqn:E; [apply String.eqb_eq in E; subst; exfalso; auto|]. apply IH. tauto.
Qed.

Section Sound.
Variable P : prog.
Variables rank frank : string -> nat.
Variables TOP B L : nat.
Variable lev : string -> option nat.
Variable slow : list string.
(** what was in memory before, below this position, is left alone *)
Variable base : nat.
Hypothesis HT : forall c, rank c < TOP.
Hypothesis HOK : ok_depth P rank frank TOP B L lev slow = true.

(** a value is an instance of rank below [i], a class of rank below [c], or neither (or anything at all, if [i] is [TOP]) *)
Definition vr (h : list hobj) (i c : nat) (v : val) : Prop :=
  TOP <= i \/
  match v with
  | VRef l => match nth_error h l with Some (HInst d _) => base <= l /\ rank d < i | Some (HList _) => True | None => False end
  | VClass d => rank d < c
  | VUnkSV _ => rank "UnknownStandardVariableRecord" < c
  | VFun _ | VTuple _ => False
  | _ => True
  end.
Definition hok (h : list hobj) : Prop :=
  base <= length h /\
  forall l d at_, base <= l -> nth_error h l = Some (HInst d at_) -> forall a v, assoc a at_ = Some v -> vr h (rank d) 0 v.

Lemma vr_kk h h' i c v : kk h h' -> vr h i c v -> vr h' i c v.
Proof.
  intros K [H|H]; [now left|right]. destruct v; auto. destruct (nth_error h l) as [o|] eqn:E; [|contradiction].
  destruct (K _ _ E) as (o' & E' & X). rewrite E'. destruct o, o'; simpl in X; try discriminate; auto. injection X as ->. exact H.
Qed.
Lemma vr_le h i i' c c' v : i <= i' -> c <= c' -> vr h i c v -> vr h i' c' v.
Proof.
  intros I C [H|H]; [left; lia|right]. destruct v; auto; try lia. destruct (nth_error h l) as [[]|]; auto. destruct H. split; [auto|lia].
Qed.
Lemma vr0 h i c v : vr h 0 0 v -> vr h i c v. Proof. apply vr_le; lia. Qed.
Lemma vr_top h i c v : TOP <= i -> vr h i c v. Proof. now left. Qed.

(** [m] run from [s] does not end with RecursionError, and if it succeeds then [ok] holds *)
Definition tj {A} (ok : A -> st -> Prop) (m : M A) (s : st) : Prop :=
  hok (heap s) ->
  match m s with
  | (Ok a, s') => hok (heap s') /\ kk (heap s) (heap s') /\ ok a s'
  | (Exc e, _) => e <> RecursionError
  end.
Lemma tj_bind {A C} ok1 ok2 (m : M A) (f : A -> M C) s : tj ok1 m s -> (forall a s', kk (heap s) (heap s') -> ok1 a s' -> tj ok2 (f a) s') -> tj ok2 (bind m f) s.
Proof.
  intros H F I. specialize (H I). unfold bind. destruct (m s) as [[a|e] s1]; [|exact H]. destruct H as (H1 & H2 & H3). specialize (F a s1 H2 H3 H1).
  destruct (f a s1) as [[b|e] s2]; [|exact F]. destruct F as (F1 & F2 & F3). split; [exact F1|]. split; [eapply kk_trans; eauto|exact F3].
Qed.
Lemma tj_ret {A} (a : A) (ok : A -> st -> Prop) s : ok a s -> tj ok (ret a) s.
Proof. intros H I. simpl. split; [exact I|]. split; [apply kk_refl|exact H]. Qed.
Lemma tj_raise {A} e (ok : A -> st -> Prop) s : e <> RecursionError -> tj ok (raise e) s.
Proof. intros H I. exact H. Qed.
Lemma tj_weak {A} (ok ok' : A -> st -> Prop) m s : tj ok m s -> (forall a s', kk (heap s) (heap s') -> ok a s' -> ok' a s') -> tj ok' m s.
Proof. intros H W I. specialize (H I). destruct (m s) as [[a|e] s']; [|exact H]. destruct H as (H1 & H2 & H3). auto. Qed.
Lemma tj_if {A} (c : st -> bool) ok (a b : M A) s : tj ok a s -> tj ok b s -> tj ok (fun s => if c s then a s else b s) s.
Proof. intros Ha Hb I. cbv beta. destruct (c s); [apply Ha|apply Hb]; exact I. Qed.

(** what does not touch the heap *)
Definition pr {A} (m : M A) (ok : A -> Prop) : Prop := forall s, match m s with (Ok a, s') => heap s' = heap s /\ ok a | (Exc e, _) => e <> RecursionError end.
Lemma tj_pr {A} (m : M A) (ok0 : A -> Prop) (ok : A -> st -> Prop) s : pr m ok0 -> (forall a s', heap s' = heap s -> ok0 a -> ok a s') -> tj ok m s.
Proof. intros H W I. specialize (H s). destruct (m s) as [[a|e] s']; [|exact H]. destruct H as [E H]. specialize (W _ _ E H). rewrite E. split; [exact I|]. split; [apply kk_refl|exact W]. Qed.

Lemma hok_app h o : hok h -> match o with HInst d at_ => forall a v, assoc a at_ = Some v -> vr h (rank d) 0 v | HList _ => True end -> hok (h ++ [o]).
Proof.
  intros [Hb H] Ho. split; [rewrite app_length; lia|]. intros l d at_ Bl E a v Ea. apply (vr_kk h); [apply kk_app|].
  destruct (Nat.lt_ge_cases l (length h)) as [X|X].
  - rewrite nth_error_app1 in E by exact X. eauto.
  - rewrite nth_error_app2 in E by exact X. destruct (l - length h) as [|[|]]; simpl in E; try discriminate. injection E as ->. eauto.
Qed.
Lemma hok_set h l o o' : hok h -> nth_error h l = Some o -> kind o' = kind o ->
  match o' with HInst d at_ => base <= l -> forall a v, assoc a at_ = Some v -> vr h (rank d) 0 v | HList _ => True end -> hok (set_nth l o' h).
Proof.
  intros [Hb H] E K Ho. split; [rewrite set_nth_length; exact Hb|]. intros m d at_ Bm Em a v Ea. apply (vr_kk h); [eapply kk_set; eauto|].
  destruct (Nat.eq_dec l m) as [<-|N].
  - rewrite (set_nth_same _ _ _ _ E) in Em. injection Em as ->. eauto.
  - rewrite set_nth_other in Em by exact N. eauto.
Qed.

Lemma tj_list vs s : tj (fun v s' => vr (heap s') 0 0 v) (halloc (HList vs)) s.
Proof.
  intros I. simpl. split; [apply hok_app; auto|]. split; [apply kk_app|]. right. rewrite nth_error_app2, Nat.sub_diag by lia. exact Logic.I.
Qed.

(** ** Primitive operations *)
Ltac prs := repeat first
  [ match goal with |- pr (ret _) _ => intros ?; simpl; split; [reflexivity|] end
  | match goal with |- pr (raise _) _ => intros ?; simpl; discriminate end
  | match goal with |- pr (match ?x with _ => _ end) _ => destruct x eqn:? end
  | match goal with |- pr (if ?x then _ else _) _ => destruct x eqn:? end ].
Lemma pr_bind {A C} (m : M A) (f : A -> M C) ok1 ok2 : pr m ok1 -> (forall a, ok1 a -> pr (f a) ok2) -> pr (bind m f) ok2.
Proof.
  intros H F s. specialize (H s). unfold bind. destruct (m s) as [[a|e] s1]; [|exact H]. destruct H as [E H]. specialize (F a H s1). destruct (f a s1) as [[b|e] s2]; [|exact F]. destruct F. split; [congruence|auto].
Qed.
Lemma pr_weak {A} (m : M A) (ok ok' : A -> Prop) : pr m ok -> (forall a, ok a -> ok' a) -> pr m ok'.
Proof. intros H W s. specialize (H s). destruct (m s) as [[a|e] s1]; [|exact H]. destruct H. auto. Qed.
Lemma pr_hget l : pr (hget l) (fun _ => True). Proof. intros s. simpl. auto. Qed.
(** neither an object nor a class *)
Definition scalar (v : val) : Prop := match v with VRef _ | VClass _ | VUnkSV _ | VFun _ | VTuple _ => False | _ => True end.
Lemma vr_scalar h i c v : scalar v -> vr h i c v.
Proof. intros H. right. destruct v; simpl in *; auto; contradiction. Qed.
Lemma lit_scalar l : scalar (lit_val l). Proof. destruct l; exact Logic.I. Qed.
Definition Q0 (v : val) (s : st) : Prop := vr (heap s) 0 0 v.
Lemma tj_scalar (m : M val) s : pr m scalar -> tj Q0 m s.
Proof. intros H. eapply tj_pr; [exact H|]. intros. now apply vr_scalar. Qed.
Lemma tj_any {A} (m : M A) s : pr m (fun _ => True) -> tj (fun _ _ => True) m s.
Proof. intros H. eapply tj_pr; [exact H|]. auto. Qed.

Lemma t_cmp o a b s : tj Q0 (cmp_val o a b) s.
Proof. apply tj_scalar. unfold cmp_val. destruct o; prs; exact Logic.I. Qed.
Lemma t_binop o a b s : tj Q0 (binop_val o a b) s.
Proof.
  unfold binop_val. destruct (as_int a) as [x|]; [destruct (as_int b) as [y|]|].
  1: apply tj_scalar; destruct o; prs; exact Logic.I.
  all: destruct o; try (apply tj_scalar; prs; fail).
  all: destruct a; try (apply tj_scalar; prs; fail); destruct (as_int b); try (apply tj_scalar; prs; fail).
  all: eapply tj_bind; [apply tj_any, pr_hget|]; intros [[?|vs]|] s' _ _; try (apply tj_raise; discriminate); apply tj_list.
Qed.
Lemma pr_iter v : pr (iter_vals v) (fun _ => True).
Proof. destruct v; simpl; prs; auto. eapply pr_bind; [apply pr_hget|]. intros [[]|] _; prs; auto. Qed.
Lemma pr_nth l i (ok : val -> Prop) : Forall ok l -> pr (nth_val l i) ok.
Proof. intros H. unfold nth_val. prs. eapply Forall_forall; [exact H|]. eapply nth_error_In; eauto. Qed.
Lemma pr_sub v i : pr (sub_val v i) (fun _ => True).
Proof.
  assert (X : forall l k, pr (nth_val l k) (fun _ => True)) by (intros l k; apply pr_nth, Forall_forall; auto).
  destruct v; simpl; prs; auto. eapply pr_bind; [apply pr_hget|]. intros [[]|] _; prs; auto.
Qed.
Lemma t_set_sub v i x s : tj (fun _ _ => True) (set_sub v i x) s.
Proof.
  destruct v; try (apply tj_raise; discriminate). intros I. simpl. unfold bind, hget. destruct (nth_error (heap s) l) as [[|vs]|] eqn:E; try discriminate.
  destruct (as_int i) as [k|]; [|discriminate]. destruct (py_index k (length vs)) as [n|]; [|discriminate]. simpl. split; [eapply hok_set; eauto|]. split; [eapply kk_set; eauto|auto].
Qed.
Local Opaque find_fcode fcodes.
Lemma pr_unpack args : pr (builtin_val BUnpack args) (fun v => exists x, v = VTuple [x] /\ scalar x).
Proof.
  destruct args as [|[] [|[] [|]]]; simpl; prs. unfold unpack in *. destruct (Nat.eqb (length l) (fwidth f)); [|discriminate].
  match goal with H : inl _ = inl _ |- _ => injection H as <- end. eexists. split; [reflexivity|]. destruct f; exact Logic.I.
  unfold unpack in *. destruct (Nat.eqb (length l) (fwidth f)); [discriminate|]. match goal with H : inr _ = inr _ |- _ => injection H as <- end. intros ?; discriminate.
Qed.
Lemma pack_exn h c v e : pack h c v = inr e -> e <> RecursionError.
Proof. unfold pack, pack_int. intros H. destruct c, v; repeat match type of H with context [match ?x with _ => _ end] => destruct x end; try discriminate; injection H as <-; discriminate. Qed.
Lemma bytes_of_exn vs e : bytes_of vs = inr e -> e <> RecursionError.
Proof.
  revert e. unfold bytes_of. induction vs as [|v r IH]; intros e; cbn [fold_right]; [discriminate|]. destruct (as_int v); [|intros [= <-]; discriminate].
  destruct ((0 <=? z)%Z && (z <? 256)%Z); [|intros [= <-]; discriminate]. destruct (fold_right _ _ r); [discriminate|]. intros [= <-]. now apply IH.
Qed.
Lemma pr_bytes v : pr (vs <- iter_vals v ;; match bytes_of vs with inl l => ret (VBytes l) | inr e => raise e end) scalar.
Proof.
  eapply pr_bind; [apply pr_iter|]. intros vs _. pose proof (bytes_of_exn vs) as X. destruct (bytes_of vs) as [l|e]; intros s; simpl; [split; [reflexivity|exact Logic.I]|].
  now apply X.
Qed.
(** what a builtin function returns *)
Lemma t_builtin b args s : tj (fun v s' => match b with BUnpack | BFilterNone => True | _ => Q0 v s' end) (builtin_val b args) s.
Proof.
  destruct b.
  all: try (eapply tj_weak; [apply tj_any, (pr_weak _ _ _ (pr_unpack args)); auto|auto]; fail).
  all: cbn [builtin_val].
  all: try (apply tj_scalar; prs; try exact Logic.I;
            try (eapply pr_bind; [apply pr_hget|]; intros [[]|] _; prs; exact Logic.I);
            try (intros ?; simpl; split; [reflexivity|exact Logic.I]);
            try apply pr_bytes;
            try (intros s0; destruct (pack (heap s0) _ _) eqn:Ep; [split; [reflexivity|exact Logic.I]|eapply pack_exn; eauto]); fail).
  - destruct args as [|a [|]]; try (apply tj_raise; discriminate). eapply tj_bind; [apply tj_any, pr_iter|]. intros vs s' _ _. apply tj_list.
  - apply tj_any. destruct args as [|a [|]]; prs. eapply pr_bind; [apply pr_iter|]. intros vs _ s0. simpl. auto.
Qed.
Lemma pr_has_attr v a : pr (has_attr P v a) scalar.
Proof. destruct v; simpl; prs. eapply pr_bind; [apply pr_hget|]. intros [[]|] _; prs; exact Logic.I. Qed.

(** ** What the check says about the program *)
Ltac andbs := repeat match goal with H : _ && _ = true |- _ => apply andb_prop in H; destruct H end.
Lemma lookup_in_at cs nm x : lookup_in P cs nm = Some x -> exists q C post kl, cs = q ++ C :: post /\ get_cls P C = Some kl /\ assoc nm (c_members kl) = Some x.
Proof.
  induction cs as [|c r IH]; simpl; [discriminate|]. destruct (get_cls P c) as [kl|] eqn:G; [destruct (assoc nm (c_members kl)) as [y|] eqn:A|].
  - intros [= ->]. now exists [], c, r, kl.
  - intros H. destruct (IH H) as (q & C & post & k' & -> & H2 & H3). now exists (c :: q), C, post, k'.
  - intros H. destruct (IH H) as (q & C & post & k' & -> & H2 & H3). now exists (c :: q), C, post, k'.
Qed.
Lemma facts :
  (forall x, In x ["parse"; "__init__"; "serialize"] -> lev x = None) /\
  (exists j, lev "read_bytes" = Some j /\ j < B) /\
  (forall C kl nm x, get_cls P C = Some kl -> assoc nm (c_members kl) = Some x -> ok_mem P rank frank TOP B lev slow C nm x = true) /\
  (forall C, length (mro P C) <= L /\ NoDup (mro P C) /\ forall D, In D (mro P C) -> rank D <= rank C) /\
  (forall g m, assoc g (p_funs P) = Some m -> ok_fun P rank frank TOP B lev slow g m = true) /\
  (forall z c, zassoc z variableRecordClasses = Some c -> rank c < frank "getStandardVariableClass") /\
  rank "UnknownStandardVariableRecord" < frank "getStandardVariableClass" /\ frank "getStandardVariableClass" < TOP /\ 0 < L /\ 0 < B /\
  (no_method P "DataInputStream" "parse" = true /\ no_method P "DataOutputStream" "parse" = true).
Proof.
  pose proof HOK as H. unfold ok_depth in H. andbs.
  repeat match goal with H : forallb _ _ = true |- _ => rewrite forallb_forall in H end.
  repeat match goal with H : (_ <? _) = true |- _ => apply Nat.ltb_lt in H end.
  split. { intros x Hx. match goal with H : forall x, In x ["parse"; _; _] -> _ |- _ => specialize (H _ Hx) end. unfold no_lev in *. destruct (lev x); [discriminate|reflexivity]. }
  split. { destruct (lev "read_bytes") as [j|]; [|discriminate]. exists j. split; [reflexivity|]. now apply Nat.ltb_lt. }
  assert (X : forall C kl, get_cls P C = Some kl -> ok_class P rank TOP L C = true /\ forall q, In q (c_members kl) -> ok_mem P rank frank TOP B lev slow C (fst q) (snd q) = true).
  { intros C kl G. match goal with H : forall x, In x (p_classes P) -> _ |- _ => specialize (H _ (assoc_in _ _ _ G)) end. simpl in *. andbs. split; [assumption|]. now apply forallb_forall. }
  split. { intros C kl nm x G A. destruct (X _ _ G) as [_ Y]. apply (Y (nm, x)). now apply assoc_in. }
  split. { intros C. destruct (get_cls P C) as [kl|] eqn:G.
    - destruct (X _ _ G) as [Y _]. unfold ok_class in Y. andbs. split; [now apply Nat.leb_le|]. split; [now apply nodupb_ok|]. intros D HD. match goal with H : forallb _ _ = true |- _ => rewrite forallb_forall in H; specialize (H _ HD) end. now apply Nat.leb_le.
    - unfold mro. rewrite G. split; [simpl; lia|]. split; [constructor|]. intros D []. }
  split. { intros g m A. match goal with H : forall x, In x (p_funs P) -> _ |- _ => apply (H (g, m)) end. now apply assoc_in. }
  assert (V : forall c, In c ("UnknownStandardVariableRecord" :: map snd variableRecordClasses) -> rank c < frank "getStandardVariableClass").
  { intros c Hc. match goal with H : forall x, In x (_ :: map snd variableRecordClasses) -> _ |- _ => specialize (H _ Hc) end. now apply Nat.ltb_lt. }
  split. { intros z c A. apply V. right. apply (in_map snd _ (z, c)). clear -A. induction variableRecordClasses as [|[y w] r IH]; simpl in *; [discriminate|].
    destruct (z =? y)%Z eqn:E; [apply Z.eqb_eq in E; injection A as ->; subst; auto|auto]. }
  split; [apply V; left; reflexivity|]. split; [assumption|]. split; [assumption|]. split; [assumption|]. split; assumption.
Qed.

Lemma mem_facts cs nm m : lookup_in P cs nm = Some (MMeth m) ->
  (m_kind m = KProperty -> lev nm = None -> memb nm slow = true) /\ (nm = "parse" \/ nm = "__init__" -> m_kind m = KNormal).
Proof.
  intros H. destruct (lookup_in_at _ _ _ H) as (q & C & post & kl & _ & G & A). destruct facts as (_ & _ & F & _). specialize (F _ _ _ _ G A). unfold ok_mem in F.
  apply andb_prop in F. destruct F as [F F3]. apply andb_prop in F. destruct F as [F1 F2]. split.
  - intros K N. rewrite N, K in F3. exact F3.
  - intros [->| ->]; [unfold ok_parse in F1|unfold ok_init in F2]; simpl in *; andbs; unfold nml in *; destruct (m_kind m); congruence.
Qed.
Lemma pr_resolve v m : pr (resolve P v m) (fun c =>
  match c with
  | KMeth k pre => (exists cs, lookup_in P cs m = Some (MMeth k))
  | KNewBits _ => True
  | KNative v' m' => v' = v /\ m' = m
  | _ => False
  end).
Proof.
  destruct v; simpl; prs; auto; try (eexists; eassumption).
  eapply pr_bind; [apply pr_hget|]. intros [[c at_|]|] _; prs; auto; eexists; eassumption.
Qed.

(** ** The body of a function *)
Section Body.
Variable call : meth -> list val -> list string -> M val.
Variable deep : bool.
Variable selfC : option string.
Variables k r : nat.
Variable G : string -> bnd.
(** the class of self, and its rank *)
Variable sd : string.
Variable R : nat.
Hypothesis HrR : r <= R.
Hypothesis HRT : R < TOP.
Hypothesis Hself : forall C, selfC = Some C -> R = rank sd /\ In C (mro P sd) /\ exists rest, after C (mro P sd) = Some rest.
Hypothesis Cs : forall nm j cs m args kws s, lev nm = Some j -> j < k -> lookup_in P cs nm = Some (MMeth m) -> tj Q0 (call m args kws) s.
Hypothesis Cb : deep = true -> forall m args kws ok s, bind_args (m_params m) args kws = None -> tj ok (call m args kws) s.
Hypothesis Cd : deep = true -> forall nm d rest m l args kws s, nm = "parse" \/ nm = "__init__" /\ Forall (fun v => Q0 v s) args ->
  (exists pre, mro P d = pre ++ rest) -> lookup_in P rest nm = Some (MMeth m) -> base <= l -> (exists at_, nth_error (heap s) l = Some (HInst d at_)) ->
  length kws <= length args -> (rank d < R /\ rest = mro P d) \/ (exists C, selfC = Some C /\ d = sd /\ after C (mro P sd) = Some rest) ->
  tj Q0 (call m (VRef l :: args) kws) s.
Hypothesis Cf : deep = true -> forall g m args kws s, assoc g (p_funs P) = Some m -> frank g < R -> tj (fun v s' => vr (heap s') (frank g) 0 v) (call m args kws) s.
Hypothesis Cr : deep = true -> exists j, lev "read_bytes" = Some j /\ j < k.

Notation bn := (bn P rank frank TOP selfC G).
Notation ck := (ck P rank frank TOP lev slow deep selfC k r G).
Definition bi (b : bnd) : nat := Nat.max (b_inst b) (if b_self b then R else 0).
Definition vb (b : bnd) (v : val) (s : st) : Prop := vr (heap s) (bi b) (b_cls b) v.
Definition renv (rho : env) (h : list hobj) : Prop :=
  (forall x v, assoc x rho = Some v -> vr h (bi (G x)) (b_cls (G x)) v) /\
  match selfC with
  | Some _ => exists l, assoc "self" rho = Some (VRef l) /\ base <= l /\ exists at_, nth_error h l = Some (HInst sd at_)
  | None => True
  end.
Lemma renv_kk rho h h' : kk h h' -> renv rho h -> renv rho h'.
Proof.
  intros K [H1 H2]. split; [intros x v E; eapply vr_kk; eauto|]. destruct selfC; [|exact Logic.I]. destruct H2 as (l & A & Bl & at_ & E). exists l. split; [exact A|]. split; [exact Bl|].
  eapply kk_inst; eauto.
Qed.
Lemma vb_kk b v s s' : kk (heap s) (heap s') -> vb b v s -> vb b v s'.
Proof. apply vr_kk. Qed.
Lemma Q0_kk v s s' : kk (heap s) (heap s') -> Q0 v s -> Q0 v s'.
Proof. apply vr_kk. Qed.
Lemma vb_join1 a b v s : vb a v s -> vb (bjoin a b) v s.
Proof. apply vr_le; unfold bi, bjoin; cbn [b_inst b_self b_cls]; destruct (b_self a), (b_self b); simpl; lia. Qed.
Lemma vb_join2 a b v s : vb b v s -> vb (bjoin a b) v s.
Proof. apply vr_le; unfold bi, bjoin; cbn [b_inst b_self b_cls]; destruct (b_self a), (b_self b); simpl; lia. Qed.
Lemma ble_ok a b v s : ble TOP a b = true -> vb a v s -> vb b v s.
Proof.
  unfold ble, vb, bi. intros H V. apply orb_prop in H. destruct H as [H|H]; [left; apply Nat.leb_le in H; lia|]. andbs.
  repeat match goal with H : (_ <=? _) = true |- _ => apply Nat.leb_le in H end. eapply vr_le; [| |exact V]; [|lia]. destruct (b_self a), (b_self b); simpl in *; try discriminate; lia.
Qed.
Lemma isz_ok b v s : isz b = true -> vb b v s -> Q0 v s.
Proof.
  unfold isz, vb, bi, Q0. intros H V. andbs. repeat match goal with H : (_ =? _) = true |- _ => apply Nat.eqb_eq in H end.
  destruct (b_self b); [discriminate|]. eapply vr_le; [| |exact V]; lia.
Qed.
Lemma selfe_ok e : selfe selfC e = true -> e = Loc "self" /\ exists C, selfC = Some C.
Proof. unfold selfe. destruct selfC; [|discriminate]. destruct e; try discriminate. intros E. apply String.eqb_eq in E. subst. eauto. Qed.

(** attributes *)
Lemma t_attr v a i c s : vr (heap s) i c v -> negb (memb a slow) && match lev a with Some j => j <? k | None => true end = true ->
  tj (fun x s' => vr (heap s') i 0 x) (get_attr P call v a) s.
Proof.
  intros V H. apply andb_prop in H. destruct H as [H1 H2].
  assert (S : forall (m : M val), pr m scalar -> tj (fun x s' => vr (heap s') i 0 x) m s) by (intros m X; eapply tj_weak; [apply tj_scalar, X|]; intros; now apply vr0).
  destruct v; try (apply S; simpl; prs; try exact Logic.I; apply lit_scalar).
  intros I. simpl. unfold bind, hget. destruct (nth_error (heap s) l) as [[d at_|]|] eqn:E; try discriminate.
  assert (W : forall x, assoc a at_ = Some x -> vr (heap s) i 0 x).
  { intros x Ea. destruct V as [V|V]; [now left|]. simpl in V. rewrite E in V. destruct V as [V1 V2]. eapply vr_le; [| |eapply (proj2 I); eauto]; lia. }
  destruct (lookup P d a) as [[m|li]|] eqn:Lk.
  - destruct (mem_facts _ _ _ Lk) as [F _]. destruct (m_kind m) eqn:Km; try (destruct (assoc a at_) eqn:Ea; [split; [exact I|]; split; [apply kk_refl|auto]|discriminate]).
    destruct (lev a) as [j|] eqn:La.
    + apply Nat.ltb_lt in H2. pose proof (Cs a j _ m [VRef l] [] s La H2 Lk I) as X. destruct (call m [VRef l] [] s) as [[x|e] s']; [|exact X]. destruct X as (X1 & X2 & X3). split; [exact X1|]. split; [exact X2|]. now apply vr0.
    + rewrite (F eq_refl eq_refl) in H1. discriminate.
  - destruct (assoc a at_) eqn:Ea; simpl; (split; [exact I|]; split; [apply kk_refl|auto]). apply vr_scalar, lit_scalar.
  - destruct (assoc a at_) eqn:Ea; [|discriminate]. split; [exact I|]; split; [apply kk_refl|auto].
Qed.
Lemma t_attr_self l a at_ C s : selfC = Some C -> base <= l -> nth_error (heap s) l = Some (HInst sd at_) -> plain_attr P C a = true ->
  tj (fun x s' => vr (heap s') R 0 x) (get_attr P call (VRef l) a) s.
Proof.
  intros HC Bl E H I. simpl. unfold bind, hget. rewrite E. destruct (Hself _ HC) as (HR & HI & _).
  assert (W : forall x, assoc a at_ = Some x -> vr (heap s) R 0 x) by (intros x Ea; rewrite HR; eapply (proj2 I); eauto).
  assert (NP : forall m, lookup P sd a = Some (MMeth m) -> m_kind m <> KProperty).
  { intros m Lk Km. unfold plain_attr in H. rewrite forallb_forall in H. unfold lookup in Lk. unfold mro in *. destruct (get_cls P sd) as [kl|] eqn:Gs; [|discriminate].
    specialize (H _ (assoc_in _ _ _ Gs)). simpl in H. unfold mro, lookup in H. rewrite Gs in H. rewrite (In_memb _ _ HI) in H. simpl in H. unfold mro in H. rewrite Gs, Lk, Km in H. discriminate. }
  destruct (lookup P sd a) as [[m|li]|] eqn:Lk.
  - specialize (NP _ eq_refl). destruct (m_kind m); try contradiction; (destruct (assoc a at_) eqn:Ea; [split; [exact I|]; split; [apply kk_refl|auto]|discriminate]).
  - destruct (assoc a at_) eqn:Ea; simpl; (split; [exact I|]; split; [apply kk_refl|auto]). apply vr_scalar, lit_scalar.
  - destruct (assoc a at_) eqn:Ea; [|discriminate]. split; [exact I|]; split; [apply kk_refl|auto].
Qed.

(** calls *)
Lemma t_bits fs args kws s : tj Q0 (apply P call (KNewBits fs) args kws) s.
Proof. apply tj_scalar. simpl. prs. exact Logic.I. Qed.
Lemma t_native v m args s : m <> "serialize" -> (m = "parse" -> deep = true) -> tj Q0 (native P call v m args) s.
Proof.
  intros H1 H2. destruct v; simpl; try (apply tj_scalar; prs; exact Logic.I).
  - destruct args as [|x [|]]; try (apply tj_raise; discriminate). intros I. unfold bind, hget. destruct (nth_error (heap s) l) as [[|vs]|] eqn:E; try discriminate. simpl.
    split; [eapply hok_set; eauto|]. split; [eapply kk_set; eauto|]. now apply vr_scalar.
  - destruct args as [|x [|]]; try (apply tj_raise; discriminate). apply tj_scalar. destruct x; prs; intros ?; simpl; try (split; [reflexivity|exact Logic.I]); discriminate.
  - destruct args as [|[] [|]]; try (apply tj_raise; discriminate). apply tj_scalar. intros ?; simpl; split; [reflexivity|exact Logic.I].
  - destruct args as [|x [|]]; try (apply tj_scalar; prs; exact Logic.I). destruct (String.eqb m "parse") eqn:Em; [|apply tj_raise; discriminate]. apply String.eqb_eq in Em.
    eapply tj_bind; [eapply tj_pr with (ok := fun c _ => match c with KMeth k pre => exists cs, lookup_in P cs "read_bytes" = Some (MMeth k) | _ => True end); [apply pr_resolve|]|].
    + intros c s' _. destruct c; auto.
    + intros c s' _ Hc. destruct c; try (apply tj_raise; discriminate). destruct Hc as [cs Lk]. destruct (Cr (H2 Em)) as (j & Hj & Hk).
      eapply tj_bind; [eapply Cs; eauto|]. intros x0 s2 _ _. apply tj_scalar. prs. exact Logic.I.
  - destruct args as [|x [|]]; try (apply tj_scalar; prs; exact Logic.I). destruct (String.eqb m "serialize") eqn:Em; [apply String.eqb_eq in Em; contradiction|apply tj_raise; discriminate].
Qed.
Lemma t_new d attrs args kws s : deep = true -> rank d < R -> (forall a v, assoc a attrs = Some v -> scalar v) -> Forall (fun v => Q0 v s) args -> length kws <= length args ->
  tj (fun v s' => forall i, rank d < i -> vr (heap s') i 0 v) (apply P call (KNew d attrs) args kws) s.
Proof.
  intros Hd Hr Ha Hv Hk. cbn [apply]. destruct (is_abstract P d); [apply tj_raise; discriminate|].
  eapply tj_bind with (ok1 := fun v s' => exists l at_, v = VRef l /\ base <= l /\ nth_error (heap s') l = Some (HInst d at_)).
  { intros I. simpl. split; [apply hok_app; auto; intros a v E; apply vr_scalar; eauto|]. split; [apply kk_app|]. exists (length (heap s)), attrs. split; [reflexivity|]. split; [apply (proj1 I)|].
    now rewrite nth_error_app2, Nat.sub_diag by lia. }
  intros o s1 K1 (l & at_ & -> & Bl & E).
  assert (Ret : forall s2, kk (heap s1) (heap s2) -> forall i, rank d < i -> vr (heap s2) i 0 (VRef l)).
  { intros s2 K2 i Hi. right. destruct (kk_inst _ _ _ _ _ K2 E) as (at' & E'). simpl. rewrite E'. auto. }
  destruct (lookup P d "__init__") as [[m|]|] eqn:Lk; [| |].
  - eapply tj_bind; [eapply (Cd Hd "__init__" d (mro P d) m l args kws)|].
    + right. split; [reflexivity|]. eapply Forall_impl; [|exact Hv]. intros v X. eapply Q0_kk; eauto.
    + now exists [].
    + exact Lk.
    + exact Bl.
    + eauto.
    + exact Hk.
    + now left.
    + intros x s2 K2 _. apply tj_ret. auto.
  - apply tj_raise; discriminate.
  - destruct args; [apply tj_ret; intros; apply Ret; [apply kk_refl|assumption]|apply tj_raise; discriminate].
Qed.
(** v.parse(...) *)
Lemma t_parse v args kws s i : deep = true -> i <= R -> vr (heap s) i 0 v -> length kws <= length args ->
  tj (fun c s1 => forall s', kk (heap s1) (heap s') -> tj Q0 (apply P call c args kws) s') (resolve P v "parse") s.
Proof.
  intros Hd Hi V Hk. destruct V as [V|V]; [lia|].
  destruct v; simpl in V; try contradiction; try lia; try (apply tj_raise; discriminate).
  - intros I. simpl. unfold bind, hget. destruct (nth_error (heap s) l) as [[d at_|]|] eqn:E; try discriminate.
    destruct V as [V1 V2]. destruct (lookup P d "parse") as [[m|li]|] eqn:Lk.
    + destruct (mem_facts _ _ _ Lk) as [_ F]. rewrite (F (or_introl eq_refl)). simpl. split; [exact I|]. split; [apply kk_refl|]. intros s' K. simpl.
      eapply (Cd Hd "parse" d (mro P d)); eauto; [now exists []|eapply kk_inst; eauto|]. left. split; [lia|reflexivity].
    + destruct li; simpl; try discriminate. split; [exact I|]. split; [apply kk_refl|]. intros s' K. apply (t_bits fs args kws).
    + destruct (assoc "parse" at_); discriminate.
  - destruct facts as (_ & _ & _ & _ & _ & _ & _ & _ & _ & _ & (F & _)). unfold no_method in F. unfold resolve. destruct (lookup P "DataInputStream" "parse") as [[]|]; try discriminate; apply tj_raise; discriminate.
  - destruct facts as (_ & _ & _ & _ & _ & _ & _ & _ & _ & _ & (_ & F)). unfold no_method in F. unfold resolve. destruct (lookup P "DataOutputStream" "parse") as [[]|]; try discriminate; apply tj_raise; discriminate.
  - apply tj_ret. intros s' _. cbn [apply]. destruct kws; [|apply tj_raise; discriminate]. apply t_native; [discriminate|auto].
Qed.

Definition teval (e : expr) : Prop := ck e = true -> forall rho s, renv rho (heap s) ->
  tj (fun v s' => vb (bn e) v s' /\ match e with Builtin BUnpack _ => exists x, v = VTuple [x] /\ scalar x | _ => True end) (eval P call e rho) s.
Lemma teval_vb e : teval e -> ck e = true -> forall rho s, renv rho (heap s) -> tj (vb (bn e)) (eval P call e rho) s.
Proof. intros H C rho s HR. eapply tj_weak; [apply H; eauto|]. intros v s' _ [X _]. exact X. Qed.
Lemma t_args args : Forall teval args -> forallb ck args = true -> forall rho s, renv rho (heap s) ->
  tj (fun vs s' => length vs = length args /\ (forallb (fun e => isz (bn e)) args = true -> Forall (fun v => Q0 v s') vs)) (eval_list (eval P call) args rho) s.
Proof.
  induction 1 as [|e es He _ IH]; intros H rho s HR; cbn [eval_list].
  - apply tj_ret. split; [reflexivity|constructor].
  - cbn [forallb] in H. apply andb_prop in H. destruct H as [H1 H2]. eapply tj_bind; [apply teval_vb; eauto|]. intros v s1 K1 V1.
    eapply tj_bind; [apply IH; [exact H2|eapply renv_kk; eauto]|]. intros vs s2 K2 [L2 V2]. apply tj_ret. split; [simpl; congruence|]. cbn [forallb]. intros Z. apply andb_prop in Z. destruct Z as [Z1 Z2].
    constructor; [|auto]. eapply Q0_kk; [exact K2|]. eapply isz_ok; eauto.
Qed.
Lemma pr_callee v : pr (callee_of P v) (fun c =>
  match v with
  | VClass d => c = KNew d []
  | VUnkSV z => c = KNew "UnknownStandardVariableRecord" [("recordType", VInt z)]
  | VBitCls fs => c = KNewBits fs
  | VFun f => if String.eqb f "getStandardVariableClass" then c = KGetSV else exists m, assoc f (p_funs P) = Some m /\ c = KMeth m []
  | _ => False
  end).
Proof. destruct v; simpl; prs; auto; try discriminate. eauto. Qed.
Lemma vr_sv h rt ex v : getStandardVariableClass P rt ex = inl v -> vr h 0 (frank "getStandardVariableClass") v.
Proof.
  destruct facts as (_ & _ & _ & _ & _ & F1 & F2 & _). unfold getStandardVariableClass. intros H.
  repeat match type of H with context [match ?x with _ => _ end] => destruct x eqn:?; try discriminate end; injection H as <-; right; simpl; eauto.
Qed.
Lemma sv_exn rt ex e : getStandardVariableClass P rt ex = inr e -> e <> RecursionError.
Proof.
  unfold getStandardVariableClass. intros H. repeat match type of H with context [match ?x with _ => _ end] => destruct x eqn:?; try discriminate end; injection H as <-; discriminate.
Qed.
Lemma t_getsv args kws s : tj (fun v s' => vr (heap s') 0 (frank "getStandardVariableClass") v) (apply P call KGetSV args kws) s.
Proof.
  cbn [apply]. destruct args as [|rt [|ex [|]]]; try (apply tj_raise; discriminate); destruct kws; try (apply tj_raise; discriminate).
  all: destruct (getStandardVariableClass P _ _) eqn:E; [apply tj_ret; eapply vr_sv; eauto|apply tj_raise; eapply sv_exn; eauto].
Qed.
Lemma bind_pos_rest ps args e rest : bind_pos ps args = Some (e, rest) -> rest = skipn (length args) ps.
Proof.
  revert ps e rest. induction args as [|a args IH]; intros ps e rest; simpl.
  - destruct ps as [|[x d] q]; simpl; intros [= _ <-]; reflexivity.
  - destruct ps as [|[x d] q]; simpl; [discriminate|]. destruct (bind_pos q args) as [[e' rest']|] eqn:E; [|discriminate]. intros [= _ <-]. eapply IH; eauto.
Qed.
Lemma bind_rest_none ps : existsb (fun p => match snd p with None => true | Some _ => false end) ps = true -> bind_rest ps [] = None.
Proof.
  induction ps as [|[x [d|]] q IH]; simpl; auto; [discriminate|]. intros H. now rewrite IH.
Qed.
Lemma few_none ps (args : list val) n : n = length args -> existsb (fun p : string * option dflt => match snd p with None => true | Some _ => false end) (skipn n ps) = true -> bind_args ps args [] = None.
Proof.
  intros -> H. unfold bind_args. simpl. rewrite Nat.sub_0_r, firstn_all. destruct (bind_pos ps args) as [[e rest]|] eqn:E; [|reflexivity].
  apply bind_pos_rest in E. subst rest. now rewrite (bind_rest_none _ H).
Qed.
Lemma selfe_glob g : selfe selfC (Glob g) = false. Proof. unfold selfe. destruct selfC; reflexivity. Qed.

(** a call of something other than a name of the module *)
Lemma t_callv f args kws : (forall rho s, renv rho (heap s) -> tj (vb (bn f)) (eval P call f rho) s) -> Forall teval args -> deep = true -> forallb ck args = true -> kw_ok args kws = true ->
  b_inst (bn f) < TOP -> b_cls (bn f) <= r -> forallb (fun e => isz (bn e)) args = true ->
  forall rho s, renv rho (heap s) -> tj (fun v s' => vr (heap s') (b_cls (bn f)) 0 v) (eval P call (CallV f args kws) rho) s.
Proof.
  intros Hf Ha Hd Hc Hk Hi Hcl Hz rho s HR. cbn [eval]. eapply tj_bind; [apply Hf, HR|]. intros v s1 K1 V. destruct V as [V|V].
  { unfold bi in V. destruct (b_self (bn f)); lia. }
  eapply tj_bind with (ok1 := fun c s2 => s2 = s2 /\ match c with KNew d at_ => rank d < b_cls (bn f) /\ (forall a v, assoc a at_ = Some v -> scalar v) | KNewBits _ => True | _ => False end).
  { eapply tj_pr; [apply pr_callee|]. intros c s2 _ Hv. split; [reflexivity|]. destruct v; try contradiction; subst c; simpl in V; auto.
    - split; [exact V|]. intros a v0. discriminate.
    - split; [exact V|]. intros a v0. simpl. destruct (String.eqb a "recordType"); [intros [= <-]; exact Logic.I|discriminate]. }
  intros c s2 K2 [_ Hcv]. eapply tj_bind; [apply t_args; eauto; eapply renv_kk; [|exact HR]; eapply kk_trans; eauto|].
  intros vs s3 K3 [L3 V3]. unfold kw_ok in Hk. apply Nat.leb_le in Hk. destruct c; try contradiction.
  - destruct Hcv as [Hc1 Hc2]. eapply tj_weak; [apply t_new; auto; lia|]. intros a s' _ X. apply X. exact Hc1.
  - eapply tj_weak; [apply t_bits|]. intros a s' _ X. now apply vr0.
Qed.
Lemma t_glob g rho s : tj (vb (bn (Glob g))) (eval P call (Glob g) rho) s.
Proof.
  cbn [eval DepthCheck.bn]. unfold glob, is_cls, is_fun. destruct (get_cls P g) eqn:Gg.
  - apply tj_ret. right. simpl. lia.
  - destruct (String.eqb g "getStandardVariableClass"); [apply tj_ret; left; unfold bi; simpl; lia|].
    destruct (assoc g (p_funs P)); [apply tj_ret; left; unfold bi; simpl; lia|apply tj_raise; discriminate].
Qed.

Lemma t_eval e : teval e.
Proof.
  induction e using expr_ind'; intros C rho s HR.
  all: try (eapply tj_weak; [|intros ? ? _ V; split; [exact V|exact Logic.I]]).
  - cbn [eval DepthCheck.bn]. apply tj_ret. apply vr_scalar, lit_scalar.
  - cbn [eval DepthCheck.bn]. destruct (assoc x rho) eqn:E; [|apply tj_raise; discriminate]. apply tj_ret. apply (proj1 HR). exact E.
  - apply t_glob.
  - cbn [DepthCheck.ck] in C. apply andb_prop in C. destruct C as [C1 C2]. cbn [DepthCheck.bn]. unfold attr_ok in C2.
    destruct (negb (memb a slow) && match lev a with Some j => j <? k | None => true end) eqn:C3.
    + cbn [eval]. destruct (selfe selfC e) eqn:Se.
      * destruct (selfe_ok _ Se) as (-> & C & HC). cbn [eval]. pose proof (proj2 HR) as S. rewrite HC in S. destruct S as (l & As & Bl & at_ & E). rewrite As.
        eapply tj_bind; [apply tj_ret with (ok := fun v s' => v = VRef l /\ s' = s); auto|]. intros v s1 _ [-> ->].
        (* an attribute of self, or a property *)
        intros I. pose proof (t_attr (VRef l) a TOP 0 s (or_introl (le_n _)) C3 I) as X. simpl in *. unfold bind, hget in *. rewrite E in *. destruct (Hself _ HC) as (HRk & _).
        assert (W : forall x, assoc a at_ = Some x -> vr (heap s) R 0 x) by (intros x Ea; rewrite HRk; eapply (proj2 I); eauto).
        destruct (lookup P sd a) as [[m|li]|] eqn:Lk.
        -- destruct (mem_facts _ _ _ Lk) as [F _]. destruct (m_kind m) eqn:Km; try (destruct (assoc a at_) eqn:Ea; [split; [exact I|]; split; [apply kk_refl|unfold vb, bi; simpl; auto]|discriminate]).
           apply andb_prop in C3. destruct C3 as [C3 C4]. destruct (lev a) as [j|] eqn:La.
           ++ apply Nat.ltb_lt in C4. pose proof (Cs a j _ m [VRef l] [] s La C4 Lk I) as Y. destruct (call m [VRef l] [] s) as [[x|ex] s']; [|exact Y]. destruct Y as (Y1 & Y2 & Y3). split; [exact Y1|]. split; [exact Y2|]. now apply vr0.
           ++ rewrite (F eq_refl eq_refl) in C3. discriminate.
        -- destruct (assoc a at_) eqn:Ea; simpl; (split; [exact I|]; split; [apply kk_refl|unfold vb, bi; simpl; auto]). apply vr_scalar, lit_scalar.
        -- destruct (assoc a at_) eqn:Ea; [|discriminate]. split; [exact I|]; split; [apply kk_refl|unfold vb, bi; simpl; auto].
      * eapply tj_bind; [apply (teval_vb _ IHe); [exact C1|exact HR]|]. intros v s1 K1 V1. eapply tj_weak; [eapply t_attr; eauto|]. intros x s2 _ X. exact X.
    + simpl in C2. apply andb_prop in C2. destruct C2 as [Se C2]. rewrite Se. destruct (selfe_ok _ Se) as (-> & C & HC). rewrite HC in C2. cbn [eval].
      pose proof (proj2 HR) as S. rewrite HC in S. destruct S as (l & As & Bl & at_ & E). rewrite As.
      eapply tj_bind; [apply tj_ret with (ok := fun v s' => v = VRef l /\ s' = s); auto|]. intros v s1 _ [-> ->]. eapply tj_weak; [eapply t_attr_self; eauto|]. intros x s2 _ X. exact X.
  - cbn [DepthCheck.ck] in C. apply andb_prop in C. destruct C as [C1 C2].
    assert (D : (exists as_, e1 = Builtin BUnpack as_) \/ bn (Sub e1 e2) = btop TOP).
    { cbn [DepthCheck.bn]. destruct e1; auto. destruct b; auto. left. eauto. }
    destruct D as [[as_ ->]|D].
    + cbn [eval DepthCheck.bn]. cbn [DepthCheck.ck] in C1.
      eapply tj_bind with (ok1 := fun v _ => exists x, v = VTuple [x] /\ scalar x); [eapply tj_weak; [apply IHe1; eauto|]; intros ? ? _ [_ X]; exact X|].
      intros v s1 K1 (x & -> & Sx). eapply tj_bind; [apply (teval_vb _ IHe2); [exact C2|eapply renv_kk; eauto]|]. intros j s2 _ _. apply tj_scalar. simpl. prs. apply pr_nth. constructor; [exact Sx|constructor].
    + rewrite D. cbn [eval]. eapply tj_bind; [apply (teval_vb _ IHe1); eauto|]. intros v s1 K1 _. eapply tj_bind; [apply (teval_vb _ IHe2); [exact C2|eapply renv_kk; eauto]|]. intros j s2 _ _.
      eapply tj_weak; [apply tj_any, pr_sub|]. intros. left. unfold bi, btop; simpl; lia.
  - (* calls *)
    cbn [DepthCheck.ck] in C. apply andb_prop in C. destruct C as [C Cc]. apply andb_prop in C. destruct C as [C Ck]. apply andb_prop in C. destruct C as [Hd Ca].
    assert (D : (exists g, e = Glob g) \/ (bn (CallV e args kws) = mkb (b_cls (bn e)) false 0 /\ (ck e && (b_inst (bn e) <? TOP) && (b_cls (bn e) <=? r) && forallb (fun e => isz (bn e)) args = true))).
    { destruct e; try (right; split; [reflexivity|exact Cc]). left. eauto. }
    destruct D as [[g ->]|[D1 D2]].
    + cbn [DepthCheck.bn]. destruct (is_cls P g) eqn:Ic.
      * apply andb_prop in Cc. destruct Cc as [Cr1 Cz]. apply Nat.ltb_lt in Cr1. eapply tj_weak; [eapply (t_callv (Glob g) args kws); eauto|].
        -- intros rho0 s0 _. apply t_glob.
        -- cbn [DepthCheck.bn]. rewrite Ic. simpl. lia.
        -- cbn [DepthCheck.bn]. rewrite Ic. simpl. lia.
        -- intros v s' _. cbn [DepthCheck.bn]. rewrite Ic. unfold vb, bi; simpl. apply vr_le; lia.
      * cbn [eval]. unfold glob, is_cls in *. destruct (get_cls P g) eqn:Gg; [discriminate|]. destruct (String.eqb g "getStandardVariableClass") eqn:Eg.
        -- eapply tj_bind; [apply tj_ret with (ok := fun v s' => v = VFun g /\ s' = s); auto|]. intros v s1 _ [-> ->]. simpl. rewrite Eg.
           eapply tj_bind; [apply tj_ret with (ok := fun v s' => v = KGetSV /\ s' = s); auto|]. intros c s1 _ [-> ->].
           eapply tj_bind; [apply t_args; eauto|]. intros vs s1 _ _. apply String.eqb_eq in Eg. subst g. apply t_getsv.
        -- simpl in Cc. apply Nat.ltb_lt in Cc. destruct (assoc g (p_funs P)) as [m|] eqn:Ag; [|intros I; simpl; discriminate].
           eapply tj_bind; [apply tj_ret with (ok := fun v s' => v = VFun g /\ s' = s); auto|]. intros v s1 _ [-> ->]. simpl. rewrite Eg, Ag.
           eapply tj_bind; [apply tj_ret with (ok := fun v s' => v = KMeth m [] /\ s' = s); auto|]. intros c s1 _ [-> ->].
           eapply tj_bind; [apply t_args; eauto|]. intros vs s1 _ _. cbn [apply app]. eapply tj_weak; [eapply Cf; eauto; lia|]. intros v s' _ X. unfold vb, bi; simpl. eapply vr_le; [| |exact X]; lia.
    + rewrite D1. andbs. repeat match goal with H : (_ <=? _) = true |- _ => apply Nat.leb_le in H | H : (_ <? _) = true |- _ => apply Nat.ltb_lt in H end.
      eapply tj_weak; [eapply (t_callv e args kws); eauto; intros; eapply teval_vb; eauto|]. intros v s' _ X. unfold vb, bi; simpl. eapply vr_le; [| |exact X]; lia.
  - (* methods *)
    cbn [DepthCheck.ck] in C. apply andb_prop in C. destruct C as [C Cm]. apply andb_prop in C. destruct C as [C Ck]. apply andb_prop in C. destruct C as [C1 Ca].
    cbn [eval DepthCheck.bn]. unfold kw_ok in Ck. apply Nat.leb_le in Ck.
    assert (Z : forall v s', Q0 v s' -> vb bzero v s') by (intros v s' X; exact X).
    destruct (lev m) as [j|] eqn:Lm.
    + apply Nat.ltb_lt in Cm. eapply tj_bind; [apply (teval_vb _ IHe); eauto|]. intros v s1 K1 V1.
      eapply tj_bind; [eapply tj_pr with (ok := fun c _ => _); [apply pr_resolve|intros c s2 _ X; exact X]|]. intros c s2 K2 Hc. eapply tj_bind; [apply t_args; eauto; eapply renv_kk; [|exact HR]; eapply kk_trans; eauto|].
      intros vs s3 _ _. eapply tj_weak; [|intros ? ? _ X; apply Z; exact X]. destruct c; try contradiction.
      * destruct Hc as [cs Lk]. eapply Cs; eauto.
      * apply t_bits.
      * destruct Hc as [-> ->]. cbn [apply]. destruct facts as (F & _). destruct kws; [|apply tj_raise; discriminate]. apply t_native.
        -- intros ->. rewrite F in Lm by (simpl; auto). discriminate.
        -- intros ->. rewrite F in Lm by (simpl; auto). discriminate.
    + apply andb_prop in Cm. destruct Cm as [Hd Cm]. destruct (String.eqb m "parse" && (b_inst (bn e) <=? r) && (b_cls (bn e) =? 0)) eqn:Cp.
      * apply andb_prop in Cp. destruct Cp as [Cp Cc]. apply andb_prop in Cp. destruct Cp as [Cp Ci]. apply String.eqb_eq in Cp. subst m. apply Nat.leb_le in Ci. apply Nat.eqb_eq in Cc.
        eapply tj_bind; [apply (teval_vb _ IHe); eauto|]. intros v s1 K1 V1. unfold vb in V1. rewrite Cc in V1.
        assert (Hi : bi (bn e) <= R) by (unfold bi; destruct (b_self (bn e)); lia).
        (* the arguments are evaluated between finding the method and calling it *)
        intros I. unfold bind at 1.
        assert (RV : forall vs, length vs = length args -> tj (fun c s1 => forall s', kk (heap s1) (heap s') -> tj Q0 (apply P call c vs kws) s') (resolve P v "parse") s1) by (intros vs Lv; eapply t_parse; eauto; lia).
        assert (RS : forall c s2, resolve P v "parse" s1 = (Ok c, s2) -> heap s2 = heap s1).
        { intros c s2 E. pose proof (pr_resolve v "parse" s1) as X. rewrite E in X. apply X. }
        destruct (resolve P v "parse" s1) as [[c|ex] s2] eqn:Er.
        -- specialize (RS _ _ eq_refl). assert (I2 : hok (heap s2)) by now rewrite RS.
           assert (HR2 : renv rho (heap s2)) by (rewrite RS; eapply renv_kk; eauto).
           pose proof (t_args args H Ca rho s2 HR2) as TA.
           assert (X : tj (vb bzero) (vs <- eval_list (eval P call) args rho;; apply P call c vs kws) s2).
           { eapply tj_bind; [exact TA|]. intros vs s3 K3 [L3 _]. specialize (RV vs L3 I). rewrite Er in RV. destruct RV as (_ & _ & RV). apply RV. exact K3. }
           specialize (X I2). rewrite RS in X. exact X.
        -- assert (X : length (repeat VNone (length args)) = length args) by apply repeat_length. specialize (RV _ X I). rewrite Er in RV. exact RV.
      * simpl in Cm. unfold too_few in Cm. destruct e; try discriminate. apply andb_prop in Cm. destruct Cm as [Cm Cl]. apply andb_prop in Cm. destruct Cm as [Cm1 Cm2].
        destruct kws; [|discriminate]. unfold is_cls in Cm1. cbn [eval]. unfold glob. destruct (get_cls P x) eqn:Gx; [|discriminate].
        eapply tj_bind; [apply tj_ret with (ok := fun v s' => v = VClass x /\ s' = s); auto|]. intros v s1 _ [-> ->]. cbn [resolve].
        destruct (lookup P x m) as [[mm|]|]; try discriminate.
        eapply tj_bind; [apply tj_ret with (ok := fun v s' => v = KMeth mm [] /\ s' = s); auto|]. intros c0 s1 _ [-> ->].
        eapply tj_bind; [apply t_args; eauto|]. intros vs s1 _ [Lv _]. cbn [apply app]. apply Cb; [exact Hd|]. eapply few_none; [symmetry; exact Lv|exact Cl].
  - (* super *)
    cbn [DepthCheck.ck] in C. apply andb_prop in C. destruct C as [C Cm]. apply andb_prop in C. destruct C as [C Cse]. apply andb_prop in C. destruct C as [C Ck]. apply andb_prop in C. destruct C as [Hd Ca].
    destruct selfC as [D|] eqn:HC; [|discriminate]. rewrite <- HC in *. apply String.eqb_eq in Cse. subst D. unfold kw_ok in Ck. apply Nat.leb_le in Ck.
    pose proof (proj2 HR) as S. rewrite HC in S. destruct S as (l & As & Bl & at_ & E). destruct (Hself _ HC) as (HRk & HIn & rest & Ha).
    cbn [eval DepthCheck.bn]. rewrite As.
    eapply tj_bind with (ok1 := fun o s1 => heap s1 = heap s /\ match o with Some c0 => exists mm, lookup_in P rest m = Some (MMeth mm) /\ c0 = KMeth mm [VRef l] | None => True end).
    { intros I. cbn [resolve_super]. unfold bind, hget. rewrite E, Ha.
      destruct (lookup_in P rest m) as [[mm|]|] eqn:Lk; [| |].
      - destruct (mem_facts _ _ _ Lk) as [_ F]. rewrite F.
        + simpl. split; [exact I|]. split; [apply kk_refl|]. split; [reflexivity|]. eauto.
        + apply orb_prop in Cm. destruct Cm as [Cm|Cm]; [left; now apply String.eqb_eq|right]. apply andb_prop in Cm. now apply String.eqb_eq.
      - simpl. discriminate.
      - destruct (String.eqb m "__init__"); simpl; [|discriminate]. split; [exact I|]. split; [apply kk_refl|]. auto. }
    intros o s1 K1 [Hh Ho]. eapply tj_bind; [apply t_args; eauto; now rewrite Hh|]. intros vs s2 K2 [Lv Vz]. destruct o as [c0|].
    + destruct Ho as (mm & Lk & ->). cbn [apply app]. eapply tj_weak; [eapply (Cd Hd m sd rest mm l vs kws)|].
      * apply orb_prop in Cm. destruct Cm as [Cm|Cm]; [left; now apply String.eqb_eq|right]. apply andb_prop in Cm. destruct Cm. split; [now apply String.eqb_eq|auto].
      * clear -Ha. revert Ha. generalize (mro P sd). induction l as [|d q IH]; simpl; [discriminate|]. destruct (String.eqb c d).
        -- intros [= ->]. now exists [d].
        -- intros H. destruct (IH H) as [pre ->]. now exists (d :: pre).
      * exact Lk.
      * exact Bl.
      * rewrite <- Hh in E. eapply kk_inst; eauto.
      * lia.
      * right. eauto.
      * intros v s' _ X. exact X.
    + destruct vs; [apply tj_ret; now apply vr_scalar|apply tj_raise; discriminate].
  - (* builtin functions *)
    cbn [DepthCheck.ck] in C. cbn [eval]. eapply tj_bind; [apply t_args; eauto|]. intros vs s1 K1 _.
    assert (X : tj (fun v s' => vb (bn (Builtin b args)) v s') (builtin_val b vs) s1).
    { eapply tj_weak; [apply t_builtin|]. intros v s' _ V. destruct b; cbn [DepthCheck.bn]; try exact V; left; unfold bi, btop; simpl; lia. }
    destruct b; try (eapply tj_weak; [exact X|]; intros v s' _ V; split; [exact V|exact Logic.I]).
    eapply tj_pr; [apply pr_unpack|]. intros v s' _ V. split; [|exact V]. left. unfold bi; simpl; lia.
  - cbn [DepthCheck.ck] in C. cbn [eval DepthCheck.bn]. eapply tj_bind; [apply (teval_vb _ IHe); eauto|]. intros v s1 _ _. apply tj_scalar, pr_has_attr.
  - cbn [DepthCheck.ck] in C. cbn [eval DepthCheck.bn]. eapply tj_bind; [apply t_args; eauto|]. intros vs s1 _ _. apply tj_list.
  - cbn [DepthCheck.ck] in C. cbn [eval DepthCheck.bn]. eapply tj_bind; [apply t_args; eauto|]. intros vs s1 _ _. apply tj_ret. left. unfold bi; simpl; lia.
  - cbn [DepthCheck.ck] in C. apply andb_prop in C. destruct C as [C1 C2]. cbn [eval DepthCheck.bn]. eapply tj_bind; [apply (teval_vb _ IHe1); eauto|]. intros v s1 K1 V1.
    apply (tj_if (fun s => truth (heap s) v) _ (ret v)); [apply tj_ret; now apply vb_join1|]. eapply tj_weak; [apply (teval_vb _ IHe2); [exact C2|eapply renv_kk; eauto]|]. intros; now apply vb_join2.
  - cbn [DepthCheck.ck] in C. apply andb_prop in C. destruct C as [C1 C2]. cbn [eval DepthCheck.bn]. eapply tj_bind; [apply (teval_vb _ IHe1); eauto|]. intros v s1 K1 V1.
    apply (tj_if (fun s => truth (heap s) v) _ _ (ret v)); [|apply tj_ret; now apply vb_join1]. eapply tj_weak; [apply (teval_vb _ IHe2); [exact C2|eapply renv_kk; eauto]|]. intros; now apply vb_join2.
  - cbn [DepthCheck.ck] in C. cbn [eval DepthCheck.bn]. eapply tj_bind; [apply (teval_vb _ IHe); eauto|]. intros v s1 _ _. apply tj_scalar. intros ?; simpl. split; [reflexivity|exact Logic.I].
  - cbn [DepthCheck.ck] in C. apply andb_prop in C. destruct C as [C1 C2]. cbn [eval DepthCheck.bn]. eapply tj_bind; [apply (teval_vb _ IHe1); eauto|]. intros v s1 K1 _.
    eapply tj_bind; [apply (teval_vb _ IHe2); [exact C2|eapply renv_kk; eauto]|]. intros w s2 _ _. apply t_binop.
  - cbn [DepthCheck.ck] in C. apply andb_prop in C. destruct C as [C1 C2]. cbn [eval DepthCheck.bn]. eapply tj_bind; [apply (teval_vb _ IHe1); eauto|]. intros v s1 K1 _.
    eapply tj_bind; [apply (teval_vb _ IHe2); [exact C2|eapply renv_kk; eauto]|]. intros w s2 _ _. apply t_cmp.
  - cbn [DepthCheck.ck] in C. apply andb_prop in C. destruct C as [C C3]. apply andb_prop in C. destruct C as [C1 C2]. cbn [eval DepthCheck.bn].
    eapply tj_bind; [apply (teval_vb _ IHe1); eauto|]. intros v s1 K1 _. apply tj_if.
    + eapply tj_weak; [apply (teval_vb _ IHe2); [exact C2|eapply renv_kk; eauto]|]. intros; now apply vb_join1.
    + eapply tj_weak; [apply (teval_vb _ IHe3); [exact C3|eapply renv_kk; eauto]|]. intros; now apply vb_join2.
Qed.

(** ** Statements *)
Variable rb : bnd.
Notation cks := (cks P rank frank TOP lev slow deep selfC k r G rb).
Definition okR (p : Interp.R) (s : st) : Prop := renv (fst p) (heap s) /\ match snd p with Some v => vb rb v s | None => True end.
Definition texec (c : stmt) : Prop := cks c = true -> forall rho s, renv rho (heap s) -> tj okR (exec P call c rho) s.
Lemma ev_vb e : ck e = true -> forall rho s, renv rho (heap s) -> tj (vb (bn e)) (eval P call e rho) s.
Proof. apply teval_vb, t_eval. Qed.
Lemma renv_upd x v rho h : not_self selfC x = true -> vr h (bi (G x)) (b_cls (G x)) v -> renv rho h -> renv (upd x v rho) h.
Proof.
  intros N V [H1 H2]. split.
  - intros y w E. destruct (String.string_dec x y) as [<-|Ne]; [rewrite upd_eq in E; injection E as <-; exact V|]. rewrite upd_ne in E by exact Ne. auto.
  - unfold not_self in N. destruct selfC; [|exact Logic.I]. destruct H2 as (l & A & H2). exists l. split; [|exact H2]. rewrite upd_ne; [exact A|]. intros ->. simpl in N. discriminate.
Qed.
Lemma t_block b : Forall texec b -> forallb cks b = true -> forall rho s, renv rho (heap s) -> tj okR (run_block (exec P call) b rho) s.
Proof.
  induction 1 as [|c cs Hc _ IH]; intros C rho s HR; cbn [run_block].
  - apply tj_ret. split; [exact HR|exact Logic.I].
  - cbn [forallb] in C. apply andb_prop in C. destruct C as [C1 C2]. eapply tj_bind; [apply Hc; eauto|]. intros [rho' o] s1 K1 [H1 H2]. simpl in *. destruct o; [apply tj_ret; split; auto|]. apply IH; auto.
Qed.
Lemma t_for bd x (ok : val -> Prop) : (forall rho s, renv rho (heap s) -> tj okR (bd rho) s) -> not_self selfC x = true -> (forall v h, ok v -> vr h (bi (G x)) (b_cls (G x)) v) ->
  forall vs, Forall ok vs -> forall rho s, renv rho (heap s) -> tj okR (for_loop bd x vs rho) s.
Proof.
  intros Hb N Hx. induction 1 as [|v vs Hv _ IH]; intros rho s HR; cbn [for_loop].
  - apply tj_ret. split; [exact HR|exact Logic.I].
  - eapply tj_bind; [apply Hb; apply renv_upd; auto|]. intros [rho' o] s1 K1 [H1 H2]. simpl in *. destruct o; [apply tj_ret; split; auto|]. apply IH; auto.
Qed.
Lemma t_exec c : texec c.
Proof.
  induction c using stmt_ind'; intros C rho s HR; cbn [DepthCheck.cks] in C; cbn [exec].
  - eapply tj_bind; [apply ev_vb; eauto|]. intros v s1 K1 _. apply tj_ret. split; [eapply renv_kk; eauto|exact Logic.I].
  - apply andb_prop in C. destruct C as [C N]. apply andb_prop in C. destruct C as [C1 C2]. eapply tj_bind; [apply ev_vb; eauto|]. intros v s1 K1 V. apply tj_ret. split; [|exact Logic.I].
    simpl. apply renv_upd; [exact N| |eapply renv_kk; eauto]. eapply (ble_ok _ _ v s1 C2 V).
  - andbs. destruct (selfe_ok _ H3) as (-> & C & HC). apply Nat.leb_le in H1. apply Nat.eqb_eq in H0.
    eapply tj_bind; [apply ev_vb; eauto|]. intros v s1 K1 V. pose proof (renv_kk _ _ _ K1 HR) as HR1. cbn [eval].
    pose proof (proj2 HR1) as S. rewrite HC in S. destruct S as (l & As & Bl & at_ & E). rewrite As.
    eapply tj_bind; [apply tj_ret with (ok := fun v s' => v = VRef l /\ s' = s1); auto|]. intros v' s1' _ [-> ->].
    eapply tj_bind with (ok1 := fun _ _ => True).
    2: { intros u s2 K2 _. apply tj_ret. split; [eapply renv_kk; [|exact HR1]; exact K2|exact Logic.I]. }
    destruct (Hself _ HC) as (HRk & _).
    assert (Z : vr (heap s1) (rank sd) 0 v).
    { unfold vb in V. rewrite H0 in V. eapply vr_le; [| |exact V]; [|lia]. unfold bi. destruct (b_self (bn e)); lia. }
    intros I. simpl. unfold bind, hget. rewrite E.
    assert (W : hok (set_nth l (HInst sd (upd a v at_)) (heap s1)) /\ kk (heap s1) (set_nth l (HInst sd (upd a v at_)) (heap s1))).
    { split; [|eapply kk_set; eauto]. eapply hok_set; eauto. intros _ a' v' Ea. destruct (String.string_dec a a') as [<-|Ne]; [rewrite upd_eq in Ea; injection Ea as <-; exact Z|].
      rewrite upd_ne in Ea by exact Ne. eapply (proj2 I); eauto. }
    destruct W as [W1 W2]. destruct (lookup P sd a) as [[m|]|]; [destruct (m_kind m)| |]; simpl; try discriminate; auto.
  - apply andb_prop in C. destruct C as [C C3]. apply andb_prop in C. destruct C as [C1 C2].
    eapply tj_bind; [apply ev_vb; eauto|]. intros v s1 K1 _. pose proof (renv_kk _ _ _ K1 HR) as HR1.
    eapply tj_bind; [apply ev_vb; eauto|]. intros v2 s2 K2 _. pose proof (renv_kk _ _ _ K2 HR1) as HR2.
    eapply tj_bind; [apply ev_vb; eauto|]. intros v3 s3 K3 _. pose proof (renv_kk _ _ _ K3 HR2) as HR3.
    eapply tj_bind; [apply t_set_sub|]. intros u s4 K4 _. apply tj_ret. split; [eapply renv_kk; eauto|exact Logic.I].
  - apply andb_prop in C. destruct C as [C C3]. apply andb_prop in C. destruct C as [C1 C2].
    eapply tj_bind; [apply ev_vb; eauto|]. intros v s1 K1 _. pose proof (renv_kk _ _ _ K1 HR) as HR1. apply tj_if; apply t_block; auto.
  - apply andb_prop in C. destruct C as [C Cb']. apply andb_prop in C. destruct C as [C Ct]. apply andb_prop in C. destruct C as [C1 N].
    assert (X : tj (fun v s' => match v with VRange _ _ => True | _ => TOP <= b_inst (G x) end) (eval P call e rho) s).
    { destruct e; try (eapply tj_weak; [apply ev_vb; eauto|]; intros v s' _ _; apply Nat.leb_le in Ct; destruct v; auto; fail).
      destruct b0; try (eapply tj_weak; [apply ev_vb; eauto|]; intros v s' _ _; apply Nat.leb_le in Ct; destruct v; auto; fail).
      cbn [eval]. eapply tj_bind; [apply (t_args args); [apply Forall_forall; intros; apply t_eval|exact C1|exact HR]|]. intros vs s1 _ _.
      eapply tj_pr with (ok0 := fun v => match v with VRange _ _ => True | _ => False end); [|intros v s' _ V; destruct v; tauto].
      simpl. destruct vs as [|? [|? [|]]]; prs; exact Logic.I. }
    eapply tj_bind; [exact X|]. intros v s1 K1 V.
    pose proof (renv_kk _ _ _ K1 HR) as HR1.
    eapply tj_bind with (ok1 := fun vs _ => Forall (fun v => TOP <= b_inst (G x) \/ scalar v) vs).
    { destruct v; try (eapply tj_pr; [apply pr_iter|]; intros; apply Forall_forall; intros; left; exact V).
      simpl. apply tj_ret. apply Forall_forall. intros y Hy. apply in_map_iff in Hy. destruct Hy as (z & <- & _). right. exact Logic.I. }
    intros vs s2 K2 Vs. eapply (t_for _ x); [intros; apply t_block; eauto|exact N| |exact Vs|eapply renv_kk; eauto].
    intros y h [Y|Y]; [left; unfold bi; lia|now apply vr_scalar].
  - apply andb_prop in C. destruct C as [C1 C2]. eapply tj_bind; [apply ev_vb; eauto|]. intros v s1 K1 V. apply tj_ret. split; [eapply renv_kk; eauto|]. simpl. eapply ble_ok; eauto.
  - apply tj_raise. intros ->. discriminate.
  - eapply tj_bind; [apply ev_vb; eauto|]. intros v s1 K1 _. intros I. simpl. destruct (truth (heap s1) v); [|discriminate]. split; [exact I|]. split; [apply kk_refl|]. split; [eapply renv_kk; eauto|exact Logic.I].
  - apply tj_ret. split; [exact HR|exact Logic.I].
Qed.
(** a function whose body passes the check, called with these local variables *)
Lemma t_body b rho s : b_self rb = false -> forallb cks b = true -> renv rho (heap s) ->
  tj (fun v s' => vr (heap s') (b_inst rb) (b_cls rb) v) (p <- run_block (exec P call) b rho ;; ret match snd p with Some v => v | None => VNone end) s.
Proof.
  intros Hrb C HR. eapply tj_bind; [apply t_block; eauto; apply Forall_forall; intros; apply t_exec|]. intros [rho' o] s1 K1 [_ V]. apply tj_ret. simpl in *. destruct o; [|now apply vr_scalar].
  unfold vb, bi in V. rewrite Hrb in V. eapply vr_le; [| |exact V]; lia.
Qed.
End Body.

(** ** Binding of arguments *)
Lemma bind_pos_in ps args e rest : bind_pos ps args = Some (e, rest) -> forall x v, assoc x e = Some v -> In x (map fst ps) /\ In v args.
Proof.
  revert ps e rest. induction args as [|a args IH]; intros ps e rest; simpl.
  - destruct ps as [|[x d] q]; simpl; intros [= <- _]; discriminate.
  - destruct ps as [|[x d] q]; simpl; [discriminate|]. destruct (bind_pos q args) as [[e' rest']|] eqn:E; [|discriminate]. intros [= <- _] y v. simpl. destruct (String.eqb y x) eqn:Ey.
    + apply String.eqb_eq in Ey. subst y. intros [= <-]. auto.
    + intros A. destruct (IH _ _ _ E _ _ A). auto.
Qed.
Lemma bind_rest_in ps : forall kw e, bind_rest ps kw = Some e -> forall x v, assoc x e = Some v -> In x (map fst ps) /\ (In v (map snd kw) \/ exists y d, In (y, Some d) ps /\ v = dflt_val d).
Proof.
  induction ps as [|[y d] q IH]; intros kw e; simpl.
  - destruct kw; [|discriminate]. intros [= <-] x v. discriminate.
  - destruct (assoc y kw) as [w|] eqn:Ew.
    + destruct (bind_rest q _) as [e'|] eqn:E; [|discriminate]. intros [= <-] x v. simpl. destruct (String.eqb x y) eqn:Ey.
      * apply String.eqb_eq in Ey. subst. intros [= <-]. split; [auto|]. left. apply (in_map snd _ (y, w)). now apply assoc_in.
      * intros A. destruct (IH _ _ E _ _ A) as [A1 A2]. split; [auto|]. destruct A2 as [A2|(z & d' & A2 & A3)]; [left|right; eauto].
        apply in_map_iff in A2. destruct A2 as (p & <- & A2). apply filter_In in A2. apply in_map. tauto.
    + destruct d as [d|]; [|discriminate]. destruct (bind_rest q kw) as [e'|] eqn:E; [|discriminate]. intros [= <-] x v. simpl. destruct (String.eqb x y) eqn:Ey.
      * apply String.eqb_eq in Ey. subst. intros [= <-]. split; [auto|]. right. eauto.
      * intros A. destruct (IH _ _ E _ _ A) as [A1 A2]. split; [auto|]. destruct A2 as [A2|(z & d' & A2 & A3)]; [auto|right; eauto].
Qed.
Lemma assoc_app {A} x (a b : list (string * A)) v : assoc x (a ++ b) = Some v -> assoc x a = Some v \/ assoc x b = Some v.
Proof. induction a as [|[y w] r IH]; simpl; auto. destruct (String.eqb x y); auto. Qed.
Lemma bind_pos_suffix ps args e rest : bind_pos ps args = Some (e, rest) -> forall p, In p rest -> In p ps.
Proof. intros H p Hp. rewrite (bind_pos_rest _ _ _ _ H) in Hp. rewrite <- (firstn_skipn (length args) ps). apply in_or_app. auto. Qed.
Lemma combine_snd {A} (l : list A) (ks : list string) v : In v (map snd (combine ks l)) -> In v l.
Proof. revert ks. induction l as [|a r IH]; intros [|x ks]; simpl; try tauto. intros [H|H]; eauto. Qed.
Lemma bind_args_in ps args kws rho : bind_args ps args kws = Some rho -> forall x v, assoc x rho = Some v ->
  In x (map fst ps) /\ (In v args \/ exists y d, In (y, Some d) ps /\ v = dflt_val d).
Proof.
  unfold bind_args. set (n := length args - length kws). destruct (bind_pos ps (firstn n args)) as [[e rest]|] eqn:E1; [|discriminate].
  destruct (bind_rest rest _) as [e'|] eqn:E2; [|discriminate]. intros [= <-] x v A. destruct (assoc_app _ _ _ _ A) as [A'|A'].
  - destruct (bind_pos_in _ _ _ _ E1 _ _ A'). split; [auto|]. left. rewrite <- (firstn_skipn n args). apply in_or_app. auto.
  - destruct (bind_rest_in _ _ _ E2 _ _ A') as [H1 H2]. split.
    + apply in_map_iff in H1. destruct H1 as (p & <- & H1). apply in_map. eapply bind_pos_suffix; eauto.
    + destruct H2 as [H2|(y & d & H2 & ->)]; [left|right; exists y, d; split; [eapply bind_pos_suffix; eauto|reflexivity]].
      apply combine_snd in H2. rewrite <- (firstn_skipn n args). apply in_or_app. auto.
Qed.
Lemma bind_cons x d ps a args kws rho : length kws <= length args -> bind_args ((x, d) :: ps) (a :: args) kws = Some rho ->
  exists rho', rho = (x, a) :: rho' /\ bind_args ps args kws = Some rho'.
Proof.
  intros Lk. unfold bind_args. cbn [length]. replace (S (length args) - length kws) with (S (length args - length kws)) by lia. cbn [firstn skipn bind_pos].
  destruct (bind_pos ps (firstn (length args - length kws) args)) as [[e rest]|]; [|discriminate]. destruct (bind_rest rest _) as [e'|]; [|discriminate]. intros [= <-]. eexists. split; reflexivity.
Qed.

(** ** Whole functions *)
Theorem t_run n :
  (forall nm j cs m args kws s, lev nm = Some j -> j < n -> lookup_in P cs nm = Some (MMeth m) -> tj Q0 (run P n m args kws) s) /\
  (forall nm d rest m l args kws s, nm = "parse" \/ nm = "__init__" /\ Forall (fun v => Q0 v s) args -> (exists pre, mro P d = pre ++ rest) -> lookup_in P rest nm = Some (MMeth m) ->
    base <= l -> (exists at_, nth_error (heap s) l = Some (HInst d at_)) -> length kws <= length args -> B + L * rank d + length rest <= n ->
    tj Q0 (run P n m (VRef l :: args) kws) s) /\
  (forall g m args kws s, assoc g (p_funs P) = Some m -> B + L * frank g < n -> tj (fun v s' => vr (heap s') (frank g) 0 v) (run P n m args kws) s).
Proof.
  destruct facts as (_ & FB & FM & FC & FF & _ & _ & _ & FL & FB0 & _).
  induction n as [|n (IS & ID & IF)]; [split; [|split]; intros; exfalso; nia|].
  (* calls from the body of parse, __init__ or a function *)
  assert (TopEnv : forall G ps args kws rho, forallb (fun p => TOP <=? b_inst (G (fst p))) ps = true -> bind_args ps args kws = Some rho ->
            forall R h x v, assoc x rho = Some v -> vr h (bi R (G x)) (b_cls (G x)) v).
  { intros G ps args kws rho H E R h x v A. destruct (bind_args_in _ _ _ _ E _ _ A) as [A1 _]. apply in_map_iff in A1. destruct A1 as (p & <- & A1). rewrite forallb_forall in H. specialize (H _ A1). apply Nat.leb_le in H. left. unfold bi. lia. }
  split; [|split].
  - intros nm j cs m args kws s Lv Hj Lk. cbn [run]. destruct (bind_args (m_params m) args kws) as [rho|] eqn:Eb; [|apply tj_raise; discriminate].
    destruct (lookup_in_at _ _ _ Lk) as (q & C & post & kl & _ & Gc & A). specialize (FM _ _ _ _ Gc A). unfold ok_mem in FM. rewrite Lv in FM. apply andb_prop in FM. destruct FM as [_ FM].
    apply andb_prop in FM. destruct FM as [_ FM]. unfold ok_lev in FM. apply andb_prop in FM. destruct FM as [FM1 FM2].
    eapply (t_body (run P n) false None j 0 _ "" 0) with (rb := bzero); [lia| | | | | | | |reflexivity|exact FM2|].
    + specialize (HT ""). lia.
    + intros ? X; discriminate.
    + intros. eapply IS; eauto; lia.
    + intros X; discriminate.
    + intros X; discriminate.
    + intros X; discriminate.
    + intros X; discriminate.
    + split; [|exact Logic.I]. eapply TopEnv; eauto.
  - intros nm d rest m l args kws s Hn [pre Hp] Lk Bl Hi Hk Hf. cbn [run]. destruct (bind_args (m_params m) (VRef l :: args) kws) as [rho|] eqn:Eb; [|apply tj_raise; discriminate].
    destruct (lookup_in_at _ _ _ Lk) as (q & C & post & kl & Hr & Gc & A). specialize (FM _ _ _ _ Gc A). unfold ok_mem in FM. apply andb_prop in FM. destruct FM as [FM _]. apply andb_prop in FM. destruct FM as [FM1 FM2].
    destruct (FC d) as (_ & ND & MR).
    assert (Ha : after C (mro P d) = Some post).
    { rewrite Hp, Hr, app_assoc in *. apply after_app. apply NoDup_remove_2 in ND. intros X. apply ND. apply in_or_app. now left. }
    assert (HIn : In C (mro P d)) by (rewrite Hp, Hr; apply in_or_app; right; apply in_or_app; right; left; reflexivity).
    assert (Lr : length rest = length q + S (length post)) by (rewrite Hr, app_length; reflexivity).
    assert (Body : forall G, forallb (DepthCheck.cks P rank frank TOP lev slow true (Some C) B (rank C) G bzero) (m_body m) = true -> renv (Some C) G d (rank d) rho (heap s) ->
              tj Q0 (p <- run_block (exec P (run P n)) (m_body m) rho ;; ret match snd p with Some v => v | None => VNone end) s).
    { intros G Hc HR. eapply (t_body (run P n) true (Some C) B (rank C) G d (rank d)) with (rb := bzero); [apply MR, HIn|apply HT| | | | | | |reflexivity|exact Hc|exact HR].
      - intros C' [= <-]. split; [reflexivity|]. split; [exact HIn|eauto].
      - intros. eapply IS; eauto. lia.
      - intros _ m' args' kws' ok s' E. destruct n as [|n']; [lia|]. cbn [run]. rewrite E. apply tj_raise. discriminate.
      - intros _ nm' d' rest' m' l' args' kws' s' Hn' Hp' Lk' Bl' Hi' Hk' Hcase. eapply ID; eauto. destruct Hcase as [[Hr' ->]|(C' & [= <-] & -> & Hr')].
        + destruct (FC d') as (LL & _). nia.
        + rewrite Ha in Hr'. injection Hr' as <-. lia.
      - intros _ g m' args' kws' s' Ag Hg. eapply IF; eauto. nia.
      - intros _. exact FB. }
    assert (Self : self_first (m_params m) = true -> exists rho', rho = ("self", VRef l) :: rho' /\ exists d0 ps, m_params m = ("self", d0) :: ps /\ bind_args ps args kws = Some rho').
    { intros H. unfold self_first in H. destruct (m_params m) as [|[x d0] ps]; [discriminate|]. apply andb_prop in H. destruct H as [H _]. apply String.eqb_eq in H. subst x.
      destruct (bind_cons _ _ _ _ _ _ _ Hk Eb) as (rho' & -> & H). exists rho'. split; [reflexivity|]. eauto. }
    destruct Hn as [->|[-> Hz]].
    + rewrite String.eqb_refl in FM1. simpl in FM1. unfold ok_parse in FM1. cbv zeta in FM1. apply andb_prop in FM1. destruct FM1 as [FM1 Hc]. apply andb_prop in FM1. destruct FM1 as [FM1 Ht]. apply andb_prop in FM1. destruct FM1 as [_ Hs].
      eapply Body; [exact Hc|]. split; [eapply TopEnv; eauto|]. destruct (Self Hs) as (rho' & -> & _). exists l. split; [reflexivity|]. split; [exact Bl|exact Hi].
    + rewrite String.eqb_refl in FM2. simpl in FM2. unfold ok_init in FM2. cbv zeta in FM2. apply andb_prop in FM2. destruct FM2 as [FM2 Hc]. apply andb_prop in FM2. destruct FM2 as [FM2 Ht]. apply andb_prop in FM2. destruct FM2 as [FM2 Hl]. apply andb_prop in FM2. destruct FM2 as [_ Hs].
      eapply Body; [exact Hc|]. destruct (Self Hs) as (rho' & -> & d0 & ps & Eps & E'). split.
      * intros x v. simpl. destruct (String.eqb x "self") eqn:Ex.
        -- apply String.eqb_eq in Ex. subst x. intros _. apply Nat.leb_le in Ht. left. unfold bi. lia.
        -- intros Av. apply vr0. destruct (bind_args_in _ _ _ _ E' _ _ Av) as [_ [X|(y & dv & X & ->)]].
           ++ rewrite Forall_forall in Hz. apply Hz. exact X.
           ++ unfold lits in Hl. rewrite forallb_forall in Hl. specialize (Hl (y, Some dv)). rewrite Eps in Hl. specialize (Hl (or_intror X)). simpl in Hl. destruct dv; [|discriminate]. apply vr_scalar, lit_scalar.
      * exists l. split; [reflexivity|]. split; [exact Bl|exact Hi].
  - intros g m args kws s Ag Hf. cbn [run]. destruct (bind_args (m_params m) args kws) as [rho|] eqn:Eb; [|apply tj_raise; discriminate].
    specialize (FF _ _ Ag). unfold ok_fun in FF. cbv zeta in FF. apply andb_prop in FF. destruct FF as [FF Hc]. apply andb_prop in FF. destruct FF as [Ft Ht]. apply Nat.ltb_lt in Ft.
    eapply (t_body (run P n) true None B (frank g) _ "" (frank g)) with (rb := mkb (frank g) false 0); [lia|exact Ft| | | | | | |reflexivity|exact Hc|].
    + intros ? X; discriminate.
    + intros. eapply IS; eauto. lia.
    + intros _ m' args' kws' ok s' E. destruct n as [|n']; [lia|]. cbn [run]. rewrite E. apply tj_raise. discriminate.
    + intros _ nm' d' rest' m' l' args' kws' s' Hn' Hp' Lk' Bl' Hi' Hk' Hcase. eapply ID; eauto. destruct Hcase as [[Hr' ->]|(C' & X & _)]; [|discriminate].
      destruct (FC d') as (LL & _). nia.
    + intros _ g' m' args' kws' s' Ag' Hg. eapply IF; eauto. nia.
    + intros _. exact FB.
    + split; [|exact Logic.I]. eapply TopEnv; eauto.
Qed.

(** ** Client code *)
Lemma t_client_read n m j s args : lev m = Some j -> j < n -> tj Q0 (call_method P n VIn m args) s.
Proof.
  intros Lv Hj. unfold call_method. destruct facts as (F & _).
  eapply tj_bind with (ok1 := fun c _ => match c with KMeth k _ => exists cs, lookup_in P cs m = Some (MMeth k) | _ => False end).
  { cbn [resolve]. destruct (lookup P "DataInputStream" m) as [[k|]|] eqn:E; try (apply tj_raise; discriminate). apply tj_ret. eexists. exact E. }
  intros c s1 _ Hc. destruct c; try contradiction. destruct Hc as [cs Lk]. cbn [apply]. destruct (t_run n) as (H & _). eapply H; eauto.
Qed.
(** a new object of rank low enough for the bound on nested calls *)
Definition own (c : string) (v : val) (s : st) : Prop := exists l at_, v = VRef l /\ base <= l /\ nth_error (heap s) l = Some (HInst c at_).
Lemma own_kk c v s s' : kk (heap s) (heap s') -> own c v s -> own c v s'.
Proof. intros K (l & at_ & -> & Bl & E). destruct (kk_inst _ _ _ _ _ K E) as (at' & E'). exists l, at'. auto. Qed.
Lemma t_client_new n c s : B + L * rank c + L <= n -> tj (own c) (new P n c []) s.
Proof.
  intros Hn. unfold new. cbn [apply]. destruct (is_abstract P c); [apply tj_raise; discriminate|]. eapply tj_bind with (ok1 := own c).
  { intros I. simpl. split; [apply hok_app; auto; discriminate|]. split; [apply kk_app|]. exists (length (heap s)), []. split; [reflexivity|]. split; [apply (proj1 I)|]. simpl. now rewrite nth_error_app2, Nat.sub_diag by lia. }
  intros o s1 K1 Ho. destruct (lookup P c "__init__") as [[m|]|] eqn:Lk; [|apply tj_raise; discriminate|apply tj_ret; exact Ho].
  destruct facts as (_ & _ & _ & FC & _). destruct (FC c) as (LL & _). destruct Ho as (l & at_ & -> & Bl & E). eapply tj_bind.
  - eapply (proj1 (proj2 (t_run n))) with (nm := "__init__") (d := c) (rest := mro P c); eauto; [now exists []|lia].
  - intros v s2 K2 _. apply tj_ret. destruct (kk_inst _ _ _ _ _ K2 E) as (at' & E'). exists l, at'. auto.
Qed.
Lemma t_client_parse n c v args s : B + L * rank c + L <= n -> own c v s -> tj (fun _ _ => True) (call_method P n v "parse" args) s.
Proof.
  intros Hn (l & at_ & -> & Bl & E). unfold call_method. destruct facts as (_ & _ & _ & FC & _). destruct (FC c) as (LL & _).
  eapply tj_bind with (ok1 := fun k s' => heap s' = heap s /\ match k with KMeth m pre => pre = [VRef l] /\ lookup P c "parse" = Some (MMeth m) | KNewBits _ => True | _ => False end).
  { intros I. cbn [resolve]. unfold bind, hget. rewrite E. destruct (lookup P c "parse") as [[m|li]|] eqn:Lk.
    - destruct (mem_facts _ _ _ Lk) as [_ F]. rewrite (F (or_introl eq_refl)). simpl. split; [exact I|]. split; [apply kk_refl|]. auto.
    - destruct li; simpl; try discriminate. split; [exact I|]. split; [apply kk_refl|]. auto.
    - destruct (assoc "parse" at_); simpl; discriminate. }
  intros k s1 K1 [Hh Hk]. destruct k; try contradiction.
  - destruct Hk as [-> Lk]. cbn [apply app]. eapply tj_weak; [|auto].
    eapply (proj1 (proj2 (t_run n))) with (nm := "parse") (d := c) (rest := mro P c); eauto; [now exists []|rewrite Hh; eauto|simpl; lia|lia].
  - apply tj_any. simpl. prs; auto.
Qed.
End Sound.
