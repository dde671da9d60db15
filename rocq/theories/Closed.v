(** * No dangling references

    In a heap whose objects only refer to objects of the heap, whatever is run keeps it so, and results refer to objects
    of the heap.  Like [Inv.v], this is about every program. *)
From Coq Require Import ZArith String List Bool Lia.
From Coq Require Import Strings.Byte.
From Verif Require Import Lang Ind Bytes Interp Shift Inv.
Import ListNotations.
Open Scope string_scope. Open Scope list_scope. Open Scope nat_scope.

(** every reference of the value is below k *)
Fixpoint vok (k : nat) (v : val) : bool :=
  match v with VRef l => Nat.ltb l k | VTuple vs => forallb (vok k) vs | _ => true end.
Definition eok (k : nat) (e : env) : bool := forallb (fun p => vok k (snd p)) e.
Definition ook (k : nat) (o : hobj) : bool := match o with HInst _ a => eok k a | HList vs => forallb (vok k) vs end.
Definition hok (h : list hobj) : Prop := forallb (ook (length h)) h = true.

Fixpoint vok_mono k k' v {struct v} : k <= k' -> vok k v = true -> vok k' v = true.
Proof.
  intros Hk. destruct v; simpl; auto.
  - rewrite !Nat.ltb_lt. lia.
  - induction vs as [|x r IH]; simpl; auto. rewrite !andb_true_iff. intros [A B]. split; [now apply (vok_mono k k')|auto].
Qed.
Lemma voks_mono k k' vs : k <= k' -> forallb (vok k) vs = true -> forallb (vok k') vs = true.
Proof. intros Hk. rewrite !forallb_forall. intros H x Hx. eapply vok_mono; eauto. Qed.
Lemma eok_mono k k' e : k <= k' -> eok k e = true -> eok k' e = true.
Proof. intros Hk. unfold eok. rewrite !forallb_forall. intros H x Hx. eapply vok_mono; eauto. Qed.
Lemma ook_mono k k' o : k <= k' -> ook k o = true -> ook k' o = true.
Proof. destruct o; simpl; eauto using eok_mono, voks_mono. Qed.

Lemma eok_assoc k e x v : eok k e = true -> assoc x e = Some v -> vok k v = true.
Proof.
  unfold eok. induction e as [|[y w] r IH]; simpl; [discriminate|]. rewrite andb_true_iff. intros [A B]. destruct (String.eqb x y); [intros [= <-]; auto|auto].
Qed.
Lemma eok_upd k e x v : eok k e = true -> vok k v = true -> eok k (upd x v e) = true.
Proof.
  unfold eok. induction e as [|[y w] r IH]; simpl; intros A B; [now rewrite B|]. apply andb_true_iff in A as [A1 A2].
  destruct (String.eqb x y); simpl; rewrite ?B, ?A1, ?A2; auto.
Qed.

Lemma hok_get h l o : hok h -> nth_error h l = Some o -> ook (length h) o = true.
Proof. unfold hok. rewrite forallb_forall. intros H E. apply H. eapply nth_error_In; eauto. Qed.
Lemma hok_add h o : hok h -> ook (length h) o = true -> hok (h ++ [o]).
Proof.
  unfold hok. intros H A. rewrite forallb_app, app_length. simpl. rewrite andb_true_r. apply andb_true_iff. split; [|eapply ook_mono; [|exact A]; lia].
  rewrite forallb_forall in *. intros x Hx. eapply ook_mono; [|apply H; exact Hx]. lia.
Qed.
Lemma In_set_nth {A} n (x y : A) l : In y (set_nth n x l) -> y = x \/ In y l.
Proof. revert n. induction l as [|z r IH]; intros [|n]; simpl; [tauto|tauto|intuition|]. intros [->|H]; [auto|]. destruct (IH n H); auto. Qed.
Lemma hok_set h l o : hok h -> ook (length h) o = true -> hok (set_nth l o h).
Proof.
  unfold hok. intros H A. rewrite set_nth_length. rewrite forallb_forall in *. intros x Hx. apply In_set_nth in Hx as [->|Hx]; auto.
Qed.

(** started with at least k objects, m keeps the heap closed, and its result is in Q *)
Definition cl {A} (k : nat) (Q : nat -> A -> Prop) (m : M A) : Prop :=
  forall s, hok (heap s) -> k <= length (heap s) ->
    hok (heap (snd (m s))) /\ length (heap s) <= length (heap (snd (m s))) /\
    match fst (m s) with Ok a => Q (length (heap (snd (m s)))) a | Exc _ => True end.

Definition V (k : nat) (v : val) : Prop := vok k v = true.
Definition VS (k : nat) (vs : list val) : Prop := forallb (vok k) vs = true.
Definition any {A} (k : nat) (a : A) : Prop := True.
Definition OO (k : nat) (o : option hobj) : Prop := match o with Some x => ook k x = true | None => True end.

Lemma cl_ret {A} k (Q : nat -> A -> Prop) a : (forall k', k <= k' -> Q k' a) -> cl k Q (ret a).
Proof. intros H s Hs Hk. simpl. auto. Qed.
Lemma cl_raise {A} k (Q : nat -> A -> Prop) e : cl k Q (raise e).
Proof. intros s Hs Hk. simpl. auto. Qed.
Lemma cl_bind {A B} k (Q : nat -> A -> Prop) (R : nat -> B -> Prop) m f :
  cl k Q m -> (forall a k', k <= k' -> Q k' a -> cl k' R (f a)) -> cl k R (bind m f).
Proof.
  intros Hm Hf s Hs Hk. unfold bind. destruct (Hm s Hs Hk) as (A1 & A2 & A3). destruct (m s) as [[a|e] s']; simpl in *; [|auto].
  destruct (Hf a (length (heap s')) ltac:(lia) A3 s' A1 ltac:(lia)) as (B1 & B2 & B3). split; [exact B1|]. split; [lia|exact B3].
Qed.
Lemma cl_weak {A} k (Q R : nat -> A -> Prop) m : cl k Q m -> (forall k' a, Q k' a -> R k' a) -> cl k R m.
Proof. intros Hm H s Hs Hk. destruct (Hm s Hs Hk) as (A1 & A2 & A3). split; [exact A1|]. split; [exact A2|]. destruct (fst (m s)); auto. Qed.
Lemma cl_hget k l : cl k OO (hget l).
Proof.
  intros s Hs Hk. simpl. split; [exact Hs|]. split; [auto|]. unfold OO. destruct (nth_error (heap s) l) eqn:E; [|exact I]. eapply hok_get; eauto.
Qed.
Lemma cl_halloc k o : ook k o = true -> cl k V (halloc o).
Proof.
  intros Ho s Hs Hk. simpl. split; [apply hok_add; [exact Hs|eapply ook_mono; eauto]|]. rewrite app_length. simpl. split; [lia|].
  unfold V. simpl. apply Nat.ltb_lt. lia.
Qed.
Lemma cl_hset k l o : ook k o = true -> cl k any (hset l o).
Proof. intros Ho s Hs Hk. simpl. split; [apply hok_set; [exact Hs|eapply ook_mono; eauto]|]. rewrite set_nth_length. split; [auto|exact I]. Qed.
Lemma cl_raw_write k b : cl k V (raw_write b). Proof. intros s Hs Hk. simpl. repeat split; auto. Qed.
Lemma cl_raw_read k n : cl k V (raw_read n). Proof. intros s Hs Hk. simpl. repeat split; auto. Qed.
Lemma cl_if {A} k (Q : nat -> A -> Prop) (c : st -> bool) a b : cl k Q a -> cl k Q b -> cl k Q (fun s => if c s then a s else b s).
Proof. intros Ha Hb s. destruct (c s); auto. Qed.

Local Hint Resolve vok_mono voks_mono eok_mono ook_mono : core.
Ltac qstep := lazymatch goal with
  | |- cl _ _ (raise _) => apply cl_raise
  | |- cl _ _ (ret _) => apply cl_ret; intros ? ?; exact eq_refl
  | |- cl _ _ (raw_write _) => apply cl_raw_write
  | |- cl _ _ (raw_read _) => apply cl_raw_read
  end.
Ltac qcases := repeat first [ qstep
  | match goal with |- cl _ _ (match ?x with _ => _ end) => destruct x end
  | match goal with |- cl _ _ (if ?x then _ else _) => destruct x end ].
Ltac cstep := lazymatch goal with
  | |- cl _ _ (raise _) => apply cl_raise
  | |- cl _ _ (ret _) => apply cl_ret; intros ? ?; try exact eq_refl; unfold V, VS, any; try exact I; eauto
  | |- cl _ _ (raw_write _) => apply cl_raw_write
  | |- cl _ _ (raw_read _) => apply cl_raw_read
  end.
Ltac ccases := repeat first [ cstep
  | match goal with |- cl _ _ (match ?x with _ => _ end) => destruct x eqn:? end
  | match goal with |- cl _ _ (if ?x then _ else _) => destruct x eqn:? end ].

Lemma forallb_map_true {A} k (f : A -> val) l : (forall a, vok k (f a) = true) -> forallb (vok k) (map f l) = true.
Proof. intros H. induction l; simpl; auto. rewrite H. auto. Qed.
Lemma forallb_repeat k n vs : forallb (vok k) vs = true -> forallb (vok k) (repeat_list n vs) = true.
Proof. intros H. induction n; simpl; auto. rewrite forallb_app, H. auto. Qed.
Lemma forallb_set k n x vs : forallb (vok k) vs = true -> vok k x = true -> forallb (vok k) (set_nth n x vs) = true.
Proof. revert n. induction vs as [|y r IH]; intros [|n]; simpl; auto; rewrite ?andb_true_iff; intuition. Qed.
Lemma forallb_nth k vs i v : forallb (vok k) vs = true -> nth_error vs i = Some v -> vok k v = true.
Proof. rewrite forallb_forall. intros H E. apply H. eapply nth_error_In; eauto. Qed.
Lemma forallb_filter k (g : val -> bool) vs : forallb (vok k) vs = true -> forallb (vok k) (filter g vs) = true.
Proof. rewrite !forallb_forall. intros H x Hx. apply filter_In in Hx as [Hx _]. auto. Qed.

Lemma cl_binop k o a b : vok k a = true -> vok k b = true -> cl k V (binop_val o a b).
Proof.
  intros Ha Hb. unfold binop_val. destruct (as_int a), (as_int b), o; try (qcases; fail).
  all: destruct a; try (qcases; fail); eapply cl_bind; [apply cl_hget|intros [[c at_|vs]|] k' Hk Ho; qcases].
  all: apply cl_halloc; simpl; now apply forallb_repeat.
Qed.
Lemma cl_cmp k o a b : cl k V (cmp_val o a b). Proof. unfold cmp_val. qcases. Qed.
Lemma cl_iter k v : vok k v = true -> cl k VS (iter_vals v).
Proof.
  intros Hv. unfold iter_vals. destruct v; try cstep.
  - apply forallb_map_true. reflexivity.
  - apply forallb_map_true. reflexivity.
  - eapply cl_bind; [apply cl_hget|]. intros [[c at_|vs]|] k' Hk Ho; ccases.
  - apply forallb_map_true. reflexivity.
Qed.
Lemma cl_nth_val k l i : forallb (vok k) l = true -> cl k V (nth_val l i).
Proof. intros H. unfold nth_val. ccases. eapply vok_mono; [eassumption|]. eapply forallb_nth; eauto. Qed.
Lemma cl_sub k v i : vok k v = true -> cl k V (sub_val v i).
Proof.
  intros Hv. unfold sub_val. destruct v; try apply cl_raise.
  - destruct (as_int i); [|apply cl_raise]. apply cl_nth_val, forallb_map_true. reflexivity.
  - destruct (as_int i); [|apply cl_raise]. apply cl_nth_val, forallb_map_true. reflexivity.
  - eapply cl_bind; [apply cl_hget|]. intros [[c at_|vs]|] k' Hk Ho; try apply cl_raise. destruct (as_int i); [|apply cl_raise]. now apply cl_nth_val.
  - destruct (as_int i); [|apply cl_raise]. now apply cl_nth_val.
Qed.
Lemma cl_set_sub k v i x : vok k x = true -> cl k any (set_sub v i x).
Proof.
  intros Hx. unfold set_sub. destruct v; try apply cl_raise. eapply cl_bind; [apply cl_hget|]. intros [[c at_|vs]|] k' Hk Ho; try apply cl_raise.
  destruct (as_int i); [|apply cl_raise]. destruct (py_index z (length vs)); [|apply cl_raise]. apply cl_hset. simpl. apply forallb_set; eauto.
Qed.

Local Opaque find_fcode fcodes.
Lemma cl_builtin k b args : forallb (vok k) args = true -> cl k V (builtin_val b args).
Proof.
  intros Ha. destruct args as [|x args]; [destruct b; apply cl_raise|]. simpl in Ha. apply andb_true_iff in Ha as [Hx Ha].
  destruct b; unfold builtin_val.
  - (* len *) destruct args; [|destruct x; apply cl_raise]. destruct x; try qstep. eapply cl_bind; [apply cl_hget|]. intros [[c at_|vs]|] k' Hk Ho; qcases.
  - (* range *) qcases.
  - (* int *) destruct args; [|destruct x; apply cl_raise]. destruct x; qcases.
  - destruct args; [|destruct x; apply cl_raise]. destruct x; qcases.
  - destruct args; [|destruct x; apply cl_raise]. destruct x; qcases.
  - destruct args; [|destruct x; apply cl_raise]. intros s Hs Hk. simpl. repeat split; auto.
  - qcases.
  - qcases.
  - destruct args; [|apply cl_raise]. eapply cl_bind; [now apply cl_iter|]. intros vs k' Hk Ho. apply cl_halloc. exact Ho.
  - destruct args; [|destruct x; apply cl_raise].
    destruct x; try qstep; (eapply cl_bind; [now apply cl_iter|]; intros vs' k' Hk Ho; qcases).
  - destruct args; [|apply cl_raise]. eapply cl_bind; [now apply cl_iter|]. intros vs k' Hk Ho s Hs Hk2. simpl. repeat split; auto.
    unfold V. simpl. apply forallb_filter. unfold VS in Ho. eapply voks_mono; eauto.
  - qcases.
  - destruct args as [|y [|z r]]; destruct x; try apply cl_raise. destruct (find_fcode cs fcodes) as [c|]; [|apply cl_raise].
    intros s Hs Hk. simpl. destruct (pack (heap s) c y); simpl; repeat split; auto.
  - destruct args as [|y [|z r]]; destruct x; try apply cl_raise; destruct y; try apply cl_raise. destruct (find_fcode cs fcodes) as [c|]; [|apply cl_raise].
    destruct (unpack c l) as [v|e] eqn:E; [|apply cl_raise]. apply cl_ret. intros k' _.
    unfold unpack in E. destruct (Nat.eqb _ _); [|discriminate]. injection E as <-. destruct c; reflexivity.
Qed.

Section Prog.
Variable P : prog.
Hypothesis HP : no_shared_defaults P = true.

Lemma lit_vok k l : vok k (lit_val l) = true. Proof. destruct l; reflexivity. Qed.
Lemma nocell_lookup_in cs m q : lookup_in P cs m = Some (MMeth q) -> nocell q = true.
Proof.
  unfold no_shared_defaults in HP. apply andb_true_iff in HP as [H _]. rewrite forallb_forall in H. induction cs as [|c r IH]; simpl; [discriminate|].
  destruct (get_cls P c) as [k|] eqn:E; [|auto]. destruct (assoc m (c_members k)) eqn:E2; [|auto]. intros [= ->].
  assert (I1 : forall A x (l : list (string * A)) v, assoc x l = Some v -> In (x, v) l).
  { clear. induction l as [|[y w] r IH]; simpl; [discriminate|]. intros v. destruct (String.eqb_spec x y); [intros [= ->]; subst; auto|auto]. }
  apply I1 in E, E2. specialize (H _ E). rewrite forallb_forall in H. exact (H _ E2).
Qed.
Lemma nocell_fun f q : assoc f (p_funs P) = Some q -> nocell q = true.
Proof.
  unfold no_shared_defaults in HP. apply andb_true_iff in HP as [_ H]. rewrite forallb_forall in H. intros E.
  assert (I1 : forall A x (l : list (string * A)) v, assoc x l = Some v -> In (x, v) l).
  { clear. induction l as [|[y w] r IH]; simpl; [discriminate|]. intros v. destruct (String.eqb_spec x y); [intros [= ->]; subst; auto|auto]. }
  exact (H _ (I1 _ _ _ _ E)).
Qed.

(** ** argument binding *)
Lemma bind_pos_ok k ps : forall args e rest, forallb (vok k) args = true -> bind_pos ps args = Some (e, rest) -> eok k e = true /\ exists n, rest = skipn n ps.
Proof.
  induction ps as [|[x d] ps IH]; intros [|a args] e rest; simpl; intros Ha H; try discriminate; try (injection H as <- <-; split; [reflexivity|now exists 0]).
  apply andb_true_iff in Ha as [A1 A2]. destruct (bind_pos ps args) as [[e' r']|] eqn:E; [|discriminate]. injection H as <- <-.
  destruct (IH _ _ _ A2 E) as (B1 & n & ->). split; [simpl; now rewrite A1|now exists (S n)].
Qed.
Lemma forallb_skipn {T} (g : T -> bool) n l : forallb g l = true -> forallb g (skipn n l) = true.
Proof. revert n. induction l as [|x r IH]; intros [|n]; simpl; auto. rewrite andb_true_iff. intros [_ H]. auto. Qed.
Lemma forallb_firstn {T} (g : T -> bool) n l : forallb g l = true -> forallb g (firstn n l) = true.
Proof. revert n. induction l as [|x r IH]; intros [|n]; simpl; auto. rewrite !andb_true_iff. intros [A B]. auto. Qed.
Lemma bind_rest_ok k ps : forall kw e, forallb (fun p => match snd p with Some (DCell _) => false | _ => true end) ps = true ->
  eok k kw = true -> bind_rest ps kw = Some e -> eok k e = true.
Proof.
  induction ps as [|[x d] ps IH]; intros kw e; simpl; intros Hn Hk H.
  - destruct kw; [injection H as <-; reflexivity|discriminate].
  - apply andb_true_iff in Hn as [N1 N2]. destruct (assoc x kw) as [v|] eqn:E.
    + destruct (bind_rest ps _) as [e'|] eqn:E2; [|discriminate]. injection H as <-. simpl. rewrite (eok_assoc _ _ _ _ Hk E). simpl.
      eapply IH; [exact N2| |exact E2]. unfold eok in *. rewrite forallb_forall in *. intros p Hp. apply filter_In in Hp as [Hp _]. auto.
    + destruct d as [dv|]; [|discriminate]. destruct (bind_rest ps kw) as [e'|] eqn:E2; [|discriminate]. injection H as <-. simpl.
      rewrite (IH _ _ N2 Hk E2), andb_true_r. destruct dv; [apply lit_vok|discriminate].
Qed.
Lemma eok_combine k kws vs : forallb (vok k) vs = true -> eok k (combine kws vs) = true.
Proof. revert vs. induction kws as [|x r IH]; intros [|v vs]; simpl; auto. rewrite andb_true_iff. intros [A B]. rewrite A. now apply IH. Qed.
Lemma bind_args_ok k m args kws e : nocell m = true -> forallb (vok k) args = true -> bind_args (m_params m) args kws = Some e -> eok k e = true.
Proof.
  unfold bind_args, nocell. intros Hn Ha H. destruct (bind_pos _ _) as [[e1 rest]|] eqn:E1; [|discriminate].
  destruct (bind_rest rest _) as [e2|] eqn:E2; [|discriminate]. injection H as <-.
  destruct (bind_pos_ok k _ _ _ _ (forallb_firstn _ _ _ Ha) E1) as (A & n & ->).
  unfold eok. rewrite forallb_app. apply andb_true_iff. split; [exact A|].
  eapply bind_rest_ok; [|apply eok_combine, forallb_skipn; exact Ha|exact E2]. now apply forallb_skipn.
Qed.

Section WithCall.
Variable call : meth -> list val -> list string -> M val.
Hypothesis Hcall : forall m args kws k, nocell m = true -> forallb (vok k) args = true -> cl k V (call m args kws).

Definition okc (k : nat) (c : callee) : Prop :=
  match c with
  | KMeth m pre => nocell m = true /\ forallb (vok k) pre = true
  | KNew _ a => eok k a = true
  | KNative v _ => vok k v = true
  | _ => True
  end.
Lemma okc_mono k k' c : k <= k' -> okc k c -> okc k' c.
Proof. intros Hk. destruct c; simpl; intuition eauto. Qed.

Lemma cl_get_attr k v a : vok k v = true -> cl k V (get_attr P call v a).
Proof.
  intros Hv. destruct v; simpl; try (ccases; apply lit_vok).
  - eapply cl_bind; [apply cl_hget|]. intros [[c at_|vs]|] k' Hk Ho; try apply cl_raise. simpl in Ho.
    destruct (lookup P c a) as [[m|li]|] eqn:L.
    + destruct (m_kind m).
      * destruct (assoc a at_) eqn:E; ccases. eapply eok_assoc; eauto.
      * apply Hcall; [eapply nocell_lookup_in; eauto|]. cbn [forallb]. rewrite andb_true_r. eapply vok_mono; eauto.
      * destruct (assoc a at_) eqn:E; ccases. eapply eok_assoc; eauto.
    + destruct (assoc a at_) eqn:E; ccases; [eapply eok_assoc; eauto|apply lit_vok].
    + destruct (assoc a at_) eqn:E; ccases. eapply eok_assoc; eauto.
Qed.
Lemma cl_set_attr k v a x : vok k x = true -> cl k any (set_attr P v a x).
Proof.
  intros Hx. destruct v; simpl; try apply cl_raise. eapply cl_bind; [apply cl_hget|]. intros [[c at_|vs]|] k' Hk Ho; try apply cl_raise. simpl in Ho.
  assert (H : cl k' any (hset l (HInst c (upd a x at_)))) by (apply cl_hset; simpl; apply eok_upd; eauto).
  destruct (lookup P c a) as [[m|li]|]; auto. destruct (m_kind m); auto. apply cl_raise.
Qed.
Lemma cl_has_attr k v a : cl k V (has_attr P v a).
Proof. destruct v; simpl; try apply cl_raise. eapply cl_bind; [apply cl_hget|]. intros [[c at_|vs]|] k' Hk Ho; ccases. Qed.
Lemma cl_resolve k v m : vok k v = true -> cl k okc (resolve P v m).
Proof.
  intros Hv. assert (R : forall k c, okc k c -> cl k okc (ret c)) by (intros k0 c Hc; apply cl_ret; intros; eapply okc_mono; eauto).
  destruct v; simpl; try apply cl_raise.
  - destruct (String.eqb m "decode"); [apply R|apply cl_raise]; reflexivity.
  - eapply cl_bind; [apply cl_hget|]. intros [[c at_|vs]|] k' Hk Ho; try apply cl_raise.
    + destruct (lookup P c m) as [[q|li]|] eqn:L.
      * pose proof (nocell_lookup_in _ _ _ L). destruct (m_kind q); try apply cl_raise; apply R; simpl; split; auto. rewrite andb_true_r. apply (vok_mono k k' (VRef l) Hk Hv).
      * destruct li; try apply cl_raise. apply R. exact I.
      * destruct (assoc m at_); apply cl_raise.
    + destruct (String.eqb m "append"); [apply R|apply cl_raise]. simpl. apply (vok_mono k k' (VRef l) Hk Hv).
  - destruct (lookup P _ m) as [[q|li]|] eqn:L; try apply cl_raise. apply R. simpl. split; auto. eapply nocell_lookup_in; eauto.
  - destruct (lookup P _ m) as [[q|li]|] eqn:L; try apply cl_raise. apply R. simpl. split; auto. eapply nocell_lookup_in; eauto.
  - destruct (String.eqb m "read"); [apply R|apply cl_raise]; reflexivity.
  - destruct (String.eqb m "write"); [apply R|apply cl_raise]; reflexivity.
  - destruct (lookup P _ m) as [[q|li]|] eqn:L; try apply cl_raise. apply R. simpl. split; auto. eapply nocell_lookup_in; eauto.
  - destruct (_ || _); [apply R|apply cl_raise]; reflexivity.
  - destruct (_ || _); [apply R|apply cl_raise]; reflexivity.
Qed.
Lemma cl_resolve_super k v c m : vok k v = true -> cl k (fun k o => match o with Some x => okc k x | None => True end) (resolve_super P v c m).
Proof.
  intros Hv. destruct v; simpl; try apply cl_raise. eapply cl_bind; [apply cl_hget|]. intros [[d at_|vs]|] k' Hk Ho; try apply cl_raise.
  destruct (after c (mro P d)); [|apply cl_raise]. destruct (lookup_in P l0 m) as [[q|li]|] eqn:L; try apply cl_raise.
  - pose proof (nocell_lookup_in _ _ _ L). destruct (m_kind q); try apply cl_raise; apply cl_ret; intros k2 Hk2; simpl; split; auto.
    rewrite andb_true_r. apply (vok_mono k k2 (VRef l)); [lia|exact Hv].
  - destruct (String.eqb m "__init__"); [|apply cl_raise]. apply cl_ret. auto.
Qed.
Lemma cl_native k v m args : vok k v = true -> forallb (vok k) args = true -> cl k V (native P call v m args).
Proof.
  intros Hv Ha. destruct v; simpl; destruct args as [|x [|y r]]; simpl; try apply cl_raise; qcases.
  - eapply cl_bind; [apply cl_hget|]. intros [[c at_|vs]|] k' Hk Ho; try apply cl_raise. simpl in Ho, Ha.
    apply andb_true_iff in Ha as [Ha _]. eapply cl_bind; [apply cl_hset|intros; ccases]. simpl. rewrite forallb_app, Ho. simpl.
    rewrite andb_true_r. eauto.
  - simpl in Ha. rewrite andb_true_r in Ha.
    eapply cl_bind; [now apply cl_resolve|]. intros c k' Hk Hc. destruct c; try apply cl_raise.
    destruct Hc as [C1 C2]. eapply cl_bind; [apply Hcall; [exact C1|rewrite forallb_app, C2; reflexivity]|]. intros r k2 Hk2 Hr. qcases.
  - simpl in Ha. rewrite andb_true_r in Ha.
    eapply cl_bind; [now apply cl_resolve|]. intros c k' Hk Hc. destruct c; try apply cl_raise.
    destruct Hc as [C1 C2]. eapply cl_bind; [apply Hcall; [exact C1|rewrite forallb_app, C2; reflexivity]|]. intros r k2 Hk2 Hr. qcases.
Qed.
Lemma cl_apply k c args kws : okc k c -> forallb (vok k) args = true -> cl k V (apply P call c args kws).
Proof.
  intros Hc Ha. destruct c; simpl in *.
  - apply Hcall; [tauto|]. rewrite forallb_app, Ha. now rewrite (proj2 Hc).
  - destruct (is_abstract P c); [apply cl_raise|]. eapply cl_bind; [apply cl_halloc; exact Hc|]. intros o k' Hk Ho.
    destruct (lookup P c "__init__") as [[m|]|] eqn:L; try apply cl_raise.
    + eapply cl_bind; [apply Hcall; [eapply nocell_lookup_in; eauto|]|].
      * simpl. unfold V in Ho. rewrite Ho. simpl. eapply voks_mono; eauto.
      * intros. apply cl_ret. intros. unfold V in *. eapply vok_mono; [|exact Ho]. lia.
    + destruct args; ccases.
  - ccases.
  - destruct kws; [now apply cl_native|apply cl_raise].
  - destruct args as [|x [|y [|z r]]], kws; try apply cl_raise; ccases.
    all: unfold getStandardVariableClass in *; repeat match goal with H : match ?x with _ => _ end = _ |- _ => destruct x; try discriminate end; congruence || (match goal with H : inl _ = inl _ |- _ => injection H as <- end; reflexivity).
Qed.
Lemma cl_eval_list es : Forall (fun e => forall k rho, eok k rho = true -> cl k V (eval P call e rho)) es ->
  forall k rho, eok k rho = true -> cl k VS (eval_list (eval P call) es rho).
Proof.
  induction 1 as [|e r He Hr IH]; simpl; intros k rho Hrho; [cstep|]. eapply cl_bind; [now apply He|intros v k' Hk Hv].
  eapply cl_bind; [apply IH; eauto|intros vs k2 Hk2 Hvs]. apply cl_ret. intros k3 Hk3. unfold VS, V in *. simpl. apply andb_true_iff. split; [eapply vok_mono; [|exact Hv]; lia|eauto].
Qed.
Lemma cl_eval e : forall k rho, eok k rho = true -> cl k V (eval P call e rho).
Proof.
  induction e using expr_ind'; simpl; intros k rho Hrho.
  - apply cl_ret. intros. apply lit_vok.
  - destruct (assoc x rho) eqn:E; [|apply cl_raise]. apply cl_ret. intros. unfold V. eapply vok_mono; [eassumption|]. eapply eok_assoc; eauto.
  - unfold glob. ccases.
  - eapply cl_bind; [auto|intros v k' Hk Hv]. now apply cl_get_attr.
  - eapply cl_bind; [apply IHe1; auto|intros v k' Hk Hv]. eapply cl_bind; [apply IHe2; eauto|intros i k2 Hk2 Hi]. apply cl_sub. unfold V in *. eauto.
  - eapply cl_bind; [apply IHe; auto|intros v k' Hk Hv]. apply (cl_bind _ okc).
    + unfold callee_of. destruct v; try apply cl_raise; try (apply cl_ret; intros; reflexivity || exact I).
      destruct (String.eqb f "getStandardVariableClass"); [apply cl_ret; intros; exact I|]. destruct (assoc f (p_funs P)) eqn:E; [|apply cl_raise].
      apply cl_ret. intros. simpl. split; [eapply nocell_fun; eauto|reflexivity].
    + intros c k2 Hk2 Hc. eapply cl_bind; [apply cl_eval_list; [assumption|eapply eok_mono; [|exact Hrho]; lia]|]. intros vs k3 Hk3 Hvs. apply cl_apply; [eapply okc_mono; eauto|exact Hvs].
  - eapply cl_bind; [auto|intros v k' Hk Hv]. eapply cl_bind; [now apply cl_resolve|]. intros c k2 Hk2 Hc.
    eapply cl_bind; [apply cl_eval_list; [assumption|eapply eok_mono; [|exact Hrho]; lia]|]. intros vs k3 Hk3 Hvs. apply cl_apply; [eapply okc_mono; eauto|exact Hvs].
  - destruct (assoc "self" rho) as [v|] eqn:E; [|apply cl_raise]. eapply cl_bind; [apply cl_resolve_super; eapply eok_assoc; eauto|]. intros o k2 Hk2 Ho.
    eapply cl_bind; [apply cl_eval_list; [assumption|eapply eok_mono; [|exact Hrho]; lia]|]. intros vs k3 Hk3 Hvs. destruct o; [apply cl_apply; [eapply okc_mono; eauto|exact Hvs]|]. ccases.
  - eapply cl_bind; [apply cl_eval_list; [assumption|eapply eok_mono; [|exact Hrho]; lia]|]. intros vs k2 Hk2 Hvs. now apply cl_builtin.
  - eapply cl_bind; [auto|intros v k' Hk Hv]. apply cl_has_attr.
  - eapply cl_bind; [apply cl_eval_list; [assumption|eapply eok_mono; [|exact Hrho]; lia]|]. intros vs k2 Hk2 Hvs. apply cl_halloc. exact Hvs.
  - eapply cl_bind; [apply cl_eval_list; [assumption|eapply eok_mono; [|exact Hrho]; lia]|]. intros vs k2 Hk2 Hvs. apply cl_ret. intros k3 Hk3. unfold V. simpl. unfold VS in Hvs. eauto.
  - eapply cl_bind; [apply IHe1; auto|intros v k' Hk Hv]. apply (cl_if k' V (fun s => truth (heap s) v) (ret v)); [apply cl_ret; unfold V in *; eauto|apply IHe2; eauto].
  - eapply cl_bind; [apply IHe1; auto|intros v k' Hk Hv]. apply (cl_if k' V (fun s => truth (heap s) v) _ (ret v)); [apply IHe2; eauto|apply cl_ret; unfold V in *; eauto].
  - eapply cl_bind; [auto|intros v k' Hk Hv s Hs Hl]. simpl. repeat split; auto.
  - eapply cl_bind; [apply IHe1; auto|intros v k' Hk Hv]. eapply cl_bind; [apply IHe2; eauto|intros i k2 Hk2 Hi]. apply cl_binop; [unfold V in *; eauto|exact Hi].
  - eapply cl_bind; [apply IHe1; auto|intros v k' Hk Hv]. eapply cl_bind; [apply IHe2; eauto|intros i k2 Hk2 Hi]. apply cl_cmp.
  - eapply cl_bind; [apply IHe1; auto|intros v k' Hk Hv]. apply cl_if; [apply IHe2; eauto|apply IHe3; eauto].
Qed.

Definition RO (k : nat) (r : Interp.R) : Prop := eok k (fst r) = true /\ match snd r with Some v => vok k v = true | None => True end.
Lemma cl_block b : Forall (fun c => forall k rho, eok k rho = true -> cl k RO (exec P call c rho)) b ->
  forall k rho, eok k rho = true -> cl k RO (run_block (exec P call) b rho).
Proof.
  induction 1 as [|c r Hc Hr IH]; simpl; intros k rho Hrho; [apply cl_ret; intros; split; simpl; eauto|]. eapply cl_bind; [now apply Hc|]. intros [rho' o] k' Hk [A B].
  simpl in *. destruct o; [|now apply IH]. apply cl_ret. intros. split; simpl; eauto.
Qed.
Lemma cl_for bd x : (forall k rho, eok k rho = true -> cl k RO (bd rho)) -> forall vs k rho, VS k vs -> eok k rho = true -> cl k RO (for_loop bd x vs rho).
Proof.
  intros H. induction vs as [|v r IH]; intros k rho Hvs Hrho; simpl; [apply cl_ret; intros; split; simpl; eauto|].
  unfold VS in Hvs. simpl in Hvs. apply andb_true_iff in Hvs as [V1 V2]. eapply cl_bind; [apply H, eok_upd; auto|]. intros [rho' o] k' Hk [A B]. simpl in *.
  destruct o; [apply cl_ret; intros; split; simpl; eauto|]. apply IH; [unfold VS; eauto|exact A].
Qed.
Lemma cl_exec c : forall k rho, eok k rho = true -> cl k RO (exec P call c rho).
Proof.
  assert (D : forall k rho, eok k rho = true -> cl k RO (ret (rho, None))) by (intros; apply cl_ret; intros; split; simpl; eauto).
  induction c using stmt_ind'; simpl; intros k rho Hrho.
  - eapply cl_bind; [now apply cl_eval|]. intros. apply D. eauto.
  - eapply cl_bind; [now apply cl_eval|]. intros v k' Hk Hv. apply D. apply eok_upd; eauto.
  - eapply cl_bind; [now apply cl_eval|]. intros v k' Hk Hv. eapply cl_bind; [apply cl_eval; eauto|]. intros ov k2 Hk2 Hov.
    eapply cl_bind; [apply cl_set_attr; unfold V in *; eauto|]. intros ? k3 Hk3 _. apply D. eapply eok_mono; [|exact Hrho]. lia.
  - eapply cl_bind; [now apply cl_eval|]. intros v k' Hk Hv. eapply cl_bind; [apply cl_eval; eauto|]. intros ov k2 Hk2 Hov.
    eapply cl_bind; [apply cl_eval; eapply eok_mono; [|exact Hrho]; lia|]. intros iv k3 Hk3 Hiv.
    eapply cl_bind; [apply cl_set_sub; unfold V in *; eapply vok_mono; [|exact Hv]; lia|]. intros ? k4 Hk4 _. apply D. eapply eok_mono; [|exact Hrho]. lia.
  - eapply cl_bind; [now apply cl_eval|]. intros v k' Hk Hv. apply cl_if; apply cl_block; eauto.
  - eapply cl_bind; [now apply cl_eval|]. intros v k' Hk Hv. eapply cl_bind; [now apply cl_iter|]. intros vs k2 Hk2 Hvs.
    apply cl_for; [|exact Hvs|eapply eok_mono; [|exact Hrho]; lia]. intros. now apply cl_block.
  - eapply cl_bind; [now apply cl_eval|]. intros v k' Hk Hv. apply cl_ret. intros. split; simpl; unfold V in *; eauto.
  - apply cl_raise.
  - eapply cl_bind; [now apply cl_eval|]. intros v k' Hk Hv s Hs Hl. destruct (truth (heap s) v); simpl; repeat split; auto. simpl. eapply eok_mono; [|exact Hrho]; lia.
  - now apply D.
Qed.
End WithCall.

Theorem cl_run fuel : forall m args kws k, nocell m = true -> forallb (vok k) args = true -> cl k V (run P fuel m args kws).
Proof.
  induction fuel as [|n IH]; intros m args kws k Hm Ha; simpl; [apply cl_raise|]. destruct (bind_args (m_params m) args kws) as [rho|] eqn:E; [|apply cl_raise].
  pose proof (bind_args_ok k m args kws rho Hm Ha E) as Hrho.
  eapply cl_bind; [apply cl_block; [|exact Hrho]; apply Forall_forall; intros c _ k' rho' H'; now apply cl_exec|].
  intros [rho' o] k' Hk [A B]. simpl in *. apply cl_ret. intros k2 Hk2. unfold V. destruct o; [eauto|reflexivity].
Qed.

Theorem cl_call_method fuel v m args k : vok k v = true -> forallb (vok k) args = true -> cl k V (call_method P fuel v m args).
Proof.
  intros Hv Ha. unfold call_method. eapply cl_bind; [now apply cl_resolve|]. intros c k' Hk Hc. apply cl_apply; [apply cl_run|exact Hc|eauto].
Qed.
Theorem cl_new fuel c args k : forallb (vok k) args = true -> cl k V (new P fuel c args).
Proof. intros Ha. apply cl_apply; [apply cl_run|reflexivity|exact Ha]. Qed.
Lemma cl_seek k n : cl k any (raw_seek n). Proof. intros s Hs Hk. simpl. repeat split; auto. Qed.
Theorem cl_getPdu table fuel k : cl k V (getPdu P table fuel).
Proof.
  unfold getPdu. eapply cl_bind; [apply cl_seek|]. intros ? k1 Hk1 _. eapply cl_bind; [apply cl_call_method; reflexivity|]. intros t k2 Hk2 Ht.
  eapply cl_bind; [apply cl_seek|]. intros ? k3 Hk3 _. destruct t; try apply cl_raise. destruct (zassoc z table); [|apply cl_ret; intros; reflexivity].
  eapply cl_bind; [now apply cl_new|]. intros p k4 Hk4 Hp. eapply cl_bind; [apply cl_call_method; [exact Hp|reflexivity]|]. intros ? k5 Hk5 _.
  apply cl_ret. intros. unfold V in *. eapply vok_mono; [|exact Hp]. lia.
Qed.
End Prog.
