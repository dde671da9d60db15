(** * What a run can do to the state

    Whatever the program, and whether a run ends normally or with an exception: the heap only grows, every object keeps its
    class (and lists stay lists), the input is only consumed from the front and the output only appended to.
    No theorem of this file depends on the translated program. *)
From Coq Require Import ZArith String List Bool Lia.
From Coq Require Import Strings.Byte.
From Verif Require Import Lang Ind Bytes Interp.
Import ListNotations.
Open Scope string_scope. Open Scope list_scope.

Definition kind (o : hobj) : option string := match o with HInst c _ => Some c | HList _ => None end.

Definition evolves (s s' : st) : Prop :=
  ifull s' = ifull s /\ (exists used, irest s = used ++ irest s') /\ (exists bs, out s' = out s ++ bs) /\
  (length (heap s) <= length (heap s'))%nat /\
  (forall l o, nth_error (heap s) l = Some o -> exists o', nth_error (heap s') l = Some o' /\ kind o' = kind o).

Definition ev {A} (m : M A) : Prop := forall s, evolves s (snd (m s)).

Lemma evolves_refl s : evolves s s.
Proof. repeat split; auto; [now exists []|exists []; now rewrite app_nil_r|]. intros l o H. eauto. Qed.

Lemma evolves_trans a b c : evolves a b -> evolves b c -> evolves a c.
Proof.
  intros (A1 & (u1 & A2) & (o1 & A3) & A4 & A5) (B1 & (u2 & B2) & (o2 & B3) & B4 & B5). repeat split; try congruence; try lia.
  - exists (u1 ++ u2). now rewrite A2, B2, app_assoc.
  - exists (o1 ++ o2). now rewrite B3, A3, app_assoc.
  - intros l o H. destruct (A5 _ _ H) as (o' & H1 & K1). destruct (B5 _ _ H1) as (o'' & H2 & K2). exists o''. split; congruence.
Qed.

Lemma ev_ret {A} (a : A) : ev (ret a). Proof. intros s. apply evolves_refl. Qed.
Lemma ev_raise {A} e : ev (@raise A e). Proof. intros s. apply evolves_refl. Qed.
Lemma ev_bind {A B} (m : M A) (k : A -> M B) : ev m -> (forall a, ev (k a)) -> ev (bind m k).
Proof.
  intros Hm Hk s. unfold bind. specialize (Hm s). destruct (m s) as [[a|e] s']; simpl in *; [|exact Hm]. eapply evolves_trans; [exact Hm|apply Hk].
Qed.
Lemma ev_hget l : ev (hget l). Proof. intros s. apply evolves_refl. Qed.
Lemma ev_halloc o : ev (halloc o).
Proof.
  intros s. repeat split; simpl; auto; [now exists []|exists []; now rewrite app_nil_r|rewrite app_length; lia|].
  intros l x H. exists x. split; [|reflexivity]. rewrite nth_error_app1; [exact H|]. apply nth_error_Some. congruence.
Qed.
Lemma ev_raw_write b : ev (raw_write b).
Proof. intros s. repeat split; simpl; auto; [now exists []|now exists b|]. intros l x H. eauto. Qed.
Lemma ev_raw_read n : ev (raw_read n).
Proof.
  intros s. unfold raw_read. set (k := if (n <? 0)%Z then _ else _). repeat split; simpl; auto; [|exists []; now rewrite app_nil_r|].
  - exists (firstn k (irest s)). now rewrite firstn_skipn.
  - intros l x H. eauto.
Qed.
Lemma ev_if {A} (c : st -> bool) (a b : M A) : ev a -> ev b -> ev (fun s => if c s then a s else b s).
Proof. intros Ha Hb s. destruct (c s); auto. Qed.

Lemma set_nth_length {A} n (x : A) l : length (set_nth n x l) = length l.
Proof. revert n. induction l as [|y r IH]; intros [|n]; simpl; auto. Qed.
Lemma set_nth_same {A} n (x : A) l y : nth_error l n = Some y -> nth_error (set_nth n x l) n = Some x.
Proof. revert n. induction l as [|z r IH]; intros [|n]; simpl; try discriminate; auto. Qed.
Lemma set_nth_other {A} n m (x : A) l : n <> m -> nth_error (set_nth n x l) m = nth_error l m.
Proof. revert n m. induction l as [|z r IH]; intros [|n] [|m] H; simpl; auto; congruence. Qed.

Lemma hset_evolves s l o o' : nth_error (heap s) l = Some o -> kind o' = kind o -> evolves s (snd (hset l o' s)).
Proof.
  intros E K. repeat split; simpl; auto; [now exists []|exists []; now rewrite app_nil_r|now rewrite set_nth_length|].
  intros m x H. destruct (Nat.eq_dec l m) as [<-|N].
  - exists o'. split; [eapply set_nth_same; eauto|congruence].
  - exists x. split; [now rewrite set_nth_other|reflexivity].
Qed.

Ltac estep := first [ apply ev_ret | apply ev_raise | apply ev_halloc | apply ev_raw_write | apply ev_raw_read | apply ev_hget ].
Ltac ecases := repeat first [ estep
  | match goal with |- ev (match ?x with _ => _ end) => destruct x end
  | match goal with |- ev (if ?x then _ else _) => destruct x end ].

Lemma ev_binop o a b : ev (binop_val o a b).
Proof.
  unfold binop_val. destruct (as_int a), (as_int b), o;
  repeat first [ estep | apply ev_bind; [apply ev_hget|intros ?] |
    match goal with |- ev (match ?x with _ => _ end) => destruct x end
  | match goal with |- ev (if ?x then _ else _) => destruct x end ].
Qed.
Lemma ev_cmp o a b : ev (cmp_val o a b). Proof. unfold cmp_val. ecases. Qed.
Lemma ev_iter v : ev (iter_vals v).
Proof. unfold iter_vals. destruct v; try estep. apply ev_bind; [estep|intros ?; ecases]. Qed.
Lemma ev_sub v i : ev (sub_val v i).
Proof. unfold sub_val, nth_val. destruct v; ecases. apply ev_bind; [estep|intros ?; ecases]. Qed.
Lemma ev_set_sub v i x : ev (set_sub v i x).
Proof.
  unfold set_sub. destruct v; ecases. intros s. unfold bind, hget. destruct (nth_error (heap s) l) as [[|vs]|] eqn:E; try apply evolves_refl.
  destruct (as_int i); [|apply evolves_refl]. destruct (py_index z (length vs)); [|apply evolves_refl]. eapply hset_evolves; eauto.
Qed.

Local Opaque find_fcode fcodes.
Lemma ev_builtin b args : ev (builtin_val b args).
Proof.
  destruct b; unfold builtin_val; ecases;
  try (apply ev_bind; [first [apply ev_hget | apply ev_iter]|intros ?; ecases]).
  all: intros s; simpl; try match goal with |- context [pack ?h ?c ?v] => destruct (pack h c v) end; apply evolves_refl.
Qed.

Section Prog.
Variable P : prog.

Section WithCall.
Variable call : meth -> list val -> list string -> M val.
Hypothesis Hcall : forall m args kws, ev (call m args kws).

Lemma ev_get_attr v a : ev (get_attr P call v a).
Proof.
  destruct v; simpl; ecases. apply ev_bind; [estep|]. intros [[c at_|vs]|]; simpl; try estep.
  destruct (lookup P c a) as [[m|li]|]; simpl; ecases. apply Hcall.
Qed.
Lemma ev_set_attr v a x : ev (set_attr P v a x).
Proof.
  destruct v; simpl; ecases. intros s. unfold bind, hget. destruct (nth_error (heap s) l) as [[c at_|]|] eqn:E; try apply evolves_refl.
  destruct (lookup P c a) as [[m|]|]; [destruct (m_kind m); try apply evolves_refl| |]; eapply hset_evolves; eauto.
Qed.
Lemma ev_has_attr v a : ev (has_attr P v a).
Proof. destruct v; simpl; ecases. apply ev_bind; [estep|]. intros [[c at_|vs]|]; simpl; ecases. Qed.
Lemma ev_resolve v m : ev (resolve P v m).
Proof. destruct v; simpl; ecases. apply ev_bind; [estep|]. intros ?; ecases. Qed.
Lemma ev_resolve_super v c m : ev (resolve_super P v c m).
Proof. destruct v; simpl; ecases. apply ev_bind; [estep|]. intros ?; ecases. Qed.
Lemma ev_native v m args : ev (native P call v m args).
Proof.
  destruct v; simpl; destruct args as [|x [|y r]]; simpl; try estep; ecases.
  - intros s. unfold bind, hget. destruct (nth_error (heap s) l) as [[|vs]|] eqn:E; try apply evolves_refl.
    pose proof (hset_evolves s l _ (HList (vs ++ [x])) E eq_refl) as H. unfold hset in *. exact H.
  - apply ev_bind; [apply ev_resolve|intros c]. destruct c; ecases. apply ev_bind; [apply Hcall|intros; ecases].
  - apply ev_bind; [apply ev_resolve|intros c]. destruct c; ecases. apply ev_bind; [apply Hcall|intros; ecases].
Qed.
Lemma ev_apply c args kws : ev (apply P call c args kws).
Proof.
  destruct c; simpl.
  - apply Hcall.
  - destruct (is_abstract P c); [estep|]. apply ev_bind; [estep|intros o]. destruct (lookup P c "__init__") as [[m|]|]; ecases.
    apply ev_bind; [apply Hcall|intros; estep].
  - ecases.
  - destruct kws; [apply ev_native|estep].
  - ecases.
Qed.
Lemma ev_eval_list es rho : Forall (fun e => forall rho, ev (eval P call e rho)) es -> ev (eval_list (eval P call) es rho).
Proof.
  induction 1 as [|e r He Hr IH]; simpl; [estep|]. apply ev_bind; [apply He|intros v]. apply ev_bind; [apply IH|intros; estep].
Qed.
Lemma ev_eval e : forall rho, ev (eval P call e rho).
Proof.
  induction e using expr_ind'; simpl; intros rho.
  - estep.
  - destruct (assoc x rho); estep.
  - unfold glob. ecases.
  - apply ev_bind; [auto|intros; apply ev_get_attr].
  - apply ev_bind; [apply IHe1|intros]. apply ev_bind; [apply IHe2|intros; apply ev_sub].
  - apply ev_bind; [apply IHe|intros v]. apply ev_bind; [unfold callee_of; ecases|intros c].
    apply ev_bind; [now apply ev_eval_list|intros; apply ev_apply].
  - apply ev_bind; [auto|intros v]. apply ev_bind; [apply ev_resolve|]. intros c.
    apply ev_bind; [now apply ev_eval_list|intros; now apply ev_apply].
  - destruct (assoc "self" rho) as [v|]; [|estep]. apply ev_bind; [apply ev_resolve_super|]. intros o.
    apply ev_bind; [now apply ev_eval_list|intros vs]. destruct o; [now apply ev_apply|ecases].
  - apply ev_bind; [now apply ev_eval_list|intros; apply ev_builtin].
  - apply ev_bind; [auto|intros; apply ev_has_attr].
  - apply ev_bind; [now apply ev_eval_list|intros; estep].
  - apply ev_bind; [now apply ev_eval_list|intros; estep].
  - apply ev_bind; [apply IHe1|intros]. apply (ev_if (fun s => truth (heap s) a) (ret a)); [estep|apply IHe2].
  - apply ev_bind; [apply IHe1|intros]. apply (ev_if (fun s => truth (heap s) a) _ (ret a)); [apply IHe2|estep].
  - apply ev_bind; [auto|intros a s]. apply evolves_refl.
  - apply ev_bind; [apply IHe1|intros]. apply ev_bind; [apply IHe2|intros; apply ev_binop].
  - apply ev_bind; [apply IHe1|intros]. apply ev_bind; [apply IHe2|intros; apply ev_cmp].
  - apply ev_bind; [apply IHe1|intros]. apply ev_if; [apply IHe2|apply IHe3].
Qed.
Lemma ev_block b : Forall (fun c => forall rho, ev (exec P call c rho)) b -> forall rho, ev (run_block (exec P call) b rho).
Proof.
  induction 1 as [|c r Hc Hr IH]; simpl; intros rho; [estep|]. apply ev_bind; [now apply Hc|]. intros [rho' o]. simpl. destruct o; [estep|apply IH].
Qed.
Lemma ev_for bd x : (forall rho, ev (bd rho)) -> forall vs rho, ev (for_loop bd x vs rho).
Proof.
  intros H. induction vs as [|v r IH]; intros rho; simpl; [estep|]. apply ev_bind; [apply H|]. intros [rho' o]. simpl. destruct o; [estep|apply IH].
Qed.
Lemma ev_exec c : forall rho, ev (exec P call c rho).
Proof.
  induction c using stmt_ind'; simpl; intros rho.
  - apply ev_bind; [apply ev_eval|intros; estep].
  - apply ev_bind; [apply ev_eval|intros; estep].
  - apply ev_bind; [apply ev_eval|intros]. apply ev_bind; [apply ev_eval|intros]. apply ev_bind; [apply ev_set_attr|intros; estep].
  - apply ev_bind; [apply ev_eval|intros]. apply ev_bind; [apply ev_eval|intros]. apply ev_bind; [apply ev_eval|intros].
    apply ev_bind; [apply ev_set_sub|intros; estep].
  - apply ev_bind; [apply ev_eval|intros v]. apply ev_if; now apply ev_block.
  - apply ev_bind; [apply ev_eval|intros v]. apply ev_bind; [apply ev_iter|intros vs]. apply ev_for. intros rho'. now apply ev_block.
  - apply ev_bind; [apply ev_eval|intros; estep].
  - estep.
  - apply ev_bind; [apply ev_eval|intros v s]. destruct (truth (heap s) v); apply evolves_refl.
  - estep.
Qed.
End WithCall.

Theorem ev_run fuel : forall m args kws, ev (run P fuel m args kws).
Proof.
  induction fuel as [|n IH]; intros m args kws; simpl; [estep|]. destruct (bind_args (m_params m) args kws) as [rho|]; [|estep].
  apply ev_bind; [|intros; estep]. apply ev_block. apply Forall_forall. intros c _ rho'. now apply ev_exec.
Qed.

Theorem ev_call_method fuel v m args : ev (call_method P fuel v m args).
Proof. unfold call_method. apply ev_bind; [apply ev_resolve|intros c]. apply ev_apply, ev_run. Qed.

Theorem ev_new fuel c args : ev (new P fuel c args).
Proof. apply ev_apply, ev_run. Qed.

(** a constructor returns a new instance of its class *)
Theorem new_class fuel c args s v s' : new P fuel c args s = (Ok v, s') ->
  v = VRef (length (heap s)) /\ exists at_, nth_error (heap s') (length (heap s)) = Some (HInst c at_).
Proof.
  unfold new, apply. destruct (is_abstract P c); [discriminate|]. unfold bind at 1, halloc. set (s1 := mkst _ _ _ _).
  assert (E1 : nth_error (heap s1) (length (heap s)) = Some (HInst c [])) by (simpl; rewrite nth_error_app2, Nat.sub_diag; auto).
  destruct (lookup P c "__init__") as [[m|]|]; [|discriminate|].
  - unfold bind. pose proof (ev_run fuel m (VRef (length (heap s)) :: args) [] s1) as (_ & _ & _ & _ & K).
    destruct (run P fuel m _ [] s1) as [[x|e] s2]; [|discriminate]. intros [= <- <-]. split; [reflexivity|].
    destruct (K _ _ E1) as ([d at_|vs] & H1 & H2); [|discriminate]. injection H2 as ->. eauto.
  - destruct args; [|discriminate]. intros [= <- <-]. split; [reflexivity|eauto].
Qed.
End Prog.
