(** * The bound on nested calls does not matter to the number of steps either

    As Mono.v, for the interpreter with a counter: a run that does not hit the bound takes the same steps with any larger bound. *)
From Coq Require Import ZArith String List Bool Lia.
From Verif Require Import Lang Ind Bytes Interp Cost.
Import ListNotations.
Open Scope string_scope. Open Scope list_scope.

Definition apx {A} (m m' : MT A) : Prop := forall s, fst (snd (m s)) = Exc RecursionError \/ m' s = m s.
Lemma apx_refl {A} (m : MT A) : apx m m. Proof. intros s. now right. Qed.
Lemma apx_tick {A} n (m m' : MT A) : apx m m' -> apx (tick n m) (tick n m').
Proof. intros H s. unfold tick. destruct (H s) as [E|E]; [left; destruct (m s) as [t r]; exact E|right; now rewrite E]. Qed.
Lemma apx_bind {A B} (m m' : MT A) (k k' : A -> MT B) : apx m m' -> (forall a, apx (k a) (k' a)) -> apx (bindT m k) (bindT m' k').
Proof.
  intros H K s. unfold bindT. destruct (H s) as [E|E].
  - left. destruct (m s) as [t [[a|e] s']]; simpl in *; [discriminate|]. congruence.
  - rewrite E. destruct (m s) as [t [[a|e] s']]; [|now right]. destruct (K a s') as [E'|E']; [left; destruct (k a s') as [t' r]; exact E'|right; now rewrite E'].
Qed.

Section Mono.
Variable P : prog.
Variables call call' : meth -> list val -> list string -> MT val.
Hypothesis Hcall : forall m args kws, apx (call m args kws) (call' m args kws).
Ltac app :=
  repeat first
    [ apply apx_refl | apply apx_bind; [|intros ?] | apply apx_tick | apply Hcall
    | match goal with |- apx (match ?x with _ => _ end) _ => destruct x end ].
Lemma apx_get_attr v a : apx (get_attrT P call v a) (get_attrT P call' v a).
Proof. unfold get_attrT. app. Qed.
Lemma apx_native v m args : apx (nativeT P call v m args) (nativeT P call' v m args).
Proof. unfold nativeT. app. Qed.
Lemma apx_apply c args kws : apx (applyT P call c args kws) (applyT P call' c args kws).
Proof. unfold applyT. destruct c; app. apply apx_native. Qed.
Lemma apx_list es rho : Forall (fun e => forall rho, apx (evalT P call e rho) (evalT P call' e rho)) es -> apx (eval_listT (evalT P call) es rho) (eval_listT (evalT P call') es rho).
Proof. induction 1; cbn [eval_listT]; app; auto. Qed.
Lemma apx_eval e : forall rho, apx (evalT P call e rho) (evalT P call' e rho).
Proof.
  induction e using expr_ind'; intros rho; cbn [evalT]; apply apx_tick;
    try (app; auto using apx_get_attr, apx_apply, apx_list; fail).
  - app; auto. intros s. destruct (truth (heap s) a); [now right|apply IHe2].
  - app; auto. intros s. destruct (truth (heap s) a); [apply IHe2|now right].
  - app; auto. intros s. destruct (truth (heap s) a); [apply IHe2|apply IHe3].
Qed.
Lemma apx_block b : Forall (fun c => forall rho, apx (execT P call c rho) (execT P call' c rho)) b ->
  forall rho, apx (run_blockT (execT P call) b rho) (run_blockT (execT P call') b rho).
Proof. induction 1; intros rho; cbn [run_blockT]; app; auto. Qed.
Lemma apx_for bd bd' x : (forall rho, apx (bd rho) (bd' rho)) -> forall vs rho, apx (for_loopT bd x vs rho) (for_loopT bd' x vs rho).
Proof. intros H. induction vs; intros rho; cbn [for_loopT]; app; auto. Qed.
Lemma apx_exec c : forall rho, apx (execT P call c rho) (execT P call' c rho).
Proof.
  induction c using stmt_ind'; intros rho; cbn [execT]; apply apx_tick; try (app; auto using apx_eval; fail).
  - app; auto using apx_eval. intros s. destruct (truth (heap s) a0); apply apx_block; assumption.
  - app; auto using apx_eval. apply apx_for. intros. apply apx_block; assumption.
Qed.
End Mono.

Lemma apx_run P n n' : (n <= n')%nat -> forall m args kws, apx (runT P n m args kws) (runT P n' m args kws).
Proof.
  revert n'. induction n as [|n IH]; intros n' Hn m args kws.
  - intros s. left. reflexivity.
  - destruct n' as [|n']; [lia|]. cbn [runT]. apply apx_tick. destruct (bind_args _ _ _); [|apply apx_refl].
    apply apx_bind; [|intros; apply apx_refl]. apply apx_block. apply Forall_forall. intros c _ rho. apply apx_exec. apply IH. lia.
Qed.
Theorem createT_fuel P table n n' h data : (n <= n')%nat -> fst (snd (createPduT P table n h data)) <> Exc RecursionError -> createPduT P table n' h data = createPduT P table n h data.
Proof.
  intros Hn H. unfold createPduT in *. assert (C : forall v m args, apx (call_methodT P n v m args) (call_methodT P n' v m args)).
  { intros. apply apx_bind; [apply apx_refl|intros c]. apply apx_apply. now apply apx_run. }
  assert (A : apx (getPduT P table n) (getPduT P table n')).
  { apply apx_bind; [apply apx_refl|intros ?]. apply apx_bind; [apply C|intros t]. apply apx_bind; [apply apx_refl|intros ?]. destruct t; try apply apx_refl. destruct (zassoc z table); [|apply apx_refl].
    apply apx_bind; [apply apx_apply; now apply apx_run|intros p]. apply apx_bind; [apply C|intros; apply apx_refl]. }
  destruct (A (mkst h data data [])) as [E|E]; [contradiction|exact E].
Qed.
