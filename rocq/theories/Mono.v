(** * The bound on nested calls does not matter once it is large enough

    A run that does not hit the bound gives the same result with any larger bound. *)
From Coq Require Import ZArith String List Bool Lia.
From Verif Require Import Lang Ind Bytes Interp.
Import ListNotations.
Open Scope string_scope. Open Scope list_scope.

Definition approx {A} (m m' : M A) : Prop :=
  forall s, fst (m s) = Exc RecursionError \/ m' s = m s.

Lemma approx_refl {A} (m : M A) : approx m m.
Proof. intros s. now right. Qed.

Lemma approx_bind {A B} (m m' : M A) (k k' : A -> M B) :
  approx m m' -> (forall a, approx (k a) (k' a)) -> approx (bind m k) (bind m' k').
Proof.
  intros H K s. unfold bind. destruct (H s) as [E|E].
  - left. destruct (m s) as [[a|e] s']; simpl in *; [discriminate|]. congruence.
  - rewrite E. destruct (m s) as [[a|e] s']; [apply K|now right].
Qed.

Lemma approx_ite {A} (c : st -> bool) (a a' b b' : M A) : approx a a' -> approx b b' ->
  approx (fun s => if c s then a s else b s) (fun s => if c s then a' s else b' s).
Proof. intros H K s. destruct (c s); [apply H|apply K]. Qed.

Section Mono.
Variable P : prog.
Variables call call' : meth -> list val -> list string -> M val.
Hypothesis Hcall : forall m args kws, approx (call m args kws) (call' m args kws).

Ltac app :=
  repeat first
    [ apply approx_refl | apply approx_bind; [|intros ?] | apply Hcall
    | match goal with |- approx (match ?x with _ => _ end) _ => destruct x end ].

Lemma approx_get_attr v a : approx (get_attr P call v a) (get_attr P call' v a).
Proof. unfold get_attr. app. Qed.

Lemma approx_native v m args : approx (native P call v m args) (native P call' v m args).
Proof. unfold native. app. Qed.

Lemma approx_apply c args kws : approx (apply P call c args kws) (apply P call' c args kws).
Proof. unfold apply. destruct c; app. apply approx_native. Qed.

Lemma approx_eval_list es rho :
  Forall (fun e => forall rho, approx (eval P call e rho) (eval P call' e rho)) es ->
  approx (eval_list (eval P call) es rho) (eval_list (eval P call') es rho).
Proof. induction 1; cbn [eval_list]; app; auto. Qed.

Lemma approx_eval e : forall rho, approx (eval P call e rho) (eval P call' e rho).
Proof.
  induction e using expr_ind'; intros rho; cbn [eval];
    try (app; auto using approx_get_attr, approx_apply, approx_eval_list; fail).
  - app; auto. intros s. destruct (truth (heap s) a); [now right|apply IHe2].
  - app; auto. intros s. destruct (truth (heap s) a); [apply IHe2|now right].
  - app; auto. intros s. destruct (truth (heap s) a); [apply IHe2|apply IHe3].
Qed.

Lemma approx_block b :
  Forall (fun c => forall rho, approx (exec P call c rho) (exec P call' c rho)) b ->
  forall rho, approx (run_block (exec P call) b rho) (run_block (exec P call') b rho).
Proof. induction 1; intros rho; cbn [run_block]; app; auto. Qed.

Lemma approx_for bd bd' x : (forall rho, approx (bd rho) (bd' rho)) ->
  forall vs rho, approx (for_loop bd x vs rho) (for_loop bd' x vs rho).
Proof. intros H. induction vs; intros rho; cbn [for_loop]; app; auto. Qed.

Lemma approx_exec c : forall rho, approx (exec P call c rho) (exec P call' c rho).
Proof.
  induction c using stmt_ind'; intros rho; cbn [exec]; try (app; auto using approx_eval; fail).
  - app; auto using approx_eval. intros s. destruct (truth (heap s) a0); apply approx_block; assumption.
  - app; auto using approx_eval. apply approx_for. intros. apply approx_block; assumption.
Qed.
End Mono.

Lemma approx_run P n n' : (n <= n')%nat -> forall m args kws, approx (run P n m args kws) (run P n' m args kws).
Proof.
  revert n'. induction n as [|n IH]; intros n' Hn m args kws.
  - intros s. left. reflexivity.
  - destruct n' as [|n']; [lia|]. cbn [run]. destruct (bind_args _ _ _); [|apply approx_refl].
    apply approx_bind; [|intros; apply approx_refl].
    apply approx_block. apply Forall_forall. intros c _ rho. apply approx_exec. apply IH. lia.
Qed.

Theorem new_fuel P n n' c args s r s' : (n <= n')%nat -> new P n c args s = (r, s') -> r <> Exc RecursionError ->
  new P n' c args s = (r, s').
Proof.
  intros Hn E Hr. destruct (approx_apply P _ _ (approx_run P n n' Hn) (KNew c []) args [] s) as [H|H].
  - unfold new in E. rewrite E in H. simpl in H. contradiction.
  - unfold new in *. now rewrite H.
Qed.

Theorem call_method_fuel P n n' v m args s r s' : (n <= n')%nat -> call_method P n v m args s = (r, s') ->
  r <> Exc RecursionError -> call_method P n' v m args s = (r, s').
Proof.
  intros Hn E Hr.
  assert (A : approx (call_method P n v m args) (call_method P n' v m args)).
  { apply approx_bind; [apply approx_refl|]. intros c. apply approx_apply. now apply approx_run. }
  destruct (A s) as [H|H]; [rewrite E in H; contradiction|]. now rewrite H.
Qed.
