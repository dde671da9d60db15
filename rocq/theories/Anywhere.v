(** * What is computed from nothing happens anywhere

    A script that starts from no object of its own (build an object, use it) does the same thing in every heap, after every
    output and with every larger bound on nested calls: so one evaluation from the empty state settles all of them. *)
From Coq Require Import ZArith String List Bool Lia.
From Coq Require Import Strings.Byte.
From Verif Require Import Lang Ind Bytes Interp Shift Mono.
Import ListNotations.
Open Scope string_scope. Open Scope list_scope.

Definition portable (m : nat -> M val) : Prop :=
  (forall h0 o0 n, sim h0 o0 (shift (length h0)) (m n) (m n)) /\ (forall n n', (n <= n')%nat -> approx (m n) (m n')).

Theorem anywhere m n0 r s1 s : portable m -> m n0 (mkst [] (irest s) (ifull s) []) = (r, s1) -> r <> Exc RecursionError ->
  forall n, (n0 <= n)%nat -> m n s = (map_res (shift (length (heap s))) r, lift (heap s) (out s) s1).
Proof.
  intros [S A] E Hr n Hn. destruct (A n0 n Hn (mkst [] (irest s) (ifull s) [])) as [H|H]; [rewrite E in H; simpl in H; congruence|].
  specialize (S (heap s) (out s) n (mkst [] (irest s) (ifull s) [])). rewrite H, E in S. unfold lift in S at 1. simpl in S.
  rewrite !app_nil_r in S. destruct s; exact S.
Qed.

(** scripts with one free variable, an object made earlier in the script *)
Definition portable1 (k : nat -> val -> M val) : Prop :=
  (forall h0 o0 n v, sim h0 o0 (shift (length h0)) (k n v) (k n (shift (length h0) v))) /\ (forall n n' v, (n <= n')%nat -> approx (k n v) (k n' v)).
Definition portable2 (k : nat -> val -> val -> M val) : Prop :=
  (forall h0 o0 n v w, sim h0 o0 (shift (length h0)) (k n v w) (k n (shift (length h0) v) (shift (length h0) w))) /\
  (forall n n' v w, (n <= n')%nat -> approx (k n v w) (k n' v w)).

Lemma portable_bind m k : portable m -> portable1 k -> portable (fun n => bind (m n) (k n)).
Proof.
  intros [S1 A1] [S2 A2]. split.
  - intros h0 o0 n. eapply sim_bind; [apply S1|]. intros a. apply S2.
  - intros n n' H. apply approx_bind; auto.
Qed.
Lemma portable1_bind m k : portable1 m -> portable2 k -> portable1 (fun n v => bind (m n v) (k n v)).
Proof.
  intros [S1 A1] [S2 A2]. split.
  - intros h0 o0 n v. eapply sim_bind; [apply S1|]. intros a. apply S2.
  - intros n n' v H. apply approx_bind; auto.
Qed.
Lemma portable2_bind m k : portable2 m -> (forall w, portable2 (fun n v _ => k n v w)) -> (forall n v w j, k n v (shift j w) = k n v w) ->
  portable2 (fun n v w => bind (m n v w) (k n v)).
Proof.
  intros [S1 A1] H2 Hk. split.
  - intros h0 o0 n v w. eapply sim_bind; [apply S1|]. intros a. rewrite Hk. destruct (H2 a) as [S2 _]. apply (S2 h0 o0 n v VNone).
  - intros n n' v w H. apply approx_bind; auto. intros a. destruct (H2 a) as [_ A2]. apply (A2 n n' v VNone H).
Qed.
Lemma portable1_ret : portable1 (fun _ v => ret v).
Proof. split; [intros; now apply sim_ret|intros; apply approx_refl]. Qed.
Lemma portable2_fst k : portable1 k -> portable2 (fun n v _ => k n v).
Proof. intros [S A]. split; auto. Qed.
Lemma portable2_snd k : portable1 k -> portable2 (fun n _ v => k n v).
Proof. intros [S A]. split; auto. Qed.

Section Prog.
Variable P : prog.
Hypothesis HP : no_shared_defaults P = true.

Lemma portable_new c : portable (fun n => new P n c []).
Proof.
  split; [intros h0 o0 n; apply (sim_new h0 o0 P HP n c [])|]. intros n n' H. apply approx_apply, approx_run, H.
Qed.
(** constructor call with arguments that are not objects *)
Lemma portable_new_args c args : (forall k, map (shift k) args = args) -> portable (fun n => new P n c args).
Proof.
  intros Ha. split; [intros h0 o0 n; pose proof (sim_new h0 o0 P HP n c args) as H; now rewrite Ha in H|]. intros n n' H. apply approx_apply, approx_run, H.
Qed.
Lemma portable1_call m args : (forall k, map (shift k) args = args) -> portable1 (fun n v => call_method P n v m args).
Proof.
  intros Ha. split.
  - intros h0 o0 n v. pose proof (sim_call_method h0 o0 P HP n v m args) as H. now rewrite Ha in H.
  - intros n n' v H. apply approx_bind; [apply approx_refl|]. intros c. apply approx_apply, approx_run, H.
Qed.
Lemma portable1_getattr a : portable1 (fun n v => get_attr P (run P n) v a).
Proof.
  split.
  - intros h0 o0 n v. apply (sim_get_attr h0 o0 P HP). intros m args kws Hm. now apply sim_run.
  - intros n n' v H. apply approx_get_attr, approx_run, H.
Qed.
Lemma portable_getPdu table : portable (fun n => getPdu P table n).
Proof.
  split; [intros h0 o0 n; now apply sim_getPdu|]. intros n n' H. unfold getPdu.
  assert (A : forall v m args, approx (call_method P n v m args) (call_method P n' v m args)).
  { intros. apply approx_bind; [apply approx_refl|]. intros c. apply approx_apply. now apply approx_run. }
  apply approx_bind; [apply approx_refl|intros _]. apply approx_bind; [apply A|intros t]. apply approx_bind; [apply approx_refl|intros _].
  destruct t; try apply approx_refl. destruct (zassoc z table); [|apply approx_refl].
  apply approx_bind; [apply approx_apply, approx_run, H|intros p]. apply approx_bind; [apply A|intros; apply approx_refl].
Qed.
(** build an object and call a method of it *)
Lemma portable_new_call c m args : (forall k, map (shift k) args = args) -> portable (fun n => bind (new P n c []) (fun o => call_method P n o m args)).
Proof. intros Ha. apply portable_bind; [apply portable_new|now apply portable1_call]. Qed.
(** build an object and read an attribute of it *)
Lemma portable_new_get c a : portable (fun n => bind (new P n c []) (fun o => get_attr P (run P n) o a)).
Proof. apply portable_bind; [apply portable_new|apply portable1_getattr]. Qed.
End Prog.
