(** * Properties C66 to C68: dead reckoning in floating point

    The model DeadReckoning64 computes with IEEE binary64 numbers as the code does; DeadReckoning computes with real numbers and is the specification here.
    u is 2^-53, half a unit in the last place of 1; eta is 2^-1075, half the smallest positive number; huge is 2^1020. *)
From Coq Require Import Reals ZArith Lra Lia List Permutation.
From Flocq Require Import Core Binary Bits.
From Verif Require Import Real3 DeadReckoning Float64 DeadReckoning64 FloatErr.
Import ListNotations.
Local Open Scope R_scope.

(** ** Specification *)
(** the axes; the components of a numpy array and of a real vector *)
Inductive axis := AX | AY | AZ.
Definition fc (i : axis) (v : fvec) : f64 := match i with AX => fx v | AY => fy v | AZ => fz v end.
Definition rc (i : axis) (v : vec) : R := match i with AX => vx v | AY => vy v | AZ => vz v end.
(** the real vector an array of finite numbers stands for *)
Definition real3 (v : fvec) : vec := V (val (fx v)) (val (fy v)) (val (fz v)).
Definition fin3 (v : fvec) : Prop := forall i, fin (fc i v).
(** x is a finite number at most tol away from the exact value *)
Definition within (x : f64) (exact tol : R) : Prop := fin x /\ Rabs (val x - exact) <= tol.
(** far below the overflow threshold *)
Definition moderate (x : R) : Prop := Rabs x <= huge / 64.

Lemma rc_real3 i v : rc i (real3 v) = val (fc i v). Proof. now destruct i. Qed.
Lemma fc_map2 f i a b : fc i (fmap2 f a b) = f (fc i a) (fc i b). Proof. now destruct i. Qed.
Lemma fc_map1 f i a : fc i (fmap1 f a) = f (fc i a). Proof. now destruct i. Qed.
Lemma rc_vadd i a b : rc i (vadd a b) = rc i a + rc i b. Proof. now destruct i. Qed.
Lemma rc_vscale i k a : rc i (vscale k a) = k * rc i a. Proof. now destruct i. Qed.

(** ** Constant velocity and constant acceleration in the world frame *)
Lemma huge_1000 : 1000000 <= huge.
Proof. pose proof huge_big. pose proof u_small. pose proof u_pos. apply Rle_trans with (/ u); [|assumption]. replace 1000000 with (/ / 1000000) by field. apply Rinv_le; lra. Qed.
Lemma eta_huge : eta * huge <= 1.
Proof. Transparent eta huge. unfold eta, huge. Opaque eta huge. rewrite <- bpow_plus. change 1 with (bpow radix2 0). apply bpow_le. lia. Qed.
Lemma eta_small : eta <= / 1000000. Proof. pose proof eta_u. pose proof u_small. lra. Qed.

Lemma linear_app p v dt : fin p -> fin v -> fin dt -> moderate (val p) -> moderate (val v * val dt) ->
  app (fadd p (fmul v dt)) (val p + val v * val dt) (9 / 4) (Rabs (val p) + Rabs (val v * val dt)) (2 * eta).
Proof.
  intros Fp Fv Ft Mp Mv. unfold moderate in *. pose proof huge_1000. pose proof eta_small. pose proof eta_pos. pose proof (Rabs_pos (val p)). pose proof (Rabs_pos (val v * val dt)).
  pose proof (app_mul _ _ _ _ _ _ _ _ _ _ (app_exact v Fv) (app_exact dt Ft)) as A. rewrite <- Rabs_mult in A.
  assert (A' := A ltac:(lra) ltac:(lra)). clear A.
  eapply app_weak; [eapply (app_add p (fmul v dt) (val p) (val v * val dt) (9 / 8) (Rabs (val p)) (Rabs (val v * val dt)) 0 eta)| | |]; try lra.
  - eapply app_weak; [exact (app_exact p Fp)|lra|lra|lra].
  - eapply app_weak; [exact A'|lra|lra|lra].
Qed.

(** Extrapolation at constant velocity: each coordinate is within four rounding errors of the exact one *)
Theorem C66_fpw p v dt o : fin3 p -> fin3 v -> fin dt -> (forall i, moderate (val (fc i p)) /\ moderate (val (fc i v) * val dt)) ->
  snd (drm_fpw64 p v dt o) = o /\
  forall i, within (fc i (fst (drm_fpw64 p v dt o))) (rc i (fst (drm_fpw (real3 p) (real3 v) (val dt) (real3 o))))
    (4 * u * (Rabs (val (fc i p)) + Rabs (val (fc i v) * val dt)) + 2 * eta).
Proof.
  intros Fp Fv Ft M. split; [reflexivity|]. intros i. cbn [fst drm_fpw64 drm_fpw]. unfold linear64, to_numpy. rewrite fc_map2, fc_map1, rc_vadd, rc_vscale, !rc_real3.
  destruct (M i) as [M1 M2]. pose proof (linear_app _ _ _ (Fp i) (Fv i) Ft M1 M2) as A. rewrite (Rmult_comm (val dt)).
  pose proof (app_weak _ _ _ _ _ 4 _ _ A ltac:(lra) (Rle_refl _) (Rle_refl _)) as (F & _ & _ & _ & E). split; [exact F|exact E].
Qed.

Lemma val_half : val f_half = / 2.
Proof. unfold f_half. value_of_bits. lra. Qed.
Lemma accel_app L a dt : accurate L -> fin a -> fin dt -> moderate (val a) -> moderate (val dt * val dt) -> moderate (val a * (val dt * val dt)) ->
  app (fmul (fmul f_half a) (l_square L dt)) (/ 2 * val a * (val dt * val dt)) (17 / 4) (/ 2 * Rabs (val a) * (val dt * val dt)) (eta * (2 + 2 * Rabs (val a) + 2 * (val dt * val dt))).
Proof.
  intros HL Fa Ft Ma Mt Mat. unfold moderate in *. pose proof huge_1000. pose proof eta_small. pose proof eta_pos. pose proof eta_huge. pose proof (Rabs_pos (val a)).
  assert (T0 : 0 <= val dt * val dt) by apply Rle_0_sqr. rewrite (Rabs_pos_eq _ T0) in Mt. rewrite Rabs_mult, (Rabs_pos_eq _ T0) in Mat.
  assert (Fh : fin f_half) by reflexivity. assert (Vh : val f_half = / 2) by exact val_half.
  pose proof (app_mul _ _ _ _ _ _ _ _ _ _ (app_exact f_half Fh) (app_exact a Fa) ltac:(lra)) as A. rewrite Vh, (Rabs_pos_eq (/ 2)) in A by lra. specialize (A ltac:(lra)).
  apply (app_weak _ _ _ _ _ (9 / 8) (/ 2 * Rabs (val a)) eta) in A; [|lra|lra|lra].
  pose proof (app_ulp _ _ _ (acc_square L HL dt Ft ltac:(rewrite Rabs_pos_eq by exact T0; lra)) (Rle_refl _)) as B. rewrite (Rabs_pos_eq _ T0) in B.
  assert (S1 : eta * (val dt * val dt) <= eta * huge) by (apply Rmult_le_compat_l; lra). assert (S2 : eta * Rabs (val a) <= eta * huge) by (apply Rmult_le_compat_l; lra).
  assert (S3 : eta * eta <= eta * (/ 1000000)) by (apply Rmult_le_compat_l; lra). assert (0 <= eta * (val dt * val dt)) by (apply Rmult_le_pos; lra). assert (0 <= eta * Rabs (val a)) by (apply Rmult_le_pos; lra).
  eapply app_weak; [eapply (app_mul _ _ _ _ _ _ _ _ _ _ A B)| | |]; [lra| |lra|apply Rle_refl|].
  - replace (/ 2 * Rabs (val a) * (val dt * val dt)) with (/ 2 * (Rabs (val a) * (val dt * val dt))) by ring. lra.
  - lra.
Qed.

(** dt ** 2 returns the square when it does not overflow *)
Lemma square_ok L dt : accurate L -> fin dt -> moderate (val dt * val dt) -> square L dt = FRet (l_square L dt).
Proof.
  intros HL Ft M. destruct (acc_square L HL dt Ft) as [F _]; [unfold moderate in M; pose proof huge_pos; lra|]. unfold square. destruct dt; try discriminate Ft; destruct (l_square L _); try reflexivity; discriminate F.
Qed.

Lemma quadratic_app L p v a dt : accurate L -> fin p -> fin v -> fin a -> fin dt -> moderate (val p) -> moderate (val v * val dt) -> moderate (val a) -> moderate (val dt * val dt) -> moderate (val a * (val dt * val dt)) ->
  app (fadd (fadd p (fmul v dt)) (fmul (fmul f_half a) (l_square L dt))) (val p + val v * val dt + / 2 * val a * (val dt * val dt)) 8
    (Rabs (val p) + Rabs (val v * val dt) + / 2 * Rabs (val a) * (val dt * val dt)) (8 * eta * (1 + Rabs (val a) + val dt * val dt)).
Proof.
  intros HL Fp Fv Fa Ft Mp Mv Ma Mt Mat. pose proof (linear_app _ _ _ Fp Fv Ft Mp Mv) as A. pose proof (accel_app L a dt HL Fa Ft Ma Mt Mat) as B.
  unfold moderate in *. pose proof huge_1000. pose proof eta_small. pose proof eta_pos. pose proof eta_huge. pose proof (Rabs_pos (val a)). pose proof (Rabs_pos (val p)). pose proof (Rabs_pos (val v * val dt)).
  assert (T0 : 0 <= val dt * val dt) by apply Rle_0_sqr. rewrite (Rabs_pos_eq _ T0) in Mt. rewrite Rabs_mult, (Rabs_pos_eq _ T0) in Mat.
  assert (S1 : eta * (val dt * val dt) <= eta * huge) by (apply Rmult_le_compat_l; lra). assert (S2 : eta * Rabs (val a) <= eta * huge) by (apply Rmult_le_compat_l; lra).
  assert (0 <= eta * (val dt * val dt)) by (apply Rmult_le_pos; lra). assert (0 <= eta * Rabs (val a)) by (apply Rmult_le_pos; lra). assert (0 <= Rabs (val a) * (val dt * val dt)) by (apply Rmult_le_pos; lra).
  eapply app_weak; [eapply (app_add _ _ _ _ (17 / 4) _ _ _ _)| | |].
  - eapply app_weak; [exact A|lra|apply Rle_refl|apply Rle_refl].
  - exact B.
  - lra.
  - lra.
  - lra.
  - lra.
  - lra.
Qed.

(** Extrapolation at constant acceleration: eight rounding errors *)
Theorem C66_fvw L p v a dt o : accurate L -> fin3 p -> fin3 v -> fin3 a -> fin dt -> moderate (val dt * val dt) ->
  (forall i, moderate (val (fc i p)) /\ moderate (val (fc i v) * val dt) /\ moderate (val (fc i a)) /\ moderate (val (fc i a) * (val dt * val dt))) ->
  exists p', drm_fvw64 L p v a dt o = FRet (p', o) /\
    forall i, within (fc i p') (rc i (fst (drm_fvw (real3 p) (real3 v) (real3 a) (val dt) (real3 o))))
      (8 * u * (Rabs (val (fc i p)) + Rabs (val (fc i v) * val dt) + / 2 * Rabs (val (fc i a)) * (val dt * val dt)) + 8 * eta * (1 + Rabs (val (fc i a)) + val dt * val dt)).
Proof.
  intros HL Fp Fv Fa Ft Mt M. unfold drm_fvw64. rewrite square_ok by assumption. cbn [fbind]. eexists. split; [reflexivity|]. intros i. destruct (M i) as (M1 & M2 & M3 & M4).
  cbn [fst drm_fvw]. unfold quadratic64, linear64, to_numpy. rewrite !fc_map2, !fc_map1, !rc_vadd, !rc_vscale, !rc_real3.
  replace (val (fc i p) + val dt * val (fc i v) + val dt ^ 2 * (1 / 2 * val (fc i a))) with (val (fc i p) + val (fc i v) * val dt + / 2 * val (fc i a) * (val dt * val dt)) by field.
  destruct (quadratic_app L _ _ _ _ HL (Fp i) (Fv i) (Fa i) Ft M1 M2 M3 Mt M4) as (F & _ & _ & _ & E). split; [exact F|exact E].
Qed.

(** The rotating variants move the position like the fixed ones; they return unless the pitch or roll angle is an infinity *)
Definition infinite (x : f64) : Prop := exists s, x = B754_infinity 53 1024 s.
Lemma on_finite_or f x : infinite x /\ on_finite f x = FDomain \/ ~ infinite x /\ on_finite f x = FRet (f x).
Proof. destruct x; [right|left|right|right]; (split; [|reflexivity]); try (intros [? [=]]). now exists s. Qed.
Theorem C66_rpw L p v dt o w : (infinite (fz o) \/ infinite (fy o)) /\ drm_rpw64 L p v dt o w = FDomain \/
  ~ infinite (fz o) /\ ~ infinite (fy o) /\ exists o', drm_rpw64 L p v dt o w = FRet (fst (drm_fpw64 p v dt o), o').
Proof.
  unfold drm_rpw64, mcos, msin, mtan. destruct (on_finite_or (l_cos L) (fz o)) as [[I E]|[I E]]; rewrite E; cbn [fbind]; [left; now split; [left|]|].
  destruct (on_finite_or (l_sin L) (fz o)) as [[I' E']|[_ E']]; [contradiction|]. rewrite E'. cbn [fbind].
  destruct (on_finite_or (l_cos L) (fy o)) as [[J F]|[J F]]; rewrite F; cbn [fbind]; [left; now split; [right|]|].
  destruct (on_finite_or (l_tan L) (fy o)) as [[J' F']|[_ F']]; [contradiction|]. rewrite F'. cbn [fbind]. right. split; [exact I|]. split; [exact J|].
  destruct (below_tiny (l_cos L (fy o))); eexists; reflexivity.
Qed.
Theorem C66_rvw L p v a dt o w o' : (exists sq, square L dt = FRet sq) -> drm_rpw64 L p v dt o w = FRet (fst (drm_fpw64 p v dt o), o') ->
  exists p', drm_fvw64 L p v a dt o = FRet (p', o) /\ drm_rvw64 L p v a dt o w = FRet (p', o').
Proof. intros [sq S] E. unfold drm_fvw64, drm_rvw64. rewrite S, E. cbn [fbind]. eexists. split; reflexivity. Qed.

(** In practice: up to 2^26 m from the origin, 2^14 m/s, 2^10 m/s^2 and 2^7 s, the coordinates are within a micrometre of the exact ones *)
Theorem C66_micrometre L p v a dt o : accurate L -> fin3 p -> fin3 v -> fin3 a -> fin dt -> Rabs (val dt) <= 2 ^ 7 ->
  (forall i, Rabs (val (fc i p)) <= 2 ^ 26 /\ Rabs (val (fc i v)) <= 2 ^ 14 /\ Rabs (val (fc i a)) <= 2 ^ 10) ->
  (forall i, within (fc i (fst (drm_fpw64 p v dt o))) (rc i (fst (drm_fpw (real3 p) (real3 v) (val dt) (real3 o)))) (/ 1000000)) /\
  exists p', drm_fvw64 L p v a dt o = FRet (p', o) /\ forall i, within (fc i p') (rc i (fst (drm_fvw (real3 p) (real3 v) (real3 a) (val dt) (real3 o)))) (/ 1000000).
Proof.
  intros HL Fp Fv Fa Ft T B.
  assert (HH : 2 ^ 40 <= huge). { Transparent huge. unfold huge. Opaque huge. replace (2 ^ 40) with (bpow radix2 40) by (cbn; lra). apply bpow_le. lia. }
  assert (T0 : 0 <= val dt * val dt) by apply Rle_0_sqr. assert (TT : val dt * val dt <= 2 ^ 14).
  { replace (val dt * val dt) with (Rabs (val dt) * Rabs (val dt)) by (rewrite <- Rabs_mult; apply Rabs_pos_eq, T0). replace (2 ^ 14) with (2 ^ 7 * 2 ^ 7) by ring. apply Rmult_le_compat; auto using Rabs_pos. }
  assert (D : forall i, Rabs (val (fc i v) * val dt) <= 2 ^ 21 /\ Rabs (val (fc i a) * (val dt * val dt)) <= 2 ^ 24).
  { intros i. destruct (B i) as (_ & B2 & B3). rewrite !Rabs_mult. split.
    - replace (2 ^ 21) with (2 ^ 14 * 2 ^ 7) by ring. apply Rmult_le_compat; auto using Rabs_pos.
    - rewrite <- Rabs_mult, (Rabs_pos_eq (val dt * val dt)) by exact T0. replace (2 ^ 24) with (2 ^ 10 * 2 ^ 14) by ring. apply Rmult_le_compat; auto using Rabs_pos. }
  pose proof u_pos as U0. assert (U : u <= / 2 ^ 53).
  { Transparent u. unfold u. Opaque u. cbn. apply Rinv_le; lra. }
  pose proof eta_pos. assert (ET : eta <= / 2 ^ 100).
  { Transparent eta. unfold eta. Opaque eta. replace (/ 2 ^ 100) with (bpow radix2 (-100)) by (cbn; f_equal; lra). apply bpow_le. lia. }
  split.
  - destruct (C66_fpw p v dt o Fp Fv Ft) as [_ W]. { intros i. destruct (B i) as (B1 & _), (D i) as (D1 & _). unfold moderate. split; lra. }
    intros i. destruct (W i) as [F E]. split; [exact F|]. eapply Rle_trans; [exact E|]. destruct (B i) as (B1 & _), (D i) as (D1 & _).
    assert (4 * u * (Rabs (val (fc i p)) + Rabs (val (fc i v) * val dt)) <= 4 * / 2 ^ 53 * (2 ^ 26 + 2 ^ 21)) by (apply Rmult_le_compat; pose proof (Rabs_pos (val (fc i p))); pose proof (Rabs_pos (val (fc i v) * val dt)); lra). lra.
  - destruct (C66_fvw L p v a dt o HL Fp Fv Fa Ft) as (p' & E' & W).
    { unfold moderate. rewrite Rabs_pos_eq; lra. }
    { intros i. destruct (B i) as (B1 & B2 & B3), (D i) as (D1 & D2). unfold moderate. repeat split; lra. }
    exists p'. split; [exact E'|]. intros i. destruct (W i) as [F E]. split; [exact F|]. eapply Rle_trans; [exact E|]. destruct (B i) as (B1 & B2 & B3), (D i) as (D1 & D2).
    rewrite Rabs_mult, (Rabs_pos_eq _ T0) in D2. pose proof (Rabs_pos (val (fc i p))). pose proof (Rabs_pos (val (fc i v) * val dt)). pose proof (Rabs_pos (val (fc i a))).
    assert (0 <= Rabs (val (fc i a)) * (val dt * val dt)) by (apply Rmult_le_pos; lra).
    assert (8 * u * (Rabs (val (fc i p)) + Rabs (val (fc i v) * val dt) + / 2 * Rabs (val (fc i a)) * (val dt * val dt)) <= 8 * / 2 ^ 53 * (2 ^ 26 + 2 ^ 21 + / 2 * 2 ^ 24)) by (apply Rmult_le_compat; lra).
    assert (8 * eta * (1 + Rabs (val (fc i a)) + val dt * val dt) <= 8 * / 2 ^ 100 * (1 + 2 ^ 10 + 2 ^ 14)) by (apply Rmult_le_compat; lra). lra.
Qed.

(** Repeated extrapolation: after n steps of dt the coordinate has drifted by at most n times eight rounding errors of the largest distance *)
Fixpoint steps (n : nat) (p v : fvec) (dt : f64) (o : fvec) : fvec * fvec :=
  match n with O => (p, o) | S n' => let (p', o') := steps n' p v dt o in drm_fpw64 p' v dt o' end.
Lemma iterate_drift p v dt n (f : nat -> f64) : fin p -> fin v -> fin dt -> f O = p -> (forall k, f (S k) = fadd (f k) (fmul v dt)) -> INR n <= 2 ^ 40 ->
  moderate (2 * (Rabs (val p) + INR n * Rabs (val v * val dt)) + 1) ->
  forall k, (k <= n)%nat -> fin (f k) /\ Rabs (val (f k) - (val p + INR k * (val v * val dt))) <= INR k * (8 * u * (Rabs (val p) + INR n * Rabs (val v * val dt)) + 4 * eta).
Proof.
  intros Fp Fv Ft F0 FS N Mo. set (d := val v * val dt) in *. set (M := Rabs (val p) + INR n * Rabs d) in *.
  pose proof (Rabs_pos (val p)) as P0. pose proof (Rabs_pos d) as D0. pose proof (pos_INR n) as N0. assert (DN : 0 <= INR n * Rabs d) by (apply Rmult_le_pos; lra). assert (M0 : 0 <= M) by (unfold M; lra).
  pose proof u_pos as U. pose proof u_small as U'. pose proof eta_pos as T. unfold moderate in *. rewrite Rabs_pos_eq in Mo by lra.
  assert (UN : u * INR n <= / 512). { assert (u * INR n <= / 1000000000000000 * 2 ^ 40) by (apply Rmult_le_compat; lra). lra. }
  induction k as [|k IH]; intros K.
  - rewrite F0. split; [exact Fp|]. cbn [INR]. replace (val p - (val p + 0 * d)) with 0 by ring. rewrite Rabs_R0. lra.
  - destruct (IH ltac:(lia)) as [Fk Ek]. assert (KN := le_INR _ _ K). rewrite S_INR in *. pose proof (pos_INR k) as K0.
    assert (Ekn : INR k * (8 * u * M + 4 * eta) <= / 64 * M + 4 * (INR n * eta)).
    { assert (INR k * (8 * u * M + 4 * eta) <= INR n * (8 * u * M + 4 * eta)).
      { apply Rmult_le_compat_r; [|lra]. assert (0 <= u * M) by (apply Rmult_le_pos; lra). lra. }
      assert ((u * INR n) * M <= / 512 * M) by (apply Rmult_le_compat_r; lra). replace (INR n * (8 * u * M + 4 * eta)) with (8 * (u * INR n * M) + 4 * (INR n * eta)) in * by ring. lra. }
    assert (NE : INR n * eta <= 2 ^ 40 * eta) by (apply Rmult_le_compat_r; lra). assert (0 <= INR n * eta) by (apply Rmult_le_pos; lra).
    assert (ET : eta <= / 2 ^ 100). { Transparent eta. unfold eta. Opaque eta. replace (/ 2 ^ 100) with (bpow radix2 (-100)) by (cbn; f_equal; lra). apply bpow_le. lia. }
    assert (KD : INR k * Rabs d <= (INR n - 1) * Rabs d) by (apply Rmult_le_compat_r; lra).
    assert (Vk : Rabs (val (f k)) <= (M - Rabs d) + (/ 64 * M + 4 * (INR n * eta))).
    { replace (val (f k)) with (val p + INR k * d + (val (f k) - (val p + INR k * d))) by ring. eapply Rle_trans; [apply Rabs_triang|].
      eapply Rle_trans; [apply Rplus_le_compat; [apply Rabs_triang|exact Ek]|]. rewrite Rabs_mult, (Rabs_pos_eq (INR k)) by exact K0. unfold M in *. lra. }
    destruct (linear_app (f k) v dt Fk Fv Ft) as (F & _ & _ & _ & E). { unfold moderate. lra. } { unfold moderate. fold d. unfold M in *. assert (Rabs d <= M) by (unfold M; assert (1 * Rabs d <= INR n * Rabs d) by (apply Rmult_le_compat_r; lra); lra). unfold M in *. lra. }
    fold d in E. rewrite FS. split; [exact F|].
    replace (val (fadd (f k) (fmul v dt)) - (val p + (INR k + 1) * d)) with ((val (f k) - (val p + INR k * d)) + (val (fadd (f k) (fmul v dt)) - (val (f k) + d))) by ring.
    eapply Rle_trans; [apply Rabs_triang|]. rewrite (Rmult_plus_distr_r (INR k) 1), Rmult_1_l. apply Rplus_le_compat; [exact Ek|]. eapply Rle_trans; [exact E|].
    assert (9 / 4 * u * (Rabs (val (f k)) + Rabs d) <= 9 / 4 * u * (2 * M + 4 * (INR n * eta))) by (apply Rmult_le_compat_l; lra).
    assert (u * (INR n * eta) <= / 512 * eta) by (rewrite <- Rmult_assoc; apply Rmult_le_compat_r; lra). assert (0 <= u * M) by (apply Rmult_le_pos; lra). lra.
Qed.
Theorem C66_drift n p v dt o : fin3 p -> fin3 v -> fin dt -> INR n <= 2 ^ 40 -> (forall i, moderate (2 * (Rabs (val (fc i p)) + INR n * Rabs (val (fc i v) * val dt)) + 1)) ->
  snd (steps n p v dt o) = o /\
  forall i, within (fc i (fst (steps n p v dt o))) (val (fc i p) + INR n * (val (fc i v) * val dt))
    (INR n * (8 * u * (Rabs (val (fc i p)) + INR n * Rabs (val (fc i v) * val dt)) + 4 * eta)).
Proof.
  intros Fp Fv Ft N M. assert (O : forall k, snd (steps k p v dt o) = o).
  { induction k as [|k IH]; [reflexivity|]. cbn [steps]. destruct (steps k p v dt o) as [p' o']. exact IH. }
  split; [apply O|]. intros i.
  destruct (iterate_drift (fc i p) (fc i v) dt n (fun k => fc i (fst (steps k p v dt o))) (Fp i) (Fv i) Ft eq_refl) with (k := n) as [F E]; [|exact N|exact (M i)|lia|split; [exact F|exact E]].
  intros k. cbn [steps]. destruct (steps k p v dt o) as [p' o']. cbn [fst drm_fpw64]. unfold linear64. now rewrite fc_map2, fc_map1.
Qed.
