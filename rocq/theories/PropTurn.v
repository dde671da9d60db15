(** * C78: sender and receiver agree on a turning entity, and on one whose velocity is given in its own frame

    As C69, for the algorithms of DeadReckoning.py that use the orientation: drm_fpb, drm_fvb (body frame), drm_rpw, drm_rvw (turning), drm_rpb, drm_rvb (both). *)
From Coq Require Import ZArith String List Bool Lia Reals Lra.
From Coq Require Import Strings.Byte.
From Flocq Require Import Core Binary Bits.
From Verif Require Import Lang Bytes Interp Prog Spec Codec Codec2 Rep SerSound Layouts Refine Api Classes PropFactory Assign PropAccept Real3 DeadReckoning Float64 DeadReckoning64 FloatErr PropDR PropDR64 PropDR64b FloatLink PropEnd PropConv FloatAbs PropAtt64 PropExample.
Import ListNotations.
Open Scope string_scope. Open Scope R_scope. Open Scope list_scope.

(** ** Specification: the laws of motion, on real numbers *)
(** a body at p with orientation o (psi, theta, phi) and velocity v and acceleration a along its own axes, after the time t *)
Definition body_position (p v a : vec) (t : Rdefinitions.R) (o : vec) : vec :=
  vadd p (mapply (Real3.euler (vx o) (vy o) (vz o)) (V (vx v * t + / 2 * vx a * (t * t)) (vy v * t + / 2 * vy a * (t * t)) (vz v * t + / 2 * vz a * (t * t)))).
(** the angles after the time t, with the rates that body rates w give at the start *)
Definition angles_after (t : Rdefinitions.R) (o w : vec) : vec :=
  let s := vy w * sin (vz o) + vz w * cos (vz o) in
  V (vx o + s / cos (vy o) * t) (vy o + (vy w * cos (vz o) - vz w * sin (vz o)) * t) (vz o + (vx w + s * tan (vy o)) * t).

(** ** How the laws depend on the state *)
Lemma comp_norm i v : Rabs (rc i v) <= norm v.
Proof.
  unfold norm. rewrite <- sqrt_Rsqr_abs. apply sqrt_le_1_alt. destruct v as [x y z]. unfold Rsqr, vdot. cbn [vx vy vz]. pose proof (Rle_0_sqr x). pose proof (Rle_0_sqr y). pose proof (Rle_0_sqr z). unfold Rsqr in *. destruct i; cbn [rc vx vy vz]; lra.
Qed.
Lemma norm_bound v k : 0 <= k -> (forall i, Rabs (rc i v) <= k) -> norm v <= 1733 / 1000 * k.
Proof.
  intros K H. unfold norm. rewrite <- (sqrt_square (1733 / 1000 * k)) by lra. apply sqrt_le_1_alt.
  assert (S : forall i, rc i v * rc i v <= k * k). { intros i. replace (rc i v * rc i v) with (Rabs (rc i v) * Rabs (rc i v)) by (rewrite <- Rabs_mult; apply Rabs_pos_eq, Rle_0_sqr). apply Rmult_le_compat; try apply Rabs_pos; apply H. }
  pose proof (S AX). pose proof (S AY). pose proof (S AZ). cbn [rc] in *. unfold vdot. nra.
Qed.
Lemma body_near i p v a t o v' a' o' D d e : 0 <= D -> 0 <= d -> 0 <= e ->
  let disp v a i := rc i v * t + / 2 * rc i a * (t * t) in
  (forall j, Rabs (disp v a j) <= D) -> (forall j, Rabs (disp v' a' j - disp v a j) <= d) -> (forall j, Rabs (rc j o' - rc j o) <= e) ->
  Rabs (rc i (body_position p v' a' t o') - rc i (body_position p v a t o)) <= 1733 / 1000 * (d + 3 * e * D).
Proof.
  intros HD Hd He disp B1 B2 B3. unfold body_position. set (x := V (vx v * t + _) _ _). set (x' := V (vx v' * t + _) _ _). set (m := Real3.euler (vx o) (vy o) (vz o)). set (m' := Real3.euler (vx o') (vy o') (vz o')).
  assert (X : forall j, rc j x = disp v a j) by (intros []; reflexivity). assert (X' : forall j, rc j x' = disp v' a' j) by (intros []; reflexivity).
  apply Rle_trans with (norm (vsub (mapply m' x') (mapply m x))).
  - replace (rc i (vadd p (mapply m' x')) - rc i (vadd p (mapply m x))) with (rc i (vsub (mapply m' x') (mapply m x))) by (destruct i; cbn [rc vadd vsub vx vy vz]; ring). apply comp_norm.
  - replace (vsub (mapply m' x') (mapply m x)) with (vadd (mapply m' (vsub x' x)) (vsub (mapply m' x) (mapply m x))) by veq. eapply Rle_trans; [apply norm_add|].
    unfold norm at 1. rewrite rot_dot by apply rot_euler. fold (norm (vsub x' x)).
    assert (N1 : norm (vsub x' x) <= 1733 / 1000 * d). { apply norm_bound; [exact Hd|]. intros j. replace (rc j (vsub x' x)) with (rc j x' - rc j x) by (destruct j; reflexivity). rewrite X, X'. apply B2. }
    assert (N2 : norm x <= 1733 / 1000 * D). { apply norm_bound; [exact HD|]. intros j. rewrite X. apply B1. }
    pose proof (euler_near (vx o') (vy o') (vz o') (vx o) (vy o) (vz o) x) as N3. fold m m' in N3. pose proof (B3 AX) as E1. pose proof (B3 AY) as E2. pose proof (B3 AZ) as E3. cbn [rc] in E1, E2, E3.
    assert (N4 : (Rabs (vx o' - vx o) + Rabs (vy o' - vy o) + Rabs (vz o' - vz o)) * norm x <= 3 * e * (1733 / 1000 * D)) by (apply Rmult_le_compat; [repeat apply Rplus_le_le_0_compat; apply Rabs_pos|apply sqrt_pos|lra|exact N2]).
    lra.
Qed.

Lemma prod_near a b a' b' A B da db : Rabs a <= A -> Rabs b' <= B -> Rabs (a' - a) <= da -> Rabs (b' - b) <= db -> Rabs (a' * b' - a * b) <= da * B + A * db.
Proof.
  intros HA HB Ha Hb. replace (a' * b' - a * b) with ((a' - a) * b' + a * (b' - b)) by ring. eapply Rle_trans; [apply Rabs_triang|]. rewrite !Rabs_mult.
  apply Rplus_le_compat; apply Rmult_le_compat; try apply Rabs_pos; assumption.
Qed.
Lemma sum_near a b a' b' da db : Rabs (a' - a) <= da -> Rabs (b' - b) <= db -> Rabs (a' + b' - (a + b)) <= da + db.
Proof. intros Ha Hb. replace (a' + b' - (a + b)) with ((a' - a) + (b' - b)) by ring. eapply Rle_trans; [apply Rabs_triang|]. lra. Qed.
Lemma sum_bound a b A B : Rabs a <= A -> Rabs b <= B -> Rabs (a + b) <= A + B.
Proof. intros Ha Hb. eapply Rle_trans; [apply Rabs_triang|]. lra. Qed.
Lemma mul_bound a b A B : Rabs a <= A -> Rabs b <= B -> Rabs (a * b) <= A * B.
Proof. intros Ha Hb. rewrite Rabs_mult. apply Rmult_le_compat; try apply Rabs_pos; assumption. Qed.
Lemma sin_abs x : Rabs (sin x) <= 1. Proof. pose proof (SIN_bound x). apply Rabs_le. lra. Qed.
Lemma cos_abs x : Rabs (cos x) <= 1. Proof. pose proof (COS_bound x). apply Rabs_le. lra. Qed.

(** with rates up to 8 rad/s, times up to 5 s, and angles and rates known to e: the error grows as the square of 1/cos(theta) *)
Lemma turned_near i t o w o' w' (e := 48 / 10 ^ 8) : Rabs t <= 5 -> / 10 ^ 5 <= Rabs (cos (vy o)) -> (forall j, Rabs (rc j w) <= 8) ->
  (forall j, Rabs (rc j o' - rc j o) <= e) -> (forall j, Rabs (rc j w' - rc j w) <= e) ->
  95 / 100 * Rabs (cos (vy o)) <= Rabs (cos (vy o')) /\ Rabs (rc i (angles_after t o' w') - rc i (angles_after t o w)) <= 19 / 10 ^ 5 / (cos (vy o) * cos (vy o)).
Proof.
  intros Ht Hc Hw Ho Hs. unfold e in *. set (c := cos (vy o)) in *. set (c' := cos (vy o')).
  assert (Dc : Rabs (c' - c) <= 48 / 10 ^ 8) by (eapply Rle_trans; [apply cos_lipschitz|apply (Ho AY)]).
  assert (C' : 95 / 100 * Rabs c <= Rabs c') by (pose proof (Rabs_triang_inv c (c - c')) as K; replace (c - (c - c')) with c' in K by ring; rewrite <- Rabs_Ropp in Dc; replace (- (c' - c)) with (c - c') in Dc by ring; lra).
  split; [exact C'|].
  assert (C1 : Rabs c <= 1) by apply cos_abs. assert (Cp : 0 < Rabs c) by lra. assert (Cp' : 0 < Rabs c') by lra.
  assert (Cn : c <> 0) by (intros Z; rewrite Z, Rabs_R0 in Cp; lra). assert (Cn' : c' <> 0) by (intros Z; rewrite Z, Rabs_R0 in Cp'; lra).
  set (K := / (c * c)). assert (EK : K = / Rabs c * / Rabs c) by (unfold K; rewrite <- Rinv_mult; f_equal; rewrite <- Rabs_mult; symmetry; apply Rabs_pos_eq, Rle_0_sqr).
  assert (I1 : 1 <= / Rabs c) by (rewrite <- Rinv_1; apply Rinv_le_contravar; lra). assert (I2 : / Rabs c <= K) by (rewrite EK; nra). assert (K1 : 1 <= K) by lra.
  assert (J : / Rabs c' <= 106 / 100 * / Rabs c) by (replace (106 / 100 * / Rabs c) with (/ (100 / 106 * Rabs c)) by (field; lra); apply Rinv_le_contravar; lra).
  pose proof (Hw AX) as W1. pose proof (Hw AY) as W2. pose proof (Hw AZ) as W3. pose proof (Hs AX) as S1. pose proof (Hs AY) as S2. pose proof (Hs AZ) as S3. pose proof (Ho AX) as O1. pose proof (Ho AY) as O2. pose proof (Ho AZ) as O3. cbn [rc] in *.
  assert (Ds : Rabs (sin (vz o') - sin (vz o)) <= 48 / 10 ^ 8) by (eapply Rle_trans; [apply sin_lipschitz|exact O3]). assert (Dcf : Rabs (cos (vz o') - cos (vz o)) <= 48 / 10 ^ 8) by (eapply Rle_trans; [apply cos_lipschitz|exact O3]).
  set (s := vy w * sin (vz o) + vz w * cos (vz o)) in *. set (s' := vy w' * sin (vz o') + vz w' * cos (vz o')).
  assert (Bs : Rabs s <= 16) by (replace 16 with (8 * 1 + 8 * 1) by lra; apply sum_bound; apply mul_bound; first [assumption|apply sin_abs|apply cos_abs]).
  assert (Dss : Rabs (s' - s) <= 864 / 10 ^ 8).
  { eapply Rle_trans; [apply sum_near; apply prod_near with (A := 8) (B := 1) (da := 48 / 10 ^ 8) (db := 48 / 10 ^ 8); first [assumption|apply sin_abs|apply cos_abs]|lra]. }
  (* the quotient *)
  assert (Dq : forall x x' A d, Rabs x <= A -> 0 <= A -> Rabs (x' - x) <= d -> 0 <= d -> Rabs (x' / c' - x / c) <= (106 / 100 * d + A * (51 / 10 ^ 8)) * K).
  { intros x x' A d HA A0 Hd d0. replace (x' / c' - x / c) with ((x' - x) * / c' + x * ((c - c') * (/ c * / c'))) by (field; auto). eapply Rle_trans; [apply Rabs_triang|]. rewrite !Rabs_mult, !Rabs_inv.
    assert (Q0 : 0 <= / Rabs c) by lra. assert (Q0' : 0 <= / Rabs c') by (left; apply Rinv_0_lt_compat, Cp').
    assert (T1 : Rabs (x' - x) * / Rabs c' <= d * (106 / 100 * K)) by (apply Rmult_le_compat; [apply Rabs_pos|exact Q0'|exact Hd|lra]).
    assert (T2 : / Rabs c * / Rabs c' <= 106 / 100 * K) by (rewrite EK; apply Rle_trans with (/ Rabs c * (106 / 100 * / Rabs c)); [apply Rmult_le_compat_l; lra|lra]).
    assert (T3 : Rabs (c - c') <= 48 / 10 ^ 8) by (rewrite <- Rabs_Ropp; replace (- (c - c')) with (c' - c) by ring; exact Dc).
    assert (T4 : Rabs (c - c') * (/ Rabs c * / Rabs c') <= 48 / 10 ^ 8 * (106 / 100 * K)) by (apply Rmult_le_compat; [apply Rabs_pos|apply Rmult_le_pos; assumption|exact T3|exact T2]).
    assert (T5 : Rabs x * (Rabs (c - c') * (/ Rabs c * / Rabs c')) <= A * (48 / 10 ^ 8 * (106 / 100 * K))) by (apply Rmult_le_compat; [apply Rabs_pos|apply Rmult_le_pos; [apply Rabs_pos|apply Rmult_le_pos; assumption]|exact HA|exact T4]).
    assert (0 <= A * K) by (apply Rmult_le_pos; lra). lra. }
  assert (Fin : forall x x' y y' d, Rabs (x' - x) <= 48 / 10 ^ 8 -> Rabs (y' - y) <= d * K -> 0 <= d -> 48 / 10 ^ 8 + 5 * d <= 19 / 10 ^ 5 -> Rabs (x' + y' * t - (x + y * t)) <= 19 / 10 ^ 5 / (c * c)).
  { intros x x' y y' d H1 H2 d0 H3. replace (x' + y' * t - (x + y * t)) with ((x' - x) + (y' - y) * t) by ring. eapply Rle_trans; [apply Rabs_triang|]. rewrite Rabs_mult. change (19 / 10 ^ 5 / (c * c)) with (19 / 10 ^ 5 * K).
    assert (Rabs (y' - y) * Rabs t <= d * K * 5) by (apply Rmult_le_compat; try apply Rabs_pos; assumption). assert ((48 / 10 ^ 8 + 5 * d) * K <= 19 / 10 ^ 5 * K) by (apply Rmult_le_compat_r; lra). lra. }
  destruct i; cbn [angles_after rc vx vy vz]; fold s s' c c'.
  - apply Fin with (d := 106 / 100 * (864 / 10 ^ 8) + 16 * (51 / 10 ^ 8)); [exact O1|apply Dq; lra|lra|lra].
  - apply Fin with (d := 1728 / 10 ^ 8); [exact O2| |lra|lra].
    assert (Q : Rabs (vy w' * cos (vz o') - vz w' * sin (vz o') - (vy w * cos (vz o) - vz w * sin (vz o))) <= 864 / 10 ^ 8).
    { replace (vy w' * cos (vz o') - vz w' * sin (vz o') - (vy w * cos (vz o) - vz w * sin (vz o))) with (vy w' * cos (vz o') + (- vz w') * sin (vz o') - (vy w * cos (vz o) + (- vz w) * sin (vz o))) by ring.
      eapply Rle_trans; [apply sum_near; apply prod_near with (A := 8) (B := 1) (da := 48 / 10 ^ 8) (db := 48 / 10 ^ 8); first [assumption|apply sin_abs|apply cos_abs|rewrite Rabs_Ropp; assumption|replace (- vz w' - - vz w) with (- (vz w' - vz w)) by ring; rewrite Rabs_Ropp; assumption]|lra]. }
    lra.
  - unfold tan. fold c c'. replace (s' * (sin (vy o') / c')) with (s' * sin (vy o') / c') by (unfold Rdiv; ring). replace (s * (sin (vy o) / c)) with (s * sin (vy o) / c) by (unfold Rdiv; ring).
    assert (Dt : Rabs (sin (vy o') - sin (vy o)) <= 48 / 10 ^ 8) by (eapply Rle_trans; [apply sin_lipschitz|exact O2]).
    apply Fin with (d := 48 / 10 ^ 8 + (106 / 100 * (864 / 10 ^ 8 + 16 * (48 / 10 ^ 8)) + 16 * (51 / 10 ^ 8))); [exact O3| |lra|lra].
    assert (Q : Rabs (s' * sin (vy o') / c' - s * sin (vy o) / c) <= (106 / 100 * (864 / 10 ^ 8 + 16 * (48 / 10 ^ 8)) + 16 * (51 / 10 ^ 8)) * K).
    { apply Dq; [replace 16 with (16 * 1) by lra; apply mul_bound; [exact Bs|apply sin_abs]|lra| |lra]. eapply Rle_trans; [apply prod_near with (A := 16) (B := 1) (da := 864 / 10 ^ 8) (db := 48 / 10 ^ 8); first [assumption|apply sin_abs]|lra]. }
    eapply Rle_trans; [apply sum_near; [exact S1|exact Q]|]. lra.
Qed.

(** ** The receiver *)
(** up to 67000 km, 1024 m/s, 128 m/s2, any usual angle in radians, 8 rad/s *)
Definition usual (m : motion) : Prop := forall i, Rabs (val (fc i (m_loc m))) <= 2 ^ 26 /\ Rabs (val (fc i (m_vel m))) <= 2 ^ 10 /\ Rabs (val (fc i (m_acc m))) <= 2 ^ 7 /\
  Rabs (val (fc i (m_ori m))) <= 8 /\ Rabs (val (fc i (m_spin m))) <= 8.
Definition as_sent (m m' : motion) : Prop := m_loc m' = m_loc m /\ single (m_vel m) (m_vel m') /\ single (m_acc m) (m_acc m') /\ single (m_ori m) (m_ori m') /\ single (m_spin m) (m_spin m').
Definition finite_motion (m : motion) : Prop := fin3 (m_loc m) /\ fin3 (m_vel m) /\ fin3 (m_acc m) /\ fin3 (m_ori m) /\ fin3 (m_spin m).

Lemma motion_finite n s o m : has_motion n s o m -> finite_motion m.
Proof. intros H. (split; [|split; [|split; [|split]]]); intros i; destruct (H i) as (A & B & C & D & E); eapply reads_fin; eassumption. Qed.
Lemma single_near v w i k : single v w -> Rabs (val (fc i v)) <= k -> Rabs (val (fc i w) - val (fc i v)) <= k / 16777216 + / 2 ^ 40.
Proof.
  intros H B. specialize (H i). pose proof eta32_40. pose proof u24_val as U. eapply Rle_trans; [exact H|]. rewrite U. lra.
Qed.
Lemma near_bound x y k d : Rabs x <= k -> Rabs (y - x) <= d -> Rabs y <= k + d.
Proof. intros A B. replace y with (x + (y - x)) by ring. apply sum_bound; assumption. Qed.
Lemma rc_real3 i v : rc i (real3 v) = val (fc i v). Proof. now destruct i. Qed.
Lemma size1_bound v k : (forall i, Rabs (val (fc i v)) <= k) -> 0 <= size1 (real3 v) <= 3 * k.
Proof. intros H. pose proof (H AX) as H1. pose proof (H AY) as H2. pose proof (H AZ) as H3. cbn [fc] in *. unfold size1, real3. cbn [vx vy vz]. pose proof (Rabs_pos (val (fx v))). pose proof (Rabs_pos (val (fy v))). pose proof (Rabs_pos (val (fz v))). lra. Qed.
Lemma rotation_euler psi theta phi : get_rotation_matrix psi theta phi = Real3.euler psi theta phi.
Proof. unfold Real3.euler, get_rotation_matrix, Rz, Ry, Rx. veq. Qed.

Section Receiver.
Variables (L : platform) (m m' : motion) (dt : f64).
Hypotheses (HL : accurate L) (U : usual m) (S : as_sent m m') (F : finite_motion m') (Ft : fin dt) (T : Rabs (val dt) <= 5).
Let t := val dt.

Lemma t_sq : 0 <= t * t <= 25.
Proof. split; [apply Rle_0_sqr|]. replace (t * t) with (Rabs t * Rabs t) by (rewrite <- Rabs_mult; apply Rabs_pos_eq, Rle_0_sqr). replace 25 with (5 * 5) by lra. apply Rmult_le_compat; try apply Rabs_pos; exact T. Qed.
Lemma near_all i : Rabs (val (fc i (m_vel m')) - val (fc i (m_vel m))) <= 62 / 10 ^ 6 /\ Rabs (val (fc i (m_acc m')) - val (fc i (m_acc m))) <= 8 / 10 ^ 6 /\
  Rabs (val (fc i (m_ori m')) - val (fc i (m_ori m))) <= 48 / 10 ^ 8 /\ Rabs (val (fc i (m_spin m')) - val (fc i (m_spin m))) <= 48 / 10 ^ 8.
Proof.
  destruct S as (_ & S1 & S2 & S3 & S4). destruct (U i) as (_ & B1 & B2 & B3 & B4).
  pose proof (single_near _ _ i _ S1 B1). pose proof (single_near _ _ i _ S2 B2). pose proof (single_near _ _ i _ S3 B3). pose proof (single_near _ _ i _ S4 B4). (split; [|split; [|split]]); lra.
Qed.
Lemma bound_all i : Rabs (val (fc i (m_vel m'))) <= 1025 /\ Rabs (val (fc i (m_acc m'))) <= 129 /\ Rabs (val (fc i (m_ori m'))) <= 9 /\ Rabs (val (fc i (m_spin m'))) <= 9.
Proof.
  destruct (near_all i) as (N1 & N2 & N3 & N4). destruct (U i) as (_ & B1 & B2 & B3 & B4).
  pose proof (near_bound _ _ _ _ B1 N1). pose proof (near_bound _ _ _ _ B2 N2). pose proof (near_bound _ _ _ _ B3 N3). pose proof (near_bound _ _ _ _ B4 N4). (split; [|split; [|split]]); lra.
Qed.
Lemma disp_near i : Rabs (val (fc i (m_vel m')) * t + / 2 * val (fc i (m_acc m')) * (t * t) - (val (fc i (m_vel m)) * t + / 2 * val (fc i (m_acc m)) * (t * t))) <= 41 / 10 ^ 5 /\
  Rabs (val (fc i (m_vel m')) * t - val (fc i (m_vel m)) * t) <= 31 / 10 ^ 5 /\ Rabs (val (fc i (m_vel m)) * t + / 2 * val (fc i (m_acc m)) * (t * t)) <= 6720 /\ Rabs (val (fc i (m_vel m)) * t) <= 6720.
Proof.
  destruct (near_all i) as (N1 & N2 & _). destruct (U i) as (_ & B1 & B2 & _). pose proof t_sq as T2. assert (T3 : Rabs (t * t) <= 25) by (rewrite Rabs_pos_eq; lra).
  assert (P1 : Rabs ((val (fc i (m_vel m')) - val (fc i (m_vel m))) * t) <= 62 / 10 ^ 6 * 5) by (apply mul_bound; assumption).
  assert (P2 : Rabs ((val (fc i (m_acc m')) - val (fc i (m_acc m))) * (t * t)) <= 8 / 10 ^ 6 * 25) by (apply mul_bound; assumption).
  assert (P3 : Rabs (val (fc i (m_vel m)) * t) <= 2 ^ 10 * 5) by (apply mul_bound; assumption). assert (P4 : Rabs (val (fc i (m_acc m)) * (t * t)) <= 2 ^ 7 * 25) by (apply mul_bound; assumption).
  apply Rabs_le_inv in P1, P2, P3, P4. (split; [|split; [|split]]); apply Rabs_le; lra.
Qed.

Lemma rounding_small x A B : 0 <= x <= 2 ^ 26 -> 0 <= A <= 30000 -> 0 <= B <= 10 ^ 6 -> 64 * u * (x + A) + 2000 * eta * B <= / 10 ^ 6.
Proof.
  intros X1 X2 X3. pose proof u_pos. assert (64 * u * (x + A) <= 64 * u * (2 ^ 26 + 30000)) by (apply Rmult_le_compat_l; lra).
  assert (2000 * eta * B <= 2000 * eta * 10 ^ 6) by (pose proof eta_pos; apply Rmult_le_compat_l; lra). num.
Qed.

(** in the entity's own frame *)
Lemma receiver_fpb : exists p', drm_fpb64 L (m_loc m') (m_vel m') dt (m_ori m') = FRet (p', m_ori m') /\
  forall i, within (fc i p') (rc i (body_position (real3 (m_loc m)) (real3 (m_vel m)) vzero t (real3 (m_ori m)))) (2 / 100).
Proof.
  destruct F as (F1 & F2 & F3 & F4 & F5). assert (T1 : 0 <= Rabs t) by apply Rabs_pos. pose proof (size1_bound (m_vel m') 1025 (fun i => proj1 (bound_all i))) as Sv.
  assert (Sd : 0 <= size1 (real3 (m_vel m')) * Rabs t <= 3 * 1025 * 5) by (split; [apply Rmult_le_pos; lra|apply Rmult_le_compat; unfold t in *; lra]).
  destruct (C68_fpb L (m_loc m') (m_vel m') dt (m_ori m') HL F1 F2 Ft F4) as (p' & E & W).
  - intros i. rewrite (proj1 S). apply moderate_case. destruct (U i) as (B & _). lra.
  - apply moderate_case. rewrite Rabs_pos_eq; lra.
  - apply moderate_case. rewrite Rabs_mult, (Rabs_pos_eq (1 + _)) by lra. fold t. unfold t in *. lra.
  - exists p'. split; [exact E|]. intros i. destruct (W i) as [Fi K]. split; [exact Fi|]. fold t in K.
    replace (rc i (fst (drm_fpb (real3 (m_loc m')) (real3 (m_vel m')) t (real3 (m_ori m'))))) with (rc i (body_position (real3 (m_loc m)) (real3 (m_vel m')) vzero t (real3 (m_ori m')))) in K.
    2:{ rewrite (proj1 S). unfold drm_fpb, body_position, to_numpy. cbv zeta. cbn [fst]. rewrite rotation_euler. unfold vzero. destruct i; cbn [rc vadd vscale mapply vdot r1 r2 r3 vx vy vz]; unfold vdot; cbn [vx vy vz]; ring. }
    assert (N : Rabs (rc i (body_position (real3 (m_loc m)) (real3 (m_vel m')) vzero t (real3 (m_ori m'))) - rc i (body_position (real3 (m_loc m)) (real3 (m_vel m)) vzero t (real3 (m_ori m)))) <= 1733 / 1000 * (41 / 10 ^ 5 + 3 * (48 / 10 ^ 8) * 6720)).
    { apply body_near; try lra; intros j; rewrite ?rc_real3; replace (rc j vzero) with 0 by (now destruct j); try (destruct (disp_near j) as (_ & D1 & _ & D2)); try apply near_all; try (match goal with |- Rabs ?x <= _ => let y := constr:(x) in idtac end);
      [replace (val (fc j (m_vel m)) * t + / 2 * 0 * (t * t)) with (val (fc j (m_vel m)) * t) by ring; exact D2|
       replace (val (fc j (m_vel m')) * t + / 2 * 0 * (t * t) - (val (fc j (m_vel m)) * t + / 2 * 0 * (t * t))) with (val (fc j (m_vel m')) * t - val (fc j (m_vel m)) * t) by ring; lra]. }
    rewrite (proj1 S) in K. destruct (U i) as (B & _).
    pose proof (rounding_small (Rabs (val (fc i (m_loc m)))) (size1 (real3 (m_vel m')) * Rabs t) (1 + (1 + size1 (real3 (m_vel m'))) * Rabs t)) as Z.
    assert (Z' : 64 * u * (Rabs (val (fc i (m_loc m))) + size1 (real3 (m_vel m')) * Rabs t) + 2000 * eta * (1 + (1 + size1 (real3 (m_vel m'))) * Rabs t) <= / 10 ^ 6) by (apply Z; [split; [apply Rabs_pos|exact B]|lra|unfold t in *; lra]).
    apply Rabs_le_inv in K, N. apply Rabs_le. lra.
Qed.
Lemma receiver_fvb : exists p', drm_fvb64 L (m_loc m') (m_vel m') (m_acc m') dt (m_ori m') = FRet (p', m_ori m') /\
  forall i, within (fc i p') (rc i (body_position (real3 (m_loc m)) (real3 (m_vel m)) (real3 (m_acc m)) t (real3 (m_ori m)))) (2 / 100).
Proof.
  destruct F as (F1 & F2 & F3 & F4 & F5). assert (T1 : 0 <= Rabs t) by apply Rabs_pos. pose proof t_sq as T2.
  pose proof (size1_bound (m_vel m') 1025 (fun i => proj1 (bound_all i))) as Sv. pose proof (size1_bound (m_acc m') 129 (fun i => proj1 (proj2 (bound_all i)))) as Sa.
  assert (Sd : 0 <= size1 (real3 (m_vel m')) * Rabs t <= 3 * 1025 * 5) by (split; [apply Rmult_le_pos; lra|apply Rmult_le_compat; unfold t in *; lra]).
  assert (Se : 0 <= size1 (real3 (m_acc m')) * (t * t) <= 3 * 129 * 25) by (split; [apply Rmult_le_pos; lra|apply Rmult_le_compat; lra]).
  destruct (C68_fvb L (m_loc m') (m_vel m') (m_acc m') dt (m_ori m') HL F1 F2 F3 Ft F4) as (p' & E & W).
  - intros i. rewrite (proj1 S). apply moderate_case. destruct (U i) as (B & _). lra.
  - apply moderate_case. fold t. rewrite Rabs_pos_eq; lra.
  - apply moderate_case. fold t. rewrite Rabs_mult, (Rabs_pos_eq (size1 _)) by lra. lra.
  - apply moderate_case. rewrite Rabs_pos_eq; lra.
  - apply moderate_case. fold t. rewrite Rabs_pos_eq; lra.
  - exists p'. split; [exact E|]. intros i. destruct (W i) as [Fi K]. split; [exact Fi|]. fold t in K.
    replace (rc i (fst (drm_fvb (real3 (m_loc m')) (real3 (m_vel m')) (real3 (m_acc m')) t (real3 (m_ori m'))))) with (rc i (body_position (real3 (m_loc m)) (real3 (m_vel m')) (real3 (m_acc m')) t (real3 (m_ori m')))) in K.
    2:{ rewrite (proj1 S). unfold drm_fvb, body_position, to_numpy. cbv zeta. cbn [fst]. rewrite rotation_euler. destruct i; cbn [rc vadd vscale mapply vdot r1 r2 r3 vx vy vz]; unfold vdot; cbn [vx vy vz vadd vscale]; field. }
    assert (N : Rabs (rc i (body_position (real3 (m_loc m)) (real3 (m_vel m')) (real3 (m_acc m')) t (real3 (m_ori m'))) - rc i (body_position (real3 (m_loc m)) (real3 (m_vel m)) (real3 (m_acc m)) t (real3 (m_ori m)))) <= 1733 / 1000 * (41 / 10 ^ 5 + 3 * (48 / 10 ^ 8) * 6720)).
    { apply body_near; try lra; intros j; rewrite ?rc_real3; first [apply disp_near|apply near_all]. }
    rewrite (proj1 S) in K. destruct (U i) as (B & _).
    pose proof (rounding_small (Rabs (val (fc i (m_loc m)))) (size1 (real3 (m_vel m')) * Rabs t + / 2 * size1 (real3 (m_acc m')) * (t * t)) (1 + size1 (real3 (m_vel m')) * Rabs t + size1 (real3 (m_acc m')) * (1 + t * t) + t * t)) as Z.
    rewrite Rplus_assoc in K.
    assert (Z' : 64 * u * (Rabs (val (fc i (m_loc m))) + (size1 (real3 (m_vel m')) * Rabs t + / 2 * size1 (real3 (m_acc m')) * (t * t))) + 2000 * eta * (1 + size1 (real3 (m_vel m')) * Rabs t + size1 (real3 (m_acc m')) * (1 + t * t) + t * t) <= / 10 ^ 6) by (apply Z; [split; [apply Rabs_pos|exact B]|lra|lra]).
    assert (Y : 0 <= eta * (1 + size1 (real3 (m_vel m')) * Rabs t + size1 (real3 (m_acc m')) * (1 + t * t) + t * t)) by (pose proof eta_pos; apply Rmult_le_pos; lra).
    apply Rabs_le_inv in K, N. apply Rabs_le. lra.
Qed.

(** in world coordinates, as C69 *)
Lemma receiver_fpw i : within (fc i (fst (drm_fpw64 (m_loc m') (m_vel m') dt (m_ori m')))) (val (fc i (m_loc m)) + val (fc i (m_vel m)) * t) (/ 1000).
Proof.
  destruct F as (F1 & F2 & F3 & F4 & F5).
  assert (Bt : forall j, Rabs (val (fc j (m_vel m')) * val dt) <= 1025 * 5) by (intros j; apply mul_bound; [apply bound_all|exact T]).
  destruct (C66_fpw (m_loc m') (m_vel m') dt (m_ori m') F1 F2 Ft) as [_ W].
  { intros j. rewrite (proj1 S). destruct (U j) as (B & _). pose proof (Bt j). split; apply moderate_case; lra. }
  destruct (W i) as [Fi K]. split; [exact Fi|]. fold t in K.
  replace (rc i (fst (drm_fpw (real3 (m_loc m')) (real3 (m_vel m')) t (real3 (m_ori m'))))) with (val (fc i (m_loc m)) + val (fc i (m_vel m')) * t) in K by (rewrite (proj1 S); unfold drm_fpw, to_numpy; cbv zeta; destruct i; cbn [rc fst vadd vscale real3 vx vy vz fc]; ring).
  rewrite (proj1 S) in K |- *. destruct (U i) as (B & _). destruct (disp_near i) as (_ & D & _). specialize (Bt i). fold t in Bt. pose proof (Rabs_pos (val (fc i (m_loc m)))). pose proof (Rabs_pos (val (fc i (m_vel m')) * t)). pose proof u_pos. pose proof eta_pos.
  assert (Z : 4 * u * (Rabs (val (fc i (m_loc m))) + Rabs (val (fc i (m_vel m')) * t)) <= 4 * u * (2 ^ 26 + 1025 * 5)) by (apply Rmult_le_compat_l; lra).
  assert (Z2 : 4 * u * (2 ^ 26 + 1025 * 5) + 2 * eta <= / 10 ^ 6) by num. apply Rabs_le_inv in K, D. apply Rabs_le. lra.
Qed.
Lemma receiver_fvw : exists p', drm_fvw64 L (m_loc m') (m_vel m') (m_acc m') dt (m_ori m') = FRet (p', m_ori m') /\
  forall i, within (fc i p') (val (fc i (m_loc m)) + val (fc i (m_vel m)) * t + / 2 * val (fc i (m_acc m)) * (t * t)) (/ 1000).
Proof.
  destruct F as (F1 & F2 & F3 & F4 & F5). pose proof t_sq as T2. assert (T3 : Rabs (t * t) <= 25) by (rewrite Rabs_pos_eq; lra).
  assert (Bt : forall j, Rabs (val (fc j (m_vel m')) * t) <= 1025 * 5) by (intros j; apply mul_bound; [apply bound_all|exact T]).
  assert (Ba : forall j, Rabs (val (fc j (m_acc m')) * (t * t)) <= 129 * 25) by (intros j; apply mul_bound; [apply bound_all|exact T3]).
  destruct (C66_fvw L (m_loc m') (m_vel m') (m_acc m') dt (m_ori m') HL F1 F2 F3 Ft) as (p' & E & W).
  { apply moderate_case. fold t. lra. }
  { intros j. rewrite (proj1 S). destruct (U j) as (B & _). destruct (bound_all j) as (_ & Bj & _). pose proof (Bt j). pose proof (Ba j). fold t. (split; [|split; [|split]]); apply moderate_case; lra. }
  exists p'. split; [exact E|]. intros i. destruct (W i) as [Fi K]. split; [exact Fi|]. fold t in K.
  replace (rc i (fst (drm_fvw (real3 (m_loc m')) (real3 (m_vel m')) (real3 (m_acc m')) t (real3 (m_ori m'))))) with (val (fc i (m_loc m)) + (val (fc i (m_vel m')) * t + / 2 * val (fc i (m_acc m')) * (t * t))) in K by (rewrite (proj1 S); unfold drm_fvw, to_numpy; cbv zeta; destruct i; cbn [rc fst vadd vscale real3 vx vy vz fc]; field).
  rewrite (proj1 S) in K. destruct (U i) as (B & _). destruct (disp_near i) as (D & _). specialize (Bt i). specialize (Ba i). destruct (bound_all i) as (_ & Bj & _).
  pose proof (Rabs_pos (val (fc i (m_loc m)))). pose proof (Rabs_pos (val (fc i (m_vel m')) * t)). pose proof (Rabs_pos (val (fc i (m_acc m')))). pose proof u_pos. pose proof eta_pos.
  assert (Bb : 0 <= Rabs (val (fc i (m_acc m'))) * (t * t) <= 129 * 25) by (split; [apply Rmult_le_pos; lra|apply Rmult_le_compat; lra]).
  assert (Z : 8 * u * (Rabs (val (fc i (m_loc m))) + Rabs (val (fc i (m_vel m')) * t) + / 2 * Rabs (val (fc i (m_acc m'))) * (t * t)) <= 8 * u * (2 ^ 26 + 1025 * 5 + 129 * 25)) by (apply Rmult_le_compat_l; lra).
  assert (Z1 : 8 * eta * (1 + Rabs (val (fc i (m_acc m'))) + t * t) <= 8 * eta * (1 + 129 + 25)) by (apply Rmult_le_compat_l; lra).
  assert (Z2 : 8 * u * (2 ^ 26 + 1025 * 5 + 129 * 25) + 8 * eta * (1 + 129 + 25) <= / 10 ^ 6) by num. apply Rabs_le_inv in K, D. apply Rabs_le. lra.
Qed.

(** turning *)
Lemma angles_exact p v o w : 11 / 10000000 <= Rabs (cos (vy o)) -> drm_rpw p v t o w = Ret (vadd p (vscale t v), angles_after t o w).
Proof.
  intros H. unfold drm_rpw, angles_after, to_numpy. cbv zeta. destruct (Rlt_dec (Rabs (cos (vy o))) (1 / 1000000)) as [B|_]; [lra|]. unfold pdiv. destruct (Req_EM_T (cos (vy o)) 0) as [Z|_]; [rewrite Z, Rabs_R0 in H; lra|]. reflexivity.
Qed.
Hypothesis C : / 10 ^ 5 <= Rabs (cos (val (fy (m_ori m)))).
Let c := cos (val (fy (m_ori m))).

Lemma receiver_turn p v : exists q o1, drm_rpw64 L p v dt (m_ori m') (m_spin m') = FRet (q, o1) /\
  forall i, within (fc i o1) (rc i (angles_after t (real3 (m_ori m)) (real3 (m_spin m)))) (2 / 10 ^ 4 / (c * c)).
Proof.
  destruct F as (F1 & F2 & F3 & F4 & F5). assert (T1 : 0 <= Rabs t) by apply Rabs_pos.
  pose proof (fun i => turned_near i t (real3 (m_ori m)) (real3 (m_spin m)) (real3 (m_ori m')) (real3 (m_spin m')) T C) as N.
  assert (N' : forall i, 95 / 100 * Rabs c <= Rabs (cos (val (fy (m_ori m')))) /\ Rabs (rc i (angles_after t (real3 (m_ori m')) (real3 (m_spin m'))) - rc i (angles_after t (real3 (m_ori m)) (real3 (m_spin m)))) <= 19 / 10 ^ 5 / (c * c)).
  { intros i. apply N; intros j; rewrite ?rc_real3; [destruct (U j) as (_ & _ & _ & _ & B); exact B|apply near_all|apply near_all]. } clear N.
  pose proof (proj1 (N' AX)) as C'. assert (C0 : / 10 ^ 5 <= Rabs c) by exact C. assert (C1 : Rabs c <= 1) by apply cos_abs.
  pose proof (size1_bound (m_spin m') 9 (fun i => proj2 (proj2 (proj2 (bound_all i))))) as Sw.
  assert (Se : 0 <= (1 + size1 (real3 (m_spin m'))) * (1 + Rabs t) <= 28 * 6) by (split; [apply Rmult_le_pos; lra|apply Rmult_le_compat; unfold t in *; lra]).
  destruct (C68_turn L p v dt (m_ori m') (m_spin m') HL Ft F4 F5) as (q & o1 & pr & orr & E & ER & W).
  - intros i. apply moderate_case. destruct (bound_all i) as (_ & _ & B & _). lra.
  - apply moderate_case. fold t. rewrite Rabs_pos_eq; lra.
  - lra.
  - fold t in ER, W. rewrite angles_exact in ER by (cbn [real3 vy]; lra). assert (Eo : angles_after t (real3 (m_ori m')) (real3 (m_spin m')) = orr) by congruence. clear ER. subst orr.
    exists q, o1. split; [exact E|]. intros i. destruct (W i) as [Fi K]. split; [exact Fi|]. pose proof (proj2 (N' i)) as N.
    set (K2 := / (c * c)). assert (EK : K2 = / Rabs c * / Rabs c) by (unfold K2; rewrite <- Rinv_mult; f_equal; rewrite <- Rabs_mult; symmetry; apply Rabs_pos_eq, Rle_0_sqr).
    assert (I1 : 1 <= / Rabs c) by (rewrite <- Rinv_1; apply Rinv_le_contravar; lra). assert (I2 : / Rabs c <= K2) by (rewrite EK; nra).
    assert (J : / Rabs (cos (val (fy (m_ori m')))) <= 106 / 100 * / Rabs c) by (replace (106 / 100 * / Rabs c) with (/ (100 / 106 * Rabs c)) by (field; lra); apply Rinv_le_contravar; lra).
    assert (J0 : 0 < / Rabs (cos (val (fy (m_ori m'))))) by (apply Rinv_0_lt_compat; lra).
    change (19 / 10 ^ 5 / (c * c)) with (19 / 10 ^ 5 * K2) in N. change (2 / 10 ^ 4 / (c * c)) with (2 / 10 ^ 4 * K2).
    assert (Sr : 0 <= rc i (rate_sizes (val (fy (m_ori m'))) (real3 (m_spin m'))) <= 30 * K2).
    { pose proof (fun j => proj2 (proj2 (proj2 (bound_all j)))) as B. pose proof (B AX) as B1. pose proof (B AY) as B2. pose proof (B AZ) as B3. cbn [fc] in B1, B2, B3.
      set (w1 := Rabs (val (fx (m_spin m')))) in *. set (w2 := Rabs (val (fy (m_spin m')))) in *. set (w3 := Rabs (val (fz (m_spin m')))) in *. assert (0 <= w1) by apply Rabs_pos. assert (0 <= w2) by apply Rabs_pos. assert (0 <= w3) by apply Rabs_pos.
      set (c' := cos (val (fy (m_ori m')))) in *. assert (Q : 0 <= (w2 + w3) * / Rabs c' <= 18 * (106 / 100 * K2)) by (split; [apply Rmult_le_pos; lra|apply Rmult_le_compat; lra]).
      assert (Qt : 0 <= Rabs (tan (val (fy (m_ori m')))) <= / Rabs c').
      { split; [apply Rabs_pos|]. unfold tan, Rdiv. fold c'. rewrite Rabs_mult, Rabs_inv. pose proof (sin_abs (val (fy (m_ori m')))). pose proof (Rabs_pos (sin (val (fy (m_ori m'))))). rewrite <- (Rmult_1_l (/ Rabs c')) at 2. apply Rmult_le_compat_r; lra. }
      assert (Q2 : 0 <= (w2 + w3) * Rabs (tan (val (fy (m_ori m')))) <= (w2 + w3) * / Rabs c') by (split; [apply Rmult_le_pos; lra|apply Rmult_le_compat_l; lra]).
      destruct i; cbn [rc rate_sizes real3 vx vy vz]; unfold Rdiv; fold w1 w2 w3 c'; lra. }
    assert (Srt : 0 <= rc i (rate_sizes (val (fy (m_ori m'))) (real3 (m_spin m'))) * Rabs t <= 30 * K2 * 5) by (split; [apply Rmult_le_pos; lra|apply Rmult_le_compat; unfold t in *; lra]).
    destruct (bound_all i) as (_ & _ & Bo & _). pose proof u_pos. pose proof eta_pos.
    assert (Z1 : 16 * u * (Rabs (val (fc i (m_ori m'))) + rc i (rate_sizes (val (fy (m_ori m'))) (real3 (m_spin m'))) * Rabs t) <= 16 * u * (159 * K2)) by (apply Rmult_le_compat_l; lra).
    assert (Z2 : 1000000000 * eta * ((1 + size1 (real3 (m_spin m'))) * (1 + Rabs t)) <= 1000000000 * eta * (28 * 6)) by (apply Rmult_le_compat_l; lra).
    assert (Z3 : 16 * u * (159 * K2) + 1000000000 * eta * (28 * 6) <= / 10 ^ 5 * K2) by num.
    apply Rabs_le_inv in K, N. apply Rabs_le. lra.
Qed.
End Receiver.

(** ** The theorems *)
(** Body frame, not turning: the receiver, with drm_fpb or drm_fvb, places the entity within two centimetres per axis of where the sender's exact motion takes it *)
Theorem C78_body n s o W bs m L dt : (fuel_ok <= n)%nat -> contents the_prog (heap s) "EntityStatePdu" w_EntityStatePdu o = Some W -> getattr n o "pduType" s = (Ok (VInt 1), s) ->
  has_motion n s o m -> serialize n o s = (Ok VNone, appended s bs) -> accurate L -> fin dt -> Rabs (val dt) <= 5 -> usual m ->
  forall h rest, exists o' s' m' p1 p2, factory n h (bs ++ rest) = (Ok o', s') /\ has_motion n s' o' m' /\
    drm_fpb64 L (m_loc m') (m_vel m') dt (m_ori m') = FRet (p1, m_ori m') /\
    drm_fvb64 L (m_loc m') (m_vel m') (m_acc m') dt (m_ori m') = FRet (p2, m_ori m') /\
    forall i, within (fc i p1) (rc i (body_position (real3 (m_loc m)) (real3 (m_vel m)) vzero (val dt) (real3 (m_ori m)))) (2 / 100) /\
      within (fc i p2) (rc i (body_position (real3 (m_loc m)) (real3 (m_vel m)) (real3 (m_acc m)) (val dt) (real3 (m_ori m)))) (2 / 100) /\
      Rabs (val (fc i (m_ori m')) - val (fc i (m_ori m))) <= 48 / 10 ^ 8.
Proof.
  intros Hn HW G HM E HL Ft T U h rest. destruct (C69_state n s o W bs m Hn HW G HM E h rest) as (o' & s' & m' & A & _ & HM' & S). pose proof (motion_finite _ _ _ _ HM') as F.
  destruct (receiver_fpb L m m' dt HL U S F Ft T) as (p1 & E1 & W1). destruct (receiver_fvb L m m' dt HL U S F Ft T) as (p2 & E2 & W2).
  exists o', s', m', p1, p2. split; [exact A|]. split; [exact HM'|]. split; [exact E1|]. split; [exact E2|]. intros i. split; [apply W1|]. split; [apply W2|]. apply (near_all m m' U S).
Qed.

(** Turning, no nearer than a hundred-thousandth of a radian to the vertical: the four algorithms return the same angles, near those of the exact law at the sender's, and the positions of the algorithms without turning *)
Theorem C78_turn n s o W bs m L dt : (fuel_ok <= n)%nat -> contents the_prog (heap s) "EntityStatePdu" w_EntityStatePdu o = Some W -> getattr n o "pduType" s = (Ok (VInt 1), s) ->
  has_motion n s o m -> serialize n o s = (Ok VNone, appended s bs) -> accurate L -> fin dt -> Rabs (val dt) <= 5 -> usual m -> / 10 ^ 5 <= Rabs (cos (val (fy (m_ori m)))) ->
  forall h rest, exists o' s' m' p1 p2 p3 p4 o1, factory n h (bs ++ rest) = (Ok o', s') /\ has_motion n s' o' m' /\
    drm_rpw64 L (m_loc m') (m_vel m') dt (m_ori m') (m_spin m') = FRet (p1, o1) /\
    drm_rvw64 L (m_loc m') (m_vel m') (m_acc m') dt (m_ori m') (m_spin m') = FRet (p2, o1) /\
    drm_rpb64 L (m_loc m') (m_vel m') dt (m_ori m') (m_spin m') = FRet (p3, o1) /\
    drm_rvb64 L (m_loc m') (m_vel m') (m_acc m') dt (m_ori m') (m_spin m') = FRet (p4, o1) /\
    forall i,
      within (fc i p1) (val (fc i (m_loc m)) + val (fc i (m_vel m)) * val dt) (/ 1000) /\
      within (fc i p2) (val (fc i (m_loc m)) + val (fc i (m_vel m)) * val dt + / 2 * val (fc i (m_acc m)) * (val dt * val dt)) (/ 1000) /\
      within (fc i p3) (rc i (body_position (real3 (m_loc m)) (real3 (m_vel m)) vzero (val dt) (real3 (m_ori m)))) (2 / 100) /\
      within (fc i p4) (rc i (body_position (real3 (m_loc m)) (real3 (m_vel m)) (real3 (m_acc m)) (val dt) (real3 (m_ori m)))) (2 / 100) /\
      within (fc i o1) (rc i (angles_after (val dt) (real3 (m_ori m)) (real3 (m_spin m)))) (2 / 10 ^ 4 / (cos (val (fy (m_ori m))) * cos (val (fy (m_ori m))))).
Proof.
  intros Hn HW G HM E HL Ft T U HC h rest. destruct (C69_state n s o W bs m Hn HW G HM E h rest) as (o' & s' & m' & A & _ & HM' & S). pose proof (motion_finite _ _ _ _ HM') as F.
  destruct (receiver_fpb L m m' dt HL U S F Ft T) as (p3 & E3 & W3). destruct (receiver_fvb L m m' dt HL U S F Ft T) as (p4 & E4 & W4).
  destruct (receiver_turn L m m' dt HL U S F Ft T HC (m_loc m') (FV f_zero f_zero f_zero)) as (q & o1 & E0 & W0).
  destruct (C68_rotating L (m_loc m') (m_vel m') (m_acc m') dt (m_ori m') (m_spin m') q o1 E0) as (R3 & R4 & R1).
  specialize (R3 _ _ E3). specialize (R4 _ _ E4). destruct (R1 (m_vel m')) as (p1 & E1). clear R1.
  pose proof (receiver_fpw m m' dt U S F Ft T) as W1. destruct (receiver_fvw L m m' dt HL U S F Ft T) as (p2 & E2 & W2).
  assert (Ep : p1 = fst (drm_fpw64 (m_loc m') (m_vel m') dt (m_ori m'))).
  { destruct (C66_rpw L (m_loc m') (m_vel m') dt (m_ori m') (m_spin m')) as [[_ Q]|(_ & _ & o2 & Q)]; rewrite E1 in Q; [discriminate Q|congruence]. }
  assert (E5 : drm_rvw64 L (m_loc m') (m_vel m') (m_acc m') dt (m_ori m') (m_spin m') = FRet (p2, o1)).
  { assert (Sq : exists sq, square L dt = FRet sq) by (unfold drm_fvw64, fbind in E2; destruct (square L dt) as [sq| |]; [eauto|discriminate E2|discriminate E2]).
    rewrite Ep in E1. destruct (C66_rvw L _ _ (m_acc m') _ _ _ _ Sq E1) as (p5 & E6 & E7). rewrite E6 in E2. rewrite E7. congruence. }
  exists o', s', m', p1, p2, p3, p4, o1. split; [exact A|]. split; [exact HM'|]. split; [exact E1|]. split; [exact E5|]. split; [exact R3|]. split; [exact R4|].
  intros i. split; [rewrite Ep; apply W1|]. split; [apply W2|]. split; [apply W3|]. split; [apply W4|]. apply W0.
Qed.

(** ** A case: the entity of C69_case has a usual motion, and is not vertical *)
Lemma cos_15 : / 10 ^ 5 <= Rabs (cos (-3 / 2)).
Proof.
  pose proof PI2_3_2. replace (-3 / 2) with (- (3 / 2)) by field. rewrite cos_neg. apply Rle_trans with (cos (3 / 2)); [|apply Rle_abs].
  destruct (cos_bound (3 / 2) 1) as [B _]; [lra|lra|]. eapply Rle_trans; [|exact B]. unfold cos_approx, cos_term. cbn [sum_f_R0 Nat.mul Nat.add fact INR pow]. cbn. lra.
Qed.
Example C78_case : usual moving_m /\ / 10 ^ 5 <= Rabs (cos (val (fy (m_ori moving_m)))).
Proof.
  pose proof d_tenth_val. pose proof case_p_x as X1. pose proof case_p_y as X2. pose proof case_v_x as X3. pose proof case_v_y as X4. cbn [case_p case_v fx fy] in X1, X2, X3, X4. split.
  - intros []; cbn [moving_m m_loc m_vel m_acc m_ori m_spin vec3 fc fx fy fz]; unfold d_radius, d_back, d_speed, d_g; rewrite ?X1, ?X2, ?X3, ?X4; repeat split; apply Rabs_le; lra.
  - cbn [moving_m m_ori vec3 fy]. unfold d_back. rewrite X2. exact cos_15.
Qed.

Definition all_PropTurn := (C78_body, C78_turn).
Print Assumptions all_PropTurn.
