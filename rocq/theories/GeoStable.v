(** Nearby positions have nearby geodetic coordinates (over the real numbers) *)
From Coq Require Import Reals Lra Lia.
From Flocq Require Import Core.Raux.
From Verif Require Import Real3 RangeCoordinates PropGeo Conv PropConv RangeErr.
Local Open Scope R_scope.
Notation a := wgs84_a.
Notation E := (wgs84_e ^ 2).

(** ** In the meridian plane: latitudes l and k in radians, altitudes h and g *)
Section Plane.
Variables l h k g : R.
Let c := cos l. Let s := sin l. Let c' := cos k. Let s' := sin k.
Let m := sqrt (1 - E * s ^ 2). Let m' := sqrt (1 - E * s' ^ 2).
(** the square of the distance of the two normals *)
Let d2 := (c - c') ^ 2 + (s - s') ^ 2.
Let C := c * c' + s * s'.

Lemma one_l : c ^ 2 + s ^ 2 = 1. Proof. unfold c, s. pose proof (sc l). lra. Qed.
Lemma one_k : c' ^ 2 + s' ^ 2 = 1. Proof. unfold c', s'. pose proof (sc k). lra. Qed.
Lemma d2_is : d2 = 2 * (1 - C). Proof. unfold d2, C. pose proof one_l. pose proof one_k. nra. Qed.
Lemma m_range : 996 / 1000 <= m <= 1 /\ m * m = 1 - E * s ^ 2.
Proof.
  pose proof e2_bounds as EB. pose proof one_l as O. assert (S : 0 <= s ^ 2 <= 1) by nra. assert (P : 0 <= E * s ^ 2 <= 67 / 10000) by (split; [apply Rmult_le_pos; lra|replace (67 / 10000) with (67 / 10000 * 1) by ring; apply Rmult_le_compat; lra]).
  split; [split|].
  - unfold m. apply Rle_trans with (sqrt (996 / 1000 * (996 / 1000))); [rewrite sqrt_square; lra|apply sqrt_le_1_alt; lra].
  - unfold m. apply Rle_trans with (sqrt (1 * 1)); [apply sqrt_le_1_alt; lra|rewrite sqrt_square; lra].
  - unfold m. apply sqrt_sqrt. lra.
Qed.
Lemma m_range' : 996 / 1000 <= m' <= 1 /\ m' * m' = 1 - E * s' ^ 2.
Proof.
  pose proof e2_bounds as EB. pose proof one_k as O. assert (S : 0 <= s' ^ 2 <= 1) by nra. assert (P : 0 <= E * s' ^ 2 <= 67 / 10000) by (split; [apply Rmult_le_pos; lra|replace (67 / 10000) with (67 / 10000 * 1) by ring; apply Rmult_le_compat; lra]).
  split; [split|].
  - unfold m'. apply Rle_trans with (sqrt (996 / 1000 * (996 / 1000))); [rewrite sqrt_square; lra|apply sqrt_le_1_alt; lra].
  - unfold m'. apply Rle_trans with (sqrt (1 * 1)); [apply sqrt_le_1_alt; lra|rewrite sqrt_square; lra].
  - unfold m'. apply sqrt_sqrt. lra.
Qed.
(** the two square roots differ by little *)
Lemma m_diff : (m - m') ^ 2 <= 46 / 1000000 * (s - s') ^ 2.
Proof.
  destruct m_range as [A B]. destruct m_range' as [A' B']. pose proof e2_bounds as EB. pose proof one_l as O. pose proof one_k as O'.
  assert (Q : (m - m') * (m + m') = - E * (s - s') * (s + s')) by lra.
  assert (S2 : (s + s') ^ 2 <= 4) by nra. assert (E2 : E * E <= 67 / 10000 * (67 / 10000)) by (apply Rmult_le_compat; lra).
  assert (Q2 : (m - m') ^ 2 * (m + m') ^ 2 = E * E * (s + s') ^ 2 * (s - s') ^ 2) by (replace ((m - m') ^ 2 * (m + m') ^ 2) with (((m - m') * (m + m')) ^ 2) by ring; rewrite Q; ring).
  assert (MM : 3968 / 1000 <= (m + m') ^ 2) by nra.
  assert (D0 : 0 <= (s - s') ^ 2) by apply pow2_ge_0. assert (D1 : 0 <= (m - m') ^ 2) by apply pow2_ge_0.
  assert (ES : E * E * (s + s') ^ 2 <= 67 / 10000 * (67 / 10000) * 4) by (apply Rmult_le_compat; [nra|apply pow2_ge_0|exact E2|exact S2]).
  assert (R : E * E * (s + s') ^ 2 * (s - s') ^ 2 <= 67 / 10000 * (67 / 10000) * 4 * (s - s') ^ 2) by (apply Rmult_le_compat_r; assumption).
  assert (T : (m - m') ^ 2 * (3968 / 1000) <= (m - m') ^ 2 * (m + m') ^ 2) by (apply Rmult_le_compat_l; assumption). lra.
Qed.
(** the points on the ellipsoid below the two positions move with the normals *)
Let N := normal_radius l. Let N' := normal_radius k.
Lemma N_is : N = a / m. Proof. reflexivity. Qed.
Lemma N_is' : N' = a / m'. Proof. reflexivity. Qed.
Lemma monotone : 6334000 * d2 <= (N * c - N' * c') * (c - c') + (1 - E) * (N * s - N' * s') * (s - s').
Proof.
  destruct m_range as [A B]. destruct m_range' as [A' B']. pose proof e2_bounds as EB. pose proof m_diff as MD. pose proof one_l as O. pose proof one_k as O'. assert (AV : a = 6378137) by reflexivity.
  set (D := c * c' + (1 - E) * (s * s')).
  assert (Q : (N * c - N' * c') * (c - c') + (1 - E) * (N * s - N' * s') * (s - s') = a * (/ m + / m') * (m * m' - D)).
  { rewrite N_is, N_is'. unfold D. assert (X : c ^ 2 + (1 - E) * s ^ 2 = m * m) by lra. assert (X' : c' ^ 2 + (1 - E) * s' ^ 2 = m' * m') by lra.
    replace ((a / m * c - a / m' * c') * (c - c') + (1 - E) * (a / m * s - a / m' * s') * (s - s')) with (a / m * (c ^ 2 + (1 - E) * s ^ 2) + a / m' * (c' ^ 2 + (1 - E) * s' ^ 2) - a * (/ m + / m') * (c * c' + (1 - E) * (s * s'))) by (field; lra).
    rewrite X, X'. field. lra. }
  assert (Q2 : 2 * (m * m' - D) = d2 - E * (s - s') ^ 2 - (m - m') ^ 2) by (unfold D, d2; nra).
  assert (L : d2 * (9932 / 10000) <= 2 * (m * m' - D)).
  { rewrite Q2. assert (0 <= (c - c') ^ 2) by apply pow2_ge_0. assert (0 <= (s - s') ^ 2) by apply pow2_ge_0. assert (E * (s - s') ^ 2 <= 67 / 10000 * (s - s') ^ 2) by (apply Rmult_le_compat_r; lra). unfold d2 in *. lra. }
  assert (D0 : 0 <= d2) by (unfold d2; pose proof (pow2_ge_0 (c - c')); pose proof (pow2_ge_0 (s - s')); lra).
  rewrite Q. assert (I : 1 <= / m) by (rewrite <- Rinv_1; apply Rinv_le_contravar; lra). assert (I' : 1 <= / m') by (rewrite <- Rinv_1; apply Rinv_le_contravar; lra).
  apply Rle_trans with (a * 2 * (m * m' - D)); [rewrite AV; lra|]. apply Rmult_le_compat_r; [lra|]. rewrite AV. lra.
Qed.

(** the two positions *)
Let p := (N + h) * c. Let z := (N * (1 - E) + h) * s. Let p' := (N' + g) * c'. Let z' := (N' * (1 - E) + g) * s'.
Variables lo delta : R.
Hypothesis Hlo : -3000000 <= lo. Hypothesis Hh : lo <= h. Hypothesis Hg : lo <= g.
Hypothesis Hd : 0 <= delta. Hypothesis Hpz : (p - p') ^ 2 + (z - z') ^ 2 <= delta ^ 2.
Let d := sqrt d2.
Lemma d_sq : d * d = d2. Proof. apply sqrt_sqrt. unfold d2. pose proof (pow2_ge_0 (c - c')); pose proof (pow2_ge_0 (s - s')); lra. Qed.
Lemma d_pos : 0 <= d. Proof. apply sqrt_pos. Qed.
Lemma dot_le x y x' y' r q : 0 <= r -> 0 <= q -> x ^ 2 + y ^ 2 <= r ^ 2 -> x' ^ 2 + y' ^ 2 <= q ^ 2 -> Rabs (x * x' + y * y') <= r * q.
Proof.
  intros Hr Hq A B. rewrite <- (Rabs_pos_eq (r * q)) by (apply Rmult_le_pos; assumption). apply Rsqr_le_abs_0. unfold Rsqr.
  assert (X : (x ^ 2 + y ^ 2) * (x' ^ 2 + y' ^ 2) <= r ^ 2 * q ^ 2) by (apply Rmult_le_compat; try assumption; pose proof (pow2_ge_0 x); pose proof (pow2_ge_0 y); pose proof (pow2_ge_0 x'); pose proof (pow2_ge_0 y'); lra).
  pose proof (pow2_ge_0 (x * y' - y * x')). lra.
Qed.
Lemma normals_near : d * (6334000 + lo) <= delta.
Proof.
  pose proof monotone as MO. pose proof d2_is as DI. pose proof d_sq as DS. pose proof d_pos as DP. pose proof one_l as O. pose proof one_k as O'.
  assert (I : (p - p') * (c - c') + (z - z') * (s - s') = ((N * c - N' * c') * (c - c') + (1 - E) * (N * s - N' * s') * (s - s')) + (h + g) * (1 - C)) by (unfold p, p', z, z', C; nra).
  assert (U : Rabs ((p - p') * (c - c') + (z - z') * (s - s')) <= delta * d) by (apply dot_le; [exact Hd|exact DP|exact Hpz|replace (d ^ 2) with (d * d) by ring; rewrite DS; unfold d2; lra]).
  apply Rabs_le_inv in U. assert (L : lo * d2 <= (h + g) * (1 - C)). { assert (0 <= 1 - C) by (rewrite <- DS in DI; nra). rewrite DI. replace (lo * (2 * (1 - C))) with (2 * lo * (1 - C)) by ring. apply Rmult_le_compat_r; lra. }
  assert (T : (6334000 + lo) * (d * d) <= delta * d) by (rewrite DS; lra).
  destruct (Req_dec d 0) as [Z|Z]; [rewrite Z; lra|]. apply Rmult_le_reg_r with d; [lra|]. lra.
Qed.
Hypothesis Hl : - PI / 2 < l < PI / 2. Hypothesis Hk : - PI / 2 < k < PI / 2.
Hypothesis Hsmall : delta <= 10000.
Lemma latitudes_near : Rabs (l - k) * (6334000 + lo) <= 1001 / 1000 * delta.
Proof.
  pose proof normals_near as NN. pose proof d_sq as DS. pose proof d_pos as DP. pose proof d2_is as DI.
  assert (DB : d <= / 300). { apply Rmult_le_reg_r with (6334000 + lo); lra. }
  assert (CB : 99999 / 100000 <= C) by nra. assert (CE : cos (l - k) = C) by (rewrite cos_minus; reflexivity).
  assert (RG : - PI < l - k < PI) by lra.
  assert (HB : - PI / 2 < l - k < PI / 2).
  { split; apply Rnot_le_lt; intros X.
    - assert (cos (l - k) <= 0); [|lra]. rewrite <- cos_neg. apply cos_le_0; lra.
    - assert (cos (l - k) <= 0); [|lra]. apply cos_le_0; lra. }
  assert (SB : Rabs (sin (l - k)) <= d).
  { rewrite <- (Rabs_pos_eq d) by exact DP. apply Rsqr_le_abs_0. unfold Rsqr. rewrite DS, DI. pose proof (sc (l - k)) as S1. rewrite CE in S1. nra. }
  rewrite <- (atan_tan (l - k)) by lra. assert (AT : Rabs (atan (tan (l - k))) <= Rabs (tan (l - k))). { pose proof (atan_lipschitz (tan (l - k)) 0) as Q. rewrite atan_0, !Rminus_0_r in Q. exact Q. }
  assert (TB : Rabs (tan (l - k)) <= 1001 / 1000 * d).
  { unfold tan. rewrite CE. unfold Rdiv. rewrite Rabs_mult, (Rabs_pos_eq (/ C)) by (left; apply Rinv_0_lt_compat; lra). rewrite Rmult_comm. apply Rmult_le_compat; [left; apply Rinv_0_lt_compat; lra|apply Rabs_pos| |exact SB].
    apply Rle_trans with (/ (99999 / 100000)); [apply Rinv_le_contravar; lra|lra]. }
  apply Rle_trans with (1001 / 1000 * d * (6334000 + lo)); [apply Rmult_le_compat_r; lra|]. lra.
Qed.
(** r: a bound on the distance from the centre *)
Lemma altitudes_near r : 0 <= r -> p' ^ 2 + z' ^ 2 <= r ^ 2 -> Rabs (h - g) <= delta + (r + 44000) * d.
Proof.
  intros Hr HR. destruct m_range as [A B]. destruct m_range' as [A' B']. pose proof m_diff as MD. pose proof d_sq as DS. pose proof d_pos as DP. pose proof one_l as O. pose proof one_k as O'. assert (AV : a = 6378137) by reflexivity.
  assert (H1 : h = p * c + z * s - a * m).
  { unfold p, z. rewrite N_is. replace ((a / m + h) * c * c + (a / m * (1 - E) + h) * s * s - a * m) with (a / m * (c ^ 2 + (1 - E) * s ^ 2) + h * (c ^ 2 + s ^ 2) - a * m) by ring. replace (c ^ 2 + (1 - E) * s ^ 2) with (m * m) by lra. rewrite O. field. lra. }
  assert (G1 : g = p' * c' + z' * s' - a * m').
  { unfold p', z'. rewrite N_is'. replace ((a / m' + g) * c' * c' + (a / m' * (1 - E) + g) * s' * s' - a * m') with (a / m' * (c' ^ 2 + (1 - E) * s' ^ 2) + g * (c' ^ 2 + s' ^ 2) - a * m') by ring. replace (c' ^ 2 + (1 - E) * s' ^ 2) with (m' * m') by lra. rewrite O'. field. lra. }
  assert (DD : (c - c') ^ 2 + (s - s') ^ 2 <= d ^ 2) by (replace (d ^ 2) with (d * d) by ring; rewrite DS; unfold d2; lra).
  assert (T1 : Rabs ((p - p') * c + (z - z') * s) <= delta * 1) by (apply dot_le; [exact Hd|lra|exact Hpz|lra]).
  assert (T2 : Rabs (p' * (c - c') + z' * (s - s')) <= r * d) by (apply dot_le; [exact Hr|exact DP|exact HR|exact DD]).
  assert (T3 : Rabs (m - m') <= 68 / 10000 * d).
  { rewrite <- (Rabs_pos_eq (68 / 10000 * d)) by lra. apply Rsqr_le_abs_0. unfold Rsqr. pose proof (pow2_ge_0 (c - c')). pose proof (pow2_ge_0 (s - s')). lra. }
  replace (h - g) with (((p - p') * c + (z - z') * s) + (p' * (c - c') + z' * (s - s')) - a * (m - m')) by lra.
  apply Rabs_le_inv in T1, T2, T3. rewrite AV. apply Rabs_le. lra.
Qed.
End Plane.

(** ** Longitudes o and w in radians, at distances p and r from the axis *)
Lemma half_turns t : - (2 * PI) < t < 2 * PI -> 0 < cos t -> exists v, (v = 0 \/ v = 2 * PI \/ v = - (2 * PI)) /\ - PI / 2 < t - v < PI / 2.
Proof.
  intros H C. pose proof PI_RGT_0 as HP.
  assert (A : forall y, PI / 2 <= y <= 3 * (PI / 2) -> 0 < cos y -> False) by (intros y Hy Q; assert (cos y <= 0) by (apply cos_le_0; lra); lra).
  destruct (Rlt_dec t (- (3 * (PI / 2)))) as [X|X]; [exists (- (2 * PI)); split; [auto|lra]|].
  destruct (Rlt_dec (- (PI / 2)) t) as [Y|Y]; [|exfalso; apply (A (- t)); [lra|now rewrite cos_neg]].
  destruct (Rlt_dec t (PI / 2)) as [Z|Z]; [exists 0; split; [auto|lra]|].
  destruct (Rlt_dec (3 * (PI / 2)) t) as [W|W]; [exists (2 * PI); split; [auto|lra]|exfalso; apply (A t); [lra|exact C]].
Qed.
Lemma longitudes_near o w p r delta : - PI < o <= PI -> - PI < w <= PI -> 0 < p -> 0 < r -> 0 <= delta -> 2 * delta < p ->
  (p * cos o - r * cos w) ^ 2 + (p * sin o - r * sin w) ^ 2 <= delta ^ 2 -> exists v, (v = 0 \/ v = 2 * PI \/ v = - (2 * PI)) /\ Rabs (o - w - v) * (p - 2 * delta) <= delta.
Proof.
  intros Ho Hw Hp Hr Hd Hpd H. pose proof (sc w) as O. pose proof (sc o) as O'.
  assert (S : p * sin (o - w) = (p * cos o - r * cos w) * - sin w + (p * sin o - r * sin w) * cos w) by (rewrite sin_minus; ring).
  assert (C : p * cos (o - w) = ((p * cos o - r * cos w) * cos w + (p * sin o - r * sin w) * sin w) + r) by (rewrite cos_minus; replace r with (r * (sin w * sin w + cos w * cos w)) at 3 by (rewrite O; ring); ring).
  assert (S1 : Rabs (p * sin (o - w)) <= delta * 1) by (rewrite S; apply dot_le; [exact Hd|lra|exact H|lra]).
  assert (C1 : Rabs ((p * cos o - r * cos w) * cos w + (p * sin o - r * sin w) * sin w) <= delta * 1) by (apply dot_le; [exact Hd|lra|exact H|lra]).
  assert (R1 : Rabs (p - r) <= delta).
  { rewrite <- (Rabs_pos_eq delta) by exact Hd. apply Rsqr_le_abs_0. unfold Rsqr.
    replace ((p - r) * (p - r)) with ((p * cos o - r * cos w) ^ 2 + (p * sin o - r * sin w) ^ 2 - 2 * (p * r) * (1 - cos (o - w))).
    - assert (0 <= p * r) by (apply Rmult_le_pos; lra). assert (0 <= p * r * (1 - cos (o - w))) by (apply Rmult_le_pos; [assumption|pose proof (COS_bound (o - w)); lra]). lra.
    - rewrite cos_minus. replace (p * cos o - r * cos w) with (p * cos o - r * cos w) by reflexivity.
      replace ((p - r) * (p - r)) with (p * p * (sin o * sin o + cos o * cos o) + r * r * (sin w * sin w + cos w * cos w) - 2 * p * r) by (rewrite O, O'; ring). ring. }
  apply Rabs_le_inv in C1, R1. assert (CP : p - 2 * delta <= p * cos (o - w)) by lra.
  assert (C0 : 0 < cos (o - w)) by (apply Rmult_lt_reg_l with p; [exact Hp|]; lra).
  destruct (half_turns (o - w) ltac:(lra) C0) as (v & V & HV). exists v. split; [exact V|].
  assert (SC : sin (o - w - v) = sin (o - w) /\ cos (o - w - v) = cos (o - w)).
  { pose proof (sin_period (o - w - v) 1) as P1. pose proof (cos_period (o - w - v) 1) as P2. pose proof (sin_period (o - w) 1) as P3. pose proof (cos_period (o - w) 1) as P4. cbn [INR] in P1, P2, P3, P4.
    destruct V as [ -> |[ -> | -> ]].
    - now rewrite Rminus_0_r.
    - rewrite <- P1, <- P2. replace (o - w - 2 * PI + 2 * 1 * PI) with (o - w) by ring. auto.
    - rewrite <- P3, <- P4. replace (o - w - - (2 * PI)) with (o - w + 2 * 1 * PI) by ring. auto. }
  destruct SC as [SV CV]. set (t := o - w - v) in *. rewrite <- (atan_tan t) by lra.
  assert (AT : Rabs (atan (tan t)) <= Rabs (tan t)). { pose proof (atan_lipschitz (tan t) 0) as Q. rewrite atan_0, !Rminus_0_r in Q. exact Q. }
  assert (TB : Rabs (tan t) * (p * cos t) <= delta).
  { unfold tan. rewrite SV, CV. unfold Rdiv. rewrite Rabs_mult, (Rabs_pos_eq (/ cos (o - w))) by (left; apply Rinv_0_lt_compat; lra). rewrite Rabs_mult, (Rabs_pos_eq p) in S1 by lra.
    replace (Rabs (sin (o - w)) * / cos (o - w) * (p * cos (o - w))) with (p * Rabs (sin (o - w))) by (field; lra). lra. }
  rewrite CV in TB. apply Rle_trans with (Rabs (tan t) * (p * cos (o - w))); [|exact TB]. apply Rmult_le_compat; [apply Rabs_pos|lra|exact AT|exact CP].
Qed.
