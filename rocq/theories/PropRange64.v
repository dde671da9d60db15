(** C70: lla2ecef and lla2gcc in double precision stay within nanometres of the exact conversion *)
From Coq Require Import Reals ZArith Lra Lia List.
From Flocq Require Import Core Binary Bits.
From Verif Require Import Real3 RangeCoordinates PropGeo PropConv Float64 DeadReckoning64 Range64 FloatErr PropDR64 PropDR64b FloatAbs.
Local Open Scope R_scope.

Section Conversions.
Variable L : mathlib.
Hypothesis AM : accurate_math L.

Lemma e2_ap : exists e2, gsquare L e64 = GRet e2 /\ ap e2 (wgs84_e ^ 2) (u * (35 / 100)).
Proof.
  pose proof e_err as EE. pose proof e_small as ES. assert (EB : Rabs wgs84_e <= 82 / 1000) by (apply Rabs_le; lra).
  destruct (gsquare_ap L AM e64 wgs84_e (2 * u) (82 / 1000) (u * (33 / 100)) (u * (35 / 100)) EE EB) as [G A]; [num..|]. exists (l_square (g_base L) e64). split; [exact G|]. replace (wgs84_e ^ 2) with (wgs84_e * wgs84_e) by ring. exact A.
Qed.
(** the radius of curvature in the prime vertical *)
Lemma radius_ap s lat ds : ap s (sin lat) ds -> 0 <= ds <= 6 * u -> exists q d, gsquare L (fmul e64 s) = GRet q /\ gsqrt (fsub f_1 q) = GRet d /\ gdiv a64 d = GRet (fdiv a64 d) /\ ap (fdiv a64 d) (normal_radius lat) (37 / 10 * u * 6400000).
Proof.
  intros AS HD. pose proof e_err as EE. pose proof e_small as ES. pose proof (SIN_bound lat) as SB. pose proof (radicand lat) as RC. pose proof wgs_e2_bounds as EB2.
  assert (EB : Rabs wgs84_e <= 82 / 1000) by (apply Rabs_le; lra). assert (SB' : Rabs (sin lat) <= 1) by (apply Rabs_le; lra).
  assert (A1 : ap (fmul e64 s) (wgs84_e * sin lat) (u * 3)).
  { apply (ap_mul _ _ _ _ (2 * u) ds (82 / 1000) 1 (u * (26 / 10))); try assumption; num. }
  assert (ESB : Rabs (wgs84_e * sin lat) <= 82 / 1000) by (rewrite Rabs_mult; apply Rle_trans with (82 / 1000 * 1); [apply Rmult_le_compat; try apply Rabs_pos; assumption|lra]).
  destruct (gsquare_ap L AM _ _ (u * 3) (82 / 1000) (u * / 2) (u * (52 / 100)) A1 ESB) as [G A2]; [num..|].
  set (q := l_square (g_base L) (fmul e64 s)) in *.
  assert (QB : wgs84_e * sin lat * (wgs84_e * sin lat) = wgs84_e ^ 2 * sin lat ^ 2) by ring. rewrite QB in A2.
  pose proof (sin_sq_le lat) as SQ. assert (QS : 0 <= wgs84_e ^ 2 * sin lat ^ 2 <= 7 / 1000) by (split; [apply Rmult_le_pos; lra|apply Rle_trans with (7 / 1000 * 1); [apply Rmult_le_compat; lra|lra]]).
  assert (O1 : ap f_1 1 0) by (rewrite <- val_1; apply ap_exact; reflexivity).
  assert (A3 : ap (fsub f_1 q) (1 - wgs84_e ^ 2 * sin lat ^ 2) (u * (153 / 100))).
  { apply (ap_sub _ _ _ _ 0 (u * (52 / 100)) 1); try assumption; [apply Rabs_le; lra|num|num]. }
  assert (SL : sqrt (1 - wgs84_e ^ 2 * sin lat ^ 2) <= 1) by (eapply Rle_trans; [apply sqrt_le_1_alt with (y := 1); lra|rewrite sqrt_1; lra]).
  assert (SG : 996 / 1000 <= sqrt (1 - wgs84_e ^ 2 * sin lat ^ 2)) by (rewrite <- (sqrt_square (996 / 1000)) by lra; apply sqrt_le_1_alt; lra).
  destruct (ap_sqrt _ _ (u * (153 / 100)) (996 / 1000) 1 (u * (255 / 100)) A3) as [G2 A4]; [lra|lra|num|exact SL|num|].
  set (d := fsqrt (fsub f_1 q)) in *.
  destruct (ap_div a64 d wgs84_a (sqrt (1 - wgs84_e ^ 2 * sin lat ^ 2)) 0 (u * (255 / 100)) wgs84_a (996 / 1000) (26 / 10 * u * 6400000) (37 / 10 * u * 6400000)) as [G3 A5].
  { rewrite <- val_a. apply ap_exact. reflexivity. } { exact A4. } { unfold wgs84_a. rewrite Rabs_pos_eq; lra. } { lra. } { rewrite Rabs_pos_eq; lra. } { num. }
  { assert (T : 995 / 1000 <= 996 / 1000 - u * (255 / 100)) by num. apply Rmult_le_reg_r with (996 / 1000 - u * (255 / 100)); [lra|]. unfold Rdiv at 1. rewrite Rmult_assoc, Rinv_l by lra. unfold wgs84_a. apply Rle_trans with (26 / 10 * u * 6400000 * (995 / 1000)); [num|]. apply Rmult_le_compat_l; [num|exact T]. }
  { unfold wgs84_a. num. } { unfold wgs84_a. num. }
  exists q, d. repeat split; try assumption.  apply A5. apply A5.
Qed.

Lemma normal_low lat : 6378137 <= normal_radius lat <= 6400000.
Proof.
  pose proof (normal_bounds lat) as [H _]. unfold wgs84_a in H. split; [lra|]. unfold normal_radius. pose proof (sin_sq_le lat) as SQ. pose proof wgs_e2 as E2v.
  assert (EB : 0 <= wgs84_e ^ 2 <= 66944 / 10000000) by (rewrite E2v; unfold wgs84_a, wgs84_b; lra).
  assert (QS : wgs84_e ^ 2 * sin lat ^ 2 <= 66944 / 10000000) by (apply Rle_trans with (66944 / 10000000 * 1); [apply Rmult_le_compat; lra|lra]).
  assert (SG : 99664 / 100000 <= sqrt (1 - wgs84_e ^ 2 * sin lat ^ 2)) by (rewrite <- (sqrt_square (99664 / 100000)) by lra; apply sqrt_le_1_alt; lra).
  apply Rmult_le_reg_r with (sqrt (1 - wgs84_e ^ 2 * sin lat ^ 2)); [lra|]. unfold Rdiv. rewrite Rmult_assoc, Rinv_l by lra. unfold wgs84_a. lra.
Qed.

(** latitude up to 90, longitude up to 360 degrees either way, any altitude that is not astronomical: no exception, and each coordinate within 2^-48 of (6400 km + |altitude|) of the exact position *)
Theorem C70_ecef lla q : fin3 lla -> Rabs (val (fx lla)) <= 90 -> Rabs (val (fy lla)) <= 360 -> Rabs (val (fz lla)) <= 10 ^ 12 -> lla2ecef (real3 lla) = Ret q ->
  exists r, lla2ecef64 L lla = GRet r /\ forall i, within (fc i r) (rc i q) ((6400000 + Rabs (val (fz lla))) / 2 ^ 48).
Proof.
  intros F Hlat Hlon Halt E. pose proof (F AX) as F1. pose proof (F AY) as F2. pose proof (F AZ) as F3. cbn [fc] in F1, F2, F3.
  rewrite (lla2ecef_is (real3 lla)) in E. cbn [real3 vx vy vz] in E. set (lat := deg2rad (val (fx lla))) in *. set (lon := deg2rad (val (fy lla))) in *. set (h := val (fz lla)) in *.
  assert (A1 : ap (deg2rad64 (fx lla)) lat (u * (38 / 10))) by (eapply ap_weak; [apply deg2rad_ap; [exact F1|lra]|num]).
  assert (A2 : ap (deg2rad64 (fy lla)) lon (u * (151 / 10))) by (eapply ap_weak; [apply deg2rad_ap; [exact F2|lra]|num]).
  assert (A3 : ap (fz lla) h 0) by (apply ap_exact; exact F3).
  destruct (gsin_ap L AM _ _ _ (u * 6) A1) as [G1 S1]; [num|]. destruct (gcos_ap L AM _ _ _ (u * 6) A1) as [G2 K1]; [num|].
  destruct (gsin_ap L AM _ _ _ (u * (172 / 10)) A2) as [G3 S2]; [num|]. destruct (gcos_ap L AM _ _ _ (u * (172 / 10)) A2) as [G4 K2]; [num|].
  destruct (radius_ap _ _ _ S1) as (q2 & d & G5 & G6 & G7 & N1); [pose proof u_pos; lra|]. destruct e2_ap as (e2 & G8 & EE).
  unfold lla2ecef64. cbv zeta. rewrite G1. cbn [gbind]. rewrite G5. cbn [gbind]. rewrite G6. cbn [gbind]. rewrite G7. cbn [gbind]. rewrite G2. cbn [gbind]. rewrite G4. cbn [gbind]. rewrite G3. cbn [gbind]. rewrite G8. cbn [gbind].
  eexists. split; [reflexivity|]. assert (q = V ((normal_radius lat + h) * cos lat * cos lon) ((normal_radius lat + h) * cos lat * sin lon) ((normal_radius lat * (1 - wgs84_e ^ 2) + h) * sin lat)) by congruence. subst q. clear E.
  pose proof (normal_low lat) as NB. set (N := normal_radius lat) in *. pose proof (SIN_bound lat) as B1. pose proof (COS_bound lat) as B2. pose proof (SIN_bound lon) as B3. pose proof (COS_bound lon) as B4.
  apply Rabs_le in B1, B2, B3, B4. assert (H0 : 0 <= Rabs h) by apply Rabs_pos. pose proof (Rabs_le_inv h (Rabs h) (Rle_refl _)) as HI. set (R := 6400000 + Rabs h).
  assert (P1 : ap (fadd (fdiv a64 d) (fz lla)) (N + h) (u * (471 / 100) * R)). { apply (ap_add _ _ _ _ (37 / 10 * u * 6400000) 0 R); try assumption; [apply Rabs_le; unfold R; lra|unfold R; num|unfold R; num]. }
  assert (PB : Rabs (N + h) <= R) by (apply Rabs_le; unfold R; lra).
  assert (P2 : ap (fmul (fadd (fdiv a64 d) (fz lla)) (l_cos (g_base L) (deg2rad64 (fx lla)))) ((N + h) * cos lat) (u * (118 / 10) * R)).
  { apply (ap_mul _ _ _ _ (u * (471 / 100) * R) (u * 6) R 1 (u * (1072 / 100) * R)); try assumption; unfold R; num. }
  assert (PB2 : Rabs ((N + h) * cos lat) <= R). { rewrite Rabs_mult. apply Rle_trans with (R * 1); [apply Rmult_le_compat; try apply Rabs_pos; assumption|lra]. }
  pose proof wgs_e2_bounds as EB.
  assert (P3 : ap (fsub f_1 e2) (1 - wgs84_e ^ 2) (u * (136 / 100))).
  { apply (ap_sub _ _ _ _ 0 (u * (35 / 100)) 1); [rewrite <- val_1; apply ap_exact; reflexivity|exact EE|apply Rabs_le; lra|num|num]. }
  assert (P4 : ap (fmul (fdiv a64 d) (fsub f_1 e2)) (N * (1 - wgs84_e ^ 2)) (u * (61 / 10) * 6400000)).
  { apply (ap_mul _ _ _ _ (37 / 10 * u * 6400000) (u * (136 / 100)) 6400000 1 (u * (507 / 100) * 6400000)); try assumption; [apply Rabs_le; lra|apply Rabs_le; lra|num|num|num]. }
  assert (PN : Rabs (N * (1 - wgs84_e ^ 2)) <= 6400000). { rewrite Rabs_mult. apply Rle_trans with (6400000 * 1); [apply Rmult_le_compat; try apply Rabs_pos; apply Rabs_le; lra|lra]. } apply Rabs_le_inv in PN.
  assert (P5 : ap (fadd (fmul (fdiv a64 d) (fsub f_1 e2)) (fz lla)) (N * (1 - wgs84_e ^ 2) + h) (u * (72 / 10) * R)).
  { apply (ap_add _ _ _ _ (u * (61 / 10) * 6400000) 0 R); try assumption; [apply Rabs_le; unfold R; lra|unfold R; num|unfold R; num]. }
  assert (T : u * 32 * R <= R / 2 ^ 48) by (unfold R; rewrite u_val; lra).
  assert (X1 : ap (fmul (fmul (fadd (fdiv a64 d) (fz lla)) (l_cos (g_base L) (deg2rad64 (fx lla)))) (l_cos (g_base L) (deg2rad64 (fy lla)))) ((N + h) * cos lat * cos lon) (u * 32 * R)).
  { apply (ap_mul _ _ _ _ (u * (118 / 10) * R) (u * (172 / 10)) R 1 (u * (291 / 10) * R)); try assumption; unfold R; num. }
  assert (X2 : ap (fmul (fmul (fadd (fdiv a64 d) (fz lla)) (l_cos (g_base L) (deg2rad64 (fx lla)))) (l_sin (g_base L) (deg2rad64 (fy lla)))) ((N + h) * cos lat * sin lon) (u * 32 * R)).
  { apply (ap_mul _ _ _ _ (u * (118 / 10) * R) (u * (172 / 10)) R 1 (u * (291 / 10) * R)); try assumption; unfold R; num. }
  assert (X3 : ap (fmul (fadd (fmul (fdiv a64 d) (fsub f_1 e2)) (fz lla)) (l_sin (g_base L) (deg2rad64 (fx lla)))) ((N * (1 - wgs84_e ^ 2) + h) * sin lat) (u * 32 * R)).
  { apply (ap_mul _ _ _ _ (u * (72 / 10) * R) (u * 6) R 1 (u * (133 / 10) * R)); try assumption; [apply Rabs_le; unfold R; lra|unfold R; num..]. }
  destruct X1 as [FX1 X1], X2 as [FX2 X2], X3 as [FX3 X3]. intros []; cbn [fc rc fx fy fz vx vy vz]; (split; [assumption|lra]).
Qed.

Corollary C70_near_earth lla q : fin3 lla -> Rabs (val (fx lla)) <= 90 -> Rabs (val (fy lla)) <= 360 -> Rabs (val (fz lla)) <= 2000000 -> lla2ecef (real3 lla) = Ret q ->
  exists r, lla2ecef64 L lla = GRet r /\ forall i, within (fc i r) (rc i q) (3 / 10 ^ 8).
Proof.
  intros F H1 H2 H3 E. destruct (C70_ecef lla q F H1 H2 ltac:(lra) E) as (r & G & W). exists r. split; [exact G|]. intros i. destruct (W i) as [Fi Ei]. split; [exact Fi|]. lra.
Qed.

Lemma ecef_bound lla q : lla2ecef lla = Ret q -> forall i, Rabs (rc i q) <= 6400000 + Rabs (vz lla).
Proof.
  intros E. rewrite (lla2ecef_is lla) in E. cbv zeta in E. set (lat := deg2rad (vx lla)) in *. set (lon := deg2rad (vy lla)) in *. set (h := vz lla) in *.
  pose proof (normal_low lat) as NB. set (N := normal_radius lat) in *. pose proof (SIN_bound lat) as B1. pose proof (COS_bound lat) as B2. pose proof (SIN_bound lon) as B3. pose proof (COS_bound lon) as B4.
  apply Rabs_le in B1, B2, B3, B4. pose proof (Rabs_le_inv h (Rabs h) (Rle_refl _)) as HI. pose proof wgs_e2_bounds as EB. set (R := 6400000 + Rabs h).
  assert (PB : Rabs (N + h) <= R) by (apply Rabs_le; unfold R; lra).
  assert (PN : Rabs (N * (1 - wgs84_e ^ 2)) <= 6400000). { rewrite Rabs_mult. apply Rle_trans with (6400000 * 1); [apply Rmult_le_compat; try apply Rabs_pos; apply Rabs_le; lra|lra]. } apply Rabs_le_inv in PN.
  assert (PZ : Rabs (N * (1 - wgs84_e ^ 2) + h) <= R) by (apply Rabs_le; unfold R; lra).
  assert (q = V ((N + h) * cos lat * cos lon) ((N + h) * cos lat * sin lon) ((N * (1 - wgs84_e ^ 2) + h) * sin lat)) by congruence. subst q.
  assert (M : forall x y, Rabs x <= R -> Rabs y <= 1 -> Rabs (x * y) <= R). { intros x y Hx Hy. rewrite Rabs_mult. apply Rle_trans with (R * 1); [apply Rmult_le_compat; try apply Rabs_pos; assumption|lra]. }
  intros []; cbn [rc vx vy vz]; repeat apply M; assumption.
Qed.
(** relative to another position (the geoOrigin: longitude, latitude, altitude) the error is that of both positions and one more rounding *)
Theorem C70_gcc lla o q : fin3 lla -> fin3 o -> Rabs (val (fx lla)) <= 90 -> Rabs (val (fy lla)) <= 360 -> Rabs (val (fy o)) <= 90 -> Rabs (val (fx o)) <= 360 ->
  Rabs (val (fz lla)) <= 10 ^ 12 -> Rabs (val (fz o)) <= 10 ^ 12 -> lla2gcc (real3 lla) (Some (val (fx o), val (fy o), val (fz o))) = Ret q ->
  exists r, lla2gcc64 L lla (Some o) = GRet r /\ forall i, within (fc i r) (rc i q) (11 / 10 * (12800000 + Rabs (val (fz lla)) + Rabs (val (fz o))) / 2 ^ 48).
Proof.
  intros F Fo H1 H2 H3 H4 H5 H6 E. unfold lla2gcc in E.
  set (o' := FV (fy o) (fx o) (fz o)). assert (Fo' : fin3 o') by (intros []; cbn [fc o' fx fy fz]; [exact (Fo AY)|exact (Fo AX)|exact (Fo AZ)]).
  change (V (val (fy o)) (val (fx o)) (val (fz o))) with (real3 o') in E.
  destruct (lla2ecef (real3 o')) as [q0|] eqn:E0; [|discriminate E]. cbn [pbind] in E. destruct (lla2ecef (real3 lla)) as [q1|] eqn:E1; [|discriminate E]. cbn [pbind] in E.
  destruct (C70_ecef o' q0 Fo' H3 H4 H6 E0) as (r0 & G0 & W0). destruct (C70_ecef lla q1 F H1 H2 H5 E1) as (r1 & G1 & W1).
  pose proof (ecef_bound _ _ E0) as B0. pose proof (ecef_bound _ _ E1) as B1. cbn [real3 vz o' fz] in B0, B1, W0.
  unfold lla2gcc64. fold o'. rewrite G0. cbn [gbind]. rewrite G1. cbn [gbind]. eexists. split; [reflexivity|]. assert (q = V (vx q1 - vx q0) (vy q1 - vy q0) (vz q1 - vz q0)) by congruence. subst q.
  intros i. set (A := Rabs (val (fz lla))) in *. set (B := Rabs (val (fz o))) in *. assert (0 <= A) by apply Rabs_pos. assert (0 <= B) by apply Rabs_pos.
  assert (K : ap (fsub (fc i r1) (fc i r0)) (rc i q1 - rc i q0) (11 / 10 * (12800000 + A + B) / 2 ^ 48)).
  { apply (ap_sub _ _ _ _ ((6400000 + A) / 2 ^ 48) ((6400000 + B) / 2 ^ 48) (12800000 + A + B)); [exact (W1 i)|exact (W0 i)| |num|num].
    eapply Rle_trans; [apply Rabs_triang|]. rewrite Rabs_Ropp. specialize (B0 i). specialize (B1 i). lra. }
  destruct i; exact K.
Qed.

(** ** Distances *)
Lemma rnd_pos x : 0 <= x -> 0 <= rnd x.
Proof. intros H. unfold rnd. apply round_ge_generic; [apply FLT_exp_valid; reflexivity|apply valid_rnd_N|apply generic_format_0|exact H]. Qed.
Lemma sqrt_tiny : exists c, 0 <= c /\ c <= / 2 ^ 510 /\ 18 * eta <= c * c.
Proof.
  exists (bpow radix2 (-530)). split; [apply bpow_ge_0|]. split; [apply Rle_trans with (bpow radix2 (Z.opp 510)); [apply bpow_le; lia|rewrite bpow_opp; change (bpow radix2 510) with (IZR (2 ^ Z.of_nat 510)); rewrite <- pow_IZR; apply Rle_refl]|].
  rewrite <- bpow_plus. Transparent eta. unfold eta. Opaque eta. apply Rle_trans with (bpow radix2 5 * bpow radix2 (-1075)); [apply Rmult_le_compat_r; [apply bpow_ge_0|cbn; lra]|]. rewrite <- bpow_plus. apply bpow_le. lia.
Qed.
Lemma sq_bound d B : Rabs d <= B -> 0 <= d * d <= B * B.
Proof. intros H. apply Rabs_le_inv in H. nra. Qed.
Lemma square_rel x D : fin x -> Rabs (val x - D) <= u * Rabs D -> Rabs D <= 2 ^ 80 -> exists s, gsquare L x = GRet s /\ fin s /\ D * D * (1 - 41 / 10 * u) - 2 * eta <= val s <= D * D * (1 + 41 / 10 * u) + 2 * eta.
Proof.
  intros F E H. assert (X : Rabs (val x) <= 2 ^ 90). { replace (val x) with (D + (val x - D)) by ring. eapply Rle_trans; [apply Rabs_triang|]. assert (u * Rabs D <= 1 * Rabs D) by (apply Rmult_le_compat_r; [apply Rabs_pos|rewrite u_val; lra]). lra. }
  destruct (gsquare_ulp L AM x F X) as (G & FS & O). exists (l_square (g_base L) x). split; [exact G|]. split; [exact FS|].
  set (s := val (l_square (g_base L) x)) in *. rewrite (Rabs_pos_eq (val x * val x)) in O by nra. apply Rabs_le_inv in O.
  assert (Q : D * D * (1 - 201 / 100 * u) <= val x * val x <= D * D * (1 + 201 / 100 * u)).
  { assert (E' : exists t, val x = D * (1 + t) /\ - u <= t <= u).
    { destruct (Req_dec D 0) as [->|N]; [exists 0; rewrite Rabs_R0, Rmult_0_r, Rminus_0_r in E; pose proof (Rabs_pos (val x)); pose proof u_pos; split; [|lra]; rewrite Rmult_0_l; destruct (Req_dec (val x) 0) as [Z|Z]; [exact Z|]; apply Rabs_pos_lt in Z; lra|].
      exists (val x / D - 1). split; [field; exact N|]. apply Rabs_le_inv. replace (val x / D - 1) with ((val x - D) * / D) by (field; exact N). rewrite Rabs_mult, Rabs_inv. apply Rmult_le_reg_r with (Rabs D); [now apply Rabs_pos_lt|]. rewrite Rmult_assoc, Rinv_l by (now apply Rabs_no_R0). lra. }
    destruct E' as (t & -> & T). replace (D * (1 + t) * (D * (1 + t))) with (D * D * ((1 + t) * (1 + t))) by ring. assert (0 <= D * D) by nra. pose proof u_val as U. split; apply Rmult_le_compat_l; try assumption; rewrite U in *; nra. }
  set (P := val x * val x) in *. set (D2 := D * D) in *. assert (0 <= D2) by (unfold D2; nra). rewrite u_val in *. lra.
Qed.
Lemma sum_rel x y X Y k c : fin x -> fin y -> 0 <= X -> 0 <= Y -> 0 <= c <= 1 -> 0 <= k <= 10 -> X + Y <= 2 ^ 170 ->
  X * (1 - k * u) - c <= val x <= X * (1 + k * u) + c -> Y * (1 - k * u) - c <= val y <= Y * (1 + k * u) + c ->
  fin (fadd x y) /\ (X + Y) * (1 - (k + 101 / 100) * u) - 3 * c <= val (fadd x y) <= (X + Y) * (1 + (k + 101 / 100) * u) + 3 * c.
Proof.
  intros Fx Fy HX HY Hc Hk HB Ex Ey. pose proof huge_200 as HH. pose proof u_val as U.
  assert (K : 0 <= k * u <= / 100000000000000) by (rewrite U; lra). assert (B : - (X + Y) - 2 * c <= val x + val y <= (X + Y) * 2 + 2 * c) by nra.
  destruct (fadd_rnd x y Fx Fy ltac:(apply Rabs_le; lra)) as [F R]. split; [exact F|]. rewrite R.
  pose proof (rnd_sum_err x y) as RE. set (S := val x + val y) in *. set (r := rnd S) in *.
  assert (SB : (X + Y) * (1 - k * u) - 2 * c <= S <= (X + Y) * (1 + k * u) + 2 * c) by (unfold S; lra). set (T := X + Y) in *. assert (0 <= T) by (unfold T; lra).
  assert (A : Rabs S <= T * (1 + k * u) + 2 * c) by (apply Rabs_le; nra). assert (A' : u * Rabs S <= u * (T * (1 + k * u) + 2 * c)) by (apply Rmult_le_compat_l; [rewrite U; lra|exact A]).
  apply Rabs_le_inv in RE. assert (KK : u * (T * (k * u)) <= T * (u / 100)). { replace (u * (T * (k * u))) with (T * (u * (k * u))) by ring. apply Rmult_le_compat_l; [assumption|]. rewrite U in *. lra. }
  assert (UC : u * c <= c / 10) by (rewrite U; lra). lra.
Qed.
(** the distance of two points, relative error at most five half-units in the last place unless the points all but coincide *)
Theorem C70_distance v w D : fin3 v -> fin3 w -> (forall i, Rabs (val (fc i v) - val (fc i w)) <= 2 ^ 80) ->
  euclideanDistance (vx (real3 v) :: vy (real3 v) :: vz (real3 v) :: nil) (Some (vx (real3 w) :: vy (real3 w) :: vz (real3 w) :: nil)) = Ret D ->
  exists r, euclideanDistanceRef64 L v w = GRet r /\ within r D (5 * u * D + / 2 ^ 500).
Proof.
  intros Fv Fw HB E. pose proof huge_200 as HH. pose proof u_val as U. pose proof eta_tiny as ET.
  rewrite distance_is in E by reflexivity. cbn [sqd real3 vx vy vz] in E.
  assert (K : forall i, exists s, gsquare L (fsub (fc i v) (fc i w)) = GRet s /\ fin s /\
    (val (fc i v) - val (fc i w)) * (val (fc i v) - val (fc i w)) * (1 - 41 / 10 * u) - 2 * eta <= val s <= (val (fc i v) - val (fc i w)) * (val (fc i v) - val (fc i w)) * (1 + 41 / 10 * u) + 2 * eta).
  { intros i. specialize (HB i). destruct (fsub_err (fc i v) (fc i w) (Fv i) (Fw i) ltac:(lra)) as [Fd Ed]. exact (square_rel _ _ Fd Ed HB). }
  assert (SQ : forall i, 0 <= (val (fc i v) - val (fc i w)) * (val (fc i v) - val (fc i w)) <= 2 ^ 160).
  { intros i. specialize (HB i). apply sq_bound in HB. lra. }
  destruct (K AX) as (s1 & G1 & F1 & B1). destruct (K AY) as (s2 & G2 & F2 & B2). destruct (K AZ) as (s3 & G3 & F3 & B3). clear K.
  pose proof (SQ AX) as Q1. pose proof (SQ AY) as Q2. pose proof (SQ AZ) as Q3. clear SQ. cbn [fc] in *.
  set (X1 := (val (fx v) - val (fx w)) * (val (fx v) - val (fx w))) in *. set (X2 := (val (fy v) - val (fy w)) * (val (fy v) - val (fy w))) in *. set (X3 := (val (fz v) - val (fz w)) * (val (fz v) - val (fz w))) in *.
  assert (V1 : Rabs (val f_zero + val s1) <= huge). { change (val f_zero) with 0. apply Rabs_le. rewrite U in B1. lra. }
  destruct (fadd_rnd f_zero s1 eq_refl F1 V1) as [FZ RZ]. change (val f_zero) with 0 in RZ. rewrite Rplus_0_l, rnd_val in RZ.
  destruct (sum_rel (fadd f_zero s1) s2 X1 X2 (41 / 10) (2 * eta) FZ F2) as [F12 B12]; try lra.
  destruct (sum_rel (fadd (fadd f_zero s1) s2) s3 (X1 + X2) X3 (511 / 100) (6 * eta) F12 F3) as [FS BS]; try lra; try (rewrite U in *; lra).
  set (S := fadd (fadd (fadd f_zero s1) s2) s3) in *. set (T := X1 + X2 + X3) in *.
  assert (ED : D = sqrt T). { assert (E' : D = sqrt (X1 + (X2 + (X3 + 0)))) by congruence. rewrite E'. f_equal. unfold T, X1, X2, X3. ring. } clear E.
  assert (N1 : 0 <= val s1 /\ 0 <= val s2 /\ 0 <= val s3).
  { assert (N : forall i s, gsquare L (fsub (fc i v) (fc i w)) = GRet s -> 0 <= val s).
    { intros i s G. specialize (HB i). destruct (fsub_err (fc i v) (fc i w) (Fv i) (Fw i) ltac:(lra)) as [Fd Ed]. assert (u * Rabs (val (fc i v) - val (fc i w)) <= 1 * Rabs (val (fc i v) - val (fc i w))) by (apply Rmult_le_compat_r; [apply Rabs_pos|rewrite U; lra]).
      assert (XB : Rabs (val (fsub (fc i v) (fc i w))) <= 2 ^ 90). { set (d := val (fsub (fc i v) (fc i w))) in *. set (e := val (fc i v) - val (fc i w)) in *. replace d with (e + (d - e)) by ring. eapply Rle_trans; [apply Rabs_triang|]. lra. }
      destruct (gsquare_ulp L AM _ Fd XB) as [G' _]. assert (s = l_square (g_base L) (fsub (fc i v) (fc i w))) by congruence. subst s. apply (am_square L AM); [exact Fd|]. rewrite Rabs_mult. apply Rle_trans with (2 ^ 90 * 2 ^ 90); [apply Rmult_le_compat; try apply Rabs_pos; assumption|lra]. }
    repeat split; [exact (N AX _ G1)|exact (N AY _ G2)|exact (N AZ _ G3)]. }
  assert (N2 : 0 <= val S).
  { assert (AP : forall x y, fin x -> fin y -> Rabs (val x + val y) <= huge -> 0 <= val x -> 0 <= val y -> 0 <= val (fadd x y)).
    { intros x y Fx Fy HV Hx Hy. destruct (fadd_rnd x y Fx Fy HV) as [_ R]. rewrite R. apply rnd_pos. lra. }
    apply AP; try assumption; [|apply AP; try assumption|]; try lra; apply Rabs_le; rewrite ?RZ; rewrite U in *; lra. }
  unfold euclideanDistanceRef64, euclideanDistance64. cbn [fmap2 fx fy fz]. rewrite G1. cbn [gbind]. rewrite G2. cbn [gbind]. rewrite G3. cbn [gbind]. fold S. rewrite gsqrt_ok by assumption.
  eexists. split; [reflexivity|]. destruct (fsqrt_rnd S FS N2) as [FR R]. split; [exact FR|]. rewrite R, ED.
  assert (T0 : 0 <= T) by (unfold T; lra). pose proof (sqrt_pos T) as ST. pose proof (sqrt_pos (val S)) as SS. pose proof (sqrt_def T T0) as DT. pose proof (sqrt_def (val S) N2) as DS.
  pose proof (sqrt_tiny) as (c & C0 & C1 & C2).
  assert (UP : sqrt (val S) <= (1 + 31 / 10 * u) * sqrt T + c). { apply Rsqr_incr_0_var; [unfold Rsqr|assert (0 <= (1 + 31 / 10 * u) * sqrt T) by (apply Rmult_le_pos; [rewrite U; lra|assumption]); lra].
    rewrite DS. replace (((1 + 31 / 10 * u) * sqrt T + c) * ((1 + 31 / 10 * u) * sqrt T + c)) with ((1 + 31 / 10 * u) * (1 + 31 / 10 * u) * (sqrt T * sqrt T) + 2 * c * ((1 + 31 / 10 * u) * sqrt T) + c * c) by ring. rewrite DT.
    assert (0 <= 2 * c * ((1 + 31 / 10 * u) * sqrt T)) by (repeat apply Rmult_le_pos; try assumption; try (rewrite U; lra); lra). rewrite U in *. lra. }
  assert (LO : (1 - 31 / 10 * u) * sqrt T <= sqrt (val S) + c). { apply Rsqr_incr_0_var; [unfold Rsqr|lra].
    replace ((sqrt (val S) + c) * (sqrt (val S) + c)) with (sqrt (val S) * sqrt (val S) + 2 * c * sqrt (val S) + c * c) by ring. rewrite DS. replace ((1 - 31 / 10 * u) * sqrt T * ((1 - 31 / 10 * u) * sqrt T)) with ((1 - 31 / 10 * u) * (1 - 31 / 10 * u) * (sqrt T * sqrt T)) by ring. rewrite DT.
    assert (0 <= 2 * c * sqrt (val S)) by (repeat apply Rmult_le_pos; lra). rewrite U in *. lra. }
  pose proof (rnd_err (sqrt (val S))) as RE. rewrite (Rabs_pos_eq (sqrt (val S))) in RE by assumption. apply Rabs_le_inv in RE. apply Rabs_le. pose proof eta_tiny. rewrite U in *. lra.
Qed.
End Conversions.

(** ** Cases: a correctly rounded library, and the position 45.5 degrees north, 9.25 degrees east, 120 m *)
Definition ideal_math : mathlib := {| g_base := ideal; g_atan x := nearest (atan (val x)); g_atan2 y x := nearest (atan2 (val y) (val x)) |}.
Lemma atan2_bound y x : Rabs (atan2 y x) <= 8.
Proof.
  pose proof PI_4. pose proof PI_RGT_0. unfold atan2. pose proof (atan_bound (y / x)) as B.
  repeat match goal with |- context [if ?c then _ else _] => destruct c end; apply Rabs_le; try lra.
Qed.
Example ideal_math_accurate : accurate_math ideal_math.
Proof.
  pose proof huge_200. split; cbn [ideal_math g_base g_atan g_atan2].
  - exact ideal_accurate.
  - intros x _ H'. cbn [ideal l_square]. destruct (nearest_ok _ H') as [_ ->]. apply rnd_pos. nra.
  - intros x _. apply nearest_ulp. pose proof (atan_bound (val x)). pose proof PI_4. apply Rabs_le. lra.
  - intros y x _ _ _. apply nearest_ulp. pose proof (atan2_bound (val y) (val x)). lra.
Qed.
Definition case_lla : fvec := FV (b64_of_bits 4631600373029666816) (b64_of_bits 4621396905123905536) (b64_of_bits 4638144666238189568).
Example C70_case : accurate_math ideal_math /\ fin3 case_lla /\ real3 case_lla = V (91 / 2) (37 / 4) 120 /\ exists q, lla2ecef (real3 case_lla) = Ret q.
Proof.
  split; [exact ideal_math_accurate|]. split; [now intros []|]. split; [|eexists; apply lla2ecef_is]. unfold real3, case_lla. cbn [fx fy fz]. f_equal; value_of_bits; lra.
Qed.
Example C70_distance_case : fin3 case_lla /\ fin3 case_o /\ forall i, Rabs (val (fc i case_lla) - val (fc i case_o)) <= 2 ^ 80.
Proof.
  destruct C70_case as (_ & F & E & _). split; [exact F|]. split; [now intros []|]. apply (f_equal (fun v => (vx v, vy v, vz v))) in E. cbn [real3 vx vy vz] in E.
  assert (val (fx case_lla) = 91 / 2 /\ val (fy case_lla) = 37 / 4 /\ val (fz case_lla) = 120) as (E1 & E2 & E3) by (repeat split; congruence).
  intros i. rewrite case_o_val. destruct i; cbn [fc]; rewrite ?E1, ?E2, ?E3; apply Rabs_le; lra.
Qed.

Definition all_PropRange64 := (C70_ecef, C70_near_earth, C70_gcc, C70_distance).
Print Assumptions all_PropRange64.
