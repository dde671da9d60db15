(** C72: nearby positions have nearby latitudes, longitudes and altitudes, and the conversion to a position and back in double precision returns to the start *)
From Coq Require Import Reals ZArith Lra Lia List.
From Flocq Require Import Core Binary Bits.
From Verif Require Import Real3 RangeCoordinates PropGeo Conv PropConv Float64 DeadReckoning64 Range64 FloatErr PropDR64 PropDR64b FloatAbs PropRange64 RangeErr PropLla64 GeoStable.
Local Open Scope R_scope.

(** the square of the distance of two positions, and the distances of a position from the centre of the Earth and from its axis *)
Definition apart2 (q r : vec) : R := (vx q - vx r) ^ 2 + (vy q - vy r) ^ 2 + (vz q - vz r) ^ 2.
Definition from_centre (q : vec) : R := sqrt (vx q ^ 2 + vy q ^ 2 + vz q ^ 2).
Definition from_axis (q : vec) : R := sqrt (vx q ^ 2 + vy q ^ 2).

Lemma polar lat lon alt q : -90 < lat < 90 -> -3000000 <= alt -> lla2ecef (V lat lon alt) = Ret q ->
  let l := deg2rad lat in let p := (normal_radius l + alt) * cos l in 0 < p /\ from_axis q = p /\ vx q = p * cos (deg2rad lon) /\ vy q = p * sin (deg2rad lon) /\ vz q = (normal_radius l * (1 - wgs84_e ^ 2) + alt) * sin l.
Proof.
  intros Hl Ha Eq l p. destruct (truth_low (deg2rad lat) alt (deg_range _ Hl) Ha) as (_ & HP & _). fold l in HP. fold p in HP. rewrite lla2ecef_is in Eq. cbn [vx vy vz] in Eq. apply ret_inj in Eq. subst q. fold l. fold p. cbn [vx vy vz].
  split; [exact HP|]. split; [|split; [|split]; reflexivity]. unfold from_axis. cbn [vx vy]. pose proof (sc (deg2rad lon)) as O. replace ((p * cos (deg2rad lon)) ^ 2 + (p * sin (deg2rad lon)) ^ 2) with (p * p * (sin (deg2rad lon) * sin (deg2rad lon) + cos (deg2rad lon) * cos (deg2rad lon))) by ring.
  rewrite O, Rmult_1_r. apply sqrt_square. lra.
Qed.
Lemma deg_diff x y : x - y = rad2deg (deg2rad x - deg2rad y). Proof. unfold rad2deg, deg2rad. pose proof PI_neq0. field. assumption. Qed.
Lemma rad2deg_le x b : Rabs x <= b -> Rabs (rad2deg x) <= 573 / 10 * b.
Proof.
  intros H. pose proof pi_digits as PD. replace (rad2deg x) with (180 / PI * x) by (unfold rad2deg; field; lra).
  assert (K : 0 < 180 / PI <= 573 / 10). { split; [apply Rdiv_lt_0_compat; lra|]. apply Rmult_le_reg_r with PI; [lra|]. replace (180 / PI * PI) with 180 by (field; lra). lra. }
  rewrite Rabs_mult, (Rabs_pos_eq (180 / PI)) by lra. apply Rmult_le_compat; [lra|apply Rabs_pos|lra|exact H].
Qed.
Lemma radial_le p r o w : 0 <= p -> 0 <= r -> (p - r) ^ 2 <= (p * cos o - r * cos w) ^ 2 + (p * sin o - r * sin w) ^ 2.
Proof.
  intros Hp Hr. pose proof (sc w) as O. pose proof (sc o) as O'. assert (0 <= p * r) by (apply Rmult_le_pos; lra). assert (0 <= p * r * (1 - cos (o - w))) by (apply Rmult_le_pos; [assumption|pose proof (COS_bound (o - w)); lra]).
  replace ((p * cos o - r * cos w) ^ 2 + (p * sin o - r * sin w) ^ 2) with ((p - r) ^ 2 + 2 * (p * r * (1 - cos (o - w)))); [lra|]. rewrite cos_minus.
  replace ((p - r) ^ 2) with (p * p * (sin o * sin o + cos o * cos o) + r * r * (sin w * sin w + cos w * cos w) - 2 * p * r) by (rewrite O, O'; ring). ring.
Qed.
Lemma div_pos x y : 0 <= x -> 0 < y -> 0 <= x / y. Proof. intros Hx Hy. apply Rmult_le_pos; [exact Hx|]. left. now apply Rinv_0_lt_compat. Qed.
Lemma le_div x y b : 0 < y -> x * y <= b -> x <= b / y.
Proof. intros Hy H. apply Rmult_le_reg_r with y; [exact Hy|]. replace (b / y * y) with b by (field; lra). exact H. Qed.
Lemma deg_pi x : -180 < x <= 180 -> - PI < deg2rad x <= PI.
Proof. intros H. pose proof PI_RGT_0. unfold deg2rad. split; nra. Qed.

Theorem C72_stable lat lon alt lat' lon' alt' q r D lo : -90 < lat < 90 -> -90 < lat' < 90 -> -180 < lon <= 180 -> -180 < lon' <= 180 -> -3000000 <= lo -> lo <= alt -> lo <= alt' ->
  lla2ecef (V lat lon alt) = Ret q -> lla2ecef (V lat' lon' alt') = Ret r -> 0 <= D <= 10000 -> apart2 q r <= D ^ 2 ->
  Rabs (lat - lat') <= 574 / 10 * D / (6334000 + lo) /\ Rabs (alt - alt') <= D + (from_centre r + 44000) * D / (6334000 + lo) /\
  (2 * D < from_axis q -> exists turn, (turn = 0 \/ turn = 360 \/ turn = -360) /\ Rabs (lon - lon' - turn) <= 574 / 10 * D / (from_axis q - 2 * D)).
Proof.
  intros Hl Hl' Ho Ho' Hlo Ha Ha' Eq Eq' HD HA. destruct (polar lat lon alt q Hl ltac:(lra) Eq) as (P0 & FA & X & Y & Z). destruct (polar lat' lon' alt' r Hl' ltac:(lra) Eq') as (P0' & FA' & X' & Y' & Z').
  set (l := deg2rad lat) in *. set (k := deg2rad lat') in *. set (p := (normal_radius l + alt) * cos l) in *. set (p' := (normal_radius k + alt') * cos k) in *.
  assert (Q : (p * cos (deg2rad lon) - p' * cos (deg2rad lon')) ^ 2 + (p * sin (deg2rad lon) - p' * sin (deg2rad lon')) ^ 2 + (vz q - vz r) ^ 2 <= D ^ 2) by (rewrite <- X, <- Y, <- X', <- Y'; exact HA).
  assert (RL := radial_le p p' (deg2rad lon) (deg2rad lon') ltac:(lra) ltac:(lra)).
  assert (HPZ : (p - p') ^ 2 + ((normal_radius l * (1 - wgs84_e ^ 2) + alt) * sin l - (normal_radius k * (1 - wgs84_e ^ 2) + alt') * sin k) ^ 2 <= D ^ 2) by (rewrite <- Z, <- Z'; lra).
  pose proof (deg_range _ Hl) as R1. pose proof (deg_range _ Hl') as R2. fold l in R1. fold k in R2. split; [|split].
  - pose proof (latitudes_near l alt k alt' lo D Hlo Ha Ha' (proj1 HD) HPZ ltac:(lra) ltac:(lra) (proj2 HD)) as LN. apply le_div in LN; [|lra]. rewrite deg_diff. fold l k. eapply Rle_trans; [apply rad2deg_le; exact LN|].
    assert (0 <= D / (6334000 + lo)) by (apply div_pos; lra). unfold Rdiv in *. lra.
  - pose proof (normals_near l alt k alt' lo D Hlo Ha Ha' (proj1 HD) HPZ) as NN. apply le_div in NN; [|lra].
    assert (FC : 0 <= from_centre r) by apply sqrt_pos. eapply Rle_trans; [apply (altitudes_near l alt k alt' D (proj1 HD) HPZ (from_centre r)); [exact FC|]|].
    + fold p'. rewrite <- Z', <- FA'. unfold from_axis, from_centre. rewrite !pow2_sqrt; [lra| |]; pose proof (pow2_ge_0 (vx r)); pose proof (pow2_ge_0 (vy r)); pose proof (pow2_ge_0 (vz r)); lra.
    + apply Rplus_le_compat_l. unfold Rdiv at 1. rewrite Rmult_assoc. apply Rmult_le_compat_l; [lra|exact NN].
  - intros H2. rewrite FA in *. destruct (longitudes_near (deg2rad lon) (deg2rad lon') p p' D (deg_pi _ Ho) (deg_pi _ Ho') P0 P0' (proj1 HD) H2) as (v & V & B); [pose proof (pow2_ge_0 (vz q - vz r)); lra|].
    apply le_div in B; [|lra]. exists (rad2deg v). pose proof PI_neq0. split; [destruct V as [ -> |[ -> | -> ]]; unfold rad2deg; [left|right; left|right; right]; field; assumption|].
    rewrite (deg_diff lon lon'). replace (rad2deg (deg2rad lon - deg2rad lon') - rad2deg v) with (rad2deg (deg2rad lon - deg2rad lon' - v)) by (unfold rad2deg; field; assumption). eapply Rle_trans; [apply rad2deg_le; exact B|].
    assert (0 <= D / (p - 2 * D)) by (apply div_pos; lra). unfold Rdiv in *. lra.
Qed.

(** distances from the centre and the axis differ by at most the distance *)
Lemma tri3 x y z x' y' z' D : 0 <= D -> (x - x') ^ 2 + (y - y') ^ 2 + (z - z') ^ 2 <= D ^ 2 -> sqrt (x ^ 2 + y ^ 2 + z ^ 2) <= sqrt (x' ^ 2 + y' ^ 2 + z' ^ 2) + D.
Proof.
  intros HD H. set (B := sqrt (x' ^ 2 + y' ^ 2 + z' ^ 2)). pose proof (pow2_ge_0 x') as X2. pose proof (pow2_ge_0 y') as Y2. pose proof (pow2_ge_0 z') as Z2.
  assert (BB : B * B = x' ^ 2 + y' ^ 2 + z' ^ 2) by (apply sqrt_sqrt; lra). assert (B0 : 0 <= B) by apply sqrt_pos.
  set (u := x - x') in *. set (v := y - y') in *. set (w := z - z') in *.
  assert (CS : x' * u + y' * v + z' * w <= B * D).
  { eapply Rle_trans; [apply Rle_abs|]. rewrite <- (Rabs_pos_eq (B * D)) by (apply Rmult_le_pos; assumption). apply Rsqr_le_abs_0. unfold Rsqr.
    assert (X : (x' ^ 2 + y' ^ 2 + z' ^ 2) * (u ^ 2 + v ^ 2 + w ^ 2) <= (B * B) * D ^ 2) by (rewrite <- BB; apply Rmult_le_compat_l; [apply Rmult_le_pos; assumption|exact H]).
    pose proof (pow2_ge_0 (x' * v - y' * u)). pose proof (pow2_ge_0 (x' * w - z' * u)). pose proof (pow2_ge_0 (y' * w - z' * v)). lra. }
  apply Rle_trans with (sqrt ((B + D) * (B + D))); [|rewrite sqrt_square; lra]. apply sqrt_le_1_alt. replace x with (x' + u) by (unfold u; ring). replace y with (y' + v) by (unfold v; ring). replace z with (z' + w) by (unfold w; ring). lra.
Qed.

(** ** To a position and back, in double precision *)
Section Machine.
Variable L : mathlib.
Hypothesis AM : accurate_math L.

(** the position that lla2ecef returns, and its exact coordinates *)
Lemma there lla : fin3 lla -> -90 < val (fx lla) < 90 -> -17999 / 100 <= val (fy lla) <= 17999 / 100 -> Rabs (val (fz lla)) <= 149000 -> / 10 ^ 5 <= cos (deg2rad (val (fx lla))) ->
  let c := cos (deg2rad (val (fx lla))) in
  exists e lat lon alt, lla2ecef64 L lla = GRet e /\ fin3 e /\ -90 < lat < 90 /\ -180 < lon < 180 /\ Rabs alt <= 150000 /\ lla2ecef (V lat lon alt) = Ret (real3 e) /\
    dist e <= 2 / c * axis e /\ dist e <= 6600000 /\ Rabs (val (fx lla) - lat) <= 4 / 10 ^ 13 /\ Rabs (val (fy lla) - lon) <= 5 / 10 ^ 13 / c /\ Rabs (val (fz lla) - alt) <= / 10 ^ 7.
Proof.
  intros F Hl Ho Ha Hc c. destruct (Rabs_le_inv _ _ Ha) as [Ha1 Ha2]. destruct (COS_bound (deg2rad (val (fx lla)))) as [_ c1]. fold c in Hc, c1.
  assert (EQ : exists q, lla2ecef (V (val (fx lla)) (val (fy lla)) (val (fz lla))) = Ret q) by (eexists; apply lla2ecef_is). destruct EQ as [q EQ].
  destruct (C70_ecef L AM lla q F ltac:(apply Rabs_le; lra) ltac:(apply Rabs_le; lra) ltac:(lra) EQ) as (e & G & W).
  assert (FE : fin3 e) by (intros i; apply (W i)).
  set (D := 41 / 10 ^ 9). assert (DV : D = 41 / 1000000000) by (unfold D; f_equal; ring).
  assert (WI : forall i, Rabs (val (fc i e) - rc i q) <= 2333 / 100000000000).
  { intros i. destruct (W i) as [_ X]. eapply Rle_trans; [exact X|]. replace (2 ^ 48) with 281474976710656 by ring. lra. }
  assert (WX := WI AX). assert (WY := WI AY). assert (WZ := WI AZ). cbn [fc rc] in WX, WY, WZ. apply Rabs_le_inv in WX, WY, WZ.
  assert (AP2 : apart2 q (real3 e) <= D ^ 2).
  { unfold apart2, real3. cbn [vx vy vz]. assert (SQ : forall t, - (2333 / 100000000000) <= t <= 2333 / 100000000000 -> t ^ 2 <= (2333 / 100000000000) ^ 2) by (intros t Ht; nra).
    assert (Q1 := SQ (vx q - val (fx e)) ltac:(lra)). assert (Q2 := SQ (vy q - val (fy e)) ltac:(lra)). assert (Q3 := SQ (vz q - val (fz e)) ltac:(lra)). rewrite DV. lra. }
  destruct (polar (val (fx lla)) (val (fy lla)) (val (fz lla)) q Hl ltac:(lra) EQ) as (P0 & FA & X & Y & Z). fold c in P0, FA, X, Y.
  pose proof (normal_bounds (deg2rad (val (fx lla)))) as NB. pose proof e2_bounds as EB. assert (AV : a = 6378137) by reflexivity. rewrite AV in NB. set (N := normal_radius (deg2rad (val (fx lla)))) in *. set (alt0 := val (fz lla)) in *.
  assert (NE : 0 <= N * E <= 6400461 * (67 / 10000)) by (split; [apply Rmult_le_pos|apply Rmult_le_compat]; lra).
  assert (AXq : 6229137 * c <= from_axis q) by (rewrite FA; apply Rmult_le_compat_r; lra).
  assert (FCq : 6186000 <= from_centre q <= 6549462).
  { unfold from_centre. pose proof (sc (deg2rad (val (fx lla)))) as O. fold c in O. set (s := sin (deg2rad (val (fx lla)))) in *. set (lo := N * (1 - E) + alt0) in *. set (hi := N + alt0) in *.
    assert (F2 : vx q ^ 2 + vy q ^ 2 = (hi * c) ^ 2). { rewrite <- FA. unfold from_axis. rewrite pow2_sqrt; [reflexivity|]. pose proof (pow2_ge_0 (vx q)). pose proof (pow2_ge_0 (vy q)). lra. }
    rewrite F2, Z. assert (LO : 6186000 <= lo) by (unfold lo; lra). assert (LH : lo <= hi) by (unfold lo, hi; lra). assert (HI : hi <= 6549462) by (unfold hi; lra).
    assert (M : lo * lo <= hi * hi) by (apply Rmult_le_compat; lra). assert (S2 : 0 <= s * s) by nra. assert (C2 : 0 <= c * c) by nra.
    assert (M1 : lo * lo * (c * c) <= hi * hi * (c * c)) by (apply Rmult_le_compat_r; assumption). assert (M2 : lo * lo * (s * s) <= hi * hi * (s * s)) by (apply Rmult_le_compat_r; assumption).
    assert (T1 : lo * lo * (s * s) + lo * lo * (c * c) = lo * lo) by (rewrite <- Rmult_plus_distr_l, O; ring). assert (T2 : hi * hi * (s * s) + hi * hi * (c * c) = hi * hi) by (rewrite <- Rmult_plus_distr_l, O; ring).
    split.
    - apply Rle_trans with lo; [exact LO|]. rewrite <- (sqrt_square lo) at 1 by lra. apply sqrt_le_1_alt. lra.
    - apply Rle_trans with hi; [|exact HI]. apply Rle_trans with (sqrt (hi * hi)); [apply sqrt_le_1_alt; lra|rewrite sqrt_square; lra]. }
  assert (HA3 : (vx q - val (fx e)) ^ 2 + (vy q - val (fy e)) ^ 2 + (vz q - val (fz e)) ^ 2 <= D ^ 2) by exact AP2.
  assert (FCe : 6185999 <= dist e <= 6549463).
  { assert (T1 := tri3 _ _ _ _ _ _ D ltac:(lra) HA3). assert (T2 := tri3 (val (fx e)) (val (fy e)) (val (fz e)) (vx q) (vy q) (vz q) D ltac:(lra) ltac:(lra)). unfold from_centre in FCq. rewrite DV in *. lra. }
  assert (AXe : from_axis q - D <= axis e).
  { assert (T1 := tri3 (vx q) (vy q) 0 (val (fx e)) (val (fy e)) 0 D ltac:(lra) ltac:(pose proof (pow2_ge_0 (vz q - val (fz e))); lra)). unfold from_axis. replace (0 ^ 2) with 0 in T1 by ring. rewrite !Rplus_0_r in T1. lra. }
  assert (AX0 : 62 <= axis e) by lra.
  assert (HXY : val (fx e) <> 0 \/ val (fy e) <> 0).
  { destruct (Req_dec (val (fx e)) 0) as [ZX|]; [|now left]. right. intros ZY. rewrite ZX, ZY in AX0. replace (0 ^ 2 + 0 ^ 2) with 0 in AX0 by ring. rewrite sqrt_0 in AX0. lra. }
  assert (HR : 3401000 ^ 2 <= val (fx e) ^ 2 + val (fy e) ^ 2 + val (fz e) ^ 2).
  { set (S := val (fx e) ^ 2 + val (fy e) ^ 2 + val (fz e) ^ 2) in *. assert (0 <= S) by (unfold S; pose proof (pow2_ge_0 (val (fx e))); pose proof (pow2_ge_0 (val (fy e))); pose proof (pow2_ge_0 (val (fz e))); lra). rewrite <- (sqrt_sqrt S) by assumption. assert (6185999 * 6185999 <= sqrt S * sqrt S) by (apply Rmult_le_compat; lra). lra. }
  destruct (C58_coordinates_exist _ _ _ HXY HR) as (lat & lon & alt & Hl' & Ho' & Ha' & Eq').
  assert (EQ' : lla2ecef (V lat lon alt) = Ret (real3 e)) by exact Eq'.
  destruct (C72_stable (val (fx lla)) (val (fy lla)) alt0 lat lon alt q (real3 e) D (-3000000) Hl Hl' ltac:(lra) Ho' ltac:(lra) ltac:(lra) Ha' EQ EQ' ltac:(lra) AP2) as (_ & A1 & _).
  assert (FR : from_centre (real3 e) = dist e) by reflexivity. rewrite FR in A1.
  assert (B1 : Rabs (alt0 - alt) <= 1).
  { eapply Rle_trans; [exact A1|]. assert ((dist e + 44000) * D <= 6600000 * D) by (apply Rmult_le_compat_r; lra). unfold Rdiv. lra. }
  apply Rabs_le_inv in B1.
  destruct (C72_stable (val (fx lla)) (val (fy lla)) alt0 lat lon alt q (real3 e) D (-150000) Hl Hl' ltac:(lra) Ho' ltac:(lra) ltac:(lra) ltac:(lra) EQ EQ' ltac:(lra) AP2) as (L2 & A2 & O2).
  rewrite FR in A2. destruct (O2 ltac:(lra)) as (turn & T & O3). clear O2.
  assert (IC : 0 < / c <= 10 ^ 5) by (split; [apply Rinv_0_lt_compat; lra|]; rewrite <- (Rinv_inv (10 ^ 5)); apply Rinv_le_contravar; lra).
  assert (O4 : Rabs (val (fy lla) - lon - turn) <= 5 / 10 ^ 13 / c).
  { eapply Rle_trans; [exact O3|]. apply Rle_trans with (574 / 10 * D / (6229000 * c)).
    - apply Rmult_le_compat_l; [lra|]. apply Rinv_le_contravar; lra.
    - replace (574 / 10 * D / (6229000 * c)) with (574 / 10 * D / 6229000 * / c) by (field; lra). apply Rmult_le_compat_r; [lra|]. rewrite DV. lra. }
  assert (O5 : 5 / 10 ^ 13 / c <= 5 / 10 ^ 8) by (unfold Rdiv at 1; lra).
  assert (T0 : turn = 0) by (destruct T as [T|[T|T]]; [exact T|exfalso|exfalso]; rewrite T in O4; apply Rabs_le_inv in O4; lra).
  rewrite T0, Rminus_0_r in O4. pose proof O4 as O6. apply Rabs_le_inv in O6.
  exists e, lat, lon, alt. split; [exact G|]. split; [exact FE|]. split; [exact Hl'|]. split; [lra|]. split; [apply Rabs_le; lra|]. split; [exact EQ'|].
  split; [|split; [lra|split; [|split; [exact O4|]]]].
  - apply Rle_trans with (2 / c * (6229000 * c)); [replace (2 / c * (6229000 * c)) with 12458000 by (field; lra); lra|]. apply Rmult_le_compat_l; [unfold Rdiv; lra|lra].
  - eapply Rle_trans; [exact L2|]. lra.
  - eapply Rle_trans; [exact A2|]. assert ((dist e + 44000) * D <= 6600000 * D) by (apply Rmult_le_compat_r; lra). unfold Rdiv. lra.
Qed.

Theorem C72_round_trip lla : fin3 lla -> -90 < val (fx lla) < 90 -> -17999 / 100 <= val (fy lla) <= 17999 / 100 -> Rabs (val (fz lla)) <= 149000 -> / 10 ^ 5 <= cos (deg2rad (val (fx lla))) ->
  let c := cos (deg2rad (val (fx lla))) in
  exists e r, lla2ecef64 L lla = GRet e /\ (forall n, (6 <= n)%nat -> ecef2lla64 L n e f_nano = Some (GRet r)) /\ fin3 r /\
    Rabs (val (fy r) - val (fy lla)) <= / 10 ^ 12 / c /\ Rabs (val (fx r) - val (fx lla)) <= 66 / 100000 /\ Rabs (val (fz r) - val (fz lla)) <= 71 /\
    (forall i, ecef2lla64 L i e f_nano = None ->
      Rabs (val (fx r) - val (fx lla)) <= 26 / 1000 * (/ 40) ^ i + / 10 ^ 12 / c /\ Rabs (val (fz r) - val (fz lla)) <= 2760 * (/ 40) ^ i + 2 / 10 ^ 7 / c).
Proof.
  intros F Hl Ho Ha Hc c. destruct (there lla F Hl Ho Ha Hc) as (e & lat & lon & alt & G & FE & Hl' & Ho' & Ha' & EQ & HK & HD & B1 & B2 & B3). fold c in Hc, HK, B2.
  destruct (COS_bound (deg2rad (val (fx lla)))) as [_ c1]. fold c in c1.
  assert (IC : 1 <= / c <= 10 ^ 5) by (split; [rewrite <- Rinv_1; apply Rinv_le_contravar; lra|rewrite <- (Rinv_inv (10 ^ 5)); apply Rinv_le_contravar; lra]).
  destruct (C71_near_surface L AM e lat lon alt (2 / c) FE Hl' Ho' Ha' EQ ltac:(unfold Rdiv; lra) HK) as (r & R1 & R2 & R3 & R4 & R5 & R6).
  assert (P53 : 2 ^ 53 = 9007199254740992) by ring. rewrite P53 in *.
  exists e, r. split; [exact G|]. split; [exact R1|]. split; [exact R2|].
  apply Rabs_le_inv in B1, B2, B3, R3, R4, R5. unfold Rdiv in B2.
  split; [apply Rabs_le; unfold Rdiv in *; lra|]. split; [apply Rabs_le; lra|]. split; [apply Rabs_le; lra|].
  intros i Hi. destruct (R6 i Hi) as [X1 X2]. clear R6. apply Rabs_le_inv in X1, X2. set (t := (/ 40) ^ i) in *. split; apply Rabs_le.
  - unfold Rdiv in *. lra.
  - assert (DK : dist e * (18 * (2 / c) + 18) <= 6600000 * (18 * (2 / c) + 18)) by (apply Rmult_le_compat_r; [unfold Rdiv; lra|exact HD]). unfold Rdiv in *. lra.
Qed.
End Machine.

(** ** Cases: 45.5 degrees north, 9.25 degrees east, 120 m; and two positions 10 m apart on the equator *)
Example C72_case : accurate_math ideal_math /\ fin3 case_lla /\ -90 < val (fx case_lla) < 90 /\ -17999 / 100 <= val (fy case_lla) <= 17999 / 100 /\ Rabs (val (fz case_lla)) <= 149000 /\ / 10 ^ 5 <= cos (deg2rad (val (fx case_lla))).
Proof.
  destruct C70_case as (A & F & V & _). assert (X := f_equal vx V). assert (Y := f_equal vy V). assert (Z := f_equal vz V). cbn [real3 vx vy vz] in X, Y, Z. rewrite X, Y, Z. split; [exact A|]. split; [exact F|]. split; [lra|]. split; [lra|]. split; [rewrite Rabs_pos_eq; lra|].
  pose proof pi_digits as PD. apply Rle_trans with (cos (PI / 3)); [rewrite cos_PI3; lra|]. unfold deg2rad. left. apply cos_decreasing_1; lra.
Qed.
Example C72_stable_case : exists q r, lla2ecef (V 0 0 0) = Ret q /\ lla2ecef (V 0 0 10) = Ret r /\ apart2 q r <= 10 ^ 2 /\ 2 * 10 < from_axis q.
Proof.
  eexists. eexists. split; [apply lla2ecef_is|]. split; [apply lla2ecef_is|]. cbn [vx vy vz]. replace (deg2rad 0) with 0 by (unfold deg2rad; field). rewrite sin_0, cos_0. unfold normal_radius. rewrite sin_0. replace (1 - wgs84_e ^ 2 * 0 ^ 2) with 1 by ring. rewrite sqrt_1. unfold apart2, from_axis. cbn [vx vy vz].
  split; [lra|]. unfold wgs84_a. replace (((6378137 / 1 + 0) * 1 * 1) ^ 2 + ((6378137 / 1 + 0) * 1 * 0) ^ 2) with (6378137 * 6378137) by field. rewrite sqrt_square; lra.
Qed.

Definition all_PropTrip64 := (C72_stable, C72_round_trip).
Print Assumptions all_PropTrip64.
