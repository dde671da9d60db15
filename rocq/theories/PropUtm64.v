(** C79: the UTM projection in double precision *)
From Coq Require Import Reals ZArith Lra Lia List Ascii String.
From Flocq Require Import Core Binary Bits.
From Verif Require Import Real3 RangeCoordinates PropGeo Conv PropConv Float64 DeadReckoning64 Range64 FloatErr PropDR64 PropDR64b FloatAbs PropRange64 RangeErr Attitude64 PropAtt64 Utm64 UtmErr UtmTerms.
Local Open Scope R_scope.

Lemma deg2rad_is x : deg2rad x = x * (PI / 180). Proof. unfold deg2rad. field. Qed.
(** up to 84 degrees of latitude the cosine is more than 0.104 *)
Lemma cos_84 x : Rabs x <= 84 -> 104 / 1000 <= cos (deg2rad x).
Proof.
  intros H. pose proof pi_digits as PD. rewrite deg2rad_is. assert (P1 : Rabs (x * (PI / 180)) <= 84 * (PI / 180)) by (rewrite Rabs_mult, (Rabs_pos_eq (PI / 180)) by lra; apply Rmult_le_compat_r; lra).
  set (y := x * (PI / 180)) in *. assert (C : cos y = cos (Rabs y)) by (unfold Rabs; destruct (Rcase_abs y); [now rewrite cos_neg|reflexivity]). rewrite C. pose proof (Rabs_pos y).
  apply Rle_trans with (cos (84 * (PI / 180))); [|apply cos_decr_1; lra]. replace (84 * (PI / 180)) with (PI / 2 - PI / 30) by field. rewrite cos_shift.
  destruct (SIN (PI / 30) ltac:(lra) ltac:(lra)) as [S _]. eapply Rle_trans; [|exact S]. unfold sin_lb, sin_approx, sin_term. cbn [sum_f_R0 Nat.mul Nat.add fact]. rewrite !INR_IZR_INZ. cbn [Z.of_nat Pos.of_succ_nat Pos.succ].
  set (p := PI / 30). assert (1047 / 10000 <= p <= 1048 / 10000) by (unfold p; lra). assert (0 <= p ^ 2 <= 11 / 1000) by nra. assert (p ^ 3 <= 12 / 10000) by nra. assert (0 <= p ^ 5) by (apply pow_le; lra). assert (p ^ 7 <= p ^ 5) by (replace (p ^ 7) with (p ^ 5 * p ^ 2) by ring; nra).
  simpl pow. lra.
Qed.

(** the terms of the projection, about the central meridian of the zone with number z *)
Record terms := { tm_x : R; tm_y : R; tm_k : R }.
Definition terms_of (lat lon : R) (z : Z) : terms :=
  let latRad := deg2rad lat in
  let e2 := wgs84_e ^ 2 in
  let ep2 := e2 / (1 - e2) in
  let N := normal_radius latRad in
  let t := tan latRad in
  let T := t ^ 2 in
  let C := ep2 * cos latRad ^ 2 in
  let A := (deg2rad lon - deg2rad (IZR ((z - 1) * 6 - 180 + 3))) * cos latRad in
  let M := wgs84_a * ((1 - e2 / 4 - 3 * e2 ^ 2 / 64 - 5 * e2 ^ 3 / 256) * latRad - (3 * e2 / 8 + 3 * e2 ^ 2 / 32 + 45 * e2 ^ 3 / 1024) * sin (2 * latRad) +
      (15 * e2 ^ 2 / 256 + 45 * e2 ^ 3 / 1024) * sin (4 * latRad) - (35 * e2 ^ 3 / 3072) * sin (6 * latRad)) in
  {| tm_x := k0 * N * (A + (1 - T + C) * A ^ 3 / 6 + (5 - 18 * T + T ^ 2 + 72 * C - 58 * ep2) * A ^ 5 / 120) + 500000;
     tm_y := k0 * (M - 0 + N * t * (A ^ 2 / 2 + (5 - T + 9 * C + 4 * C ^ 2) * A ^ 4 / 24 + (61 - 58 * T + T ^ 2 + 600 * C - 330 * ep2) * A ^ 6 / 720));
     tm_k := k0 * (1 + (1 + C) * A ^ 2 / 2 + (5 - 4 * T + 42 * C + 13 * C ^ 2 - 28 * ep2) * A ^ 4 / 24 + (61 - 148 * T + 16 * T ^ 2) * A ^ 6 / 720) |}.
Lemma utm_terms lla : let z := utm_zone (vx lla) (vy lla) in let t := terms_of (vx lla) (vy lla) z in lla2utm lla = Ret (UTM (tm_x t) (tm_y t) (vz lla) (zone_text z (utmLetterDesignator (vx lla))) (tm_k t)).
Proof.
  pose proof wgs_e2_bounds as EB. unfold lla2utm. cbv zeta. rewrite pdiv_ok by lra. cbn [pbind]. pose proof (radicand (deg2rad (vx lla))) as Q. rewrite psqrt_ok by lra. cbn [pbind].
  rewrite pdiv_ok by (apply Rgt_not_eq, sqrt_lt_R0; lra). reflexivity.
Qed.

Section Accuracy.
Variable J : projlib.
Hypothesis AJ : accurate_proj J.
Let L := j_math J.
Let AM : accurate_math L := ap_math J AJ.

Lemma e2_nap : exists e2, gsquare L e64 = GRet e2 /\ nap e2 (wgs84_e ^ 2) (67 / 10 ^ 4) (4 / 10 ^ 17) /\ 
  exists ep2, gdiv e2 (fsub f_1 e2) = GRet ep2 /\ nap ep2 (wgs84_e ^ 2 / (1 - wgs84_e ^ 2)) (68 / 10 ^ 4) (5 / 10 ^ 17).
Proof.
  destruct (e2_ap L AM) as (e2 & G & A). pose proof wgs_e2 as E2v. assert (EB : 0 <= wgs84_e ^ 2 <= 66944 / 10000000) by (rewrite E2v; unfold wgs84_a, wgs84_b; lra).
  exists e2. split; [exact G|]. assert (N2 : nap e2 (wgs84_e ^ 2) (67 / 10 ^ 4) (4 / 10 ^ 17)) by (split; [eapply ap_weak; [exact A|num]|apply Rabs_le; lra]). split; [exact N2|].
  assert (N1 : nap f_1 1 1 0) by (split; [exact one_ap|rewrite Rabs_R1; lra]). pose proof (nap_sub _ _ _ _ _ _ _ _ (1007 / 1000) (16 / 10 ^ 17) N1 N2 ltac:(lra) ltac:(lra) ltac:(lra)) as [A3 _].
  set (E := wgs84_e ^ 2) in *. destruct N2 as [A2 B2]. pose proof (scaled (67 / 10 ^ 4 / (993 / 1000) + 42 / 10 ^ 18) ltac:(lra)).
  destruct (ap_div _ _ _ _ _ _ (67 / 10 ^ 4) (993 / 1000) (42 / 10 ^ 18) (5 / 10 ^ 17) A2 A3 B2) as [G4 A4]; [lra|rewrite Rabs_pos_eq; lra|lra|lra|lra|lra|].
  exists (fdiv e2 (fsub f_1 e2)). split; [exact G4|]. split; [exact A4|]. assert (D : 0 < / (1 - E)) by (apply Rinv_0_lt_compat; lra). apply Rabs_le. split; [unfold Rdiv; assert (0 <= E * / (1 - E)) by (apply Rmult_le_pos; lra); lra|].
  apply Rmult_le_reg_r with (1 - E); [lra|]. unfold Rdiv. rewrite Rmult_assoc, Rinv_l by lra. lra.
Qed.

Lemma curvature_nap e2 s lat : nap e2 (wgs84_e ^ 2) (67 / 10 ^ 4) (4 / 10 ^ 17) -> nap s (sin lat) 1 (63 / 10 ^ 17) ->
  exists s2 d N, gsquare L s = GRet s2 /\ gsqrt (fsub f_1 (fmul e2 s2)) = GRet d /\ gdiv a64 d = GRet N /\ nap N (normal_radius lat) 6400000 (3 / 10 ^ 9).
Proof.
  intros N2 NS. destruct (nap_square J AJ _ _ _ _ 1 (15 / 10 ^ 16) NS ltac:(lra) ltac:(lra) ltac:(lra)) as (s2 & G1 & NS2).
  pose proof (nap_mul _ _ _ _ _ _ _ _ (67 / 10 ^ 4) (6 / 10 ^ 17) N2 NS2 ltac:(lra) ltac:(lra) ltac:(lra)) as NP.
  assert (N1 : nap f_1 1 1 0) by (split; [exact one_ap|rewrite Rabs_R1; lra]). pose proof (nap_sub _ _ _ _ _ _ _ _ (1007 / 1000) (18 / 10 ^ 17) N1 NP ltac:(lra) ltac:(lra) ltac:(lra)) as [A3 B3].
  pose proof (sin_sq_le lat) as SQ. pose proof wgs_e2 as E2v. assert (EB : 0 <= wgs84_e ^ 2 <= 66944 / 10000000) by (rewrite E2v; unfold wgs84_a, wgs84_b; lra).
  assert (QS : 0 <= wgs84_e ^ 2 * sin lat ^ 2 <= 66944 / 10000000) by (split; [apply Rmult_le_pos; lra|apply Rle_trans with (66944 / 10000000 * 1); [apply Rmult_le_compat; lra|lra]]).
  set (Q := 1 - wgs84_e ^ 2 * sin lat ^ 2) in *. assert (QB : 9933 / 10000 <= Q <= 1) by (unfold Q; lra).
  assert (S1 : sqrt Q <= 1) by (rewrite <- sqrt_1; apply sqrt_le_1_alt; lra). assert (S2 : 9966 / 10000 <= sqrt Q) by (rewrite <- (sqrt_square (9966 / 10000)) by lra; apply sqrt_le_1_alt; lra).
  pose proof (scaled (1 + 18 / 10 ^ 17 / (9966 / 10000)) ltac:(lra)).
  destruct (ap_sqrt _ _ _ (9966 / 10000) 1 (3 / 10 ^ 16) A3) as [G2 A4]; [lra|lra|lra|exact S1|lra|].
  destruct nap_a as [AA BA]. pose proof (scaled (6378137 / (9966 / 10000) + 2 / 10 ^ 9) ltac:(lra)).
  destruct (ap_div _ _ _ _ _ _ 6378137 (9966 / 10000) (2 / 10 ^ 9) (3 / 10 ^ 9) AA A4 BA) as [G3 A5]; [lra|rewrite Rabs_pos_eq; lra|lra|lra|lra|lra|].
  eexists s2, _, _. split; [exact G1|]. split; [exact G2|]. split; [exact G3|]. split; [exact A5|]. pose proof (normal_low lat). rewrite Rabs_pos_eq; lra.
Qed.

(** the projection about the meridian of zone z, near it *)
Lemma projected lla z : fin (fx lla) -> fin (fy lla) -> Rabs (val (fx lla)) <= 84 -> Rabs (val (fy lla)) <= 180 -> (1 <= z <= 61)%Z -> Rabs (val (fy lla) - central_meridian z) <= 6 -> utm_zone64 (fx lla) (fy lla) = GRet z ->
  exists x y k, lla2utm64 J lla = GRet (UTM64 x y (fz lla) (zone_text z (utmLetterDesignator64 (fx lla))) k) /\
    within x (tm_x (terms_of (val (fx lla)) (val (fy lla)) z)) (/ 10 ^ 7) /\ within y (tm_y (terms_of (val (fx lla)) (val (fy lla)) z)) (/ 10 ^ 7) /\ within k (tm_k (terms_of (val (fx lla)) (val (fy lla)) z)) (2 / 10 ^ 15).
Proof.
  intros F1 F2 H1 H2 Hz HC Z. pose proof pi_digits as PD. set (lat := deg2rad (val (fx lla))).
  assert (NL : nap (deg2rad64 (fx lla)) lat (1467 / 1000) (4 / 10 ^ 16)).
  { split; [eapply ap_weak; [apply deg2rad_ap; [exact F1|lra]|num]|]. unfold lat. rewrite deg2rad_is, Rabs_mult, (Rabs_pos_eq (PI / 180)) by lra. apply Rle_trans with (84 * (PI / 180)); [apply Rmult_le_compat_r; lra|lra]. }
  assert (AL : ap (deg2rad64 (fy lla)) (deg2rad (val (fy lla))) (84 / 10 ^ 17)) by (eapply ap_weak; [apply deg2rad_ap; [exact F2|lra]|num]).
  set (o := ((z - 1) * 6 - 180 + 3)%Z). assert (Ho : IZR o = central_meridian z) by (unfold o, central_meridian; rewrite plus_IZR, minus_IZR, mult_IZR, minus_IZR; ring).
  assert (OB : Rabs (central_meridian z) <= 183) by (rewrite <- Ho, <- abs_IZR; apply IZR_le; unfold o; lia).
  assert (AO : ap (deg2rad64 (fint o)) (deg2rad (IZR o)) (86 / 10 ^ 17)).
  { rewrite <- (fint_val o) by (unfold o; lia). eapply ap_weak; [apply deg2rad_ap; [apply fint_fin; unfold o; lia|]|]; rewrite fint_val, Ho by (unfold o; lia); [lra|num]. }
  assert (NA0 : nap (fsub (deg2rad64 (fy lla)) (deg2rad64 (fint o))) (deg2rad (val (fy lla)) - deg2rad (IZR o)) (105 / 1000) (18 / 10 ^ 16)).
  { assert (HB : Rabs (deg2rad (val (fy lla)) - deg2rad (IZR o)) <= 105 / 1000).
    { rewrite !deg2rad_is, <- Rmult_minus_distr_r, Rabs_mult, (Rabs_pos_eq (PI / 180)), Ho by lra. apply Rle_trans with (6 * (PI / 180)); [apply Rmult_le_compat_r; lra|lra]. }
    split; [|exact HB]. pose proof (scaled (105 / 1000 + (84 / 10 ^ 17 + 86 / 10 ^ 17)) ltac:(lra)). eapply ap_sub; [exact AL|exact AO|exact HB|lra|lra]. }
  destruct e2_nap as (e2 & G1 & N2 & ep2 & G2 & NE). destruct (nap_sin J AJ _ _ _ _ (63 / 10 ^ 17) NL ltac:(lra)) as (s & G3 & NS).
  destruct (curvature_nap e2 s lat N2 NS) as (s2 & d & N & G4 & G5 & G6 & NN).
  destruct (nap_tan J AJ _ _ _ _ NL (cos_84 _ H1) ltac:(lra)) as (t & G7 & NT0). pose proof (nap_weak _ _ _ _ (963 / 100) (45 / 10 ^ 15) NT0 ltac:(lra) ltac:(lra)) as NT.
  destruct (nap_square J AJ _ _ _ _ 93 (1 / 10 ^ 12) NT ltac:(lra) ltac:(lra) ltac:(lra)) as (T & G8 & NTT). pose proof (nap_weak _ _ _ _ (963 / 100) (5 / 10 ^ 14) NT ltac:(lra) ltac:(lra)) as NT'.
  destruct (nap_cos J AJ _ _ _ _ (63 / 10 ^ 17) NL ltac:(lra)) as (c & G9 & NC0). destruct (nap_square J AJ _ _ _ _ 1 (15 / 10 ^ 16) NC0 ltac:(lra) ltac:(lra) ltac:(lra)) as (cc & G10 & NCC).
  pose proof (nap_mul _ _ _ _ _ _ _ _ (68 / 10 ^ 4) (7 / 10 ^ 17) NE NCC ltac:(lra) ltac:(lra) ltac:(lra)) as NC.
  pose proof (nap_mul _ _ _ _ _ _ _ _ (105 / 1000) (3 / 10 ^ 15) NA0 NC0 ltac:(lra) ltac:(lra) ltac:(lra)) as NA.
  destruct (meridian_nap J AJ _ _ _ _ N2 NL) as (M & G11 & NM).
  destruct (easting_nap J AJ _ _ _ _ _ _ _ _ _ _ NN NTT NC NA NE) as (x & G12 & [AX' _]).
  destruct (northing_nap J AJ _ _ _ _ _ _ _ _ _ _ _ _ _ _ NM NN NT' NTT NC NA NE) as (y & G13 & [AY' _]).
  destruct (scale_nap J AJ _ _ _ _ _ _ _ _ NTT NC NA NE) as (k & G14 & [AK' _]).
  exists x, y, k. split.
  - unfold lla2utm64. rewrite Z. cbn [gbind]. cbv zeta. fold o. unfold L in *. rewrite G1. cbn [gbind]. rewrite G2. cbn [gbind]. rewrite G3. cbn [gbind]. rewrite G4. cbn [gbind]. rewrite G5. cbn [gbind]. rewrite G6. cbn [gbind].
    rewrite G7. cbn [gbind]. rewrite G8. cbn [gbind]. rewrite G9. cbn [gbind]. rewrite G10. cbn [gbind]. rewrite G11. cbn [gbind]. rewrite G12. cbn [gbind]. rewrite G13. cbn [gbind]. rewrite G14. reflexivity.
  - split; [|split].
    + apply (ap_weak _ _ _ (/ 10 ^ 7)) in AX'; [exact AX'|lra].
    + apply (ap_weak _ _ _ (/ 10 ^ 7)) in AY'; [exact AY'|lra].
    + apply (ap_weak _ _ _ (2 / 10 ^ 15)) in AK'; [exact AK'|lra].
Qed.
End Accuracy.

(** ** The theorems *)
Section Theorems.
Variable J : projlib.
Hypothesis AJ : accurate_proj J.

Lemma west_of_zone lat lon : -180 <= lon < 180 -> (forall z', ~ exceptional lat lon z') -> just_west lon -> Rabs (lon - central_meridian (utm_zone lat lon + 1)) <= 3 + / 10 ^ 13 /\ (1 <= utm_zone lat lon <= 60)%Z.
Proof.
  intros H X (k & K). destruct (zone_cases lat lon _ eq_refl) as [Y|[_ Y]]; [destruct (X _ Y)|]. rewrite Y. destruct (pyint_floor ((lon + 180) / 6)) as [A B]; [lra|]. set (n := pyint ((lon + 180) / 6)) in *.
  assert (n0 : (0 <= n)%Z) by (enough (-1 < n)%Z by lia; apply lt_IZR; lra). assert (n1 : (n < 60)%Z) by (apply lt_IZR; lra). split; [|lia].
  assert (k = n - 29)%Z. { assert (n - 30 < k)%Z by (apply lt_IZR; rewrite minus_IZR; lra). assert (k < n - 28)%Z by (apply lt_IZR; rewrite minus_IZR; lra). lia. }
  subst k. rewrite minus_IZR in K. unfold central_meridian. rewrite !plus_IZR. apply Rabs_le. lra.
Qed.

Lemma own_zone lat lon : -180 <= lon < 180 -> (1 <= utm_zone lat lon <= 60)%Z /\ Rabs (lon - central_meridian (utm_zone lat lon)) <= 6 /\
  (exceptional lat lon (utm_zone lat lon) \/ (forall z', ~ exceptional lat lon z') /\ Rabs (lon - central_meridian (utm_zone lat lon)) <= 3).
Proof.
  intros H. destruct (zone_cases lat lon _ eq_refl) as [X|[X Y]].
  - assert (D := X). unfold exceptional in D. split; [|split; [|left; exact X]]; repeat match goal with H : _ \/ _ |- _ => destruct H | H : _ /\ _ |- _ => destruct H end;
      match goal with E : utm_zone _ _ = _ |- _ => rewrite E end; unfold central_meridian; try lia; apply Rabs_le; lra.
  - destruct (pyint_floor ((lon + 180) / 6)) as [A B]; [lra|]. rewrite Y. set (n := pyint ((lon + 180) / 6)) in *.
    assert (n0 : (0 <= n)%Z) by (enough (-1 < n)%Z by lia; apply lt_IZR; lra). assert (n1 : (n < 60)%Z) by (apply lt_IZR; lra).
    assert (D : Rabs (lon - central_meridian (n + 1)) <= 3) by (unfold central_meridian; rewrite plus_IZR; apply Rabs_le; lra). split; [lia|]. split; [lra|]. right. split; [exact X|exact D].
Qed.

(** The zone: the exceptional one, or one whose central meridian is at most three degrees away (and ten to the minus thirteenth). It is in 1 .. 60 but for longitudes within that distance of 180. The letter is that of the band (C50). *)
Theorem C79_zone lla : let lat := val (fx lla) in let lon := val (fy lla) in fin (fx lla) -> fin (fy lla) -> Rabs lat <= 84 -> -180 <= lon < 180 ->
  exists r z, lla2utm64 J lla = GRet r /\ utm_zone_name64 r = zone_text z (utmLetterDesignator lat) /\ (1 <= z <= 61)%Z /\ (z = 61%Z -> 180 - / 10 ^ 13 <= lon) /\
    (exceptional lat lon z \/ (forall z', ~ exceptional lat lon z') /\ Rabs (lon - central_meridian z) <= 3 + / 10 ^ 13).
Proof.
  cbv zeta. intros F1 F2 H1 H2. destruct (zone_ok (fx lla) (fy lla) F1 F2 H2) as (z & Z & C).
  assert (K : (1 <= z <= 61)%Z /\ (z = 61%Z -> 180 - / 10 ^ 13 <= val (fy lla)) /\ Rabs (val (fy lla) - central_meridian z) <= 6 /\ (exceptional (val (fx lla)) (val (fy lla)) z \/ (forall z', ~ exceptional (val (fx lla)) (val (fy lla)) z') /\ Rabs (val (fy lla) - central_meridian z) <= 3 + / 10 ^ 13)).
  { destruct C as [->|(-> & W & X)].
    - destruct (own_zone (val (fx lla)) (val (fy lla)) H2) as (R & D & X). split; [lia|]. split; [lia|]. split; [exact D|]. destruct X as [X|[X Y]]; [left; exact X|right; split; [exact X|lra]].
    - destruct (west_of_zone _ _ H2 X W) as [D R]. split; [lia|]. split; [|split; [lra|right; split; [exact X|exact D]]]. intros E. unfold central_meridian in D. rewrite E in D. apply Rabs_le_inv in D. lra. }
  destruct K as (K1 & K2 & K3 & K4). assert (H3 : Rabs (val (fy lla)) <= 180) by (apply Rabs_le; lra).
  destruct (projected J AJ lla z F1 F2 H1 H3 K1 K3 Z) as (x & y & k & E & _). exists (UTM64 x y (fz lla) (zone_text z (utmLetterDesignator64 (fx lla))) k), z. split; [exact E|]. cbn [utm_zone_name64]. rewrite letter_ok by exact F1. auto.
Qed.

(** Easting and northing within a ten millionth of a metre of the exact series, the scale factor within 2e-15, the same zone, and the altitude as it is; except within 1e-13 degrees west of a zone *)
Theorem C79_coordinates lla q : fin (fx lla) -> fin (fy lla) -> Rabs (val (fx lla)) <= 84 -> -180 <= val (fy lla) < 180 -> (forall k : Z, ~ 0 < 6 * IZR k - val (fy lla) <= / 10 ^ 13) -> lla2utm (real3 lla) = Ret q ->
  exists r, lla2utm64 J lla = GRet r /\ within (utm_x64 r) (utm_x q) (/ 10 ^ 7) /\ within (utm_y64 r) (utm_y q) (/ 10 ^ 7) /\ utm_alt64 r = fz lla /\ utm_zone_name64 r = utm_zone_name q /\ within (utm_k64 r) (utm_k q) (2 / 10 ^ 15).
Proof.
  intros F1 F2 H1 H2 W E. rewrite (utm_terms (real3 lla)) in E. cbn [real3 vx vy vz] in E. injection E as <-. cbn [utm_x utm_y utm_k utm_zone_name].
  destruct (zone_ok (fx lla) (fy lla) F1 F2 H2) as (z & Z & [C|(_ & [k K] & _)]); [|destruct (W k K)]. rewrite <- C.
  destruct (own_zone (val (fx lla)) (val (fy lla)) H2) as (Hz & D & _). rewrite <- C in Hz, D. assert (H3 : Rabs (val (fy lla)) <= 180) by (apply Rabs_le; lra).
  destruct (projected J AJ lla z F1 F2 H1 H3 ltac:(lia) D Z) as (x & y & k & G & A1 & A2 & A3). eexists. split; [exact G|]. cbn. rewrite letter_ok by exact F1. auto.
Qed.
End Theorems.

(** What is not a number: int() raises ValueError for a longitude that is a NaN and OverflowError for an infinite one; the band of a latitude that is not finite is Z *)
Theorem C79_not_finite J lla : (is_nan 53 1024 (fy lla) = true -> lla2utm64 J lla = GRaise EValue) /\ (forall s, fy lla = B754_infinity 53 1024 s -> lla2utm64 J lla = GRaise EOverflow) /\
  (~ fin (fx lla) -> utmLetterDesignator64 (fx lla) = "Z"%char).
Proof.
  split; [|split].
  - destruct lla as [la lo al]. cbn [fy]. intros H. unfold lla2utm64, utm_zone64. cbn [fx fy]. destruct lo as [s|s|s pl e|s m e E]; try discriminate H. reflexivity.
  - destruct lla as [la lo al]. cbn [fy]. intros s ->. unfold lla2utm64, utm_zone64. cbn [fx fy]. now destruct s.
  - apply letter_special.
Qed.

(** ** Cases *)
Definition ideal_proj : projlib := {| j_math := ideal_math; j_pow x n := nearest (val x ^ Z.to_nat n) |}.
Example ideal_proj_accurate : accurate_proj ideal_proj.
Proof. split; cbn [ideal_proj j_math j_pow]; [exact ideal_math_accurate| |exact (at_zero ideal_att ideal_att_accurate)]. intros x n _ _ H. now apply nearest_ulp. Qed.
(** 180 - 2^-45 degrees is less than 180, but in zone 61 *)
Definition below_180 : f64 := b64_of_bits 4640537203540230143.
Theorem C79_zone_refuted J : accurate_proj J -> exists lla r, fin3 lla /\ -180 <= val (fy lla) < 180 /\ lla2utm64 J lla = GRet r /\ utm_zone_name64 r = "61N"%string /\ exists q, lla2utm (real3 lla) = Ret q /\ utm_zone_name q = "60N"%string.
Proof.
  intros AJ. exists (FV f_zero below_180 f_zero). assert (V : val below_180 = 180 - / 35184372088832) by (unfold below_180; value_of_bits; lra).
  assert (Z : utm_zone64 f_zero below_180 = GRet 61%Z) by (vm_compute; reflexivity). assert (V0 : val f_zero = 0) by reflexivity.
  assert (H : -180 <= val below_180 < 180) by lra.
  destruct (projected J AJ (FV f_zero below_180 f_zero) 61) as (x & y & k & E & _); cbn [fx fy]; rewrite ?V0, ?Rabs_R0; try reflexivity; try lra; try lia; try exact Z; [apply Rabs_le; lra|unfold central_meridian; apply Rabs_le; lra|].
  eexists. split; [intros []; reflexivity|]. split; [exact H|]. split; [exact E|]. split; [reflexivity|]. eexists. split; [apply utm_terms|]. cbn [utm_zone_name real3 vx vy fx fy]. rewrite V0.
  assert (P : utm_zone 0 (val below_180) = 60%Z).
  { destruct (own_zone 0 (val below_180) H) as (Hz & _ & [X|[_ D]]); [unfold exceptional in X; lra|]. unfold central_meridian in D. apply Rabs_le_inv in D.
    enough (59 < utm_zone 0 (val below_180))%Z by lia. apply lt_IZR. lra. }
  rewrite P. rewrite <- V0, <- letter_ok by reflexivity. vm_compute. reflexivity.
Qed.
(** 45.5 N, 9.25 E, at 120 m *)
Example C79_case : accurate_proj ideal_proj /\ fin3 case_lla /\ real3 case_lla = V (91 / 2) (37 / 4) 120 /\ (forall k : Z, ~ 0 < 6 * IZR k - 37 / 4 <= / 10 ^ 13) /\ exists q, lla2utm (real3 case_lla) = Ret q /\ utm_zone_name q = "32T"%string.
Proof.
  split; [exact ideal_proj_accurate|]. destruct C70_case as (_ & F & V & _). split; [exact F|]. split; [exact V|]. split.
  - intros k K. assert (1 < k)%Z by (apply lt_IZR; lra). assert (k < 2)%Z by (apply lt_IZR; lra). lia.
  - eexists. split; [apply utm_terms|]. rewrite V. cbn [utm_zone_name vx vy].
    assert (P : utm_zone (91 / 2) (37 / 4) = 32%Z).
    { destruct (own_zone (91 / 2) (37 / 4) ltac:(lra)) as (Hz & _ & [X|[_ D]]); [unfold exceptional in X; lra|]. unfold central_meridian in D. apply Rabs_le_inv in D.
      assert (31 < utm_zone (91 / 2) (37 / 4))%Z by (apply lt_IZR; lra). assert (utm_zone (91 / 2) (37 / 4) < 33)%Z by (apply lt_IZR; lra). lia. }
    rewrite P. assert (B : utmLetterDesignator (91 / 2) = "T"%char); [|now rewrite B].
    pose proof (C50_bands 15 (91 / 2)) as B. assert (I : in_band 15 (91 / 2)) by (split; [lia|cbn [INR]; lra]). specialize (B I). injection B as B. now symmetry.
Qed.

Definition all_PropUtm64 := (@C79_zone, @C79_coordinates, @C79_not_finite, @C79_zone_refuted).
Print Assumptions all_PropUtm64.
