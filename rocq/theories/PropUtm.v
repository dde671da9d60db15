(** C54, C55: the UTM projection and the gravity formula of RangeCoordinates.py, over the reals. *)
From Coq Require Import Reals Lra Lia ZArith.
From Verif Require Import Real3 RangeCoordinates PropGeo.
Local Open Scope R_scope.

(** *** C54 *)
(** the zone of a point: exceptional areas first, otherwise six degrees around the central meridian *)
Definition in_zone (lat lon : R) (z : Z) : Prop :=
  exceptional lat lon z \/ (1 <= z <= 60)%Z /\ (forall z', ~ exceptional lat lon z') /\ central_meridian z - 3 <= lon < central_meridian z + 3.

(** the formulas of lla2utm as a function of latitude (radians) and offset from the central meridian (radians) *)
Definition grid (l d : R) : R * R * R :=
  let E := wgs84_e ^ 2 in let E' := E / (1 - E) in let N := wgs84_a / sqrt (1 - E * sin l ^ 2) in
  let T := tan l ^ 2 in let C := E' * cos l ^ 2 in let A := d * cos l in
  let M := wgs84_a * ((1 - E / 4 - 3 * E ^ 2 / 64 - 5 * E ^ 3 / 256) * l - (3 * E / 8 + 3 * E ^ 2 / 32 + 45 * E ^ 3 / 1024) * sin (2 * l) +
                      (15 * E ^ 2 / 256 + 45 * E ^ 3 / 1024) * sin (4 * l) - (35 * E ^ 3 / 3072) * sin (6 * l)) in
  (k0 * N * (A + (1 - T + C) * A ^ 3 / 6 + (5 - 18 * T + T ^ 2 + 72 * C - 58 * E') * A ^ 5 / 120) + 500000,
   k0 * (M + N * tan l * (A ^ 2 / 2 + (5 - T + 9 * C + 4 * C ^ 2) * A ^ 4 / 24 + (61 - 58 * T + T ^ 2 + 600 * C - 330 * E') * A ^ 6 / 720)),
   k0 * (1 + (1 + C) * A ^ 2 / 2 + (5 - 4 * T + 42 * C + 13 * C ^ 2 - 28 * E') * A ^ 4 / 24 + (61 - 148 * T + 16 * T ^ 2) * A ^ 6 / 720)).

Lemma utm_is lat lon alt : exists u, lla2utm (V lat lon alt) = Ret u /\ utm_alt u = alt /\
  utm_zone_name u = zone_text (utm_zone lat lon) (utmLetterDesignator lat) /\
  (utm_x u, utm_y u, utm_k u) = grid (deg2rad lat) (deg2rad (lon - central_meridian (utm_zone lat lon))).
Proof.
  pose proof wgs_e2_bounds as EB. unfold lla2utm. cbv zeta. rewrite pdiv_ok by lra. cbn [pbind vx vy vz]. pose proof (radicand (deg2rad lat)) as Q. rewrite psqrt_ok by lra. cbn [pbind].
  rewrite pdiv_ok by (apply Rgt_not_eq, sqrt_lt_R0; lra). cbn [pbind]. eexists. split; [reflexivity|]. split; [reflexivity|]. split; [reflexivity|]. cbn [utm_x utm_y utm_k]. unfold grid. cbv zeta.
  assert (D : deg2rad lon - deg2rad (IZR ((utm_zone lat lon - 1) * 6 - 180 + 3)) = deg2rad (lon - central_meridian (utm_zone lat lon))).
  { unfold deg2rad, central_meridian. rewrite plus_IZR, minus_IZR, mult_IZR, minus_IZR. field. }
  rewrite D, Rminus_0_r. reflexivity.
Qed.

Lemma grid_central l : exists y, grid l 0 = (500000, y, k0).
Proof. unfold grid. cbv zeta. eexists. repeat f_equal; unfold Rdiv; ring. Qed.
Lemma grid_mirror l d : let '(x, y, k) := grid l d in grid l (- d) = (1000000 - x, y, k).
Proof. unfold grid. cbv beta iota zeta. replace (- d * cos l) with (- (d * cos l)) by ring. set (A := d * cos l). apply f_equal2; [apply f_equal2|]; unfold Rdiv; ring. Qed.
Lemma grid_hemisphere l d : let '(x, y, k) := grid l d in grid (- l) d = (x, - y, k).
Proof.
  unfold grid. cbv beta iota zeta. assert (T : tan (- l) = - tan l) by (unfold tan; rewrite sin_neg, cos_neg; unfold Rdiv; ring).
  rewrite T, cos_neg. replace (2 * - l) with (- (2 * l)) by ring. replace (4 * - l) with (- (4 * l)) by ring. replace (6 * - l) with (- (6 * l)) by ring. rewrite !sin_neg.
  replace ((- sin l) ^ 2) with (sin l ^ 2) by ring. replace ((- tan l) ^ 2) with (tan l ^ 2) by ring. apply f_equal2; [apply f_equal2|]; unfold Rdiv; ring.
Qed.

Lemma zone_is lat lon z : in_zone lat lon z -> utm_zone lat lon = z.
Proof.
  intros [X|(Hz & X & H)]; destruct (zone_cases lat lon _ eq_refl) as [Y|[Y Y']]; [|destruct (Y _ X)|destruct (X _ Y)|].
  - unfold exceptional in X, Y. repeat match goal with H : _ \/ _ |- _ => destruct H | H : _ /\ _ |- _ => destruct H end; try congruence; exfalso; lra.
  - rewrite Y'. unfold central_meridian in H. assert (1 <= IZR z) by (apply (IZR_le 1); lia). destruct (pyint_floor ((lon + 180) / 6)) as [A B]; [lra|]. set (k := pyint ((lon + 180) / 6)) in *.
    assert (k < z)%Z by (apply lt_IZR; lra). assert (z - 1 < k + 1)%Z by (apply lt_IZR; rewrite minus_IZR, plus_IZR; lra). lia.
Qed.

(** on the central meridian of its zone a point has easting 500000 and scale 0.9996; the altitude is kept everywhere *)
Theorem C54_central lat z alt : in_zone lat (central_meridian z) z -> exists u, lla2utm (V lat (central_meridian z) alt) = Ret u /\ utm_x u = 500000 /\ utm_k u = 9996 / 10000.
Proof.
  intros X. destruct (utm_is lat (central_meridian z) alt) as (u & U & A & N & G). exists u. split; [exact U|]. rewrite (zone_is _ _ _ X) in G.
  rewrite Rminus_diag_eq in G by reflexivity. replace (deg2rad 0) with 0 in G by (unfold deg2rad; field). destruct (grid_central (deg2rad lat)) as [y E]. rewrite E in G. injection G as -> _ ->. split; reflexivity.
Qed.
Theorem C54_altitude lat lon alt : exists u, lla2utm (V lat lon alt) = Ret u /\ utm_alt u = alt /\ forall alt', exists u', lla2utm (V lat lon alt') = Ret u' /\ utm_x u' = utm_x u /\ utm_y u' = utm_y u /\ utm_k u' = utm_k u.
Proof.
  destruct (utm_is lat lon alt) as (u & U & A & N & G). exists u. split; [exact U|]. split; [exact A|]. intros alt'. destruct (utm_is lat lon alt') as (u' & U' & A' & N' & G').
  exists u'. split; [exact U'|]. rewrite <- G' in G. injection G as -> -> ->. repeat split.
Qed.
(** two points of the same zone, symmetric to its central meridian, have eastings symmetric to 500000 and the same northing and scale *)
Theorem C54_mirror lat z d alt : in_zone lat (central_meridian z + d) z -> in_zone lat (central_meridian z - d) z ->
  exists u u', lla2utm (V lat (central_meridian z + d) alt) = Ret u /\ lla2utm (V lat (central_meridian z - d) alt) = Ret u' /\
    utm_zone_name u' = utm_zone_name u /\ utm_x u' - 500000 = - (utm_x u - 500000) /\ utm_y u' = utm_y u /\ utm_k u' = utm_k u.
Proof.
  intros H H'. destruct (utm_is lat (central_meridian z + d) alt) as (u & U & A & N & G). destruct (utm_is lat (central_meridian z - d) alt) as (u' & U' & A' & N' & G').
  exists u, u'. do 2 (split; [assumption|]). rewrite (zone_is _ _ _ H) in *. rewrite (zone_is _ _ _ H') in *.
  replace (deg2rad (central_meridian z + d - central_meridian z)) with (deg2rad d) in G by (f_equal; ring). replace (deg2rad (central_meridian z - d - central_meridian z)) with (- deg2rad d) in G' by (unfold deg2rad; field).
  pose proof (grid_mirror (deg2rad lat) (deg2rad d)) as M. rewrite <- G in M. rewrite M in G'. injection G' as -> -> ->. rewrite N, N'. repeat split; ring.
Qed.
(** north and south: the same easting and scale, opposite northing; so southern points get negative northings and not the standard's offset of 10000000 *)
Theorem C54_hemispheres_refuted lat lon alt z : in_zone lat lon z -> in_zone (- lat) lon z ->
  exists u u', lla2utm (V lat lon alt) = Ret u /\ lla2utm (V (- lat) lon alt) = Ret u' /\ utm_x u' = utm_x u /\ utm_k u' = utm_k u /\ utm_y u' = - utm_y u /\ ~ (0 < utm_y u /\ 0 < utm_y u').
Proof.
  intros H H'. destruct (utm_is lat lon alt) as (u & U & A & N & G). destruct (utm_is (- lat) lon alt) as (u' & U' & A' & N' & G').
  exists u, u'. do 2 (split; [assumption|]). rewrite (zone_is _ _ _ H) in *. rewrite (zone_is _ _ _ H') in *.
  replace (deg2rad (- lat)) with (- deg2rad lat) in G' by (unfold deg2rad; field). pose proof (grid_hemisphere (deg2rad lat) (deg2rad (lon - central_meridian z))) as M.
  rewrite <- G in M. rewrite M in G'. injection G' as -> -> ->. repeat split; lra.
Qed.
Example C54_case : in_zone 48 (central_meridian 33) 33 /\ in_zone 48 (central_meridian 33 + 2) 33 /\ in_zone 48 (central_meridian 33 - 2) 33 /\ in_zone (- 48) (central_meridian 33 + 2) 33.
Proof. unfold in_zone, exceptional, central_meridian. repeat split; right; repeat split; try lia; try lra; intros; lra. Qed.

(** *** C55 *)
(** g0 as a function of sin^2 *)
Definition gravity (s : R) : R := 97803267715 / 10000000000 * (1 + 1931851353 / 1000000000000 * s) / sqrt (1 - 66943800229 / 10000000000000 * s).
Lemma gravity_den s : 0 <= s <= 1 -> 0 < 1 - 66943800229 / 10000000000000 * s.
Proof. lra. Qed.
Lemma gravity_mono s t : 0 <= s <= t -> t <= 1 -> gravity s <= gravity t.
Proof.
  intros H H'. unfold gravity. apply Rmult_le_compat; [nra|left; apply Rinv_0_lt_compat, sqrt_lt_R0; lra|nra|].
  apply Rinv_le_contravar; [apply sqrt_lt_R0; lra|]. apply sqrt_le_1_alt. lra.
Qed.
Lemma g0_is L : g0 L = Ret (gravity (sin L ^ 2)).
Proof. pose proof (sin_sq_le L). unfold g0. rewrite psqrt_ok by lra. cbn [pbind]. rewrite pdiv_ok by (apply Rgt_not_eq, sqrt_lt_R0; lra). reflexivity. Qed.
Theorem C55_range L : exists g, g0 L = Ret g /\ 97803267715 / 10000000000 <= g <= 98322 / 10000 /\ g0 (- L) = Ret g /\ g0 (L + PI) = Ret g.
Proof.
  pose proof (sin_sq_le L) as S. exists (gravity (sin L ^ 2)). split; [apply g0_is|]. split.
  - split.
    + replace (97803267715 / 10000000000) with (gravity 0) at 1; [apply gravity_mono; lra|]. unfold gravity. rewrite !Rmult_0_r, Rminus_0_r, sqrt_1. field.
    + apply Rle_trans with (gravity 1); [apply gravity_mono; lra|]. unfold gravity.
      assert (Q : 9966471 / 10000000 <= sqrt (1 - 66943800229 / 10000000000000 * 1)). { rewrite <- (sqrt_square (9966471 / 10000000)) by lra. apply sqrt_le_1_alt. lra. }
      apply Rmult_le_reg_r with (sqrt (1 - 66943800229 / 10000000000000 * 1)); [lra|]. unfold Rdiv at 1. rewrite Rmult_assoc, Rinv_l by lra. lra.
  - rewrite !g0_is, sin_neg, neg_sin. split; do 2 f_equal; ring.
Qed.
(** gravity grows from the equator to the poles *)
Theorem C55_monotone L L' : 0 <= L <= L' -> L' <= PI / 2 -> exists g g', g0 L = Ret g /\ g0 L' = Ret g' /\ g <= g'.
Proof.
  intros H H'. do 2 eexists. split; [apply g0_is|]. split; [apply g0_is|]. pose proof (sin_sq_le L'). apply gravity_mono; [|lra].
  assert (0 <= sin L) by (apply sin_ge_0; lra). assert (sin L <= sin L') by (apply sin_incr_1; lra). split; nra.
Qed.
Theorem C55_equator : g0 0 = Ret (97803267715 / 10000000000).
Proof. rewrite g0_is, sin_0. unfold gravity. replace (0 ^ 2) with 0 by ring. rewrite !Rmult_0_r, Rminus_0_r, sqrt_1. f_equal. field. Qed.

(** *** C57 *)
(** without an origin lla2gcc is lla2ecef; with one, given as longitude, latitude, altitude, it is the vector from the origin's point to the given point *)
Theorem C57_gcc lat lon alt lon0 lat0 alt0 : exists p o, lla2ecef (V lat lon alt) = Ret p /\ lla2ecef (V lat0 lon0 alt0) = Ret o /\
  lla2gcc (V lat lon alt) None = Ret p /\ lla2gcc (V lat lon alt) (Some (lon0, lat0, alt0)) = Ret (vsub p o) /\ lla2gcc (V lat0 lon0 alt0) (Some (lon0, lat0, alt0)) = Ret vzero.
Proof.
  unfold lla2gcc. rewrite !lla2ecef_is. cbn [pbind vx vy vz]. do 2 eexists. do 2 (split; [reflexivity|]).
  split; [|split]; f_equal; unfold vsub, vzero; cbn [vx vy vz]; f_equal; ring.
Qed.

Definition all_PropUtm := (C54_central, C54_altitude, C54_mirror, C54_hemispheres_refuted, C55_range, C55_monotone, C55_equator, C57_gcc).
Print Assumptions all_PropUtm.
