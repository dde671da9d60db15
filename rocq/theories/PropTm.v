(** C83, C84: the UTM coordinates of RangeCoordinates.py are a conformal map of the WGS84 ellipsoid with the returned scale, and tell places apart; over the reals. *)
From Coq Require Import Reals Lra Lia ZArith String Ascii.
From Verif Require Import Real3 RangeCoordinates PropGeo PropUtm UtmShape UtmDeriv.
Local Open Scope R_scope.

(** *** Specification *)
(** the point of the ellipsoid that lla2ecef gives for a latitude and longitude (in degrees), and what lla2utm returns for them *)
Definition ground (lat lon : R) : vec := match lla2ecef (V lat lon 0) with Ret p => p | Raise _ => vzero end.
Definition easting (lat lon : R) : R := match lla2utm (V lat lon 0) with Ret u => utm_x u | Raise _ => 0 end.
Definition northing (lat lon : R) : R := match lla2utm (V lat lon 0) with Ret u => utm_y u | Raise _ => 0 end.
Definition scale (lat lon : R) : R := match lla2utm (V lat lon 0) with Ret u => utm_k u | Raise _ => 0 end.
(** velocity of a moving point *)
Definition velocity (P : R -> vec) (t : R) (v : vec) : Prop :=
  derivable_pt_lim (fun s => vx (P s)) t (vx v) /\ derivable_pt_lim (fun s => vy (P s)) t (vy v) /\ derivable_pt_lim (fun s => vz (P s)) t (vz v).
(** in zone z with a margin around *)
Definition inside (lat lon : R) (z : Z) : Prop := exists r, 0 < r /\ forall lat' lon', Rabs (lat' - lat) < r -> Rabs (lon' - lon) < r -> in_zone lat' lon' z.
(** at this point the map turns by an angle and scales by the returned scale, the same in both directions, up to [eps] *)
Definition conformal_at (eps lat lon : R) : Prop := exists east north xe ye xn yn gamma,
  velocity (fun t => ground lat t) lon east /\ velocity (fun t => ground t lon) lat north /\ 0 < norm east /\ 0 < norm north /\ vdot east north = 0 /\
  derivable_pt_lim (fun t => easting lat t) lon xe /\ derivable_pt_lim (fun t => northing lat t) lon ye /\
  derivable_pt_lim (fun t => easting t lon) lat xn /\ derivable_pt_lim (fun t => northing t lon) lat yn /\
  - (PI / 2) < gamma < PI / 2 /\
  Rabs (xe - scale lat lon * norm east * cos gamma) <= eps * norm east /\ Rabs (ye - scale lat lon * norm east * sin gamma) <= eps * norm east /\
  Rabs (xn + scale lat lon * norm north * sin gamma) <= eps * norm north /\ Rabs (yn - scale lat lon * norm north * cos gamma) <= eps * norm north.

(** *** Bounds *)
Lemma pi_up : 314159 / 100000 < PI < 31416 / 10000.
Proof.
  pose proof (PI_2_3_7_ineq 4) as [A B].
  cbn [sum_f_R0 Nat.mul Nat.add] in A, B. unfold tg_alt, PI_2_3_7_tg, Ratan_seq in A, B.
  cbn [Nat.mul Nat.add] in A, B. rewrite !INR_IZR_INZ in A, B. cbn [Z.of_nat Pos.of_succ_nat Pos.succ] in A, B. assert (I19 : INR 19 = 19) by (rewrite INR_IZR_INZ; reflexivity). rewrite I19 in A. lra.
Qed.
Definition xs l d := xl ep2 (sin l ^ 2) (d ^ 2).
Definition ks l d := kk ep2 (sin l ^ 2) (d ^ 2).
Definition ms l := wgs84_a * mer e2 (sin l ^ 2) / meridian_radius l.
Definition ex l d := sin l * d * d2 ep2 (sin l ^ 2) (d ^ 2).
Definition ey l d := ms l + yp ep2 (sin l ^ 2) (d ^ 2) - xs l d.
Lemma mer_pos S : 0 <= S <= 1 -> 0 < mer e2 S.
Proof.
  intros H. pose proof e2_bounds as EB. unfold mer. set (C := 1 - 2 * S). assert (HC : -1 <= C <= 1) by (unfold C; lra). clearbody C. clear S H.
  assert (A : -1 <= 2 * C ^ 2 - 1 <= 1) by (split; nra). assert (B : -4 <= 4 * C ^ 3 - 3 * C <= 4).
  { assert (C2 : 0 <= C * C <= 1) by (split; nra). replace (4 * C ^ 3 - 3 * C) with (C * (4 * (C * C) - 3)) by ring. split; nra. }
  set (p := 2 * C ^ 2 - 1) in *. set (q := 4 * C ^ 3 - 3 * C) in *. clearbody p q.
  assert (E2 : 0 <= e2 ^ 2 <= 7 / 1000) by (split; nra). assert (E3 : 0 <= e2 ^ 3 <= 7 / 1000) by (replace (e2 ^ 3) with (e2 * e2 ^ 2) by ring; split; nra).
  set (x := e2 ^ 2) in *. set (y := e2 ^ 3) in *. clearbody x y. generalize dependent e2. intros e EB. nra.
Qed.
Lemma ms_near l : Rabs (ms l - 1) <= 573 / 1000000000000.
Proof.
  pose proof e2_bounds as EB. pose proof (sin_sq_le l) as S. pose proof (radicand l) as Q. fold e2 in Q. set (r := 1 - e2 * sin l ^ 2) in *.
  assert (W : 0 < sqrt r) by (apply sqrt_lt_R0; lra). assert (WW : sqrt r * sqrt r = r) by (apply sqrt_sqrt; lra).
  assert (M : ms l = mer e2 (sin l ^ 2) * r * sqrt r / (1 - e2)).
  { unfold ms, meridian_radius, normal_radius. fold e2. fold r. unfold wgs84_a. field. repeat split; lra. }
  assert (P : 0 < ms l). { rewrite M. pose proof (mer_pos _ S). apply Rdiv_lt_0_compat; [|lra]. apply Rmult_lt_0_compat; [apply Rmult_lt_0_compat|]; lra. }
  assert (D : (ms l - 1) * (ms l + 1) = mu e2 (sin l ^ 2) 0 / (1 - e2) ^ 2).
  { rewrite M. unfold mu. fold r. transitivity ((mer e2 (sin l ^ 2) ^ 2 * r * r * (sqrt r * sqrt r) - (1 - e2) ^ 2) / (1 - e2) ^ 2); [field; lra|]. rewrite WW. field. lra. }
  pose proof (mu_1 e2 (sin l ^ 2) 0 S ltac:(lra) ltac:(lra)) as U. rewrite Rminus_0_r in U.
  assert (K : Rabs ((ms l - 1) * (ms l + 1)) <= 1136 / 1000000000000).
  { rewrite D. unfold Rdiv. rewrite Rabs_mult. assert (I : 0 < / (1 - e2) ^ 2 <= 10137 / 10000).
    { assert (0 < (1 - e2) ^ 2) by nra. split; [apply Rinv_0_lt_compat; assumption|]. apply Rmult_le_reg_r with ((1 - e2) ^ 2); [assumption|]. rewrite Rinv_l by lra. nra. }
    rewrite (Rabs_pos_eq (/ _)) by lra. apply Rle_trans with (7 / 6250000000 * (10137 / 10000)); [|lra]. apply Rmult_le_compat; [apply Rabs_pos|lra|exact U|lra]. }
  rewrite Rabs_mult, (Rabs_pos_eq (ms l + 1)) in K by lra. pose proof (Rabs_pos (ms l - 1)) as A0.
  assert (A1 : Rabs (ms l - 1) <= 1136 / 1000000000000) by nra. assert (A2 : 1999 / 1000 <= ms l + 1) by (revert A1; clear; unfold Rabs; destruct (Rcase_abs _); intros; lra).
  nra.
Qed.
Lemma ep_case l d (U : R) : d ^ 2 <= U -> 0 <= sin l ^ 2 <= 1 /\ 0 <= d ^ 2 <= U /\ 0 <= ep2 <= 337 / 50000.
Proof. intros H. split; [apply sin_sq_le|]. split; [|apply ep2_bounds]. split; [apply pow2_ge_0|exact H]. Qed.
Lemma ab_le x b : Rabs x <= b -> - b <= x <= b.
Proof. unfold Rabs. destruct (Rcase_abs x); lra. Qed.
Lemma xs_near l d : d ^ 2 <= 10967 / 1000000 -> 99 / 100 <= xs l d /\ 99 / 100 <= ks l d <= 101 / 100.
Proof.
  intros H. destruct (ep_case l d _ H) as (A & B & C). pose proof (xl_6 _ _ _ A B C) as X. pose proof (kk_6 _ _ _ A B C) as K. apply ab_le in X. apply ab_le in K. unfold xs, ks. lra.
Qed.
Definition rho l d := sqrt (xs l d ^ 2 + yl l d ^ 2).
Lemma rho_near l d q : d ^ 2 <= 10967 / 1000000 -> Rabs (q3 ep2 (sin l ^ 2) (d ^ 2)) <= q -> 99 / 100 <= rho l d /\ Rabs (ks l d - rho l d) <= q / (198 / 100).
Proof.
  intros H Hq. destruct (xs_near l d H) as [X K]. assert (R0 : xs l d <= rho l d). { unfold rho. rewrite <- (sqrt_pow2 (xs l d)) at 1 by lra. apply sqrt_le_1_alt. pose proof (pow2_ge_0 (yl l d)). lra. }
  split; [lra|]. assert (D : (ks l d - rho l d) * (ks l d + rho l d) = q3 ep2 (sin l ^ 2) (d ^ 2)).
  { transitivity (ks l d ^ 2 - rho l d * rho l d); [ring|]. unfold rho. rewrite sqrt_sqrt by (pose proof (pow2_ge_0 (xs l d)); pose proof (pow2_ge_0 (yl l d)); lra). unfold q3, ks, xs, yl. ring. }
  rewrite <- D, Rabs_mult, (Rabs_pos_eq (ks l d + rho l d)) in Hq by lra. apply Rmult_le_reg_r with (198 / 100); [lra|]. replace (q / (198 / 100) * (198 / 100)) with q by field.
  pose proof (Rabs_pos (ks l d - rho l d)). nra.
Qed.
Lemma ey_is l d : ey l d = (ms l - 1) - (d1 ep2 (sin l ^ 2) (d ^ 2) - 1).
Proof. unfold ey, xs, d1. ring. Qed.
Lemma ex_le l d q : Rabs d <= 105 / 1000 -> Rabs (d2 ep2 (sin l ^ 2) (d ^ 2)) <= q -> Rabs (ex l d) <= 105 / 1000 * q.
Proof.
  intros D H. unfold ex. rewrite !Rabs_mult. apply Rmult_le_compat; [apply Rmult_le_pos; apply Rabs_pos|apply Rabs_pos| |exact H].
  assert (Rabs (sin l) <= 1) by (pose proof (SIN_bound l); apply Rabs_le; lra). pose proof (Rabs_pos d). pose proof (Rabs_pos (sin l)). nra.
Qed.
Lemma sq_le d b : Rabs d <= b -> d ^ 2 <= b * b.
Proof. intros H. apply ab_le in H. nra. Qed.
(** six degrees and three degrees, in radians *)
Lemma near_6 l d : Rabs d <= 10472 / 100000 -> 99 / 100 <= xs l d /\ 99 / 100 <= rho l d /\ Rabs (ex l d) <= 1 / 1000000000 /\ Rabs (ey l d) <= 1206 / 10000000000 /\ Rabs (ks l d - rho l d) <= 1198 / 10000000000.
Proof.
  intros H. assert (D : d ^ 2 <= 10967 / 1000000) by (apply sq_le in H; lra). destruct (ep_case l d _ D) as (A & B & C).
  pose proof (q3_6 _ _ _ A B C) as Q. pose proof (d1_6 _ _ _ A B C) as D1. pose proof (d2_6 _ _ _ A B C) as D2. rewrite Rminus_0_r in Q, D2.
  split; [apply (xs_near l d D)|]. destruct (rho_near l d _ D Q) as [R K]. split; [exact R|]. split; [eapply Rle_trans; [apply (ex_le l d _ ltac:(lra) D2)|lra]|]. split; [|lra].
  rewrite ey_is. pose proof (ms_near l) as M. apply ab_le in M. apply ab_le in D1. apply Rabs_le. lra.
Qed.
Lemma near_3 l d : Rabs d <= 5236 / 100000 -> 99 / 100 <= xs l d /\ 99 / 100 <= rho l d /\ Rabs (ex l d) <= 1 / 10000000000 /\ Rabs (ey l d) <= 2584 / 1000000000000 /\ Rabs (ks l d - rho l d) <= 2001 / 1000000000000.
Proof.
  intros H. assert (D : d ^ 2 <= 1371 / 500000) by (apply sq_le in H; lra). assert (D' : d ^ 2 <= 10967 / 1000000) by lra. destruct (ep_case l d _ D) as (A & B & C).
  pose proof (q3_3 _ _ _ A B C) as Q. pose proof (d1_3 _ _ _ A B C) as D1. pose proof (d2_3 _ _ _ A B C) as D2. rewrite Rminus_0_r in Q, D2.
  split; [apply (xs_near l d D')|]. destruct (rho_near l d _ D' Q) as [R K]. split; [exact R|]. split; [eapply Rle_trans; [apply (ex_le l d _ ltac:(lra) D2)|lra]|]. split; [|lra].
  rewrite ey_is. pose proof (ms_near l) as M. apply ab_le in M. apply ab_le in D1. apply Rabs_le. lra.
Qed.

(** *** Along a curve *)
Lemma local_ext f g t l r : 0 < r -> (forall s, Rabs (s - t) < r -> f s = g s) -> derivable_pt_lim f t l -> derivable_pt_lim g t l.
Proof.
  intros Hr E D eps He. destruct (D eps He) as [del Hd]. assert (P : 0 < Rmin del r) by (apply Rmin_pos; [apply cond_pos|exact Hr]). exists (mkposreal _ P). intros h H0 Hh. cbn in Hh.
  rewrite <- !E. { apply Hd; [exact H0|]. eapply Rlt_le_trans; [exact Hh|apply Rmin_l]. }
  - rewrite Rminus_diag_eq, Rabs_R0 by reflexivity. exact Hr.
  - replace (t + h - t) with h by ring. eapply Rlt_le_trans; [exact Hh|apply Rmin_r].
Qed.
Lemma near_by f t l r : derivable_pt_lim f t l -> 0 < r -> exists q, 0 < q /\ forall s, Rabs (s - t) < q -> Rabs (f s - f t) < r.
Proof.
  intros D Hr. assert (C : continuity_pt f t) by (apply derivable_continuous_pt; exists l; exact D).
  destruct (C r Hr) as (q & Hq & H). exists q. split; [exact Hq|]. intros s Hs. destruct (Req_dec s t) as [->|N]; [rewrite Rminus_diag_eq, Rabs_R0 by reflexivity; exact Hr|].
  apply H. split; [|exact Hs]. split; [exact I|]. intros E. apply N. now symmetry.
Qed.
Lemma utm_in lat lon z : -90 < lat < 90 -> in_zone lat lon z -> let l := deg2rad lat in let d := deg2rad (lon - central_meridian z) in
  easting lat lon = gx l d /\ northing lat lon = gy l d /\ scale lat lon = gk l d.
Proof.
  intros L Z l d. unfold easting, northing, scale. destruct (utm_is lat lon 0) as (u & U & _ & _ & G). rewrite U, (zone_is _ _ _ Z), grid_poly in * by (apply Rgt_not_eq, cos_lat_pos; exact L).
  injection G as -> -> ->. repeat split.
Qed.
Lemma ground_is lat lon : let l := deg2rad lat in ground lat lon = V (ra l * cos (deg2rad lon)) (ra l * sin (deg2rad lon)) (normal_radius l * (1 - e2) * sin l).
Proof. unfold ground. rewrite lla2ecef_is. cbn [vx vy vz]. unfold ra, e2. f_equal; ring. Qed.

Section Curve.
Variables (lat lon : R -> R) (t lat' lon' : R).
Hypothesis Hlat : derivable_pt_lim lat t lat'. Hypothesis Hlon : derivable_pt_lim lon t lon'.
Let l := deg2rad (lat t). Let A := ra l * deg2rad lon'. Let B := meridian_radius l * deg2rad lat'.
(** the velocity over ground: [A] metres to the east and [B] to the north *)
Definition over_ground (la lo A B : R) : vec := vadd (vscale A (V (- sin lo) (cos lo) 0)) (vscale B (V (- sin la * cos lo) (- sin la * sin lo) (cos la))).
Lemma d_rad f f' : derivable_pt_lim f t f' -> derivable_pt_lim (fun s => deg2rad (f s)) t (deg2rad f').
Proof. intros H. unfold deg2rad. eapply c_eq; [diff|]. unfold Rdiv. ring. Qed.
Lemma ground_velocity : velocity (fun s => ground (lat s) (lon s)) t (over_ground l (deg2rad (lon t)) A B).
Proof.
  pose proof (d_rad _ _ Hlat) as Dl. pose proof (d_rad _ _ Hlon) as Do. pose proof (d_normal _ _ _ Dl) as Dn. rewrite radius_slope in Dn. fold l in Dn. pose proof (cos_sq l) as CS.
  assert (Dr : derivable_pt_lim (fun s => ra (deg2rad (lat s))) t (- (sin l * B))).
  { unfold ra. eapply c_eq; [apply c_mult; [exact Dn|eapply c_cos; exact Dl]|]. cbv beta. fold l. unfold B. rewrite (radius_ratio l).
    transitivity (meridian_radius l * deg2rad lat' * sin l * (ep2 * cos l ^ 2 - (1 + ep2 * (1 - sin l ^ 2)))); [ring|]. rewrite CS. ring. }
  assert (Dz : derivable_pt_lim (fun s => normal_radius (deg2rad (lat s)) * (1 - e2) * sin (deg2rad (lat s))) t (B * cos l)).
  { eapply c_eq; [apply c_mult; [apply c_mult; [exact Dn|apply c_const]|eapply c_sin; exact Dl]|]. cbv beta. fold l. unfold B. rewrite (radius_ratio l). pose proof e2_bounds.
    transitivity (meridian_radius l * deg2rad lat' * cos l * ((1 - e2) * (ep2 * sin l ^ 2 + (1 + ep2 * (1 - sin l ^ 2))))); [ring|]. unfold ep2. field. lra. }
  assert (V : forall (c : vec -> R) g v, (forall s, c (ground (lat s) (lon s)) = g s) -> derivable_pt_lim g t v -> derivable_pt_lim (fun s => c (ground (lat s) (lon s))) t v).
  { intros c g v E D. eapply (local_ext g); [apply Rlt_0_1| |exact D]. intros s _. symmetry. apply E. }
  unfold velocity. split; [|split].
  - eapply V; [intros s; rewrite ground_is; cbn [vx]; reflexivity|]. eapply c_eq; [apply c_mult; [exact Dr|eapply c_cos; exact Do]|]. cbv beta. fold l. unfold over_ground, A. cbn [vx vy vz vadd vscale]. ring.
  - eapply V; [intros s; rewrite ground_is; cbn [vy]; reflexivity|]. eapply c_eq; [apply c_mult; [exact Dr|eapply c_sin; exact Do]|]. cbv beta. fold l. unfold over_ground, A. cbn [vx vy vz vadd vscale]. ring.
  - eapply V; [intros s; rewrite ground_is; cbn [vz]; reflexivity|]. eapply c_eq; [exact Dz|]. unfold over_ground. cbn [vx vy vz vadd vscale]. ring.
Qed.
Variable z : Z.
Hypothesis Hl : -90 < lat t < 90. Hypothesis Hz : inside (lat t) (lon t) z.
Let d := deg2rad (lon t - central_meridian z).
Lemma map_velocity : derivable_pt_lim (fun s => easting (lat s) (lon s)) t (k0 * (xs l d * A + (- yl l d + ex l d) * B)) /\
  derivable_pt_lim (fun s => northing (lat s) (lon s)) t (k0 * (yl l d * A + (xs l d + ey l d) * B)) /\ scale (lat t) (lon t) = k0 * ks l d.
Proof.
  destruct Hz as (r & Hr & Z). set (r0 := Rmin r (Rmin (90 - lat t) (90 + lat t))). assert (R0 : 0 < r0) by (unfold r0; repeat apply Rmin_pos; lra).
  assert (M : r0 <= r /\ r0 <= 90 - lat t /\ r0 <= 90 + lat t). { unfold r0. repeat split; [apply Rmin_l| |]; (eapply Rle_trans; [apply Rmin_r|]); [apply Rmin_l|apply Rmin_r]. }
  destruct (near_by _ _ _ r0 Hlat R0) as (q1 & Q1 & N1). destruct (near_by _ _ _ r0 Hlon R0) as (q2 & Q2 & N2).
  assert (Q : 0 < Rmin q1 q2) by (apply Rmin_pos; assumption).
  assert (G : forall s, Rabs (s - t) < Rmin q1 q2 -> -90 < lat s < 90 /\ in_zone (lat s) (lon s) z).
  { intros s Hs. assert (S1 : Rabs (s - t) < q1) by (eapply Rlt_le_trans; [exact Hs|apply Rmin_l]). assert (S2 : Rabs (s - t) < q2) by (eapply Rlt_le_trans; [exact Hs|apply Rmin_r]).
    specialize (N1 s S1). specialize (N2 s S2). split; [apply Rabs_def2 in N1; lra|]. apply Z; lra. }
  assert (Dd : derivable_pt_lim (fun s => deg2rad (lon s - central_meridian z)) t (deg2rad lon')).
  { apply d_rad. eapply c_eq; [apply c_minus; [exact Hlon|apply c_const]|ring]. }
  pose proof (d_rad _ _ Hlat) as Dl.
  split; [|split].
  - eapply (local_ext (fun s => gx (deg2rad (lat s)) (deg2rad (lon s - central_meridian z)))); [exact Q| |].
    + intros s Hs. destruct (G s Hs) as [G1 G2]. symmetry. apply (utm_in _ _ _ G1 G2).
    + eapply c_eq; [apply d_gx; [exact Dl|exact Dd]|]. reflexivity.
  - eapply (local_ext (fun s => gy (deg2rad (lat s)) (deg2rad (lon s - central_meridian z)))); [exact Q| |].
    + intros s Hs. destruct (G s Hs) as [G1 G2]. symmetry. apply (utm_in _ _ _ G1 G2).
    + eapply c_eq; [apply d_gy; [exact Dl|exact Dd]|]. cbv beta. fold l. fold d. fold (ms l). unfold ey. fold A. fold B. ring.
  - apply utm_in; [exact Hl|]. apply Z; rewrite Rminus_diag_eq, Rabs_R0 by reflexivity; exact Hr.
Qed.
End Curve.

Lemma over_ground_sq la lo A B : vdot (over_ground la lo A B) (over_ground la lo A B) = A ^ 2 + B ^ 2.
Proof.
  unfold over_ground, vdot, vadd, vscale. cbn [vx vy vz]. pose proof (sc la) as S1. pose proof (sc lo) as S2. set (s := sin la) in *. set (c := cos la) in *. set (x := sin lo) in *. set (y := cos lo) in *. clearbody s c x y.
  transitivity (A ^ 2 * (x * x + y * y) + B ^ 2 * (s * s * (x * x + y * y) + c * c)); [ring|]. rewrite S2, !Rmult_1_r, S1. ring.
Qed.
Lemma over_ground_norm la lo A B : norm (over_ground la lo A B) = sqrt (A ^ 2 + B ^ 2).
Proof. unfold norm. now rewrite over_ground_sq. Qed.

Lemma off_6 lat lon z : in_zone lat lon z -> Rabs (lon - central_meridian z) <= 6.
Proof. unfold in_zone, exceptional, central_meridian. intros [H|(_ & _ & H)]; apply Rabs_le; [|lra]. repeat match goal with H : _ \/ _ |- _ => destruct H | H : _ /\ _ |- _ => destruct H end; subst z; lra. Qed.
Lemma inside_in lat lon z : inside lat lon z -> in_zone lat lon z.
Proof. intros (r & Hr & Z). apply Z; rewrite Rminus_diag_eq, Rabs_R0 by reflexivity; exact Hr. Qed.
Lemma rad_le x b : Rabs x <= b -> Rabs (deg2rad x) <= b * (31416 / 10000) / 180.
Proof. intros H. pose proof pi_up. unfold deg2rad. replace (x * PI / 180) with (x * (PI / 180)) by field. rewrite Rabs_mult, (Rabs_pos_eq (PI / 180)) by lra. pose proof (Rabs_pos x). nra. Qed.

(** what the bounds give at a point, for errors up to [eps] *)
Definition tight (eps l d : R) : Prop := 99 / 100 <= xs l d /\ 99 / 100 <= rho l d /\ Rabs (ex l d) + Rabs (ey l d) + Rabs (ks l d - rho l d) <= eps.
Lemma tight_6 lat lon z : in_zone lat lon z -> tight (25 / 100000000) (deg2rad lat) (deg2rad (lon - central_meridian z)).
Proof. intros H. apply off_6, rad_le in H. destruct (near_6 (deg2rad lat) _ ltac:(eapply Rle_trans; [exact H|lra])) as (A & B & C & D & F). split; [exact A|]. split; [exact B|]. lra. Qed.
Lemma tight_3 lat lon z : Rabs (lon - central_meridian z) <= 3 -> tight (5 / 1000000000) (deg2rad lat) (deg2rad (lon - central_meridian z)).
Proof. intros H. apply rad_le in H. destruct (near_3 (deg2rad lat) _ ltac:(eapply Rle_trans; [exact H|lra])) as (A & B & C & D & F). split; [exact A|]. split; [exact B|]. lra. Qed.

(** *** C83 *)
Lemma angle_of x y : 0 < x -> exists gamma, - (PI / 2) < gamma < PI / 2 /\ x = sqrt (x ^ 2 + y ^ 2) * cos gamma /\ y = sqrt (x ^ 2 + y ^ 2) * sin gamma.
Proof.
  intros H. exists (atan (y / x)). split; [destruct (atan_bound (y / x)); lra|]. rewrite cos_atan, sin_atan. pose proof (pow2_ge_0 y). pose proof (pow_lt x 2 H).
  assert (E : sqrt (1 + (y / x)²) = sqrt (x ^ 2 + y ^ 2) / x).
  { rewrite <- (sqrt_pow2 x) at 3 by lra. rewrite <- sqrt_div by lra. f_equal. unfold Rsqr. field. lra. }
  assert (S : 0 < sqrt (x ^ 2 + y ^ 2)) by (apply sqrt_lt_R0; lra). rewrite E. split; field; split; lra.
Qed.
Lemma conformal_tight eps lat lon z : -90 < lat < 90 -> inside lat lon z -> tight eps (deg2rad lat) (deg2rad (lon - central_meridian z)) -> conformal_at eps lat lon.
Proof.
  intros L Z T. pose proof pi_up as PI3. set (l := deg2rad lat) in *. set (d := deg2rad (lon - central_meridian z)) in *.
  pose proof (normal_pos l) as NP. pose proof (meridian_pos l) as MP. pose proof (cos_lat_pos lat L) as CP. fold l in CP. assert (DP : 0 < deg2rad 1) by (unfold deg2rad; lra).
  assert (AP : 0 < ra l * deg2rad 1) by (apply Rmult_lt_0_compat; [apply Rmult_lt_0_compat; assumption|exact DP]).
  assert (BP : 0 < meridian_radius l * deg2rad 1) by (apply Rmult_lt_0_compat; assumption).
  assert (Z0 : deg2rad 0 = 0) by (unfold deg2rad; field).
  pose proof (ground_velocity (fun _ => lat) (fun s => s) lon 0 1 (c_const _ _) (derivable_pt_lim_id _)) as Ve. cbv beta in Ve. fold l in Ve.
  pose proof (ground_velocity (fun s => s) (fun _ => lon) lat 1 0 (derivable_pt_lim_id _) (c_const _ _)) as Vn. cbv beta in Vn. fold l in Vn.
  destruct (map_velocity (fun _ => lat) (fun s => s) lon 0 1 (c_const _ _) (derivable_pt_lim_id _) z L Z) as (Xe & Ye & K). cbv beta in Xe, Ye, K. fold l d in Xe, Ye, K.
  destruct (map_velocity (fun s => s) (fun _ => lon) lat 1 0 (derivable_pt_lim_id _) (c_const _ _) z L Z) as (Xn & Yn & _). cbv beta in Xn, Yn. fold l d in Xn, Yn.
  rewrite Z0, Rmult_0_r in Ve, Vn, Xe, Ye, Xn, Yn. set (a := ra l * deg2rad 1) in *. set (b := meridian_radius l * deg2rad 1) in *.
  destruct T as (TX & TR & TE). destruct (angle_of (xs l d) (yl l d) ltac:(lra)) as (g & G & GX & GY). fold (rho l d) in GX, GY.
  exists (over_ground l (deg2rad lon) a 0), (over_ground l (deg2rad lon) 0 b). do 4 eexists. exists g. rewrite !over_ground_norm, K.
  replace (a ^ 2 + 0 ^ 2) with (a ^ 2) by ring. replace (0 ^ 2 + b ^ 2) with (b ^ 2) by ring. rewrite !sqrt_pow2 by lra.
  split; [exact Ve|]. split; [exact Vn|]. split; [exact AP|]. split; [exact BP|].
  split; [unfold over_ground, vdot, vadd, vscale; cbn [vx vy vz]; ring|].
  split; [exact Xe|]. split; [exact Ye|]. split; [exact Xn|]. split; [exact Yn|]. split; [exact G|].
  set (c := cos g) in *. set (s := sin g) in *. assert (HC : Rabs c <= 1) by (apply Rabs_le; pose proof (COS_bound g); unfold c; lra). assert (HS : Rabs s <= 1) by (apply Rabs_le; pose proof (SIN_bound g); unfold s; lra).
  set (k := ks l d) in *. set (r := rho l d) in *. set (e1 := ex l d) in *. set (e := ey l d) in *. rewrite GX, GY. clearbody k r e1 e c s a b. clear - AP BP TE HC HS.
  assert (P : forall m e w, 0 < m -> Rabs e + Rabs w <= eps -> Rabs (k0 * m * (e + w)) <= eps * m).
  { intros m e' w Hm H. rewrite !Rabs_mult, (Rabs_pos_eq k0), (Rabs_pos_eq m) by (unfold k0; lra). pose proof (Rabs_triang e' w). pose proof (Rabs_pos (e' + w)).
    replace (eps * m) with (m * eps) by ring. replace (k0 * m * Rabs (e' + w)) with (m * (k0 * Rabs (e' + w))) by ring. apply Rmult_le_compat_l; [lra|]. unfold k0. lra. }
  assert (PC : Rabs ((r - k) * c) <= Rabs (k - r)). { rewrite Rabs_mult, Rabs_minus_sym. pose proof (Rabs_pos (k - r)). nra. }
  assert (PS : Rabs ((r - k) * s) <= Rabs (k - r)). { rewrite Rabs_mult, Rabs_minus_sym. pose proof (Rabs_pos (k - r)). nra. }
  assert (PS' : Rabs ((k - r) * s) <= Rabs (k - r)). { rewrite Rabs_mult. pose proof (Rabs_pos (k - r)). nra. }
  pose proof (Rabs_pos e). pose proof (Rabs_pos e1). pose proof Rabs_R0 as Z0.
  repeat split.
  - replace (k0 * (r * c * a + (- (r * s) + e1) * 0) - k0 * k * a * c) with (k0 * a * (0 + (r - k) * c)) by ring. apply P; [exact AP|]. rewrite Z0. lra.
  - replace (k0 * (r * s * a + (r * c + e) * 0) - k0 * k * a * s) with (k0 * a * (0 + (r - k) * s)) by ring. apply P; [exact AP|]. rewrite Z0. lra.
  - replace (k0 * (r * c * 0 + (- (r * s) + e1) * b) + k0 * k * b * s) with (k0 * b * (e1 + (k - r) * s)) by ring. apply P; [exact BP|]. lra.
  - replace (k0 * (r * s * 0 + (r * c + e) * b) - k0 * k * b * c) with (k0 * b * (e + (r - k) * c)) by ring. apply P; [exact BP|]. lra.
Qed.
(** within three degrees of the central meridian: five parts in a thousand million; in the whole of the widened zones of Norway and Svalbard: a quarter part in a million *)
Theorem C83_conformal lat lon z : -90 < lat < 90 -> inside lat lon z -> Rabs (lon - central_meridian z) <= 3 -> conformal_at (5 / 1000000000) lat lon.
Proof. intros L Z H. apply (conformal_tight _ lat lon z L Z). now apply tight_3. Qed.
Theorem C83_conformal_wide lat lon z : -90 < lat < 90 -> inside lat lon z -> conformal_at (25 / 100000000) lat lon.
Proof. intros L Z. apply (conformal_tight _ lat lon z L Z). apply tight_6, inside_in, Z. Qed.

Lemma plane_norm x y e f : Rabs (sqrt ((x + e) ^ 2 + (y + f) ^ 2) - sqrt (x ^ 2 + y ^ 2)) <= Rabs e + Rabs f.
Proof.
  assert (T : forall x y e f, sqrt ((x + e) ^ 2 + (y + f) ^ 2) <= sqrt (x ^ 2 + y ^ 2) + (Rabs e + Rabs f)).
  { clear. intros x y e f. pose proof (Rabs_pos e) as E. pose proof (Rabs_pos f) as F. pose proof (sqrt_pos (x ^ 2 + y ^ 2)) as N. set (n := sqrt (x ^ 2 + y ^ 2)) in *.
    assert (NN : n * n = x ^ 2 + y ^ 2) by (apply sqrt_sqrt; pose proof (pow2_ge_0 x); pose proof (pow2_ge_0 y); lra).
    assert (X : Rabs x <= n) by (apply Rsqr_incr_0_var; [unfold Rsqr; rewrite NN, <- Rabs_mult, Rabs_pos_eq by nra; nra|exact N]).
    assert (Y : Rabs y <= n) by (apply Rsqr_incr_0_var; [unfold Rsqr; rewrite NN, <- Rabs_mult, Rabs_pos_eq by nra; nra|exact N]).
    assert (XE : x * e <= n * Rabs e). { eapply Rle_trans; [apply Rle_abs|]. rewrite Rabs_mult. apply Rmult_le_compat_r; assumption. }
    assert (YF : y * f <= n * Rabs f). { eapply Rle_trans; [apply Rle_abs|]. rewrite Rabs_mult. apply Rmult_le_compat_r; assumption. }
    assert (EE : e * e = Rabs e * Rabs e) by (rewrite <- Rabs_mult, Rabs_pos_eq by nra; reflexivity). assert (FF : f * f = Rabs f * Rabs f) by (rewrite <- Rabs_mult, Rabs_pos_eq by nra; reflexivity).
    rewrite <- (sqrt_pow2 (n + (Rabs e + Rabs f))) by lra. apply sqrt_le_1_alt. nra. }
  apply Rabs_le. split; [|specialize (T x y e f); lra]. specialize (T (x + e) (y + f) (- e) (- f)). rewrite !Rabs_Ropp in T. replace (x + e + - e) with x in T by ring. replace (y + f + - f) with y in T by ring. lra.
Qed.
(** whoever moves on the ground moves on the map with the returned scale: the speeds differ by that factor *)
Definition scaled (eps : R) (lat lon : R -> R) (t : R) : Prop := exists v x' y', velocity (fun s => ground (lat s) (lon s)) t v /\
  derivable_pt_lim (fun s => easting (lat s) (lon s)) t x' /\ derivable_pt_lim (fun s => northing (lat s) (lon s)) t y' /\
  Rabs (sqrt (x' ^ 2 + y' ^ 2) - scale (lat t) (lon t) * norm v) <= eps * norm v.
Lemma scaled_tight eps lat lon t lat' lon' z : derivable_pt_lim lat t lat' -> derivable_pt_lim lon t lon' -> -90 < lat t < 90 -> inside (lat t) (lon t) z ->
  tight eps (deg2rad (lat t)) (deg2rad (lon t - central_meridian z)) -> scaled eps lat lon t.
Proof.
  intros Da Do L Z (TX & TR & TE). pose proof (ground_velocity lat lon t lat' lon' Da Do) as Vg. destruct (map_velocity lat lon t lat' lon' Da Do z L Z) as (X & Y & K).
  set (l := deg2rad (lat t)) in *. set (d := deg2rad (lon t - central_meridian z)) in *. set (a := ra l * deg2rad lon') in *. set (b := meridian_radius l * deg2rad lat') in *.
  eexists. do 2 eexists. split; [exact Vg|]. split; [exact X|]. split; [exact Y|]. rewrite over_ground_norm, K. clear X Y K Vg Da Do Z.
  assert (RR : rho l d * rho l d = xs l d ^ 2 + yl l d ^ 2) by (unfold rho; apply sqrt_sqrt; pose proof (pow2_ge_0 (xs l d)); pose proof (pow2_ge_0 (yl l d)); lra).
  set (x := xs l d) in *. set (y := yl l d) in *. set (k := ks l d) in *. set (r := rho l d) in *. set (e1 := ex l d) in *. set (e := ey l d) in *. clearbody x y k r e1 e a b. clear l d.
  pose proof (pow2_ge_0 a) as A2. pose proof (pow2_ge_0 b) as B2. set (n := sqrt (a ^ 2 + b ^ 2)). assert (N0 : 0 <= n) by apply sqrt_pos.
  assert (NN : n * n = a ^ 2 + b ^ 2) by (apply sqrt_sqrt; lra).
  assert (BN : Rabs b <= n) by (apply Rsqr_incr_0_var; [unfold Rsqr; rewrite NN, <- Rabs_mult, Rabs_pos_eq by nra; nra|exact N0]).
  pose proof (plane_norm (k0 * (x * a - y * b)) (k0 * (y * a + x * b)) (k0 * (e1 * b)) (k0 * (e * b))) as P.
  assert (M : sqrt ((k0 * (x * a - y * b)) ^ 2 + (k0 * (y * a + x * b)) ^ 2) = k0 * r * n).
  { rewrite <- (sqrt_pow2 (k0 * r * n)). 2:{ unfold k0. apply Rmult_le_pos; [|exact N0]. lra. } f_equal. transitivity (k0 * k0 * (x ^ 2 + y ^ 2) * (a ^ 2 + b ^ 2)); [ring|]. rewrite <- RR, <- NN. ring. }
  rewrite M in P. replace (k0 * (x * a - y * b) + k0 * (e1 * b)) with (k0 * (x * a + (- y + e1) * b)) in P by ring. replace (k0 * (y * a + x * b) + k0 * (e * b)) with (k0 * (y * a + (x + e) * b)) in P by ring.
  clearbody n. match goal with |- Rabs (?q - _) <= _ => set (w := q) in * end. clearbody w. rewrite !Rabs_mult, (Rabs_pos_eq k0) in P by (unfold k0; lra).
  replace (w - k0 * k * n) with (w - k0 * r * n + k0 * (r - k) * n) by ring. eapply Rle_trans; [apply Rabs_triang|]. rewrite !Rabs_mult, (Rabs_pos_eq k0), (Rabs_pos_eq n), (Rabs_minus_sym r k) by (unfold k0; lra).
  pose proof (Rabs_pos e). pose proof (Rabs_pos e1). pose proof (Rabs_pos (k - r)). pose proof (Rabs_pos b).
  assert (E1 : Rabs e1 * Rabs b <= Rabs e1 * n) by (apply Rmult_le_compat_l; assumption). assert (E2 : Rabs e * Rabs b <= Rabs e * n) by (apply Rmult_le_compat_l; assumption).
  apply Rle_trans with ((Rabs e1 + Rabs e + Rabs (k - r)) * n); [|apply Rmult_le_compat_r; assumption].
  assert (0 <= Rabs e1 * n) by (apply Rmult_le_pos; assumption). assert (0 <= Rabs e * n) by (apply Rmult_le_pos; assumption). assert (0 <= Rabs (k - r) * n) by (apply Rmult_le_pos; assumption).
  assert (0 <= Rabs e1 * Rabs b) by (apply Rmult_le_pos; assumption). assert (0 <= Rabs e * Rabs b) by (apply Rmult_le_pos; assumption). unfold k0 in *. nra.
Qed.
Theorem C83_speed lat lon t lat' lon' z : derivable_pt_lim lat t lat' -> derivable_pt_lim lon t lon' -> -90 < lat t < 90 -> inside (lat t) (lon t) z ->
  Rabs (lon t - central_meridian z) <= 3 -> scaled (5 / 1000000000) lat lon t.
Proof. intros A B L Z H. apply (scaled_tight _ lat lon t lat' lon' z A B L Z). now apply tight_3. Qed.
Theorem C83_speed_wide lat lon t lat' lon' z : derivable_pt_lim lat t lat' -> derivable_pt_lim lon t lon' -> -90 < lat t < 90 -> inside (lat t) (lon t) z -> scaled (25 / 100000000) lat lon t.
Proof. intros A B L Z. apply (scaled_tight _ lat lon t lat' lon' z A B L Z). apply tight_6, inside_in, Z. Qed.

(** on the central meridian the northing is 0.9996 times the length of the meridian arc, up to six parts in ten thousand million (6 mm from the equator to the pole);
    [m] is any function that grows with the speed of the ground point, the latitude being the time *)
Lemma velocity_unique P t v w : velocity P t v -> velocity P t w -> v = w.
Proof. destruct v as [a b c], w as [a' b' c']. intros (A & B & C) (A' & B' & C'). cbn [vx vy vz] in *. f_equal; eapply uniqueness_limite; eassumption. Qed.
Theorem C83_meridian lat1 lat2 z m : -90 < lat1 < lat2 -> lat2 < 90 -> (forall t, lat1 <= t <= lat2 -> in_zone t (central_meridian z) z) ->
  (forall t, lat1 <= t <= lat2 -> exists v, velocity (fun s => ground s (central_meridian z)) t v /\ derivable_pt_lim m t (norm v)) ->
  Rabs (northing lat2 (central_meridian z) - northing lat1 (central_meridian z) - 9996 / 10000 * (m lat2 - m lat1)) <= 6 / 10000000000 * (m lat2 - m lat1).
Proof.
  intros L1 L2 Z M. set (lon := central_meridian z) in *. set (n := fun t => meridian_radius (deg2rad t) * deg2rad 1).
  assert (D1 : 0 < deg2rad 1) by (pose proof pi_up; unfold deg2rad; lra). assert (Z0 : deg2rad 0 = 0) by (unfold deg2rad; field).
  assert (NP : forall t, 0 < n t) by (intros t; apply Rmult_lt_0_compat; [apply meridian_pos|exact D1]).
  assert (Dm : forall t, lat1 <= t <= lat2 -> derivable_pt_lim m t (n t)).
  { intros t Ht. destruct (M t Ht) as (v & V & D). pose proof (ground_velocity (fun s => s) (fun _ => lon) t 1 0 (derivable_pt_lim_id _) (c_const _ _)) as W. cbv beta in W. rewrite (velocity_unique _ _ _ _ V W) in D.
    rewrite over_ground_norm, Z0, Rmult_0_r in D. fold (n t) in D. replace (0 ^ 2 + n t ^ 2) with (n t ^ 2) in D by ring. rewrite sqrt_pow2 in D by (pose proof (NP t); lra). exact D. }
  set (Y := fun t => gy (deg2rad t) 0).
  assert (DY : forall t, derivable_pt_lim Y t (k0 * (ms (deg2rad t) * n t))).
  { intros t. unfold Y. eapply c_eq; [apply (d_gy deg2rad (fun _ => 0) t (deg2rad 1) 0); [apply (d_rad t (fun s => s) 1), derivable_pt_lim_id|apply c_const]|]. cbv beta.
    replace (yp ep2 (sin (deg2rad t) ^ 2) (0 ^ 2)) with 0 by (unfold yp, gg, ggS; field). fold (ms (deg2rad t)). unfold n. ring. }
  assert (E : forall t, lat1 <= t <= lat2 -> northing t lon = Y t).
  { intros t Ht. destruct (utm_in t lon z ltac:(lra) (Z t Ht)) as (_ & E & _). rewrite E. unfold Y. f_equal. unfold lon. rewrite Rminus_diag_eq by reflexivity. exact Z0. }
  rewrite !E by lra.
  assert (G : forall k, (forall t, k * n t <= k0 * (ms (deg2rad t) * n t)) -> k * (m lat2 - m lat1) <= Y lat2 - Y lat1).
  { intros k K. destruct (MVT_cor2 (fun t => Y t - k * m t) (fun t => k0 * (ms (deg2rad t) * n t) - (0 * m t + k * n t)) lat1 lat2 ltac:(lra)) as (c & Hc & _).
    { intros t Ht. apply c_minus; [apply DY|]. apply c_mult; [apply c_const|apply Dm; exact Ht]. }
    specialize (K c). nra. }
  assert (G' : forall k, (forall t, k0 * (ms (deg2rad t) * n t) <= k * n t) -> Y lat2 - Y lat1 <= k * (m lat2 - m lat1)).
  { intros k K. destruct (MVT_cor2 (fun t => Y t - k * m t) (fun t => k0 * (ms (deg2rad t) * n t) - (0 * m t + k * n t)) lat1 lat2 ltac:(lra)) as (c & Hc & _).
    { intros t Ht. apply c_minus; [apply DY|]. apply c_mult; [apply c_const|apply Dm; exact Ht]. }
    specialize (K c). nra. }
  assert (B : forall t, 1 - 6 / 10000000000 <= ms (deg2rad t) <= 1 + 6 / 10000000000) by (intros t; pose proof (ab_le _ _ (ms_near (deg2rad t))); lra).
  specialize (G (9996 / 10000 - 6 / 10000000000)). specialize (G' (9996 / 10000 + 6 / 10000000000)). apply Rabs_le.
  assert (A1 := G ltac:(intros t; pose proof (NP t); pose proof (B t); rewrite <- Rmult_assoc; apply Rmult_le_compat_r; [lra|unfold k0; lra])).
  assert (A2 := G' ltac:(intros t; pose proof (NP t); pose proof (B t); rewrite <- Rmult_assoc; apply Rmult_le_compat_r; [lra|unfold k0; lra])). lra.
Qed.
(** on the equator the northing is 0 *)
Theorem C83_equator lon z : in_zone 0 lon z -> northing 0 lon = 0.
Proof.
  intros H. destruct (utm_in 0 lon z ltac:(lra) H) as (_ & E & _). rewrite E. replace (deg2rad 0) with 0 by (unfold deg2rad; field). unfold gy, arc.
  replace (2 * 0) with 0 by ring. replace (4 * 0) with 0 by ring. replace (6 * 0) with 0 by ring. rewrite sin_0. ring.
Qed.

(** the hypotheses hold: a point in Bavaria well inside zone 32, one in the part of zone 32 that Norway adds, and an arc length for the meridian of zone 33 *)
Example C83_case : inside 48 11 32 /\ Rabs (11 - central_meridian 32) <= 3 /\ inside 60 4 32 /\ ~ Rabs (4 - central_meridian 32) <= 3 /\
  (forall t, -80 <= t <= 70 -> in_zone t (central_meridian 33) 33) /\
  exists m, forall t, -80 <= t <= 70 -> exists v, velocity (fun s => ground s (central_meridian 33)) t v /\ derivable_pt_lim m t (norm v).
Proof.
  unfold central_meridian. split; [|split; [|split; [|split; [|split]]]].
  - exists (1 / 2). split; [lra|]. intros a b A B. apply Rabs_def2 in A. apply Rabs_def2 in B. right. unfold exceptional, central_meridian. split; [lia|]. split; [intros z'; lra|lra].
  - apply Rabs_le. lra.
  - exists (1 / 2). split; [lra|]. intros a b A B. apply Rabs_def2 in A. apply Rabs_def2 in B. left. left. repeat split; lra.
  - rewrite Rabs_left; lra.
  - intros t Ht. right. unfold exceptional, central_meridian. split; [lia|]. split; [intros z'; lra|lra].
  - set (lon := 6 * 33 - 183). set (n := fun t => meridian_radius (deg2rad t) * deg2rad 1).
    assert (D1 : 0 < deg2rad 1) by (pose proof pi_up; unfold deg2rad; lra). assert (Z0 : deg2rad 0 = 0) by (unfold deg2rad; field).
    assert (C : forall t, -80 <= t <= 70 -> continuity_pt n t).
    { intros t _. assert (Dl : derivable_pt_lim (fun s => deg2rad s) t (deg2rad 1)) by (apply (d_rad t (fun s => s) 1), derivable_pt_lim_id).
      assert (Q := radicand (deg2rad t)). fold e2 in Q. pose proof (d_normal _ _ _ Dl) as Dn. cbv beta in Dn.
      assert (Dr : exists r, derivable_pt_lim (fun s => 1 - e2 * sin (deg2rad s) ^ 2) t r) by (eexists; diff). destruct Dr as (r & Dr).
      assert (Dn' : exists r', derivable_pt_lim (fun s => normal_radius (deg2rad s) * (1 - e2)) t r') by (eexists; eapply c_mult; [exact Dn|apply c_const]). destruct Dn' as (r' & Dn').
      apply derivable_continuous_pt. eexists. unfold n, meridian_radius. eapply c_mult; [|apply c_const]. exact (derivable_pt_lim_div _ _ t _ _ Dn' Dr ltac:(lra)). }
    assert (H : -80 <= 70) by lra. exists (primitive H (FTC_P1 H C)). intros t Ht. exists (over_ground (deg2rad t) (deg2rad lon) 0 (n t)). split.
    + pose proof (ground_velocity (fun s => s) (fun _ => lon) t 1 0 (derivable_pt_lim_id _) (c_const _ _)) as W. cbv beta in W. rewrite Z0, Rmult_0_r in W. exact W.
    + rewrite over_ground_norm. replace (0 ^ 2 + n t ^ 2) with (n t ^ 2) by ring. rewrite sqrt_pow2 by (left; apply Rmult_lt_0_compat; [apply meridian_pos|exact D1]). apply RiemannInt_P28. exact Ht.
Qed.

(** *** C84 *)
(** isometric latitude *)
Definition psi (s : R) : R := / 2 * (ln (1 + sin s) - ln (1 - sin s)) - wgs84_e / 2 * (ln (1 + wgs84_e * sin s) - ln (1 - wgs84_e * sin s)).
Lemma c_ln f t a : 0 < f t -> derivable_pt_lim f t a -> derivable_pt_lim (fun s => ln (f s)) t (/ f t * a).
Proof. intros P H. exact (derivable_pt_lim_comp f ln t a _ H (derivable_pt_lim_ln (f t) P)). Qed.
Lemma d_psi t : 0 < cos t -> derivable_pt_lim psi t (meridian_radius t / ra t).
Proof.
  intros C. pose proof (sc t) as S. pose proof (normal_pos t) as N. pose proof (radicand t) as Q. assert (E2 : wgs84_e ^ 2 = e2) by reflexivity. rewrite E2 in Q. pose proof e2_bounds as EB. rewrite <- E2 in EB, Q.
  assert (SB : -1 < sin t < 1) by nra. assert (EB' : -1 < wgs84_e * sin t < 1) by nra.
  assert (Ds : derivable_pt_lim (fun s => sin s) t (cos t)) by apply derivable_pt_lim_sin.
  unfold psi. eapply c_eq.
  { apply c_minus; (apply c_mult; [apply c_const|]); apply c_minus; (eapply c_ln; [lra|]); [apply c_plus|apply c_minus|apply c_plus|apply c_minus]; try apply c_const; try exact Ds; (apply c_mult; [apply c_const|exact Ds]). }
  cbv beta. unfold meridian_radius, ra. rewrite <- E2. assert (CC : cos t * cos t = (1 + sin t) * (1 - sin t)) by lra.
  transitivity (cos t / ((1 + sin t) * (1 - sin t)) - wgs84_e ^ 2 * cos t / ((1 + wgs84_e * sin t) * (1 - wgs84_e * sin t))); [field; repeat split; lra|].
  rewrite <- CC. replace ((1 + wgs84_e * sin t) * (1 - wgs84_e * sin t)) with (1 - wgs84_e ^ 2 * sin t ^ 2) by ring.
  transitivity ((1 - wgs84_e ^ 2 * (sin t * sin t + cos t * cos t)) / (cos t * (1 - wgs84_e ^ 2 * sin t ^ 2))); [field; split; lra|]. rewrite S. field. repeat split; lra.
Qed.
Lemma cos_in t : - (PI / 2) < t < PI / 2 -> 0 < cos t.
Proof. intros H. apply cos_gt_0; lra. Qed.
Lemma psi_up s t : - (PI / 2) < s < t -> t < PI / 2 -> psi s < psi t.
Proof.
  intros H H'. destruct (MVT_cor2 psi (fun t => meridian_radius t / ra t) s t ltac:(lra)) as (c & E & Hc); [intros c Hc; apply d_psi, cos_in; lra|].
  assert (0 < meridian_radius c / ra c) by (apply Rdiv_lt_0_compat; [apply meridian_pos|apply Rmult_lt_0_compat; [apply normal_pos|apply cos_in; lra]]). nra.
Qed.
Lemma east_up l d1 d2 : 0 < cos l -> Rabs d1 <= 10472 / 100000 -> Rabs d2 <= 10472 / 100000 -> d1 < d2 -> gx l d1 < gx l d2.
Proof.
  intros C H1 H2 L. destruct (MVT_cor2 (gx l) (fun d => k0 * (xs l d * ra l)) d1 d2 L) as (c & E & Hc).
  - intros d Hd. eapply c_eq; [exact (d_gx (fun _ => l) (fun s => s) d 0 1 (c_const _ _) (derivable_pt_lim_id _))|]. cbv beta. unfold xs. ring.
  - apply ab_le in H1. apply ab_le in H2. destruct (near_6 l c ltac:(apply Rabs_le; lra)) as (X & _). assert (0 < ra l) by (apply Rmult_lt_0_compat; [apply normal_pos|exact C]). assert (0 < k0 * (xs l c * ra l)) by (apply Rmult_lt_0_compat; [unfold k0; lra|apply Rmult_lt_0_compat; lra]). nra.
Qed.
Lemma grid_injective l1 d1 l2 d2 : - (PI / 2) < l1 < PI / 2 -> - (PI / 2) < l2 < PI / 2 -> Rabs d1 <= 10472 / 100000 -> Rabs d2 <= 10472 / 100000 ->
  gx l1 d1 = gx l2 d2 -> gy l1 d1 = gy l2 d2 -> l1 = l2 /\ d1 = d2.
Proof.
  assert (W : forall l1 d1 l2 d2, - (PI / 2) < l1 -> l1 < l2 < PI / 2 -> Rabs d1 <= 10472 / 100000 -> Rabs d2 <= 10472 / 100000 -> gx l1 d1 = gx l2 d2 -> gy l1 d1 = gy l2 d2 -> False).
  { clear. intros l1 d1 l2 d2 L1 L2 H1 H2 X Y. assert (P : psi l1 < psi l2) by (apply psi_up; lra). set (k := (d2 - d1) / (psi l2 - psi l1)). set (d := fun s => d1 + k * (psi s - psi l1)).
    assert (E1 : d l1 = d1) by (unfold d; ring). assert (E2 : d l2 = d2) by (unfold d, k; field; lra).
    assert (PM : forall s, l1 <= s <= l2 -> psi l1 <= psi s <= psi l2).
    { intros s Hs. split; [destruct (Rle_lt_or_eq_dec l1 s ltac:(lra)) as [Q|Q]|destruct (Rle_lt_or_eq_dec s l2 ltac:(lra)) as [Q|Q]]; try (left; apply psi_up; lra); rewrite Q; lra. }
    assert (DB : forall s, l1 <= s <= l2 -> Rabs (d s) <= 10472 / 100000).
    { intros s Hs. specialize (PM s Hs). apply ab_le in H1. apply ab_le in H2. apply Rabs_le. set (w := (psi s - psi l1) / (psi l2 - psi l1)).
      assert (WB : 0 <= w <= 1). { unfold w. split; [apply Rmult_le_pos; [lra|left; apply Rinv_0_lt_compat; lra]|]. apply Rmult_le_reg_r with (psi l2 - psi l1); [lra|]. unfold Rdiv. rewrite Rmult_assoc, Rinv_l by lra. lra. }
      replace (d s) with (d1 * (1 - w) + d2 * w) by (unfold d, k, w; field; lra). split; nra. }
    assert (Dd : forall s, l1 <= s <= l2 -> derivable_pt_lim d s (k * (meridian_radius s / ra s))).
    { intros s Hs. unfold d. eapply c_eq; [apply c_plus; [apply c_const|apply c_mult; [apply c_const|apply c_minus; [apply d_psi, cos_in; lra|apply c_const]]]|]. cbv beta. ring. }
    destruct (MVT_cor2 (fun s => k * gx s (d s) + gy s (d s)) (fun s => k0 * meridian_radius s * (k * (xs s (d s) * k - yl s (d s) + ex s (d s)) + (yl s (d s) * k + xs s (d s) + ey s (d s)))) l1 l2 ltac:(lra)) as (c & E & Hc).
    - intros s Hs. assert (R0 : 0 < ra s) by (apply Rmult_lt_0_compat; [apply normal_pos|apply cos_in; lra]). pose proof (meridian_pos s) as M0. eapply c_eq.
      { apply c_plus; [apply c_mult; [apply c_const|]|]; [exact (d_gx (fun s => s) d s 1 _ (derivable_pt_lim_id _) (Dd s Hs))|exact (d_gy (fun s => s) d s 1 _ (derivable_pt_lim_id _) (Dd s Hs))]. }
      cbv beta. fold (ms s). fold (xs s (d s)). fold (ex s (d s)). unfold ey. field. lra.
    - cbv beta in E. rewrite E1, E2, X, Y in E. destruct (near_6 c (d c) (DB c ltac:(lra))) as (XS & _ & EX & EY & _). apply ab_le in EX. apply ab_le in EY. pose proof (meridian_pos c) as M0.
      set (x := xs c (d c)) in *. set (y := yl c (d c)) in *. set (e1 := ex c (d c)) in *. set (e := ey c (d c)) in *.
      assert (Q : 0 < k * (x * k - y + e1) + (y * k + x + e)).
      { replace (k * (x * k - y + e1) + (y * k + x + e)) with (x * (k * k + 1) + k * e1 + e) by ring. assert (0 <= (k * e1 + 1 / 2) ^ 2) by apply pow2_ge_0. assert (0 <= k * k) by apply Rle_0_sqr. assert (99 / 100 * (k * k + 1) <= x * (k * k + 1)) by (apply Rmult_le_compat_r; lra).
        assert (e1 * e1 <= 1 / 100) by nra. nra. }
      assert (0 < k0 * meridian_radius c * (k * (x * k - y + e1) + (y * k + x + e)) * (l2 - l1)) by (apply Rmult_lt_0_compat; [apply Rmult_lt_0_compat; [apply Rmult_lt_0_compat; [unfold k0; lra|exact M0]|exact Q]|lra]). lra. }
  intros L1 L2 H1 H2 X Y. destruct (Rtotal_order l1 l2) as [O|[O|O]].
  - destruct (W l1 d1 l2 d2); try assumption; lra.
  - split; [exact O|]. subst l2. destruct (Rtotal_order d1 d2) as [Q|[Q|Q]]; [|exact Q|]; [pose proof (east_up l1 d1 d2 (cos_in _ L1) H1 H2 Q)|pose proof (east_up l1 d2 d1 (cos_in _ L1) H2 H1 Q)]; lra.
  - destruct (W l2 d2 l1 d1); try assumption; try (symmetry; assumption); lra.
Qed.

Lemma own_zone lat lon : -180 <= lon < 180 -> in_zone lat lon (utm_zone lat lon) /\ (1 <= utm_zone lat lon <= 60)%Z.
Proof.
  intros H. destruct (zone_cases lat lon _ eq_refl) as [X|[X Y]].
  - split; [left; exact X|]. destruct X as [(A & B & ->)|(A & [(B & ->)|[(B & ->)|[(B & ->)|(B & ->)]]])]; lia.
  - destruct (pyint_floor ((lon + 180) / 6)) as [A B]; [lra|]. set (k := pyint ((lon + 180) / 6)) in *.
    assert (0 <= k)%Z by (enough (-1 < k)%Z by lia; apply lt_IZR; lra). assert (k < 60)%Z by (apply lt_IZR; lra).
    split; [|rewrite Y; lia]. right. split; [rewrite Y; lia|]. split; [exact X|]. rewrite Y. unfold central_meridian. rewrite plus_IZR. lra.
Qed.
Lemma append_one s s' c c' : append s (String c EmptyString) = append s' (String c' EmptyString) -> s = s'.
Proof.
  revert s'. induction s as [|x s IH]; intros [|y s'] H; cbn in H; try reflexivity.
  - injection H as _ H. destruct s'; discriminate.
  - injection H as _ H. destruct s; discriminate.
  - injection H as -> H. f_equal. now apply IH.
Qed.
Lemma zone_text_inj z z' c c' : (1 <= z <= 60)%Z -> (1 <= z' <= 60)%Z -> zone_text z c = zone_text z' c' -> z = z'.
Proof.
  intros H H' E. apply append_one in E.
  assert (T : List.forallb (fun a => List.forallb (fun b => implb (String.eqb (DecimalString.NilZero.string_of_int (Z.to_int (Z.of_nat a))) (DecimalString.NilZero.string_of_int (Z.to_int (Z.of_nat b)))) (Nat.eqb a b)) (List.seq 1 60)) (List.seq 1 60) = true) by (vm_compute; reflexivity).
  rewrite List.forallb_forall in T. specialize (T (Z.to_nat z) ltac:(apply List.in_seq; lia)). rewrite List.forallb_forall in T. specialize (T (Z.to_nat z') ltac:(apply List.in_seq; lia)).
  rewrite !Z2Nat.id in T by lia. rewrite E, String.eqb_refl in T. cbn [implb] in T. apply Nat.eqb_eq in T. lia.
Qed.
Lemma rad_range lat : -90 < lat < 90 -> - (PI / 2) < deg2rad lat < PI / 2.
Proof. intros H. pose proof PI_RGT_0. unfold deg2rad. split; nra. Qed.
Lemma rad_inj x y : deg2rad x = deg2rad y -> x = y.
Proof. intros H. apply (f_equal rad2deg) in H. now rewrite !(proj1 (C45_angles _)) in H. Qed.
(** lla2utm never returns the same for two places *)
Theorem C84_distinct lat lon alt lat' lon' alt' : -90 < lat < 90 -> -90 < lat' < 90 -> -180 <= lon < 180 -> -180 <= lon' < 180 ->
  lla2utm (V lat lon alt) = lla2utm (V lat' lon' alt') -> lat = lat' /\ lon = lon' /\ alt = alt'.
Proof.
  intros A A' O O' E. destruct (own_zone lat lon O) as [Z ZB]. destruct (own_zone lat' lon' O') as [Z' ZB'].
  destruct (utm_is lat lon alt) as (u & U & UA & UZ & UG). destruct (utm_is lat' lon' alt') as (w & W & WA & WZ & WG). rewrite U, W in E. injection E as <-.
  assert (ZZ : utm_zone lat lon = utm_zone lat' lon') by (eapply zone_text_inj; [exact ZB|exact ZB'|]; rewrite <- UZ, <- WZ; reflexivity).
  rewrite <- ZZ in *. set (z := utm_zone lat lon) in *. clearbody z. rewrite UG in WG. rewrite !grid_poly in WG by (apply Rgt_not_eq, cos_lat_pos; assumption).
  injection WG as X Y _. pose proof pi_up as PI3. assert (L := rad_range).
  assert (D : forall a b, in_zone a b z -> Rabs (deg2rad (b - central_meridian z)) <= 10472 / 100000) by (intros a b Hab; apply off_6, rad_le in Hab; eapply Rle_trans; [exact Hab|lra]).
  destruct (grid_injective _ _ _ _ (L _ A) (L _ A') (D _ _ Z) (D _ _ Z') X Y) as [EL ED]. apply rad_inj in EL. apply rad_inj in ED. split; [exact EL|]. split; [lra|congruence].
Qed.
(** even when the latitude band is not looked at: the zone number, the easting and the northing tell the place *)
Theorem C84_number lat lon lat' lon' z : -90 < lat < 90 -> -90 < lat' < 90 -> in_zone lat lon z -> in_zone lat' lon' z ->
  easting lat lon = easting lat' lon' -> northing lat lon = northing lat' lon' -> lat = lat' /\ lon = lon'.
Proof.
  intros A A' Z Z' X Y. destruct (utm_in _ _ _ A Z) as (X1 & Y1 & _). destruct (utm_in _ _ _ A' Z') as (X2 & Y2 & _). rewrite X1, X2 in X. rewrite Y1, Y2 in Y.
  pose proof pi_up as PI3. assert (L := rad_range).
  assert (D : forall a b, in_zone a b z -> Rabs (deg2rad (b - central_meridian z)) <= 10472 / 100000) by (intros a b Hab; apply off_6, rad_le in Hab; eapply Rle_trans; [exact Hab|lra]).
  destruct (grid_injective _ _ _ _ (L _ A) (L _ A') (D _ _ Z) (D _ _ Z') X Y) as [EL ED]. apply rad_inj in EL. apply rad_inj in ED. split; [exact EL|lra].
Qed.
(** further east is a larger easting *)
Theorem C84_east lat lon lon' z : -90 < lat < 90 -> in_zone lat lon z -> in_zone lat lon' z -> lon < lon' -> easting lat lon < easting lat lon'.
Proof.
  intros A Z Z' H. destruct (utm_in _ _ _ A Z) as (X1 & _). destruct (utm_in _ _ _ A Z') as (X2 & _). rewrite X1, X2. pose proof pi_up as PI3.
  assert (D : forall a b, in_zone a b z -> Rabs (deg2rad (b - central_meridian z)) <= 10472 / 100000) by (intros a b Hab; apply off_6, rad_le in Hab; eapply Rle_trans; [exact Hab|lra]).
  apply east_up; [apply cos_lat_pos, A|exact (D _ _ Z)|exact (D _ _ Z')|]. unfold deg2rad. nra.
Qed.
(** places on both sides of the equator and of the central meridian of one zone *)
Example C84_case : in_zone 48 11 32 /\ in_zone (-48) 8 32 /\ (easting 48 11 <> easting (-48) 8 \/ northing 48 11 <> northing (-48) 8) /\ easting 48 8 < easting 48 11 /\
  lla2utm (V 48 11 500) <> lla2utm (V (-48) 8 500).
Proof.
  assert (Z1 : in_zone 48 11 32) by (right; unfold exceptional, central_meridian; split; [lia|]; split; [intros z'; lra|lra]).
  assert (Z2 : in_zone (-48) 8 32) by (right; unfold exceptional, central_meridian; split; [lia|]; split; [intros z'; lra|lra]).
  assert (Z3 : in_zone 48 8 32) by (right; unfold exceptional, central_meridian; split; [lia|]; split; [intros z'; lra|lra]).
  split; [exact Z1|]. split; [exact Z2|]. split; [|split].
  - destruct (Req_dec (easting 48 11) (easting (-48) 8)) as [E|E]; [right|left; exact E]. intros N. destruct (C84_number 48 11 (-48) 8 32 ltac:(lra) ltac:(lra) Z1 Z2 E N). lra.
  - apply (C84_east 48 8 11 32); try assumption; lra.
  - intros E. apply C84_distinct in E; lra.
Qed.

Definition all_PropTm := (C83_conformal, C83_conformal_wide, C83_speed, C83_speed_wide, C83_meridian, C83_equator, C84_distinct, C84_number, C84_east).
Print Assumptions all_PropTm.
