(** C51, C53: attitude conversion and spherical coordinates of RangeCoordinates.py, over the reals. *)
From Coq Require Import Reals Lra Lia ZArith List.
From Verif Require Import Real3 RangeCoordinates PropGeo.
Import ListNotations.
Local Open Scope R_scope.

Definition ex := V 1 0 0.
Definition ey := V 0 1 0.
Definition ez := V 0 0 1.
Ltac axes := unfold ex, ey, ez, Rx, Ry, Rz; veq.

Lemma rot_cross m u v : rotation m -> mapply m (vcross u v) = vcross (mapply m u) (mapply m v).
Proof.
  intros H. destruct (rot_cols m H) as (A & B & C).
  apply vec_ext; unfold mapply; cbn [vx vy vz vcross].
  - transitivity (vdot (vcross (r2 m) (r3 m)) (vcross u v)); [rewrite B; reflexivity|]. unfold vdot, vcross. cbn [vx vy vz]. ring.
  - transitivity (vdot (vcross (r3 m) (r1 m)) (vcross u v)); [rewrite C; reflexivity|]. unfold vdot, vcross. cbn [vx vy vz]. ring.
  - transitivity (vdot (vcross (r1 m) (r2 m)) (vcross u v)); [rewrite A; reflexivity|]. unfold vdot, vcross. cbn [vx vy vz]. ring.
Qed.
(** turning about a carried axis is carrying the turn *)
Lemma turn_carried m t e v : rotation m -> mapply (rotate_3x3 t (mapply m e)) (mapply m v) = mapply m (mapply (rotate_3x3 t e) v).
Proof. intros H. rewrite !C47_rodrigues, !mapply_add, !mapply_scale, rot_dot, rot_cross by exact H. reflexivity. Qed.

Lemma turn_frame_is m a b c : rotation m ->
  turn_frame (mapply m ex) (mapply m ey) (mapply m ez) a b c =
  (mapply (mmul m (euler a b c)) ex, mapply (mmul m (euler a b c)) ey, mapply (mmul m (euler a b c)) ez).
Proof.
  intros H. unfold turn_frame, euler. cbv zeta. destruct (C47_axes a) as (Za & _ & _). destruct (C47_axes b) as (_ & Yb & _). destruct (C47_axes c) as (_ & _ & Xc).
  fold ez in Za. fold ey in Yb. fold ex in Xc. rewrite !(turn_carried m a) by exact H. rewrite Za. rewrite <- !(mapply_mul m (Rz a)).
  assert (H1 : rotation (mmul m (Rz a))) by (apply rot_mul; [exact H|apply rot_z]).
  rewrite !(turn_carried (mmul m (Rz a)) b) by exact H1. rewrite Yb. rewrite <- !(mapply_mul (mmul m (Rz a)) (Ry b)).
  assert (H2 : rotation (mmul (mmul m (Rz a)) (Ry b))) by (apply rot_mul; [exact H1|apply rot_y]).
  rewrite !(turn_carried (mmul (mmul m (Rz a)) (Ry b)) c) by exact H2. rewrite Xc. rewrite <- !mapply_mul, !mmul_assoc. reflexivity.
Qed.

(** *** C51 *)
Lemma sq_sum a b c : a * a + b * b + c * c = 1 -> 0 <= a ^ 2 + b ^ 2 /\ sqrt (a ^ 2 + b ^ 2) * sqrt (a ^ 2 + b ^ 2) + (- c) * (- c) = 1.
Proof. intros H. assert (0 <= a ^ 2 + b ^ 2) by nra. split; [assumption|]. rewrite sqrt_sqrt by assumption. nra. Qed.
Lemma atan2_unit y x : x * x + y * y = 1 -> cos (atan2 y x) = x /\ sin (atan2 y x) = y.
Proof. intros H. destruct (atan2_polar y x) as [A B]. rewrite H, sqrt_1, !Rmult_1_l in *. split; assumption. Qed.
Lemma mapply_basis m v : mapply m v = vadd (vadd (vscale (vx v) (mapply m ex)) (vscale (vy v) (mapply m ey))) (vscale (vz v) (mapply m ez)).
Proof. unfold ex, ey, ez. veq. Qed.
Lemma mat_basis m n : mapply m ex = mapply n ex -> mapply m ey = mapply n ey -> mapply m ez = mapply n ez -> m = n.
Proof. unfold ex, ey, ez, mapply, vdot. cbn [vx vy vz]. intros [= A B C] [= D E F] [= G H I]. apply mat_ext; lra. Qed.
Lemma coord k v : rotation k -> mapply (transposed k) v = V (vdot v (mapply k ex)) (vdot v (mapply k ey)) (vdot v (mapply k ez)).
Proof. intros H. unfold ex, ey, ez. veq. Qed.

(** frame_angles finds the angles of the rotation that takes the reference frame to the given one *)
Lemma frame_angles_is k b : rotation k -> rotation b ->
  exists psi theta phi, frame_angles (mapply (mmul k b) ex) (mapply (mmul k b) ey) (mapply k ex) (mapply k ey) (mapply k ez) = Ret (psi, theta, phi) /\ euler psi theta phi = b /\ 
    - PI < psi <= PI /\ - (PI / 2) <= theta <= PI / 2 /\ - PI < phi <= PI.
Proof.
  intros Hk Hb. unfold frame_angles. cbv zeta. rewrite !mapply_mul, !rot_dot by exact Hk.
  set (bx := mapply b ex). set (by_ := mapply b ey).
  assert (X : vdot bx ex = vx bx) by (unfold vdot, ex; cbn [vx vy vz]; ring). assert (Y : vdot bx ey = vy bx) by (unfold vdot, ey; cbn [vx vy vz]; ring). assert (Z : vdot bx ez = vz bx) by (unfold vdot, ez; cbn [vx vy vz]; ring).
  rewrite X, Y, Z. assert (U : vdot bx bx = 1) by (unfold bx; rewrite rot_dot by exact Hb; unfold vdot, ex; cbn [vx vy vz]; ring).
  destruct (sq_sum _ _ _ U) as [P Q]. rewrite psqrt_ok by exact P. cbn [pbind]. set (h := sqrt (vx bx ^ 2 + vy bx ^ 2)) in *.
  set (psi := atan2 (vy bx) (vx bx)). set (theta := atan2 (- vz bx) h).
  destruct (C47_axes psi) as (Zp & _ & _). destruct (C47_axes theta) as (_ & Yt & _). fold ez in Zp. fold ey in Yt.
  assert (H1 : rotation (mmul k (Rz psi))) by (apply rot_mul; [exact Hk|apply rot_z]).
  rewrite (turn_carried k psi ez ey Hk), Zp, <- (mapply_mul k (Rz psi) ey).
  assert (Ez : mapply k ez = mapply (mmul k (Rz psi)) ez) by (rewrite mapply_mul; f_equal; axes). rewrite Ez, (turn_carried (mmul k (Rz psi)) theta ey ez H1), Yt. rewrite !mapply_mul, !rot_dot by exact Hk.
  eexists psi, theta, _. split; [reflexivity|].
  set (f := mmul (Rz psi) (Ry theta)). assert (Hf : rotation f) by (apply rot_mul; [apply rot_z|apply rot_y]).
  assert (Fy : mapply (Rz psi) ey = mapply f ey) by (unfold f; rewrite mapply_mul; f_equal; axes).
  assert (Fz : mapply (Rz psi) (mapply (Ry theta) ez) = mapply f ez) by (unfold f; rewrite mapply_mul; reflexivity). rewrite Fy, Fz.
  destruct (atan2_unit (- vz bx) h) as [Ct St]; [exact Q|]. fold theta in Ct, St.
  destruct (atan2_polar (vy bx) (vx bx)) as [Cp Sp]. fold psi in Cp, Sp. replace (vx bx * vx bx + vy bx * vy bx) with (vx bx ^ 2 + vy bx ^ 2) in Cp, Sp by ring. fold h in Cp, Sp.
  assert (Fx : mapply f ex = bx). { apply vec_ext; unfold f, ex, Rz, Ry; vexp; rewrite ?Ct, ?St; lra. }
  set (phi := atan2 (vdot by_ (mapply f ez)) (vdot by_ (mapply f ey))).
  pose proof (coord f by_ Hf) as K. rewrite Fx in K. assert (O : vdot by_ bx = 0) by (unfold by_, bx; rewrite rot_dot by exact Hb; unfold vdot, ex, ey; cbn [vx vy vz]; ring). rewrite O in K.
  assert (UK : vdot (mapply (transposed f) by_) (mapply (transposed f) by_) = 1).
  { rewrite rot_dot by (apply rot_tr; exact Hf). unfold by_. rewrite rot_dot by exact Hb. unfold vdot, ey. cbn [vx vy vz]. ring. }
  rewrite K in UK. unfold vdot in UK at 1. cbn [vx vy vz] in UK.
  destruct (atan2_unit (vdot by_ (mapply f ez)) (vdot by_ (mapply f ey))) as [Cf Sf]; [lra|]. fold phi in Cf, Sf.
  assert (Ee : euler psi theta phi = mmul f (Rx phi)) by reflexivity.
  split.
  - rewrite Ee. assert (A1 : mapply (mmul f (Rx phi)) ex = mapply b ex). { rewrite mapply_mul. replace (mapply (Rx phi) ex) with ex by (axes). exact Fx. }
    assert (A2 : mapply (mmul f (Rx phi)) ey = mapply b ey).
    { rewrite mapply_mul. replace (mapply (Rx phi) ey) with (V 0 (cos phi) (sin phi)) by (axes). rewrite Cf, Sf, <- K. apply rot_inv', Hf. }
    apply mat_basis; [exact A1|exact A2|]. assert (Xy : ez = vcross ex ey) by (axes). rewrite Xy, !rot_cross, A1, A2; [reflexivity|exact Hb|apply rot_mul; [exact Hf|apply rot_x]].
  - split; [apply atan2_range|]. split; [|apply atan2_range]. pose proof PI_RGT_0. pose proof (atan2_range (- vz bx) h) as W. fold theta in W. assert (0 <= cos theta) by (rewrite Ct; apply sqrt_pos).
    split; apply Rnot_lt_le; intros L.
    + assert (cos theta < 0); [|lra]. rewrite <- cos_neg. apply cos_lt_0; lra.
    + assert (cos theta < 0); [|lra]. apply cos_lt_0; lra.
Qed.

Lemma ned_axes lat lon : let k := transposed (ecefvec2nedvec lat lon) in
  r1 (ecefvec2nedvec lat lon) = mapply k ex /\ r2 (ecefvec2nedvec lat lon) = mapply k ey /\ r3 (ecefvec2nedvec lat lon) = mapply k ez.
Proof. cbv zeta. unfold ecefvec2nedvec. split; [|split]; axes. Qed.
Lemma ned_frame lat lon : rotation (transposed (ecefvec2nedvec lat lon)).
Proof. apply rot_tr, ned_rotation. Qed.
Lemma xyz_axes : V 1 0 0 = mapply ident ex /\ V 0 1 0 = mapply ident ey /\ V 0 0 1 = mapply ident ez.
Proof. split; [|split]; axes. Qed.
Lemma rot_ident : rotation ident.
Proof. unfold rotation. split; [|split]; veq. Qed.

(** [ned_to_ecef lat lon] expresses in earth-fixed axes a vector given by its north, east and down components *)
Definition ned_to_ecef (lat lon : R) : mat := transposed (ecefvec2nedvec lat lon).

(** the earth-fixed Euler angles of the result describe the attitude given by the local ones: body axes expressed in the earth frame agree *)
Theorem C51_llarpy2ecef lat lon alt roll pitch yaw : exists q psi theta phi,
  llarpy2ecef lat lon alt roll pitch yaw = Ret (q, V psi theta phi) /\ lla2ecef (V (rad2deg lat) (rad2deg lon) alt) = Ret q /\
  (forall body, mapply (euler psi theta phi) body = mapply (ned_to_ecef lat lon) (mapply (euler yaw pitch roll) body)) /\
  - PI < psi <= PI /\ - (PI / 2) <= theta <= PI / 2 /\ - PI < phi <= PI.
Proof.
  unfold llarpy2ecef. pose proof (lla2ecef_is (V (rad2deg lat) (rad2deg lon) alt)) as L. cbv zeta in L. rewrite L. cbn [pbind]. cbv zeta.
  destruct (ned_axes lat lon) as (A & B & C). rewrite A, B, C, (turn_frame_is _ yaw pitch roll (ned_frame lat lon)).
  set (m := mmul (transposed (ecefvec2nedvec lat lon)) (euler yaw pitch roll)). assert (Hm : rotation m) by (apply rot_mul; [apply ned_frame|apply rot_euler]).
  destruct xyz_axes as (X & Y & Z). rewrite X, Y, Z. replace (mapply m ex) with (mapply (mmul ident m) ex) by (rewrite mmul_1_l; reflexivity). replace (mapply m ey) with (mapply (mmul ident m) ey) by (rewrite mmul_1_l; reflexivity).
  destruct (frame_angles_is ident m rot_ident Hm) as (psi & theta & phi & E & F & R). rewrite E. cbn [pbind]. do 4 eexists. split; [reflexivity|]. split; [reflexivity|]. split; [|exact R].
  intros body. rewrite F. apply mapply_mul.
Qed.

(** and in the other direction *)
Theorem C51_ecef2llarpy n p psi theta phi lat lon alt : ecef2lla n p default_tolerance = Some (Ret (V lat lon alt)) -> exists roll pitch yaw,
  ecef2llarpy n p psi theta phi = Some (Ret (V (deg2rad lat) (deg2rad lon) alt, V roll pitch yaw)) /\
  (forall body, mapply (ned_to_ecef (deg2rad lat) (deg2rad lon)) (mapply (euler yaw pitch roll) body) = mapply (euler psi theta phi) body) /\
  - PI < yaw <= PI /\ - (PI / 2) <= pitch <= PI / 2 /\ - PI < roll <= PI.
Proof.
  intros H. unfold ecef2llarpy. rewrite H. cbn [vx vy vz]. destruct xyz_axes as (X & Y & Z). rewrite X, Y, Z, (turn_frame_is ident psi theta phi rot_ident). cbv zeta.
  rewrite mmul_1_l. destruct (ned_axes (deg2rad lat) (deg2rad lon)) as (A & B & C). rewrite A, B, C. set (k := transposed (ecefvec2nedvec (deg2rad lat) (deg2rad lon))).
  pose proof (ned_frame (deg2rad lat) (deg2rad lon)) as Hk. fold k in Hk. set (b := mmul (transposed k) (euler psi theta phi)).
  assert (Hb : rotation b) by (apply rot_mul; [apply rot_tr, Hk|apply rot_euler]).
  assert (E : euler psi theta phi = mmul k b) by (unfold b; rewrite <- mmul_assoc; destruct Hk as [-> _]; rewrite mmul_1_l; reflexivity).
  rewrite E. destruct (frame_angles_is k b Hk Hb) as (yaw & pitch & roll & F & G & R). rewrite F. cbn [pbind]. do 3 eexists. split; [reflexivity|]. split; [|exact R].
  intros body. rewrite G. symmetry. apply mapply_mul.
Qed.
(** with no position there is no attitude *)
Theorem C51_no_position n psi theta phi : ecef2llarpy n vzero psi theta phi = Some (Raise PlainException).
Proof.
  unfold ecef2llarpy, ecef2lla, vzero. cbv zeta. cbn [vx vy vz]. rewrite psqrt_ok by lra. unfold equal. destruct (Req_EM_T 0 0); [|contradiction]. cbn [andb].
  destruct (Rlt_dec 0 0); [lra|]. reflexivity.
Qed.

Lemma euler_inj a b c a' b' c' : - PI < a <= PI -> - (PI / 2) < b < PI / 2 -> - PI < c <= PI -> - PI < a' <= PI -> - (PI / 2) <= b' <= PI / 2 -> - PI < c' <= PI ->
  (forall v, mapply (euler a b c) v = mapply (euler a' b' c') v) -> a = a' /\ b = b' /\ c = c'.
Proof.
  intros Ha Hb Hc Ha' Hb' Hc' H. pose proof PI_RGT_0.
  pose proof (H ex) as E1. pose proof (H ey) as E2. pose proof (H ez) as E3.
  assert (F : forall p q r, mapply (euler p q r) ex = V (cos q * cos p) (cos q * sin p) (- sin q)) by (intros; unfold euler; axes).
  assert (G : forall p q r, vz (mapply (euler p q r) ey) = cos q * sin r) by (intros; unfold euler; axes).
  assert (K : forall p q r, vz (mapply (euler p q r) ez) = cos q * cos r) by (intros; unfold euler; axes).
  rewrite !F in E1. injection E1 as X Y Z. apply (f_equal vz) in E2, E3. rewrite !G in E2. rewrite !K in E3.
  assert (0 < cos b) by (apply cos_gt_0; lra). assert (0 <= cos b') by (apply cos_ge_0; lra).
  pose proof (sc b) as Sb. pose proof (sc b') as Sb'. assert (SB : sin b = sin b') by lra. assert (CB : cos b = cos b') by (rewrite SB in Sb; nra).
  rewrite <- CB in *. apply Rmult_eq_reg_l in X, Y, E2, E3; try lra. split; [|split]; apply angle_eq; try assumption; lra.
Qed.

(** to the earth frame and back: when the position is recovered, so is the attitude *)
Theorem C51_round_trip n lat lon alt roll pitch yaw q psi theta phi alt' : - PI < yaw <= PI -> - (PI / 2) < pitch < PI / 2 -> - PI < roll <= PI ->
  llarpy2ecef lat lon alt roll pitch yaw = Ret (q, V psi theta phi) -> ecef2lla n q default_tolerance = Some (Ret (V (rad2deg lat) (rad2deg lon) alt')) ->
  ecef2llarpy n q psi theta phi = Some (Ret (V lat lon alt', V roll pitch yaw)).
Proof.
  intros Hy Hp Hr E H. destruct (C51_llarpy2ecef lat lon alt roll pitch yaw) as (q0 & p0 & t0 & f0 & E0 & _ & B & _). rewrite E0 in E. injection E as -> -> -> ->.
  destruct (C51_ecef2llarpy n q psi theta phi _ _ _ H) as (r1 & p1 & y1 & F & G & Ry1 & Rp1 & Rr1).
  destruct (C45_angles lat) as (_ & L1 & _). destruct (C45_angles lon) as (_ & L2 & _). rewrite L1, L2 in *.
  destruct (euler_inj yaw pitch roll y1 p1 r1 Hy Hp Hr Ry1 Rp1 Rr1) as (-> & -> & ->); [|exact F].
  intros v. specialize (G v). rewrite B in G. unfold ned_to_ecef in G. apply (f_equal (mapply (ecefvec2nedvec lat lon))) in G. rewrite !rot_inv' in G by apply ned_rotation. symmetry. exact G.
Qed.
(** a position for which this applies: on the equator *)
Example C51_case n : exists q psi theta phi, llarpy2ecef 0 (PI / 3) 1000 (PI / 4) (PI / 6) 1 = Ret (q, V psi theta phi) /\ ecef2llarpy (S n) q psi theta phi = Some (Ret (V 0 (PI / 3) 1000, V (PI / 4) (PI / 6) 1)).
Proof.
  pose proof PI_RGT_0. pose proof PI_4. assert (2 < PI) by (pose proof PI2_3_2; lra).
  destruct (C51_llarpy2ecef 0 (PI / 3) 1000 (PI / 4) (PI / 6) 1) as (q & psi & theta & phi & E & Q & _). exists q, psi, theta, phi. split; [exact E|].
  destruct (C48_equator n 60 1000 default_tolerance) as (q' & Q' & _ & L); [lra|unfold wgs84_a; lra|unfold default_tolerance; lra|].
  assert (S1 : rad2deg 0 = 0) by (unfold rad2deg; field; lra). assert (S2 : rad2deg (PI / 3) = 60) by (unfold rad2deg; field; lra). rewrite S1, S2, Q' in Q. injection Q as ->.
  apply (C51_round_trip (S n) 0 (PI / 3) 1000 (PI / 4) (PI / 6) 1 q psi theta phi); try lra; [exact E|]. rewrite S1, S2. exact L.
Qed.

(** *** C53 *)
(** the point at range p, azimuth a (clockwise from north) and elevation e (above the horizon), angles in degrees: north, east, down *)
Definition at_range (p a e : R) : vec :=
  V (p * cos (deg2rad e) * cos (deg2rad a)) (p * cos (deg2rad e) * sin (deg2rad a)) (- (p * sin (deg2rad e))).
Theorem C53_ned2pae ned : exists p a e, ned2pae ned = Ret (V p a e) /\ at_range p a e = ned /\ p = norm ned /\ -180 < a <= 180 /\ -90 <= e <= 90.
Proof.
  destruct ned as [x y z]. unfold ned2pae. cbn [vx vy vz]. unfold euclideanDistance. cbn [distance_loop pbind].
  assert (Q : 0 <= x ^ 2 + y ^ 2) by nra. assert (Q' : 0 <= 0 + x ^ 2 + y ^ 2 + z ^ 2) by nra.
  rewrite psqrt_ok by exact Q'. cbn [pbind]. rewrite psqrt_ok by exact Q. cbn [pbind]. set (h := sqrt (x ^ 2 + y ^ 2)). do 3 eexists. split; [reflexivity|].
  destruct (atan2_polar y x) as [A B]. destruct (atan2_polar (- z) h) as [C D]. replace (x * x + y * y) with (x ^ 2 + y ^ 2) in A, B by ring. fold h in A, B.
  assert (HH : h * h = x ^ 2 + y ^ 2) by (apply sqrt_sqrt; exact Q). replace (h * h + - z * - z) with (0 + x ^ 2 + y ^ 2 + z ^ 2) in C, D by (rewrite HH; ring).
  split; [|split; [|split]].
  - unfold at_range. destruct (C45_angles (atan2 y x)) as (_ & -> & _). destruct (C45_angles (atan2 (- z) h)) as (_ & -> & _). rewrite C, D. f_equal; [exact A|exact B|ring].
  - unfold norm, vdot. cbn [vx vy vz]. f_equal. ring.
  - pose proof (atan2_range y x). pose proof PI_RGT_0. unfold rad2deg. split.
    + apply Rmult_lt_reg_r with PI; [assumption|]. unfold Rdiv. rewrite Rmult_assoc, Rinv_l by lra. lra.
    + apply Rmult_le_reg_r with PI; [assumption|]. unfold Rdiv. rewrite Rmult_assoc, Rinv_l by lra. lra.
  - assert (W : - (PI / 2) <= atan2 (- z) h <= PI / 2).
    { pose proof PI_RGT_0. assert (0 <= h) by apply sqrt_pos. unfold atan2. destruct (Rlt_dec 0 h).
      - pose proof (atan_bound (- z / h)). lra.
      - destruct (Rlt_dec h 0); [lra|]. repeat match goal with |- context [if ?b then _ else _] => destruct b end; lra. }
    pose proof PI_RGT_0. unfold rad2deg. split; (apply Rmult_le_reg_r with PI; [assumption|]); unfold Rdiv; rewrite Rmult_assoc, Rinv_l by lra; lra.
Qed.
(** seen from an origin: the range is the distance, and the point is found again from range, azimuth and elevation *)
Theorem C53_ecef2pae n ecef origin ned : ecef2ned n ecef origin = Some (Ret ned) -> exists p a e, ecef2pae n ecef origin = Some (Ret (V p a e)) /\ p = norm (vsub ecef origin) /\
  ned2ecef n (at_range p a e) origin = Some (Ret ecef).
Proof.
  intros H. unfold ecef2pae. rewrite H. destruct (C53_ned2pae ned) as (p & a & e & E & F & G & _). exists p, a, e. rewrite E. split; [reflexivity|]. rewrite F. split.
  - rewrite G. revert H. unfold ecef2ned, at_origin. destruct (ecef2lla n origin default_tolerance) as [[[la lo al]|]|]; try discriminate. intros [= <-]. apply rot_norm. apply (ned_rotation (deg2rad la) (deg2rad lo)).
  - apply C46_inverse. exact H.
Qed.
(** straight up is elevation 90, straight down -90 *)
Theorem C53_vertical h : h <> 0 -> ned2pae (V 0 0 h) = Ret (V (Rabs h) 0 (if Rlt_dec 0 h then -90 else 90)).
Proof.
  intros H. unfold ned2pae. cbn [vx vy vz]. unfold euclideanDistance. cbn [distance_loop pbind]. rewrite psqrt_ok by nra. cbn [pbind]. rewrite psqrt_ok by lra. cbn [pbind].
  replace (0 + 0 ^ 2 + 0 ^ 2 + h ^ 2) with (Rsqr h) by (unfold Rsqr; ring). rewrite sqrt_Rsqr_abs. replace (0 ^ 2 + 0 ^ 2) with 0 by ring. rewrite sqrt_0.
  pose proof PI_RGT_0. unfold atan2. destruct (Rlt_dec 0 0); [lra|].
  destruct (Rlt_dec 0 h); repeat match goal with |- context [Rlt_dec ?a ?b] => destruct (Rlt_dec a b); try lra end; unfold rad2deg; f_equal; f_equal; field; lra.
Qed.
Example C53_case n : exists r, ecef2ned (S n) (V 6379137 10 20) (V 6378137 0 0) = Some (Ret r).
Proof.
  destruct (C48_equator n 0 0 default_tolerance) as (q & Q & _ & L); [lra|unfold wgs84_a; lra|unfold default_tolerance; lra|].
  rewrite lla2ecef_is in Q. cbn [vx vy vz] in Q. assert (Z0 : deg2rad 0 = 0) by (unfold deg2rad; lra). rewrite Z0, sin_0, cos_0 in Q.
  assert (N0 : normal_radius 0 = wgs84_a) by (unfold normal_radius; rewrite sin_0; replace (1 - wgs84_e ^ 2 * 0 ^ 2) with 1 by ring; rewrite sqrt_1; field).
  rewrite N0 in Q. assert (q = V 6378137 0 0). { injection Q as <-. unfold wgs84_a. f_equal; ring. } subst q.
  unfold ecef2ned, at_origin. rewrite L. eexists. reflexivity.
Qed.

Definition all_PropAtt := (C51_llarpy2ecef, C51_ecef2llarpy, C51_no_position, C51_round_trip, C53_ned2pae, C53_ecef2pae, C53_vertical).
Print Assumptions all_PropAtt.
