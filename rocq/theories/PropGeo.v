(** C45-C50, C53-C55: coordinate conversions (opendis/RangeCoordinates.py) *)
From Coq Require Import Reals Lra Lia Nsatz ZArith Ascii String List.
From Verif Require Import Real3 RangeCoordinates.
Import ListNotations.
Local Open Scope R_scope.

(** *** C45 *)
Theorem C45_angles x : rad2deg (deg2rad x) = x /\ deg2rad (rad2deg x) = x /\ deg2rad 180 = PI.
Proof. pose proof PI_RGT_0. unfold rad2deg, deg2rad. repeat split; field; lra. Qed.

(** the sum of the squared differences *)
Fixpoint sqd (u v : list R) : R := match u, v with x :: u', y :: v' => (x - y) * (x - y) + sqd u' v' | _, _ => 0 end.

Lemma sqd_pos u : forall v, 0 <= sqd u v.
Proof. induction u as [|x u IH]; intros [|y v]; cbn; try lra. pose proof (IH v). pose proof (Rle_0_sqr (x - y)). unfold Rsqr in *. lra. Qed.

Lemma distance_loop_ok : forall u r i t, (length u + i <= length r)%nat -> distance_loop u (Some r) i t = Ret (t + sqd u (skipn i r)).
Proof.
  induction u as [|x u IH]; intros r i t H; cbn [distance_loop length] in *; [cbn; f_equal; ring|].
  destruct (nth_error r i) as [y|] eqn:E; [|apply nth_error_None in E; lia].
  rewrite IH by lia. f_equal. assert (S : skipn i r = y :: skipn (S i) r).
  { clear -E. revert i E. induction r as [|z r IHr]; intros [|i] E; cbn in *; try discriminate; [now injection E as ->|]. rewrite (IHr i E). reflexivity. }
  rewrite S. cbn [sqd]. ring.
Qed.
Lemma distance_loop_short : forall u r i t, (i <= length r)%nat -> (length r < length u + i)%nat -> distance_loop u (Some r) i t = Raise BadIndex.
Proof.
  induction u as [|x u IH]; intros r i t Hi H; cbn [distance_loop length] in *; [lia|].
  destruct (nth_error r i) as [y|] eqn:E; [|reflexivity]. assert (i < length r)%nat by (apply nth_error_Some; congruence). apply IH; lia.
Qed.
Lemma distance_loop_none : forall u i t, distance_loop u None i t = Ret (t + sqd u (repeat 0 (length u))).
Proof. induction u as [|x u IH]; intros i t; cbn [distance_loop length repeat sqd]; [f_equal; ring|]. rewrite IH. f_equal. ring. Qed.

Lemma distance_is u v : length u = length v -> euclideanDistance u (Some v) = Ret (sqrt (sqd u v)).
Proof.
  intros H. unfold euclideanDistance. rewrite distance_loop_ok by lia. cbn [pbind skipn]. rewrite psqrt_ok; [now rewrite Rplus_0_l|]. pose proof (sqd_pos u v). lra.
Qed.

(** the dot product of two lists *)
Fixpoint ldot (u v : list R) : R := match u, v with x :: u', y :: v' => x * y + ldot u' v' | _, _ => 0 end.
Lemma ldot_sq_pos u : 0 <= ldot u u.
Proof. induction u as [|x u IH]; cbn; [lra|]. pose proof (Rle_0_sqr x). unfold Rsqr in *. lra. Qed.
Lemma cauchy : forall u v, ldot u v * ldot u v <= ldot u u * ldot v v.
Proof.
  induction u as [|x u IH]; intros [|y v]; cbn [ldot]; try nra.
  specialize (IH v). pose proof (ldot_sq_pos u) as A. pose proof (ldot_sq_pos v) as B. set (s := ldot u v) in *. set (a := ldot u u) in *. set (b := ldot v v) in *.
  assert (K : 2 * (s * (x * y)) <= a * (y * y) + b * (x * x)).
  { destruct (Rle_dec (2 * (s * (x * y))) 0) as [L|L].
    - assert (0 <= a * (y * y)) by (apply Rmult_le_pos; nra). assert (0 <= b * (x * x)) by (apply Rmult_le_pos; nra). lra.
    - apply Rsqr_incr_0_var; [|assert (0 <= a * (y * y)) by (apply Rmult_le_pos; nra); assert (0 <= b * (x * x)) by (apply Rmult_le_pos; nra); lra].
      unfold Rsqr. assert (Q : (s * s) * ((x * y) * (x * y)) <= (a * b) * ((x * y) * (x * y))) by (apply Rmult_le_compat_r; [nra|exact IH]).
      assert (0 <= (a * (y * y) - b * (x * x)) * (a * (y * y) - b * (x * x))) by (pose proof (Rle_0_sqr (a * (y * y) - b * (x * x))); unfold Rsqr in *; lra). nra. }
  nra.
Qed.
Lemma cauchy_sqrt u v : ldot u v <= sqrt (ldot u u) * sqrt (ldot v v).
Proof.
  rewrite <- sqrt_mult by apply ldot_sq_pos. destruct (Rle_dec (ldot u v) 0); [pose proof (sqrt_pos (ldot u u * ldot v v)); lra|].
  rewrite <- (sqrt_square (ldot u v)) by lra. apply sqrt_le_1_alt, cauchy.
Qed.
(** u - v *)
Fixpoint lsub (u v : list R) : list R := match u, v with x :: u', y :: v' => (x - y) :: lsub u' v' | _, _ => [] end.
Lemma sqd_dot : forall u v, sqd u v = ldot (lsub u v) (lsub u v).
Proof. induction u as [|x u IH]; intros [|y v]; cbn; try reflexivity. now rewrite IH. Qed.
Lemma sqd_expand : forall u v w, length u = length v -> length v = length w ->
  sqd u w = sqd u v + 2 * ldot (lsub u v) (lsub v w) + sqd v w.
Proof. induction u as [|x u IH]; intros [|y v] [|z w] H1 H2; cbn in *; try discriminate; try ring. rewrite (IH v w) by lia. ring. Qed.

Theorem C45_metric u v w : length u = length v -> length v = length w ->
  exists duv dvu dvw duw, euclideanDistance u (Some v) = Ret duv /\ euclideanDistance v (Some u) = Ret dvu /\ euclideanDistance v (Some w) = Ret dvw /\ euclideanDistance u (Some w) = Ret duw /\
  0 <= duv /\ (duv = 0 <-> u = v) /\ duv = dvu /\ duw <= duv + dvw.
Proof.
  intros H1 H2. rewrite !distance_is by lia. do 4 eexists. do 4 (split; [reflexivity|]). split; [apply sqrt_pos|]. split; [|split].
  - split; [|intros <-].
    + intros H. apply sqrt_eq_0 in H; [|apply sqd_pos]. clear H2. revert v H1 H. induction u as [|x u IH]; intros [|y v] H1 H; cbn in *; try discriminate; [reflexivity|].
      pose proof (sqd_pos u v). pose proof (Rle_0_sqr (x - y)). unfold Rsqr in *. assert (E : (x - y) * (x - y) = 0) by lra.
      apply Rmult_integral in E. f_equal; [destruct E; lra|]. apply IH; [lia|lra].
    + rewrite <- sqrt_0. f_equal. clear. induction u as [|x u IH]; cbn; [reflexivity|]. rewrite IH. ring.
  - f_equal. clear -H1. revert v H1. induction u as [|x u IH]; intros [|y v] H1; cbn in *; try discriminate; [reflexivity|]. rewrite (IH v) by lia. ring.
  - pose proof (sqrt_pos (sqd u v)) as P1. pose proof (sqrt_pos (sqd v w)) as P2.
    apply Rsqr_incr_0_var; [|lra]. unfold Rsqr. rewrite sqrt_sqrt by apply sqd_pos. rewrite (sqd_expand u v w H1 H2).
    pose proof (cauchy_sqrt (lsub u v) (lsub v w)) as C. rewrite <- !sqd_dot in C.
    pose proof (sqrt_sqrt _ (sqd_pos u v)). pose proof (sqrt_sqrt _ (sqd_pos v w)). nra.
Qed.
(** without a reference the distance is the one to the origin; a reference that is too short raises IndexError *)
Theorem C45_reference u v : euclideanDistance u None = euclideanDistance u (Some (repeat 0 (length u))) /\
  ((length v < length u)%nat -> euclideanDistance u (Some v) = Raise BadIndex).
Proof.
  split; [|intros H; unfold euclideanDistance; rewrite distance_loop_short by lia; reflexivity].
  rewrite distance_is by now rewrite repeat_length. unfold euclideanDistance. rewrite distance_loop_none. cbn [pbind]. rewrite Rplus_0_l. apply psqrt_ok, sqd_pos.
Qed.
Example C45_case : euclideanDistance [3; 0; 4] None = Ret 5 /\ euclideanDistance [1; 2] (Some [4; 6]) = Ret 5.
Proof.
  unfold euclideanDistance. cbn [distance_loop nth_error pbind]. rewrite !psqrt_ok by nra. split; f_equal; replace 5 with (sqrt (5 * 5)) by (apply sqrt_square; lra); f_equal; ring.
Qed.

(** *** C46 *)
Lemma ned_rotation lat lon : rotation (ecefvec2nedvec lat lon).
Proof.
  unfold ecefvec2nedvec. pose proof (sc lat) as A. pose proof (sc lon) as B. vecs.
  generalize dependent (sin lat). generalize dependent (cos lat). generalize dependent (sin lon). generalize dependent (cos lon). intros c s H1 c' s' H2.
  repeat split; repeat f_equal; nsatz.
Qed.

(** the outward unit normal of the ellipsoid at latitude lat, longitude lon (radians) *)
Definition up (lat lon : R) : vec := V (cos lat * cos lon) (cos lat * sin lon) (sin lat).
(** east: horizontal, towards growing longitude *)
Definition east (lon : R) : vec := V (- sin lon) (cos lon) 0.

Theorem C46_matrix lat lon : let m := ecefvec2nedvec lat lon in rotation m /\ r3 m = vscale (-1) (up lat lon) /\ r2 m = east lon /\ r1 m = vcross (up lat lon) (east lon).
Proof.
  cbv zeta. split; [apply ned_rotation|]. unfold ecefvec2nedvec, up, east, vcross, vscale. cbn [r1 r2 r3 vx vy vz].
  pose proof (sc lon) as B. repeat split; f_equal; try ring. transitivity (cos lat * (sin lon * sin lon + cos lon * cos lon)); [rewrite B|]; ring.
Qed.

Lemma ecef2ned_is n p o : ecef2ned n p o = at_origin n o (fun lat lon => Ret (mapply (ecefvec2nedvec lat lon) (vsub p o))).
Proof. reflexivity. Qed.
Lemma ned2ecef_is n d o : ned2ecef n d o = at_origin n o (fun lat lon => Ret (vadd (mapply (transposed (ecefvec2nedvec lat lon)) d) o)).
Proof. reflexivity. Qed.

Theorem C46_inverse n p o d : ecef2ned n p o = Some (Ret d) <-> ned2ecef n d o = Some (Ret p).
Proof.
  rewrite ecef2ned_is, ned2ecef_is. unfold at_origin. destruct (ecef2lla n o default_tolerance) as [[lla|e]|]; try (split; discriminate).
  set (lat := deg2rad (vx lla)). set (lon := deg2rad (vy lla)). pose proof (ned_rotation lat lon) as H. split; intros [= <-].
  - rewrite rot_inv by exact H. do 2 f_equal. destruct p. veq.
  - do 2 f_equal. replace (vsub (vadd (mapply (transposed (ecefvec2nedvec lat lon)) d) o) o) with (mapply (transposed (ecefvec2nedvec lat lon)) d) by (set (v := mapply _ d); clearbody v; clear; destruct v; veq).
    apply rot_inv', H.
Qed.
Theorem C46_isometry n p q o d e : ecef2ned n p o = Some (Ret d) -> ecef2ned n q o = Some (Ret e) -> norm (vsub d e) = norm (vsub p q) /\ norm d = norm (vsub p o).
Proof.
  rewrite !ecef2ned_is. unfold at_origin. destruct (ecef2lla n o default_tolerance) as [[lla|x]|]; try discriminate.
  set (lat := deg2rad (vx lla)). set (lon := deg2rad (vy lla)). pose proof (ned_rotation lat lon) as H. intros [= <-] [= <-]. split; [|now apply rot_norm].
  rewrite <- (rot_norm _ (vsub p q) H). f_equal. set (m := ecefvec2nedvec lat lon). clearbody m. clear. veq.
Qed.
(** the two conversions succeed and fail together; at the centre both raise *)
Theorem C46_together n p o d : (exists r, ecef2ned n p o = Some (Ret r)) <-> (exists r, ned2ecef n d o = Some (Ret r)).
Proof.
  rewrite ecef2ned_is, ned2ecef_is. unfold at_origin. destruct (ecef2lla n o default_tolerance) as [[lla|x]|]; split; intros (r & H); try discriminate; eauto.
Qed.
Theorem C46_centre n p : ecef2ned n p vzero = Some (Raise PlainException) /\ ned2ecef n p vzero = Some (Raise PlainException).
Proof.
  assert (E : ecef2lla n vzero default_tolerance = Some (Raise PlainException)).
  { unfold ecef2lla, vzero. cbn [vx vy vz]. cbv zeta. rewrite psqrt_ok by lra. unfold equal. destruct (Req_EM_T 0 0); [|lra]. cbn [andb]. destruct (Rlt_dec 0 0); [lra|]. reflexivity. }
  unfold ecef2ned, ned2ecef, at_origin. now rewrite E.
Qed.

(** *** C47 *)
Theorem C47_rodrigues t n v : mapply (rotate_3x3 t n) v = vadd (vadd (vscale ((1 - cos t) * vdot n v) n) (vscale (cos t) v)) (vscale (sin t) (vcross n v)).
Proof. unfold rotate_3x3. cbv zeta. veq. Qed.
Lemma mmul_add_l a b c : mmul (madd a b) c = madd (mmul a c) (mmul b c). Proof. veq. Qed.
Lemma mmul_add_r a b c : mmul a (madd b c) = madd (mmul a b) (mmul a c). Proof. veq. Qed.
Lemma mmul_scale_l k a b : mmul (mscale k a) b = mscale k (mmul a b). Proof. veq. Qed.
Lemma mmul_scale_r k a b : mmul a (mscale k b) = mscale k (mmul a b). Proof. veq. Qed.
(** A n n^T + B I + C [n]x *)
Definition comb (A B C : R) (n : vec) : mat :=
  madd (madd (mscale A (Mat (vscale (vx n) n) (vscale (vy n) n) (vscale (vz n) n))) (mscale B ident)) (mscale C (Mat (V 0 (- vz n) (vy n)) (V (vz n) 0 (- vx n)) (V (- vy n) (vx n) 0))).
Lemma comb_mul A B C A' B' C' n : mmul (comb A B C n) (comb A' B' C' n) = comb (A * A' * vdot n n + A * B' + A' * B + C * C') (B * B' - C * C' * vdot n n) (B * C' + B' * C) n.
Proof.
  unfold comb. set (P := Mat (vscale (vx n) n) (vscale (vy n) n) (vscale (vz n) n)). set (K := Mat (V 0 (- vz n) (vy n)) (V (vz n) 0 (- vx n)) (V (- vy n) (vx n) 0)).
  assert (PP : mmul P P = mscale (vdot n n) P) by (unfold P; clear; veq).
  assert (PK : mmul P K = mscale 0 ident) by (unfold P, K; clear; veq).
  assert (KP : mmul K P = mscale 0 ident) by (unfold P, K; clear; veq).
  assert (KK : mmul K K = madd P (mscale (- vdot n n) ident)) by (unfold P, K; clear; veq).
  rewrite !mmul_add_l, !mmul_add_r, !mmul_scale_l, !mmul_scale_r, PP, PK, KP, KK, !mmul_1_l, !mmul_1_r. clearbody P K. generalize (vdot n n). clear. intros d. veq.
Qed.
Lemma rotate_comb t n : rotate_3x3 t n = comb (1 - cos t) (cos t) (sin t) n.
Proof. reflexivity. Qed.

Theorem C47_compose s t n : vdot n n = 1 -> mmul (rotate_3x3 s n) (rotate_3x3 t n) = rotate_3x3 (s + t) n /\ rotate_3x3 0 n = ident.
Proof.
  intros H. split.
  - rewrite !rotate_comb, comb_mul, H, cos_plus, sin_plus. f_equal; ring.
  - rewrite rotate_comb, cos_0, sin_0. clear H. unfold comb. veq.
Qed.
Theorem C47_rotation t n : vdot n n = 1 -> rotation (rotate_3x3 t n) /\ mapply (rotate_3x3 t n) n = n.
Proof.
  intros H. split.
  - assert (T : forall t, transposed (rotate_3x3 t n) = rotate_3x3 (- t) n) by (intros; rewrite !rotate_comb, cos_neg, sin_neg; clear; unfold comb; veq).
    assert (O : forall t, mmul (rotate_3x3 t n) (transposed (rotate_3x3 t n)) = ident /\ mmul (transposed (rotate_3x3 t n)) (rotate_3x3 t n) = ident).
    { intros u. rewrite T. rewrite !(proj1 (C47_compose _ _ n H)). replace (u + - u) with 0 by ring. replace (- u + u) with 0 by ring. now rewrite (proj2 (C47_compose 0 0 n H)). }
    destruct (O t) as [O1 O2]. split; [exact O1|]. split; [exact O2|].
    assert (D : det (rotate_3x3 t n) * det (rotate_3x3 t n) = 1). { rewrite <- (det_tr (rotate_3x3 t n)) at 2. rewrite <- det_mul, O1. unfold ident. clear. vecs. ring. }
    assert (P : 0 <= det (rotate_3x3 t n)).
    { replace t with (t / 2 + t / 2) by field. rewrite <- (proj1 (C47_compose (t / 2) (t / 2) n H)), det_mul. apply Rle_0_sqr. }
    nra.
  - rewrite C47_rodrigues, H. destruct n as [a b c]. clear H. vecs. f_equal; ring.
Qed.
(** about the coordinate axes these are the elementary rotations *)
Theorem C47_axes t : rotate_3x3 t (V 0 0 1) = Rz t /\ rotate_3x3 t (V 0 1 0) = Ry t /\ rotate_3x3 t (V 1 0 0) = Rx t.
Proof. unfold rotate_3x3, Rx, Ry, Rz. cbv zeta. repeat split; veq. Qed.
Example C47_case : vdot (V (3 / 5) 0 (4 / 5)) (V (3 / 5) 0 (4 / 5)) = 1 /\ mapply (rotate_3x3 (PI / 2) (V 0 0 1)) (V 1 0 0) = V 0 1 0.
Proof. split; [unfold vdot; cbn; lra|]. rewrite C47_rodrigues, cos_PI2, sin_PI2. veq. Qed.

(** *** C48 *)
Lemma wgs_e2 : wgs84_e ^ 2 = 1 - (wgs84_b / wgs84_a) ^ 2.
Proof.
  unfold wgs84_e. replace (sqrt (wgs84_f * (2 - wgs84_f)) ^ 2) with (sqrt (wgs84_f * (2 - wgs84_f)) * sqrt (wgs84_f * (2 - wgs84_f))) by ring.
  rewrite sqrt_sqrt; unfold wgs84_f, wgs84_a, wgs84_b; [field|lra].
Qed.
Lemma wgs_e2_bounds : 0 < wgs84_e ^ 2 < 7 / 1000.
Proof. rewrite wgs_e2. unfold wgs84_a, wgs84_b. lra. Qed.
Lemma sin_sq_le x : 0 <= sin x ^ 2 <= 1.
Proof. pose proof (sc x). pose proof (Rle_0_sqr (cos x)). pose proof (Rle_0_sqr (sin x)). unfold Rsqr in *. split; nra. Qed.

(** the radius of curvature in the prime vertical *)
Definition normal_radius (lat : R) : R := wgs84_a / sqrt (1 - wgs84_e ^ 2 * sin lat ^ 2).
Lemma radicand lat : 0 < 1 - wgs84_e ^ 2 * sin lat ^ 2 <= 1.
Proof. pose proof wgs_e2_bounds. pose proof (sin_sq_le lat). nra. Qed.
Lemma normal_pos lat : 0 < normal_radius lat.
Proof. unfold normal_radius. pose proof (radicand lat). apply Rdiv_lt_0_compat; [unfold wgs84_a; lra|]. apply sqrt_lt_R0. lra. Qed.
Lemma normal_sq lat : normal_radius lat ^ 2 * (1 - wgs84_e ^ 2 * sin lat ^ 2) = wgs84_a ^ 2.
Proof.
  unfold normal_radius. pose proof (radicand lat) as H. set (q := 1 - wgs84_e ^ 2 * sin lat ^ 2) in *.
  assert (S : sqrt q <> 0) by (apply Rgt_not_eq, sqrt_lt_R0; lra). rewrite <- (sqrt_sqrt q) at 2 by lra. field. exact S.
Qed.

Lemma lla2ecef_is lla : let lat := deg2rad (vx lla) in let lon := deg2rad (vy lla) in let N := normal_radius lat in
  lla2ecef lla = Ret (V ((N + vz lla) * cos lat * cos lon) ((N + vz lla) * cos lat * sin lon) ((N * (1 - wgs84_e ^ 2) + vz lla) * sin lat)).
Proof.
  cbv zeta. unfold lla2ecef. cbv zeta. set (lat := deg2rad (vx lla)). replace ((wgs84_e * sin lat) ^ 2) with (wgs84_e ^ 2 * sin lat ^ 2) by ring.
  pose proof (radicand lat) as H. rewrite psqrt_ok by lra. cbn [pbind]. rewrite pdiv_ok by (apply Rgt_not_eq, sqrt_lt_R0; lra). reflexivity.
Qed.

(** on the WGS84 ellipsoid x^2/a^2 + y^2/a^2 + z^2/b^2 = 1 with semi-axes a = 6378137 m and b = 6356752.3142 m *)
Definition on_ellipsoid (p : vec) : Prop := let a := 6378137 in let b := 63567523142 / 10000 in vx p ^ 2 / a ^ 2 + vy p ^ 2 / a ^ 2 + vz p ^ 2 / b ^ 2 = 1.
(** the gradient of the left hand side, halved *)
Definition gradient (p : vec) : vec := let a := 6378137 in let b := 63567523142 / 10000 in V (vx p / a ^ 2) (vy p / a ^ 2) (vz p / b ^ 2).

Theorem C48_surface lat lon : exists p, lla2ecef (V lat lon 0) = Ret p /\ on_ellipsoid p /\
  exists k, 0 < k /\ gradient p = vscale k (up (deg2rad lat) (deg2rad lon)).
Proof.
  rewrite lla2ecef_is. cbn [vx vy vz]. eexists. split; [reflexivity|].
  set (l := deg2rad lat). set (m := deg2rad lon). pose proof (normal_sq l) as NS. pose proof (normal_pos l) as NP. set (N := normal_radius l) in *. clearbody N.
  assert (B : 1 - wgs84_e ^ 2 = (wgs84_b / wgs84_a) ^ 2) by (rewrite wgs_e2; ring).
  assert (A0 : wgs84_a <> 0) by (unfold wgs84_a; lra). assert (B0 : wgs84_b <> 0) by (unfold wgs84_b; lra).
  pose proof (sc l) as Sl. pose proof (sc m) as Sm.
  split.
  - unfold on_ellipsoid. cbv zeta. fold wgs84_a wgs84_b. cbn [vx vy vz]. rewrite B.
    transitivity (N ^ 2 * (cos l * cos l * (sin m * sin m + cos m * cos m) + (wgs84_b / wgs84_a) ^ 2 * sin l ^ 2) / wgs84_a ^ 2); [field; split; assumption|].
    rewrite Sm, <- B. replace (cos l * cos l * 1 + (1 - wgs84_e ^ 2) * sin l ^ 2) with ((sin l * sin l + cos l * cos l) - wgs84_e ^ 2 * sin l ^ 2) by ring. rewrite Sl.
    replace (N ^ 2 * (1 - wgs84_e ^ 2 * sin l ^ 2)) with (wgs84_a ^ 2) by exact (eq_sym NS). field. exact A0.
  - exists (N / wgs84_a ^ 2). split; [apply Rdiv_lt_0_compat; [exact NP|]; unfold wgs84_a; lra|].
    unfold gradient. cbv zeta. fold wgs84_a wgs84_b. unfold vscale, up. cbn [vx vy vz]. rewrite B. f_equal; field; try exact A0. split; assumption.
Qed.
Theorem C48_altitude lat lon h : norm (up (deg2rad lat) (deg2rad lon)) = 1 /\
  exists p q, lla2ecef (V lat lon 0) = Ret p /\ lla2ecef (V lat lon h) = Ret q /\ q = vadd p (vscale h (up (deg2rad lat) (deg2rad lon))).
Proof.
  split.
  - unfold norm, up, vdot. cbn [vx vy vz]. rewrite <- sqrt_1. f_equal. pose proof (sc (deg2rad lat)) as A. pose proof (sc (deg2rad lon)) as B.
    transitivity (cos (deg2rad lat) * cos (deg2rad lat) * (sin (deg2rad lon) * sin (deg2rad lon) + cos (deg2rad lon) * cos (deg2rad lon)) + sin (deg2rad lat) * sin (deg2rad lat)); [ring|]. rewrite B. lra.
  - rewrite !lla2ecef_is. cbn [vx vy vz]. do 2 eexists. do 2 (split; [reflexivity|]). unfold up. veq.
Qed.

(** the loop of ecef2lla leaves the true latitude and altitude unchanged *)
Lemma cos_lat_pos lat : -90 < lat < 90 -> 0 < cos (deg2rad lat).
Proof. intros H. pose proof PI_RGT_0. apply cos_gt_0; unfold deg2rad; nra. Qed.
Lemma atan_tan x : - (PI / 2) < x < PI / 2 -> atan (tan x) = x.
Proof. intros H. apply tan_is_inj; [pose proof (atan_bound (tan x)); lra|lra|]. apply tan_atan. Qed.

Lemma lla_step_fixed l alt : - (PI / 2) < l < PI / 2 -> 0 < normal_radius l + alt -> normal_radius l * (1 - wgs84_e ^ 2) + alt <> 0 ->
  lla_step ((normal_radius l + alt) * cos l) ((normal_radius l * (1 - wgs84_e ^ 2) + alt) * sin l) l (normal_radius l) alt = Ret (l, normal_radius l, alt).
Proof.
  intros Hl HN HD. assert (HC : 0 < cos l) by (apply cos_gt_0; lra). unfold lla_step. rewrite pdiv_ok by exact HD. cbn [pbind].
  replace ((normal_radius l * (1 - wgs84_e ^ 2) + alt) * sin l / (normal_radius l * (1 - wgs84_e ^ 2) + alt)) with (sin l) by (field; exact HD).
  rewrite pdiv_ok by nra. cbn [pbind].
  replace (((normal_radius l * (1 - wgs84_e ^ 2) + alt) * sin l + wgs84_e ^ 2 * normal_radius l * sin l) / ((normal_radius l + alt) * cos l)) with (tan l) by (unfold tan; field; split; lra).
  rewrite (atan_tan l Hl). replace ((wgs84_e * sin l) ^ 2) with (wgs84_e ^ 2 * sin l ^ 2) by ring. pose proof (radicand l) as Q.
  rewrite psqrt_ok by lra. cbn [pbind]. rewrite pdiv_ok by (apply Rgt_not_eq, sqrt_lt_R0; lra). cbn [pbind]. rewrite pdiv_ok by lra. cbn [pbind].
  fold (normal_radius l). repeat f_equal. field. lra.
Qed.

Theorem C48_fixed_point lat lon alt : -90 < lat < 90 -> 0 < normal_radius (deg2rad lat) + alt -> normal_radius (deg2rad lat) * (1 - wgs84_e ^ 2) + alt <> 0 ->
  exists q, lla2ecef (V lat lon alt) = Ret q /\
    (forall n tol prev, 0 < tol -> lla_loop (S n) tol (sqrt (vx q ^ 2 + vy q ^ 2)) (vz q) (deg2rad lat) prev (normal_radius (deg2rad lat)) alt = Some (Ret (deg2rad lat, alt))) /\
    (-180 < lon <= 180 -> rad2deg (atan2 (vy q) (vx q)) = lon).
Proof.
  intros Hl HN HD. rewrite lla2ecef_is. cbn [vx vy vz]. eexists. split; [reflexivity|]. cbn [vx vy vz].
  pose proof (cos_lat_pos lat Hl) as HC. set (l := deg2rad lat) in *. set (m := deg2rad lon).
  assert (HP : 0 < (normal_radius l + alt) * cos l) by (apply Rmult_lt_0_compat; assumption).
  assert (P : sqrt (((normal_radius l + alt) * cos l * cos m) ^ 2 + ((normal_radius l + alt) * cos l * sin m) ^ 2) = (normal_radius l + alt) * cos l).
  { replace (((normal_radius l + alt) * cos l * cos m) ^ 2 + ((normal_radius l + alt) * cos l * sin m) ^ 2) with (((normal_radius l + alt) * cos l) * ((normal_radius l + alt) * cos l) * (sin m * sin m + cos m * cos m)) by ring.
    rewrite sc, Rmult_1_r. apply sqrt_square. lra. }
  split.
  - intros n tol prev Ht. rewrite P. cbn [lla_loop]. destruct (Rle_dec tol (Rabs (l - prev))); [|reflexivity].
    rewrite lla_step_fixed; [|unfold l, deg2rad; pose proof PI_RGT_0; split; nra|exact HN|exact HD].
    assert (Z : Rabs (l - l) = 0) by (rewrite Rminus_diag_eq by reflexivity; apply Rabs_R0).
    destruct n; cbn [lla_loop]; rewrite Z; (destruct (Rle_dec tol 0); [lra|reflexivity]).
  - intros Hm. remember ((normal_radius l + alt) * cos l * cos m) as x eqn:Ex. remember ((normal_radius l + alt) * cos l * sin m) as y eqn:Ey.
    destruct (atan2_polar y x) as [A B]. replace (x * x + y * y) with (x ^ 2 + y ^ 2) in A, B by ring. rewrite P in A, B. rewrite Ex in A at 2. rewrite Ey in B at 2.
    apply Rmult_eq_reg_l in A; [|lra]. apply Rmult_eq_reg_l in B; [|lra].
    assert (E : atan2 y x = m). { pose proof (atan2_range y x). apply angle_eq; [assumption| |assumption..]. unfold m, deg2rad. pose proof PI_RGT_0. split; nra. }
    rewrite E. apply C45_angles.
Qed.

(** the equator and the poles need no iteration *)
Lemma pow2_0 x y : x ^ 2 + y ^ 2 = 0 -> x = 0 /\ y = 0.
Proof. intros H. split; nra. Qed.
Theorem C48_equator n lon alt tol : -180 < lon <= 180 -> 0 < wgs84_a + alt -> 0 < tol <= 90 ->
  exists q, lla2ecef (V 0 lon alt) = Ret q /\ vz q = 0 /\ ecef2lla (S n) q tol = Some (Ret (V 0 lon alt)).
Proof.
  intros Hm HN Ht. rewrite lla2ecef_is. cbn [vx vy vz].
  assert (Z0 : deg2rad 0 = 0) by (unfold deg2rad; lra). rewrite Z0.
  assert (N0 : normal_radius 0 = wgs84_a) by (unfold normal_radius; rewrite sin_0; replace (1 - wgs84_e ^ 2 * 0 ^ 2) with 1 by ring; rewrite sqrt_1; field).
  rewrite N0, cos_0, sin_0, Rmult_0_r. eexists. split; [reflexivity|]. split; [reflexivity|].
  unfold ecef2lla. cbv zeta. cbn [vx vy vz]. remember ((wgs84_a + alt) * 1 * cos (deg2rad lon)) as x eqn:Ex. remember ((wgs84_a + alt) * 1 * sin (deg2rad lon)) as y eqn:Ey.
  pose proof (sc (deg2rad lon)) as Sm.
  assert (Q : x ^ 2 + y ^ 2 = (wgs84_a + alt) * (wgs84_a + alt)).
  { rewrite Ex, Ey. transitivity ((wgs84_a + alt) * (wgs84_a + alt) * (sin (deg2rad lon) * sin (deg2rad lon) + cos (deg2rad lon) * cos (deg2rad lon))); [ring|]. rewrite Sm. ring. }
  assert (P : sqrt (x ^ 2 + y ^ 2) = wgs84_a + alt) by (rewrite Q; apply sqrt_square; lra).
  rewrite psqrt_ok by (rewrite Q; nra). rewrite P.
  assert (NZ : andb (equal x 0) (equal y 0) = false).
  { unfold equal. destruct (Req_EM_T x 0) as [->|]; [|reflexivity]. destruct (Req_EM_T y 0) as [->|]; [|reflexivity]. exfalso. nra. }
  rewrite NZ. cbn [lla_loop]. destruct (Rle_dec tol (Rabs (0 - 90))) as [_|C].
  2:{ exfalso. apply C. rewrite Rabs_left; lra. }
  assert (L : lla_step (wgs84_a + alt) 0 0 wgs84_a 0 = Ret (0, wgs84_a, alt)).
  { pose proof wgs_e2_bounds as EB. unfold lla_step. rewrite pdiv_ok by (unfold wgs84_a; nra). cbn [pbind].
    replace (0 / (wgs84_a * (1 - wgs84_e ^ 2) + 0)) with 0 by (field; unfold wgs84_a; nra).
    rewrite pdiv_ok by lra. cbn [pbind]. replace ((0 + wgs84_e ^ 2 * wgs84_a * 0) / (wgs84_a + alt)) with 0 by (field; lra).
    rewrite atan_0. replace (1 - (wgs84_e * 0) ^ 2) with 1 by ring. rewrite psqrt_ok by lra. cbn [pbind]. rewrite sqrt_1. rewrite pdiv_ok by lra. cbn [pbind].
    rewrite cos_0. rewrite pdiv_ok by lra. cbn [pbind]. f_equal. f_equal; [f_equal|]; field. }
  rewrite L. destruct n; cbn [lla_loop]; (destruct (Rle_dec tol (Rabs (0 - 0))) as [C|_]; [exfalso; rewrite Rminus_0_r, Rabs_R0 in C; lra|]).
  all: destruct (atan2_polar y x) as [A B]; replace (x * x + y * y) with (x ^ 2 + y ^ 2) in A, B by ring; rewrite P in A, B; rewrite Ex in A at 2; rewrite Ey in B at 2; rewrite !Rmult_1_r in A, B;
    apply Rmult_eq_reg_l in A; [|lra]; apply Rmult_eq_reg_l in B; [|lra];
    (assert (E : atan2 y x = deg2rad lon) by (pose proof (atan2_range y x); apply angle_eq; [assumption| |assumption..]; unfold deg2rad; pose proof PI_RGT_0; split; nra));
    rewrite E; repeat f_equal; [unfold rad2deg; field; apply PI_neq0|apply C45_angles].
Qed.

Lemma round_close x : Rabs (round2 x - x) <= 5 / 1000.
Proof.
  unfold round2, round_even. destruct (base_Int_part (100 * x)) as [A B]. set (n := Int_part (100 * x)) in *. cbv zeta.
  destruct (Rlt_dec (100 * x - IZR n) (1 / 2)); [|destruct (Rlt_dec (1 / 2) (100 * x - IZR n)); [|destruct (Z.even n)]];
    rewrite ?plus_IZR; apply Rabs_le; split; lra.
Qed.
Theorem C48_poles n s lon alt tol : s = 1 \/ s = -1 -> 0 < wgs84_b + alt ->
  exists q h, lla2ecef (V (s * 90) lon alt) = Ret q /\ ecef2lla n q tol = Some (Ret (V (s * 90) 69 h)) /\ Rabs (h - alt) <= 5 / 1000.
Proof.
  intros Hs HN. rewrite lla2ecef_is. cbn [vx vy vz].
  assert (Z : deg2rad (s * 90) = s * (PI / 2)) by (unfold deg2rad; field). rewrite Z.
  assert (CS : cos (s * (PI / 2)) = 0 /\ sin (s * (PI / 2)) = s).
  { destruct Hs; subst s; [rewrite Rmult_1_l, cos_PI2, sin_PI2; split; reflexivity|].
    replace (-1 * (PI / 2)) with (- (PI / 2)) by ring. rewrite cos_neg, sin_neg, cos_PI2, sin_PI2. split; lra. }
  destruct CS as [C S]. rewrite C, S.
  assert (NB : normal_radius (s * (PI / 2)) * (1 - wgs84_e ^ 2) = wgs84_b).
  { unfold normal_radius. rewrite S. replace (1 - wgs84_e ^ 2 * s ^ 2) with ((wgs84_b / wgs84_a) * (wgs84_b / wgs84_a)) by (rewrite wgs_e2; destruct Hs; subst s; ring).
    replace (1 - wgs84_e ^ 2) with ((wgs84_b / wgs84_a) ^ 2) by (rewrite wgs_e2; ring).
    rewrite sqrt_square by (unfold wgs84_a, wgs84_b; lra). field. unfold wgs84_a, wgs84_b; lra. }
  rewrite NB. exists (V 0 0 (s * (wgs84_b + alt))), (round2 alt). split; [f_equal; f_equal; ring|]. split; [|apply round_close].
  unfold ecef2lla. cbv zeta. cbn [vx vy vz]. replace (0 ^ 2 + 0 ^ 2) with 0 by ring. rewrite psqrt_ok by lra.
  unfold equal. destruct (Req_EM_T 0 0) as [_|C0]; [|contradiction]. cbn [andb].
  destruct Hs; subst s.
  - destruct (Rlt_dec 0 (1 * (wgs84_b + alt))); [|lra]. repeat f_equal; ring.
  - destruct (Rlt_dec 0 (-1 * (wgs84_b + alt))); [lra|]. destruct (Rlt_dec (-1 * (wgs84_b + alt)) 0); [|lra]. repeat f_equal; ring.
Qed.
Example C48_case : 0 < normal_radius (deg2rad 45) + 100 /\ normal_radius (deg2rad 45) * (1 - wgs84_e ^ 2) + 100 <> 0 /\ 0 < wgs84_a + -500 /\ 0 < wgs84_b + -500.
Proof. pose proof (normal_pos (deg2rad 45)). pose proof wgs_e2_bounds. repeat split; [lra|nra|unfold wgs84_a; lra|unfold wgs84_b; lra]. Qed.

(** *** C49 *)
(** the exceptional areas: south-western Norway and Svalbard, with their zones *)
Definition exceptional (lat lon : R) (z : Z) : Prop :=
  56 <= lat < 64 /\ 3 <= lon < 12 /\ z = 32%Z \/
  72 <= lat < 84 /\ (0 <= lon < 9 /\ z = 31%Z \/ 9 <= lon < 21 /\ z = 33%Z \/ 21 <= lon < 33 /\ z = 35%Z \/ 33 <= lon < 42 /\ z = 37%Z).
(** the meridian in the middle of zone z *)
Definition central_meridian (z : Z) : R := 6 * IZR z - 183.
(** the text of a zone: the number, then the letter of the latitude band *)
Definition zone_text (z : Z) (c : ascii) : string := append (DecimalString.NilZero.string_of_int (Z.to_int z)) (String c EmptyString).

Lemma between_spec lo x hi : Bool.reflect (lo <= x < hi) (between lo x hi).
Proof. unfold between. destruct (Rle_dec lo x); [destruct (Rlt_dec x hi)|]; constructor; lra. Qed.
Lemma utm_runs lla : exists r, lla2utm lla = Ret r /\ utm_zone_name r = zone_text (utm_zone (vx lla) (vy lla)) (utmLetterDesignator (vx lla)).
Proof.
  pose proof wgs_e2_bounds as EB. unfold lla2utm. cbv zeta. rewrite pdiv_ok by lra. cbn [pbind]. pose proof (radicand (deg2rad (vx lla))) as Q. rewrite psqrt_ok by lra. cbn [pbind].
  rewrite pdiv_ok by (apply Rgt_not_eq, sqrt_lt_R0; lra). cbn [pbind]. eexists. split; [reflexivity|]. reflexivity.
Qed.
Lemma zone_cases lat lon z : utm_zone lat lon = z -> exceptional lat lon z \/ (forall z', ~ exceptional lat lon z') /\ z = (pyint ((lon + 180) / 6) + 1)%Z.
Proof.
  intros <-. unfold utm_zone, exceptional. cbv zeta.
  repeat match goal with |- context [between ?a ?b ?c] => destruct (between_spec a b c) end;
  solve [left; left; repeat split; lra | left; right; split; [lra|]; lra || (left; repeat split; lra) || (right; left; repeat split; lra) || (right; right; left; repeat split; lra) || (right; right; right; repeat split; lra) | right; split; [intros z' H; lra|reflexivity] ].
Qed.
Lemma pyint_floor x : 0 <= x -> IZR (pyint x) <= x < IZR (pyint x) + 1.
Proof. intros H. unfold pyint. destruct (Rlt_dec x 0); [lra|]. destruct (base_Int_part x). lra. Qed.

Theorem C49_zone_partial lat lon alt : -180 <= lon < 180 -> exists r z c, lla2utm (V lat lon alt) = Ret r /\ utm_zone_name r = zone_text z c /\
  (1 <= z <= 60)%Z /\ Rabs (lon - central_meridian z) <= 6 /\ (exceptional lat lon z \/ (forall z', ~ exceptional lat lon z') /\ Rabs (lon - central_meridian z) <= 3).
Proof.
  intros H. destruct (utm_runs (V lat lon alt)) as (r & E & T). cbn [vx vy] in T. exists r, (utm_zone lat lon), (utmLetterDesignator lat). split; [exact E|]. split; [exact T|].
  destruct (zone_cases lat lon _ eq_refl) as [X|[X Y]].
  - assert (K : (1 <= utm_zone lat lon <= 60)%Z /\ Rabs (lon - central_meridian (utm_zone lat lon)) <= 6).
    { unfold central_meridian. destruct X as [(A & B & ->)|(A & [(B & ->)|[(B & ->)|[(B & ->)|(B & ->)]]])]; (split; [lia|apply Rabs_le; lra]). }
    destruct K. repeat split; try lia; try assumption. left. exact X.
  - destruct (pyint_floor ((lon + 180) / 6)) as [A B]; [lra|]. set (k := pyint ((lon + 180) / 6)) in *.
    assert (0 <= k)%Z by (enough (-1 < k)%Z by lia; apply lt_IZR; lra). assert (k < 60)%Z by (apply lt_IZR; lra).
    assert (D : Rabs (lon - central_meridian (utm_zone lat lon)) <= 3) by (rewrite Y; unfold central_meridian; rewrite plus_IZR; apply Rabs_le; lra).
    repeat split; try (rewrite Y; lia); [lra|]. right. split; [exact X|exact D].
Qed.
(** the zone of an ordinary point is determined: zones are six degrees wide, west end included *)
Theorem C49_boundaries lat lon alt z : (1 <= z <= 60)%Z -> central_meridian z - 3 <= lon < central_meridian z + 3 -> (forall z', ~ exceptional lat lon z') ->
  exists r c, lla2utm (V lat lon alt) = Ret r /\ utm_zone_name r = zone_text z c.
Proof.
  intros Hz H X. destruct (utm_runs (V lat lon alt)) as (r & E & T). cbn [vx vy] in T. exists r, (utmLetterDesignator lat). split; [exact E|]. rewrite T. f_equal.
  destruct (zone_cases lat lon _ eq_refl) as [Y|[_ Y]]; [destruct (X _ Y)|]. rewrite Y. unfold central_meridian in H.
  assert (1 <= IZR z) by (apply (IZR_le 1); lia). destruct (pyint_floor ((lon + 180) / 6)) as [A B]; [lra|]. set (k := pyint ((lon + 180) / 6)) in *.
  assert (k < z)%Z by (apply lt_IZR; lra). assert (z - 1 < k + 1)%Z by (apply lt_IZR; rewrite minus_IZR, plus_IZR; lra). lia.
Qed.
Theorem C49_exceptional lat lon alt z : exceptional lat lon z -> exists r c, lla2utm (V lat lon alt) = Ret r /\ utm_zone_name r = zone_text z c.
Proof.
  intros X. destruct (utm_runs (V lat lon alt)) as (r & E & T). cbn [vx vy] in T. exists r, (utmLetterDesignator lat). split; [exact E|]. rewrite T. f_equal.
  destruct (zone_cases lat lon _ eq_refl) as [Y|[Y _]]; [|destruct (Y _ X)]. unfold exceptional in X, Y.
  repeat match goal with H : _ \/ _ |- _ => destruct H | H : _ /\ _ |- _ => destruct H end; try congruence; exfalso; lra.
Qed.
(** for instance *)
Lemma zone_text_case : zone_text 31 "N" = "31N"%string.
Proof. reflexivity. Qed.
(** at longitude 180 the zone is 61, which is out of range *)
Theorem C49_zone_refuted lat alt : exists r, lla2utm (V lat 180 alt) = Ret r /\ exists c, utm_zone_name r = String "6" (String "1" (String c EmptyString)).
Proof.
  destruct (utm_runs (V lat 180 alt)) as (r & E & T). cbn [vx vy] in T. exists r. split; [exact E|]. exists (utmLetterDesignator lat). rewrite T.
  destruct (zone_cases lat 180 _ eq_refl) as [Y|[_ Y]].
  - exfalso. unfold exceptional in Y. lra.
  - replace ((180 + 180) / 6) with 60 in Y by field. destruct (pyint_floor 60) as [A B]; [lra|]. assert (pyint 60 = 60%Z). { assert (pyint 60 < 61)%Z by (apply lt_IZR; lra). assert (59 < pyint 60)%Z by (apply lt_IZR; lra). lia. }
    rewrite Y, H. reflexivity.
Qed.
Example C49_case : exceptional 60 5 32 /\ (forall z', ~ exceptional 60 2 z') /\ central_meridian 31 - 3 <= 2 < central_meridian 31 + 3.
Proof. unfold exceptional, central_meridian. split; [|split]; [|intros z'|]; lra || (left; repeat split; lra). Qed.

(** *** C50 *)
Definition band_letters : string := "CDEFGHJKLMNPQRSTUVWX".
(** the band of a latitude counted from the south: bands are 8 degrees high, from -80 to 80 *)
Definition in_band (k : nat) (lat : R) : Prop := (k < 20)%nat /\ -80 + 8 * INR k <= lat < -80 + 8 * (INR k + 1).

Theorem C50_bands k lat : in_band k lat -> String.get k band_letters = Some (utmLetterDesignator lat).
Proof.
  intros [K H].
  do 20 (destruct k as [|k]; [unfold utmLetterDesignator; cbn [INR] in H; repeat (match goal with |- context [between ?a ?b ?c] => destruct (between_spec a b c); [first [exfalso; lra|reflexivity]|first [exfalso; lra|idtac]] end)|]). lia.
Qed.
Theorem C50_outside lat : lat < -80 \/ 80 <= lat -> utmLetterDesignator lat = "Z"%char.
Proof. intros H. unfold utmLetterDesignator. repeat (match goal with |- context [between ?a ?b ?c] => destruct (between_spec a b c) end; [exfalso; lra|]). reflexivity. Qed.
Lemma every_band lat : -80 <= lat < 80 -> exists k, in_band k lat.
Proof.
  intros H. destruct (pyint_floor ((lat + 80) / 8)) as [A B]; [lra|]. set (z := pyint ((lat + 80) / 8)) in *.
  assert (-1 < z)%Z by (apply lt_IZR; lra). assert (z < 20)%Z by (apply lt_IZR; lra). exists (Z.to_nat z). unfold in_band. rewrite INR_IZR_INZ, Z2Nat.id by lia. split; [lia|lra].
Qed.
Theorem C50_letters lat : (exists k, (k < 20)%nat /\ String.get k band_letters = Some (utmLetterDesignator lat)) <-> -80 <= lat < 80.
Proof.
  split.
  - intros (k & K & E). destruct (Rlt_dec lat (-80)); [|destruct (Rle_dec 80 lat)]; try lra; rewrite C50_outside in E by lra; exfalso; do 20 (destruct k as [|k]; [discriminate E|]); lia.
  - intros H. destruct (every_band lat H) as [k Hk]. exists k. split; [apply Hk|]. apply C50_bands, Hk.
Qed.
Theorem C50_monotone lat lat' : -80 <= lat <= lat' -> (nat_of_ascii (utmLetterDesignator lat) <= nat_of_ascii (utmLetterDesignator lat'))%nat.
Proof.
  intros H. unfold utmLetterDesignator.
  repeat (match goal with |- context [between ?a lat ?c] => destruct (between_spec a lat c) end; [|]);
  repeat (match goal with |- context [between ?a lat' ?c] => destruct (between_spec a lat' c) end; [first [exfalso; lra|cbn; lia]|]); cbn; lia.
Qed.
Theorem C50_no_i_o lat : utmLetterDesignator lat <> "I"%char /\ utmLetterDesignator lat <> "O"%char.
Proof. unfold utmLetterDesignator. repeat match goal with |- context [between ?a ?b ?c] => destruct (between a b c); [split; discriminate|] end. split; discriminate. Qed.
(** the standard's northernmost band X reaches to 84 degrees; the code gives those latitudes the letter Z *)
Theorem C50_band_x_refuted lat : 80 <= lat < 84 -> utmLetterDesignator lat <> "X"%char.
Proof. intros H. rewrite C50_outside by lra. discriminate. Qed.
Example C50_case : in_band 15 47 /\ utmLetterDesignator 47 = "T"%char.
Proof. assert (B : in_band 15 47) by (unfold in_band; split; [lia|cbn [INR]; lra]). split; [exact B|]. apply C50_bands in B. injection B as <-. reflexivity. Qed.

Definition all_PropGeo := (C45_angles, C45_metric, C45_reference, C46_matrix, C46_inverse, C46_isometry, C46_together, C46_centre, C47_rodrigues, C47_compose, C47_rotation, C47_axes,
  C48_surface, C48_altitude, C48_fixed_point, C48_equator, C48_poles, C49_zone_partial, C49_boundaries, C49_exceptional, C49_zone_refuted, C50_bands, C50_outside, C50_letters, C50_monotone, C50_no_i_o, C50_band_x_refuted).
Print Assumptions all_PropGeo.
