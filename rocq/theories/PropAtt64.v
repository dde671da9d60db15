(** C74: attitudes are converted accurately in double precision *)
From Coq Require Import Reals ZArith Lra Lia List.
From Flocq Require Import Core Binary Bits.
From Verif Require Import Real3 RangeCoordinates PropGeo PropAtt Conv PropConv Float64 DeadReckoning64 Range64 FloatErr PropDR64 PropDR64b FloatAbs PropRange64 RangeErr PropLla64 PropNed64 Attitude64 AttErr.
Import ListNotations.
Local Open Scope R_scope.

(** ** The angles of a frame, over the reals *)
Lemma near_1 S e : Rabs (S - 1) <= e -> e <= / 100 -> Rabs (sqrt S - 1) <= 503 / 1000 * e.
Proof.
  intros H He. assert (e0 : 0 <= e) by (pose proof (Rabs_pos (S - 1)); lra). assert (HB := H). apply Rabs_le_inv in HB. assert (S0 : 0 <= S) by lra. assert (Q := sqrt_sqrt S S0). assert (Q0 := sqrt_pos S). set (q := sqrt S) in *.
  assert (Q1 : 99 / 100 <= q) by (apply Rnot_lt_le; intros K; nra). apply Rmult_le_reg_r with (q + 1); [lra|]. rewrite <- (Rabs_pos_eq (q + 1)) at 1 by lra. rewrite <- Rabs_mult. replace ((q - 1) * (q + 1)) with (S - 1) by (rewrite <- Q; ring).
  eapply Rle_trans; [exact H|]. assert (e * (199 / 100) <= e * (q + 1)) by (apply Rmult_le_compat_l; lra). lra.
Qed.
Lemma cos_near x t d : Rabs (x - t) <= d -> Rabs (cos x - cos t) <= d. Proof. intros H. eapply Rle_trans; [apply cos_lipschitz|exact H]. Qed.
Lemma sin_near x t d : Rabs (x - t) <= d -> Rabs (sin x - sin t) <= d. Proof. intros H. eapply Rle_trans; [apply sin_lipschitz|exact H]. Qed.
Lemma prod_1 a b A B d : Rabs (a - A) <= d -> Rabs (b - B) <= d -> Rabs b <= 1 -> Rabs A <= 1 -> Rabs (a * b - A * B) <= 2 * d.
Proof.
  intros H1 H2 Hb HA. replace (a * b - A * B) with ((a - A) * b + A * (b - B)) by ring. eapply Rle_trans; [apply Rabs_triang|]. rewrite !Rabs_mult.
  assert (Rabs (a - A) * Rabs b <= d * 1) by (apply Rmult_le_compat; auto using Rabs_pos). assert (Rabs A * Rabs (b - B) <= 1 * d) by (apply Rmult_le_compat; auto using Rabs_pos). lra.
Qed.

Lemma axis_x v p q s h psi theta t t2 : unit3 v -> Rabs (p - vx v) <= 19800 * u -> Rabs (q - vy v) <= 19800 * u -> Rabs (s - vz v) <= 19800 * u ->
  Rabs (h - sqrt (p * p + q * q)) <= 10 * u -> 0 <= h -> sqrt (p * p + q * q) * cos t = p -> sqrt (p * p + q * q) * sin t = q -> Rabs (psi - t) <= 7 * u ->
  sqrt (h * h + - s * - s) * cos t2 = h -> sqrt (h * h + - s * - s) * sin t2 = - s -> Rabs (theta - t2) <= 7 * u ->
  Rabs (cos psi * cos theta - vx v) <= 54400 * u /\ Rabs (sin psi * cos theta - vy v) <= 54400 * u /\ Rabs (- sin theta - vz v) <= 54400 * u.
Proof.
  intros U Hp Hq Hs Hh h0 C1 S1 Ps C2 S2 Th. set (rho := sqrt (p * p + q * q)) in *. assert (RR : rho * rho = p * p + q * q) by (apply sqrt_sqrt; nra). assert (R0 : 0 <= rho) by apply sqrt_pos.
  assert (VX := unit_rc v AX U). assert (VY := unit_rc v AY U). assert (VZ := unit_rc v AZ U). cbn [rc] in VX, VY, VZ. unfold unit3 in U.
  set (e1 := p - vx v) in *. set (e2 := q - vy v) in *. set (e3 := s - vz v) in *. assert (K := row3 v e1 e2 e3 _ U Hp Hq Hs). assert (UP : 0 < u <= / 10 ^ 15) by num.
  assert (SQ : forall e, Rabs e <= 19800 * u -> 0 <= e * e <= / 100 * u).
  { intros e He. split; [nra|]. replace (e * e) with (Rabs e * Rabs e) by (rewrite <- Rabs_mult, Rabs_pos_eq; nra). apply Rle_trans with (19800 * u * (19800 * u)); [apply Rmult_le_compat; auto using Rabs_pos|]. replace (19800 * u * (19800 * u)) with (392040000 * u * u) by ring. apply Rmult_le_compat_r; num. }
  assert (Q1 := SQ e1 Hp). assert (Q2 := SQ e2 Hq). assert (Q3 := SQ e3 Hs). clear SQ.
  assert (SUM : Rabs (p * p + q * q + s * s - 1) <= 68600 * u).
  { replace (p * p + q * q + s * s - 1) with (2 * (vx v * e1 + vy v * e2 + vz v * e3) + (e1 * e1 + e2 * e2 + e3 * e3) + (vx v * vx v + vy v * vy v + vz v * vz v - 1)) by (unfold e1, e2, e3; ring). rewrite U. apply Rabs_le_inv in K. apply Rabs_le. lra. }
  assert (R1 : rho <= 101 / 100). { apply Rnot_lt_le. intros B. apply Rabs_le_inv in SUM. assert (0 <= s * s) by nra. assert (rho * rho <= 102 / 100) by (rewrite RR; num). nra. }
  set (g := h - rho) in *. assert (HH : Rabs (h * h - rho * rho) <= 21 * u).
  { replace (h * h - rho * rho) with (2 * rho * g + g * g) by (unfold g; ring). eapply Rle_trans; [apply Rabs_triang|]. rewrite !Rabs_mult, (Rabs_pos_eq 2), (Rabs_pos_eq rho) by lra.
    assert (2 * rho * Rabs g <= 2 * (101 / 100) * (10 * u)) by (apply Rmult_le_compat; [lra|apply Rabs_pos|lra|exact Hh]). assert (Rabs g * Rabs g <= 10 * u * (10 * u)) by (apply Rmult_le_compat; auto using Rabs_pos). assert (10 * u * (10 * u) <= / 100 * u) by (rewrite <- Rmult_assoc; apply Rmult_le_compat_r; num). lra. }
  set (w := sqrt (h * h + - s * - s)) in *. assert (W1 : Rabs (w - 1) <= 34520 * u).
  { apply Rle_trans with (503 / 1000 * (68621 * u)); [|lra]. apply near_1; [|num]. replace (h * h + - s * - s - 1) with ((h * h - rho * rho) + (rho * rho + s * s - 1)) by ring. assert (SUM' : Rabs (rho * rho + s * s - 1) <= 68600 * u) by (rewrite RR; exact SUM). eapply Rle_trans; [apply Rabs_triang|]. lra. }
  assert (CT := COS_bound t). assert (ST := SIN_bound t). assert (CT2 := COS_bound t2). assert (ST2 := SIN_bound t2).
  assert (BC : forall x, -1 <= x <= 1 -> Rabs x <= 1) by (intros; apply Rabs_le; lra).
  assert (DP := cos_near _ _ _ Ps). assert (DP' := sin_near _ _ _ Ps). assert (DT := cos_near _ _ _ Th). assert (DT' := sin_near _ _ _ Th).
  assert (PC := prod_1 _ _ _ _ _ DP DT (BC _ (COS_bound theta)) (BC _ CT)). assert (PS := prod_1 _ _ _ _ _ DP' DT (BC _ (COS_bound theta)) (BC _ ST)).
  assert (ONE : forall c, Rabs c <= 1 -> Rabs (c * cos t2 - rho * c) <= 34530 * u).
  { intros c Hc. replace (c * cos t2 - rho * c) with (c * cos t2 * (1 - w) + c * (w * cos t2 - rho)) by ring. rewrite C2. fold g. eapply Rle_trans; [apply Rabs_triang|]. rewrite !Rabs_mult. rewrite (Rabs_minus_sym 1 w).
    assert (Rabs c * Rabs (cos t2) <= 1 * 1) by (apply Rmult_le_compat; auto using Rabs_pos). assert (Rabs c * Rabs (cos t2) * Rabs (w - 1) <= 1 * (34520 * u)) by (apply Rmult_le_compat; auto using Rabs_pos; [apply Rmult_le_pos; apply Rabs_pos|lra]). assert (Rabs c * Rabs g <= 1 * (10 * u)) by (apply Rmult_le_compat; auto using Rabs_pos). lra. }
  assert (O1 := ONE _ (BC _ CT)). assert (O2 := ONE _ (BC _ ST)). rewrite C1 in O1. rewrite S1 in O2. apply Rabs_le_inv in Hp, Hq, Hs, PC, PS, O1, O2, DT'. unfold e1 in Hp. unfold e2 in Hq. unfold e3 in Hs.
  split; [apply Rabs_le; lra|]. split; [apply Rabs_le; lra|].
  assert (O3 : Rabs (sin t2 + s) <= 34520 * u).
  { replace (sin t2 + s) with (sin t2 * (1 - w) + (w * sin t2 + s)) by ring. rewrite S2. replace (- s + s) with 0 by ring. rewrite Rplus_0_r, Rabs_mult, (Rabs_minus_sym 1 w). replace (34520 * u) with (1 * (34520 * u)) by ring. apply Rmult_le_compat; auto using Rabs_pos. }
  apply Rabs_le_inv in O3. apply Rabs_le. lra.
Qed.

(** the coordinates of a unit vector in a frame whose first axis it is nearly orthogonal to, and the angle computed from them *)
Lemma axis_y c a b ah bh phi t : c * c + a * a + b * b = 1 -> Rabs c <= 94300 * u -> Rabs (ah - a) <= 21400 * u -> Rabs (bh - b) <= 21400 * u ->
  sqrt (ah * ah + bh * bh) * cos t = ah -> sqrt (ah * ah + bh * bh) * sin t = bh -> Rabs (phi - t) <= 7 * u -> Rabs (cos phi - a) <= 58800 * u /\ Rabs (sin phi - b) <= 58800 * u.
Proof.
  intros U Hc Ha Hb C S P. assert (U3 : unit3 (V c a b)) by exact U. set (e1 := ah - a) in *. set (e2 := bh - b) in *. assert (Z0 : Rabs 0 <= 21400 * u) by (rewrite Rabs_R0; num). assert (K := row3 (V c a b) 0 e1 e2 _ U3 Z0 Ha Hb). cbn [vx vy vz] in K. rewrite Rmult_0_r, Rplus_0_l in K.
  assert (UP : 0 < u) by num. assert (SQ : forall e, Rabs e <= 94300 * u -> 0 <= e * e <= / 100 * u).
  { intros e He. split; [nra|]. replace (e * e) with (Rabs e * Rabs e) by (rewrite <- Rabs_mult, Rabs_pos_eq; nra). apply Rle_trans with (94300 * u * (94300 * u)); [apply Rmult_le_compat; auto using Rabs_pos|]. replace (94300 * u * (94300 * u)) with (94300 * 94300 * u * u) by ring. apply Rmult_le_compat_r; num. }
  assert (Q1 := SQ e1 ltac:(lra)). assert (Q2 := SQ e2 ltac:(lra)). assert (Q3 := SQ c Hc). clear SQ. set (w := sqrt (ah * ah + bh * bh)) in *.
  assert (W : Rabs (w - 1) <= 37300 * u).
  { apply Rle_trans with (503 / 1000 * (74140 * u)); [|lra]. apply near_1; [|num]. replace (ah * ah + bh * bh - 1) with (2 * (a * e1 + b * e2) + (e1 * e1 + e2 * e2) - c * c + (c * c + a * a + b * b - 1)) by (unfold e1, e2; ring). rewrite U. apply Rabs_le_inv in K. apply Rabs_le. lra. }
  assert (B : forall x, -1 <= x <= 1 -> Rabs (x - w * x) <= 37300 * u).
  { intros x Hx. replace (x - w * x) with (x * (1 - w)) by ring. rewrite Rabs_mult, (Rabs_minus_sym 1 w). replace (37300 * u) with (1 * (37300 * u)) by ring. apply Rmult_le_compat; auto using Rabs_pos. apply Rabs_le; lra. }
  assert (B1 := B _ (COS_bound t)). assert (B2 := B _ (SIN_bound t)). rewrite C in B1. rewrite S in B2. assert (D := cos_near _ _ _ P). assert (D' := sin_near _ _ _ P). apply Rabs_le_inv in D, D', B1, B2, Ha, Hb. unfold e1 in Ha. unfold e2 in Hb. split; apply Rabs_le; lra.
Qed.

(** two rotations whose first two columns are close are close *)
Definition col_near (m n : mat) (e : vec) (d : R) : Prop := forall i, Rabs (rc i (mapply m e) - rc i (mapply n e)) <= d.
Lemma third_column m n : rotation m -> rotation n -> col_near m n ex (54400 * u) -> col_near m n ey (163400 * u) -> col_near m n ez (377300 * u).
Proof.
  intros Hm Hn X Y. assert (Xy : ez = vcross ex ey) by axes. intros i. rewrite Xy, !rot_cross by assumption. destruct (ex_unit m Hm) as (_ & UY & _). destruct (ex_unit n Hn) as (UX & _ & _).
  set (x' := mapply m ex) in *. set (y' := mapply m ey) in *. set (x := mapply n ex) in *. set (y := mapply n ey) in *.
  assert (X1 := X AX). assert (X2 := X AY). assert (X3 := X AZ). assert (Y1 := Y AX). assert (Y2 := Y AY). assert (Y3 := Y AZ). fold x x' in X1, X2, X3. fold y y' in Y1, Y2, Y3. cbn [rc] in *.
  assert (R0 : forall d, 0 <= d -> Rabs 0 <= d) by (intros; rewrite Rabs_R0; assumption). assert (NG : forall d a, Rabs a <= d -> Rabs (- a) <= d) by (intros; rewrite Rabs_Ropp; assumption).
  assert (P1 : 0 <= 54400 * u) by num. assert (P2 : 0 <= 163400 * u) by num.
  destruct i; cbn [rc vcross vx vy vz].
  - assert (A := row3 y' 0 (- (vz x' - vz x)) (vy x' - vy x) _ UY (R0 _ P1) (NG _ _ X3) X2). assert (B := row3 x 0 (vz y' - vz y) (- (vy y' - vy y)) _ UX (R0 _ P2) Y3 (NG _ _ Y2)).
    replace (vy x' * vz y' - vz x' * vy y' - (vy x * vz y - vz x * vy y)) with ((vx y' * 0 + vy y' * - (vz x' - vz x) + vz y' * (vy x' - vy x)) + (vx x * 0 + vy x * (vz y' - vz y) + vz x * - (vy y' - vy y))) by ring.
    eapply Rle_trans; [apply Rabs_triang|]. num.
  - assert (A := row3 y' (vz x' - vz x) 0 (- (vx x' - vx x)) _ UY X3 (R0 _ P1) (NG _ _ X1)). assert (B := row3 x (- (vz y' - vz y)) 0 (vx y' - vx y) _ UX (NG _ _ Y3) (R0 _ P2) Y1).
    replace (vz x' * vx y' - vx x' * vz y' - (vz x * vx y - vx x * vz y)) with ((vx y' * (vz x' - vz x) + vy y' * 0 + vz y' * - (vx x' - vx x)) + (vx x * - (vz y' - vz y) + vy x * 0 + vz x * (vx y' - vx y))) by ring.
    eapply Rle_trans; [apply Rabs_triang|]. num.
  - assert (A := row3 y' (- (vy x' - vy x)) (vx x' - vx x) 0 _ UY (NG _ _ X2) X1 (R0 _ P1)). assert (B := row3 x (vy y' - vy y) (- (vx y' - vx y)) 0 _ UX Y2 (NG _ _ Y1) (R0 _ P2)).
    replace (vx x' * vy y' - vy x' * vx y' - (vx x * vy y - vy x * vx y)) with ((vx y' * - (vy x' - vy x) + vy y' * (vx x' - vx x) + vz y' * 0) + (vx x * (vy y' - vy y) + vy x * - (vx y' - vx y) + vz x * 0)) by ring.
    eapply Rle_trans; [apply Rabs_triang|]. num.
Qed.

Lemma cauchy3 a b c x y z : (a * x + b * y + c * z) ^ 2 <= (a * a + b * b + c * c) * (x * x + y * y + z * z).
Proof. assert (0 <= (a * y - b * x) ^ 2) by apply pow2_ge_0. assert (0 <= (a * z - c * x) ^ 2) by apply pow2_ge_0. assert (0 <= (b * z - c * y) ^ 2) by apply pow2_ge_0. nra. Qed.
Lemma columns_norm m n body : col_near m n ex (54400 * u) -> col_near m n ey (163400 * u) -> col_near m n ez (377300 * u) -> norm (vsub (mapply m body) (mapply n body)) <= / 10 ^ 10 * norm body.
Proof.
  intros X Y Z. set (x := vx body). set (y := vy body). set (z := vz body). assert (UP : 0 < u) by num.
  assert (N2 : x * x + y * y + z * z = norm body * norm body) by (unfold norm; rewrite sqrt_sqrt; [reflexivity|unfold vdot; fold x y z; nra]). assert (N0 : 0 <= norm body) by apply sqrt_pos.
  assert (SQ : forall d e, Rabs e <= d -> e * e <= d * d). { intros d e He. replace (e * e) with (Rabs e * Rabs e) by (rewrite <- Rabs_mult, Rabs_pos_eq; nra). apply Rmult_le_compat; auto using Rabs_pos. }
  assert (C : forall i, rc i (vsub (mapply m body) (mapply n body)) ^ 2 <= (414800 * u) * (414800 * u) * (norm body * norm body)).
  { intros i. assert (E : rc i (vsub (mapply m body) (mapply n body)) = (rc i (mapply m ex) - rc i (mapply n ex)) * x + (rc i (mapply m ey) - rc i (mapply n ey)) * y + (rc i (mapply m ez) - rc i (mapply n ez)) * z).
    { rewrite (mapply_basis m body), (mapply_basis n body). fold x y z. destruct i; cbn [rc vsub vadd vscale vx vy vz]; ring. }
    rewrite E. eapply Rle_trans; [apply cauchy3|]. rewrite N2. apply Rmult_le_compat_r; [nra|]. pose proof (SQ _ _ (X i)). pose proof (SQ _ _ (Y i)). pose proof (SQ _ _ (Z i)).
    assert (0 <= u * u) by nra. lra. }
  assert (C1 := C AX). assert (C2 := C AY). assert (C3 := C AZ). cbn [rc] in C1, C2, C3. rewrite norm_is.
  rewrite <- (sqrt_square (/ 10 ^ 10 * norm body)) by (apply Rmult_le_pos; lra). apply sqrt_le_1_alt. set (nn := norm body * norm body) in *. replace (/ 10 ^ 10 * norm body * (/ 10 ^ 10 * norm body)) with (/ 10 ^ 20 * nn) by (unfold nn; field).
  apply Rle_trans with (3 * (414800 * u * (414800 * u)) * nn); [lra|]. apply Rmult_le_compat_r; [unfold nn; nra|]. assert (W : 414800 * u <= 461 / 10 ^ 13) by num. assert (0 <= 414800 * u) by lra. apply Rle_trans with (3 * (461 / 10 ^ 13 * (461 / 10 ^ 13))); [|lra]. apply Rmult_le_compat_l; [lra|]. apply Rmult_le_compat; lra.
Qed.

(** ** The angles of a frame, in doubles *)
Section Machine.
Variable T : attlib.
Variable AT : accurate_att T.
Let L := t_math T.
Let AM : accurate_math L := at_math T AT.

Lemma angle_le x t : Rabs (x - t) <= 7 * u -> Rabs t <= PI -> Rabs x <= 22 / 7.
Proof. intros H K. pose proof pi_digits. apply Rabs_le_inv in H, K. apply Rabs_le. num. Qed.

Lemma frame_angles_ap neg x3 y3 X0 Y0 Z0 k b : good_neg neg -> rotation k -> rotation b -> vap x3 (mapply (mmul k b) ex) (11400 * u) -> vap y3 (mapply (mmul k b) ey) (11400 * u) ->
  vap X0 (mapply k ex) (6 * u) -> vap Y0 (mapply k ey) (6 * u) -> vap Z0 (mapply k ez) (6 * u) ->
  exists psi theta phi, frame_angles64 T neg x3 y3 X0 Y0 Z0 = GRet (psi, theta, phi) /\ (fin psi /\ Rabs (val psi) <= 22 / 7) /\ (fin theta /\ Rabs (val theta) <= 22 / 7) /\ (fin phi /\ Rabs (val phi) <= 22 / 7) /\
    forall body, norm (vsub (mapply (euler (val psi) (val theta) (val phi)) body) (mapply b body)) <= / 10 ^ 10 * norm body.
Proof.
  intros HG Hk Hb X3 Y3 HX HY HZ. destruct (ex_unit k Hk) as (UX & UY & UZ). destruct (ex_unit b Hb) as (VX & VY & VZ). assert (Hkb : rotation (mmul k b)) by now apply rot_mul. destruct (ex_unit _ Hkb) as (WX & WY & _). assert (UP : 0 < u) by num.
  set (bx := mapply b ex) in *. set (by_ := mapply b ey) in *.
  assert (DX := ap_weak _ _ _ (19800 * u) (dot_ap _ _ _ _ _ _ _ (at_dot T AT x3 X0) X3 HX WX UX ltac:(num) ltac:(num)) ltac:(num)). assert (DY := ap_weak _ _ _ (19800 * u) (dot_ap _ _ _ _ _ _ _ (at_dot T AT x3 Y0) X3 HY WX UY ltac:(num) ltac:(num)) ltac:(num)). assert (DZ := ap_weak _ _ _ (19800 * u) (dot_ap _ _ _ _ _ _ _ (at_dot T AT x3 Z0) X3 HZ WX UZ ltac:(num) ltac:(num)) ltac:(num)).
  rewrite mapply_mul, rot_dot in DX, DY, DZ by exact Hk. fold bx in DX, DY, DZ.
  assert (EX : vdot bx ex = vx bx) by (unfold vdot, ex; cbn [vx vy vz]; ring). assert (EY : vdot bx ey = vy bx) by (unfold vdot, ey; cbn [vx vy vz]; ring). assert (EZ : vdot bx ez = vz bx) by (unfold vdot, ez; cbn [vx vy vz]; ring). rewrite EX in DX. rewrite EY in DY. rewrite EZ in DZ. clear EX EY EZ.
  destruct DX as [FP DP]. destruct DY as [FQ DQ]. destruct DZ as [FS DS]. set (p := t_dot T x3 X0) in *. set (q := t_dot T x3 Y0) in *. set (s := t_dot T x3 Z0) in *.
  assert (B1 := unit_rc bx AX VX). assert (B2 := unit_rc bx AY VX). cbn [rc] in B1, B2.
  assert (PB : Rabs (val p) <= 101 / 100) by (apply Rabs_le_inv in DP, B1; apply Rabs_le; num). assert (QB : Rabs (val q) <= 101 / 100) by (apply Rabs_le_inv in DQ, B2; apply Rabs_le; num).
  destruct (hyp_ap T AT p q FP FQ PB QB) as (h & HK & [Fh Ah] & h0). unfold frame_angles64. fold p q s. cbv zeta. rewrite HK.
  destruct (polar64 T AT q p FQ FP) as (t & Tt & Fpsi & Apsi & C1 & S1). set (psi := g_atan2 (t_math T) q p) in *. pose proof (fneg_val s) as Vn. assert (FN : fin (fneg s)) by (apply fneg_fin; exact FS).
  destruct (polar64 T AT (fneg s) h FN Fh) as (t2 & Tt2 & Ftheta & Atheta & C2 & S2). set (theta := g_atan2 (t_math T) (fneg s) h) in *. rewrite Vn in C2, S2.
  destruct (axis_x bx (val p) (val q) (val s) (val h) (val psi) (val theta) t t2 VX DP DQ DS Ah h0 C1 S1 Apsi C2 S2 Atheta) as (NX & NY & NZ).
  assert (Hz : vap Z0 (mapply k ez) (6 * u)) by exact HZ.
  destruct (rotate_matvec T AT neg psi Z0 (mapply k ez) Y0 (mapply k ey) (6 * u) (6 * u) (98 * u) HG Fpsi HZ UZ HY UY ltac:(num) ltac:(num) ltac:(num)) as (m1 & R1 & A1). rewrite R1. cbn [gbind].
  destruct (C47_axes (val psi)) as (Zp & _ & _). destruct (C47_axes (val theta)) as (_ & Yt & _). fold ez in Zp. fold ey in Yt. rewrite (turn_carried k (val psi) ez ey Hk), Zp, <- (mapply_mul k) in A1.
  set (kz := mmul k (Rz (val psi))) in *. assert (Hkz : rotation kz) by (apply rot_mul; [exact Hk|apply rot_z]). destruct (ex_unit kz Hkz) as (_ & UKY & UKZ).
  assert (Ez : mapply k ez = mapply kz ez) by (unfold kz; rewrite mapply_mul; f_equal; axes). rewrite Ez in HZ.
  destruct (rotate_matvec T AT fneg theta _ (mapply kz ey) Z0 (mapply kz ez) (98 * u) (6 * u) (910 * u) fneg_good Ftheta A1 UKY HZ UKZ ltac:(num) ltac:(num) ltac:(num)) as (m2 & R2 & A2). rewrite R2. cbn [gbind]. rewrite (turn_carried kz (val theta) ey ez Hkz), Yt in A2.
  set (f := mmul (Rz (val psi)) (Ry (val theta))). assert (Hf : rotation f) by (apply rot_mul; [apply rot_z|apply rot_y]). destruct (ex_unit f Hf) as (FX & FY & FZ).
  assert (Fy : mapply kz ey = mapply k (mapply f ey)) by (unfold kz, f; rewrite !mapply_mul; do 2 f_equal; axes). assert (Fz : mapply kz (mapply (Ry (val theta)) ez) = mapply k (mapply f ez)) by (unfold kz, f; rewrite !mapply_mul; reflexivity). rewrite Fy in A1. rewrite Fz in A2.
  set (Y2 := l_matvec (g_base (t_math T)) m1 Y0) in *. set (Z2 := l_matvec (g_base (t_math T)) m2 Z0) in *.
  assert (GY := ap_weak _ _ _ (21400 * u) (dot_ap _ _ _ _ _ _ _ (at_dot T AT y3 Y2) Y3 A1 WY (unit_apply _ _ Hk FY) ltac:(num) ltac:(num)) ltac:(num)). assert (GZ := ap_weak _ _ _ (21400 * u) (dot_ap _ _ _ _ _ _ _ (at_dot T AT y3 Z2) Y3 A2 WY (unit_apply _ _ Hk FZ) ltac:(num) ltac:(num)) ltac:(num)).
  rewrite (mapply_mul k b), rot_dot in GY, GZ by exact Hk. fold by_ in GY, GZ. destruct GY as [FA DA]. destruct GZ as [FB DB].
  destruct (polar64 T AT (t_dot T y3 Z2) (t_dot T y3 Y2) FB FA) as (t3 & Tt3 & Fphi & Aphi & C3 & S3). set (phi := g_atan2 (t_math T) (t_dot T y3 Z2) (t_dot T y3 Y2)) in *.
  assert (FE : mapply f ex = V (cos (val psi) * cos (val theta)) (sin (val psi) * cos (val theta)) (- sin (val theta))) by (unfold f; axes).
  assert (NEX : col_near f b ex (54400 * u)) by (intros i; rewrite FE; fold bx; destruct i; cbn [rc vx vy vz]; assumption).
  pose proof (coord f by_ Hf) as K. set (c := vdot by_ (mapply f ex)) in *. set (a := vdot by_ (mapply f ey)) in *. set (d := vdot by_ (mapply f ez)) in *.
  assert (UK : c * c + a * a + d * d = 1). { assert (U := unit_apply _ _ (rot_tr f Hf) VY). fold by_ in U. rewrite K in U. exact U. }
  assert (CB : Rabs c <= 94300 * u).
  { assert (O : vdot by_ bx = 0) by (unfold by_, bx; rewrite rot_dot by exact Hb; unfold vdot, ex, ey; cbn [vx vy vz]; ring). apply Rle_trans with (17321 / 10000 * (54400 * u)); [|lra]. eapply Rle_trans; [|exact (row3 by_ _ _ _ _ VY (NEX AX) (NEX AY) (NEX AZ))]. apply Req_le. f_equal. fold bx. cbn [rc].
    transitivity (c - vdot by_ bx); [rewrite O; ring|]. unfold c, vdot. ring. }
  destruct (axis_y c a d _ _ (val phi) t3 UK CB DA DB C3 S3 Aphi) as (CP & SP).
  exists psi, theta, phi. split; [reflexivity|]. split; [split; [exact Fpsi|exact (angle_le _ _ Apsi Tt)]|]. split; [split; [exact Ftheta|exact (angle_le _ _ Atheta Tt2)]|]. split; [split; [exact Fphi|exact (angle_le _ _ Aphi Tt3)]|].
  set (m := euler (val psi) (val theta) (val phi)). assert (Hm : rotation m) by apply rot_euler. assert (Em : m = mmul f (Rx (val phi))) by reflexivity.
  assert (CX : col_near m b ex (54400 * u)) by (intros i; rewrite Em, mapply_mul; replace (mapply (Rx (val phi)) ex) with ex by axes; apply NEX).
  assert (CY : col_near m b ey (163400 * u)).
  { intros i. rewrite Em, mapply_mul. replace (mapply (Rx (val phi)) ey) with (V 0 (cos (val phi)) (sin (val phi))) by axes. fold by_. rewrite <- (rot_inv' f by_ Hf), K.
    set (e := V (0 - c) (cos (val phi) - a) (sin (val phi) - d)). assert (RU : unit3 (match i with AX => r1 f | AY => r2 f | AZ => r3 f end)) by (destruct (rotation_unit f Hf) as (? & ? & ?); destruct i; assumption).
    replace (rc i (mapply f (V 0 (cos (val phi)) (sin (val phi)))) - rc i (mapply f (V c a d))) with (vdot (match i with AX => r1 f | AY => r2 f | AZ => r3 f end) e) by (destruct i; cbn [rc mapply vx vy vz]; unfold vdot, e; cbn [vx vy vz]; ring).
    apply Rle_trans with (17321 / 10000 * (94300 * u)); [|lra]. apply (row3 _ (0 - c) (cos (val phi) - a) (sin (val phi) - d)); [exact RU|rewrite Rminus_0_l, Rabs_Ropp; exact CB|lra|lra]. }
  intros body. apply columns_norm; [exact CX|exact CY|]. apply third_column; assumption.
Qed.

Lemma ned_rows_ap lat lon : fin lat -> fin lon -> let k := ned_to_ecef (val lat) (val lon) in
  exists a0, ecefvec2nedvec64 T lat lon = GRet a0 /\ vap (f1 a0) (mapply k ex) (6 * u) /\ vap (f2 a0) (mapply k ey) (6 * u) /\ vap (f3 a0) (mapply k ez) (6 * u).
Proof.
  intros F1 F2 k. destruct (ned_axes (val lat) (val lon)) as (E1 & E2 & E3). fold (ned_to_ecef (val lat) (val lon)) k in E1, E2, E3. rewrite <- E1, <- E2, <- E3. clear E1 E2 E3 k.
  destruct (gsin_ap L AM _ _ _ (21 / 10 * u) (ap_exact lat F1) ltac:(num)) as [G1 S1]. destruct (gcos_ap L AM _ _ _ (21 / 10 * u) (ap_exact lat F1) ltac:(num)) as [G2 S2].
  destruct (gsin_ap L AM _ _ _ (21 / 10 * u) (ap_exact lon F2) ltac:(num)) as [G3 S3]. destruct (gcos_ap L AM _ _ _ (21 / 10 * u) (ap_exact lon F2) ltac:(num)) as [G4 S4].
  eexists. split; [unfold ecefvec2nedvec64, ned_rows; fold L; rewrite G1; cbn [gbind]; rewrite G4; cbn [gbind]; rewrite G3; cbn [gbind]; rewrite G2; cbn [gbind]; reflexivity|].
  pose proof (sin_1 (val lat)). pose proof (cos_1' (val lat)). pose proof (sin_1 (val lon)). pose proof (cos_1' (val lon)).
  assert (PR : forall x y X Y, ap x X (21 / 10 * u) -> ap y Y (21 / 10 * u) -> Rabs X <= 1 -> Rabs Y <= 1 -> ap (fmul (fneg x) y) (- X * Y) (6 * u)).
  { intros x y X Y A B HX HY. apply (ap_mul _ _ _ _ (21 / 10 * u) (21 / 10 * u) 1 1 (43 / 10 * u)); [now apply ap_neg|exact B|now rewrite Rabs_Ropp|exact HY|num|num|num]. }
  assert (WK : forall x X, ap x X (21 / 10 * u) -> ap x X (6 * u)) by (intros x X A; apply (ap_weak _ _ _ _ A); num).
  assert (Z : ap f_zero 0 (6 * u)) by (apply (ap_weak _ _ _ _ zero_ap); num).
  cbn [f1 f2 f3 r1 r2 r3 ecefvec2nedvec]. (split; [|split]); (intros i; destruct i; cbn [fc rc fx fy fz vx vy vz]); first [apply (PR _ _ _ _ S1 S4)|apply (PR _ _ _ _ S1 S3)|apply (PR _ _ _ _ S2 S4)|apply (PR _ _ _ _ S2 S3)|exact (WK _ _ S2)|exact (WK _ _ S4)|exact Z|apply ap_neg; exact (WK _ _ S3)|apply ap_neg; exact (WK _ _ S1)]; assumption.
Qed.
Lemma axes_ap : vap ex64 (mapply ident ex) (6 * u) /\ vap ey64 (mapply ident ey) (6 * u) /\ vap ez64 (mapply ident ez) (6 * u).
Proof.
  rewrite !mapply_1. assert (Z : ap f_zero 0 (6 * u)) by (apply (ap_weak _ _ _ _ zero_ap); num). assert (O : ap f_1 1 (6 * u)) by (apply (ap_weak _ _ 0); [rewrite <- val_1; exact (ap_exact f_1 eq_refl)|num]).
  (split; [|split]); (intros i; destruct i; cbn [ex ey ez ex64 ey64 ez64 fc rc fx fy fz vx vy vz]); assumption.
Qed.

(** ** Positions *)
(** the exact conversion moves little when the angles move little *)
Lemma radius_near x y : Rabs (normal_radius x - normal_radius y) <= 7 / 1000 * 6400000 * Rabs (x - y).
Proof.
  unfold normal_radius. pose proof (radicand x) as RX. pose proof (radicand y) as RY. pose proof wgs_e2_bounds as EB. pose proof (sin_sq_le x) as SX. pose proof (sin_sq_le y) as SY.
  set (A := 1 - wgs84_e ^ 2 * sin x ^ 2) in *. set (B := 1 - wgs84_e ^ 2 * sin y ^ 2) in *.
  assert (LA : 993 / 1000 <= A) by (unfold A; assert (wgs84_e ^ 2 * sin x ^ 2 <= 7 / 1000 * 1) by (apply Rmult_le_compat; lra); lra). assert (LB : 993 / 1000 <= B) by (unfold B; assert (wgs84_e ^ 2 * sin y ^ 2 <= 7 / 1000 * 1) by (apply Rmult_le_compat; lra); lra).
  assert (QA : 996 / 1000 <= sqrt A) by (rewrite <- (sqrt_square (996 / 1000)) by lra; apply sqrt_le_1_alt; lra). assert (QB : 996 / 1000 <= sqrt B) by (rewrite <- (sqrt_square (996 / 1000)) by lra; apply sqrt_le_1_alt; lra).
  assert (AA := sqrt_sqrt A ltac:(lra)). assert (BB := sqrt_sqrt B ltac:(lra)). assert (AB : B - A = (sqrt B - sqrt A) * (sqrt A + sqrt B)) by (rewrite <- AA at 1; rewrite <- BB at 1; ring).
  assert (D : Rabs (B - A) <= 135 / 10000 * Rabs (x - y)).
  { replace (B - A) with (wgs84_e ^ 2 * (sin x - sin y) * (sin x + sin y)) by (unfold A, B; ring). rewrite !Rabs_mult, (Rabs_pos_eq (wgs84_e ^ 2)) by lra. pose proof (sin_lipschitz x y) as SL. pose proof (SIN_bound x). pose proof (SIN_bound y). assert (S2 : Rabs (sin x + sin y) <= 2) by (apply Rabs_le; lra).
    assert (E7 : wgs84_e ^ 2 <= 67 / 10000) by (rewrite wgs_e2; unfold wgs84_a, wgs84_b; lra). assert (P := Rabs_pos (sin x - sin y)). assert (wgs84_e ^ 2 * Rabs (sin x - sin y) <= 67 / 10000 * Rabs (x - y)) by (apply Rmult_le_compat; lra).
    apply Rle_trans with (67 / 10000 * Rabs (x - y) * 2); [apply Rmult_le_compat; [apply Rmult_le_pos; lra|apply Rabs_pos|assumption|assumption]|pose proof (Rabs_pos (x - y)); lra]. }
  set (a := sqrt A) in *. set (b := sqrt B) in *. replace (wgs84_a / a - wgs84_a / b) with (wgs84_a * ((b - a) * (a + b)) * / (a * b * (a + b))) by (field; lra). rewrite <- AB, !Rabs_mult. unfold wgs84_a. rewrite (Rabs_pos_eq 6378137) by lra.
  assert (M : 197 / 100 <= a * b * (a + b)). { assert (992 / 1000 <= a * b) by nra. apply Rle_trans with (992 / 1000 * (1992 / 1000)); [lra|apply Rmult_le_compat; lra]. }
  rewrite (Rabs_pos_eq (/ _)) by (left; apply Rinv_0_lt_compat; lra). assert (I : / (a * b * (a + b)) <= / (197 / 100)) by (apply Rinv_le_contravar; lra). assert (I0 : 0 <= / (a * b * (a + b))) by (left; apply Rinv_0_lt_compat; lra).
  apply Rle_trans with (6378137 * (135 / 10000 * Rabs (x - y)) * / (197 / 100)); [apply Rmult_le_compat; [apply Rmult_le_pos; [lra|apply Rabs_pos]|exact I0|lra|exact I]|pose proof (Rabs_pos (x - y)); lra].
Qed.
Lemma prod_near a b a' b' A d1 d2 : Rabs a <= A -> Rabs b' <= 1 -> Rabs (a - a') <= d1 -> Rabs (b - b') <= d2 -> Rabs (a * b - a' * b') <= d1 + A * d2.
Proof.
  intros HA HB H1 H2. replace (a * b - a' * b') with ((a - a') * b' + a * (b - b')) by ring. eapply Rle_trans; [apply Rabs_triang|]. rewrite !Rabs_mult.
  assert (Rabs (a - a') * Rabs b' <= d1 * 1) by (apply Rmult_le_compat; auto using Rabs_pos). assert (Rabs a * Rabs (b - b') <= A * d2) by (apply Rmult_le_compat; auto using Rabs_pos). lra.
Qed.
Lemma position_near lat lon lat' lon' alt q r : lla2ecef (V lat lon alt) = Ret q -> lla2ecef (V lat' lon' alt) = Ret r ->
  forall i, Rabs (rc i q - rc i r) <= (6400000 + Rabs alt) * (101 / 100 * Rabs (deg2rad lat - deg2rad lat') + Rabs (deg2rad lon - deg2rad lon')).
Proof.
  intros E1 E2. rewrite lla2ecef_is in E1, E2. cbn [vx vy vz] in E1, E2. set (la := deg2rad lat) in *. set (lo := deg2rad lon) in *. set (la' := deg2rad lat') in *. set (lo' := deg2rad lon') in *. set (R := 6400000 + Rabs alt).
  pose proof (normal_low la) as NB. pose proof (normal_low la') as NB'. pose proof (radius_near la la') as RN. set (N := normal_radius la) in *. set (N' := normal_radius la') in *. pose proof (Rabs_le_inv alt (Rabs alt) (Rle_refl _)) as HI. assert (A0 := Rabs_pos alt).
  assert (q = V ((N + alt) * cos la * cos lo) ((N + alt) * cos la * sin lo) ((N * (1 - wgs84_e ^ 2) + alt) * sin la)) by congruence. assert (r = V ((N' + alt) * cos la' * cos lo') ((N' + alt) * cos la' * sin lo') ((N' * (1 - wgs84_e ^ 2) + alt) * sin la')) by congruence. subst q r. clear E1 E2.
  set (D := Rabs (la - la')) in *. assert (D0 : 0 <= D) by apply Rabs_pos. pose proof (cos_lipschitz la la') as C1. pose proof (sin_lipschitz la la') as S1. pose proof (cos_lipschitz lo lo') as C2. pose proof (sin_lipschitz lo lo') as S2. fold D in C1, S1. set (O := Rabs (lo - lo')) in *. assert (O0 : 0 <= O) by apply Rabs_pos.
  pose proof wgs_e2_bounds as EB. pose proof (cos_1' la') as K1. pose proof (sin_1 la') as K2. pose proof (cos_1' lo') as K3. pose proof (sin_1 lo') as K4. assert (RD : 0 <= R * D) by (apply Rmult_le_pos; unfold R; lra). assert (RO : 0 <= R * O) by (apply Rmult_le_pos; unfold R; lra). assert (RB : 7 / 1000 * 6400000 * D <= 7 / 1000 * (R * D)) by (unfold R; nra).
  assert (B1 : Rabs (N + alt) <= R) by (apply Rabs_le; unfold R; lra). assert (P1 : Rabs ((N + alt) * cos la - (N' + alt) * cos la') <= 7 / 1000 * 6400000 * D + R * D) by (apply prod_near; [exact B1|exact K1|replace (N + alt - (N' + alt)) with (N - N') by ring; exact RN|exact C1]).
  assert (B2 : Rabs ((N + alt) * cos la) <= R) by (rewrite Rabs_mult; apply Rle_trans with (R * 1); [apply Rmult_le_compat; auto using Rabs_pos; apply cos_1'|lra]).
  intros []; cbn [rc vx vy vz].
  - eapply Rle_trans; [apply (prod_near _ _ _ _ R _ _ B2 K3 P1 C2)|]. lra.
  - eapply Rle_trans; [apply (prod_near _ _ _ _ R _ _ B2 K4 P1 S2)|]. lra.
  - assert (PN : 0 <= N * (1 - wgs84_e ^ 2) <= 6400000). { split; [apply Rmult_le_pos; lra|]. apply Rle_trans with (6400000 * 1); [apply Rmult_le_compat; lra|lra]. }
    assert (B3 : Rabs (N * (1 - wgs84_e ^ 2) + alt) <= R) by (apply Rabs_le; unfold R; lra).
    assert (NN : Rabs (N * (1 - wgs84_e ^ 2) + alt - (N' * (1 - wgs84_e ^ 2) + alt)) <= 7 / 1000 * 6400000 * D).
    { replace (N * (1 - wgs84_e ^ 2) + alt - (N' * (1 - wgs84_e ^ 2) + alt)) with ((N - N') * (1 - wgs84_e ^ 2)) by ring. rewrite Rabs_mult, (Rabs_pos_eq (1 - _)) by lra. pose proof (Rabs_pos (N - N')). apply Rle_trans with (Rabs (N - N') * 1); [apply Rmult_le_compat_l; lra|lra]. }
    eapply Rle_trans; [apply (prod_near _ _ _ _ R _ _ B3 K2 NN S1)|]. lra.
Qed.
Lemma position64 lat lon alt q : fin lat -> fin lon -> fin alt -> Rabs (val lat) <= 1570796 / 1000000 -> Rabs (val lon) <= 4 -> Rabs (val alt) <= 10 ^ 12 -> lla2ecef (V (rad2deg (val lat)) (rad2deg (val lon)) (val alt)) = Ret q ->
  exists e, lla2ecef64 L (FV (rad2deg64 lat) (rad2deg64 lon) alt) = GRet e /\ forall i, within (fc i e) (rc i q) ((6400000 + Rabs (val alt)) / 2 ^ 47).
Proof.
  intros F1 F2 F3 H1 H2 H3 E. destruct (rad2deg_ap lat (val lat) 0 (ap_exact _ F1) ltac:(lra) ltac:(lra)) as [G1 A1]. destruct (rad2deg_ap lon (val lon) 0 (ap_exact _ F2) ltac:(lra) ltac:(lra)) as [G2 A2]. pose proof pi_digits as PD. assert (P0 := PI_RGT_0).
  set (la := rad2deg64 lat) in *. set (lo := rad2deg64 lon) in *. set (v := FV la lo alt). assert (Fv : fin3 v) by (intros []; cbn [v fc fx fy fz]; assumption).
  assert (RI : forall x k, Rabs x <= k -> Rabs (rad2deg x) <= k * (572957796 / 10000000)).
  { intros x k Hx. unfold rad2deg. replace (x * 180 / PI) with (x * (180 / PI)) by (field; lra). assert (180 / PI <= 572957796 / 10000000) by (apply Rmult_le_reg_r with PI; [lra|]; unfold Rdiv at 1; rewrite Rmult_assoc, Rinv_l by lra; lra). assert (0 <= 180 / PI) by (left; apply Rdiv_lt_0_compat; lra). rewrite Rabs_mult, (Rabs_pos_eq (180 / PI)) by assumption. apply Rmult_le_compat; auto using Rabs_pos. }
  assert (L1 := RI _ _ H1). assert (L2 := RI _ _ H2). apply Rabs_le_inv in L1, L2. assert (W1 : Rabs (val la) <= 90) by (apply Rabs_le_inv in A1; apply Rabs_le; num). assert (W2 : Rabs (val lo) <= 360) by (apply Rabs_le_inv in A2; apply Rabs_le; num).
  pose proof (lla2ecef_is (real3 v)) as E'. cbv zeta in E'. destruct (C70_ecef L AM v _ Fv W1 W2 H3 E') as (e & G & W). exists e. split; [exact G|]. intros i. destruct (W i) as [Fi Wi]. split; [exact Fi|]. pose proof (position_near _ _ _ _ _ _ _ E' E i) as PN. cbn [v fx fy fz] in Wi, PN. set (R := 6400000 + Rabs (val alt)) in *.
  assert (DG : forall x y, Rabs (x - rad2deg y) <= 600 * u -> Rabs (deg2rad x - deg2rad (rad2deg y)) <= 106 / 10 * u).
  { intros x y Hx. unfold deg2rad. replace (x * PI / 180 - rad2deg y * PI / 180) with ((x - rad2deg y) * (PI / 180)) by field. rewrite Rabs_mult, (Rabs_pos_eq (PI / 180)) by lra. apply Rle_trans with (600 * u * (31416 / 10000 / 180)); [apply Rmult_le_compat; [apply Rabs_pos|lra|exact Hx|lra]|num]. }
  assert (D1 := DG (val la) (val lat) ltac:(lra)). assert (D2 := DG (val lo) (val lon) ltac:(lra)). assert (R0 : 0 <= R) by (unfold R; pose proof (Rabs_pos (val alt)); lra).
  assert (K : R * (101 / 100 * Rabs (deg2rad (val la) - deg2rad (rad2deg (val lat))) + Rabs (deg2rad (val lo) - deg2rad (rad2deg (val lon)))) <= R * (22 * u)) by (apply Rmult_le_compat_l; num).
  assert (U : u = / 2 ^ 53) by (rewrite u_val; field). assert (K2 : R * (22 * u) + R / 2 ^ 48 <= R / 2 ^ 47) by (rewrite U; assert (0 <= R / 2 ^ 53) by (unfold Rdiv; apply Rmult_le_pos; [exact R0|left; apply Rinv_0_lt_compat, pow_lt; lra]); lra).
  replace (val (fc i e) - rc i q) with ((val (fc i e) - rc i (V ((normal_radius (deg2rad (vx (real3 v))) + vz (real3 v)) * cos (deg2rad (vx (real3 v))) * cos (deg2rad (vy (real3 v)))) ((normal_radius (deg2rad (vx (real3 v))) + vz (real3 v)) * cos (deg2rad (vx (real3 v))) * sin (deg2rad (vy (real3 v)))) ((normal_radius (deg2rad (vx (real3 v))) * (1 - wgs84_e ^ 2) + vz (real3 v)) * sin (deg2rad (vx (real3 v)))))) + (rc i (V ((normal_radius (deg2rad (vx (real3 v))) + vz (real3 v)) * cos (deg2rad (vx (real3 v))) * cos (deg2rad (vy (real3 v)))) ((normal_radius (deg2rad (vx (real3 v))) + vz (real3 v)) * cos (deg2rad (vx (real3 v))) * sin (deg2rad (vy (real3 v)))) ((normal_radius (deg2rad (vx (real3 v))) * (1 - wgs84_e ^ 2) + vz (real3 v)) * sin (deg2rad (vx (real3 v))))) - rc i q)) by ring.
  eapply Rle_trans; [apply Rabs_triang|]. cbn [real3 v fx fy fz vx vy vz] in *. lra.
Qed.
End Machine.

(** ** The theorems *)
(** how far apart two rotations carry the points of the unit sphere *)
Definition attitudes_within (m n : mat) (d : R) : Prop := forall body, norm (vsub (mapply m body) (mapply n body)) <= d * norm body.
Definition earth_attitude (a : fvec) : mat := euler (val (fx a)) (val (fy a)) (val (fz a)).

Section Theorems.
Variable T : attlib.
Variable AT : accurate_att T.

(** for every latitude and longitude, every altitude that is not astronomical and every roll, pitch and yaw (looking straight up or down included): no exception, the position is accurate, and the body axes the returned Euler angles describe are within 1e-10 of those the given angles describe *)
Theorem C74_llarpy2ecef lat lon alt roll pitch yaw q : fin lat -> fin lon -> fin alt -> fin roll -> fin pitch -> fin yaw ->
  Rabs (val lat) <= 1570796 / 1000000 -> Rabs (val lon) <= 4 -> Rabs (val alt) <= 10 ^ 12 -> lla2ecef (V (rad2deg (val lat)) (rad2deg (val lon)) (val alt)) = Ret q ->
  exists e a, llarpy2ecef64 T lat lon alt roll pitch yaw = GRet (e, a) /\ (forall i, within (fc i e) (rc i q) ((6400000 + Rabs (val alt)) / 2 ^ 47)) /\
    fin3 a /\ (forall i, Rabs (val (fc i a)) <= 22 / 7) /\ attitudes_within (earth_attitude a) (mmul (ned_to_ecef (val lat) (val lon)) (euler (val yaw) (val pitch) (val roll))) (/ 10 ^ 10).
Proof.
  intros F1 F2 F3 F4 F5 F6 H1 H2 H3 E. destruct (position64 T AT lat lon alt q F1 F2 F3 H1 H2 H3 E) as (e & Ge & We). destruct (ned_rows_ap T AT lat lon F1 F2) as (a0 & Ga & AX0 & AY0 & AZ0).
  set (k := ned_to_ecef (val lat) (val lon)) in *. assert (Hk : rotation k) by apply ned_frame.
  destruct (turn_frame_ap T AT fneg _ _ _ k yaw pitch roll fneg_good Hk AX0 AY0 AZ0 F6 F5 F4) as (x3 & y3 & z3 & Gt & X3 & Y3). set (b := mmul k (euler (val yaw) (val pitch) (val roll))) in *. assert (Hb : rotation b) by (apply rot_mul; [exact Hk|apply rot_euler]).
  destruct axes_ap as (BX & BY & BZ). rewrite <- (mmul_1_l b) in X3, Y3. destruct (frame_angles_ap T AT ineg x3 y3 ex64 ey64 ez64 ident b ineg_good rot_ident Hb X3 Y3 BX BY BZ) as (psi & theta & phi & Gf & [P1 P2] & [Q1 Q2] & [R1 R2] & N).
  exists e, (FV psi theta phi). split; [unfold llarpy2ecef64; rewrite Ge; cbn [gbind]; rewrite Ga; cbn [gbind]; rewrite Gt; cbn [gbind]; rewrite Gf; reflexivity|]. split; [exact We|].
  split; [intros []; assumption|]. split; [intros []; assumption|]. exact N.
Qed.

(** and back: wherever ecef2lla finds a latitude, longitude and altitude, these are returned (in radians), and the body axes that the returned roll, pitch and yaw describe there are within 1e-10 of the given ones *)
Theorem C74_ecef2llarpy n p psi theta phi r : ecef2lla64 (t_math T) n p f_nano = Some (GRet r) -> fin (deg2rad64 (fx r)) -> fin (deg2rad64 (fy r)) -> fin psi -> fin theta -> fin phi ->
  exists roll pitch yaw, ecef2llarpy64 T n p psi theta phi = Some (GRet (FV (deg2rad64 (fx r)) (deg2rad64 (fy r)) (fz r), FV roll pitch yaw)) /\
    fin3 (FV roll pitch yaw) /\ (forall i, Rabs (val (fc i (FV roll pitch yaw))) <= 22 / 7) /\
    attitudes_within (mmul (ned_to_ecef (val (deg2rad64 (fx r))) (val (deg2rad64 (fy r)))) (euler (val yaw) (val pitch) (val roll))) (euler (val psi) (val theta) (val phi)) (/ 10 ^ 10).
Proof.
  intros E F1 F2 F4 F5 F6. unfold ecef2llarpy64. rewrite E. destruct axes_ap as (BX & BY & BZ).
  destruct (turn_frame_ap T AT ineg _ _ _ ident psi theta phi ineg_good rot_ident BX BY BZ F4 F5 F6) as (x3 & y3 & z3 & Gt & X3 & Y3). rewrite Gt. cbn [gbind]. rewrite mmul_1_l in X3, Y3.
  destruct (ned_rows_ap T AT _ _ F1 F2) as (a0 & Ga & AX0 & AY0 & AZ0). rewrite Ga. cbn [gbind]. set (k := ned_to_ecef (val (deg2rad64 (fx r))) (val (deg2rad64 (fy r)))) in *. assert (Hk : rotation k) by apply ned_frame.
  set (m := euler (val psi) (val theta) (val phi)) in *. set (b := mmul (transposed k) m). assert (Hb : rotation b) by (apply rot_mul; [apply rot_tr, Hk|apply rot_euler]).
  assert (EM : m = mmul k b) by (unfold b; rewrite <- mmul_assoc; destruct Hk as [-> _]; rewrite mmul_1_l; reflexivity). rewrite EM in X3, Y3.
  destruct (frame_angles_ap T AT fneg x3 y3 _ _ _ k b fneg_good Hk Hb X3 Y3 AX0 AY0 AZ0) as (yaw & pitch & roll & Gf & [P1 P2] & [Q1 Q2] & [R1 R2] & N). rewrite Gf. cbn [gbind].
  exists roll, pitch, yaw. split; [reflexivity|]. split; [intros []; assumption|]. split; [intros []; assumption|].
  intros body. rewrite EM, !mapply_mul. specialize (N body). set (x := mapply (euler (val yaw) (val pitch) (val roll)) body) in *. set (y := mapply b body) in *.
  replace (vsub (mapply k x) (mapply k y)) with (mapply k (vsub x y)) by veq. unfold norm at 1. rewrite rot_dot by exact Hk. exact N.
Qed.

(** near the Earth it finds them within ten iterations *)
Theorem C74_located p psi theta phi : usable p -> fin psi -> fin theta -> fin phi ->
  exists r roll pitch yaw, (forall n, (10 <= n)%nat -> ecef2lla64 (t_math T) n p f_nano = Some (GRet r) /\ ecef2llarpy64 T n p psi theta phi = Some (GRet (FV (deg2rad64 (fx r)) (deg2rad64 (fy r)) (fz r), FV roll pitch yaw))) /\
    fin3 (FV roll pitch yaw) /\ attitudes_within (mmul (ned_to_ecef (val (deg2rad64 (fx r))) (val (deg2rad64 (fy r)))) (euler (val yaw) (val pitch) (val roll))) (euler (val psi) (val theta) (val phi)) (/ 10 ^ 10).
Proof.
  intros [F (lat & lon & alt & K & Hl & Hm & Hh & Eq & HK & HD)] F4 F5 F6. destruct (origin64 (t_math T) (at_math T AT) p lat lon alt K F Hl Hm Hh Eq HK HD) as (r & R1 & R2 & R3 & R4).
  destruct (angle_ap _ 116 (R2 AX) R3 ltac:(lra)) as [G1 _]. destruct (angle_ap _ 181 (R2 AY) R4 ltac:(lra)) as [G2 _].
  destruct (C74_ecef2llarpy 10 p psi theta phi r (R1 10%nat ltac:(lia)) G1 G2 F4 F5 F6) as (roll & pitch & yaw & E & FA & _ & W). exists r, roll, pitch, yaw. split; [|split; assumption].
  intros n Hn. split; [now apply R1|]. rewrite <- E. unfold ecef2llarpy64. now rewrite (R1 n Hn), (R1 10%nat) by lia.
Qed.
End Theorems.

(** ** Cases: a correctly rounded library, a latitude of 0.75 rad, a longitude of -2.5 rad, and a nose pointing straight up *)
Definition ideal_att : attlib := {| t_math := ideal_math; t_dot a b := fadd (fadd (fmul (fx a) (fx b)) (fmul (fy a) (fy b))) (fmul (fz a) (fz b)) |}.
Example ideal_att_accurate : accurate_att ideal_att.
Proof.
  split; cbn [ideal_att t_math t_dot].
  - exact ideal_math_accurate.
  - intros r v. eapply (sum_add _ [(fx r, fx v); (fy r, fy v)] [(fz r, fz v)]); [apply Permutation.Permutation_refl| |apply sum_one]. eapply (sum_add _ [(fx r, fx v)] [(fy r, fy v)]); [apply Permutation.Permutation_refl|apply sum_one|apply sum_one].
  - intros y x _ _ Hy Hx. cbn [ideal_math g_atan2]. rewrite Hy. assert (HU := huge_200). assert (P4 := PI_4). assert (P0 := PI_RGT_0). destruct (Req_dec (val x) 0) as [X0|X0].
    + right. right. split; [exact X0|]. rewrite X0. assert (E : Real3.atan2 0 0 = 0) by (unfold Real3.atan2; destruct (Rlt_dec 0 0); [lra|reflexivity]). rewrite E. destruct (nearest_ok 0) as [F V]; [rewrite Rabs_R0; lra|]. split; [exact F|]. rewrite V. apply round_0, valid_rnd_N.
    + left. assert (E : Real3.atan2 0 (val x) = PI). { unfold Real3.atan2. destruct (Rlt_dec 0 (val x)); [lra|]. destruct (Rlt_dec (val x) 0); [|lra]. destruct (Rle_dec 0 0); [|lra]. unfold Rdiv. rewrite Rmult_0_l, atan_0. ring. }
      rewrite E. apply nearest_ulp. rewrite Rabs_pos_eq; lra.
Qed.
Definition c_075 : f64 := b64_of_bits 4604930618986332160.
Definition c_25m : f64 := b64_of_bits 13836183955189006336.
Definition c_up : f64 := b64_of_bits 4609753056924675352.
Example C74_case : accurate_att ideal_att /\ val c_075 = 3 / 4 /\ val c_25m = -5 / 2 /\ fin c_up /\ Rabs (val c_up - PI / 2) <= / 10 ^ 15 /\ usable case_e /\
  (exists q, lla2ecef (V (rad2deg (val c_075)) (rad2deg (val c_25m)) 120) = Ret q).
Proof.
  split; [exact ideal_att_accurate|]. split; [unfold c_075; value_of_bits; lra|]. split; [unfold c_25m; value_of_bits; lra|]. split; [reflexivity|].
  split; [unfold c_up; pose proof pi_digits; apply Rabs_le; assert (V : val (b64_of_bits 4609753056924675352) = 7074237752028440 / 4503599627370496) by (value_of_bits; lra); rewrite V; lra|]. split; [exact (proj1 (proj2 C73_case))|]. eexists. apply lla2ecef_is.
Qed.

Definition all_PropAtt64 := (C74_llarpy2ecef, C74_ecef2llarpy, C74_located).
Print Assumptions all_PropAtt64.
