(** C80: range, azimuth and elevation, and surface gravity, in double precision *)
From Coq Require Import Reals ZArith Lra Lia List.
From Flocq Require Import Core Binary Bits.
From Verif Require Import Real3 RangeCoordinates PropGeo Conv PropConv Float64 DeadReckoning64 Range64 FloatErr PropDR64 PropDR64b FloatAbs PropRange64 RangeErr PropLla64 PropTrip64 PropNed64 PropAtt Utm64 UtmErr.
Import ListNotations.
Local Open Scope R_scope.

(** x - 0 is x *)
Lemma fsub_zero x : fin x -> fsub x f_zero = x.
Proof. intros F. destruct x as [s|s|s pl e|s m e E]; try discriminate F; [destruct s|]; reflexivity. Qed.

(** the direction of a point to the right of the axis changes little with its first coordinate *)
Lemma atan2_right y x : 0 < y -> 0 <= x -> atan2 y x = PI / 2 - atan (x / y).
Proof.
  intros Hy Hx. unfold atan2. destruct (Rlt_dec 0 x) as [P|P].
  - replace (y / x) with (/ (x / y)) by (field; lra). rewrite atan_inv; [reflexivity|apply Rdiv_lt_0_compat; lra].
  - assert (x = 0) by lra. subst. destruct (Rlt_dec 0 0); [lra|]. destruct (Rlt_dec 0 y); [|lra]. replace (0 / y) with 0 by (field; lra). rewrite atan_0. ring.
Qed.
Lemma atan2_odd y x : 0 <= x -> atan2 (- y) x = - atan2 y x.
Proof.
  intros Hx. unfold atan2. destruct (Rlt_dec 0 x).
  - replace (- y / x) with (- (y / x)) by (field; lra). apply atan_opp.
  - destruct (Rlt_dec x 0); [lra|]. destruct (Rlt_dec 0 (- y)), (Rlt_dec 0 y), (Rlt_dec (- y) 0), (Rlt_dec y 0); lra.
Qed.
Lemma atan2_near_pos y x X k c : 0 < y -> 0 <= x -> 0 <= X -> 0 <= k <= / 2 -> 0 <= c -> Rabs (x - X) <= k * X + c -> Rabs (atan2 y x - atan2 y X) <= k + c / y.
Proof.
  intros Hy Hx HX Hk Hc H. rewrite !atan2_right by assumption. replace (PI / 2 - atan (x / y) - (PI / 2 - atan (X / y))) with (- (atan (x / y) - atan (X / y))) by ring. rewrite Rabs_Ropp.
  assert (I : 0 < / y) by (apply Rinv_0_lt_compat; exact Hy).
  assert (exists m, Rabs (m - X) <= k * X /\ Rabs (x - m) <= c) as (m & M1 & M2).
  { apply Rabs_le_inv in H. assert (0 <= k * X) by (apply Rmult_le_pos; lra). destruct (Rle_dec x (X + k * X)); [destruct (Rle_dec (X - k * X) x)|].
    - exists x. split; [apply Rabs_le; lra|]. rewrite Rminus_diag_eq by reflexivity. rewrite Rabs_R0. exact Hc.
    - exists (X - k * X). split; apply Rabs_le; lra.
    - exists (X + k * X). split; apply Rabs_le; lra. }
  assert (A1 : Rabs (atan (m / y) - atan (X / y)) <= k).
  { apply atan_rel; [exact Hk|]. replace (m / y - X / y) with ((m - X) * / y) by (unfold Rdiv; ring). unfold Rdiv. rewrite !Rabs_mult, (Rabs_pos_eq X), (Rabs_pos_eq (/ y)) by lra. rewrite <- Rmult_assoc. apply Rmult_le_compat_r; lra. }
  assert (A2 : Rabs (atan (x / y) - atan (m / y)) <= c / y).
  { eapply Rle_trans; [apply atan_lipschitz|]. replace (x / y - m / y) with ((x - m) * / y) by (unfold Rdiv; ring). rewrite Rabs_mult, (Rabs_pos_eq (/ y)) by lra. apply Rmult_le_compat_r; lra. }
  replace (atan (x / y) - atan (X / y)) with ((atan (x / y) - atan (m / y)) + (atan (m / y) - atan (X / y))) by ring. eapply Rle_trans; [apply Rabs_triang|]. lra.
Qed.
Lemma atan2_near y x X k c : y <> 0 -> 0 <= x -> 0 <= X -> 0 <= k <= / 2 -> 0 <= c -> Rabs (x - X) <= k * X + c -> Rabs (atan2 y x - atan2 y X) <= k + c / Rabs y.
Proof.
  intros Hy Hx HX Hk Hc H. destruct (Rlt_dec 0 y) as [P|P]; [rewrite (Rabs_pos_eq y) by lra; now apply atan2_near_pos|].
  rewrite (Rabs_left1 y) by lra. replace y with (- - y) at 1 2 by ring. rewrite !(atan2_odd (- y)) by assumption. replace (- atan2 (- y) x - - atan2 (- y) X) with (- (atan2 (- y) x - atan2 (- y) X)) by ring. rewrite Rabs_Ropp.
  apply atan2_near_pos; try assumption. lra.
Qed.

Section Library.
Variable J : projlib.
Hypothesis AJ : accurate_proj J.
Let L := j_math J.
Let AM : accurate_math L := ap_math J AJ.

Lemma square_nonneg x s : fin x -> Rabs (val x) <= 2 ^ 80 -> gsquare L x = GRet s -> 0 <= val s.
Proof.
  intros F H G. destruct (gsquare_ulp L AM x F ltac:(lra)) as [G' _]. assert (s = l_square (g_base L) x) by congruence. subst s. apply (am_square L AM); [exact F|].
  pose proof huge_200. rewrite Rabs_mult. apply Rle_trans with (2 ^ 90 * 2 ^ 90); [apply Rmult_le_compat; try apply Rabs_pos; lra|lra].
Qed.
(** the horizontal distance *)
Lemma horizontal x y : fin x -> fin y -> Rabs (val x) <= 2 ^ 80 -> Rabs (val y) <= 2 ^ 80 -> exists x2 y2 h, gsquare L x = GRet x2 /\ gsquare L y = GRet y2 /\ gsqrt (fadd x2 y2) = GRet h /\ fin h /\ 0 <= val h /\
  Rabs (val h - sqrt (val x ^ 2 + val y ^ 2)) <= 5 * u * sqrt (val x ^ 2 + val y ^ 2) + / 2 ^ 500.
Proof.
  intros Fx Fy Hx Hy. pose proof huge_200 as HH. pose proof u_val as U. pose proof eta_tiny as ET.
  assert (R : forall z, Rabs (z - z) <= u * Rabs z) by (intros z; rewrite Rminus_diag_eq by reflexivity; rewrite Rabs_R0; apply Rmult_le_pos; [rewrite U; lra|apply Rabs_pos]).
  destruct (square_rel L AM x (val x) Fx (R _) Hx) as (s1 & G1 & F1 & B1). destruct (square_rel L AM y (val y) Fy (R _) Hy) as (s2 & G2 & F2 & B2).
  pose proof (square_nonneg _ _ Fx Hx G1) as P1. pose proof (square_nonneg _ _ Fy Hy G2) as P2. apply sq_bound in Hx, Hy.
  replace (val x ^ 2 + val y ^ 2) with (val x * val x + val y * val y) by ring. set (X1 := val x * val x) in *. set (X2 := val y * val y) in *.
  destruct (sum_rel s1 s2 X1 X2 (41 / 10) (2 * eta) F1 F2) as [FS BS]; try lra. set (S := fadd s1 s2) in *. set (T := X1 + X2) in *.
  assert (N2 : 0 <= val S). { destruct (fadd_rnd s1 s2 F1 F2) as [_ Q]; [apply Rabs_le; rewrite U in *; lra|]. unfold S. rewrite Q. apply rnd_pos. lra. }
  exists s1, s2, (fsqrt S). split; [exact G1|]. split; [exact G2|]. split; [now apply gsqrt_ok|]. destruct (fsqrt_rnd S FS N2) as [FR Q]. split; [exact FR|]. rewrite Q. split; [apply rnd_pos, sqrt_pos|].
  assert (T0 : 0 <= T) by (unfold T; lra). pose proof (sqrt_pos T) as ST. pose proof (sqrt_pos (val S)) as SS. pose proof (sqrt_def T T0) as DT. pose proof (sqrt_def (val S) N2) as DS.
  pose proof (sqrt_tiny) as (c & C0 & C1 & C2).
  assert (UP : sqrt (val S) <= (1 + 31 / 10 * u) * sqrt T + c). { apply Rsqr_incr_0_var; [unfold Rsqr|assert (0 <= (1 + 31 / 10 * u) * sqrt T) by (apply Rmult_le_pos; [rewrite U; lra|assumption]); lra].
    rewrite DS. replace (((1 + 31 / 10 * u) * sqrt T + c) * ((1 + 31 / 10 * u) * sqrt T + c)) with ((1 + 31 / 10 * u) * (1 + 31 / 10 * u) * (sqrt T * sqrt T) + 2 * c * ((1 + 31 / 10 * u) * sqrt T) + c * c) by ring. rewrite DT.
    assert (0 <= 2 * c * ((1 + 31 / 10 * u) * sqrt T)) by (repeat apply Rmult_le_pos; try assumption; try (rewrite U; lra); lra). rewrite U in *. lra. }
  assert (LO : (1 - 31 / 10 * u) * sqrt T <= sqrt (val S) + c). { apply Rsqr_incr_0_var; [unfold Rsqr|lra].
    replace ((sqrt (val S) + c) * (sqrt (val S) + c)) with (sqrt (val S) * sqrt (val S) + 2 * c * sqrt (val S) + c * c) by ring. rewrite DS. replace ((1 - 31 / 10 * u) * sqrt T * ((1 - 31 / 10 * u) * sqrt T)) with ((1 - 31 / 10 * u) * (1 - 31 / 10 * u) * (sqrt T * sqrt T)) by ring. rewrite DT.
    assert (0 <= 2 * c * sqrt (val S)) by (repeat apply Rmult_le_pos; lra). rewrite U in *. lra. }
  pose proof (rnd_err (sqrt (val S))) as RE. rewrite (Rabs_pos_eq (sqrt (val S))) in RE by assumption. apply Rabs_le_inv in RE. apply Rabs_le. rewrite U in *. lra.
Qed.
(** the range *)
Lemma range_ok v : fin3 v -> (forall i, Rabs (val (fc i v)) <= 2 ^ 80) -> exists r, euclideanDistance64 L v = GRet r /\ within r (norm (real3 v)) (5 * u * norm (real3 v) + / 2 ^ 500).
Proof.
  intros F H. set (o := FV f_zero f_zero f_zero). assert (E : fmap2 fsub v o = v) by (destruct v as [a b c]; unfold o, fmap2; cbn [fx fy fz]; rewrite !fsub_zero by (exact (F AX) || exact (F AY) || exact (F AZ)); reflexivity).
  destruct (C70_distance L AM v o (norm (real3 v)) F ltac:(now intros [])) as (r & G & W).
  - intros i. assert (Z : val (fc i o) = 0) by now destruct i. rewrite Z, Rminus_0_r. apply H.
  - rewrite distance_is by reflexivity. f_equal. cbn [sqd real3 vx vy vz o fx fy fz]. change (val f_zero) with 0. rewrite norm_is. cbn [real3 vx vy vz]. f_equal. ring.
  - exists r. split; [|exact W]. unfold euclideanDistanceRef64 in G. now rewrite E in G.
Qed.

(** the result is one unit in the last place from T, a angle within e of X, and then turned into degrees *)
Lemma degrees r T X e : one_ulp r T -> Rabs T <= 32 / 10 -> Rabs (T - X) <= e -> Rabs X <= 4 -> e <= 6 * u -> within (rad2deg64 r) (rad2deg X) (2 / 10 ^ 13).
Proof.
  intros O HT HE HX He. assert (A : ap r X (13 * u)).
  { destruct O as [F R]. split; [exact F|]. replace (val r - X) with ((val r - T) + (T - X)) by ring. eapply Rle_trans; [apply Rabs_triang|].
    assert (2 * u * Rabs T <= 2 * u * (32 / 10)) by (apply Rmult_le_compat_l; [rewrite u_val; lra|exact HT]). num. }
  destruct (rad2deg_ap r X (13 * u) A HX ltac:(num)) as [F R]. split; [exact F|]. eapply Rle_trans; [exact R|num].
Qed.
Lemma pi_le : PI <= 32 / 10. Proof. pose proof pi_digits. lra. Qed.
Lemma atan2_le y x : Rabs (atan2 y x) <= 32 / 10. Proof. pose proof (atan2_range y x). pose proof pi_le. apply Rabs_le. lra. Qed.
Lemma atan2_zero x : 0 <= x -> atan2 0 x = 0.
Proof. intros H. unfold atan2. destruct (Rlt_dec 0 x); [unfold Rdiv; rewrite Rmult_0_l; apply atan_0|]. destruct (Rlt_dec x 0); [lra|]. destruct (Rlt_dec 0 0); [lra|reflexivity]. Qed.

(** azimuth: away from the half line where the signs of zeros decide *)
Lemma azimuth ned : fin (fy ned) -> fin (fx ned) -> (val (fy ned) <> 0 \/ 0 < val (fx ned)) -> within (rad2deg64 (g_atan2 L (fy ned) (fx ned))) (rad2deg (atan2 (val (fy ned)) (val (fx ned)))) (2 / 10 ^ 13).
Proof.
  intros Fy Fx H. pose proof (am_atan2 L AM _ _ Fy Fx H) as O. pose proof (atan2_le (val (fy ned)) (val (fx ned))). apply (degrees _ _ _ 0 O); try lra; [rewrite Rminus_diag_eq by reflexivity; rewrite Rabs_R0; lra|pose proof u_pos; lra].
Qed.
Lemma azimuth_zero ned : fin (fy ned) -> fin (fx ned) -> val (fy ned) = 0 -> val (fx ned) <= 0 -> exists X, (X = PI \/ X = - PI \/ X = 0 /\ val (fx ned) = 0) /\ within (rad2deg64 (g_atan2 L (fy ned) (fx ned))) (rad2deg X) (2 / 10 ^ 13).
Proof.
  intros Fy Fx Hy Hx. pose proof pi_le. pose proof PI_RGT_0. pose proof u_pos. assert (D : forall X r, one_ulp r X -> Rabs X <= 32 / 10 -> within (rad2deg64 r) (rad2deg X) (2 / 10 ^ 13)).
  { intros X r O HX. apply (degrees _ _ _ 0 O); try lra. rewrite Rminus_diag_eq by reflexivity. rewrite Rabs_R0. lra. }
  destruct (ap_zero J AJ _ _ Fy Fx Hy Hx) as [O|[O|(X0 & F & V)]].
  - exists PI. split; [now left|]. apply D; [exact O|rewrite Rabs_pos_eq; lra].
  - exists (- PI). split; [right; now left|]. apply D; [exact O|rewrite Rabs_Ropp, Rabs_pos_eq; lra].
  - exists 0. split; [right; right; auto|]. apply D; [|rewrite Rabs_R0; lra]. split; [exact F|]. fold L in V. rewrite V, Rminus_diag_eq by reflexivity. rewrite Rabs_R0. pose proof eta_pos. lra.
Qed.
(** elevation *)
Lemma elevation ned h : fin3 ned -> fin h -> 0 <= val h -> let H := sqrt (val (fx ned) ^ 2 + val (fy ned) ^ 2) in Rabs (val h - H) <= 5 * u * H + / 2 ^ 500 -> / 2 ^ 400 <= Rabs (val (fz ned)) \/ / 2 ^ 400 <= H ->
  within (rad2deg64 (g_atan2 L (fneg (fz ned)) h)) (rad2deg (atan2 (- val (fz ned)) H)) (2 / 10 ^ 13).
Proof.
  intros F Fh h0 H HH K. pose proof (F AZ) as Fz. cbn [fc] in Fz. set (d := val (fz ned)) in *. assert (H0 : 0 <= H) by apply sqrt_pos. pose proof (proj2 (fneg_fin (fz ned)) Fz) as Fn. pose proof u_val as UV.
  assert (T0 : 0 < / 2 ^ 400) by (apply Rinv_0_lt_compat, pow_lt; lra). assert (T5 : / 2 ^ 500 = / 2 ^ 400 * / 2 ^ 100) by (rewrite <- Rinv_mult, <- pow_add; reflexivity). assert (T1 : / 2 ^ 100 <= u / 10) by (rewrite UV; lra).
  assert (P1 : 0 < / 2 ^ 100) by (apply Rinv_0_lt_compat, pow_lt; lra).
  assert (HREL : / 2 ^ 400 <= H -> Rabs (val h - H) <= (51 / 10 * u) * H + 0).
  { intros HB. eapply Rle_trans; [exact HH|]. rewrite T5. assert (/ 2 ^ 400 * / 2 ^ 100 <= H * (u / 10)) by (apply Rmult_le_compat; lra). lra. }
  assert (hpos : / 2 ^ 400 <= H -> 0 < val h).
  { intros HB. specialize (HREL HB). apply Rabs_le_inv in HREL. assert (51 / 10 * u * H <= / 2 * H) by (apply Rmult_le_compat_r; [exact H0|rewrite UV; lra]). lra. }
  assert (O : one_ulp (g_atan2 L (fneg (fz ned)) h) (atan2 (- d) (val h))).
  { unfold d. rewrite <- fneg_val. apply (am_atan2 L AM); [exact Fn|exact Fh|]. rewrite fneg_val. fold d. destruct (Req_dec d 0) as [Z|Z]; [right|left; lra]. apply hpos. destruct K as [K|K]; [|exact K]. rewrite Z, Rabs_R0 in K. lra. }
  apply (degrees _ _ _ (51 / 10 * u + / 2 ^ 100) O); [apply atan2_le| |pose proof (atan2_le (- d) H); lra|lra].
  destruct (Req_dec d 0) as [Z|Z].
  - rewrite Z, Ropp_0, !atan2_zero by assumption. rewrite Rminus_0_r, Rabs_R0. rewrite UV. lra.
  - assert (Z' : - d <> 0) by lra. destruct (Rle_dec (/ 2 ^ 400) H) as [B|B].
    + pose proof (atan2_near (- d) (val h) H (51 / 10 * u) 0 Z' h0 H0 ltac:(rewrite UV; lra) ltac:(lra) (HREL B)) as N. unfold Rdiv in N. rewrite Rmult_0_l in N. lra.
    + assert (D1 : / 2 ^ 400 <= Rabs d) by tauto.
      pose proof (atan2_near (- d) (val h) H (5 * u) (/ 2 ^ 500) Z' h0 H0 ltac:(rewrite UV; lra) ltac:(rewrite T5; apply Rmult_le_pos; lra) HH) as N. rewrite Rabs_Ropp in N.
      assert (/ 2 ^ 500 / Rabs d <= / 2 ^ 100). { apply Rmult_le_reg_r with (Rabs d); [lra|]. unfold Rdiv. rewrite Rmult_assoc, Rinv_l, Rmult_1_r, T5 by lra. rewrite Rmult_comm. apply Rmult_le_compat_l; lra. }
      rewrite UV in *. lra.
Qed.
End Library.

(** ** The theorems *)
Section Theorems.
Variable J : projlib.
Hypothesis AJ : accurate_proj J.

(** Range, azimuth and elevation of a vector of which some coordinate is at least 2^-400 m: the range to five half-units in the last place, the angles to 2e-13 degrees.
    The azimuth is not determined on the half line straight south, where it is 180 or -180 after the sign of the zero, nor on the vertical. *)
Theorem C80_ned2pae ned q : fin3 ned -> (forall i, Rabs (val (fc i ned)) <= 2 ^ 80) -> (exists i, / 2 ^ 400 <= Rabs (val (fc i ned))) -> ned2pae (real3 ned) = Ret q ->
  exists r, ned2pae64 J ned = GRet r /\ within (fx r) (vx q) (5 * u * vx q + / 2 ^ 500) /\ (val (fy ned) <> 0 \/ 0 < val (fx ned) -> within (fy r) (vy q) (2 / 10 ^ 13)) /\ within (fz r) (vz q) (2 / 10 ^ 13).
Proof.
  intros F HB K E. destruct (range_ok J AJ ned F HB) as (p & G1 & W1). destruct (horizontal J AJ (fx ned) (fy ned) (F AX) (F AY) (HB AX) (HB AY)) as (n2 & e2 & h & G2 & G3 & G4 & Fh & h0 & HH).
  unfold ned2pae64. rewrite G1. cbn [gbind]. rewrite G2. cbn [gbind]. rewrite G3. cbn [gbind]. rewrite G4. cbn [gbind]. eexists. split; [reflexivity|]. cbn [fx fy fz].
  destruct (C53_ned2pae (real3 ned)) as (p' & a' & e' & E' & _ & N & _). assert (Q0 : q = V p' a' e') by congruence.
  unfold ned2pae in E. cbn [real3 vx vy vz] in E. destruct (euclideanDistance _ _) as [D|]; [|discriminate E]. cbn [pbind] in E. rewrite psqrt_ok in E by nra. cbn [pbind] in E.
  assert (Q : q = V D (rad2deg (atan2 (val (fy ned)) (val (fx ned)))) (rad2deg (atan2 (- val (fz ned)) (sqrt (val (fx ned) ^ 2 + val (fy ned) ^ 2))))) by congruence. rewrite Q. cbn [vx vy vz].
  assert (DN : D = norm (real3 ned)) by congruence. rewrite DN. split; [exact W1|]. split; [apply (azimuth J AJ); [exact (F AY)|exact (F AX)]|].
  apply (elevation J AJ); try assumption. destruct K as [i K]. destruct i; cbn [fc] in K; [right|right|left; exact K]; eapply Rle_trans; [exact K| |exact K|]; rewrite <- sqrt_Rsqr_abs; apply sqrt_le_1_alt; unfold Rsqr; nra.
Qed.

Lemma deg_near x X : Rabs (x - X) <= 2 / 10 ^ 13 -> Rabs (cos (deg2rad x) - cos (deg2rad X)) <= 36 / 10 ^ 16 /\ Rabs (sin (deg2rad x) - sin (deg2rad X)) <= 36 / 10 ^ 16.
Proof.
  intros H. assert (A : Rabs (deg2rad x - deg2rad X) <= 36 / 10 ^ 16).
  { pose proof pi_digits. unfold deg2rad. replace (x * PI / 180 - X * PI / 180) with ((x - X) * (PI / 180)) by field. rewrite Rabs_mult, (Rabs_pos_eq (PI / 180)) by lra. apply Rle_trans with (2 / 10 ^ 13 * (PI / 180)); [apply Rmult_le_compat_r; lra|lra]. }
  split; (eapply Rle_trans; [|exact A]); [apply cos_lipschitz|apply sin_lipschitz].
Qed.
Lemma rad_back X : deg2rad (rad2deg X) = X. Proof. unfold deg2rad, rad2deg. field. apply Rgt_not_eq, PI_RGT_0. Qed.
Lemma product_near p p' c c' a a' t : 0 <= p -> Rabs (p' - p) <= t -> Rabs (c' - c) <= 36 / 10 ^ 16 -> (c = 0 \/ Rabs (a' - a) <= 36 / 10 ^ 16) -> Rabs c <= 1 -> Rabs c' <= 1 -> Rabs a' <= 1 -> Rabs (p' * c' * a' - p * c * a) <= t + 72 / 10 ^ 16 * p.
Proof.
  intros Hp Ht Hc Ha C C' A'. replace (p' * c' * a' - p * c * a) with ((p' - p) * c' * a' + p * (c' - c) * a' + p * (c * (a' - a))) by ring.
  assert (M1 : Rabs ((p' - p) * c' * a') <= t). { rewrite !Rabs_mult. pose proof (Rabs_pos (p' - p)). apply Rle_trans with (t * 1 * 1); [|lra]. apply Rmult_le_compat; try apply Rabs_pos; try assumption; [apply Rmult_le_pos; apply Rabs_pos|apply Rmult_le_compat; try apply Rabs_pos; assumption]. }
  assert (M2 : Rabs (p * (c' - c) * a') <= p * (36 / 10 ^ 16)). { rewrite !Rabs_mult, (Rabs_pos_eq p) by exact Hp. apply Rle_trans with (p * (36 / 10 ^ 16) * 1); [|lra]. apply Rmult_le_compat; try apply Rabs_pos; try assumption; [apply Rmult_le_pos; [exact Hp|apply Rabs_pos]|apply Rmult_le_compat_l; assumption]. }
  assert (M3 : Rabs (p * (c * (a' - a))) <= p * (36 / 10 ^ 16)). { rewrite Rabs_mult, (Rabs_pos_eq p) by exact Hp. apply Rmult_le_compat_l; [exact Hp|]. rewrite Rabs_mult. destruct Ha as [->|Ha]; [rewrite Rabs_R0, Rmult_0_l; lra|]. apply Rle_trans with (1 * (36 / 10 ^ 16)); [apply Rmult_le_compat; try apply Rabs_pos; assumption|lra]. }
  eapply Rle_trans; [apply Rabs_triang|]. assert (Rabs ((p' - p) * c' * a' + p * (c' - c) * a') <= t + p * (36 / 10 ^ 16)) by (eapply Rle_trans; [apply Rabs_triang|]; lra). lra.
Qed.
Lemma abs_cos x : Rabs (cos x) <= 1. Proof. pose proof (COS_bound x). apply Rabs_le. lra. Qed.
Lemma abs_sin x : Rabs (sin x) <= 1. Proof. pose proof (SIN_bound x). apply Rabs_le. lra. Qed.
Lemma norm_le_max v m : 0 <= m -> Rabs (vx v) <= m -> Rabs (vy v) <= m -> Rabs (vz v) <= m -> norm v <= 2 * m.
Proof.
  intros Hm H1 H2 H3. rewrite norm_is, <- (sqrt_square (2 * m)) by lra. apply sqrt_le_1_alt. apply sq_bound in H1, H2, H3. nra.
Qed.
Lemma at_range_le p a e i : Rabs (rc i (at_range p a e)) <= Rabs p.
Proof.
  assert (K : forall c d, Rabs c <= 1 -> Rabs d <= 1 -> Rabs (p * c * d) <= Rabs p).
  { intros c d Hc Hd. rewrite !Rabs_mult. pose proof (Rabs_pos p). pose proof (Rabs_pos c). pose proof (Rabs_pos d). apply Rle_trans with (Rabs p * 1 * 1); [|lra]. apply Rmult_le_compat; try assumption; [apply Rmult_le_pos; assumption|apply Rmult_le_compat_l; assumption]. }
  destruct i; cbn [rc at_range vx vy vz]; [apply K; apply abs_cos|apply K; [apply abs_cos|apply abs_sin]|]. rewrite Rabs_Ropp. replace (p * sin (deg2rad e)) with (p * sin (deg2rad e) * 1) by ring. apply K; [apply abs_sin|rewrite Rabs_R1; lra].
Qed.

(** Range, azimuth and elevation point to the vector, whatever it is: within 1e-14 of its length in each coordinate *)
Theorem C80_locates ned : fin3 ned -> (forall i, Rabs (val (fc i ned)) <= 2 ^ 80) ->
  exists r, ned2pae64 J ned = GRet r /\ fin3 r /\ forall i, Rabs (rc i (at_range (val (fx r)) (val (fy r)) (val (fz r))) - val (fc i ned)) <= / 10 ^ 14 * norm (real3 ned) + / 2 ^ 390.
Proof.
  intros F HB. destruct (range_ok J AJ ned F HB) as (p & G1 & Fp & W1). destruct (horizontal J AJ (fx ned) (fy ned) (F AX) (F AY) (HB AX) (HB AY)) as (n2 & e2 & h & G2 & G3 & G4 & Fh & h0 & HH).
  unfold ned2pae64. rewrite G1. cbn [gbind]. rewrite G2. cbn [gbind]. rewrite G3. cbn [gbind]. rewrite G4. cbn [gbind]. eexists. split; [reflexivity|]. cbn [fx fy fz].
  set (A := rad2deg64 (g_atan2 (j_math J) (fy ned) (fx ned))). set (B := rad2deg64 (g_atan2 (j_math J) (fneg (fz ned)) h)).
  set (H := sqrt (val (fx ned) ^ 2 + val (fy ned) ^ 2)) in *. assert (H0 : 0 <= H) by apply sqrt_pos. assert (n0 : 0 <= norm (real3 ned)) by apply sqrt_pos. pose proof u_val as UV. pose proof pi_le as PL. pose proof PI_RGT_0 as P0.
  assert (T0 : 0 < / 2 ^ 400) by (apply Rinv_0_lt_compat, pow_lt; lra). assert (T39 : / 2 ^ 390 = 1024 * / 2 ^ 400) by lra. assert (T50 : / 2 ^ 500 <= / 2 ^ 400) by lra.
  assert (FA : fin A /\ ((val (fy ned) <> 0 \/ 0 < val (fx ned)) /\ Rabs (val A - rad2deg (atan2 (val (fy ned)) (val (fx ned)))) <= 2 / 10 ^ 13 \/ (val (fy ned) = 0 /\ val (fx ned) <= 0) /\ exists X, (X = PI \/ X = - PI \/ X = 0 /\ val (fx ned) = 0) /\ Rabs (val A - rad2deg X) <= 2 / 10 ^ 13)).
  { destruct (Req_dec (val (fy ned)) 0) as [Y|Y]; [destruct (Rlt_dec 0 (val (fx ned))) as [X|X]|].
    - destruct (azimuth J AJ ned (F AY) (F AX) (or_intror X)) as [FA WA]. auto.
    - destruct (azimuth_zero J AJ ned (F AY) (F AX) Y ltac:(lra)) as (X0 & XC & FA & WA). split; [exact FA|]. right. split; [lra|]. exists X0. auto.
    - destruct (azimuth J AJ ned (F AY) (F AX) (or_introl Y)) as [FA WA]. auto. }
  destruct FA as [FA AZI].
  assert (FB : fin B).
  { assert (PR : forall r T, one_ulp r T -> Rabs T <= 32 / 10 -> fin (rad2deg64 r)). { intros r T O HT. apply (degrees r T T 0 O HT); [rewrite Rminus_diag_eq by reflexivity; rewrite Rabs_R0; lra|lra|pose proof u_pos; lra]. }
    pose proof (proj2 (fneg_fin (fz ned)) (F AZ)) as Fn. destruct (Req_dec (val (fz ned)) 0) as [Z|Z]; [destruct (Rlt_dec 0 (val h)) as [X|X]|].
    - exact (PR _ _ (am_atan2 _ (ap_math J AJ) _ _ Fn Fh (or_intror X)) (atan2_le _ _)).
    - destruct (azimuth_zero J AJ (FV h (fneg (fz ned)) f_zero)) as (? & _ & Q & _); cbn [fx fy]; [exact Fn|exact Fh|rewrite fneg_val; lra|lra|exact Q].
    - refine (PR _ _ (am_atan2 _ (ap_math J AJ) _ _ Fn Fh (or_introl _)) (atan2_le _ _)). rewrite fneg_val. lra. }
  split; [intros []; assumption|].
  assert (MAIN : / 2 ^ 400 <= Rabs (val (fz ned)) \/ / 2 ^ 400 <= H -> forall i, Rabs (rc i (at_range (val p) (val A) (val B)) - val (fc i ned)) <= / 10 ^ 14 * norm (real3 ned) + / 2 ^ 390).
  { intros KH. destruct (elevation J AJ ned h F Fh h0 HH KH) as [_ EL]. fold H in EL. fold B in EL. apply deg_near in EL. rewrite rad_back in EL. destruct EL as [EC ES].
    set (eps := atan2 (- val (fz ned)) H) in *. set (al := atan2 (val (fy ned)) (val (fx ned))) in *. assert (S2 : 0 <= val (fx ned) ^ 2 + val (fy ned) ^ 2) by nra.
    assert (PC : norm (real3 ned) * cos eps = H /\ norm (real3 ned) * sin eps = - val (fz ned)).
    { pose proof (atan2_polar (- val (fz ned)) H) as [Q1 Q2]. fold eps in Q1, Q2. assert (NN : sqrt (H * H + - val (fz ned) * - val (fz ned)) = norm (real3 ned)) by (rewrite norm_is; cbn [real3 vx vy vz]; f_equal; unfold H; rewrite sqrt_sqrt by exact S2; ring).
      rewrite NN in Q1, Q2. split; assumption. }
    assert (HC : H * cos al = val (fx ned) /\ H * sin al = val (fy ned)).
    { pose proof (atan2_polar (val (fy ned)) (val (fx ned))) as [Q1 Q2]. fold al in Q1, Q2. replace (val (fx ned) * val (fx ned) + val (fy ned) * val (fy ned)) with (val (fx ned) ^ 2 + val (fy ned) ^ 2) in Q1, Q2 by ring. split; assumption. }
    destruct PC as [PC PS]. destruct HC as [HC HS].
    assert (AZ : cos eps = 0 \/ Rabs (cos (deg2rad (val A)) - cos al) <= 36 / 10 ^ 16 /\ Rabs (sin (deg2rad (val A)) - sin al) <= 36 / 10 ^ 16).
    { destruct AZI as [[_ W]|[[Y X] (X0 & XC & W)]]; [right; apply deg_near in W; rewrite rad_back in W; exact W|]. apply deg_near in W. rewrite rad_back in W. destruct (Req_dec (val (fx ned)) 0) as [X1|X1].
      - left. assert (HZ : H = 0) by (unfold H; rewrite X1, Y; replace (0 ^ 2 + 0 ^ 2) with 0 by ring; apply sqrt_0). rewrite HZ in PC, KH. destruct KH as [KH|KH]; [|lra].
        apply Rmult_integral in PC. destruct PC as [PC|PC]; [|exact PC]. exfalso. rewrite PC, Rmult_0_l in PS. assert (Z0 : val (fz ned) = 0) by lra. rewrite Z0, Rabs_R0 in KH. lra.
      - right. assert (AL : al = PI). { unfold al, atan2. rewrite Y. destruct (Rlt_dec 0 (val (fx ned))); [lra|]. destruct (Rlt_dec (val (fx ned)) 0); [|lra]. destruct (Rle_dec 0 0); [|lra]. unfold Rdiv. rewrite Rmult_0_l, atan_0. ring. }
        rewrite AL. destruct XC as [->|[->|[_ Q]]]; [exact W| |contradiction]. rewrite cos_neg, sin_neg in W. rewrite sin_PI in *. rewrite Ropp_0 in W. exact W. }
    assert (TT : 5 * u * norm (real3 ned) <= 6 / 10 ^ 16 * norm (real3 ned)) by (apply Rmult_le_compat_r; [exact n0|rewrite UV; lra]).
    intros i. assert (K : Rabs (rc i (at_range (val p) (val A) (val B)) - val (fc i ned)) <= 5 * u * norm (real3 ned) + / 2 ^ 500 + 72 / 10 ^ 16 * norm (real3 ned)); [|lra].
    destruct i; cbn [rc at_range vx vy vz fc].
    - rewrite <- HC, <- PC. apply product_near; try assumption; try apply abs_cos. destruct AZ as [AZ|[AZ _]]; [left; exact AZ|right; exact AZ].
    - rewrite <- HS, <- PC. apply product_near; try assumption; try apply abs_cos; try apply abs_sin. destruct AZ as [AZ|[_ AZ]]; [left; exact AZ|right; exact AZ].
    - replace (val (fz ned)) with (- (norm (real3 ned) * sin eps)) by (rewrite PS; ring). replace (- (val p * sin (deg2rad (val B))) - - (norm (real3 ned) * sin eps)) with (- (val p * sin (deg2rad (val B)) * 1 - norm (real3 ned) * sin eps * 1)) by ring. rewrite Rabs_Ropp.
      apply product_near; try assumption; try apply abs_sin; [|rewrite Rabs_R1; lra]. right. rewrite Rminus_diag_eq by reflexivity. rewrite Rabs_R0. lra. }
  destruct (Rle_dec (/ 2 ^ 400) (Rabs (val (fx ned)))) as [K1|K1]; [|destruct (Rle_dec (/ 2 ^ 400) (Rabs (val (fy ned)))) as [K2|K2]; [|destruct (Rle_dec (/ 2 ^ 400) (Rabs (val (fz ned)))) as [K3|K3]]].
  4:{ (* everything is tiny *) intros i. pose proof (norm_le_max (real3 ned) (/ 2 ^ 400) ltac:(lra)) as NM. cbn [real3 vx vy vz] in NM. specialize (NM ltac:(lra) ltac:(lra) ltac:(lra)). change (V (val (fx ned)) (val (fy ned)) (val (fz ned))) with (real3 ned) in NM.
      assert (PB : Rabs (val p) <= 5 * / 2 ^ 400). { apply Rabs_le_inv in W1. assert (5 * u * norm (real3 ned) <= 1 * norm (real3 ned)) by (apply Rmult_le_compat_r; [exact n0|rewrite UV; lra]). apply Rabs_le. lra. }
      pose proof (at_range_le (val p) (val A) (val B) i) as AB. assert (NB : Rabs (val (fc i ned)) <= / 2 ^ 400) by (destruct i; cbn [fc]; lra). unfold Rminus. eapply Rle_trans; [apply Rabs_triang|]. rewrite Rabs_Ropp. lra. }
  1-3: apply MAIN; first [left; exact K3 | right; eapply Rle_trans; [first [exact K1|exact K2]|]; unfold H; rewrite <- sqrt_Rsqr_abs; apply sqrt_le_1_alt; unfold Rsqr; nra].
Qed.

Lemma norm_le_span v : norm v <= span v.
Proof.
  rewrite norm_is. unfold span. pose proof (Rabs_pos (vx v)). pose proof (Rabs_pos (vy v)). pose proof (Rabs_pos (vz v)). rewrite <- (sqrt_square (Rabs (vx v) + Rabs (vy v) + Rabs (vz v))) by lra. apply sqrt_le_1_alt.
  rewrite <- !(pow2_abs (vx v)), <- !(pow2_abs (vy v)), <- !(pow2_abs (vz v)). nra.
Qed.
(** The range from a usable origin is the distance of the two positions, to 1.3e-14 of it; and azimuth, elevation and range lead to the vector computed by ecef2ned (C73) *)
Theorem C80_ecef2pae o e : usable o -> fin3 e -> (forall i, Rabs (val (fc i e)) <= 10 ^ 9) -> let D := norm (vsub (real3 e) (real3 o)) in
  exists d r, (forall n, (10 <= n)%nat -> ecef2ned64 (j_math J) n e o = Some (GRet d) /\ ecef2pae64 J n e o = Some (GRet r)) /\ within (fx r) D (13 / 10 ^ 15 * D + / 2 ^ 480) /\
    forall i, Rabs (rc i (at_range (val (fx r)) (val (fy r)) (val (fz r))) - val (fc i d)) <= 11 / 10 ^ 15 * D + / 2 ^ 380.
Proof.
  intros UO Fe He D. destruct (C73_distance (j_math J) (ap_math J AJ) o e UO Fe He) as (d & G & Fd & W). fold D in W. assert (D0 : 0 <= D) by apply sqrt_pos. assert (P53 : 2 ^ 53 = 9007199254740992) by ring.
  assert (DB : D <= 10 ^ 11). { unfold D. eapply Rle_trans; [apply norm_le_span|]. unfold span, vsub. cbn [real3 vx vy vz]. pose proof (usable_small o UO AX) as A1. pose proof (usable_small o UO AY) as A2. pose proof (usable_small o UO AZ) as A3. pose proof (He AX) as B1. pose proof (He AY) as B2. pose proof (He AZ) as B3.
    cbn [fc] in *. assert (T : forall x y, Rabs x <= 10 ^ 9 -> Rabs y <= 10 ^ 9 -> Rabs (x - y) <= 2 * 10 ^ 9) by (intros x y Hx Hy; unfold Rminus; eapply Rle_trans; [apply Rabs_triang|]; rewrite Rabs_Ropp; lra).
    pose proof (T _ _ B1 A1). pose proof (T _ _ B2 A2). pose proof (T _ _ B3 A3). lra. }
  assert (NB : norm (real3 d) <= (1 + 12 / 10 ^ 15) * D + / 2 ^ 490) by (rewrite P53 in W; apply Rabs_le_inv in W; lra). assert (n0 : 0 <= norm (real3 d)) by apply sqrt_pos.
  assert (Hd : forall i, Rabs (val (fc i d)) <= 2 ^ 80).
  { intros i. apply Rle_trans with (norm (real3 d)); [|lra]. rewrite norm_is. cbn [real3 vx vy vz]. rewrite <- sqrt_Rsqr_abs. apply sqrt_le_1_alt. unfold Rsqr. pose proof (pow2_ge_0 (val (fx d))). pose proof (pow2_ge_0 (val (fy d))). pose proof (pow2_ge_0 (val (fz d))). destruct i; cbn [fc]; lra. }
  destruct (C80_locates d Fd Hd) as (r & G2 & Fr & LO). exists d, r. split; [|split].
  - intros n Hn. split; [exact (G n Hn)|]. unfold ecef2pae64. rewrite (G n Hn). now rewrite G2.
  - destruct (range_ok J AJ d Fd Hd) as (p & G1 & W1). unfold ned2pae64 in G2. rewrite G1 in G2. cbn [gbind] in G2. destruct (horizontal J AJ (fx d) (fy d) (Fd AX) (Fd AY) (Hd AX) (Hd AY)) as (n2 & e2 & h & G3 & G4 & G5 & _).
    rewrite G3 in G2. cbn [gbind] in G2. rewrite G4 in G2. cbn [gbind] in G2. rewrite G5 in G2. cbn [gbind] in G2. assert (RP : fx r = p) by (injection G2 as <-; reflexivity). rewrite RP. destruct W1 as [Fp W1]. split; [exact Fp|].
    replace (val p - D) with ((val p - norm (real3 d)) + (norm (real3 d) - D)) by ring. eapply Rle_trans; [apply Rabs_triang|]. rewrite P53 in W. rewrite u_val in W1.
    assert (5 * / 9007199254740992 * norm (real3 d) <= 6 / 10 ^ 16 * ((1 + 12 / 10 ^ 15) * D + / 2 ^ 490)) by (apply Rmult_le_compat; lra). lra.
  - intros i. eapply Rle_trans; [exact (LO i)|]. assert (/ 10 ^ 14 * norm (real3 d) <= / 10 ^ 14 * ((1 + 12 / 10 ^ 15) * D + / 2 ^ 490)) by (apply Rmult_le_compat_l; lra). lra.
Qed.
(** Seen from a position near the surface: what azimuth, elevation and range point to has the true east component to 2e-14 of the span of the vector, and the true north and down components to 1.2e-5 of it (what the stopping tolerance of ecef2lla leaves, C71) *)
Theorem C80_bearings o e lat lon alt K : fin3 o -> -90 < lat < 90 -> -180 < lon < 180 -> Rabs alt <= 150000 -> lla2ecef (V lat lon alt) = Ret (real3 o) -> 1 <= K <= 10 ^ 6 -> dist o <= K * axis o ->
  fin3 e -> (forall i, Rabs (val (fc i e)) <= 10 ^ 9) ->
  let v := vsub (real3 e) (real3 o) in let U := up (deg2rad lat) (deg2rad lon) in let Ea := east (deg2rad lon) in let North := vcross U Ea in
  exists r, (forall n, (10 <= n)%nat -> ecef2pae64 J n e o = Some (GRet r)) /\ let a := at_range (val (fx r)) (val (fy r)) (val (fz r)) in
    Rabs (vx a - vdot North v) <= 12 / 10 ^ 6 * span v + / 2 ^ 370 /\ Rabs (vy a - vdot Ea v) <= 2 / 10 ^ 14 * span v + / 2 ^ 370 /\ Rabs (vz a - - vdot U v) <= 12 / 10 ^ 6 * span v + / 2 ^ 370.
Proof.
  intros F Hl Hm Hs Eq HK HD Fe He v U Ea North. assert (Hh : -3000000 <= alt <= 53000000) by (apply Rabs_le_inv in Hs; lra).
  assert (UO : usable o) by (constructor; [exact F|exists lat, lon, alt, K; repeat (split; [assumption || lra|]); assumption]).
  destruct (C80_ecef2pae o e UO Fe He) as (d & r & G & _ & LO). fold v in LO. destruct (C73_directions (j_math J) (ap_math J AJ) o e lat lon alt K F Hl Hm Hs Eq HK HD Fe He) as (d' & G' & [_ WE] & [[_ WN] [_ WD]] & _). fold v in WE, WN, WD. fold U in WN, WD. fold Ea in WE, WN. fold North in WN.
  destruct (G 10%nat ltac:(lia)) as [G1 _]. rewrite (G' 10%nat ltac:(lia)) in G1. assert (d' = d) by congruence. subst d'. exists r. split; [intros n Hn; apply (G n Hn)|]. cbv zeta. set (a := at_range _ _ _) in *.
  pose proof (norm_le_span v) as NS. assert (P53 : 2 ^ 53 = 9007199254740992) by ring. rewrite P53 in WE. assert (n0 : 0 <= norm v) by apply sqrt_pos. pose proof (LO AX) as L1. pose proof (LO AY) as L2. pose proof (LO AZ) as L3. cbn [rc fc] in L1, L2, L3.
  assert (T : forall x y z A B, Rabs (x - y) <= A -> Rabs (y - z) <= B -> Rabs (x - z) <= A + B) by (intros x y z A B X Y; replace (x - z) with ((x - y) + (y - z)) by ring; eapply Rle_trans; [apply Rabs_triang|]; lra).
  split; [|split]; (eapply Rle_trans; [eapply T; eassumption|]); lra.
Qed.

(** ** Gravity *)
Lemma nap_ge : nap f_ge (97803267715 / 10000000000) 10 (1 / 10 ^ 15).
Proof. assert (V : val f_ge = 344114656278821 / 35184372088832) by (unfold f_ge; value_of_bits; lra). split; [split; [reflexivity|rewrite V]|]; apply Rabs_le; lra. Qed.
Lemma nap_gk : nap f_gk (1931851353 / 1000000000000) (2 / 1000) (1 / 10 ^ 18).
Proof. assert (V : val f_gk = 2227272968577533 / 1152921504606846976) by (unfold f_gk; value_of_bits; lra). split; [split; [reflexivity|rewrite V]|]; apply Rabs_le; lra. Qed.
Lemma nap_ge2 : nap f_ge2 (66943800229 / 10000000000000) (67 / 10000) (1 / 10 ^ 18).
Proof. assert (V : val f_ge2 = 7718094688411887 / 1152921504606846976) by (unfold f_ge2; value_of_bits; lra). split; [split; [reflexivity|rewrite V]|]; apply Rabs_le; lra. Qed.
(** the gravity at every latitude (in radians), however large, within 1e-14 m/s^2 of the formula *)
Theorem C80_gravity lat g : fin lat -> g0 (val lat) = Ret g -> exists r, g0_64 J lat = GRet r /\ within r g (/ 10 ^ 14).
Proof.
  intros F E. assert (NL : nap lat (val lat) (Rabs (val lat)) 0) by (split; [now apply ap_exact|apply Rle_refl]). destruct (nap_sin J AJ _ _ _ _ (23 / 10 ^ 17) NL ltac:(lra)) as (s & G1 & NS).
  destruct (nap_square J AJ _ _ _ _ 1 (7 / 10 ^ 16) NS ltac:(lra) ltac:(lra) ltac:(lra)) as (s2 & G2 & NS2). assert (N1 : nap f_1 1 1 0) by (split; [exact one_ap|rewrite Rabs_R1; lra]).
  pose proof (nap_mul _ _ _ _ _ _ _ _ (67 / 10000) (8 / 10 ^ 18) nap_ge2 NS2 ltac:(lra) ltac:(lra) ltac:(lra)) as NP.
  pose proof (nap_sub _ _ _ _ _ _ _ _ (1007 / 1000) (13 / 10 ^ 17) N1 NP ltac:(lra) ltac:(lra) ltac:(lra)) as [A3 B3].
  pose proof (nap_mul _ _ _ _ _ _ _ _ (2 / 1000) (4 / 10 ^ 18) nap_gk NS2 ltac:(lra) ltac:(lra) ltac:(lra)) as NK.
  pose proof (nap_add _ _ _ _ _ _ _ _ (1002 / 1000) (12 / 10 ^ 17) N1 NK ltac:(lra) ltac:(lra) ltac:(lra)) as NK1.
  pose proof (nap_mul _ _ _ _ _ _ _ _ (1002 / 100) (35 / 10 ^ 16) nap_ge NK1 ltac:(lra) ltac:(lra) ltac:(lra)) as [A5 B5].
  pose proof (sin_sq_le (val lat)) as SQ. assert (S0 : 0 <= sin (val lat) ^ 2) by apply pow2_ge_0. set (Q := 1 - 66943800229 / 10000000000000 * sin (val lat) ^ 2) in *. assert (QB : 9933 / 10000 <= Q <= 1) by (unfold Q; lra).
  assert (S1 : sqrt Q <= 1) by (rewrite <- sqrt_1; apply sqrt_le_1_alt; lra). assert (S2 : 9966 / 10000 <= sqrt Q) by (rewrite <- (sqrt_square (9966 / 10000)) by lra; apply sqrt_le_1_alt; lra).
  pose proof (scaled (1 + 13 / 10 ^ 17 / (9966 / 10000)) ltac:(lra)). destruct (ap_sqrt _ _ _ (9966 / 10000) 1 (25 / 10 ^ 17) A3) as [G3 A4]; [lra|lra|lra|exact S1|lra|].
  pose proof (scaled (1002 / 100 / (9966 / 10000) + 7 / 10 ^ 15) ltac:(lra)). destruct (ap_div _ _ _ _ _ _ (1002 / 100) (9966 / 10000) (7 / 10 ^ 15) (/ 10 ^ 14) A5 A4 B5) as [G4 A6]; [lra|rewrite Rabs_pos_eq; lra|lra|lra|lra|lra|].
  eexists. split.
  - unfold g0_64. rewrite G1. cbn [gbind]. rewrite G2. cbn [gbind]. rewrite G3. cbn [gbind]. exact G4.
  - unfold g0 in E. fold Q in E. rewrite psqrt_ok in E by lra. cbn [pbind] in E. rewrite pdiv_ok in E by lra. assert (EG : g = 97803267715 / 10000000000 * (1 + 1931851353 / 1000000000000 * sin (val lat) ^ 2) / sqrt Q) by congruence. rewrite EG. exact A6.
Qed.
End Theorems.

(** ** Cases: north 3, east -4, up 12; the origin and the position of C73 *)
Definition case_ned : fvec := FV (fint 3) (fint (-4)) (fint (-12)).
Example C80_case : fin3 case_ned /\ real3 case_ned = V 3 (-4) (-12) /\ (forall i, Rabs (val (fc i case_ned)) <= 2 ^ 80) /\ (exists i, / 2 ^ 400 <= Rabs (val (fc i case_ned))) /\ norm (real3 case_ned) = 13 /\ val (fy case_ned) <> 0 /\
  usable case_e /\ fin3 case_p /\ (forall i, Rabs (val (fc i case_p)) <= 10 ^ 9) /\ exists g, g0 (val (fint 1)) = Ret g.
Proof.
  assert (V3 : real3 case_ned = V 3 (-4) (-12)) by (unfold real3, case_ned; cbn [fx fy fz]; rewrite !fint_val by lia; reflexivity).
  assert (E1 : val (fx case_ned) = 3) by exact (f_equal vx V3). assert (E2 : val (fy case_ned) = -4) by exact (f_equal vy V3). assert (E3 : val (fz case_ned) = -12) by exact (f_equal vz V3).
  destruct C73_case as (_ & U & F & B & _). split; [intros []; apply fint_fin; lia|]. split; [exact V3|]. split; [intros []; cbn [fc]; rewrite ?E1, ?E2, ?E3; apply Rabs_le; lra|].
  split; [exists AX; cbn [fc]; rewrite E1, Rabs_pos_eq; lra|]. split; [rewrite V3, norm_is; cbn [vx vy vz]; replace (3 ^ 2 + (-4) ^ 2 + (-12) ^ 2) with (13 * 13) by ring; apply sqrt_square; lra|].
  split; [lra|]. repeat (split; [assumption|]). unfold g0. pose proof (sin_sq_le (val (fint 1))). pose proof (pow2_ge_0 (sin (val (fint 1)))). rewrite psqrt_ok by lra. cbn [pbind]. eexists. apply pdiv_ok. apply Rgt_not_eq, sqrt_lt_R0. lra.
Qed.

Definition all_PropPae64 := (@C80_ned2pae, @C80_locates, @C80_ecef2pae, @C80_bearings, @C80_gravity).
Print Assumptions all_PropPae64.
