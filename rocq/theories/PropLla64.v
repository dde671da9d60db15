(** C71: ecef2lla in double precision ends and returns the latitude, longitude and altitude of the position *)
From Coq Require Import Reals ZArith Lra Lia List.
From Flocq Require Import Core Binary Bits.
From Verif Require Import Real3 RangeCoordinates PropGeo Conv PropConv Float64 DeadReckoning64 Range64 FloatErr PropDR64 PropDR64b FloatAbs PropRange64 RangeErr RangeRad RangeStep RangeLoop.
Local Open Scope R_scope.
Notation a := wgs84_a.
Notation E := (wgs84_e ^ 2).

(** ** The pieces around the loop *)
Lemma sqrt_err2 x X dx m : Rabs (x - X) <= dx -> 0 < m -> m * m <= X -> dx <= m * m / 100 -> 0 <= x /\ Rabs (sqrt x - sqrt X) <= dx / (19 / 10 * m).
Proof.
  intros Ed Hm HX Hd. destruct (sqrt_err x X dx m Ed Hm HX ltac:(nra)) as [X0 S]. split; [exact X0|].
  assert (M : m <= sqrt X) by (rewrite <- (sqrt_square m) by lra; apply sqrt_le_1_alt; exact HX).
  assert (D : dx / m <= m / 100). { apply Rmult_le_reg_r with m; [exact Hm|]. replace (dx / m * m) with dx by (field; lra). lra. }
  assert (M2 : 9 / 10 * m <= sqrt x) by (apply Rabs_le_inv in S; lra).
  apply Rmult_le_reg_r with (19 / 10 * m); [lra|]. replace (dx / (19 / 10 * m) * (19 / 10 * m)) with dx by (field; lra).
  apply Rle_trans with (Rabs (sqrt x - sqrt X) * (sqrt x + sqrt X)); [apply Rmult_le_compat_l; [apply Rabs_pos|lra]|].
  rewrite <- (Rabs_pos_eq (sqrt x + sqrt X)) by lra. rewrite <- Rabs_mult. replace ((sqrt x - sqrt X) * (sqrt x + sqrt X)) with (sqrt x * sqrt x - sqrt X * sqrt X) by ring. rewrite !sqrt_sqrt by nra. exact Ed.
Qed.
Lemma rad2deg_ap x X dx : ap x X dx -> Rabs X <= 4 -> dx <= 1 -> ap (rad2deg64 x) (rad2deg X) (574 / 10 * dx + 600 * u).
Proof.
  intros A HX Hd. pose proof pi_digits as PD. pose proof eta_pos. pose proof (ap_pos _ _ _ A) as D0.
  assert (AP : ap f_pi PI (/ 8000000000000000)) by (split; [reflexivity|rewrite val_pi; apply Rabs_le; lra]).
  assert (A180 : ap f_180 180 0) by (rewrite <- val_180; apply ap_exact; reflexivity).
  assert (M : ap (fmul x f_180) (X * 180) (180 * dx + 901 * u)) by (apply (ap_mul x f_180 X 180 dx 0 4 180 (180 * dx)); [exact A|exact A180|exact HX|rewrite Rabs_pos_eq; lra|lra|num|num]).
  refine (proj2 (ap_div (fmul x f_180) f_pi (X * 180) PI (180 * dx + 901 * u) (/ 8000000000000000) 720 (31415 / 10000) (5731 / 100 * dx + 370 * u) _ M AP _ _ _ _ _ _ _)).
  - rewrite Rabs_mult, (Rabs_pos_eq 180) by lra. lra.
  - lra.
  - rewrite Rabs_pos_eq; lra.
  - lra.
  - apply Rmult_le_reg_r with (31415 / 10000 - / 8000000000000000); [lra|]. unfold Rdiv at 1. rewrite Rmult_assoc, Rinv_l by lra. num.
  - num.
  - num.
Qed.

Lemma ret_inj {A} (x y : A) : Ret x = Ret y -> x = y. Proof. congruence. Qed.

(** the distance from the centre of the Earth and from its axis *)
Notation dist e := (sqrt (val (fx e) ^ 2 + val (fy e) ^ 2 + val (fz e) ^ 2)).
Notation axis e := (sqrt (val (fx e) ^ 2 + val (fy e) ^ 2)).

Section Machine.
Variable L : mathlib.
Hypothesis AM : accurate_math L.

Lemma axis_ap x y : fin x -> fin y -> Rabs (val x) <= 10 ^ 9 -> Rabs (val y) <= 10 ^ 9 -> / 10 <= sqrt (val x ^ 2 + val y ^ 2) ->
  exists p64, (x2 <-! gsquare L x ; y2 <-! gsquare L y ; gsqrt (fadd x2 y2)) = GRet p64 /\ ap p64 (sqrt (val x ^ 2 + val y ^ 2)) (4 * u * sqrt (val x ^ 2 + val y ^ 2)).
Proof.
  intros Fx Fy Hx Hy HP. set (P := sqrt (val x ^ 2 + val y ^ 2)) in *. assert (PP : P * P = val x ^ 2 + val y ^ 2) by (apply sqrt_sqrt; nra).
  assert (SQ : forall v, Rabs v * Rabs v = v ^ 2) by (intros v; rewrite <- Rabs_mult, Rabs_pos_eq by nra; ring).
  destruct (gsquare_ap L AM x (val x) 0 (Rabs (val x)) 0 (2 * u * val x ^ 2 + 2 * eta) (ap_exact x Fx) (Rle_refl _) ltac:(lra) ltac:(rewrite SQ; lra) ltac:(lra)) as [G1 A1].
  destruct (gsquare_ap L AM y (val y) 0 (Rabs (val y)) 0 (2 * u * val y ^ 2 + 2 * eta) (ap_exact y Fy) (Rle_refl _) ltac:(lra) ltac:(rewrite SQ; lra) ltac:(lra)) as [G2 A2].
  rewrite G1. cbn [gbind]. rewrite G2. cbn [gbind]. set (S := P * P) in *. assert (S0 : / 100 <= S) by (unfold S; nra). assert (X0 : 0 <= val x ^ 2) by nra. assert (Y0 : 0 <= val y ^ 2) by nra.
  assert (XB : val x ^ 2 <= 10 ^ 18) by (rewrite <- SQ; apply Rle_trans with (10 ^ 9 * 10 ^ 9); [apply Rmult_le_compat; try apply Rabs_pos; assumption|lra]). assert (YB : val y ^ 2 <= 10 ^ 18) by (rewrite <- SQ; apply Rle_trans with (10 ^ 9 * 10 ^ 9); [apply Rmult_le_compat; try apply Rabs_pos; assumption|lra]).
  assert (A3 : ap (fadd (l_square (g_base L) x) (l_square (g_base L) y)) S (302 / 100 * u * S)).
  { replace S with (val x * val x + val y * val y) at 1 by (rewrite PP; ring). apply (ap_add _ _ _ _ (2 * u * val x ^ 2 + 2 * eta) (2 * u * val y ^ 2 + 2 * eta) S); [exact A1|exact A2| | |].
    - replace (val x * val x + val y * val y) with S by (rewrite PP; ring). rewrite Rabs_pos_eq; lra.
    - replace (val x ^ 2) with (S - val y ^ 2) by lra. num.
    - num. }
  destruct A3 as [F3 X3]. set (s := fadd _ _) in *. destruct (sqrt_err2 (val s) S (302 / 100 * u * S) P X3 ltac:(lra) ltac:(unfold S; lra) ltac:(fold S; num)) as [V0 V1].
  rewrite gsqrt_ok by assumption. eexists. split; [reflexivity|]. destruct (fsqrt_rnd s F3 V0) as [F4 R]. split; [exact F4|]. rewrite R.
  assert (SP : sqrt S = P) by (unfold S; apply sqrt_square; lra). rewrite SP in V1.
  apply (rounded _ (sqrt (val s)) P (16 / 10 * u * P) P); [apply rnd_err| |rewrite Rabs_pos_eq; lra|num].
  eapply Rle_trans; [exact V1|]. apply Rmult_le_reg_r with (19 / 10 * P); [lra|]. replace (302 / 100 * u * S / (19 / 10 * P) * (19 / 10 * P)) with (302 / 100 * u * S) by (field; lra). replace (16 / 10 * u * P * (19 / 10 * P)) with (16 / 10 * (19 / 10) * u * S) by (unfold S; ring). num.
Qed.

(** where a position lies, and what the code computes before and after the loop *)
Record setting (e : fvec) (lat lon alt K P : R) : Prop := {
  se_P : P = (normal_radius (deg2rad lat) + alt) * cos (deg2rad lat);
  se_z : val (fz e) = (normal_radius (deg2rad lat) * (1 - E) + alt) * sin (deg2rad lat);
  se_low : / 10 <= P; se_up : P <= 10 ^ 9; se_r : (a / 2) ^ 2 <= P ^ 2 + val (fz e) ^ 2; se_zb : Rabs (val (fz e)) <= 60000000;
  se_K : sqrt (P ^ 2 + val (fz e) ^ 2) <= K * P }.
Lemma axis_sq e : axis e ^ 2 = val (fx e) ^ 2 + val (fy e) ^ 2.
Proof. apply pow2_sqrt. nra. Qed.
Lemma dist_is e : dist e = sqrt (axis e ^ 2 + val (fz e) ^ 2).
Proof. rewrite axis_sq. reflexivity. Qed.
Lemma place e lat lon alt : -90 < lat < 90 -> -3000000 <= alt <= 53000000 -> lla2ecef (V lat lon alt) = Ret (real3 e) ->
  axis e = (normal_radius (deg2rad lat) + alt) * cos (deg2rad lat) /\ val (fz e) = (normal_radius (deg2rad lat) * (1 - E) + alt) * sin (deg2rad lat).
Proof.
  intros Hl Hh Eq. destruct (truth_bounds (deg2rad lat) alt (deg_range _ Hl) Hh) as (HC & HP & _).
  rewrite lla2ecef_is in Eq. cbn [vx vy vz] in Eq. apply ret_inj in Eq. pose proof (f_equal vx Eq) as Ex. pose proof (f_equal vy Eq) as Ey. pose proof (f_equal vz Eq) as Ez. cbn [real3 vx vy vz] in Ex, Ey, Ez. set (l := deg2rad lat) in *. set (m := deg2rad lon) in *.
  split; [|symmetry; exact Ez]. rewrite <- Ex, <- Ey. replace (((normal_radius l + alt) * cos l * cos m) ^ 2 + ((normal_radius l + alt) * cos l * sin m) ^ 2) with (((normal_radius l + alt) * cos l) * ((normal_radius l + alt) * cos l) * (sin m * sin m + cos m * cos m)) by ring.
  rewrite sc, Rmult_1_r. apply sqrt_square. lra.
Qed.
Lemma setting_of e lat lon alt K : -90 < lat < 90 -> -3000000 <= alt <= 53000000 -> lla2ecef (V lat lon alt) = Ret (real3 e) -> 1 <= K <= 10 ^ 7 -> dist e <= K * axis e -> setting e lat lon alt K (axis e).
Proof.
  intros Hl Hh Eq HK HD. destruct (truth_bounds (deg2rad lat) alt (deg_range _ Hl) Hh) as (HC & HP & A & B & HR & HZ). pose proof (normal_bounds (deg2rad lat)) as NB. pose proof (COS_bound (deg2rad lat)) as CB.
  destruct (place e lat lon alt Hl Hh Eq) as [P Ez]. set (l := deg2rad lat) in *.
  rewrite dist_is in HD. set (p := axis e) in *. assert (AV : a = 6378137) by reflexivity. rewrite <- P, <- Ez in HR. rewrite <- Ez in HZ.
  assert (R1 : a / 2 <= sqrt (p ^ 2 + val (fz e) ^ 2)) by (rewrite <- (sqrt_square (a / 2)) by (rewrite AV; lra); apply sqrt_le_1_alt; lra).
  constructor; try assumption.
  - rewrite AV in R1. assert (K * p <= 10 ^ 7 * p) by (apply Rmult_le_compat_r; [unfold p; apply sqrt_pos|lra]). lra.
  - rewrite P. apply Rle_trans with ((normal_radius l + alt) * 1); [apply Rmult_le_compat_l; rewrite AV in *; lra|rewrite AV in *; lra].
Qed.
(** the distance from the centre lies between the two radii *)
Lemma dist_between e lat lon alt : -90 < lat < 90 -> -3000000 <= alt <= 53000000 -> lla2ecef (V lat lon alt) = Ret (real3 e) -> let l := deg2rad lat in normal_radius l * (1 - E) + alt <= dist e <= normal_radius l + alt.
Proof.
  intros Hl Hh Eq l. destruct (place e lat lon alt Hl Hh Eq) as [SP SZ]. destruct (truth_bounds (deg2rad lat) alt (deg_range _ Hl) Hh) as (_ & _ & _ & H0 & _). fold l in H0. assert (H : 0 < normal_radius l * (1 - E) + alt) by (pose proof a_pos; lra). rewrite dist_is, SP, SZ. fold l. pose proof (normal_bounds l) as NB. pose proof e2_bounds as EB. assert (AV : a = 6378137) by reflexivity. rewrite AV in NB.
  set (m := normal_radius l * (1 - E) + alt) in *. set (M := normal_radius l + alt). assert (MM : m <= M) by (unfold m, M; assert (0 <= normal_radius l * E) by (apply Rmult_le_pos; lra); lra).
  assert (SQ : m * m <= M * M) by (apply Rmult_le_compat; lra). assert (S2 : 0 <= sin l * sin l) by nra. assert (C2 : 0 <= cos l * cos l) by nra. pose proof (sc l) as SC.
  replace ((M * cos l) ^ 2 + (m * sin l) ^ 2) with (M * M * (cos l * cos l) + m * m * (sin l * sin l)) by ring.
  assert (S1 : sin l * sin l <= 1) by lra. replace (cos l * cos l) with (1 - sin l * sin l) by lra. set (s := sin l * sin l) in *.
  pose proof (sqrt_square m ltac:(lra)) as Q1. pose proof (sqrt_square M ltac:(lra)) as Q2. split; [rewrite <- Q1 at 1|apply Rle_trans with (sqrt (M * M)); [|lra]]; apply sqrt_le_1_alt.
  - assert (0 <= (M * M - m * m) * (1 - s)) by (apply Rmult_le_pos; lra). lra.
  - assert (0 <= (M * M - m * m) * s) by (apply Rmult_le_pos; lra). lra.
Qed.
Lemma component_le e : Rabs (val (fx e)) <= axis e /\ Rabs (val (fy e)) <= axis e.
Proof.
  assert (SQ : forall v, sqrt (v ^ 2) = Rabs v) by (intros v; rewrite <- sqrt_Rsqr_abs; f_equal; unfold Rsqr; ring).
  split; rewrite <- SQ; apply sqrt_le_1_alt; nra.
Qed.

(** the code around the loop *)
Lemma wraps e : fin3 e -> / 10 <= axis e <= 10 ^ 9 -> exists p64, ap p64 (axis e) (4 * u * axis e) /\ forall n tol, ecef2lla64 L n e tol =
  match lla_loop64 L n tol p64 (fz e) f_zero f_90 a64 f_zero with
  | None => None | Some (GRaise x) => Some (GRaise x) | Some (GRet (la, h)) => Some (GRet (FV (rad2deg64 la) (rad2deg64 (g_atan2 L (fy e) (fx e))) h)) end.
Proof.
  intros F H. destruct (component_le e) as [Hx Hy]. pose proof (F AX) as F1. pose proof (F AY) as F2. cbn [fc] in F1, F2.
  destruct (axis_ap (fx e) (fy e) F1 F2 ltac:(lra) ltac:(lra) (proj1 H)) as (p64 & G & A). exists p64. split; [exact A|]. intros n tol. unfold ecef2lla64. cbv zeta. rewrite G.
  assert (Z : andb (feq (fx e) f_zero) (feq (fy e) f_zero) = false).
  { rewrite !feq_zero by assumption. destruct (Req_EM_T (val (fx e)) 0) as [X|]; [|reflexivity]. destruct (Req_EM_T (val (fy e)) 0) as [Y|]; [|reflexivity]. exfalso. rewrite X, Y in H. replace (0 ^ 2 + 0 ^ 2) with 0 in H by ring. rewrite sqrt_0 in H. lra. }
  rewrite Z. reflexivity.
Qed.
(** the longitude *)
Lemma lon_ap e lat lon alt : fin3 e -> -90 < lat < 90 -> -180 < lon < 180 -> -3000000 <= alt <= 53000000 -> lla2ecef (V lat lon alt) = Ret (real3 e) ->
  ap (rad2deg64 (g_atan2 L (fy e) (fx e))) lon (1000 / 2 ^ 53).
Proof.
  intros F Hl Hm Hh Eq. destruct (truth_bounds (deg2rad lat) alt (deg_range _ Hl) Hh) as (HC & HP & A & B & _ & _). pose proof a_pos as APO. pose proof pi_digits as PD.
  destruct (C48_fixed_point lat lon alt Hl ltac:(lra) ltac:(apply Rgt_not_eq; lra)) as (q' & Eq' & _ & L3). rewrite Eq in Eq'. injection Eq' as <-. specialize (L3 ltac:(lra)). cbn [real3 vx vy] in L3.
  assert (NZ : val (fy e) <> 0 \/ 0 < val (fx e)).
  { destruct (Req_dec (val (fy e)) 0) as [Y|]; [|now left]. right. destruct (Rlt_dec 0 (val (fx e))) as [|X]; [assumption|exfalso].
    destruct (Req_dec (val (fx e)) 0) as [X0|X0].
    - rewrite lla2ecef_is in Eq. cbn [vx vy vz] in Eq. apply ret_inj in Eq. pose proof (f_equal vx Eq) as Ex. pose proof (f_equal vy Eq) as Ey. cbn [real3 vx vy vz] in Ex, Ey. rewrite X0 in Ex. rewrite Y in Ey. set (l := deg2rad lat) in *. set (m := deg2rad lon) in *.
      assert (C0 : (normal_radius l + alt) * cos l * cos m = 0) by exact Ex. assert (S0 : (normal_radius l + alt) * cos l * sin m = 0) by exact Ey.
      pose proof (sc m) as SC. apply Rmult_integral in C0, S0. destruct C0 as [C0|C0]; [lra|]. destruct S0 as [S0|S0]; [lra|]. rewrite C0, S0 in SC. lra.
    - rewrite Y in L3. unfold atan2 in L3. destruct (Rlt_dec 0 (val (fx e))); [lra|]. destruct (Rlt_dec (val (fx e)) 0); [|lra]. destruct (Rle_dec 0 0); [|lra]. replace (0 / val (fx e)) with 0 in L3 by (field; exact X0). rewrite atan_0, Rplus_0_l in L3. unfold rad2deg in L3. replace (PI * 180 / PI) with 180 in L3 by (field; lra). lra. }
  pose proof (F AX) as F1. pose proof (F AY) as F2. cbn [fc] in F1, F2. pose proof (am_atan2 L AM (fy e) (fx e) F2 F1 NZ) as O. pose proof (atan2_range (val (fy e)) (val (fx e))) as AR.
  assert (AO : ap (g_atan2 L (fy e) (fx e)) (atan2 (val (fy e)) (val (fx e))) (63 / 10 * u)).
  { apply (ap_ulp _ (atan2 (val (fy e)) (val (fx e))) _ 0 (3142 / 1000)); [exact O|rewrite Rminus_diag_eq, Rabs_R0 by reflexivity; lra|apply Rabs_le; lra|num]. }
  rewrite <- L3. eapply ap_weak; [apply (rad2deg_ap _ _ _ AO); [apply Rabs_le; lra|num]|]. num.
Qed.

(** ** The loop, from its start *)
Notation loop tol p64 z64 n lat prev N alt := (lla_loop64 L n tol p64 z64 lat prev N alt).
Lemma test_true tol : fin tol -> val tol <= 90 -> fge (b64_abs (fsub f_zero f_90)) tol = true.
Proof.
  intros F H. pose proof huge_200. destruct (fsub_rnd f_zero f_90 eq_refl eq_refl) as [FS R]. { change (val f_zero) with 0. rewrite val_90. apply Rabs_le. lra. }
  destruct (abs_fin _ FS) as [FA VA]. rewrite fge_fin by assumption. rewrite VA, R. change (val f_zero) with 0. rewrite val_90, Rminus_0_l, rnd_opp, Rabs_Ropp. pose proof (rnd_val f_90) as Q. rewrite val_90 in Q. rewrite Q.
  rewrite Rabs_pos_eq by lra. destruct (Rle_dec (val tol) 90); [reflexivity|contradiction].
Qed.
(** J iterations are made, and (la, h) is returned *)
Definition returns (tol p64 z64 lat prev N alt : f64) (J : nat) (la h : f64) : Prop :=
  (forall n, (J <= n)%nat -> loop tol p64 z64 n lat prev N alt = Some (GRet (la, h))) /\ (forall n, (n < J)%nat -> loop tol p64 z64 n lat prev N alt = None).
Lemma returns_now tol p64 z64 lat prev N alt : fge (b64_abs (fsub lat prev)) tol = false -> returns tol p64 z64 lat prev N alt 0 lat alt.
Proof. intros B. split; [|intros n; lia]. intros [|n] _; cbn [lla_loop64]; rewrite B; reflexivity. Qed.
Lemma returns_step tol p64 z64 lat prev N alt lat' N' alt' J la h : fge (b64_abs (fsub lat prev)) tol = true -> lla_step64 L p64 z64 N alt = GRet (lat', N', alt') -> returns tol p64 z64 lat' lat N' alt' J la h -> returns tol p64 z64 lat prev N alt (S J) la h.
Proof. intros B S [H1 H2]. split; intros [|n] Hn; try lia; cbn [lla_loop64]; rewrite B; [rewrite S; apply H1; lia|reflexivity|rewrite S; apply H2; lia]. Qed.

Lemma angle_small P z s n : Rabs (angle E P z s n) <= 16 / 10.
Proof. unfold angle. pose proof (atan_bound (uf E z s n / P)). pose proof pi_digits. apply Rabs_le. lra. Qed.

Lemma far_run64 e lat lon alt K tol k p64 : fin3 e -> setting e lat lon alt K (axis e) -> -90 < lat < 90 -> -3000000 <= alt <= 53000000 -> 1 <= K <= 10 ^ 7 -> ap p64 (axis e) (4 * u * axis e) ->
  fin tol -> (K + 60) / 2 ^ 53 <= val tol <= 90 -> (/ 40) ^ k <= val tol ->
  exists J la h, (J <= k + 4)%nat /\ fin la /\ Rabs (val la) <= 2 /\ fin h /\ returns tol p64 (fz e) f_zero f_90 a64 f_zero J la h /\
    (forall i, (i + 2 < J)%nat -> ap la (deg2rad lat) (139 / 10000 * (207 / 100 * (/ 40) ^ i + 103 / 100 * eps K) + 13 * u) /\
      ap h alt (139 / 10000 * a * (207 / 100 * (/ 40) ^ i + 103 / 100 * eps K) + u * (166 / 10 * K + 15) * dist e)).
Proof.
  intros F [SP SZ S1 S2 S3 S4 S5] Hl Hh HK Hp Ft Ht Hk. destruct (truth_state (deg2rad lat) alt (deg_range _ Hl) Hh) as (T1 & T2 & T3 & T4 & T5). cbv zeta in *. rewrite <- SZ in T1, T3, T4, T5. rewrite <- SP in T3, T4, T5.
  pose proof (F AZ) as Fz. cbn [fc] in Fz. assert (HK8 : 1 <= K <= 10 ^ 8) by lra. rewrite dist_is. set (P := axis e) in *.
  destruct (first_step64 L AM p64 (fz e) P K S1 Hp Fz S3 S4 S2 HK8 S5) as (s & lat1 & N1 & alt1 & G1 & R1 & _ & _).
  assert (FL : forall M c d s n x y w, state (fz e) P K M c d s n x y w -> fin x /\ Rabs (val x) <= 2 /\ fin w).
  { intros M c d s0 n0 x y w [_ _ [Q1 Q2] _ _ [Q3 _]]. split; [exact Q1|]. split; [|exact Q3]. pose proof (angle_small P (val (fz e)) s0 n0) as AS. apply Rabs_le_inv in Q2, AS. apply Rabs_le. num. }
  pose proof (test_true tol Ft (proj2 Ht)) as B0.
  destruct (fge (b64_abs (fsub lat1 f_zero)) tol) eqn:B1.
  2:{ destruct (FL _ _ _ _ _ _ _ _ R1) as (Q1 & Q2 & Q3). exists 1%nat, lat1, alt1. split; [lia|]. split; [exact Q1|]. split; [exact Q2|]. split; [exact Q3|]. split; [|intros i Hi; lia]. eapply returns_step; [exact B0|exact G1|]. now apply returns_now. }
  destruct (rough_step L AM p64 (fz e) P K S1 Hp Fz S3 S4 S2 HK8 S5 _ _ _ _ _ R1) as (s2 & lat2 & N2 & alt2 & G2 & R2).
  destruct (fge (b64_abs (fsub lat2 lat1)) tol) eqn:B2.
  2:{ destruct (FL _ _ _ _ _ _ _ _ R2) as (Q1 & Q2 & Q3). exists 2%nat, lat2, alt2. split; [lia|]. split; [exact Q1|]. split; [exact Q2|]. split; [exact Q3|]. split; [|intros i Hi; lia]. eapply returns_step; [exact B0|exact G1|]. eapply returns_step; [exact B1|exact G2|]. now apply returns_now. }
  destruct (close_step L AM p64 (fz e) P K S1 Hp Fz S3 S4 S2 HK8 S5 _ _ _ _ _ R2) as (s3 & lat3 & N3 & alt3 & G3 & R3 & _ & N33).
  assert (EP : 29 / 1000 * eps K + 27 * u <= 95 / 100 * val tol).
  { destruct Ht as [Ht _]. replace ((K + 60) / 2 ^ 53) with (u * (K + 60)) in Ht by (rewrite u_val; field). unfold eps. pose proof u_pos. nra. }
  assert (RE : reached (fz e) P K (sin (deg2rad lat)) (normal_radius (deg2rad lat)) (207 / 100 * 1 + 103 / 100 * eps K) lat3 N3 alt3).
  { exists s3, (val N2). split; [exact R3|]. split; [exact N33|]. pose proof (near_gap (val (fz e)) _ _ _ _ N33 T1) as NG. assert (0 < eps K) by (unfold eps; pose proof u_pos; nra). lra. }
  destruct (loop_ends64 L AM p64 (fz e) P K S1 Hp Fz S3 S4 S2 HK8 S5 _ _ _ _ T1 T2 T3 T4 T5 tol Ft (207 / 100) ltac:(lra) k 1 lat3 N3 alt3 lat2 ltac:(lra) RE) as (j & la & N' & h & Hj & RR & A1 & A2).
  { assert (0 < (/ 40) ^ k) by (apply pow_lt; lra). lra. }
  destruct (reached_out (fz e) P K S1 S3 S4 S2 HK8 S5 _ _ _ _ T1 T4 T5 _ _ _ _ RR) as [O1 O2]. destruct RR as (s4 & n4 & C4 & _). destruct (FL _ _ _ _ _ _ _ _ C4) as (Q1 & Q2 & Q3).
  exists (3 + j)%nat, la, h. split; [lia|]. split; [exact Q1|]. split; [exact Q2|]. split; [exact Q3|]. split.
  { eapply returns_step; [exact B0|exact G1|]. eapply returns_step; [exact B1|exact G2|]. eapply returns_step; [exact B2|exact G3|]. split; [exact A1|exact A2]. }
  intros i Hi. assert (PW : 1 * (/ 40) ^ j <= (/ 40) ^ i).
  { rewrite Rmult_1_l. replace j with (i + (j - i))%nat by lia. rewrite pow_add. rewrite <- (Rmult_1_r ((/ 40) ^ i)) at 2. apply Rmult_le_compat_l; [apply pow_le; lra|]. rewrite <- (pow1 (j - i)). apply pow_incr. lra. }
  assert (AV : a = 6378137) by reflexivity. split; [eapply ap_weak; [exact O1|lra]|eapply ap_weak; [exact O2|rewrite AV; lra]].
Qed.

(** near the surface: the default tolerance *)
Lemma val_nano : 999999999 / 10 ^ 18 <= val f_nano <= 1000000001 / 10 ^ 18.
Proof. unfold f_nano. assert (V : val (b64_of_bits 4472406533629990549) = 4835703278458517 / 4835703278458516698824704). { value_of_bits. lra. } rewrite V. lra. Qed.
Lemma s1_surface l h : - (PI / 2) < l < PI / 2 -> Rabs h <= 150000 -> Rabs (s1 ((normal_radius l * (1 - E) + h) * sin l)) <= 1028 / 1000.
Proof.
  intros Hl Hs. pose proof (normal_bounds l) as NB. pose proof e2_bounds as EB. assert (AV : a = 6378137) by reflexivity. rewrite s1_abs. rewrite AV in *. apply Rabs_le_inv in Hs.
  apply Rmult_le_reg_r with (6378137 * (1 - E)); [lra|]. match goal with |- ?x / ?y * ?y <= _ => replace (x / y * y) with x by (field; lra) end.
  assert (S : Rabs (sin l) <= 1) by (apply Rabs_le; apply SIN_bound). set (N := normal_radius l) in *.
  assert (B : Rabs (N * (1 - E) + h) <= 10035 / 10000 * 6378137 * (1 - E) + 150000). { rewrite Rabs_pos_eq; [|assert (6378137 * (1 - 67 / 10000) <= N * (1 - E)) by (apply Rmult_le_compat; lra); lra]. assert (N * (1 - E) <= 10035 / 10000 * 6378137 * (1 - E)) by (apply Rmult_le_compat_r; lra). lra. }
  rewrite Rabs_mult. apply Rle_trans with ((10035 / 10000 * 6378137 * (1 - E) + 150000) * 1); [apply Rmult_le_compat; try apply Rabs_pos; assumption|lra].
Qed.
Lemma near_run64 e lat lon alt K p64 : fin3 e -> setting e lat lon alt K (axis e) -> -90 < lat < 90 -> Rabs alt <= 150000 -> 1 <= K <= 10 ^ 6 -> ap p64 (axis e) (4 * u * axis e) ->
  exists J la h, (J <= 6)%nat /\ returns f_nano p64 (fz e) f_zero f_90 a64 f_zero J la h /\ (forall i, (i < J \/ i <= 1)%nat ->
    ap la (deg2rad lat) (139 / 10000 * (311 / 10000 * (/ 40) ^ i + 103 / 100 * eps K) + 13 * u) /\
    ap h alt (139 / 10000 * a * (311 / 10000 * (/ 40) ^ i + 103 / 100 * eps K) + u * (166 / 10 * K + 15) * dist e)).
Proof.
  intros F [SP SZ S1 S2 S3 S4 S5] Hl Hs HK Hp. assert (Hh : -3000000 <= alt <= 53000000) by (apply Rabs_le_inv in Hs; lra). pose proof (deg_range _ Hl) as Hr.
  destruct (truth_state (deg2rad lat) alt Hr Hh) as (T1 & T2 & T3 & T4 & T5). destruct (first_near (deg2rad lat) alt Hr Hh Hs) as [F1 F2]. pose proof (s1_surface (deg2rad lat) alt Hr Hs) as FS. pose proof (stop_first (deg2rad lat) alt Hr Hs) as SF.
  cbv zeta in *. rewrite <- SZ in T1, T3, T4, T5, F1, F2, FS, SF. rewrite <- SP in T3, T4, T5, SF.
  pose proof (F AZ) as Fz. cbn [fc] in Fz. assert (HK8 : 1 <= K <= 10 ^ 8) by lra. rewrite dist_is. set (P := axis e) in *. set (z := val (fz e)) in *. assert (AV : a = 6378137) by reflexivity.
  destruct (first_step64 L AM p64 (fz e) P K S1 Hp Fz S3 S4 S2 HK8 S5) as (s & lat1 & N1 & alt1 & G1 & _ & D1 & C1). fold z in D1. specialize (C1 ltac:(fold z; lra)).
  assert (VN := val_nano). assert (FN : fin f_nano) by reflexivity. assert (EPS : 0 < eps K <= 2 / 10 ^ 9) by (unfold eps; pose proof u_pos; split; [nra|num]).
  pose proof (test_true f_nano FN ltac:(lra)) as B0.
  assert (N1' : near a z s (val a64)).
  { destruct (st_enters _ _ _ _ _ _ _ _ _ _ _ C1) as (E1 & _). split; [|split; [exact E1|rewrite val_a; lra]]. replace s with (s1 z + (s - s1 z)) by ring. eapply Rle_trans; [apply Rabs_triang|]. num. }
  set (t := sin (deg2rad lat)) in *. set (m := normal_radius (deg2rad lat)) in *.
  assert (GA : gap a s (val a64) t m <= gap a (s1 z) a t m + 50 * u). { rewrite val_a. unfold gap. assert (Rabs (s - t) <= Rabs (s - s1 z) + Rabs (s1 z - t)) by (replace (s - t) with ((s - s1 z) + (s1 z - t)) by ring; apply Rabs_triang). lra. }
  assert (RE : forall g, gap a s (val a64) t m <= g -> reached (fz e) P K t m (g + 103 / 100 * eps K) lat1 N1 alt1) by (intros g Hg; exists s, (val a64); split; [exact C1|]; split; [exact N1'|lra]).
  assert (R1 : reached (fz e) P K t m (311 / 10000 * 1 + 103 / 100 * eps K) lat1 N1 alt1) by (apply RE; num).
  destruct (loop_ends64 L AM p64 (fz e) P K S1 Hp Fz S3 S4 S2 HK8 S5 _ _ _ _ T1 T2 T3 T4 T5 f_nano FN (311 / 10000) ltac:(lra) 4 1 lat1 N1 alt1 f_zero ltac:(lra) R1) as (j & la & N' & h & Hj & RR & A1 & A2).
  { assert (PW : (/ 40) ^ 4 <= / 2000000) by (cbn [pow]; lra). num. }
  assert (OUT : forall g N2, reached (fz e) P K t m (g + 103 / 100 * eps K) la N2 h -> ap la (deg2rad lat) (139 / 10000 * (g + 103 / 100 * eps K) + 13 * u) /\ ap h alt (139 / 10000 * a * (g + 103 / 100 * eps K) + u * (166 / 10 * K + 15) * sqrt (P ^ 2 + z ^ 2))) by (intros g N2 Q; exact (reached_out (fz e) P K S1 S3 S4 S2 HK8 S5 _ _ _ _ T1 T4 T5 _ _ _ _ Q)).
  exists (S j), la, h. split; [lia|]. split; [eapply returns_step; [exact B0|exact G1|split; [exact A1|exact A2]]|].
  assert (PW : forall i, (i <= j)%nat -> 1 * (/ 40) ^ j <= (/ 40) ^ i).
  { intros i Hi. rewrite Rmult_1_l. replace j with (i + (j - i))%nat by lia. rewrite pow_add. rewrite <- (Rmult_1_r ((/ 40) ^ i)) at 2. apply Rmult_le_compat_l; [apply pow_le; lra|]. rewrite <- (pow1 (j - i)). apply pow_incr. lra. }
  assert (WK : forall i, (exists N2, reached (fz e) P K t m (311 / 10000 * (/ 40) ^ i + 103 / 100 * eps K) la N2 h) -> ap la (deg2rad lat) (139 / 10000 * (311 / 10000 * (/ 40) ^ i + 103 / 100 * eps K) + 13 * u) /\ ap h alt (139 / 10000 * a * (311 / 10000 * (/ 40) ^ i + 103 / 100 * eps K) + u * (166 / 10 * K + 15) * sqrt (P ^ 2 + z ^ 2))) by (intros i (N2 & Q); exact (OUT _ _ Q)).
  intros i Hi. apply WK. clear WK OUT. destruct (Nat.leb_spec i j) as [Q|Q].
  { exists N'. destruct RR as (s4 & n4 & C4 & N4 & G4). exists s4, n4. split; [exact C4|]. split; [exact N4|]. specialize (PW i Q). lra. }
  (* the loop has stopped after the first iteration: the latitude is about 0 *)
  assert (j = 0%nat /\ i = 1%nat) as [-> ->] by lia. specialize (A1 0%nat ltac:(lia)). cbn [lla_loop64] in A1. destruct (fge (b64_abs (fsub lat1 f_zero)) f_nano) eqn:B1; [discriminate A1|]. injection A1 as <- <-.
  exists N1. apply RE. rewrite pow_1. destruct (st_lat _ _ _ _ _ _ _ _ _ _ _ C1) as [FL XL]. fold z in XL.
  assert (LB : Rabs (val lat1) <= 11 / 10 ^ 10).
  { destruct (Rle_dec (Rabs (val lat1)) (11 / 10 ^ 10)) as [|NL]; [assumption|exfalso]. pose proof huge_200 as HH. pose proof (angle_small P z s (val a64)) as AS.
    assert (V2 : Rabs (val lat1) <= 2). { apply Rabs_le_inv in XL, AS. apply Rabs_le. num. }
    destruct (fsub_err lat1 f_zero FL eq_refl) as [FF XF]. { change (val f_zero) with 0. rewrite Rminus_0_r. lra. } change (val f_zero) with 0 in XF. rewrite Rminus_0_r in XF.
    destruct (abs_fin _ FF) as [FA VA]. rewrite fge_fin in B1 by assumption. rewrite VA in B1. destruct (Rle_dec (val f_nano) (Rabs (val (fsub lat1 f_zero)))) as [|NB]; [discriminate B1|]. apply NB.
    apply Rle_trans with (Rabs (val lat1) - u * Rabs (val lat1)); [num|]. rewrite Rabs_minus_sym in XF. pose proof (Rabs_triang_inv (val lat1) (val (fsub lat1 f_zero))). lra. }
  assert (AD : Rabs (angle E P z s (val a64) - angle E P z (s1 z) a) <= 100 * u).
  { destruct N1' as (_ & E1 & _). destruct F1 as (_ & E2 & _). pose proof (angle_uf a E P z a_pos e2_bounds ltac:(lra) S3 s (val a64) (s1 z) a E1 ltac:(rewrite val_a; pose proof a_pos; lra) E2 ltac:(pose proof a_pos; lra)) as AU.
    eapply Rle_trans; [exact AU|]. rewrite val_a. unfold uf. replace (z + E * a * s - (z + E * a * s1 z)) with (E * a * (s - s1 z)) by ring. rewrite !Rabs_mult. pose proof e2_bounds as EB. rewrite (Rabs_pos_eq E), (Rabs_pos_eq a) by (rewrite ?AV; lra).
    replace (E * a * Rabs (s - s1 z) * (2 / a)) with (E * (2 * Rabs (s - s1 z))) by (field; rewrite AV; lra). apply Rle_trans with (1 * (2 * Rabs (s - s1 z))); [apply Rmult_le_compat_r; [pose proof (Rabs_pos (s - s1 z))|]; lra|lra]. }
  assert (SM : Rabs (angle E P z (s1 z) a) < 2 / 1000000000). { apply Rabs_le_inv in XL, AD, LB. apply Rabs_lt. split; num. }
  specialize (SF SM). num.
Qed.

(** ** The theorems *)
Lemma deg_ap la lat d : ap la (deg2rad lat) d -> -90 < lat < 90 -> d <= 1 -> ap (rad2deg64 la) lat (574 / 10 * d + 600 * u).
Proof.
  intros A Hl Hd. rewrite <- (proj1 (C45_angles lat)). apply rad2deg_ap; [exact A| |exact Hd]. destruct (deg_range _ Hl). pose proof pi_digits. apply Rabs_le. lra.
Qed.
Lemma pow40 i : 0 < (/ 40) ^ i <= 1.
Proof. split; [apply pow_lt; lra|]. rewrite <- (pow1 i). apply pow_incr. lra. Qed.

(** K bounds the distance from the centre of the Earth in units of the distance from its axis (1 / cos of the geocentric latitude);
    2^-53 is the unit roundoff *)
Theorem C71_terminates e lat lon alt K tol k : fin3 e -> -90 < lat < 90 -> -180 < lon < 180 -> -3000000 <= alt <= 53000000 -> lla2ecef (V lat lon alt) = Ret (real3 e) ->
  1 <= K <= 10 ^ 7 -> dist e <= K * axis e -> fin tol -> (K + 60) / 2 ^ 53 <= val tol <= 90 -> (/ 40) ^ k <= val tol ->
  exists r, (forall n, (k + 4 <= n)%nat -> ecef2lla64 L n e tol = Some (GRet r)) /\ fin3 r /\ Rabs (val (fy r) - lon) <= 1000 / 2 ^ 53 /\
    (forall i, ecef2lla64 L (i + 2) e tol = None ->
      Rabs (val (fx r) - lat) <= 2 * (/ 40) ^ i + (14 * K + 1400) / 2 ^ 53 /\ Rabs (val (fz r) - alt) <= 190000 * (/ 40) ^ i + dist e * (18 * K + 18) / 2 ^ 53).
Proof.
  intros F Hl Hm Hh Eq HK HD Ft Ht Hk. pose proof (setting_of e lat lon alt K Hl Hh Eq HK HD) as SE. destruct (wraps e F (conj (se_low _ _ _ _ _ _ SE) (se_up _ _ _ _ _ _ SE))) as (p64 & Ap & W).
  destruct (far_run64 e lat lon alt K tol k p64 F SE Hl Hh HK Ap Ft Ht Hk) as (J & la & h & HJ & Fla & Bla & Fh & [R1 R2] & ACC). destruct (lon_ap e lat lon alt F Hl Hm Hh Eq) as [FO XO].
  eexists. split; [intros n Hn; rewrite W, R1 by lia; reflexivity|]. cbn [fx fy fz]. split; [|split; [exact XO|]].
  - intros []; cbn [fc fx fy fz]; [|exact FO|exact Fh]. exact (proj1 (rad2deg_ap la (val la) 0 (ap_exact la Fla) ltac:(lra) ltac:(lra))).
  - intros i Hi. assert (IJ : (i + 2 < J)%nat). { destruct (Nat.ltb_spec (i + 2) J); [assumption|]. rewrite W, R1 in Hi by lia. discriminate Hi. }
    destruct (ACC i IJ) as [A1 A2]. pose proof (pow40 i) as PI4. assert (AV : a = 6378137) by reflexivity. assert (EK : eps K = u * (164 / 10 * K + 33)) by reflexivity. assert (UV := u_val). split.
    + destruct (deg_ap _ _ _ A1 Hl) as [_ X]; [rewrite EK; num|]. eapply Rle_trans; [exact X|]. rewrite EK. replace ((14 * K + 1400) / 2 ^ 53) with (u * (14 * K + 1400)) by (rewrite UV; field). num.
    + destruct A2 as [_ X]. eapply Rle_trans; [exact X|]. rewrite EK. replace (dist e * (18 * K + 18) / 2 ^ 53) with (u * (18 * (K * dist e) + 18 * dist e)) by (rewrite UV; field).
      replace (u * (166 / 10 * K + 15) * dist e) with (u * (166 / 10 * (K * dist e) + 15 * dist e)) by ring.
      assert (DB : a / 2 <= dist e). { rewrite dist_is. rewrite <- (sqrt_square (a / 2)) by (rewrite AV; lra). apply sqrt_le_1_alt. pose proof (se_r _ _ _ _ _ _ SE). lra. }
      rewrite AV in *. set (D := dist e) in *. assert (KD : K * 3189068 <= K * D) by (apply Rmult_le_compat_l; lra). set (KD' := K * D) in *. num.
Qed.

(** within 150 km of the ellipsoid, with the tolerance the code passes by default *)
Theorem C71_near_surface e lat lon alt K : fin3 e -> -90 < lat < 90 -> -180 < lon < 180 -> Rabs alt <= 150000 -> lla2ecef (V lat lon alt) = Ret (real3 e) ->
  1 <= K <= 10 ^ 6 -> dist e <= K * axis e ->
  exists r, (forall n, (6 <= n)%nat -> ecef2lla64 L n e f_nano = Some (GRet r)) /\ fin3 r /\ Rabs (val (fy r) - lon) <= 1000 / 2 ^ 53 /\
    Rabs (val (fx r) - lat) <= 65 / 100000 /\ Rabs (val (fz r) - alt) <= 70 /\
    (forall i, ecef2lla64 L i e f_nano = None -> Rabs (val (fx r) - lat) <= 26 / 1000 * (/ 40) ^ i + (14 * K + 1400) / 2 ^ 53 /\ Rabs (val (fz r) - alt) <= 2760 * (/ 40) ^ i + dist e * (18 * K + 18) / 2 ^ 53).
Proof.
  intros F Hl Hm Hs Eq HK HD. assert (Hh : -3000000 <= alt <= 53000000) by (apply Rabs_le_inv in Hs; lra).
  pose proof (setting_of e lat lon alt K Hl Hh Eq ltac:(lra) HD) as SE. destruct (wraps e F (conj (se_low _ _ _ _ _ _ SE) (se_up _ _ _ _ _ _ SE))) as (p64 & Ap & W).
  destruct (near_run64 e lat lon alt K p64 F SE Hl Hs HK Ap) as (J & la & h & HJ & [R1 R2] & ACC). destruct (lon_ap e lat lon alt F Hl Hm Hh Eq) as [FO XO].
  assert (AV : a = 6378137) by reflexivity. assert (EK : eps K = u * (164 / 10 * K + 33)) by reflexivity. assert (UV := u_val).
  assert (DB : a / 2 <= dist e). { rewrite dist_is. rewrite <- (sqrt_square (a / 2)) by (rewrite AV; lra). apply sqrt_le_1_alt. pose proof (se_r _ _ _ _ _ _ SE). lra. }
  assert (AC : forall i, (i < J \/ i <= 1)%nat -> ap (rad2deg64 la) lat (26 / 1000 * (/ 40) ^ i + (14 * K + 1400) / 2 ^ 53) /\ ap h alt (2760 * (/ 40) ^ i + dist e * (18 * K + 18) / 2 ^ 53)).
  { intros i Hi. destruct (ACC i Hi) as [A1 A2]. pose proof (pow40 i) as PI4. split.
    - eapply ap_weak; [apply (deg_ap _ _ _ A1 Hl); rewrite EK; num|]. rewrite EK. replace ((14 * K + 1400) / 2 ^ 53) with (u * (14 * K + 1400)) by (rewrite UV; field). num.
    - eapply ap_weak; [exact A2|]. rewrite EK. replace (dist e * (18 * K + 18) / 2 ^ 53) with (u * (18 * (K * dist e) + 18 * dist e)) by (rewrite UV; field).
      replace (u * (166 / 10 * K + 15) * dist e) with (u * (166 / 10 * (K * dist e) + 15 * dist e)) by ring.
      rewrite AV in *. set (D := dist e) in *. assert (KD : K * 3189068 <= K * D) by (apply Rmult_le_compat_l; lra). set (KD' := K * D) in *. num. }
  destruct (ACC 1%nat ltac:(lia)) as [B1 B2]. destruct (AC 1%nat ltac:(lia)) as [[FX _] [FH _]].
  eexists. split; [intros n Hn; rewrite W, R1 by lia; reflexivity|]. cbn [fx fy fz]. split; [intros []; cbn [fc fx fy fz]; assumption|]. split; [exact XO|].
  assert (DU : dist e <= 7000000).
  { destruct (dist_between e lat lon alt Hl Hh Eq) as [_ Q]. pose proof (normal_bounds (deg2rad lat)) as NB. rewrite AV in NB. apply Rabs_le_inv in Hs. lra. }
  rewrite pow_1 in B1, B2. split; [|split].
  - destruct (deg_ap _ _ _ B1 Hl) as [_ X]; [rewrite EK; num|]. eapply Rle_trans; [exact X|]. rewrite EK. num.
  - destruct B2 as [_ X]. eapply Rle_trans; [exact X|]. rewrite EK, AV. assert (K * dist e <= 10 ^ 6 * 7000000) by (apply Rmult_le_compat; lra). replace (u * (166 / 10 * K + 15) * dist e) with (u * (166 / 10 * (K * dist e) + 15 * dist e)) by ring. num.
  - intros i Hi. assert (IJ : (i < J)%nat). { destruct (Nat.ltb_spec i J); [assumption|]. rewrite W, R1 in Hi by lia. discriminate Hi. } destruct (AC i ltac:(lia)) as [[_ X] [_ Y]]. split; assumption.
Qed.

(** the same in terms of the latitude alone: K = 1 / cos(latitude) *)
Corollary C71_latitude e lat lon alt : fin3 e -> -90 < lat < 90 -> -180 < lon < 180 -> Rabs alt <= 150000 -> lla2ecef (V lat lon alt) = Ret (real3 e) -> / 10 ^ 6 <= cos (deg2rad lat) ->
  exists r, (forall n, (6 <= n)%nat -> ecef2lla64 L n e f_nano = Some (GRet r)) /\ fin3 r /\ Rabs (val (fy r) - lon) <= 1000 / 2 ^ 53 /\
    Rabs (val (fx r) - lat) <= 65 / 100000 /\ Rabs (val (fz r) - alt) <= 70 /\
    (forall i, ecef2lla64 L i e f_nano = None -> Rabs (val (fx r) - lat) <= 26 / 1000 * (/ 40) ^ i + (14 / cos (deg2rad lat) + 1400) / 2 ^ 53 /\
      Rabs (val (fz r) - alt) <= 2760 * (/ 40) ^ i + 7000000 * (18 / cos (deg2rad lat) + 18) / 2 ^ 53).
Proof.
  intros F Hl Hm Hs Eq HC. assert (Hh : -3000000 <= alt <= 53000000) by (apply Rabs_le_inv in Hs; lra). set (c := cos (deg2rad lat)) in *. pose proof (COS_bound (deg2rad lat)) as CB. fold c in CB.
  assert (HK : 1 <= / c <= 10 ^ 6). { split; [rewrite <- Rinv_1 at 1; apply Rinv_le_contravar; lra|]. rewrite <- (Rinv_inv (10 ^ 6)). apply Rinv_le_contravar; lra. }
  assert (DU : dist e <= 7000000 /\ dist e <= / c * axis e).
  { destruct (dist_between e lat lon alt Hl Hh Eq) as [_ Q]. assert (AV : a = 6378137) by reflexivity. pose proof (normal_bounds (deg2rad lat)) as NB. rewrite AV in NB. apply Rabs_le_inv in Hs. split; [lra|].
    eapply Rle_trans; [exact Q|]. rewrite (proj1 (place e lat lon alt Hl Hh Eq)). fold c. right. field. lra. }
  destruct DU as [D1 D2]. destruct (C71_near_surface e lat lon alt (/ c) F Hl Hm Hs Eq HK D2) as (r & R1 & R2 & R3 & R4 & R5 & R6). exists r. split; [exact R1|]. split; [exact R2|]. split; [exact R3|]. split; [exact R4|]. split; [exact R5|].
  intros i Hi. destruct (R6 i Hi) as [X Y]. split; [unfold Rdiv at 2; exact X|]. eapply Rle_trans; [exact Y|]. unfold Rdiv at 1 2 3. assert (dist e * (18 * / c + 18) <= 7000000 * (18 * / c + 18)) by (apply Rmult_le_compat_r; lra). lra.
Qed.
End Machine.

(** ** A case: x = 4000 km, y = 3000 km, z = 4000 km *)
Definition case_e : fvec := FV (b64_of_bits 4705844345939427328) (b64_of_bits 4703696862291427328) (b64_of_bits 4705844345939427328).
Lemma case_e_val : val (fx case_e) = 4000000 /\ val (fy case_e) = 3000000 /\ val (fz case_e) = 4000000.
Proof. cbn [case_e fx fy fz]. repeat split; value_of_bits; lra. Qed.
Example C71_case : accurate_math ideal_math /\ fin3 case_e /\ (exists lat lon alt, -90 < lat < 90 /\ -180 < lon < 180 /\ Rabs alt <= 150000 /\ lla2ecef (V lat lon alt) = Ret (real3 case_e)) /\ dist case_e <= 2 * axis case_e /\
  fin f_nano /\ (2 + 60) / 2 ^ 53 <= val f_nano <= 90 /\ (/ 40) ^ 6 <= val f_nano.
Proof.
  destruct case_e_val as (X & Y & Z). split; [exact ideal_math_accurate|]. split; [now intros []|].
  assert (AX' : axis case_e = 5000000). { rewrite X, Y. replace (4000000 ^ 2 + 3000000 ^ 2) with (5000000 * 5000000) by ring. apply sqrt_square. lra. }
  assert (DI : 6403000 <= dist case_e <= 6404000). { rewrite X, Y, Z. split; [rewrite <- (sqrt_square 6403000) by lra|apply Rle_trans with (sqrt (6404000 * 6404000)); [|rewrite sqrt_square; lra]]; apply sqrt_le_1_alt; lra. }
  split; [|split; [rewrite AX'; lra|split; [reflexivity|split; pose proof val_nano; cbn [pow]; lra]]].
  destruct (C58_coordinates_exist 4000000 3000000 4000000 ltac:(left; lra) ltac:(lra)) as (lat & lon & alt & Hl & Hm & Ha & Eq).
  assert (EQ : lla2ecef (V lat lon alt) = Ret (real3 case_e)) by (rewrite Eq; unfold real3; rewrite X, Y, Z; reflexivity).
  exists lat, lon, alt. split; [exact Hl|]. assert (ML : lon <> 180).
  { intros ->. rewrite lla2ecef_is in Eq. cbn [vx vy vz] in Eq. apply ret_inj, (f_equal vy) in Eq. cbn [vy] in Eq. replace (deg2rad 180) with PI in Eq by (unfold deg2rad; field). rewrite sin_PI, Rmult_0_r in Eq. lra. }
  split; [lra|]. split; [|exact EQ].
  rewrite lla2ecef_is in Eq. cbn [vx vy vz] in Eq. apply ret_inj in Eq. set (l := deg2rad lat) in *. set (o := deg2rad lon) in *. pose proof (normal_bounds l) as NB. pose proof e2_bounds as EB. assert (AV : a = 6378137) by reflexivity. rewrite AV in NB.
  set (N := normal_radius l) in *. set (m := N * (1 - E) + alt) in *. set (M := N + alt) in *.
  assert (Q1 := f_equal vx Eq). assert (Q2 := f_equal vy Eq). assert (Q3 := f_equal vz Eq). cbn [vx vy vz] in Q1, Q2, Q3.
  assert (NE : 0 <= N * E <= 6400461 * (67 / 10000)) by (split; [apply Rmult_le_pos|apply Rmult_le_compat]; lra).
  assert (m0 : 0 < m) by (unfold m; lra). assert (mM : m <= M) by (unfold m, M; lra).
  assert (SC : sin l * sin l + cos l * cos l = 1) by apply sc. assert (SO : sin o * sin o + cos o * cos o = 1) by apply sc.
  assert (C2 : M * M * (cos l * cos l) = 25000000000000).
  { replace (M * M * (cos l * cos l)) with (M * M * (cos l * cos l) * (sin o * sin o + cos o * cos o)) by (rewrite SO; ring).
    replace (M * M * (cos l * cos l) * (sin o * sin o + cos o * cos o)) with ((M * cos l * cos o) * (M * cos l * cos o) + (M * cos l * sin o) * (M * cos l * sin o)) by ring. rewrite Q1, Q2. ring. }
  assert (S2 : m * m * (sin l * sin l) = 16000000000000) by (replace (m * m * (sin l * sin l)) with ((m * sin l) * (m * sin l)) by ring; rewrite Q3; ring).
  assert (MM : m * m <= M * M) by (apply Rmult_le_compat; lra). assert (CP : 0 <= cos l * cos l) by nra. assert (SP : 0 <= sin l * sin l) by nra.
  assert (U1 : m * m <= 41000000000000). { replace (m * m) with (m * m * (cos l * cos l) + m * m * (sin l * sin l)) by (rewrite <- Rmult_plus_distr_l, (Rplus_comm (cos l * cos l)), SC; ring). pose proof (Rmult_le_compat_r _ _ _ CP MM). lra. }
  assert (U2 : 41000000000000 <= M * M). { replace (M * M) with (M * M * (cos l * cos l) + M * M * (sin l * sin l)) by (rewrite <- Rmult_plus_distr_l, (Rplus_comm (cos l * cos l)), SC; ring). pose proof (Rmult_le_compat_r _ _ _ SP MM). lra. }
  assert (m <= 6404000) by (apply Rnot_lt_le; intros X1; assert (6404000 * 6404000 < m * m) by (apply Rmult_le_0_lt_compat; lra); lra).
  assert (6403000 <= M) by (apply Rnot_lt_le; intros X1; assert (M * M < 6403000 * 6403000) by (apply Rmult_le_0_lt_compat; lra); lra).
  apply Rabs_le. unfold m, M in *. lra.
Qed.

(** ** Very near the axis the square underflows, and the code divides by 0 although the position is off the axis: x = 2^-600 m, y = 0, z = 6400 km *)
Transparent eta.
Lemma eta_is : eta = bpow radix2 (-1075). Proof. reflexivity. Qed.
Opaque eta.
Definition axis_e : fvec := FV (b64_of_bits 1905022642377719808) f_zero (b64_of_bits 4708629958648397824).
Theorem C71_axis_refuted : fin3 axis_e /\ 0 < val (fx axis_e) /\ val (fz axis_e) = 6400000 /\ forall tol n, fin tol -> val tol <= 90 -> ecef2lla64 ideal_math (S n) axis_e tol = Some (GRaise EZeroDivision).
Proof.
  assert (F : fin3 axis_e) by now intros []. assert (VZ : val (fz axis_e) = 6400000) by (cbn [axis_e fz]; value_of_bits; lra).
  assert (VX : val (fx axis_e) = bpow radix2 (-600)).
  { change (val (fx axis_e)) with (IZR (2 ^ 52) * bpow radix2 (-652)). replace (IZR (2 ^ 52)) with (bpow radix2 52) by reflexivity. now rewrite <- bpow_plus. }
  assert (PX : 0 < val (fx axis_e)) by (rewrite VX; apply bpow_gt_0).
  split; [exact F|]. split; [exact PX|]. split; [exact VZ|]. intros tol n Ft Ht. pose proof huge_200 as HU.
  assert (XX : 0 <= val (fx axis_e) * val (fx axis_e) <= eta) by (rewrite VX, eta_is, <- bpow_plus; split; [apply bpow_ge_0|apply bpow_le; lia]).
  assert (EH : eta <= 1) by (pose proof eta_u100; num).
  assert (SX : exists x2, gsquare ideal_math (fx axis_e) = GRet x2 /\ fin x2 /\ val x2 = 0).
  { assert (B : Rabs (val (fx axis_e) * val (fx axis_e)) <= huge) by (rewrite Rabs_pos_eq; lra). destruct (nearest_ok _ B) as [F1 V1].
    exists (nearest (val (fx axis_e) * val (fx axis_e))). split; [|split; [exact F1|]].
    - unfold gsquare. change (g_base ideal_math) with ideal. rewrite (square_ok ideal (fx axis_e) ideal_accurate (F AX)); [reflexivity|unfold moderate; try change (val f_zero) with 0; rewrite Rabs_pos_eq; lra].
    - rewrite V1. apply Rle_antisym; [rewrite <- rnd_eta; apply rnd_le; lra|]. apply rnd_pos. lra. }
  destruct SX as (x2 & GX & FX & VX2).
  assert (SY : exists y2, gsquare ideal_math (fy axis_e) = GRet y2 /\ fin y2 /\ val y2 = 0).
  { cbn [axis_e fy]. assert (B : Rabs (val f_zero * val f_zero) <= huge) by (change (val f_zero) with 0; rewrite Rmult_0_l, Rabs_R0; lra). destruct (nearest_ok _ B) as [F1 V1].
    exists (nearest (val f_zero * val f_zero)). split; [|split; [exact F1|]].
    - unfold gsquare. change (g_base ideal_math) with ideal. rewrite (square_ok ideal f_zero ideal_accurate eq_refl); [reflexivity|unfold moderate; try change (val f_zero) with 0; rewrite Rabs_pos_eq; lra].
    - rewrite V1. change (val f_zero) with 0. rewrite Rmult_0_l. apply rnd_0. }
  destruct SY as (y2 & GY & FY & VY2).
  destruct (fadd_rnd x2 y2 FX FY) as [FS VS]; [rewrite VX2, VY2, Rplus_0_l, Rabs_R0; lra|]. rewrite VX2, VY2, Rplus_0_l, rnd_0 in VS.
  destruct (fsqrt_rnd _ FS) as [FP VP]; [lra|]. rewrite VS, sqrt_0, rnd_0 in VP.
  assert (GP : gsqrt (fadd x2 y2) = GRet (fsqrt (fadd x2 y2))) by (apply gsqrt_ok; [exact FS|lra]).
  unfold ecef2lla64. rewrite GX, GY. cbn [gbind]. rewrite GP. rewrite (feq_zero (fx axis_e) (F AX)). destruct (Req_EM_T (val (fx axis_e)) 0) as [Q|_]; [exfalso; lra|]. cbn [andb lla_loop64].
  rewrite (test_true tol Ft Ht). unfold lla_step64. destruct (e2_ap ideal_math ideal_math_accurate) as (e2 & GE & AE). rewrite GE. cbn [gbind].
  assert (HZ : Rabs (val (fz axis_e)) <= 60000000) by (rewrite VZ, Rabs_pos_eq; lra).
  destruct (first_sine (fsqrt (fadd x2 y2)) (fz axis_e) 0) with (e2 := e2) as (s64 & GS & _); [pose proof (ap_exact _ FP) as Q; rewrite VP in Q; rewrite Rmult_0_r; exact Q|exact (F AZ)|rewrite VZ; unfold wgs84_a; lra|exact HZ|exact AE|].
  rewrite GS. cbn [gbind]. unfold gdiv at 1. rewrite (feq_zero _ FP). destruct (Req_EM_T (val (fsqrt (fadd x2 y2))) 0) as [_|Q]; [reflexivity|lra].
Qed.

Definition all_PropLla64 := (C71_terminates, C71_near_surface, C71_latitude, C71_axis_refuted).
Print Assumptions all_PropLla64.
