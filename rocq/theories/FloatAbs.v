(** Absolute rounding errors of floating-point expressions, and the constants of RangeCoordinates.py in double precision *)
From Coq Require Import Reals ZArith Lra Lia List Machin Ratan.
From Flocq Require Import Core Binary Bits.
From Verif Require Import Real3 RangeCoordinates PropGeo PropConv Float64 DeadReckoning64 Range64.
Local Open Scope R_scope.

(** x is a finite number within d of X *)
Definition ap (x : f64) (X d : R) : Prop := fin x /\ Rabs (val x - X) <= d.

Lemma u_val : u = / 9007199254740992. Proof. Transparent u. unfold u. Opaque u. cbn. lra. Qed.
Lemma eta_tiny : 0 < eta <= / 2 ^ 600.
Proof. split; [apply eta_pos|]. Transparent eta. unfold eta. Opaque eta. apply Rle_trans with (bpow radix2 (-600)); [apply bpow_le; lia|]. change (bpow radix2 (-600)) with (bpow radix2 (Z.opp 600)). rewrite bpow_opp. change (bpow radix2 600) with (IZR (2 ^ 600)). change (2 ^ 600)%Z with (2 ^ Z.of_nat 600)%Z. rewrite <- pow_IZR. apply Rle_refl. Qed.
Lemma eta_u100 : eta <= u / 10 ^ 100.
Proof. pose proof eta_tiny as [_ H]. rewrite u_val. eapply Rle_trans; [exact H|]. lra. Qed.
Lemma huge_200 : 2 ^ 200 <= huge.
Proof. Transparent huge. unfold huge. Opaque huge. apply Rle_trans with (bpow radix2 200); [|apply bpow_le; lia]. change (bpow radix2 200) with (IZR (2 ^ 200)). change (2 ^ 200)%Z with (2 ^ Z.of_nat 200)%Z. rewrite <- pow_IZR. apply Rle_refl. Qed.

Lemma ap_weak x X d d' : ap x X d -> d <= d' -> ap x X d'. Proof. intros [F E] H. split; [exact F|lra]. Qed.
Lemma ap_exact x : fin x -> ap x (val x) 0. Proof. intros F. split; [exact F|]. rewrite Rminus_diag_eq by reflexivity. rewrite Rabs_R0. lra. Qed.
Lemma ap_move x X Y d e : ap x X d -> Rabs (X - Y) <= e -> ap x Y (d + e).
Proof. intros [F E] H. split; [exact F|]. replace (val x - Y) with ((val x - X) + (X - Y)) by ring. eapply Rle_trans; [apply Rabs_triang|]. lra. Qed.
Lemma ap_abs x X d B : ap x X d -> Rabs X <= B -> Rabs (val x) <= B + d.
Proof. intros [_ E] H. replace (val x) with (X + (val x - X)) by ring. eapply Rle_trans; [apply Rabs_triang|]. lra. Qed.
Lemma ap_pos x X d : ap x X d -> 0 <= d. Proof. intros [_ E]. pose proof (Rabs_pos (val x - X)). lra. Qed.

Lemma rounded r T X e B d : Rabs (r - T) <= u * Rabs T + eta -> Rabs (T - X) <= e -> Rabs X <= B -> e + u * (B + e) + eta <= d -> Rabs (r - X) <= d.
Proof.
  intros H1 H2 H3 H4. replace (r - X) with ((r - T) + (T - X)) by ring. eapply Rle_trans; [apply Rabs_triang|].
  assert (Rabs T <= B + e). { replace T with (X + (T - X)) by ring. eapply Rle_trans; [apply Rabs_triang|]. lra. }
  pose proof u_pos. assert (u * Rabs T <= u * (B + e)) by (apply Rmult_le_compat_l; lra). lra.
Qed.
Lemma ap_add x y X Y dx dy B d : ap x X dx -> ap y Y dy -> Rabs (X + Y) <= B -> dx + dy + u * (B + (dx + dy)) + eta <= d -> B + (dx + dy) <= 2 ^ 200 -> ap (fadd x y) (X + Y) d.
Proof.
  intros [Fx Ex] [Fy Ey] HB Hd HO. assert (E : Rabs (val x + val y - (X + Y)) <= dx + dy). { replace (val x + val y - (X + Y)) with ((val x - X) + (val y - Y)) by ring. eapply Rle_trans; [apply Rabs_triang|]. lra. }
  assert (S : Rabs (val x + val y) <= B + (dx + dy)). { replace (val x + val y) with ((X + Y) + (val x + val y - (X + Y))) by ring. eapply Rle_trans; [apply Rabs_triang|]. lra. }
  pose proof huge_200. destruct (fadd_err x y Fx Fy ltac:(lra)) as [F R]. split; [exact F|]. pose proof eta_pos. apply (rounded _ (val x + val y) _ (dx + dy) B); try assumption. lra.
Qed.
Lemma ap_sub x y X Y dx dy B d : ap x X dx -> ap y Y dy -> Rabs (X - Y) <= B -> dx + dy + u * (B + (dx + dy)) + eta <= d -> B + (dx + dy) <= 2 ^ 200 -> ap (fsub x y) (X - Y) d.
Proof.
  intros [Fx Ex] [Fy Ey] HB Hd HO. assert (E : Rabs (val x - val y - (X - Y)) <= dx + dy). { replace (val x - val y - (X - Y)) with ((val x - X) + - (val y - Y)) by ring. eapply Rle_trans; [apply Rabs_triang|]. rewrite Rabs_Ropp. lra. }
  assert (S : Rabs (val x - val y) <= B + (dx + dy)). { replace (val x - val y) with ((X - Y) + (val x - val y - (X - Y))) by ring. eapply Rle_trans; [apply Rabs_triang|]. lra. }
  pose proof huge_200. destruct (fsub_err x y Fx Fy ltac:(lra)) as [F R]. split; [exact F|]. pose proof eta_pos. apply (rounded _ (val x - val y) _ (dx + dy) B); try assumption. lra.
Qed.
Lemma ap_neg x X d : ap x X d -> ap (fneg x) (- X) d.
Proof. intros [F E]. split; [now apply fneg_fin|]. rewrite fneg_val. replace (- val x - - X) with (- (val x - X)) by ring. now rewrite Rabs_Ropp. Qed.
Lemma mul_err x y X Y dx dy BX BY : Rabs (x - X) <= dx -> Rabs (y - Y) <= dy -> Rabs X <= BX -> Rabs Y <= BY -> Rabs (x * y - X * Y) <= dx * BY + BX * dy + dx * dy.
Proof.
  intros Ex Ey HX HY. replace (x * y - X * Y) with ((x - X) * Y + X * (y - Y) + (x - X) * (y - Y)) by ring.
  eapply Rle_trans; [eapply Rle_trans; [apply Rabs_triang|apply Rplus_le_compat_r, Rabs_triang]|]. rewrite !Rabs_mult.
  pose proof (Rabs_pos X). pose proof (Rabs_pos Y). pose proof (Rabs_pos (x - X)). pose proof (Rabs_pos (y - Y)).
  assert (Rabs (x - X) * Rabs Y <= dx * BY) by (apply Rmult_le_compat; lra). assert (Rabs X * Rabs (y - Y) <= BX * dy) by (apply Rmult_le_compat; lra).
  assert (Rabs (x - X) * Rabs (y - Y) <= dx * dy) by (apply Rmult_le_compat; lra). lra.
Qed.
Lemma ap_mul x y X Y dx dy BX BY e d : ap x X dx -> ap y Y dy -> Rabs X <= BX -> Rabs Y <= BY -> dx * BY + BX * dy + dx * dy <= e -> e + u * (BX * BY + e) + eta <= d -> BX * BY + e <= 2 ^ 200 ->
  ap (fmul x y) (X * Y) d.
Proof.
  intros [Fx Ex] [Fy Ey] HX HY He Hd HO. pose proof (mul_err _ _ _ _ _ _ _ _ Ex Ey HX HY) as E.
  assert (P : Rabs (X * Y) <= BX * BY) by (rewrite Rabs_mult; apply Rmult_le_compat; try assumption; apply Rabs_pos).
  assert (S : Rabs (val x * val y) <= BX * BY + e). { replace (val x * val y) with (X * Y + (val x * val y - X * Y)) by ring. eapply Rle_trans; [apply Rabs_triang|]. lra. }
  pose proof huge_200. destruct (fmul_err x y Fx Fy ltac:(lra)) as [F R]. split; [exact F|]. apply (rounded _ (val x * val y) _ e (BX * BY)); try assumption. lra.
Qed.
(** a function that is accurate to one unit in the last place *)
Lemma ap_ulp r T X e B d : one_ulp r T -> Rabs (T - X) <= e -> Rabs X <= B -> e + 2 * u * (B + e) + 2 * eta <= d -> ap r X d.
Proof.
  intros [F R] H2 H3 H4. split; [exact F|]. replace (val r - X) with ((val r - T) + (T - X)) by ring. eapply Rle_trans; [apply Rabs_triang|].
  assert (Rabs T <= B + e). { replace T with (X + (T - X)) by ring. eapply Rle_trans; [apply Rabs_triang|]. lra. }
  pose proof u_pos. assert (2 * u * Rabs T <= 2 * u * (B + e)) by (apply Rmult_le_compat_l; lra). lra.
Qed.

(** ** Division and square root *)
Lemma div_err x y X Y dx dy BX m : Rabs (x - X) <= dx -> Rabs (y - Y) <= dy -> Rabs X <= BX -> 0 < m -> m <= Rabs Y -> dy < m -> y <> 0 /\ Rabs (x / y - X / Y) <= (dx + BX / m * dy) / (m - dy).
Proof.
  intros Ex Ey HX Hm HY Hd. assert (NY : Y <> 0). { intros ->. rewrite Rabs_R0 in HY. lra. }
  assert (Hy : m - dy <= Rabs y). { replace Y with (y + - (y - Y)) in HY by ring. pose proof (Rabs_triang y (- (y - Y))) as T. rewrite Rabs_Ropp in T. lra. }
  assert (Ny : y <> 0). { intros ->. rewrite Rabs_R0 in Hy. lra. } split; [exact Ny|].
  replace (x / y - X / Y) with ((x - X + X / Y * - (y - Y)) * / y) by (field; split; assumption). rewrite Rabs_mult, Rabs_inv. unfold Rdiv at 2.
  assert (A : Rabs (X / Y) <= BX / m). { unfold Rdiv. rewrite Rabs_mult, Rabs_inv. apply Rmult_le_compat; [apply Rabs_pos|left; apply Rinv_0_lt_compat; lra|exact HX|]. apply Rinv_le_contravar; lra. }
  apply Rmult_le_compat; [apply Rabs_pos|left; apply Rinv_0_lt_compat; lra| |apply Rinv_le_contravar; lra].
  eapply Rle_trans; [apply Rabs_triang|]. rewrite Rabs_mult, Rabs_Ropp. apply Rplus_le_compat; [exact Ex|]. apply Rmult_le_compat; try apply Rabs_pos; assumption.
Qed.
Lemma feq_zero y : fin y -> feq y f_zero = if Req_EM_T (val y) 0 then true else false.
Proof.
  intros F. unfold feq, b64_compare. rewrite Bcompare_correct by (exact F || reflexivity). change (B2R 53 1024 f_zero) with 0. fold (val y).
  destruct (Req_EM_T (val y) 0) as [->|N]; [now rewrite Rcompare_Eq by reflexivity|]. destruct (Rcompare_spec (val y) 0); congruence.
Qed.
Lemma gdiv_ok x y : fin y -> val y <> 0 -> gdiv x y = GRet (fdiv x y).
Proof. intros F N. unfold gdiv. rewrite feq_zero by exact F. destruct (Req_EM_T (val y) 0); [contradiction|reflexivity]. Qed.
Lemma flt_fin x y : fin x -> fin y -> flt x y = if Rlt_dec (val x) (val y) then true else false.
Proof.
  intros Fx Fy. unfold flt, b64_compare. rewrite Bcompare_correct by assumption. fold (val x) (val y).
  destruct (Rlt_dec (val x) (val y)) as [H|H]; [now rewrite Rcompare_Lt|]. destruct (Rcompare_spec (val x) (val y)); [contradiction|reflexivity|reflexivity].
Qed.
Lemma fge_fin x y : fin x -> fin y -> fge x y = if Rle_dec (val y) (val x) then true else false.
Proof.
  intros Fx Fy. unfold fge, b64_compare. rewrite Bcompare_correct by assumption. fold (val x) (val y).
  destruct (Rle_dec (val y) (val x)) as [H|H]; destruct (Rcompare_spec (val x) (val y)); try reflexivity; lra.
Qed.
Lemma gsqrt_ok x : fin x -> 0 <= val x -> gsqrt x = GRet (fsqrt x).
Proof. intros F H. unfold gsqrt. rewrite flt_fin by (exact F || reflexivity). change (val f_zero) with 0. destruct (Rlt_dec (val x) 0); [lra|reflexivity]. Qed.
Lemma fsqrt_rnd x : fin x -> 0 <= val x -> fin (fsqrt x) /\ val (fsqrt x) = rnd (sqrt (val x)).
Proof.
  intros F H. unfold fsqrt, b64_sqrt. cbv zeta. match goal with |- context [Bsqrt _ _ ?a ?b ?c ?m x] => pose proof (Bsqrt_correct 53 1024 a b c m x) as (C & D & _) end.
  split; [|exact C]. unfold fin. rewrite D. destruct x as [s|s|s pl e|s mx ex Hx]; try reflexivity; try discriminate F. destruct s; [|reflexivity]. exfalso.
  unfold val, B2R, F2R in H. cbn [Fnum Fexp cond_Zopp] in H. pose proof (bpow_gt_0 radix2 ex). assert (IZR (- Z.pos mx) < 0) by (apply IZR_lt; lia). clear -H H0 H1. nra.
Qed.
Lemma ap_div x y X Y dx dy BX m e d : ap x X dx -> ap y Y dy -> Rabs X <= BX -> 0 < m -> m <= Rabs Y -> dy < m -> (dx + BX / m * dy) / (m - dy) <= e ->
  e + u * (BX / m + e) + eta <= d -> BX / m + e <= 2 ^ 200 -> gdiv x y = GRet (fdiv x y) /\ ap (fdiv x y) (X / Y) d.
Proof.
  intros [Fx Ex] [Fy Ey] HX Hm HY Hd He HD HO. destruct (div_err _ _ _ _ _ _ _ _ Ex Ey HX Hm HY Hd) as [N E]. split; [now apply gdiv_ok|].
  assert (P : Rabs (X / Y) <= BX / m). { unfold Rdiv. rewrite Rabs_mult, Rabs_inv. apply Rmult_le_compat; [apply Rabs_pos|left; apply Rinv_0_lt_compat; lra|exact HX|]. apply Rinv_le_contravar; lra. }
  assert (S : Rabs (val x / val y) <= BX / m + e). { replace (val x / val y) with (X / Y + (val x / val y - X / Y)) by ring. eapply Rle_trans; [apply Rabs_triang|]. lra. }
  pose proof huge_200. destruct (fdiv_err x y Fx Fy N ltac:(lra)) as [F R]. split; [exact F|]. apply (rounded _ (val x / val y) _ e (BX / m)); try assumption. lra.
Qed.
Lemma ap_div_by x y X Y dx BX m d : ap x X dx -> ap y Y 0 -> Rabs X <= BX -> 0 < m -> m <= Rabs Y -> dx / m + u * (BX / m + dx / m) + eta <= d -> BX / m + dx / m <= 2 ^ 200 -> gdiv x y = GRet (fdiv x y) /\ ap (fdiv x y) (X / Y) d.
Proof. intros A B HX Hm HY H1 H2. apply (ap_div x y X Y dx 0 BX m (dx / m)); try assumption. rewrite Rmult_0_r, Rplus_0_r, Rminus_0_r. apply Rle_refl. Qed.
Lemma sqrt_err x X dx m : Rabs (x - X) <= dx -> 0 < m -> m * m <= X -> dx < m * m -> 0 <= x /\ Rabs (sqrt x - sqrt X) <= dx / m.
Proof.
  intros E Hm HX Hd. assert (X0 : 0 <= x) by (apply Rabs_le_inv in E; lra). split; [exact X0|].
  assert (S : m <= sqrt X) by (rewrite <- (sqrt_square m) by lra; apply sqrt_le_1_alt; exact HX). pose proof (sqrt_pos x).
  assert (Q : (sqrt x - sqrt X) * (sqrt x + sqrt X) = x - X). { replace ((sqrt x - sqrt X) * (sqrt x + sqrt X)) with (sqrt x * sqrt x - sqrt X * sqrt X) by ring. rewrite !sqrt_def by nra. reflexivity. }
  apply Rmult_le_reg_r with m; [exact Hm|]. unfold Rdiv. rewrite Rmult_assoc, Rinv_l, Rmult_1_r by lra. eapply Rle_trans; [|exact E]. rewrite <- Q, Rabs_mult, (Rabs_pos_eq (sqrt x + sqrt X)) by lra.
  apply Rmult_le_compat_l; [apply Rabs_pos|lra].
Qed.
Lemma ap_sqrt x X dx m B d : ap x X dx -> 0 < m -> m * m <= X -> dx < m * m -> sqrt X <= B -> dx / m + u * (B + dx / m) + eta <= d -> gsqrt x = GRet (fsqrt x) /\ ap (fsqrt x) (sqrt X) d.
Proof.
  intros [F E] Hm HX Hd HB H. destruct (sqrt_err _ _ _ _ E Hm HX Hd) as [X0 S]. split; [now apply gsqrt_ok|]. destruct (fsqrt_rnd x F X0) as [F' R]. split; [exact F'|]. rewrite R.
  apply (rounded _ (sqrt (val x)) _ (dx / m) B); try assumption; [apply rnd_err|]. rewrite Rabs_pos_eq by apply sqrt_pos. exact HB.
Qed.

(** ** Constants *)
Lemma pi_digits : 884279719003555 / 281474976710656 < PI < 884279719003555 / 281474976710656 + / 8000000000000000.
Proof.
  pose proof (PI_2_3_7_ineq 9) as [A B].
  cbn [sum_f_R0 Nat.mul Nat.add] in A, B. unfold tg_alt, PI_2_3_7_tg, Ratan_seq in A, B.
  cbn [Nat.mul Nat.add] in A, B. rewrite !INR_IZR_INZ in A, B. cbn [Z.of_nat Pos.of_succ_nat Pos.succ] in A, B.
  assert (I39 : INR 39 = 39) by (rewrite INR_IZR_INZ; reflexivity). rewrite I39 in A. lra.
Qed.
Lemma val_pi : val f_pi = 884279719003555 / 281474976710656. Proof. unfold f_pi. value_of_bits. lra. Qed.
Lemma val_180 : val f_180 = 180. Proof. unfold f_180. value_of_bits. lra. Qed.
Lemma val_1 : val f_1 = 1. Proof. unfold f_1. value_of_bits. lra. Qed.
Lemma val_2 : val f_2 = 2. Proof. unfold f_2. value_of_bits. lra. Qed.
Lemma val_90 : val f_90 = 90. Proof. unfold f_90. value_of_bits. lra. Qed.
Lemma val_a : val a64 = wgs84_a. Proof. unfold a64, wgs84_a. value_of_bits. lra. Qed.
Lemma e64_bits : e64 = b64_of_bits 4590560114707631780.
Proof. assert (E : bits_of_b64 e64 = 4590560114707631780%Z) by (vm_compute; reflexivity). rewrite <- E. unfold b64_of_bits, bits_of_b64. symmetry. exact (binary_float_of_bits_of_binary_float 52 11 eq_refl eq_refl eq_refl e64). Qed.
Lemma val_e : val e64 = 1473923511116713 / 18014398509481984. Proof. rewrite e64_bits. value_of_bits. lra. Qed.
Lemma fin_e : fin e64. Proof. rewrite e64_bits. reflexivity. Qed.
(** the eccentricity of the code is within 2.2e-16 of the exact one *)
Lemma e_err : ap e64 wgs84_e (2 * u).
Proof.
  split; [exact fin_e|]. rewrite val_e, u_val. set (c := 1473923511116713 / 18014398509481984). set (d := 2 * / 9007199254740992).
  assert (E0 : 0 <= wgs84_e) by apply sqrt_pos. pose proof wgs_e2 as E2. unfold wgs84_a, wgs84_b in E2.
  assert (C : (c - d) * (c - d) <= wgs84_e ^ 2 <= (c + d) * (c + d)) by (rewrite E2; unfold c, d; lra).
  assert (0 < c - d) by (unfold c, d; lra). assert (0 < d) by (unfold d; lra). apply Rabs_le. split.
  - destruct (Rle_dec (wgs84_e) (c + d)); [lra|]. exfalso. nra.
  - destruct (Rle_dec (c - d) wgs84_e); [lra|]. exfalso. nra.
Qed.
Lemma e_small : 0 < wgs84_e <= 82 / 1000.
Proof. pose proof wgs_e2 as E2. unfold wgs84_a, wgs84_b in E2. assert (E0 : 0 <= wgs84_e) by apply sqrt_pos. split; [destruct (Req_dec wgs84_e 0) as [Z|]; [rewrite Z in E2; lra|lra]|]. destruct (Rle_dec wgs84_e (82 / 1000)); [assumption|]. exfalso. nra. Qed.

(** decides an inequality between errors *)
Ltac num := pose proof eta_u100; pose proof eta_pos; rewrite ?u_val in *; lra.

(** ** Degrees and radians *)
Lemma fin_const : fin f_pi /\ fin f_180 /\ fin f_1 /\ fin a64. Proof. repeat split. Qed.
Lemma deg2rad_ap d : fin d -> Rabs (val d) <= 10 ^ 10 -> ap (deg2rad64 d) (deg2rad (val d)) (Rabs (val d) * (u / 24) + 2 * eta).
Proof.
  intros F H. set (A := Rabs (val d)) in *. assert (0 <= A) by apply Rabs_pos. pose proof pi_digits as PD. pose proof eta_pos.
  assert (AP : ap f_pi PI (/ 8000000000000000)) by (split; [reflexivity|rewrite val_pi; apply Rabs_le; lra]).
  assert (M : ap (fmul d f_pi) (val d * PI) (A * (428 / 100 * u) + eta)).
  { apply (ap_mul d f_pi (val d) PI 0 (/ 8000000000000000) A (315 / 100) (A * / 8000000000000000)); [now apply ap_exact|exact AP|apply Rle_refl|apply Rabs_le; lra|lra| |]; num. }
  assert (A180 : ap f_180 180 0) by (rewrite <- val_180; apply ap_exact; reflexivity).
  assert (HM : Rabs (val d * PI) <= A * (315 / 100)) by (rewrite Rabs_mult; apply Rmult_le_compat_l; [apply Rabs_pos|apply Rabs_le; lra]).
  refine (proj2 (ap_div_by _ _ _ _ _ (A * (315 / 100)) 180 _ M A180 HM _ _ _ _)); try (rewrite Rabs_pos_eq; lra); num.
Qed.

(** ** The mathematical functions *)
Section Functions.
Variable L : mathlib.
Hypothesis AM : accurate_math L.

Lemma cos_lipschitz x y : Rabs (cos x - cos y) <= Rabs (x - y).
Proof. rewrite !cos_sin. eapply Rle_trans; [apply sin_lipschitz|]. right. f_equal. ring. Qed.
Lemma gsin_ap x X dx d : ap x X dx -> dx + 2 * u * (1 + dx) + 2 * eta <= d -> gsin L x = GRet (l_sin (g_base L) x) /\ ap (l_sin (g_base L) x) (sin X) d.
Proof.
  intros [F E] H. destruct AM as [B _ _ _]. pose proof (acc_sin _ B x F) as S. split; [|].
  - unfold gsin, msin, on_finite, of_fres. destruct x; try reflexivity; discriminate F.
  - apply (ap_ulp _ (sin (val x)) _ dx 1); [exact S| | |exact H]; [eapply Rle_trans; [apply sin_lipschitz|exact E]|apply Rabs_le; split; [apply (SIN_bound X)|apply (SIN_bound X)]].
Qed.
Lemma gcos_ap x X dx d : ap x X dx -> dx + 2 * u * (1 + dx) + 2 * eta <= d -> gcos L x = GRet (l_cos (g_base L) x) /\ ap (l_cos (g_base L) x) (cos X) d.
Proof.
  intros [F E] H. destruct AM as [B _ _ _]. pose proof (acc_cos _ B x F) as S. split; [|].
  - unfold gcos, mcos, on_finite, of_fres. destruct x; try reflexivity; discriminate F.
  - apply (ap_ulp _ (cos (val x)) _ dx 1); [exact S| | |exact H]; [eapply Rle_trans; [apply cos_lipschitz|exact E]|apply Rabs_le; split; [apply (COS_bound X)|apply (COS_bound X)]].
Qed.
Lemma gsquare_ulp x : fin x -> Rabs (val x) <= 2 ^ 90 -> gsquare L x = GRet (l_square (g_base L) x) /\ one_ulp (l_square (g_base L) x) (val x * val x).
Proof.
  intros F H. destruct AM as [B _ _ _]. assert (Q : Rabs (val x * val x) <= huge). { rewrite Rabs_mult. pose proof huge_200. pose proof (Rabs_pos (val x)). apply Rle_trans with (2 ^ 90 * 2 ^ 90); [apply Rmult_le_compat; lra|lra]. }
  pose proof (acc_square _ B x F Q) as S. split; [|exact S]. destruct S as [FS _]. unfold gsquare, square, of_fres. destruct x; try discriminate F; destruct (l_square (g_base L) _); try reflexivity; discriminate FS.
Qed.
Lemma gsquare_ap x X dx B e d : ap x X dx -> Rabs X <= B -> dx * (2 * B + dx) <= e -> e + 2 * u * (B * B + e) + 2 * eta <= d -> B + dx <= 2 ^ 90 -> gsquare L x = GRet (l_square (g_base L) x) /\ ap (l_square (g_base L) x) (X * X) d.
Proof.
  intros A HB He Hd HO. pose proof (ap_abs _ _ _ _ A HB) as HX. destruct A as [F E]. destruct (gsquare_ulp x F ltac:(lra)) as [G O]. split; [exact G|].
  apply (ap_ulp _ (val x * val x) _ e (B * B)); [exact O| | |exact Hd].
  - eapply Rle_trans; [exact (mul_err _ _ _ _ _ _ _ _ E E HB HB)|]. lra.
  - rewrite Rabs_mult. apply Rmult_le_compat; try apply Rabs_pos; assumption.
Qed.
End Functions.
