(** * Property C56: the iteration of ecef2lla terminates and converges *)
From Coq Require Import Reals Lra Lia ZArith List.
From Verif Require Import Real3 RangeCoordinates PropGeo Conv.
Import ListNotations.
Local Open Scope R_scope.

Notation E2 := (wgs84_e ^ 2).
Lemma e2_bounds : 0 < E2 < 67 / 10000. Proof. rewrite wgs_e2. unfold wgs84_a, wgs84_b. lra. Qed.
Lemma a_pos : 0 < wgs84_a. Proof. unfold wgs84_a. lra. Qed.

(** p / cos (atan (u / p)) is the hypotenuse *)
Lemma hyp_cos p u : 0 < p -> 0 < cos (atan (u / p)) /\ p / cos (atan (u / p)) = sqrt (p ^ 2 + u ^ 2).
Proof.
  intros Hp. pose proof (atan_bound (u / p)) as B. assert (C : 0 < cos (atan (u / p))) by (apply cos_gt_0; lra). split; [exact C|].
  assert (S : sin (atan (u / p)) = u / p * cos (atan (u / p))). { rewrite <- (tan_atan (u / p)) at 2. unfold tan. field. lra. }
  pose proof (sc (atan (u / p))) as Q. rewrite S in Q. set (c := cos (atan (u / p))) in *.
  symmetry. apply sqrt_lem_1; [nra|apply Rlt_le, Rdiv_lt_0_compat; assumption|]. assert (K : (p ^ 2 + u ^ 2) * (c * c) = p * p).
  { replace ((p ^ 2 + u ^ 2) * (c * c)) with (p * p * (u / p * c * (u / p * c) + c * c)) by (field; lra). rewrite Q. ring. }
  apply Rmult_eq_reg_r with (c * c); [|nra]. rewrite K. field. lra.
Qed.

Section Loop.
Variables p z : R.
Hypothesis Hp : 0 < p.
Hypothesis Hr : (wgs84_a / 2) ^ 2 <= p ^ 2 + z ^ 2.
Notation N_ := (Nf wgs84_a E2).
Notation nx := (next wgs84_a E2 p z).
Notation lat_ := (angle E2 p z).
Notation alt_ := (height wgs84_a E2 p z).
Notation D_ := (Df wgs84_a E2 p z).

(** the body of the loop, from the values that the state (s, n) gives *)
Lemma step_state lat s n : D_ s n <> 0 -> 0 < 1 - E2 * nx s n ^ 2 ->
  lla_step p z lat (N_ s) (alt_ s n) = Ret (lat_ (nx s n) (N_ s), N_ (nx s n), alt_ (nx s n) (N_ s)).
Proof.
  intros HD HN. unfold lla_step. replace (N_ s * (1 - E2) + alt_ s n) with (D_ s n) by (unfold height, Df; ring).
  rewrite pdiv_ok by exact HD. cbn [pbind]. fold (nx s n). rewrite pdiv_ok by lra. cbn [pbind]. fold (uf E2 z (nx s n) (N_ s)). fold (lat_ (nx s n) (N_ s)).
  replace ((wgs84_e * nx s n) ^ 2) with (E2 * nx s n ^ 2) by ring. rewrite psqrt_ok by lra. cbn [pbind]. rewrite pdiv_ok by (apply Rgt_not_eq, sqrt_lt_R0; lra). cbn [pbind].
  destruct (hyp_cos p (uf E2 z (nx s n) (N_ s)) Hp) as [C1 C2]. fold (lat_ (nx s n) (N_ s)) in C1, C2. rewrite pdiv_ok by lra. cbn [pbind]. rewrite C2. reflexivity.
Qed.
Lemma near_next s n : near wgs84_a z s n -> near wgs84_a z (nx s n) (N_ s).
Proof. intros (A & B & C). apply (next_near wgs84_a E2 p z a_pos e2_bounds Hr s n A B). pose proof a_pos. lra. Qed.
Lemma step_near lat s n : near wgs84_a z s n -> lla_step p z lat (N_ s) (alt_ s n) = Ret (lat_ (nx s n) (N_ s), N_ (nx s n), alt_ (nx s n) (N_ s)).
Proof.
  intros (A & B & C). destruct (next_near wgs84_a E2 p z a_pos e2_bounds Hr s n A B ltac:(pose proof a_pos; lra)) as (D & S1 & _).
  apply step_state; [lra|]. apply (Nf_small wgs84_a E2 a_pos e2_bounds _ S1).
Qed.

(** from the state (s, n), with previousLat = prev, the loop makes j <= k further iterations *)
Definition ends (tol : R) (k : nat) (s n prev : R) : Prop :=
  exists j, (j <= k)%nat /\ let X := iter wgs84_a E2 p z j s n in
    (forall m, (j <= m)%nat -> lla_loop m tol p z (lat_ s n) prev (N_ s) (alt_ s n) = Some (Ret (lat_ (fst X) (snd X), alt_ (fst X) (snd X)))) /\
    (forall m, (m < j)%nat -> lla_loop m tol p z (lat_ s n) prev (N_ s) (alt_ s n) = None).
Lemma ends_now tol k s n prev : Rabs (lat_ s n - prev) < tol -> ends tol k s n prev.
Proof.
  intros H. exists 0%nat. split; [lia|]. cbn [iter fst snd]. split; [|intros; lia]. intros m _. destruct m; cbn [lla_loop]; (destruct (Rle_dec tol _); [lra|reflexivity]).
Qed.
Lemma ends_step tol k s n prev : D_ s n <> 0 -> 0 < 1 - E2 * nx s n ^ 2 -> ends tol k (nx s n) (N_ s) (lat_ s n) -> ends tol (S k) s n prev.
Proof.
  intros H1 H2 (j & Hj & A & B). destruct (Rle_dec tol (Rabs (lat_ s n - prev))) as [L|L]; [|apply ends_now; lra].
  exists (S j). split; [lia|]. split.
  - intros m Hm. destruct m as [|m]; [lia|]. cbn [lla_loop]. destruct (Rle_dec tol _); [|contradiction]. rewrite (step_state _ _ _ H1 H2). apply A. lia.
  - intros m Hm. destruct m as [|m]; cbn [lla_loop]; (destruct (Rle_dec tol _); [|contradiction]); [reflexivity|]. rewrite (step_state _ _ _ H1 H2). apply B. lia.
Qed.
Lemma near_ok s n : near wgs84_a z s n -> D_ s n <> 0 /\ 0 < 1 - E2 * nx s n ^ 2.
Proof.
  intros (A & B & C). destruct (next_near wgs84_a E2 p z a_pos e2_bounds Hr s n A B ltac:(pose proof a_pos; lra)) as (D & S1 & _).
  split; [lra|]. apply (Nf_small wgs84_a E2 a_pos e2_bounds _ S1).
Qed.
(** from two consecutive states on, it ends within k iterations if the tolerance is above 139/10000 gap 40^-k *)
Lemma loop_ends tol k : forall s n, near wgs84_a z s n -> 139 / 10000 * gap wgs84_a s n (nx s n) (N_ s) * (/ 40) ^ k < tol -> ends tol k (nx s n) (N_ s) (lat_ s n).
Proof.
  induction k as [|k IH]; intros s n HX Ht.
  - apply ends_now. rewrite Rabs_minus_sym. eapply Rle_lt_trans; [apply (angle_near wgs84_a E2 p z a_pos e2_bounds Hp Hr); [exact HX|now apply near_next]|].
    change ((/ 40) ^ 0) with 1 in Ht. now rewrite Rmult_1_r in Ht.
  - assert (HY : near wgs84_a z (nx s n) (N_ s)) by (now apply near_next). destruct (near_ok _ _ HY) as [O1 O2].
    apply ends_step; [exact O1|exact O2|]. apply IH; [exact HY|]. eapply Rle_lt_trans; [|exact Ht].
    pose proof (contracts wgs84_a E2 p z a_pos e2_bounds Hr s n (nx s n) (N_ s) HX HY) as C. assert (Q : 0 < (/ 40) ^ k) by (apply pow_lt; lra). change ((/ 40) ^ S k) with (/ 40 * (/ 40) ^ k).
    remember (gap wgs84_a s n (nx s n) (N_ s)) as g1. remember (gap wgs84_a (nx s n) (N_ s) (nx (nx s n) (N_ s)) (N_ (nx s n))) as g2. remember ((/ 40) ^ k) as q. clear - C Q. nra.
Qed.

(** *** The first iterations *)
Definition s1 : R := z / (wgs84_a * (1 - E2)).
Lemma s1_sign : 0 <= s1 * z.
Proof. unfold s1, Rdiv. pose proof e2_bounds. pose proof a_pos. assert (0 < / (wgs84_a * (1 - E2))) by (apply Rinv_0_lt_compat; nra). nra. Qed.
Lemma s1_abs : Rabs s1 = Rabs z / (wgs84_a * (1 - E2)).
Proof. unfold s1, Rdiv. pose proof e2_bounds. pose proof a_pos. rewrite Rabs_mult. f_equal. apply Rabs_pos_eq. left. apply Rinv_0_lt_compat. nra. Qed.
Lemma first_step lat : 0 < 1 - E2 * s1 ^ 2 -> lla_step p z lat wgs84_a 0 = Ret (lat_ s1 wgs84_a, N_ s1, alt_ s1 wgs84_a).
Proof.
  intros HN. unfold lla_step. pose proof e2_bounds as EB. pose proof a_pos as AP. rewrite Rplus_0_r. rewrite pdiv_ok by (apply Rgt_not_eq; nra). cbn [pbind]. fold s1.
  rewrite pdiv_ok by lra. cbn [pbind]. fold (uf E2 z s1 wgs84_a). fold (lat_ s1 wgs84_a).
  replace ((wgs84_e * s1) ^ 2) with (E2 * s1 ^ 2) by ring. rewrite psqrt_ok by lra. cbn [pbind]. rewrite pdiv_ok by (apply Rgt_not_eq, sqrt_lt_R0; lra). cbn [pbind].
  destruct (hyp_cos p (uf E2 z s1 wgs84_a) Hp) as [C1 C2]. fold (lat_ s1 wgs84_a) in C1, C2. rewrite pdiv_ok by lra. cbn [pbind]. rewrite C2. reflexivity.
Qed.
(** what the whole loop does: j + 1 iterations, j <= k *)
Definition runs (tol : R) (k : nat) : Prop :=
  exists j, (j <= k)%nat /\ let X := iter wgs84_a E2 p z j s1 wgs84_a in
    (forall m, (j < m)%nat -> lla_loop m tol p z 0 90 wgs84_a 0 = Some (Ret (lat_ (fst X) (snd X), alt_ (fst X) (snd X)))) /\
    (forall m, (m <= j)%nat -> lla_loop m tol p z 0 90 wgs84_a 0 = None).
Lemma runs_of tol k : tol <= 90 -> 0 < 1 - E2 * s1 ^ 2 -> ends tol k s1 wgs84_a 0 -> runs tol k.
Proof.
  intros Ht H2 (j & Hj & A & B). exists j. split; [exact Hj|].
  assert (L : tol <= Rabs (0 - 90)) by (rewrite Rabs_minus_sym, Rminus_0_r, Rabs_pos_eq; lra). split.
  - intros m Hm. destruct m as [|m]; [lia|]. cbn [lla_loop]. destruct (Rle_dec tol _); [|contradiction]. rewrite (first_step _ H2). apply A. lia.
  - intros m Hm. destruct m as [|m]; cbn [lla_loop]; (destruct (Rle_dec tol _); [|contradiction]); [reflexivity|]. rewrite (first_step _ H2). apply B. lia.
Qed.

(** any z up to 60000 km *)
Lemma far_start : Rabs z <= 60000000 -> 0 < 1 - E2 * s1 ^ 2 /\ D_ s1 wgs84_a <> 0 /\ Rabs (nx s1 wgs84_a) <= 103 / 100 /\ 0 <= nx s1 wgs84_a * z /\ wgs84_a <= N_ s1.
Proof.
  intros Hz. pose proof e2_bounds as EB. pose proof a_pos as AP.
  assert (HS : Rabs s1 <= 948 / 100).
  { rewrite s1_abs. apply Rmult_le_reg_r with (wgs84_a * (1 - E2)); [nra|]. unfold Rdiv at 1. rewrite Rmult_assoc, Rinv_l by (apply Rgt_not_eq; nra).
    rewrite Rmult_1_r. eapply Rle_trans; [exact Hz|]. apply Rle_trans with (948 / 100 * (wgs84_a * (1 - 67 / 10000))); [unfold wgs84_a; lra|]. apply Rmult_le_compat_l; [lra|]. apply Rmult_le_compat_l; lra. }
  destruct (Nf_bounds wgs84_a E2 a_pos e2_bounds s1 (948 / 100) (39 / 100)) as (A & B & C); [lra| |exact HS|lra|].
  { apply Rle_trans with (67 / 10000 * (948 / 100) ^ 2); [apply Rmult_le_compat_r; [apply pow2_ge_0|lra]|lra]. }
  assert (Q : 62 / 100 <= sqrt (39 / 100)). { rewrite <- (sqrt_square (62 / 100)) by lra. apply sqrt_le_1; lra. }
  assert (K : N_ s1 <= 162 / 100 * wgs84_a).
  { eapply Rle_trans; [exact C|]. unfold Rdiv at 1. apply Rle_trans with (wgs84_a * / (62 / 100)); [|replace (/ (62 / 100)) with (100 / 62) by field; lra]. apply Rmult_le_compat_l; [lra|]. apply Rinv_le_contravar; lra. }
  destruct (next_bounds wgs84_a E2 p z a_pos e2_bounds Hr s1 wgs84_a (162 / 100) (22 / 1000) s1_sign ltac:(lra) K ltac:(lra) ltac:(lra) ltac:(lra)) as (D1 & D2 & D3).
  split; [apply A|]. split; [lra|]. split; [|split; [exact D2|exact B]]. eapply Rle_trans; [exact D3|]. lra.
Qed.
Lemma far_near : Rabs z <= 60000000 -> let X := iter wgs84_a E2 p z 2 s1 wgs84_a in near wgs84_a z (fst X) (snd X).
Proof.
  intros Hz. destruct (far_start Hz) as (A & B & C & D & F). cbn [iter fst snd]. apply (next_near wgs84_a E2 p z a_pos e2_bounds Hr); [exact C|exact D|]. pose proof a_pos. lra.
Qed.
Lemma near_gap s n t m : near wgs84_a z s n -> near wgs84_a z t m -> gap wgs84_a s n t m <= 207 / 100.
Proof.
  intros (A1 & _ & A2) (B1 & _ & B2). unfold gap. apply Rabs_le_iff in A1, B1. assert (Rabs (s - t) <= 206 / 100) by (apply Rabs_le_iff; lra).
  assert (Rabs (n - m) / wgs84_a <= 1 / 100); [|lra]. pose proof a_pos. apply Rmult_le_reg_r with wgs84_a; [lra|]. unfold Rdiv at 1. rewrite Rmult_assoc, Rinv_l, Rmult_1_r by lra. apply Rabs_le_iff. lra.
Qed.
Lemma far_runs tol k : 0 < tol <= 90 -> Rabs z <= 60000000 -> (/ 40) ^ k <= tol -> runs tol (k + 3).
Proof.
  intros Ht Hz Hk. destruct (far_start Hz) as (A & B & C & D & F). pose proof (far_near Hz) as NX. cbn [iter fst snd] in NX. pose proof a_pos as AP.
  apply runs_of; [lra|exact A|]. replace (k + 3)%nat with (S (S (S k))) by lia.
  apply ends_step; [exact B|apply (Nf_small wgs84_a E2 a_pos e2_bounds _ C)|].
  destruct (next_near wgs84_a E2 p z a_pos e2_bounds Hr _ (N_ s1) C D ltac:(lra)) as (D2 & N2 & _).
  apply ends_step; [lra|apply (Nf_small wgs84_a E2 a_pos e2_bounds _ N2)|].
  destruct (near_ok _ _ NX) as [O1 O2]. apply ends_step; [exact O1|exact O2|]. apply loop_ends; [exact NX|].
  pose proof (near_gap _ _ _ _ NX (near_next _ _ NX)) as G. remember (gap _ _ _ _ _) as g. assert (Q : 0 < (/ 40) ^ k) by (apply pow_lt; lra).
  remember ((/ 40) ^ k) as q. clear - G Q Hk. nra.
Qed.
Lemma iter_add i j s n : iter wgs84_a E2 p z (i + j) s n = let X := iter wgs84_a E2 p z i s n in iter wgs84_a E2 p z j (fst X) (snd X).
Proof. revert s n. induction i as [|i IH]; intros s n; [reflexivity|]. cbn [iter Nat.add]. apply IH. Qed.
End Loop.

(** ** ecef2lla *)
Lemma ecef2lla_loop n x y z tol : x <> 0 \/ y <> 0 ->
  ecef2lla n (V x y z) tol = match lla_loop n tol (sqrt (x ^ 2 + y ^ 2)) z 0 90 wgs84_a 0 with
    | None => None | Some (Raise e) => Some (Raise e) | Some (Ret (lat, alt)) => Some (Ret (V (rad2deg lat) (rad2deg (atan2 y x)) alt)) end.
Proof.
  intros H. unfold ecef2lla. cbn [vx vy vz]. cbv zeta. rewrite psqrt_ok by nra. unfold equal.
  destruct (Req_EM_T x 0) as [Hx|]; [destruct (Req_EM_T y 0) as [Hy|]; [destruct H; contradiction|]|]; reflexivity.
Qed.
Lemma axis_pos x y : x <> 0 \/ y <> 0 -> 0 < sqrt (x ^ 2 + y ^ 2) /\ sqrt (x ^ 2 + y ^ 2) ^ 2 = x ^ 2 + y ^ 2.
Proof.
  intros H. assert (0 < x ^ 2 + y ^ 2). { destruct H as [H|H]; [assert (0 < x ^ 2)|assert (0 < y ^ 2)]; try nra; apply Rlt_0_sqr in H; unfold Rsqr in H; nra. }
  split; [now apply sqrt_lt_R0|]. apply pow2_sqrt. lra.
Qed.

(** at least half an Earth radius from the centre, off the axis, |z| at most 60000 km: for every tolerance of at least 40^-k, k + 4 iterations are enough, and there is no exception *)
Theorem C56_terminates_partial x y z tol k n : x <> 0 \/ y <> 0 -> (6378137 / 2) ^ 2 <= x ^ 2 + y ^ 2 + z ^ 2 -> Rabs z <= 60000000 -> 0 < tol -> (/ 40) ^ k <= tol -> (k + 4 <= n)%nat ->
  exists lla, ecef2lla n (V x y z) tol = Some (Ret lla) /\ ecef2lla (k + 4) (V x y z) tol = Some (Ret lla).
Proof.
  intros Hxy Hr Hz Ht Hk Hn. rewrite !ecef2lla_loop by exact Hxy. destruct (axis_pos x y Hxy) as [PP P2]. set (p := sqrt (x ^ 2 + y ^ 2)) in *.
  destruct (Rle_dec tol 90) as [L|L].
  - assert (Hr' : (wgs84_a / 2) ^ 2 <= p ^ 2 + z ^ 2) by (rewrite P2; exact Hr).
    destruct (far_runs p z PP Hr' tol k ltac:(lra) Hz Hk) as (j & Hj & A & _). cbv zeta in A. rewrite !A by lia. eexists. split; reflexivity.
  - assert (K : forall m, lla_loop m tol p z 0 90 wgs84_a 0 = Some (Ret (0, 0))).
    { intros m. assert (Q : ~ tol <= Rabs (0 - 90)) by (rewrite Rabs_minus_sym, Rminus_0_r, Rabs_pos_eq; lra). destruct m; cbn [lla_loop]; (destruct (Rle_dec tol _); [contradiction|reflexivity]). }
    rewrite !K. eexists. split; reflexivity.
Qed.
Lemma some_power tol : 0 < tol -> exists k, (/ 40) ^ k <= tol.
Proof.
  intros H. destruct (pow_lt_1_zero (/ 40) ltac:(rewrite Rabs_pos_eq; lra) tol H) as (k & K). exists k. specialize (K k ltac:(lia)).
  assert (0 < (/ 40) ^ k) by (apply pow_lt; lra). rewrite Rabs_pos_eq in K; lra.
Qed.
Corollary C56_always_terminates_partial x y z tol : x <> 0 \/ y <> 0 -> (6378137 / 2) ^ 2 <= x ^ 2 + y ^ 2 + z ^ 2 -> Rabs z <= 60000000 -> 0 < tol ->
  exists k lla, forall n, (k <= n)%nat -> ecef2lla n (V x y z) tol = Some (Ret lla).
Proof.
  intros Hxy Hr Hz Ht. destruct (some_power tol Ht) as (k & Hk). destruct (C56_terminates_partial x y z tol k (k + 4) Hxy Hr Hz Ht Hk ltac:(lia)) as (lla & E & _).
  exists (k + 4)%nat, lla. intros n Hn. destruct (C56_terminates_partial x y z tol k n Hxy Hr Hz Ht Hk Hn) as (lla' & E1 & E2). rewrite E1, <- E2. exact E.
Qed.

(** *** The true coordinates are the fixed point *)
Lemma normal_bounds l : wgs84_a <= normal_radius l <= 10035 / 10000 * wgs84_a.
Proof.
  pose proof a_pos as AP. assert (HS : Rabs (sin l) <= 1) by (apply Rabs_le_iff; apply SIN_bound).
  destruct (Nf_bounds wgs84_a E2 a_pos e2_bounds (sin l) 1 (9933 / 10000)) as (_ & B & C); [lra|pose proof e2_bounds; lra|exact HS|lra|].
  change (Nf wgs84_a E2 (sin l)) with (normal_radius l) in B, C. split; [exact B|]. eapply Rle_trans; [exact C|].
  assert (Q : 9966 / 10000 <= sqrt (9933 / 10000)). { rewrite <- (sqrt_square (9966 / 10000)) by lra. apply sqrt_le_1; lra. }
  unfold Rdiv at 1. apply Rle_trans with (wgs84_a * / (9966 / 10000)); [apply Rmult_le_compat_l; [lra|]; apply Rinv_le_contravar; lra|].
  replace (/ (9966 / 10000)) with (10000 / 9966) by field. lra.
Qed.

Section TruthLow.
Variables l h : R.
Hypothesis Hl : - (PI / 2) < l < PI / 2.
Hypothesis Hh : -3000000 <= h.
Let N := normal_radius l.
Let p := (N + h) * cos l.
Let z := (N * (1 - E2) + h) * sin l.

Lemma truth_low : 0 < cos l /\ 0 < p /\ wgs84_a / 2 < N + h /\ wgs84_a / 2 < N * (1 - E2) + h /\ (wgs84_a / 2) ^ 2 <= p ^ 2 + z ^ 2.
Proof.
  pose proof (normal_bounds l) as NB. fold N in NB. pose proof e2_bounds as EB. pose proof a_pos as AP.
  assert (HC : 0 < cos l) by (apply cos_gt_0; lra). assert (A : wgs84_a / 2 < N + h) by (unfold wgs84_a in *; lra).
  assert (B : wgs84_a / 2 < N * (1 - E2) + h). { assert (wgs84_a * (1 - 67 / 10000) <= N * (1 - E2)) by (apply Rmult_le_compat; lra). unfold wgs84_a in *. lra. }
  split; [exact HC|]. split; [apply Rmult_lt_0_compat; lra|]. split; [exact A|]. split; [exact B|].
    unfold p, z. pose proof (sc l) as Q. assert (K1 : (wgs84_a / 2) ^ 2 <= (N + h) ^ 2) by (apply pow_incr; lra). assert (K2 : (wgs84_a / 2) ^ 2 <= (N * (1 - E2) + h) ^ 2) by (apply pow_incr; lra).
    rewrite !Rpow_mult_distr. remember ((N + h) ^ 2) as u. remember ((N * (1 - E2) + h) ^ 2) as v. remember ((wgs84_a / 2) ^ 2) as w.
    replace w with (w * (sin l * sin l + cos l * cos l)) by (rewrite Q; ring).
    replace (cos l ^ 2) with (cos l * cos l) by ring. replace (sin l ^ 2) with (sin l * sin l) by ring.
    assert (0 <= sin l * sin l) by apply Rle_0_sqr. assert (0 <= cos l * cos l) by apply Rle_0_sqr. nra.
Qed.
Lemma state_low : near wgs84_a z (sin l) N /\ Nf wgs84_a E2 (sin l) = N /\ next wgs84_a E2 p z (sin l) N = sin l /\ angle E2 p z (sin l) N = l /\ height wgs84_a E2 p z (sin l) N = h.
Proof.
  destruct truth_low as (HC & HP & A & B & _). pose proof a_pos as AP. pose proof (normal_bounds l) as NB. fold N in NB.
  assert (U : uf E2 z (sin l) N = (N + h) * sin l) by (unfold uf, z; ring).
  assert (W : wf E2 p z (sin l) N = N + h).
  { unfold wf. rewrite U. unfold p. replace (((N + h) * cos l) ^ 2 + ((N + h) * sin l) ^ 2) with ((N + h) * (N + h) * (sin l * sin l + cos l * cos l)) by ring.
    rewrite sc, Rmult_1_r. apply sqrt_square. lra. }
  split; [|split; [reflexivity|split; [|split]]].
  - split; [|split].
    + assert (Rabs (sin l) <= 1) by (apply Rabs_le_iff; apply SIN_bound). lra.
    + unfold z. assert (0 <= sin l * sin l) by apply Rle_0_sqr. nra.
    + lra.
  - unfold next, Df. rewrite W. change (Nf wgs84_a E2 (sin l)) with N. unfold z. field. apply Rgt_not_eq. lra.
  - unfold angle. rewrite U. unfold p. replace ((N + h) * sin l / ((N + h) * cos l)) with (tan l) by (unfold tan; field; split; lra). now apply atan_tan.
  - unfold height. rewrite W. change (Nf wgs84_a E2 (sin l)) with N. ring.
Qed.
End TruthLow.

Section Truth.
Variables l h : R.
Hypothesis Hl : - (PI / 2) < l < PI / 2.
Hypothesis Hh : -3000000 <= h <= 53000000.
Let N := normal_radius l.
Let p := (N + h) * cos l.
Let z := (N * (1 - E2) + h) * sin l.

Lemma truth_bounds : 0 < cos l /\ 0 < p /\ wgs84_a / 2 < N + h /\ wgs84_a / 2 < N * (1 - E2) + h /\ (wgs84_a / 2) ^ 2 <= p ^ 2 + z ^ 2 /\ Rabs z <= 60000000.
Proof.
  destruct (truth_low l h Hl (proj1 Hh)) as (HC & HP & A & B & R). split; [exact HC|]. split; [exact HP|]. split; [exact A|]. split; [exact B|]. split; [exact R|].
  pose proof (normal_bounds l) as NB. fold N in NB, B. pose proof e2_bounds as EB.
  assert (C : N * (1 - E2) + h <= 60000000). { assert (N * (1 - E2) <= N) by (unfold wgs84_a in *; nra). unfold wgs84_a in *. lra. }
  unfold z. rewrite Rabs_mult, (Rabs_pos_eq (_ + h)) by (pose proof a_pos; lra). assert (Rabs (sin l) <= 1) by (apply Rabs_le_iff; apply SIN_bound). pose proof (Rabs_pos (sin l)). pose proof a_pos. nra.
Qed.
Lemma truth_state : near wgs84_a z (sin l) N /\ Nf wgs84_a E2 (sin l) = N /\ next wgs84_a E2 p z (sin l) N = sin l /\ angle E2 p z (sin l) N = l /\ height wgs84_a E2 p z (sin l) N = h.
Proof. exact (state_low l h Hl (proj1 Hh)). Qed.

(** the state after the first iteration and i + 2 others *)
Lemma truth_far i : let X := iter wgs84_a E2 p z (2 + i) (s1 z) wgs84_a in
  Rabs (angle E2 p z (fst X) (snd X) - l) <= 139 / 10000 * (207 / 100 * (/ 40) ^ i) /\ Rabs (height wgs84_a E2 p z (fst X) (snd X) - h) <= 139 / 10000 * wgs84_a * (207 / 100 * (/ 40) ^ i).
Proof.
  destruct truth_bounds as (HC & HP & A & B & HR & HZ). destruct truth_state as (T1 & T2 & T3 & T4 & T5). cbv zeta. rewrite iter_add. cbv zeta.
  pose proof (far_near p z HR HZ) as NX. cbv zeta in NX. set (Y := iter wgs84_a E2 p z 2 (s1 z) wgs84_a) in *.
  pose proof (iter_gap wgs84_a E2 p z a_pos e2_bounds HR i _ _ _ _ NX T1) as G. rewrite (iter_fixed wgs84_a E2 p z i (sin l) N T3 T2) in G. cbn [fst snd] in G.
  pose proof (iter_near wgs84_a E2 p z a_pos e2_bounds HR i _ _ NX) as NI. set (X := iter wgs84_a E2 p z i (fst Y) (snd Y)) in *.
  pose proof (near_gap z _ _ _ _ NX T1) as G0. assert (Q : 0 < (/ 40) ^ i) by (apply pow_lt; lra).
  assert (G1 : gap wgs84_a (fst X) (snd X) (sin l) N <= 207 / 100 * (/ 40) ^ i) by (eapply Rle_trans; [exact G|]; apply Rmult_le_compat_r; lra).
  split.
  - pose proof (angle_near wgs84_a E2 p z a_pos e2_bounds HP HR _ _ _ _ NI T1) as AN. rewrite T4 in AN. eapply Rle_trans; [exact AN|]. apply Rmult_le_compat_l; [lra|exact G1].
  - pose proof (height_near wgs84_a E2 p z a_pos e2_bounds _ _ _ _ NI T1) as AN. rewrite T5 in AN. eapply Rle_trans; [exact AN|]. apply Rmult_le_compat_l; [pose proof a_pos; lra|exact G1].
Qed.

(** near the surface the first iteration is already a good state *)
Lemma first_near : Rabs h <= 150000 -> near wgs84_a z (s1 z) wgs84_a /\ gap wgs84_a (s1 z) wgs84_a (sin l) N <= 31 / 1000.
Proof.
  intros Hs. destruct truth_bounds as (HC & HP & A & B & HR & HZ). pose proof (normal_bounds l) as NB. fold N in NB. pose proof e2_bounds as EB. pose proof a_pos as AP.
  assert (S0 : Rabs (sin l) <= 1) by (apply Rabs_le_iff; apply SIN_bound). pose proof (Rabs_pos (sin l)) as S00.
  assert (M : 0 < wgs84_a * (1 - E2)) by nra. apply Rabs_le_iff in Hs.
  assert (K : Rabs (s1 z - sin l) <= 275 / 10000).
  { replace (s1 z - sin l) with (sin l * (((N - wgs84_a) * (1 - E2) + h) / (wgs84_a * (1 - E2)))) by (unfold s1, z; field; split; lra).
    rewrite Rabs_mult. replace (275 / 10000) with (1 * (275 / 10000)) by ring. apply Rmult_le_compat; [apply Rabs_pos|apply Rabs_pos|exact S0|].
    unfold Rdiv at 1. rewrite Rabs_mult, (Rabs_pos_eq (/ _)) by (left; apply Rinv_0_lt_compat; exact M). apply Rmult_le_reg_r with (wgs84_a * (1 - E2)); [exact M|].
    rewrite Rmult_assoc, Rinv_l, Rmult_1_r by lra.
    assert (X : 0 <= (N - wgs84_a) * (1 - E2) <= 35 / 10000 * wgs84_a) by (split; nra).
    assert (Y : 9933 / 10000 * wgs84_a <= wgs84_a * (1 - E2)) by nra. apply Rabs_le_iff. unfold wgs84_a in *. lra. }
  assert (S1 : Rabs (s1 z) <= 103 / 100). { apply Rabs_le_iff in K, S0. apply Rabs_le_iff. lra. }
  split.
  - split; [exact S1|]. split; [apply s1_sign|lra].
  - unfold gap. assert (Rabs (wgs84_a - N) / wgs84_a <= 35 / 10000); [|lra]. apply Rmult_le_reg_r with wgs84_a; [lra|]. unfold Rdiv at 1. rewrite Rmult_assoc, Rinv_l, Rmult_1_r by lra. apply Rabs_le_iff. lra.
Qed.
Lemma truth_near i : Rabs h <= 150000 -> let X := iter wgs84_a E2 p z i (s1 z) wgs84_a in
  Rabs (angle E2 p z (fst X) (snd X) - l) <= 139 / 10000 * (31 / 1000 * (/ 40) ^ i) /\ Rabs (height wgs84_a E2 p z (fst X) (snd X) - h) <= 139 / 10000 * wgs84_a * (31 / 1000 * (/ 40) ^ i).
Proof.
  intros Hs. destruct truth_bounds as (HC & HP & A & B & HR & HZ). destruct truth_state as (T1 & T2 & T3 & T4 & T5). cbv zeta.
  destruct (first_near Hs) as [NX G0].
  pose proof (iter_gap wgs84_a E2 p z a_pos e2_bounds HR i _ _ _ _ NX T1) as G. rewrite (iter_fixed wgs84_a E2 p z i (sin l) N T3 T2) in G. cbn [fst snd] in G.
  pose proof (iter_near wgs84_a E2 p z a_pos e2_bounds HR i _ _ NX) as NI. set (X := iter wgs84_a E2 p z i (s1 z) wgs84_a) in *.
  assert (Q : 0 < (/ 40) ^ i) by (apply pow_lt; lra).
  assert (G1 : gap wgs84_a (fst X) (snd X) (sin l) N <= 31 / 1000 * (/ 40) ^ i) by (eapply Rle_trans; [exact G|]; apply Rmult_le_compat_r; lra).
  split.
  - pose proof (angle_near wgs84_a E2 p z a_pos e2_bounds HP HR _ _ _ _ NI T1) as AN. rewrite T4 in AN. eapply Rle_trans; [exact AN|]. apply Rmult_le_compat_l; [lra|exact G1].
  - pose proof (height_near wgs84_a E2 p z a_pos e2_bounds _ _ _ _ NI T1) as AN. rewrite T5 in AN. eapply Rle_trans; [exact AN|]. apply Rmult_le_compat_l; [pose proof a_pos; lra|exact G1].
Qed.
Lemma near_runs tol k : Rabs h <= 150000 -> 0 < tol <= 90 -> 442 / 1000000 * (/ 40) ^ k < tol -> runs p z tol (S k).
Proof.
  intros Hs Ht Hk. destruct truth_bounds as (HC & HP & A & B & HR & HZ). destruct truth_state as (T1 & T2 & T3 & T4 & T5). destruct (first_near Hs) as [NX G0].
  apply runs_of; [exact HP|lra|apply (Nf_small wgs84_a E2 a_pos e2_bounds), NX|]. destruct (near_ok p z HR _ _ NX) as [O1 O2]. apply ends_step; [exact HP|exact O1|exact O2|].
  apply loop_ends; [exact HP|exact HR|exact NX|]. pose proof (contracts wgs84_a E2 p z a_pos e2_bounds HR _ _ _ _ NX T1) as C. rewrite T3, T2 in C.
  pose proof (gap_tri wgs84_a a_pos (s1 z) wgs84_a (sin l) N (next wgs84_a E2 p z (s1 z) wgs84_a) (Nf wgs84_a E2 (s1 z))) as G.
  assert (SY : gap wgs84_a (sin l) N (next wgs84_a E2 p z (s1 z) wgs84_a) (Nf wgs84_a E2 (s1 z)) = gap wgs84_a (next wgs84_a E2 p z (s1 z) wgs84_a) (Nf wgs84_a E2 (s1 z)) (sin l) N).
  { unfold gap. rewrite (Rabs_minus_sym (sin l)), (Rabs_minus_sym N). reflexivity. }
  rewrite SY in G. assert (Q : 0 < (/ 40) ^ k) by (apply pow_lt; lra).
  remember (gap wgs84_a (s1 z) wgs84_a (sin l) N) as g0. remember (gap wgs84_a (next wgs84_a E2 p z (s1 z) wgs84_a) (Nf wgs84_a E2 (s1 z)) (sin l) N) as g1.
  remember (gap wgs84_a (s1 z) wgs84_a (next wgs84_a E2 p z (s1 z) wgs84_a) (Nf wgs84_a E2 (s1 z))) as g. remember ((/ 40) ^ k) as q. clear - G C G0 Q Hk.
  assert (g <= 31775 / 1000000) by lra. apply Rle_lt_trans with (442 / 1000000 * q); [|exact Hk]. apply Rmult_le_compat_r; lra.
Qed.
End Truth.

(** *** In terms of lla2ecef and ecef2lla *)
Lemma deg_range lat : -90 < lat < 90 -> - (PI / 2) < deg2rad lat < PI / 2.
Proof. intros H. pose proof PI_RGT_0. unfold deg2rad. split; nra. Qed.
Lemma deg_of x lat b : Rabs (x - deg2rad lat) <= b -> Rabs (rad2deg x - lat) <= 60 * b.
Proof.
  intros H. rewrite <- (proj1 (C45_angles lat)) at 1. replace (rad2deg x - rad2deg (deg2rad lat)) with ((x - deg2rad lat) * (180 / PI)) by (unfold rad2deg; field; pose proof PI_RGT_0; lra).
  pose proof PI2_3_2 as P3. assert (K : 0 < 180 / PI <= 60).
  { split; [apply Rdiv_lt_0_compat; lra|]. apply Rmult_le_reg_r with PI; [lra|]. unfold Rdiv. rewrite Rmult_assoc, Rinv_l by lra. lra. }
  rewrite Rabs_mult, (Rabs_pos_eq (180 / PI)) by lra. pose proof (Rabs_pos (x - deg2rad lat)). nra.
Qed.
(** the position of a point, and how the loop starts on it *)
Lemma position lat lon alt q : -90 < lat < 90 -> -180 < lon <= 180 -> -3000000 <= alt <= 53000000 -> lla2ecef (V lat lon alt) = Ret q ->
  let l := deg2rad lat in let p := (normal_radius l + alt) * cos l in let z := (normal_radius l * (1 - E2) + alt) * sin l in
  0 < p /\ forall n tol, ecef2lla n q tol = match lla_loop n tol p z 0 90 wgs84_a 0 with
    | None => None | Some (Raise e) => Some (Raise e) | Some (Ret (la, h)) => Some (Ret (V (rad2deg la) lon h)) end.
Proof.
  intros Hl Hm Hh Eq. cbv zeta. destruct (truth_bounds (deg2rad lat) alt (deg_range _ Hl) Hh) as (HC & HP & A & B & _ & _). split; [exact HP|].
  destruct (C48_fixed_point lat lon alt Hl ltac:(pose proof a_pos; lra) ltac:(apply Rgt_not_eq; pose proof a_pos; lra)) as (q' & Eq' & _ & L3).
  rewrite Eq in Eq'. injection Eq' as <-. specialize (L3 Hm). rewrite lla2ecef_is in Eq. cbn [vx vy vz] in Eq. injection Eq as Eq. intros n tol.
  set (l := deg2rad lat) in *. set (m := deg2rad lon) in *.
  assert (P : sqrt (vx q ^ 2 + vy q ^ 2) = (normal_radius l + alt) * cos l).
  { rewrite <- Eq. cbn [vx vy]. replace (((normal_radius l + alt) * cos l * cos m) ^ 2 + ((normal_radius l + alt) * cos l * sin m) ^ 2) with (((normal_radius l + alt) * cos l) * ((normal_radius l + alt) * cos l) * (sin m * sin m + cos m * cos m)) by ring.
    rewrite sc, Rmult_1_r. apply sqrt_square. lra. }
  assert (NZ : vx q <> 0 \/ vy q <> 0). { destruct (Req_EM_T (vx q) 0) as [X|X]; [|now left]. right. intros Y. rewrite X, Y in P. replace (0 ^ 2 + 0 ^ 2) with 0 in P by ring. rewrite sqrt_0 in P. lra. }
  destruct q as [qx qy qz]. cbn [vx vy] in *. rewrite (ecef2lla_loop n qx qy qz tol NZ), P, L3. pose proof (f_equal vz Eq) as Z. cbn [vz] in Z. rewrite <- Z. reflexivity.
Qed.

(** after more than i + 2 iterations the latitude is within 2 40^-i degrees and the altitude within 190000 40^-i metres *)
Theorem C56_converges_partial lat lon alt q tol i n r : -90 < lat < 90 -> -180 < lon <= 180 -> -3000000 <= alt <= 53000000 -> 0 < tol <= 90 ->
  lla2ecef (V lat lon alt) = Ret q -> ecef2lla (i + 2) q tol = None -> ecef2lla n q tol = Some (Ret r) ->
  Rabs (vx r - lat) <= 2 * (/ 40) ^ i /\ vy r = lon /\ Rabs (vz r - alt) <= 190000 * (/ 40) ^ i.
Proof.
  intros Hl Hm Hh Ht Eq EN ES. destruct (position lat lon alt q Hl Hm Hh Eq) as [HP K]. rewrite K in EN, ES. clear K.
  set (l := deg2rad lat) in *. destruct (truth_bounds l alt (deg_range _ Hl) Hh) as (_ & _ & _ & _ & HR & HZ).
  set (p := (normal_radius l + alt) * cos l) in *. set (z := (normal_radius l * (1 - E2) + alt) * sin l) in *.
  destruct (some_power tol ltac:(lra)) as (k & Hk). destruct (far_runs p z HP HR tol k Ht HZ Hk) as (j & Hj & A & B). cbv zeta in A.
  assert (J : (2 + i <= j)%nat). { destruct (Nat.leb_spec (2 + i) j); [assumption|]. rewrite A in EN by lia. discriminate. }
  destruct (Nat.leb_spec n j) as [L|L]; [rewrite B in ES by exact L; discriminate|]. rewrite A in ES by lia. injection ES as <-. cbn [vx vy vz].
  destruct (truth_far l alt (deg_range _ Hl) Hh (j - 2)) as [T1 T2]. fold p z in T1, T2. replace (2 + (j - 2))%nat with j in T1, T2 by lia. cbv zeta in T1, T2.
  assert (Q : 0 < (/ 40) ^ (j - 2) <= (/ 40) ^ i).
  { split; [apply pow_lt; lra|]. replace (j - 2)%nat with (i + (j - 2 - i))%nat by lia. rewrite pow_add. rewrite <- (Rmult_1_r ((/ 40) ^ i)) at 2. apply Rmult_le_compat_l; [apply pow_le; lra|].
    rewrite <- (pow1 (j - 2 - i)). apply pow_incr. lra. }
  remember ((/ 40) ^ (j - 2)) as q1. remember ((/ 40) ^ i) as q2. split; [|split; [reflexivity|]].
  - eapply Rle_trans; [apply (deg_of _ _ _ T1)|]. lra.
  - eapply Rle_trans; [exact T2|]. unfold wgs84_a. lra.
Qed.

(** *** Near the surface *)
Lemma sin_lipschitz x y : Rabs (sin x - sin y) <= Rabs (x - y).
Proof.
  assert (K : forall x y, x < y -> Rabs (sin y - sin x) <= Rabs (y - x)).
  { clear. intros x y H. destruct (MVT_cor2 sin cos x y H (fun c _ => derivable_pt_lim_sin c)) as (c & Hc & _). rewrite Hc, Rabs_mult.
    assert (Rabs (cos c) <= 1) by (apply Rabs_le_iff; apply COS_bound). pose proof (Rabs_pos (y - x)). nra. }
  destruct (Rtotal_order x y) as [H|[->|H]].
  - rewrite (Rabs_minus_sym x), (Rabs_minus_sym (sin x)). now apply K.
  - unfold Rminus. rewrite !Rplus_opp_r. lra.
  - now apply K.
Qed.
Lemma atan_small t b : b <= 1 / 2 -> Rabs (atan t) < b -> Rabs t <= 2 * b.
Proof.
  intros Hb H. pose proof PI2_3_2 as P3. set (x := atan t) in *. assert (T : t = sin x / cos x) by (rewrite <- (tan_atan t); reflexivity).
  pose proof (sin_lipschitz x 0) as S. rewrite sin_0, !Rminus_0_r in S. apply Rabs_le_iff in S.
  assert (X : - (1 / 2) < x < 1 / 2) by (apply Rabs_def2 in H; lra).
  assert (C : 1 / 2 <= cos x).
  { rewrite <- cos_PI3. unfold x in *. destruct (Rle_dec 0 (atan t)) as [G|G].
    - apply cos_decr_1; lra.
    - rewrite <- (cos_neg (atan t)). apply cos_decr_1; lra. }
  apply Rabs_def2 in H. assert (Q : t * cos x = sin x) by (rewrite T; field; lra).
  assert (R : Rabs t * cos x = Rabs (sin x)). { rewrite <- Q, Rabs_mult, (Rabs_pos_eq (cos x)) by lra. reflexivity. }
  assert (SS : Rabs (sin x) <= b). { eapply Rle_trans; [apply Rabs_le_iff; exact S|]. apply Rabs_le_iff. lra. }
  pose proof (Rabs_pos t). nra.
Qed.
Lemma stop_first l h : - (PI / 2) < l < PI / 2 -> Rabs h <= 150000 -> let N := normal_radius l in let p := (N + h) * cos l in let z := (N * (1 - E2) + h) * sin l in
  Rabs (angle E2 p z (s1 z) wgs84_a) < 2 / 1000000000 -> gap wgs84_a (s1 z) wgs84_a (sin l) N <= 2 / 1000000000.
Proof.
  intros Hl Hs. cbv zeta. assert (Hh : -3000000 <= h <= 53000000) by (apply Rabs_le_iff in Hs; lra).
  destruct (truth_bounds l h Hl Hh) as (HC & HP & A & B & _ & _). pose proof (normal_bounds l) as NB. pose proof e2_bounds as EB. pose proof a_pos as AP.
  set (N := normal_radius l) in *. set (p := (N + h) * cos l) in *. set (z := (N * (1 - E2) + h) * sin l) in *. intros HA.
  assert (M : 0 < wgs84_a * (1 - E2)) by nra.
  unfold angle in HA. replace (uf E2 z (s1 z) wgs84_a) with (z / (1 - E2)) in HA by (unfold uf, s1; field; lra).
  apply atan_small in HA; [|lra]. set (t := z / (1 - E2) / p) in *. assert (Zt : z = t * p * (1 - E2)) by (unfold t; field; split; lra).
  pose proof (Rabs_pos (sin l)) as S00. assert (C1 : cos l <= 1) by (apply COS_bound). apply Rabs_le_iff in Hs.
  assert (E1 : 0 <= N * E2 <= 43000) by (unfold wgs84_a in *; split; nra).
  assert (S : Rabs (sin l) <= 6 / 1000000000).
  { assert (ZZ : Rabs z = (N * (1 - E2) + h) * Rabs (sin l)) by (unfold z; rewrite Rabs_mult, (Rabs_pos_eq (_ + h)) by lra; reflexivity).
    assert (Z2 : Rabs z <= 2 * (2 / 1000000000) * (N + h)).
    { rewrite Zt, !Rabs_mult, (Rabs_pos_eq p), (Rabs_pos_eq (1 - E2)) by lra. assert (P1 : 0 < p <= N + h) by (unfold p in *; split; nra). rewrite Rmult_assoc. apply Rmult_le_compat; [apply Rabs_pos|nra|exact HA|nra]. }
    rewrite ZZ in Z2. assert (K : N + h <= 11 / 10 * (N * (1 - E2) + h)) by (unfold wgs84_a in *; nra).
    remember (N * (1 - E2) + h) as D. assert (D0 : 0 < D) by lra. remember (Rabs (sin l)) as s. clear - Z2 K D0 S00. apply Rmult_le_reg_l with D; [exact D0|]. nra. }
  assert (K : Rabs (s1 z - sin l) <= 275 / 10000 * Rabs (sin l)).
  { replace (s1 z - sin l) with (((N - wgs84_a) * (1 - E2) + h) / (wgs84_a * (1 - E2)) * sin l) by (unfold s1, z; field; split; lra).
    rewrite Rabs_mult. apply Rmult_le_compat_r; [apply Rabs_pos|].
    unfold Rdiv at 1. rewrite Rabs_mult, (Rabs_pos_eq (/ _)) by (left; apply Rinv_0_lt_compat; exact M). apply Rmult_le_reg_r with (wgs84_a * (1 - E2)); [exact M|].
    rewrite Rmult_assoc, Rinv_l, Rmult_1_r by lra.
    assert (X : 0 <= (N - wgs84_a) * (1 - E2) <= 35 / 10000 * wgs84_a) by (split; nra).
    assert (Y : 9933 / 10000 * wgs84_a <= wgs84_a * (1 - E2)) by nra. apply Rabs_le_iff. unfold wgs84_a in *. lra. }
  pose proof (Nf_lipschitz wgs84_a E2 a_pos e2_bounds 0 (sin l)) as L. rewrite Rabs_R0 in L. specialize (L ltac:(lra) ltac:(lra)).
  replace (Nf wgs84_a E2 0) with wgs84_a in L by (unfold Nf; replace (1 - E2 * 0 ^ 2) with 1 by ring; rewrite sqrt_1; field). change (Nf wgs84_a E2 (sin l)) with N in L.
  rewrite Rminus_0_l, Rabs_Ropp in L. unfold gap.
  assert (G : Rabs (wgs84_a - N) / wgs84_a <= 1 / 100 * Rabs (sin l)); [|lra].
  apply Rmult_le_reg_r with wgs84_a; [lra|]. unfold Rdiv at 1. rewrite Rmult_assoc, Rinv_l, Rmult_1_r by lra. eapply Rle_trans; [exact L|].
  apply Rle_trans with (106 / 100 * wgs84_a * (67 / 10000) * Rabs (sin l)); [|nra]. apply Rmult_le_compat_r; [exact S00|]. apply Rmult_le_compat_l; lra.
Qed.
Lemma runs_first p z tol v : 0 < p -> 0 < 1 - E2 * s1 z ^ 2 -> 0 < tol <= 90 -> lla_loop 1 tol p z 0 90 wgs84_a 0 = Some v -> Rabs (angle E2 p z (s1 z) wgs84_a) < tol.
Proof.
  intros HP H1 Ht. cbn [lla_loop]. destruct (Rle_dec tol (Rabs (0 - 90))) as [_|G]; [|exfalso; apply G; rewrite Rabs_minus_sym, Rabs_pos_eq; lra].
  rewrite (first_step p z HP 0 H1). rewrite Rminus_0_r. destruct (Rle_dec tol (Rabs (angle E2 p z (s1 z) wgs84_a))) as [L|L]; [discriminate|]. intros _. lra.
Qed.

(** within 150 km of the ellipsoid the default call returns after at most six iterations, with the longitude exact, the
    latitude within 0.00065 degrees and the altitude within 69 m; after each further iteration the bounds are 40 times smaller *)
Theorem C56_near_surface_partial lat lon alt : -90 < lat < 90 -> -180 < lon <= 180 -> Rabs alt <= 150000 ->
  exists q r, lla2ecef (V lat lon alt) = Ret q /\ (forall n, (6 <= n)%nat -> ecef2lla n q (1 / 1000000000) = Some (Ret r)) /\
    vy r = lon /\ Rabs (vx r - lat) <= 65 / 100000 /\ Rabs (vz r - alt) <= 69 /\
    (forall i, ecef2lla i q (1 / 1000000000) = None -> Rabs (vx r - lat) <= 26 / 1000 * (/ 40) ^ i /\ Rabs (vz r - alt) <= 2760 * (/ 40) ^ i).
Proof.
  intros Hl Hm Hs. assert (Hh : -3000000 <= alt <= 53000000) by (apply Rabs_le_iff in Hs; lra).
  pose proof (lla2ecef_is (V lat lon alt)) as Q. cbv zeta in Q. eexists. destruct (position lat lon alt _ Hl Hm Hh Q) as [HP K]. cbn [vx vy vz] in *.
  set (l := deg2rad lat) in *. pose proof (deg_range _ Hl) as Hr. fold l in Hr. destruct (truth_bounds l alt Hr Hh) as (_ & _ & _ & _ & HR & HZ).
  assert (P4 : 442 / 1000000 * (/ 40) ^ 4 < 1 / 1000000000) by (cbn [pow]; lra).
  destruct (near_runs l alt Hr Hh (1 / 1000000000) 4 Hs ltac:(lra) P4) as (j & Hj & A & B). cbv zeta in A.
  destruct (truth_state l alt Hr Hh) as (T1 & T2 & T3 & T4 & T5). destruct (first_near l alt Hr Hh Hs) as [F1 F2].
  set (p := (normal_radius l + alt) * cos l) in *. set (z := (normal_radius l * (1 - E2) + alt) * sin l) in *.
  exists (V (rad2deg (angle E2 p z (fst (iter wgs84_a E2 p z j (s1 z) wgs84_a)) (snd (iter wgs84_a E2 p z j (s1 z) wgs84_a)))) lon (height wgs84_a E2 p z (fst (iter wgs84_a E2 p z j (s1 z) wgs84_a)) (snd (iter wgs84_a E2 p z j (s1 z) wgs84_a)))).
  split; [exact Q|]. split; [intros n Hn; rewrite K, A by lia; reflexivity|]. cbn [vx vy vz]. split; [reflexivity|].
  assert (T : forall i, (i <= j)%nat -> Rabs (rad2deg (angle E2 p z (fst (iter wgs84_a E2 p z j (s1 z) wgs84_a)) (snd (iter wgs84_a E2 p z j (s1 z) wgs84_a))) - lat) <= 26 / 1000 * (/ 40) ^ i /\
    Rabs (height wgs84_a E2 p z (fst (iter wgs84_a E2 p z j (s1 z) wgs84_a)) (snd (iter wgs84_a E2 p z j (s1 z) wgs84_a)) - alt) <= 2760 * (/ 40) ^ i).
  { intros i Hi. destruct (truth_near l alt Hr Hh j Hs) as [X1 X2]. fold p z in X1, X2. cbv zeta in X1, X2.
    assert (Y : 0 < (/ 40) ^ j <= (/ 40) ^ i).
    { split; [apply pow_lt; lra|]. replace j with (i + (j - i))%nat by lia. rewrite pow_add. rewrite <- (Rmult_1_r ((/ 40) ^ i)) at 2. apply Rmult_le_compat_l; [apply pow_le; lra|].
      rewrite <- (pow1 (j - i)). apply pow_incr. lra. }
    remember ((/ 40) ^ j) as q1. remember ((/ 40) ^ i) as q2. split.
    - eapply Rle_trans; [apply (deg_of _ _ _ X1)|]. lra.
    - eapply Rle_trans; [exact X2|]. unfold wgs84_a. lra. }
  assert (T0 : Rabs (rad2deg (angle E2 p z (fst (iter wgs84_a E2 p z j (s1 z) wgs84_a)) (snd (iter wgs84_a E2 p z j (s1 z) wgs84_a))) - lat) <= 65 / 100000 /\
    Rabs (height wgs84_a E2 p z (fst (iter wgs84_a E2 p z j (s1 z) wgs84_a)) (snd (iter wgs84_a E2 p z j (s1 z) wgs84_a)) - alt) <= 69).
  { destruct j as [|j].
    - cbn [iter fst snd] in *. assert (H1 : 0 < 1 - E2 * s1 z ^ 2) by (destruct F1 as (F1 & _); apply (Nf_small wgs84_a E2 a_pos e2_bounds _ F1)).
      pose proof (runs_first p z (1 / 1000000000) _ HP H1 ltac:(lra) (A 1%nat ltac:(lia))) as HA. pose proof (stop_first l alt Hr Hs (Rlt_trans _ _ (2 / 1000000000) HA ltac:(lra))) as G.
      pose proof (angle_near wgs84_a E2 p z a_pos e2_bounds HP HR _ _ _ _ F1 T1) as AN. rewrite T4 in AN. pose proof (height_near wgs84_a E2 p z a_pos e2_bounds _ _ _ _ F1 T1) as HN. rewrite T5 in HN. fold p z in G.
      remember (gap wgs84_a (s1 z) wgs84_a (sin l) (normal_radius l)) as g. split.
      + eapply Rle_trans; [apply (deg_of _ _ _ AN)|]. lra.
      + eapply Rle_trans; [exact HN|]. unfold wgs84_a. lra.
    - destruct (T 1%nat ltac:(lia)) as [X Y]. rewrite pow_1 in X, Y. lra. }
  destruct T0 as [X Y]. split; [exact X|]. split; [exact Y|]. intros i Hi. apply T. destruct (Nat.leb_spec i j); [assumption|]. rewrite K, A in Hi by lia. discriminate.
Qed.

(** *** Every position has exactly one latitude, longitude and altitude *)
Lemma normal_continuous x : continuity_pt normal_radius x.
Proof.
  unfold normal_radius. apply (continuity_pt_div (fun _ => wgs84_a) (fun l => sqrt (1 - wgs84_e ^ 2 * sin l ^ 2))).
  - apply continuity_pt_const. intros ? ?. reflexivity.
  - apply (continuity_pt_comp (fun l => 1 - wgs84_e ^ 2 * sin l ^ 2) sqrt).
    + apply derivable_continuous_pt. reg.
    + apply continuity_pt_sqrt. pose proof (radicand x). lra.
  - apply Rgt_not_eq, sqrt_lt_R0. pose proof (radicand x). lra.
Qed.
(** the normal through a point: on the same side of the equator as the point *)
Lemma geodetic p z : 0 < p -> exists l, - (PI / 2) < l < PI / 2 /\ 0 <= z * sin l /\ p * sin l = (z + E2 * normal_radius l * sin l) * cos l.
Proof.
  intros Hp. pose proof PI_RGT_0 as HPI. set (f := fun l => p * sin l - (z + E2 * normal_radius l * sin l) * cos l).
  assert (FC : continuity f).
  { intros x. unfold f. apply continuity_pt_minus.
    - apply derivable_continuous_pt. reg.
    - apply (continuity_pt_mult (fun l => z + E2 * normal_radius l * sin l) cos); [|apply derivable_continuous_pt; reg].
      apply (continuity_pt_plus (fun _ => z) (fun l => E2 * normal_radius l * sin l)); [apply continuity_pt_const; intros ? ?; reflexivity|].
      apply (continuity_pt_mult (fun l => E2 * normal_radius l) sin); [|apply derivable_continuous_pt; reg].
      apply (continuity_pt_mult (fun _ => E2) normal_radius); [apply continuity_pt_const; intros ? ?; reflexivity|apply normal_continuous]. }
  assert (F0 : f 0 = - z) by (unfold f; rewrite sin_0, cos_0; ring).
  assert (F1 : f (PI / 2) = p) by (unfold f; rewrite sin_PI2, cos_PI2; ring).
  assert (F2 : f (- (PI / 2)) = - p) by (unfold f; rewrite sin_neg, cos_neg, sin_PI2, cos_PI2; ring).
  destruct (Rtotal_order z 0) as [H|[H|H]].
  - destruct (IVT f (- (PI / 2)) 0 FC ltac:(lra) ltac:(lra) ltac:(lra)) as (l & R & Z). exists l.
    assert (l <> - (PI / 2)) by (intros ->; lra). assert (S : sin l <= 0) by (apply sin_le_0_var || (destruct (Req_dec l 0) as [->|]; [rewrite sin_0; lra|apply Rlt_le, sin_lt_0_var; lra])).
    split; [lra|]. split; [nra|]. unfold f in Z. lra.
  - exists 0. rewrite sin_0, H. split; [lra|]. split; [lra|ring].
  - destruct (IVT f 0 (PI / 2) FC ltac:(lra) ltac:(lra) ltac:(lra)) as (l & R & Z). exists l.
    assert (l <> PI / 2) by (intros ->; lra). assert (S : 0 <= sin l) by (apply sin_ge_0; lra). split; [lra|]. split; [nra|]. unfold f in Z. lra.
Qed.
Lemma geodetic_height p z : 0 < p -> exists l h, - (PI / 2) < l < PI / 2 /\ (normal_radius l + h) * cos l = p /\ (normal_radius l * (1 - E2) + h) * sin l = z /\ sqrt (p ^ 2 + z ^ 2) <= normal_radius l + h.
Proof.
  intros Hp. destruct (geodetic p z Hp) as (l & Hl & Hs & He). assert (HC : 0 < cos l) by (apply cos_gt_0; lra).
  exists l, (p / cos l - normal_radius l). set (N := normal_radius l) in *. split; [exact Hl|].
  assert (A : (N + (p / cos l - N)) * cos l = p) by (field; lra). split; [exact A|].
  assert (T : p / cos l * sin l = z + E2 * N * sin l) by (apply Rmult_eq_reg_r with (cos l); [|lra]; rewrite <- He; field; lra).
  split; [replace ((N * (1 - E2) + (p / cos l - N)) * sin l) with (p / cos l * sin l - E2 * N * sin l) by ring; lra|].
  replace (N + (p / cos l - N)) with (p / cos l) by ring. set (w := p / cos l) in *. assert (W : 0 < w) by (apply Rdiv_lt_0_compat; lra).
  assert (PW : p = w * cos l) by (unfold w; field; lra). rewrite <- (sqrt_square w) by lra. apply sqrt_le_1; [nra|nra|].
  pose proof (sc l) as Q. replace (w * w) with (w * w * (sin l * sin l + cos l * cos l)) by (rewrite Q; ring). replace (p ^ 2) with ((w * cos l) * (w * cos l)) by (rewrite <- PW; ring).
  assert (Z : z ^ 2 <= (w * sin l) * (w * sin l)).
  { rewrite T. pose proof (normal_bounds l) as NB. fold N in NB. pose proof a_pos. pose proof e2_bounds. assert (0 <= E2 * N) by (apply Rmult_le_pos; lra).
    assert (0 <= E2 * N * (z * sin l)) by (apply Rmult_le_pos; assumption). assert (0 <= (E2 * N * sin l) * (E2 * N * sin l)) by apply Rle_0_sqr. nra. }
  nra.
Qed.

Theorem C58_coordinates_exist x y z : x <> 0 \/ y <> 0 -> 3401000 ^ 2 <= x ^ 2 + y ^ 2 + z ^ 2 ->
  exists lat lon alt, -90 < lat < 90 /\ -180 < lon <= 180 /\ -3000000 <= alt /\ lla2ecef (V lat lon alt) = Ret (V x y z).
Proof.
  intros Hxy Hr. destruct (axis_pos x y Hxy) as [PP P2]. set (p := sqrt (x ^ 2 + y ^ 2)) in *.
  destruct (geodetic_height p z PP) as (l & h & Hl & A & B & C). pose proof PI_RGT_0 as HPI.
  exists (rad2deg l), (rad2deg (atan2 y x)), h. pose proof (atan2_range y x) as AR. split; [|split; [|split]].
  - unfold rad2deg. split; apply Rmult_lt_reg_r with PI; try assumption; unfold Rdiv; rewrite Rmult_assoc, Rinv_l by lra; lra.
  - unfold rad2deg. split; [apply Rmult_lt_reg_r with PI|apply Rmult_le_reg_r with PI]; try assumption; unfold Rdiv; rewrite Rmult_assoc, Rinv_l by lra; lra.
  - assert (3401000 <= sqrt (p ^ 2 + z ^ 2)). { rewrite <- (sqrt_square 3401000) by lra. apply sqrt_le_1; [lra|nra|rewrite P2; lra]. }
    pose proof (normal_bounds l). unfold wgs84_a in *. lra.
  - rewrite lla2ecef_is. cbn [vx vy vz]. rewrite !(proj1 (proj2 (C45_angles _))), A, B.
    destruct (atan2_polar y x) as [Q1 Q2]. replace (x * x + y * y) with (x ^ 2 + y ^ 2) in Q1, Q2 by ring. fold p in Q1, Q2. rewrite Q1, Q2. reflexivity.
Qed.
Theorem C58_coordinates_unique lat lon alt lat' lon' alt' q : -90 < lat < 90 -> -180 < lon <= 180 -> -3000000 <= alt -> -90 < lat' < 90 -> -180 < lon' <= 180 -> -3000000 <= alt' ->
  lla2ecef (V lat lon alt) = Ret q -> lla2ecef (V lat' lon' alt') = Ret q -> lat = lat' /\ lon = lon' /\ alt = alt'.
Proof.
  intros Hl Hm Hh Hl' Hm' Hh' Q Q'.
  assert (K : forall lat lon alt, -90 < lat < 90 -> -180 < lon <= 180 -> -3000000 <= alt -> lla2ecef (V lat lon alt) = Ret q ->
    let l := deg2rad lat in 0 < sqrt (vx q ^ 2 + vy q ^ 2) /\ (normal_radius l + alt) * cos l = sqrt (vx q ^ 2 + vy q ^ 2) /\ (normal_radius l * (1 - E2) + alt) * sin l = vz q /\ rad2deg (atan2 (vy q) (vx q)) = lon).
  { clear - q. intros lat lon alt Hl Hm Hh Q. cbv zeta. destruct (truth_low (deg2rad lat) alt (deg_range _ Hl) Hh) as (HC & HP & A & B & _).
    destruct (C48_fixed_point lat lon alt Hl ltac:(pose proof a_pos; lra) ltac:(apply Rgt_not_eq; pose proof a_pos; lra)) as (q' & Q' & _ & L3). rewrite Q in Q'. injection Q' as <-.
    rewrite lla2ecef_is in Q. cbn [vx vy vz] in Q. injection Q as Q. set (l := deg2rad lat) in *. set (m := deg2rad lon) in *.
    assert (P : sqrt (vx q ^ 2 + vy q ^ 2) = (normal_radius l + alt) * cos l).
    { rewrite <- Q. cbn [vx vy]. replace (((normal_radius l + alt) * cos l * cos m) ^ 2 + ((normal_radius l + alt) * cos l * sin m) ^ 2) with (((normal_radius l + alt) * cos l) * ((normal_radius l + alt) * cos l) * (sin m * sin m + cos m * cos m)) by ring.
      rewrite sc, Rmult_1_r. apply sqrt_square. lra. }
    rewrite P. split; [exact HP|]. split; [reflexivity|]. split; [rewrite <- Q; reflexivity|]. exact (L3 Hm). }
  destruct (K lat lon alt Hl Hm Hh Q) as (PP & A1 & A2 & A3). destruct (K lat' lon' alt' Hl' Hm' Hh' Q') as (_ & B1 & B2 & B3).
  destruct (state_low (deg2rad lat) alt (deg_range _ Hl) Hh) as (S1 & S2 & S3 & S4 & S5). destruct (state_low (deg2rad lat') alt' (deg_range _ Hl') Hh') as (T1 & T2 & T3 & T4 & T5).
  destruct (truth_low (deg2rad lat) alt (deg_range _ Hl) Hh) as (_ & _ & _ & _ & HR).
  rewrite A1, A2 in *. rewrite B1, B2 in *. clear K.
  pose proof (contracts wgs84_a E2 _ _ a_pos e2_bounds HR _ _ _ _ S1 T1) as C. rewrite S2, S3, T2, T3 in C.
  pose proof (gap_pos wgs84_a a_pos (sin (deg2rad lat)) (normal_radius (deg2rad lat)) (sin (deg2rad lat')) (normal_radius (deg2rad lat'))) as G.
  assert (G0 : gap wgs84_a (sin (deg2rad lat)) (normal_radius (deg2rad lat)) (sin (deg2rad lat')) (normal_radius (deg2rad lat')) = 0) by lra.
  unfold gap in G0. pose proof (Rabs_pos (sin (deg2rad lat) - sin (deg2rad lat'))) as R1.
  assert (R2 : 0 <= Rabs (normal_radius (deg2rad lat) - normal_radius (deg2rad lat')) / wgs84_a) by (apply Rmult_le_pos; [apply Rabs_pos|left; apply Rinv_0_lt_compat, a_pos]).
  assert (SS : sin (deg2rad lat) = sin (deg2rad lat')). { destruct (Req_dec (sin (deg2rad lat) - sin (deg2rad lat')) 0) as [|X]; [lra|]. apply Rabs_pos_lt in X. lra. }
  assert (NN : normal_radius (deg2rad lat) = normal_radius (deg2rad lat')) by (unfold normal_radius; now rewrite SS).
  rewrite SS, NN in S4, S5. split; [|split].
  - rewrite <- (proj1 (C45_angles lat)), <- (proj1 (C45_angles lat')). f_equal. congruence.
  - congruence.
  - congruence.
Qed.

(** *** What the loop does not do *)
(** beyond about 77400 km above or below the equatorial plane it raises "math domain error" *)
Theorem C56_domain_refuted x y z tol n : x <> 0 \/ y <> 0 -> 78000000 <= Rabs z -> 0 < tol <= 90 -> ecef2lla (S n) (V x y z) tol = Some (Raise MathDomain).
Proof.
  intros Hxy Hz Ht. rewrite ecef2lla_loop by exact Hxy. destruct (axis_pos x y Hxy) as [PP _]. set (p := sqrt (x ^ 2 + y ^ 2)) in *.
  cbn [lla_loop]. destruct (Rle_dec tol (Rabs (0 - 90))) as [_|G]; [|exfalso; apply G; rewrite Rabs_minus_sym, Rabs_pos_eq; lra].
  pose proof e2_bounds as EB. pose proof a_pos as AP. unfold lla_step. rewrite Rplus_0_r, pdiv_ok by (apply Rgt_not_eq; nra). cbn [pbind]. rewrite pdiv_ok by lra. cbn [pbind].
  fold (s1 z). replace ((wgs84_e * s1 z) ^ 2) with (E2 * s1 z ^ 2) by ring.
  assert (S : 12311 / 1000 <= Rabs (s1 z)).
  { rewrite s1_abs. apply Rmult_le_reg_r with (wgs84_a * (1 - E2)); [nra|]. unfold Rdiv. rewrite Rmult_assoc, (Rmult_assoc (Rabs z)), Rinv_l by (apply Rgt_not_eq; nra). rewrite wgs_e2. unfold wgs84_a, wgs84_b. lra. }
  assert (S2 : (12311 / 1000) ^ 2 <= s1 z ^ 2) by (rewrite <- (pow2_abs (s1 z)); apply pow_incr; lra).
  assert (EL : 669 / 100000 <= E2) by (rewrite wgs_e2; unfold wgs84_a, wgs84_b; lra).
  assert (H : 1 - E2 * s1 z ^ 2 < 0) by nra. unfold psqrt. destruct (Rlt_dec _ 0); [reflexivity|contradiction].
Qed.

(** the tolerance bounds the last change of the latitude, not its error: at this position the second iteration repeats the
    first latitude exactly, so that the loop stops there however small the tolerance is *)
Section Stalled.
Let r := sqrt (1 - 49 / 100 * E2).
Let p := wgs84_a * sqrt (1 / (1 - 49 / 100 * E2) - 49 / 100).
Let z := 7 / 10 * (wgs84_a * (1 - E2)).
Lemma stalled_r : 0 < r <= 1 - 245 / 1000 * E2 /\ r * r = 1 - 49 / 100 * E2 /\ 998 / 1000 <= r.
Proof.
  pose proof e2_bounds as EB. assert (R0 : 0 < r) by (apply sqrt_lt_R0; lra). assert (R2 : r * r = 1 - 49 / 100 * E2) by (apply sqrt_sqrt; lra).
  split; [split; [exact R0|nra]|]. split; [exact R2|nra].
Qed.
Lemma stalled_p : 0 < p /\ p ^ 2 + (7 / 10 * wgs84_a) ^ 2 = (wgs84_a / r) ^ 2 /\ p <= 72 / 100 * wgs84_a.
Proof.
  destruct stalled_r as (R0 & R2 & R3). pose proof e2_bounds as EB. pose proof a_pos as AP.
  assert (K : 1 <= 1 / (1 - 49 / 100 * E2) <= 1004 / 1000).
  { rewrite <- R2. split; apply Rmult_le_reg_r with (r * r); try nra; unfold Rdiv; rewrite Rmult_assoc, Rinv_l by nra; nra. }
  remember (1 / (1 - 49 / 100 * E2) - 49 / 100) as d eqn:Ed. assert (D : sqrt d * sqrt d = d) by (apply sqrt_sqrt; lra). assert (D0 : 0 < sqrt d) by (apply sqrt_lt_R0; lra).
  assert (PE : p = wgs84_a * sqrt d) by (unfold p; rewrite Ed; reflexivity). rewrite PE. split; [nra|]. split.
  - replace ((wgs84_a * sqrt d) ^ 2) with (wgs84_a ^ 2 * (sqrt d * sqrt d)) by ring. rewrite D, Ed. replace ((wgs84_a / r) ^ 2) with (wgs84_a ^ 2 * (1 / (r * r))) by (field; lra). rewrite R2. field. lra.
  - assert (sqrt d <= 72 / 100) by nra. nra.
Qed.
Lemma stalled_state : s1 z = 7 / 10 /\ uf E2 z (s1 z) wgs84_a = 7 / 10 * wgs84_a /\ Nf wgs84_a E2 (s1 z) = wgs84_a / r /\ wf E2 p z (s1 z) wgs84_a = wgs84_a / r /\
  angle E2 p z (next wgs84_a E2 p z (s1 z) wgs84_a) (Nf wgs84_a E2 (s1 z)) = angle E2 p z (s1 z) wgs84_a.
Proof.
  destruct stalled_r as (R0 & R2 & R3). destruct stalled_p as (P0 & P1 & _). pose proof e2_bounds as EB. pose proof a_pos as AP.
  assert (A : s1 z = 7 / 10) by (unfold s1, z; field; split; lra). assert (B : uf E2 z (s1 z) wgs84_a = 7 / 10 * wgs84_a) by (unfold uf; rewrite A; unfold z; ring).
  assert (C : Nf wgs84_a E2 (s1 z) = wgs84_a / r) by (unfold Nf, r; rewrite A; replace (E2 * (7 / 10) ^ 2) with (49 / 100 * E2) by field; reflexivity).
  assert (W0 : 0 < wgs84_a / r) by (apply Rdiv_lt_0_compat; lra).
  assert (D : wf E2 p z (s1 z) wgs84_a = wgs84_a / r) by (unfold wf; rewrite B, P1; apply sqrt_pow2; lra).
  split; [exact A|]. split; [exact B|]. split; [exact C|]. split; [exact D|]. assert (X : next wgs84_a E2 p z (s1 z) wgs84_a = 7 / 10 * r). { unfold next, Df. rewrite D, C. unfold z. replace (wgs84_a / r - E2 * (wgs84_a / r)) with (wgs84_a * (1 - E2) / r) by (field; lra). field. repeat split; lra. }
  unfold angle. f_equal. f_equal. rewrite B, C, X. unfold uf, z. field. lra.
Qed.
Lemma stalled_first : 1 / 10 <= angle E2 p z (s1 z) wgs84_a.
Proof.
  destruct stalled_p as (P0 & _ & P2). destruct stalled_state as (_ & B & _). pose proof a_pos as AP. unfold angle. rewrite B.
  assert (T : 9 / 10 <= 7 / 10 * wgs84_a / p) by (apply Rmult_le_reg_r with p; [exact P0|]; unfold Rdiv at 2; rewrite Rmult_assoc, Rinv_l by lra; lra).
  destruct (Rle_dec (1 / 10) (atan (7 / 10 * wgs84_a / p))) as [G|G]; [exact G|exfalso].
  assert (AP0 : 0 < atan (7 / 10 * wgs84_a / p)) by (rewrite <- atan_0; apply atan_increasing; lra).
  pose proof (atan_small (7 / 10 * wgs84_a / p) (1 / 10) ltac:(lra) ltac:(rewrite Rabs_pos_eq; lra)) as Q. rewrite Rabs_pos_eq in Q; lra.
Qed.
Lemma stalled_loop tol n : 0 < tol <= 1 / 10 -> exists h, lla_loop (S (S n)) tol p z 0 90 wgs84_a 0 = Some (Ret (angle E2 p z (s1 z) wgs84_a, h)).
Proof.
  intros Ht. destruct stalled_p as (P0 & P1 & P2). destruct stalled_r as (R0 & R2 & R3). destruct stalled_state as (A & B & C & D & F). pose proof stalled_first as F1. pose proof e2_bounds as EB. pose proof a_pos as AP.
  assert (W0 : 0 < wgs84_a / r) by (apply Rdiv_lt_0_compat; lra). assert (W1 : wgs84_a <= wgs84_a / r) by (apply Rmult_le_reg_r with r; [lra|]; unfold Rdiv; rewrite Rmult_assoc, Rinv_l by lra; nra).
  assert (HR : (wgs84_a / 2) ^ 2 <= p ^ 2 + z ^ 2).
  { assert (wgs84_a ^ 2 <= (wgs84_a / r) ^ 2) by (apply pow_incr; lra). assert (0 <= z ^ 2) by apply pow2_ge_0. nra. }
  assert (NR : near wgs84_a z (s1 z) wgs84_a) by (split; [rewrite A, Rabs_pos_eq; lra|split; [apply s1_sign|lra]]).
  assert (H1 : 0 < 1 - E2 * s1 z ^ 2) by (rewrite A; lra).
  exists (height wgs84_a E2 p z (next wgs84_a E2 p z (s1 z) wgs84_a) (Nf wgs84_a E2 (s1 z))). cbn [lla_loop]. destruct (Rle_dec tol (Rabs (0 - 90))) as [_|G]; [|exfalso; apply G; rewrite Rabs_minus_sym, Rabs_pos_eq; lra].
  rewrite (first_step p z P0 0 H1), Rminus_0_r. destruct (Rle_dec tol (Rabs (angle E2 p z (s1 z) wgs84_a))) as [_|G]; [|exfalso; apply G; rewrite Rabs_pos_eq; lra].
  rewrite (step_near p z P0 HR _ _ _ NR), F. assert (Z : Rabs (angle E2 p z (s1 z) wgs84_a - angle E2 p z (s1 z) wgs84_a) = 0) by (rewrite Rminus_diag_eq by reflexivity; apply Rabs_R0).
  destruct n; cbn [lla_loop]; rewrite Z; (destruct (Rle_dec tol 0); [exfalso; lra|reflexivity]).
Qed.
Lemma normal_above s : 0 <= s <= 1 -> Nf wgs84_a E2 s <= wgs84_a * (1 + E2 * s ^ 2 / 2 + 4 / 10 * (E2 * s ^ 2) ^ 2).
Proof.
  intros Hs. pose proof e2_bounds as EB. pose proof a_pos as AP. assert (X : 0 <= E2 * s ^ 2 <= 1 / 100) by (assert (0 <= s ^ 2 <= 1) by (split; nra); split; nra).
  unfold Nf. remember (E2 * s ^ 2) as x. assert (Q : sqrt (1 - x) * sqrt (1 - x) = 1 - x) by (apply sqrt_sqrt; lra). assert (Q0 : 0 < sqrt (1 - x)) by (apply sqrt_lt_R0; lra).
  unfold Rdiv at 1. apply Rmult_le_compat_l; [lra|]. apply Rmult_le_reg_r with (sqrt (1 - x)); [exact Q0|]. rewrite Rinv_l by lra.
  remember (sqrt (1 - x)) as y. remember (1 + x / 2 + 4 / 10 * x ^ 2) as c. assert (C0 : 0 < c) by (rewrite Heqc; nra).
  assert (C2 : 1 <= c * c * (1 - x)).
  { rewrite Heqc. assert (X1 : 0 <= x ^ 2 * (1 / 20)) by nra. assert (0 <= x ^ 2 * (5 / 100 - 65 / 100 * x - 24 / 100 * x ^ 2 - 16 / 100 * x ^ 3)); [|nra]. apply Rmult_le_pos; [nra|]. assert (0 <= x ^ 2 <= 1 / 100) by (split; nra). assert (0 <= x ^ 3 <= 1 / 100) by (split; nra). lra. }
  rewrite <- Q in C2. assert (0 < c * y) by (apply Rmult_lt_0_compat; assumption). nra.
Qed.
Lemma stalled_error l h : - (PI / 2) < l < PI / 2 -> (normal_radius l + h) * cos l = p -> (normal_radius l * (1 - E2) + h) * sin l = z -> 9 / 1000000000 < Rabs (angle E2 p z (s1 z) wgs84_a - l).
Proof.
  intros Hl H1 H2. destruct stalled_p as (P0 & P1 & _). destruct stalled_r as (R0 & R2 & R3). destruct stalled_state as (_ & B & _). pose proof e2_bounds as EB. pose proof a_pos as AP.
  set (N := normal_radius l) in *. set (t := angle E2 p z (s1 z) wgs84_a). destruct (Rlt_dec (9 / 1000000000) (Rabs (t - l))) as [G|G]; [exact G|exfalso].
  assert (D : Rabs (t - l) <= 9 / 1000000000) by lra. clear G.
  destruct (hyp_cos p (7 / 10 * wgs84_a) P0) as [C1 C2]. rewrite <- B in C1, C2 at 1. fold (angle E2 p z (s1 z) wgs84_a) in C1, C2. fold t in C1, C2.
  assert (W0 : 0 < wgs84_a / r) by (apply Rdiv_lt_0_compat; lra). rewrite P1, (sqrt_pow2 (wgs84_a / r)) in C2 by lra.
  assert (CT : p = wgs84_a / r * cos t) by (rewrite <- C2; field; lra).
  assert (ST : 7 / 10 * wgs84_a = wgs84_a / r * sin t).
  { assert (T : tan t = 7 / 10 * wgs84_a / p) by (unfold t, angle; rewrite B; apply tan_atan). unfold tan in T. rewrite <- C2. replace (p / cos t * sin t) with (p * (sin t / cos t)) by (field; lra). rewrite T. field. lra. }
  assert (K : wgs84_a / r * sin (t - l) = E2 * (7 / 10 * wgs84_a - N * sin l) * cos l).
  { rewrite sin_minus. replace (wgs84_a / r * (sin t * cos l - cos t * sin l)) with (wgs84_a / r * sin t * cos l - wgs84_a / r * cos t * sin l) by ring. rewrite <- ST, <- CT, <- H1.
    replace ((N + h) * cos l * sin l) with (((N * (1 - E2) + h) * sin l + E2 * N * sin l) * cos l) by ring. rewrite H2. unfold z. ring. }
  pose proof (sin_lipschitz (t - l) 0) as S0. rewrite sin_0, !Rminus_0_r in S0. pose proof (sin_lipschitz t l) as S1. apply Rabs_le_iff in S0, S1.
  assert (STr : sin t = 7 / 10 * r). { apply Rmult_eq_reg_l with (wgs84_a / r); [|lra]. rewrite <- ST. field. lra. }
  assert (SL : 69 / 100 <= sin l <= 7 / 10 - 1715 / 10000 * E2 + 9 / 1000000000) by lra.
  assert (CL : 71 / 100 <= cos l). { assert (0 < cos l) by (apply cos_gt_0; lra). pose proof (sc l). nra. }
  assert (NS : 15 <= 7 / 10 * wgs84_a - N * sin l).
  { pose proof (normal_above (sin l) ltac:(lra)) as NA. change (Nf wgs84_a E2 (sin l)) with N in NA.
    set (s := sin l) in *. set (S := 7 / 10 - 1715 / 10000 * E2 + 9 / 1000000000) in *.
    assert (M : N * s <= wgs84_a * (1 + E2 * S ^ 2 / 2 + 4 / 10 * (E2 * S ^ 2) ^ 2) * S).
    { apply Rmult_le_compat; [pose proof (normal_bounds l) as NB; fold N in NB; lra|lra| |lra]. eapply Rle_trans; [exact NA|]. apply Rmult_le_compat_l; [lra|].
      assert (Q : 0 <= E2 * s ^ 2 <= E2 * S ^ 2) by (split; [apply Rmult_le_pos; [lra|apply pow2_ge_0]|apply Rmult_le_compat_l; [lra|apply pow_incr; lra]]).
      assert ((E2 * s ^ 2) ^ 2 <= (E2 * S ^ 2) ^ 2) by (apply pow_incr; exact Q). lra. }
    eapply Rle_trans; [|apply Rplus_le_compat_l, Ropp_le_contravar; exact M]. unfold S. rewrite wgs_e2. unfold wgs84_a, wgs84_b. lra. }
  assert (EL : 669 / 100000 <= E2) by (rewrite wgs_e2; unfold wgs84_a, wgs84_b; lra).
  assert (LB : 669 / 100000 * 15 * (71 / 100) <= E2 * (7 / 10 * wgs84_a - N * sin l) * cos l) by (apply Rmult_le_compat; [lra|lra|apply Rmult_le_compat; lra|lra]).
  rewrite <- K in LB.
  assert (UB : wgs84_a / r * sin (t - l) <= 64 / 10 * 1000000 * (9 / 1000000000)).
  { apply Rle_trans with (wgs84_a / r * (9 / 1000000000)); [apply Rmult_le_compat_l; lra|]. apply Rmult_le_compat_r; [lra|]. apply Rmult_le_reg_r with r; [lra|]. unfold Rdiv at 1. rewrite Rmult_assoc, Rinv_l by lra. unfold wgs84_a. lra. }
  lra.
Qed.
End Stalled.
Theorem C56_accuracy_refuted : exists x z lat lon alt lat',
  -90 < lat < 90 /\ -180 < lon <= 180 /\ -3000000 <= alt /\ lla2ecef (V lat lon alt) = Ret (V x 0 z) /\ 4 / 10000000 < Rabs (lat' - lat) /\
  forall tol n, 0 < tol <= 1 / 10 -> (2 <= n)%nat -> exists lon' alt', ecef2lla n (V x 0 z) tol = Some (Ret (V lat' lon' alt')).
Proof.
  destruct stalled_p as (P0 & P1 & _). destruct stalled_r as (R0 & R2 & R3). pose proof e2_bounds as EB. pose proof a_pos as AP.
  pose proof stalled_loop as SLp. pose proof stalled_error as SE. set (p := wgs84_a * sqrt _) in *. set (z := 7 / 10 * (wgs84_a * (1 - E2))) in *. clearbody p. set (t := angle E2 p z (s1 z) wgs84_a) in *.
  assert (HX : p <> 0 \/ 0 <> 0) by (left; lra).
  set (r := sqrt (1 - 49 / 100 * E2)) in *. assert (W1 : wgs84_a <= wgs84_a / r) by (apply Rmult_le_reg_r with r; [lra|]; unfold Rdiv; rewrite Rmult_assoc, Rinv_l by lra; nra).
  assert (HR : 3401000 ^ 2 <= p ^ 2 + 0 ^ 2 + z ^ 2).
  { assert (wgs84_a ^ 2 <= (wgs84_a / r) ^ 2) by (apply pow_incr; lra). assert (0 <= z ^ 2) by apply pow2_ge_0. unfold wgs84_a in *. nra. }
  destruct (C58_coordinates_exist p 0 z HX HR) as (lat & lon & alt & Hl & Hm & Hh & Q). exists p, z, lat, lon, alt, (rad2deg t).
  repeat (split; [assumption|]). assert (SP : sqrt (p ^ 2 + 0 ^ 2) = p) by (replace (p ^ 2 + 0 ^ 2) with (p ^ 2) by ring; apply sqrt_pow2; lra). split.
  - destruct (truth_low (deg2rad lat) alt (deg_range _ Hl) Hh) as (HC & HP & A & B & _). pose proof Q as Q0. rewrite lla2ecef_is in Q. cbn [vx vy vz] in Q. set (l := deg2rad lat) in *. set (m := deg2rad lon) in *. injection Q as Q1 Q2 Q3.
    assert (PE : (normal_radius l + alt) * cos l = p).
    { rewrite <- SP, <- Q1, <- Q2. replace (((normal_radius l + alt) * cos l * cos m) ^ 2 + ((normal_radius l + alt) * cos l * sin m) ^ 2) with (((normal_radius l + alt) * cos l) * ((normal_radius l + alt) * cos l) * (sin m * sin m + cos m * cos m)) by ring.
      rewrite sc, Rmult_1_r. symmetry. apply sqrt_square. lra. }
    specialize (SE l alt (deg_range _ Hl) PE Q3).
    replace (rad2deg t - lat) with ((t - l) * (180 / PI)) by (rewrite <- (proj1 (C45_angles lat)); unfold l, rad2deg; field; apply PI_neq0).
    pose proof PI_RGT_0. pose proof PI_4 as P4. assert (45 <= 180 / PI) by (apply Rmult_le_reg_r with PI; [assumption|]; unfold Rdiv; rewrite Rmult_assoc, Rinv_l by lra; lra).
    rewrite Rabs_mult, (Rabs_pos_eq (180 / PI)) by lra. nra.
  - intros tol n Ht Hn. destruct n as [|[|n]]; [lia|lia|]. rewrite (ecef2lla_loop _ p 0 z tol HX), SP. destruct (SLp tol n Ht) as (h & ->). eexists. eexists. reflexivity.
Qed.

(** a flight at 11 km above the sea, and a geostationary satellite *)
Example C56_case : (exists r, ecef2lla 6 (V (6378137 + 11000) 0 0) (1 / 1000000000) = Some (Ret r)) /\
  (exists k r, forall n, (k <= n)%nat -> ecef2lla n (V 42164000 0 1000000) (1 / 1000000000) = Some (Ret r)) /\
  ecef2lla 9 (V 42164000 0 80000000) (1 / 1000000000) = Some (Raise MathDomain).
Proof.
  split; [|split].
  - destruct (C48_equator 5 0 11000 (1 / 1000000000) ltac:(lra) ltac:(unfold wgs84_a; lra) ltac:(lra)) as (q & Q & _ & R). rewrite lla2ecef_is in Q. cbn [vx vy vz] in Q.
    assert (Z0 : deg2rad 0 = 0) by (unfold deg2rad; lra). rewrite Z0 in Q.
    assert (N0 : normal_radius 0 = wgs84_a) by (unfold normal_radius; rewrite sin_0; replace (1 - wgs84_e ^ 2 * 0 ^ 2) with 1 by ring; rewrite sqrt_1; field).
    rewrite N0, cos_0, sin_0, !Rmult_0_r, !Rmult_1_r in Q. injection Q as <-. eexists. exact R.
  - apply C56_always_terminates_partial; [left; lra|lra|rewrite Rabs_pos_eq; lra|lra].
  - apply (C56_domain_refuted 42164000 0 80000000 (1 / 1000000000) 8); [left; lra|rewrite Rabs_pos_eq; lra|lra].
Qed.
Example C56_near_surface_case : exists q r, lla2ecef (V (525 / 10) (134 / 10) 34) = Ret q /\ ecef2lla 6 q (1 / 1000000000) = Some (Ret r) /\ vy r = 134 / 10 /\ Rabs (vx r - 525 / 10) <= 65 / 100000.
Proof.
  destruct (C56_near_surface_partial (525 / 10) (134 / 10) 34 ltac:(lra) ltac:(lra) ltac:(rewrite Rabs_pos_eq; lra)) as (q & r & Q & R & A & B & _). exists q, r. split; [exact Q|]. split; [apply R; lia|]. split; [exact A|exact B].
Qed.
(** a position and a tolerance for which two iterations are not enough *)
Example C56_converges_case : exists lat lon alt q tol n r, -90 < lat < 90 /\ -180 < lon <= 180 /\ -3000000 <= alt <= 53000000 /\ 0 < tol <= 90 /\
  lla2ecef (V lat lon alt) = Ret q /\ ecef2lla (0 + 2) q tol = None /\ ecef2lla n q tol = Some (Ret r).
Proof.
  pose proof e2_bounds as EB. pose proof a_pos as AP. set (p := wgs84_a). set (z := 7 / 10 * (wgs84_a * (1 - E2))).
  assert (ZB : 0 < z <= 45 / 10 * 1000000) by (unfold z, wgs84_a in *; split; nra).
  assert (HX : p <> 0 \/ 0 <> 0) by (left; unfold p; lra). assert (HR : 3401000 ^ 2 <= p ^ 2 + 0 ^ 2 + z ^ 2) by (assert (0 <= z ^ 2) by apply pow2_ge_0; unfold p, wgs84_a in *; lra).
  assert (SP : sqrt (p ^ 2 + 0 ^ 2) = p) by (replace (p ^ 2 + 0 ^ 2) with (p ^ 2) by ring; apply sqrt_pow2; unfold p; lra).
  assert (HR' : (wgs84_a / 2) ^ 2 <= p ^ 2 + z ^ 2) by (assert (0 <= z ^ 2) by apply pow2_ge_0; unfold p, wgs84_a in *; lra).
  assert (A : s1 z = 7 / 10) by (unfold s1, z; field; split; lra). assert (B : uf E2 z (s1 z) wgs84_a = 7 / 10 * wgs84_a) by (unfold uf; rewrite A; unfold z; ring).
  assert (H1 : 0 < 1 - E2 * s1 z ^ 2) by (rewrite A; lra).
  assert (NR : near wgs84_a z (s1 z) wgs84_a) by (split; [rewrite A, Rabs_pos_eq; lra|split; [apply s1_sign|lra]]).
  set (t1 := angle E2 p z (s1 z) wgs84_a). set (t2 := angle E2 p z (next wgs84_a E2 p z (s1 z) wgs84_a) (Nf wgs84_a E2 (s1 z))).
  assert (T1 : t1 <> 0). { unfold t1, angle. rewrite B. apply Rgt_not_eq. rewrite <- atan_0. apply atan_increasing. unfold p. replace (7 / 10 * wgs84_a / wgs84_a) with (7 / 10) by (field; lra). lra. }
  assert (T2 : t2 <> t1).
  { unfold t1, t2, angle. intros H. assert (U : uf E2 z (next wgs84_a E2 p z (s1 z) wgs84_a) (Nf wgs84_a E2 (s1 z)) = 7 / 10 * wgs84_a).
    { rewrite <- B. apply (f_equal tan) in H. rewrite !tan_atan in H. apply Rmult_eq_reg_r with (/ p); [exact H|]. apply Rinv_neq_0_compat. unfold p. lra. }
    destruct (Nf_small wgs84_a E2 AP EB (s1 z) ltac:(apply NR)) as (_ & N1 & N2). set (n := Nf wgs84_a E2 (s1 z)) in *.
    assert (W : 11 / 10 * wgs84_a <= wf E2 p z (s1 z) wgs84_a). { unfold wf. rewrite B. rewrite <- (sqrt_square (11 / 10 * wgs84_a)) by lra. apply sqrt_le_1; unfold p; nra. }
    unfold uf, next, Df in U. fold n in U. remember (wf E2 p z (s1 z) wgs84_a) as w. assert (D0 : 0 < w - E2 * n) by nra.
    assert (V : E2 * n * z = E2 * (7 / 10 * wgs84_a) * (w - E2 * n)). { assert (E2 * n * (z / (w - E2 * n)) = E2 * (7 / 10 * wgs84_a)) by (unfold z in U |- *; lra). rewrite <- H0. field. lra. }
    assert (V2 : n * (1 - E2) = w - E2 * n). { apply Rmult_eq_reg_l with (E2 * (7 / 10 * wgs84_a)); [|apply Rgt_not_eq; nra]. rewrite <- V. unfold z. ring. }
    lra. }
  set (tol := Rmin (1 / 10) (Rmin (Rabs t1) (Rabs (t2 - t1)))).
  assert (HT : 0 < tol /\ tol <= 1 / 10 /\ tol <= Rabs t1 /\ tol <= Rabs (t2 - t1)).
  { assert (0 < Rabs t1) by now apply Rabs_pos_lt. assert (0 < Rabs (t2 - t1)) by (apply Rabs_pos_lt; lra). unfold tol. repeat split; unfold Rmin; repeat destruct (Rle_dec _ _); lra. }
  destruct HT as (T3 & T4 & T5 & T6). clearbody tol.
  destruct (C58_coordinates_exist p 0 z HX HR) as (lat & lon & alt & Hl & Hm & Hh & Q).
  assert (HZ : Rabs z <= 60000000) by (rewrite Rabs_pos_eq; lra).
  destruct (C56_always_terminates_partial p 0 z tol HX ltac:(unfold wgs84_a in HR'; lra) HZ T3) as (k & r & K).
  exists lat, lon, alt, (V p 0 z), tol, k, r. split; [exact Hl|]. split; [exact Hm|]. split; [split; [exact Hh|]|split; [lra|split; [exact Q|split; [|apply K; lia]]]].
  - destruct (truth_low (deg2rad lat) alt (deg_range _ Hl) Hh) as (HC & HP & X1 & X2 & _). rewrite lla2ecef_is in Q. cbn [vx vy vz] in Q. set (l := deg2rad lat) in *. set (m := deg2rad lon) in *.
    pose proof (f_equal (fun v => match v with Ret q => vx q * vx q + vy q * vy q | _ => 0 end) Q) as Q1. pose proof (f_equal (fun v => match v with Ret q => vz q | _ => 0 end) Q) as Q2. cbn [vx vy vz] in Q1, Q2.
    set (N := normal_radius l) in *. pose proof (normal_bounds l) as NB. fold N in NB.
    assert (P2 : (N + alt) * cos l * ((N + alt) * cos l) = p * p). { replace ((N + alt) * cos l * ((N + alt) * cos l)) with ((N + alt) * cos l * ((N + alt) * cos l) * (sin m * sin m + cos m * cos m)) by (rewrite sc; ring). lra. }
    destruct (Rle_dec alt 53000000) as [G|G]; [exact G|exfalso]. assert (NE : 0 < N * (1 - E2)) by nra. pose proof (sc l) as SC.
    assert (C2 : 53000000 * 53000000 * (cos l * cos l) <= p * p) by (rewrite <- P2; replace ((N + alt) * cos l * ((N + alt) * cos l)) with ((N + alt) * (N + alt) * (cos l * cos l)) by ring; apply Rmult_le_compat_r; [nra|apply Rmult_le_compat; lra]).
    assert (S2 : 53000000 * 53000000 * (sin l * sin l) <= z * z) by (rewrite <- Q2; replace ((N * (1 - E2) + alt) * sin l * ((N * (1 - E2) + alt) * sin l)) with ((N * (1 - E2) + alt) * (N * (1 - E2) + alt) * (sin l * sin l)) by ring; apply Rmult_le_compat_r; [nra|apply Rmult_le_compat; lra]).
    assert (PP : p * p <= 7000000 * 7000000) by (unfold p, wgs84_a; lra). assert (ZZ : z * z <= 5000000 * 5000000) by (apply Rmult_le_compat; lra).
    clear - C2 S2 PP ZZ SC. nra.
  - rewrite (ecef2lla_loop _ p 0 z tol HX), SP. cbn [Nat.add lla_loop]. destruct (Rle_dec tol (Rabs (0 - 90))) as [_|G]; [|exfalso; apply G; rewrite Rabs_minus_sym, Rabs_pos_eq; lra].
    rewrite (first_step p z ltac:(unfold p; lra) 0 H1), Rminus_0_r. fold t1. destruct (Rle_dec tol (Rabs t1)) as [_|G]; [|contradiction].
    rewrite (step_near p z ltac:(unfold p; lra) HR' _ _ _ NR). fold t2. destruct (Rle_dec tol (Rabs (t2 - t1))) as [_|G]; [reflexivity|contradiction].
Qed.

Example C58_case : exists lat lon alt, -90 < lat < 90 /\ -180 < lon <= 180 /\ -3000000 <= alt /\ lla2ecef (V lat lon alt) = Ret (V 1917032 6029782 801457).
Proof. apply C58_coordinates_exist; [left; lra|lra]. Qed.

Definition all_PropConv := (C56_terminates_partial, C56_always_terminates_partial, C56_converges_partial, C56_near_surface_partial, C56_domain_refuted, C56_accuracy_refuted, C58_coordinates_exist, C58_coordinates_unique).
Print Assumptions all_PropConv.
