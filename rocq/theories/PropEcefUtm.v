(** C85: UTM coordinates of a position given in Earth-centred coordinates, in double precision *)
From Coq Require Import Reals ZArith Lra Lia List Ascii String.
From Flocq Require Import Core Binary Bits.
From Verif Require Import Real3 RangeCoordinates PropGeo PropUtm UtmShape UtmDeriv PropTm Conv PropConv Float64 DeadReckoning64 Range64 FloatErr PropDR64 PropDR64b FloatAbs PropRange64 RangeErr PropLla64 Utm64 UtmErr UtmTerms PropUtm64.
Local Open Scope R_scope.

(** ** Over the reals: nearby places have nearby coordinates *)
Definition r_max : R := 6399594.
Lemma normal_up l : normal_radius l <= r_max.
Proof.
  pose proof (radicand l) as Q. pose proof e2_bounds as EB. pose proof (sin_sq_le l) as SQ. unfold normal_radius. unfold UtmDeriv.e2 in EB.
  assert (S : 6378137 / 6399594 <= sqrt (1 - wgs84_e ^ 2 * sin l ^ 2)).
  { rewrite <- (sqrt_square (6378137 / 6399594)) by lra. apply sqrt_le_1_alt. rewrite wgs_e2. assert (B : 0 <= 1 - (wgs84_b / wgs84_a) ^ 2) by (rewrite <- wgs_e2; lra).
    apply Rle_trans with (1 - (1 - (wgs84_b / wgs84_a) ^ 2) * 1); [unfold wgs84_a, wgs84_b; lra|]. apply Rplus_le_compat_l, Ropp_le_contravar, Rmult_le_compat_l; lra. }
  apply Rmult_le_reg_r with (sqrt (1 - wgs84_e ^ 2 * sin l ^ 2)); [lra|]. unfold Rdiv. rewrite Rmult_assoc, Rinv_l by lra. unfold wgs84_a, r_max. lra.
Qed.
Lemma meridian_up l : meridian_radius l <= r_max.
Proof.
  pose proof (normal_up l) as N. pose proof (radius_ratio l) as Q. pose proof (meridian_pos l) as P. pose proof ep2_bounds. pose proof (sin_sq_le l). rewrite Q in N.
  assert (0 <= meridian_radius l * (ep2 * (1 - sin l ^ 2))) by (apply Rmult_le_pos; [lra|apply Rmult_le_pos; lra]). lra.
Qed.

Lemma d_kk F P w t P' w' : derivable_pt_lim P t P' -> derivable_pt_lim w t w' -> derivable_pt_lim (fun s => kk F (P s) (w s)) t (kkS F (P t) (w t) * P' + kku F (P t) (w t) * w').
Proof. intros HP Hw. unfold kk. eapply c_eq; [diff|]. unfold kkS, kku. cbn [INR Nat.pred pow]. field. Qed.

(** on the straight way between two places *)
Lemma way (G G' : R -> R) B : (forall t, 0 <= t <= 1 -> derivable_pt_lim G t (G' t) /\ Rabs (G' t) <= B) -> Rabs (G 1 - G 0) <= B.
Proof. intros H. destruct (MVT_cor2 G G' 0 1 ltac:(lra)) as (c & E & Hc); [intros c Hc; apply H; exact Hc|]. rewrite E. replace (G' c * (1 - 0)) with (G' c) by ring. apply H. lra. Qed.

Section Near.
Variables l1 l2 d1 d2 y D : R.
Hypothesis HD : Rabs d1 <= D. Hypothesis HD2 : Rabs d2 <= D. Hypothesis HDD : D <= 10472 / 100000.
(** [y] bounds the off-diagonal term *)
Hypothesis HY : forall l d, Rabs d <= D -> Rabs (yl l d) <= y.
Let p t := l1 + t * (l2 - l1). Let q t := d1 + t * (d2 - d1).
Let dp t : derivable_pt_lim p t (l2 - l1).
Proof. unfold p. eapply c_eq; [apply c_plus; [apply c_const|apply c_mult; [apply derivable_pt_lim_id|apply c_const]]|]. unfold id. ring. Qed.
Let dq t : derivable_pt_lim q t (d2 - d1).
Proof. unfold q. eapply c_eq; [apply c_plus; [apply c_const|apply c_mult; [apply derivable_pt_lim_id|apply c_const]]|]. unfold id. ring. Qed.
Let qb t : 0 <= t <= 1 -> Rabs (q t) <= D.
Proof. intros H. apply Rabs_le_inv in HD, HD2. apply Rabs_le. unfold q. split; nra. Qed.
Lemma xs_up l d : Rabs d <= D -> Rabs (xs l d) <= 10056 / 10000 /\ Rabs (ex l d) <= 1 / 1000000000 /\ Rabs (xs l d + ey l d) <= 10056 / 10000.
Proof.
  intros H. assert (H' : Rabs d <= 10472 / 100000) by lra. destruct (near_6 l d H') as (_ & _ & EX & EY & _). assert (DD : d ^ 2 <= 10967 / 1000000) by (apply sq_le in H'; lra). destruct (ep_case l d _ DD) as (A & B & C).
  pose proof (xl_6 _ _ _ A B C) as X. fold (xs l d) in X. apply Rabs_le_inv in X. apply Rabs_le_inv in EY. split; [apply Rabs_le; lra|]. split; [exact EX|apply Rabs_le; lra].
Qed.
Lemma ra_up l : Rabs (ra l) <= r_max.
Proof. unfold ra. rewrite Rabs_mult. pose proof (normal_pos l). pose proof (normal_up l). rewrite (Rabs_pos_eq (normal_radius l)) by lra. assert (Rabs (cos l) <= 1) by (pose proof (COS_bound l); apply Rabs_le; lra). pose proof (Rabs_pos (cos l)). nra. Qed.
Lemma prod_le a b A B : Rabs a <= A -> Rabs b <= B -> Rabs (a * b) <= A * B.
Proof. intros. rewrite Rabs_mult. apply Rmult_le_compat; auto using Rabs_pos. Qed.
Lemma gx_near : Rabs (gx l2 d2 - gx l1 d1) <= r_max * (10056 / 10000 * Rabs (d2 - d1) + (y + 1 / 1000000000) * Rabs (l2 - l1)).
Proof.
  replace (gx l2 d2) with (gx (p 1) (q 1)) by (unfold p, q; f_equal; ring). replace (gx l1 d1) with (gx (p 0) (q 0)) by (unfold p, q; f_equal; ring).
  apply (way (fun t => gx (p t) (q t)) (fun t => k0 * (xs (p t) (q t) * (ra (p t) * (d2 - d1)) + (- yl (p t) (q t) + ex (p t) (q t)) * (meridian_radius (p t) * (l2 - l1))))).
  intros t Ht. split; [exact (d_gx p q t _ _ (dp t) (dq t))|]. pose proof (qb t Ht) as QB. destruct (xs_up (p t) (q t) QB) as (X & EX & _). pose proof (HY (p t) _ QB) as YB. pose proof (ra_up (p t)) as RB.
  assert (MB : Rabs (meridian_radius (p t)) <= r_max) by (rewrite Rabs_pos_eq; [apply meridian_up|left; apply meridian_pos]).
  assert (YE : Rabs (- yl (p t) (q t) + ex (p t) (q t)) <= y + 1 / 1000000000) by (eapply Rle_trans; [apply Rabs_triang|]; rewrite Rabs_Ropp; lra).
  pose proof (prod_le _ _ _ _ X (prod_le _ _ _ _ RB (Rle_refl (Rabs (d2 - d1))))) as T1. pose proof (prod_le _ _ _ _ YE (prod_le _ _ _ _ MB (Rle_refl (Rabs (l2 - l1))))) as T2.
  match goal with |- Rabs (k0 * (?a + ?b)) <= _ => set (u := a) in *; set (v := b) in * end. rewrite Rabs_mult, (Rabs_pos_eq k0) by (unfold k0; lra). pose proof (Rabs_triang u v). pose proof (Rabs_pos (u + v)). unfold k0. lra.
Qed.
Lemma gy_near : Rabs (gy l2 d2 - gy l1 d1) <= r_max * (y * Rabs (d2 - d1) + 10056 / 10000 * Rabs (l2 - l1)) * (9996 / 10000).
Proof.
  replace (gy l2 d2) with (gy (p 1) (q 1)) by (unfold p, q; f_equal; ring). replace (gy l1 d1) with (gy (p 0) (q 0)) by (unfold p, q; f_equal; ring).
  apply (way (fun t => gy (p t) (q t)) (fun t => k0 * (yl (p t) (q t) * (ra (p t) * (d2 - d1)) + (xs (p t) (q t) + ey (p t) (q t)) * (meridian_radius (p t) * (l2 - l1))))).
  intros t Ht. split. { eapply c_eq; [exact (d_gy p q t _ _ (dp t) (dq t))|]. cbv zeta. fold (ms (p t)). unfold ey. ring. }
  pose proof (qb t Ht) as QB. destruct (xs_up (p t) (q t) QB) as (_ & _ & X). pose proof (HY (p t) _ QB) as YB. pose proof (ra_up (p t)) as RB.
  assert (MB : Rabs (meridian_radius (p t)) <= r_max) by (rewrite Rabs_pos_eq; [apply meridian_up|left; apply meridian_pos]).
  pose proof (prod_le _ _ _ _ YB (prod_le _ _ _ _ RB (Rle_refl (Rabs (d2 - d1))))) as T1. pose proof (prod_le _ _ _ _ X (prod_le _ _ _ _ MB (Rle_refl (Rabs (l2 - l1))))) as T2.
  match goal with |- Rabs (k0 * (?a + ?b)) <= _ => set (u := a) in *; set (v := b) in * end. rewrite Rabs_mult, (Rabs_pos_eq k0) by (unfold k0; lra). pose proof (Rabs_triang u v). pose proof (Rabs_pos (u + v)). unfold k0. lra.
Qed.
Lemma gk_near : Rabs (gk l2 d2 - gk l1 d1) <= 564 / 100000 * Rabs (l2 - l1) + 11 / 100 * Rabs (d2 - d1).
Proof.
  replace (gk l2 d2) with (gk (p 1) (q 1)) by (unfold p, q; f_equal; ring). replace (gk l1 d1) with (gk (p 0) (q 0)) by (unfold p, q; f_equal; ring).
  assert (HS : forall t, derivable_pt_lim (fun s => sin (p s) ^ 2) t (sin (2 * p t) * (l2 - l1))) by (intros t; eapply c_eq; [apply c_pow, c_sin, dp|cbn [INR Nat.pred pow]; rewrite sin_2a; ring]).
  assert (Hu : forall t, derivable_pt_lim (fun s => q s ^ 2) t (2 * q t * (d2 - d1))) by (intros t; eapply c_eq; [apply c_pow, dq|cbn [INR Nat.pred pow]; ring]).
  apply (way (fun t => gk (p t) (q t)) (fun t => 0 * kk ep2 (sin (p t) ^ 2) (q t ^ 2) + k0 * (kkS ep2 (sin (p t) ^ 2) (q t ^ 2) * (sin (2 * p t) * (l2 - l1)) + kku ep2 (sin (p t) ^ 2) (q t ^ 2) * (2 * q t * (d2 - d1))))).
  intros t Ht. split. { unfold gk. apply (c_mult (fun _ => k0) (fun s => kk ep2 (sin (p s) ^ 2) (q s ^ 2))); [apply c_const|]. exact (d_kk ep2 (fun s => sin (p s) ^ 2) (fun s => q s ^ 2) t _ _ (HS t) (Hu t)). }
  pose proof (qb t Ht) as QB. assert (H' : Rabs (q t) <= 10472 / 100000) by lra. assert (DD : q t ^ 2 <= 10967 / 1000000) by (apply sq_le in H'; lra). destruct (ep_case (p t) (q t) _ DD) as (A & B & C).
  pose proof (kkS_6 _ _ _ A B C) as KS. pose proof (kku_6 _ _ _ A B C) as KU. rewrite Rminus_0_r in KS, KU. assert (SB : Rabs (sin (2 * p t)) <= 1) by (pose proof (SIN_bound (2 * p t)); apply Rabs_le; lra).
  assert (Q2 : Rabs (2 * q t) <= 2 * (10472 / 100000)) by (rewrite Rabs_mult, (Rabs_pos_eq 2) by lra; lra).
  pose proof (prod_le _ _ _ _ KS (prod_le _ _ _ _ SB (Rle_refl (Rabs (l2 - l1))))) as T1. pose proof (prod_le _ _ _ _ KU (prod_le _ _ _ _ Q2 (Rle_refl (Rabs (d2 - d1))))) as T2.
  rewrite Rmult_0_l, Rplus_0_l. match goal with |- Rabs (k0 * (?a + ?b)) <= _ => set (u := a) in *; set (v := b) in * end. rewrite Rabs_mult, (Rabs_pos_eq k0) by (unfold k0; lra). pose proof (Rabs_triang u v). pose proof (Rabs_pos (u + v)).
  pose proof (Rabs_pos (d2 - d1)). pose proof (Rabs_pos (l2 - l1)). unfold k0. lra.
Qed.
End Near.
Lemma yl_6 l d : Rabs d <= 10472 / 100000 -> Rabs (yl l d) <= 106 / 1000.
Proof.
  intros H. assert (DD : d ^ 2 <= 10967 / 1000000) by (apply sq_le in H; lra). destruct (ep_case l d _ DD) as (A & B & C). pose proof (ggu_6 _ _ _ A B C) as G. rewrite Rminus_0_r in G. unfold yl.
  assert (SB : Rabs (sin l) <= 1) by (pose proof (SIN_bound l); apply Rabs_le; lra). assert (G2 : Rabs (2 * ggu ep2 (sin l ^ 2) (d ^ 2)) <= 2 * (253 / 500)) by (rewrite Rabs_mult, (Rabs_pos_eq 2) by lra; lra).
  pose proof (prod_le _ _ _ _ (prod_le _ _ _ _ SB H) G2). lra.
Qed.
Lemma yl_3 l d : Rabs d <= 5237 / 100000 -> Rabs (yl l d) <= 53 / 1000.
Proof.
  intros H. assert (D6 : Rabs d <= 10472 / 100000) by lra. assert (D0 : d ^ 2 <= 10967 / 1000000) by (apply sq_le in D6; lra). assert (DD : d ^ 2 <= 27427 / 10000000) by (apply sq_le in H; lra).
  destruct (ep_case l d _ D0) as (A & B & C). pose proof (ggu_6 _ _ _ A B C) as G. rewrite Rminus_0_r in G. unfold yl.
  assert (SB : Rabs (sin l) <= 1) by (pose proof (SIN_bound l); apply Rabs_le; lra). assert (G2 : Rabs (2 * ggu ep2 (sin l ^ 2) (d ^ 2)) <= 2 * (253 / 500)) by (rewrite Rabs_mult, (Rabs_pos_eq 2) by lra; lra).
  pose proof (prod_le _ _ _ _ (prod_le _ _ _ _ SB H) G2). lra.
Qed.

(** ** From the machine's geodetic coordinates to the grid *)
Lemma terms_grid lat lon z : let t := terms_of lat lon z in (tm_x t, tm_y t, tm_k t) = grid (deg2rad lat) (deg2rad (lon - central_meridian z)).
Proof.
  unfold grid. cbv zeta. change (wgs84_a / sqrt (1 - wgs84_e ^ 2 * sin (deg2rad lat) ^ 2)) with (normal_radius (deg2rad lat)).
  replace (deg2rad (lon - central_meridian z)) with (deg2rad lon - deg2rad (IZR ((z - 1) * 6 - 180 + 3))).
  2: { unfold deg2rad, central_meridian. rewrite plus_IZR, minus_IZR, mult_IZR, minus_IZR. field. }
  unfold terms_of. cbv zeta. cbn [tm_x tm_y tm_k]. apply f_equal2; [apply f_equal2|]; unfold Rdiv; ring.
Qed.
Lemma utm_gs lat lon z : Rabs lat <= 84 -> let t := terms_of lat lon z in let l := deg2rad lat in let d := deg2rad (lon - central_meridian z) in tm_x t = gx l d /\ tm_y t = gy l d /\ tm_k t = gk l d.
Proof.
  intros H t l d. pose proof (terms_grid lat lon z) as G. cbv zeta in G. fold t l d in G. rewrite grid_poly in G by (pose proof (cos_84 lat H); unfold l; lra).
  split; [exact (f_equal (fun v => fst (fst v)) G)|]. split; [exact (f_equal (fun v => snd (fst v)) G)|exact (f_equal snd G)].
Qed.

Section Whole.
Variable J : projlib.
Hypothesis AJ : accurate_proj J.
Let L := j_math J.

(** a machine position close to the true one, in the same zone: what lla2utm returns for it *)
Lemma close_grid lla lat lon z : fin (fx lla) -> fin (fy lla) -> Rabs lat <= 8399 / 100 -> Rabs lon <= 180 -> Rabs (val (fx lla) - lat) <= 65 / 100000 -> Rabs (val (fy lla) - lon) <= 1000 / 2 ^ 53 -> Rabs (val (fy lla)) <= 180 ->
  (1 <= z <= 60)%Z -> Rabs (lon - central_meridian z) <= 6 -> Rabs (val (fy lla) - central_meridian z) <= 6 -> utm_zone64 (fx lla) (fy lla) = GRet z ->
  let l := deg2rad lat in let d := deg2rad (lon - central_meridian z) in let h := Rabs (val (fx lla) - lat) in
  exists r, lla2utm64 J lla = GRet r /\ utm_alt64 r = fz lla /\ utm_zone_name64 r = zone_text z (utmLetterDesignator (val (fx lla))) /\
    within (utm_x64 r) (gx l d) (11842 * h + / 10 ^ 6) /\ (Rabs (lon - central_meridian z) <= 3 -> within (utm_x64 r) (gx l d) (5922 * h + / 10 ^ 6)) /\
    within (utm_y64 r) (gy l d) (112276 * h + / 10 ^ 6) /\ within (utm_k64 r) (gk l d) (h / 10000 + / 10 ^ 14).
Proof.
  intros F1 F2 H1 H2 D1 D2 H3 Hz C1 C2 Z l d h. assert (H1' : Rabs (val (fx lla)) <= 84) by (apply Rabs_le_inv in H1, D1; apply Rabs_le; lra).
  destruct (projected J AJ lla z F1 F2 H1' H3 ltac:(lia) C2 Z) as (x & y & k & E & [FX X] & [FY Y] & [FK K]). destruct (utm_gs (val (fx lla)) (val (fy lla)) z H1') as (TX & TY & TK).
  rewrite TX in X. rewrite TY in Y. rewrite TK in K. clear TX TY TK. set (l' := deg2rad (val (fx lla))) in *. set (d' := deg2rad (val (fy lla) - central_meridian z)) in *.
  exists (UTM64 x y (fz lla) (zone_text z (utmLetterDesignator64 (fx lla))) k). split; [exact E|]. cbn [utm_alt64 utm_zone_name64 utm_x64 utm_y64 utm_k64]. split; [reflexivity|]. split; [now rewrite letter_ok|].
  pose proof pi_digits as PD. assert (RB : forall a, Rabs (deg2rad a) = Rabs a * (PI / 180)) by (intros a; rewrite deg2rad_is, Rabs_mult, (Rabs_pos_eq (PI / 180)); lra).
  assert (M : forall a b, deg2rad a - deg2rad b = deg2rad (a - b)) by (intros; rewrite !deg2rad_is; ring).
  assert (LL : Rabs (l' - l) <= h * (17453293 / 1000000000)) by (unfold l', l; rewrite M, RB; fold h; apply Rmult_le_compat_l; [apply Rabs_pos|lra]).
  assert (DD : Rabs (d' - d) <= 2 / 10 ^ 15).
  { unfold d', d. rewrite M, RB. replace (val (fy lla) - central_meridian z - (lon - central_meridian z)) with (val (fy lla) - lon) by ring. apply Rle_trans with (1000 / 2 ^ 53 * (PI / 180)); [apply Rmult_le_compat_r; lra|].
    replace (2 ^ 53) with 9007199254740992 by lra. lra. }
  assert (B1 : Rabs d <= 10472 / 100000) by (unfold d; rewrite RB; apply Rle_trans with (6 * (PI / 180)); [apply Rmult_le_compat_r; lra|lra]).
  assert (B2 : Rabs d' <= 10472 / 100000) by (unfold d'; rewrite RB; apply Rle_trans with (6 * (PI / 180)); [apply Rmult_le_compat_r; lra|lra]).
  assert (h0 : 0 <= h) by apply Rabs_pos. pose proof (Rabs_pos (l' - l)) as L0. pose proof (Rabs_pos (d' - d)) as D0.
  assert (TR : forall v w g t a b, Rabs (v - w) <= a -> Rabs (w - g) <= b -> a + b <= t -> Rabs (v - g) <= t) by (intros v w g t a b Ha Hb Ht; replace (v - g) with (v - w + (w - g)) by ring; eapply Rle_trans; [apply Rabs_triang|lra]).
  split; [|split; [|split]].
  - split; [exact FX|]. pose proof (gx_near l l' d d' _ _ B1 B2 (Rle_refl _) yl_6) as G. eapply TR; [exact X|exact G|]. unfold r_max. lra.
  - intros C3. split; [exact FX|]. assert (B3 : Rabs d <= 5237 / 100000) by (unfold d; rewrite RB; apply Rle_trans with (3 * (PI / 180)); [apply Rmult_le_compat_r; lra|lra]).
    assert (B4 : Rabs d' <= 5237 / 100000) by (replace d' with (d + (d' - d)) by ring; eapply Rle_trans; [apply Rabs_triang|]; assert (Rabs d <= 52361 / 1000000) by (unfold d; rewrite RB; apply Rle_trans with (3 * (PI / 180)); [apply Rmult_le_compat_r; lra|lra]); lra).
    pose proof (gx_near l l' d d' _ _ B3 B4 ltac:(lra) yl_3) as G. eapply TR; [exact X|exact G|]. unfold r_max. lra.
  - split; [exact FY|]. pose proof (gy_near l l' d d' _ _ B1 B2 (Rle_refl _) yl_6) as G. eapply TR; [exact Y|exact G|]. unfold r_max. lra.
  - split; [exact FK|]. pose proof (gk_near l l' d d' _ B1 B2 (Rle_refl _)) as G. eapply TR; [exact K|exact G|]. lra.
Qed.

(** Away from the borders of its zone, a position up to 150 km above or below the ellipsoid is projected to within 8 m in x (4 m within three degrees of the central meridian), 73 m in y, 70 m in altitude and a ten-millionth in the scale, and given the zone of
    the exact position; with each further pass of the loop of ecef2lla the bounds on x and y become forty times smaller. *)
Theorem C85_accuracy e lat lon alt z : fin3 e -> Rabs lat <= 8399 / 100 -> -180 < lon < 180 -> Rabs alt <= 150000 -> lla2ecef (V lat lon alt) = Ret (real3 e) ->
  (forall lat' lon', Rabs (lat' - lat) <= 65 / 100000 -> Rabs (lon' - lon) <= / 10 ^ 12 -> in_zone lat' lon' z) ->
  exists r q, (forall n, (6 <= n)%nat -> ecef2utm64 J n e = Some (GRet r)) /\ lla2utm (V lat lon alt) = Ret q /\
    within (utm_x64 r) (utm_x q) 8 /\ (Rabs (lon - central_meridian z) <= 3 -> within (utm_x64 r) (utm_x q) 4) /\ within (utm_y64 r) (utm_y q) 73 /\ within (utm_alt64 r) (utm_alt q) 70 /\ within (utm_k64 r) (utm_k q) (/ 10 ^ 7) /\
    utm_zone_name q = zone_text z (utmLetterDesignator lat) /\ (exists lat', Rabs (lat' - lat) <= 65 / 100000 /\ utm_zone_name64 r = zone_text z (utmLetterDesignator lat')) /\
    (forall i, ecef2lla64 L i e f_nano = None -> within (utm_x64 r) (utm_x q) (308 * (/ 40) ^ i + / 10 ^ 5) /\ within (utm_y64 r) (utm_y q) (2920 * (/ 40) ^ i + / 10 ^ 5)).
Proof.
  intros F H1 H2 H3 Eq HZ. assert (Hl : -90 < lat < 90) by (apply Rabs_le_inv in H1; lra). assert (H84 : Rabs lat <= 84) by lra. pose proof (Rabs_le_inv _ _ H3) as H3'. assert (Hh : -3000000 <= alt <= 53000000) by lra.
  assert (HD : dist e <= 10 * axis e).
  { destruct (dist_between e lat lon alt Hl Hh Eq) as [_ Q]. destruct (place e lat lon alt Hl Hh Eq) as [P _]. rewrite P. pose proof (cos_84 lat H84) as C. pose proof (normal_low (deg2rad lat)) as NL. eapply Rle_trans; [exact Q|].
    assert (0 <= (normal_radius (deg2rad lat) + alt) * (10 * cos (deg2rad lat) - 1)) by (apply Rmult_le_pos; lra). lra. }
  destruct (C71_near_surface L (ap_math J AJ) e lat lon alt 10 F Hl H2 H3 Eq ltac:(lra) HD) as (r & R1 & FR & RO & RL & RA & RI).
  assert (U : 1000 / 2 ^ 53 <= 2 / 10 ^ 13) by (replace (2 ^ 53) with 9007199254740992 by lra; lra).
  assert (Z1 : in_zone lat lon z) by (apply HZ; rewrite Rminus_diag_eq, Rabs_R0 by reflexivity; lra).
  assert (Z2 : in_zone (val (fx r)) (val (fy r)) z) by (apply HZ; lra).
  pose proof (Rabs_le_inv _ _ RO) as RO'.
  (* a longitude within ten to the minus twelfth of 180 is not inside a zone *)
  assert (EDGE : -180 <= val (fy r) < 180).
  { assert (T : forall x, Rabs (x - lon) <= / 10 ^ 12 -> -180 <= x < 180).
    { intros x Hx. destruct (HZ lat x ltac:(rewrite Rminus_diag_eq, Rabs_R0 by reflexivity; lra) Hx) as [X|(Hz & _ & X)].
      - unfold exceptional in X. repeat match goal with H : _ \/ _ |- _ => destruct H | H : _ /\ _ |- _ => destruct H end; lra.
      - unfold central_meridian in X. assert (1 <= IZR z <= 60) by (split; apply IZR_le; lia). lra. }
    apply T. lra. }
  assert (G : forall la lo, -180 <= lo < 180 -> in_zone la lo z -> (1 <= z <= 60)%Z /\ Rabs (lo - central_meridian z) <= 6).
  { intros la lo Hlo ZZ. destruct (own_zone la lo Hlo) as (A & B & _). rewrite (zone_is _ _ _ ZZ) in A, B. auto. }
  destruct (G lat lon ltac:(lra) Z1) as [Hz C1]. destruct (G _ _ EDGE Z2) as [_ C2].
  assert (ZZ : utm_zone64 (fx r) (fy r) = GRet z).
  { destruct (zone_ok (fx r) (fy r) (FR AX) (FR AY) EDGE) as (z' & E & [->|(-> & (k & W) & NX)]); [now rewrite E, (zone_is _ _ _ Z2)|]. exfalso.
    destruct Z2 as [X|(_ & _ & B)]; [exact (NX _ X)|]. assert (Z3 : in_zone (val (fx r)) (6 * IZR k) z) by (apply HZ; [lra|apply Rabs_le; lra]).
    unfold central_meridian in B. assert (K1 : (z - 31 < k)%Z) by (apply lt_IZR; rewrite minus_IZR; lra). assert (K2 : (k < z - 29)%Z) by (apply lt_IZR; rewrite minus_IZR; lra). assert (k = z - 30)%Z by lia. subst k. rewrite minus_IZR in *.
    destruct Z3 as [X|(_ & _ & X)]; [|unfold central_meridian in X; lra]. unfold exceptional in X.
    assert (N2 := NX z). unfold exceptional in N2. repeat match goal with H : _ \/ _ |- _ => destruct H | H : _ /\ _ |- _ => destruct H end; subst z; try lra; apply N2; first [left; repeat split; lra | right; split; [lra|]; first [left; split; [lra|reflexivity] | right; left; split; [lra|reflexivity] | right; right; left; split; [lra|reflexivity] | right; right; right; split; [lra|reflexivity]]]. }
  destruct (close_grid r lat lon z (FR AX) (FR AY) H1 ltac:(apply Rabs_le; lra) RL RO ltac:(apply Rabs_le; lra) Hz C1 C2 ZZ) as (g & G1 & GA & GN & GX & GX3 & GY & GK).
  pose proof (utm_terms (V lat lon alt)) as Q. cbv zeta in Q. cbn [vx vy vz] in Q. rewrite (zone_is _ _ _ Z1) in Q. destruct (utm_gs lat lon z H84) as (TX & TY & TK). rewrite TX, TY, TK in Q.
  eexists g, _. split; [|split; [exact Q|]]. { intros n Hn. unfold ecef2utm64, after_lla64. fold L. rewrite (R1 n Hn), G1. reflexivity. }
  cbn [utm_x utm_y utm_alt utm_k utm_zone_name]. set (h := Rabs (val (fx r) - lat)) in *. assert (h0 : 0 <= h) by apply Rabs_pos.
  assert (WK : forall v x s t, within v x s -> s <= t -> within v x t) by (intros v x s t [A B] C; split; [exact A|lra]).
  split; [eapply WK; [exact GX|lra]|]. split; [intros C3; eapply WK; [exact (GX3 C3)|lra]|]. split; [eapply WK; [exact GY|lra]|]. split; [rewrite GA; split; [exact (FR AZ)|exact RA]|].
  split; [eapply WK; [exact GK|lra]|]. split; [reflexivity|]. split; [exists (val (fx r)); split; [exact RL|exact GN]|].
  intros i Hi. destruct (RI i Hi) as [RI' _]. fold h in RI'. assert (P0 : 0 <= (/ 40) ^ i) by (apply pow_le; lra). replace (2 ^ 53) with 9007199254740992 in RI' by lra. split; [eapply WK; [exact GX|lra]|eapply WK; [exact GY|lra]].
Qed.
End Whole.

(** ** A case: x = 4000 km, y = 4000 km, z = 3000 km is at 45 degrees east, in zone 38 *)
Definition utm_e : fvec := FV (b64_of_bits 4705844345939427328) (b64_of_bits 4705844345939427328) (b64_of_bits 4703696862291427328).
Lemma utm_e_val : val (fx utm_e) = 4000000 /\ val (fy utm_e) = 4000000 /\ val (fz utm_e) = 3000000.
Proof. cbn [utm_e fx fy fz]. repeat split; value_of_bits; lra. Qed.
Lemma quarter o : - PI < o <= PI -> sin o = cos o -> 0 < cos o -> o = PI / 4.
Proof.
  intros H E P. pose proof PI_RGT_0. assert (O1 : 0 < o). { apply Rnot_le_lt. intros C. assert (0 <= sin (- o)) by (apply sin_ge_0; lra). rewrite sin_neg in *. lra. }
  assert (O2 : o < PI / 2) by (apply Rnot_le_lt; intros C; pose proof (cos_le_0 o C ltac:(lra)); lra).
  rewrite <- sin_shift in E. apply sin_inj in E; lra.
Qed.
Example C85_case : accurate_proj ideal_proj /\ fin3 utm_e /\ exists lat alt, Rabs lat <= 8399 / 100 /\ Rabs alt <= 150000 /\ lla2ecef (V lat 45 alt) = Ret (real3 utm_e) /\
  (forall lat' lon', Rabs (lat' - lat) <= 65 / 100000 -> Rabs (lon' - 45) <= / 10 ^ 12 -> in_zone lat' lon' 38).
Proof.
  split; [exact ideal_proj_accurate|]. split; [now intros []|]. destruct utm_e_val as (X & Y & Z).
  destruct (C58_coordinates_exist 4000000 4000000 3000000 ltac:(left; lra) ltac:(lra)) as (lat & lon & alt & Hl & Hm & Ha & Eq). exists lat, alt.
  assert (EQ : lla2ecef (V lat lon alt) = Ret (real3 utm_e)) by (rewrite Eq; unfold real3; rewrite X, Y, Z; reflexivity).
  pose proof PI_RGT_0 as PP. pose proof (cos_lat_pos lat Hl) as CL.
  rewrite lla2ecef_is in Eq. cbn [vx vy vz] in Eq. apply ret_inj in Eq. set (l := deg2rad lat) in *. set (o := deg2rad lon) in *. pose proof (normal_bounds l) as NB. pose proof PropConv.e2_bounds as EB. assert (AV : wgs84_a = 6378137) by reflexivity. rewrite AV in NB.
  set (N := normal_radius l) in *. set (m := N * (1 - E) + alt) in *. set (M := N + alt) in *.
  assert (Q1 := f_equal vx Eq). assert (Q2 := f_equal vy Eq). assert (Q3 := f_equal vz Eq). cbn [vx vy vz] in Q1, Q2, Q3.
  assert (NE : 0 <= N * E <= 6400461 * (67 / 10000)) by (split; [apply Rmult_le_pos|apply Rmult_le_compat]; lra).
  assert (m0 : 0 < m) by (unfold m; lra). assert (mM : m <= M) by (unfold m, M; lra).
  assert (LO : lon = 45).
  { assert (MC : 0 < M * cos l) by (apply Rmult_lt_0_compat; lra). assert (D : sin o = cos o) by (apply Rmult_eq_reg_l with (M * cos l); lra).
    apply rad_inj. fold o. replace (deg2rad 45) with (PI / 4) by (unfold deg2rad; field). apply quarter; [|exact D|].
    - unfold o. rewrite deg2rad_is. assert (-180 * (PI / 180) < lon * (PI / 180)) by (apply Rmult_lt_compat_r; lra). assert (lon * (PI / 180) <= 180 * (PI / 180)) by (apply Rmult_le_compat_r; lra). lra.
    - apply Rmult_lt_reg_l with (M * cos l); lra. }
  rewrite LO in EQ.
  assert (SC : sin l * sin l + cos l * cos l = 1) by apply sc. assert (SO : sin o * sin o + cos o * cos o = 1) by apply sc.
  assert (C2 : M * M * (cos l * cos l) = 32000000000000).
  { replace (M * M * (cos l * cos l)) with (M * M * (cos l * cos l) * (sin o * sin o + cos o * cos o)) by (rewrite SO; ring).
    replace (M * M * (cos l * cos l) * (sin o * sin o + cos o * cos o)) with ((M * cos l * cos o) * (M * cos l * cos o) + (M * cos l * sin o) * (M * cos l * sin o)) by ring. rewrite Q1, Q2. ring. }
  assert (S2 : m * m * (sin l * sin l) = 9000000000000) by (replace (m * m * (sin l * sin l)) with ((m * sin l) * (m * sin l)) by ring; rewrite Q3; ring).
  assert (MM : m * m <= M * M) by (apply Rmult_le_compat; lra). assert (CP : 0 <= cos l * cos l) by nra. assert (SP : 0 <= sin l * sin l) by nra.
  assert (U1 : m * m <= 41000000000000). { replace (m * m) with (m * m * (cos l * cos l) + m * m * (sin l * sin l)) by (rewrite <- Rmult_plus_distr_l, (Rplus_comm (cos l * cos l)), SC; ring). pose proof (Rmult_le_compat_r _ _ _ CP MM). lra. }
  assert (U2 : 41000000000000 <= M * M). { replace (M * M) with (M * M * (cos l * cos l) + M * M * (sin l * sin l)) by (rewrite <- Rmult_plus_distr_l, (Rplus_comm (cos l * cos l)), SC; ring). pose proof (Rmult_le_compat_r _ _ _ SP MM). lra. }
  assert (M1 : m <= 6404000) by (apply Rnot_lt_le; intros X1; assert (6404000 * 6404000 < m * m) by (apply Rmult_le_0_lt_compat; lra); lra).
  assert (M2 : 6403000 <= M) by (apply Rnot_lt_le; intros X1; assert (M * M < 6403000 * 6403000) by (apply Rmult_le_0_lt_compat; lra); lra).
  assert (AL : Rabs alt <= 150000) by (apply Rabs_le; unfold m, M in *; lra).
  assert (ML : 6300000 <= m) by (unfold m, M in *; lra).
  (* sin l is below one half *)
  assert (LA : 0 < lat < 30).
  { assert (SL : 0 < sin l < 1 / 2) by (split; [apply Rmult_lt_reg_l with m; lra|apply Rmult_lt_reg_l with m; lra]).
    assert (LB : - (PI / 2) < l < PI / 2) by (apply deg_range; exact Hl).
    assert (l < PI / 6) by (apply Rnot_le_lt; intros C; assert (sin (PI / 6) <= sin l) by (destruct C as [C| <-]; [left; apply sin_increasing_1; lra|lra]); rewrite sin_PI6 in *; lra).
    assert (0 < l) by (apply Rnot_le_lt; intros C; assert (0 <= sin (- l)) by (apply sin_ge_0; lra); rewrite sin_neg in *; lra).
    unfold l in *. rewrite deg2rad_is in *. split; apply Rmult_lt_reg_r with (PI / 180); lra. }
  split; [apply Rabs_le; lra|]. split; [exact AL|]. split; [exact EQ|]. intros lat' lon' A B. apply Rabs_le_inv in A, B. right. split; [lia|]. split; [|unfold central_meridian; lra].
  intros z' W. unfold exceptional in W. repeat match goal with H : _ \/ _ |- _ => destruct H | H : _ /\ _ |- _ => destruct H end; lra.
Qed.

Definition all_PropEcefUtm := (C85_accuracy, C85_case).
Print Assumptions all_PropEcefUtm.
