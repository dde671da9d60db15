(** Rounding errors of the UTM projection of Utm64: zones and bands, and bounds on each term of the series *)
From Coq Require Import Reals ZArith Lra Lia List Ascii String.
From Flocq Require Import Core Binary Bits.
From Verif Require Import Real3 RangeCoordinates PropGeo PropConv Float64 DeadReckoning64 Range64 FloatAbs RangeErr PropRange64 Utm64.
Local Open Scope R_scope.

(** ** Integers as floats *)
Lemma fint_ok z : (Z.abs z <= 2 ^ 53)%Z -> fin (fint z) /\ val (fint z) = IZR z.
Proof.
  intros H. unfold fint. match goal with |- context [binary_normalize _ _ ?a ?b ?m _ _ _] => pose proof (binary_normalize_correct 53 1024 a b m z 0 false) as C end.
  assert (E : F2R (Float radix2 z 0) = IZR z) by (unfold F2R; cbn; ring). rewrite E, rnd_is in C.
  assert (B : Rabs (IZR z) <= 9007199254740992) by (rewrite <- abs_IZR; apply IZR_le; exact H).
  assert (G : rnd (IZR z) = IZR z).
  { unfold rnd. apply round_generic; [apply valid_rnd_N|]. rewrite <- E. destruct (Z.eq_dec (Z.abs z) (2 ^ 53)) as [Q|Q].
    - rewrite E. apply (generic_format_abs_inv radix2). rewrite <- abs_IZR, Q. change (IZR (2 ^ 53)) with (bpow radix2 53). apply generic_format_bpow. unfold FLT_exp. lia.
    - apply generic_format_FLT. exists (Float radix2 z 0); [reflexivity|cbn [Fnum]; change (radix_val radix2 ^ 53)%Z with (2 ^ 53)%Z; lia|cbn [Fexp]; lia]. }
  assert (HU : Rlt_bool (Rabs (rnd (IZR z))) (bpow radix2 1024) = true). { apply under. pose proof huge_200. assert (9007199254740992 <= 2 ^ 200) by (rewrite pow_IZR; apply IZR_le; vm_compute; discriminate). lra. }
  rewrite HU in C. destruct C as (C & F & _). split; [exact F|]. unfold val. rewrite C. exact G.
Qed.
Lemma fint_fin z : (Z.abs z <= 2 ^ 53)%Z -> fin (fint z). Proof. intros H. exact (proj1 (fint_ok z H)). Qed.
Lemma fint_val z : (Z.abs z <= 2 ^ 53)%Z -> val (fint z) = IZR z. Proof. intros H. exact (proj2 (fint_ok z H)). Qed.

(** ** Comparisons are exact *)
Lemma between_ok lo x hi : (Z.abs lo <= 1000)%Z -> (Z.abs hi <= 1000)%Z -> fin x -> fbetween lo x hi = between (IZR lo) (val x) (IZR hi).
Proof.
  intros Hl Hh F. unfold fbetween, fle, between. rewrite fge_fin, flt_fin by (exact F || apply fint_fin; lia). rewrite !fint_val by lia. destruct (Rle_dec _ _); [|reflexivity]. destruct (Rlt_dec _ _); reflexivity.
Qed.
Lemma letter_ok lat : fin lat -> utmLetterDesignator64 lat = utmLetterDesignator (val lat).
Proof. intros F. unfold utmLetterDesignator64, utmLetterDesignator. rewrite !between_ok by (lia || exact F). reflexivity. Qed.
Lemma between_nan lo x hi : is_nan 53 1024 x = true -> fbetween lo x hi = false.
Proof. intros H. unfold fbetween, fle, fge, b64_compare, Bcompare. destruct x; try discriminate. destruct (fint lo); reflexivity. Qed.
Lemma between_inf lo s hi : (Z.abs lo <= 1000)%Z -> (Z.abs hi <= 1000)%Z -> fbetween lo (B754_infinity 53 1024 s) hi = false.
Proof.
  intros Hl Hh. pose proof (fint_fin lo ltac:(lia)) as A. pose proof (fint_fin hi ltac:(lia)) as B. unfold fbetween, fle, fge, flt, b64_compare, Bcompare, BinarySingleNaN.Bcompare. unfold fin in *.
  destruct (fint lo), (fint hi), s; try discriminate; reflexivity.
Qed.
Lemma letter_special x : ~ fin x -> utmLetterDesignator64 x = "Z"%char.
Proof.
  intros H. unfold utmLetterDesignator64. destruct x as [s|s|s pl e|s m e E]; try (exfalso; apply H; reflexivity).
  - rewrite !between_inf by lia. reflexivity.
  - rewrite !between_nan by reflexivity. reflexivity.
Qed.

(** ** int *)
Lemma gint_ok x : fin x -> gint x = GRet (Ztrunc (val x)).
Proof.
  intros F. assert (E : Btrunc 53 1024 x = Ztrunc (val x)).
  { apply eq_IZR. rewrite Btrunc_correct by reflexivity. unfold round, F2R, scaled_mantissa, cexp, FIX_exp. cbn [Fnum Fexp bpow]. unfold val. rewrite !Rmult_1_r. reflexivity. }
  unfold gint. destruct x; try discriminate F; now rewrite E.
Qed.
Lemma trunc_is x n : 0 <= x -> IZR n <= x < IZR n + 1 -> Ztrunc x = n.
Proof. intros P H. rewrite Ztrunc_floor by exact P. apply Zfloor_imp. rewrite plus_IZR. exact H. Qed.
Lemma floor_unique x (n m : Z) : IZR n <= x < IZR n + 1 -> IZR m <= x < IZR m + 1 -> n = m.
Proof. intros A B. assert (n < m + 1)%Z by (apply lt_IZR; rewrite plus_IZR; lra). assert (m < n + 1)%Z by (apply lt_IZR; rewrite plus_IZR; lra). lia. Qed.

(** ** The zone number *)
(** lon is less than 1e-13 degrees west of a multiple of six degrees *)
Definition just_west (lon : R) : Prop := exists k : Z, 0 < 6 * IZR k - lon <= / 10 ^ 13.

Lemma zone_quotient lon : fin lon -> -180 <= val lon < 180 -> exists q k, fdiv (fadd lon (fint 180)) (fint 6) = q /\ fin q /\ (0 <= k < 60)%Z /\ IZR k <= (val lon + 180) / 6 < IZR k + 1 /\
  IZR k <= val q <= IZR k + 1 /\ (val q < IZR k + 1 \/ 0 < 6 * IZR (k - 29) - val lon <= / 10 ^ 13).
Proof.
  intros F H. pose proof (fint_ok 180 ltac:(lia)) as [F1 V1]. pose proof (fint_ok 6 ltac:(lia)) as [F6 V6]. pose proof huge_200 as HU.
  set (s := val lon + 180). assert (Hs : 0 <= s < 360) by (unfold s; lra). assert (HA : Rabs s <= huge) by (rewrite Rabs_pos_eq; lra).
  destruct (fadd_rnd lon (fint 180) F F1 ltac:(rewrite V1; exact HA)) as [Fa Va]. pose proof (rnd_sum_err lon (fint 180)) as Ea. rewrite V1 in Va, Ea. fold s in Va, Ea.
  exists (fdiv (fadd lon (fint 180)) (fint 6)). destruct (pyint_floor (s / 6)) as [K1 K2]; [lra|]. set (k := pyint (s / 6)) in *. clearbody k. exists k. split; [reflexivity|].
  assert (k0' : (0 <= k)%Z) by (enough (-1 < k)%Z by lia; apply lt_IZR; lra). assert (k1' : (k < 60)%Z) by (apply lt_IZR; lra).
  assert (G : forall j, (Z.abs j <= 1000)%Z -> rnd (IZR j) = IZR j) by (intros j Hj; rewrite <- (fint_val j) by lia; apply rnd_val).
  assert (R1 : IZR (6 * k) <= rnd s) by (rewrite <- G by lia; apply rnd_le; rewrite mult_IZR; lra).
  assert (R2 : rnd s <= IZR (6 * (k + 1))) by (rewrite <- (G (6 * (k + 1))%Z) by lia; apply rnd_le; rewrite mult_IZR, plus_IZR; lra).
  rewrite mult_IZR in R1. rewrite mult_IZR, plus_IZR in R2. assert (B : 0 <= IZR k <= 59) by (split; apply IZR_le; lia).
  destruct (fdiv_rnd (fadd lon (fint 180)) (fint 6) Fa F6 ltac:(lra) ltac:(rewrite Va, V6, Rabs_pos_eq; lra)) as [Fq Vq]. rewrite Va, V6 in Vq.
  split; [exact Fq|]. split; [lia|]. split; [lra|]. rewrite Vq.
  assert (Q1 : IZR k <= rnd (rnd s / 6)) by (rewrite <- (G k) at 1 by lia; apply rnd_le; lra).
  assert (Q2 : rnd (rnd s / 6) <= IZR k + 1) by (rewrite <- plus_IZR, <- (G (k + 1)%Z) by lia; apply rnd_le; rewrite plus_IZR; lra).
  split; [lra|]. rewrite minus_IZR. destruct (Rle_dec (6 * (IZR k - 29) - val lon) (/ 10 ^ 13)) as [C|C]; [right; unfold s in K2; lra|]. left.
  pose proof (rnd_err (rnd s / 6)) as Eq. rewrite (Rabs_pos_eq (rnd s / 6)) in Eq by lra. rewrite (Rabs_pos_eq s) in Ea by lra.
  assert (U1 : u * s <= 4 / 10 ^ 14) by (rewrite u_val; lra). assert (U2 : u * (rnd s / 6) + eta <= 7 / 10 ^ 15) by num.
  apply Rabs_le_inv in Ea. apply Rabs_le_inv in Eq. unfold s in *. lra.
Qed.

Lemma zone_ok lat lon : fin lat -> fin lon -> -180 <= val lon < 180 -> exists z, utm_zone64 lat lon = GRet z /\
  (z = utm_zone (val lat) (val lon) \/ z = (utm_zone (val lat) (val lon) + 1)%Z /\ just_west (val lon) /\ forall z', ~ exceptional (val lat) (val lon) z').
Proof.
  intros Fl F H. destruct (zone_quotient lon F H) as (q & k & Q & Fq & Hk & K & Kq & W). unfold utm_zone64. rewrite Q, gint_ok by exact Fq. cbn [gbind]. cbv zeta. rewrite !between_ok by (lia || assumption).
  assert (P : pyint ((val lon + 180) / 6) = k) by (apply (floor_unique ((val lon + 180) / 6)); [apply pyint_floor; lra|exact K]).
  assert (B : 0 <= IZR k) by (apply IZR_le; lia). eexists. split; [reflexivity|].
  assert (T : Ztrunc (val q) = k \/ Ztrunc (val q) = (k + 1)%Z /\ just_west (val lon)).
  { destruct (Rlt_dec (val q) (IZR k + 1)) as [C|C]; [left; apply trunc_is; lra|]. right. split; [apply trunc_is; rewrite ?plus_IZR; lra|]. destruct W as [W|W]; [contradiction|]. now exists (k - 29)%Z. }
  destruct T as [T|[T JW]]; [left; unfold utm_zone; cbv zeta; rewrite P, T; reflexivity|].
  destruct (zone_cases (val lat) (val lon) _ eq_refl) as [X|[X _]].
  - left. unfold exceptional in X. unfold utm_zone. cbv zeta. rewrite T. repeat match goal with |- context [between ?a ?b ?c] => destruct (between_spec a b c) end; try reflexivity; exfalso; lra.
  - right. split; [|split; assumption]. unfold exceptional in X. unfold utm_zone. cbv zeta. rewrite T, P.
    repeat match goal with |- context [between ?a ?b ?c] => destruct (between_spec a b c) end; try lia; exfalso;
    first [apply (X 32%Z); left; repeat split; lra | apply (X 31%Z); right; split; [lra|]; left; split; [lra|reflexivity] | apply (X 33%Z); right; split; [lra|]; right; left; split; [lra|reflexivity]
      | apply (X 35%Z); right; split; [lra|]; right; right; left; split; [lra|reflexivity] | apply (X 37%Z); right; split; [lra|]; right; right; right; split; [lra|reflexivity] ].
Qed.

(** ** Errors of a computation whose size is bounded: x is within d of X, and X is at most B in size *)
Definition nap (x : f64) (X B d : R) : Prop := ap x X d /\ Rabs X <= B.
Lemma u_le : u <= 112 / 10 ^ 18. Proof. rewrite u_val. lra. Qed.
Lemma eta_le : eta <= / 10 ^ 40. Proof. pose proof eta_u100. rewrite u_val in *. lra. Qed.
Lemma scaled s : 0 <= s -> u * s + eta <= 112 / 10 ^ 18 * s + / 10 ^ 40.
Proof. intros H. pose proof u_le as U. pose proof eta_le. assert (u * s <= 112 / 10 ^ 18 * s) by (apply Rmult_le_compat_r; lra). lra. Qed.
Lemma scaled2 s : 0 <= s -> 2 * u * s + 2 * eta <= 2 * (112 / 10 ^ 18 * s) + 2 * / 10 ^ 40.
Proof. intros H. pose proof (scaled s H). lra. Qed.
Lemma nap_nonneg x X B d : nap x X B d -> 0 <= B /\ 0 <= d.
Proof. intros [A H]. split; [eapply Rle_trans; [apply Rabs_pos|exact H]|eapply ap_pos; exact A]. Qed.
Lemma nap_weak x X B d B' d' : nap x X B d -> B <= B' -> d <= d' -> nap x X B' d'.
Proof. intros [A H] H1 H2. split; [eapply ap_weak; eassumption|lra]. Qed.
Lemma nap_add x y X Y B1 d1 B2 d2 B d : nap x X B1 d1 -> nap y Y B2 d2 -> B1 + B2 <= B -> d1 + d2 + (112 / 10 ^ 18 * (B + (d1 + d2)) + / 10 ^ 40) <= d -> B + (d1 + d2) <= 10 ^ 50 -> nap (fadd x y) (X + Y) B d.
Proof.
  intros A1 A2 HB Hd HO. destruct (nap_nonneg _ _ _ _ A1), (nap_nonneg _ _ _ _ A2). destruct A1 as [A1 P1], A2 as [A2 P2]. assert (HX : Rabs (X + Y) <= B) by (eapply Rle_trans; [apply Rabs_triang|lra]).
  split; [|exact HX]. pose proof (scaled (B + (d1 + d2)) ltac:(lra)). apply (ap_add _ _ _ _ d1 d2 B); try assumption; lra.
Qed.
Lemma nap_sub x y X Y B1 d1 B2 d2 B d : nap x X B1 d1 -> nap y Y B2 d2 -> B1 + B2 <= B -> d1 + d2 + (112 / 10 ^ 18 * (B + (d1 + d2)) + / 10 ^ 40) <= d -> B + (d1 + d2) <= 10 ^ 50 -> nap (fsub x y) (X - Y) B d.
Proof.
  intros A1 A2 HB Hd HO. destruct (nap_nonneg _ _ _ _ A1), (nap_nonneg _ _ _ _ A2). destruct A1 as [A1 P1], A2 as [A2 P2]. assert (HX : Rabs (X - Y) <= B) by (unfold Rminus; eapply Rle_trans; [apply Rabs_triang|rewrite Rabs_Ropp; lra]).
  split; [|exact HX]. pose proof (scaled (B + (d1 + d2)) ltac:(lra)). apply (ap_sub _ _ _ _ d1 d2 B); try assumption; lra.
Qed.
Lemma nap_mul x y X Y B1 d1 B2 d2 B d : nap x X B1 d1 -> nap y Y B2 d2 -> B1 * B2 <= B ->
  d1 * B2 + B1 * d2 + d1 * d2 + (112 / 10 ^ 18 * (B + (d1 * B2 + B1 * d2 + d1 * d2)) + / 10 ^ 40) <= d -> B + (d1 * B2 + B1 * d2 + d1 * d2) <= 10 ^ 50 -> nap (fmul x y) (X * Y) B d.
Proof.
  intros A1 A2 HB Hd HO. destruct (nap_nonneg _ _ _ _ A1) as [N1 N2], (nap_nonneg _ _ _ _ A2) as [N3 N4]. destruct A1 as [A1 P1], A2 as [A2 P2].
  assert (HX : Rabs (X * Y) <= B) by (rewrite Rabs_mult; apply Rle_trans with (B1 * B2); [apply Rmult_le_compat; try assumption; apply Rabs_pos|exact HB]).
  split; [|exact HX]. set (e := d1 * B2 + B1 * d2 + d1 * d2) in *. assert (0 <= e) by (unfold e; nra). pose proof (scaled (B + e) ltac:(nra)).
  pose proof u_pos. assert (u * (B1 * B2 + e) <= u * (B + e)) by (apply Rmult_le_compat_l; lra). apply (ap_mul _ _ _ _ d1 d2 B1 B2 e); try assumption; unfold e; fold e; lra.
Qed.
Lemma nap_int n : (Z.abs n <= 2 ^ 20)%Z -> nap (fint n) (IZR n) (IZR (Z.abs n)) 0.
Proof. intros H. split; [rewrite <- (fint_val n) by lia; apply ap_exact, fint_fin; lia|]. rewrite abs_IZR. apply Rle_refl. Qed.
Lemma nap_over x X B1 d1 n B d : nap x X B1 d1 -> (1 <= n <= 2 ^ 20)%Z -> B1 / IZR n <= B -> d1 / IZR n + (112 / 10 ^ 18 * (B + d1 / IZR n) + / 10 ^ 40) <= d -> B + d1 / IZR n <= 10 ^ 50 -> nap (fdiv x (fint n)) (X / IZR n) B d.
Proof.
  intros A1 Hn HB Hd HO. destruct (nap_nonneg _ _ _ _ A1) as [N1 N2]. destruct A1 as [A1 P1]. assert (n0 : 1 <= IZR n) by (apply (IZR_le 1); lia).
  assert (I0 : 0 < / IZR n) by (apply Rinv_0_lt_compat; lra).
  assert (HX : Rabs (X / IZR n) <= B) by (unfold Rdiv; rewrite Rabs_mult, (Rabs_pos_eq (/ IZR n)) by lra; apply Rle_trans with (B1 / IZR n); [apply Rmult_le_compat_r; lra|exact HB]).
  split; [|exact HX]. assert (D0 : 0 <= d1 / IZR n) by (unfold Rdiv; apply Rmult_le_pos; lra). assert (B0 : 0 <= B1 / IZR n) by (unfold Rdiv; apply Rmult_le_pos; lra).
  pose proof (scaled (B + d1 / IZR n) ltac:(lra)). pose proof u_pos. assert (u * (B1 / IZR n + d1 / IZR n) <= u * (B + d1 / IZR n)) by (apply Rmult_le_compat_l; lra).
  pose proof (nap_int n ltac:(lia)) as [AN _]. refine (proj2 (ap_div_by _ _ _ _ d1 B1 (IZR n) d A1 AN P1 _ _ _ _)); try lra. rewrite Rabs_pos_eq; lra.
Qed.
Lemma pow_err x X M d n : Rabs x <= M -> Rabs X <= M -> Rabs (x - X) <= d -> Rabs (x ^ n - X ^ n) <= INR n * (M ^ Nat.pred n * d).
Proof.
  intros H1 H2 H. assert (M0 : 0 <= M) by (eapply Rle_trans; [apply Rabs_pos|exact H1]). assert (d0 : 0 <= d) by (eapply Rle_trans; [apply Rabs_pos|exact H]). induction n as [|n IH].
  - cbn [pow INR]. rewrite Rminus_diag_eq by reflexivity. rewrite Rabs_R0. lra.
  - cbn [pow Nat.pred]. replace (x * x ^ n - X * X ^ n) with ((x - X) * x ^ n + X * (x ^ n - X ^ n)) by ring. eapply Rle_trans; [apply Rabs_triang|]. rewrite !Rabs_mult, S_INR.
    assert (P : Rabs (x ^ n) <= M ^ n) by (rewrite <- RPow_abs; apply pow_incr; split; [apply Rabs_pos|exact H1]).
    assert (Q1 : Rabs (x - X) * Rabs (x ^ n) <= d * M ^ n) by (apply Rmult_le_compat; try apply Rabs_pos; assumption).
    assert (Q2 : Rabs X * Rabs (x ^ n - X ^ n) <= M * (INR n * (M ^ Nat.pred n * d))) by (apply Rmult_le_compat; try apply Rabs_pos; assumption).
    destruct n; [cbn [pow INR Nat.pred] in *; lra|]. cbn [Nat.pred] in *. change (M ^ S n) with (M * M ^ n) in *. lra.
Qed.

Section Proj.
Variable J : projlib.
Hypothesis AJ : accurate_proj J.
Let L := j_math J.
Let AM : accurate_math L := ap_math J AJ.

Lemma nap_square x X B1 d1 B d : nap x X B1 d1 -> B1 * B1 <= B -> d1 * (2 * B1 + d1) + (2 * (112 / 10 ^ 18 * (B + d1 * (2 * B1 + d1))) + 2 * / 10 ^ 40) <= d -> B1 + d1 <= 10 ^ 20 ->
  exists q, gsquare L x = GRet q /\ nap q (X ^ 2) B d.
Proof.
  intros A1 HB Hd HO. destruct (nap_nonneg _ _ _ _ A1) as [N1 N2]. destruct A1 as [A1 P1]. set (e := d1 * (2 * B1 + d1)) in *. assert (0 <= e) by (unfold e; nra).
  pose proof (scaled2 (B + e) ltac:(nra)). pose proof u_pos. assert (2 * u * (B1 * B1 + e) <= 2 * u * (B + e)) by (apply Rmult_le_compat_l; lra).
  destruct (gsquare_ap L AM x X d1 B1 e d A1 P1) as [G A]; [apply Rle_refl|lra|lra|]. exists (l_square (g_base L) x). split; [exact G|].
  replace (X ^ 2) with (X * X) by ring. split; [exact A|]. rewrite Rabs_mult. apply Rle_trans with (B1 * B1); [apply Rmult_le_compat; try apply Rabs_pos; assumption|exact HB].
Qed.
Lemma nap_pow x X n k B1 d1 B d : nap x X B1 d1 -> n = Z.of_nat k -> (3 <= n <= 6)%Z -> B1 + d1 <= 1 -> B1 ^ k <= B ->
  IZR n * ((B1 + d1) ^ Nat.pred k * d1) + (2 * (112 / 10 ^ 18 * (B + IZR n * ((B1 + d1) ^ Nat.pred k * d1))) + 2 * / 10 ^ 40) <= d -> exists q, gpow J x n = GRet q /\ nap q (X ^ k) B d.
Proof.
  intros A1 -> Hn H1 HB Hd. destruct (nap_nonneg _ _ _ _ A1) as [N1 N2]. destruct A1 as [A1 P1]. pose proof (ap_abs _ _ _ _ A1 P1) as PX. destruct A1 as [F E].
  pose proof (pow_err (val x) X (B1 + d1) d1 k PX ltac:(lra) E) as PE. rewrite INR_IZR_INZ in PE. set (e := IZR (Z.of_nat k) * ((B1 + d1) ^ Nat.pred k * d1)) in *.
  assert (HX : Rabs (X ^ k) <= B) by (rewrite <- RPow_abs; eapply Rle_trans; [apply pow_incr; split; [apply Rabs_pos|exact P1]|exact HB]).
  assert (e0 : 0 <= e) by (eapply Rle_trans; [apply Rabs_pos|exact PE]). assert (B0 : 0 <= B) by (eapply Rle_trans; [apply Rabs_pos|exact HX]). pose proof (scaled2 (B + e) ltac:(lra)).
  assert (HV : Rabs (val x ^ k) <= huge).
  { rewrite <- RPow_abs. pose proof huge_200. apply Rle_trans with 1; [|lra]. rewrite <- (pow1 k). apply pow_incr. split; [apply Rabs_pos|lra]. }
  pose proof (ap_pow J AJ x (Z.of_nat k) F Hn) as O. rewrite Nat2Z.id in O. specialize (O HV). exists (j_pow J x (Z.of_nat k)). split.
  - destruct O as [FO _]. unfold gpow. destruct x; try discriminate F; destruct (j_pow J _ _); try reflexivity; discriminate FO.
  - split; [|exact HX]. apply (ap_ulp _ (val x ^ k) _ e B); try assumption. lra.
Qed.
Lemma nap_sin x X B1 d1 d : nap x X B1 d1 -> d1 + (2 * (112 / 10 ^ 18 * (1 + d1)) + 2 * / 10 ^ 40) <= d -> exists q, gsin L x = GRet q /\ nap q (sin X) 1 d.
Proof.
  intros A1 Hd. destruct (nap_nonneg _ _ _ _ A1) as [N1 N2]. destruct A1 as [A1 P1]. pose proof (scaled2 (1 + d1) ltac:(lra)). destruct (gsin_ap L AM x X d1 d A1 ltac:(lra)) as [G A].
  exists (l_sin (g_base L) x). split; [exact G|]. split; [exact A|]. pose proof (SIN_bound X). apply Rabs_le. lra.
Qed.
Lemma nap_cos x X B1 d1 d : nap x X B1 d1 -> d1 + (2 * (112 / 10 ^ 18 * (1 + d1)) + 2 * / 10 ^ 40) <= d -> exists q, gcos L x = GRet q /\ nap q (cos X) 1 d.
Proof.
  intros A1 Hd. destruct (nap_nonneg _ _ _ _ A1) as [N1 N2]. destruct A1 as [A1 P1]. pose proof (scaled2 (1 + d1) ltac:(lra)). destruct (gcos_ap L AM x X d1 d A1 ltac:(lra)) as [G A].
  exists (l_cos (g_base L) x). split; [exact G|]. split; [exact A|]. pose proof (COS_bound X). apply Rabs_le. lra.
Qed.
(** tan, where the cosine is at least a tenth *)
Lemma tan_lipschitz x y m : 0 < m -> m <= cos x -> m <= cos y -> Rabs (tan x - tan y) <= Rabs (x - y) / (m * m).
Proof.
  intros Hm Hx Hy. assert (cos x <> 0) by lra. assert (cos y <> 0) by lra. replace (tan x - tan y) with (sin (x - y) / (cos x * cos y)) by (rewrite sin_minus; unfold tan; field; split; assumption).
  unfold Rdiv. rewrite Rabs_mult. assert (m * m <= cos x * cos y) by (apply Rmult_le_compat; lra). assert (0 < m * m) by nra.
  apply Rmult_le_compat; try apply Rabs_pos.
  - replace (sin (x - y)) with (sin (x - y) - sin 0) by (rewrite sin_0; ring). eapply Rle_trans; [apply sin_lipschitz|]. rewrite Rminus_0_r. apply Rle_refl.
  - rewrite Rabs_inv, Rabs_pos_eq by lra. apply Rinv_le_contravar; assumption.
Qed.
Lemma nap_tan x X B1 d1 : nap x X B1 d1 -> 104 / 1000 <= cos X -> d1 <= / 10 ^ 15 -> exists q, gtan J x = GRet q /\ nap q (tan X) (963 / 100) (10 ^ 2 * d1 + 25 / 10 ^ 16).
Proof.
  intros A1 HC Hd. destruct (nap_nonneg _ _ _ _ A1) as [N1 N2]. destruct A1 as [[F E] P1].
  pose proof (cos_lipschitz (val x) X) as CL. apply Rabs_le_inv in CL. assert (103 / 1000 <= cos (val x)) by lra.
  pose proof (tan_lipschitz (val x) X (103 / 1000) ltac:(lra) ltac:(lra) ltac:(lra)) as TL.
  assert (TX : Rabs (tan X) <= 962 / 100).
  { unfold tan, Rdiv. rewrite Rabs_mult, Rabs_inv, (Rabs_pos_eq (cos X)) by lra. assert (Rabs (sin X) <= 1) by (pose proof (SIN_bound X); apply Rabs_le; lra).
    assert (/ cos X <= / (104 / 1000)) by (apply Rinv_le_contravar; lra). apply Rle_trans with (1 * / (104 / 1000)); [apply Rmult_le_compat; try apply Rabs_pos; try assumption; left; apply Rinv_0_lt_compat; lra|lra]. }
  assert (TD : Rabs (tan (val x) - tan X) <= 95 * d1) by (eapply Rle_trans; [exact TL|]; assert (Rabs (val x - X) / (103 / 1000 * (103 / 1000)) <= d1 / (103 / 1000 * (103 / 1000))) by (apply Rmult_le_compat_r; lra); lra).
  assert (TV : Rabs (tan (val x)) <= huge).
  { replace (tan (val x)) with (tan X + (tan (val x) - tan X)) by ring. eapply Rle_trans; [apply Rabs_triang|]. pose proof huge_200. lra. }
  destruct AM as [B _ _ _]. pose proof (acc_tan _ B x F TV) as O. pose proof (scaled2 (962 / 100 + 95 * d1) ltac:(lra)). exists (l_tan (g_base L) x). split.
  - unfold gtan, mtan, on_finite, of_fres. destruct x; try reflexivity; discriminate F.
  - split; [|lra]. apply (ap_ulp _ (tan (val x)) _ (95 * d1) (962 / 100)); try assumption. lra.
Qed.
End Proj.
