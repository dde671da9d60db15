(** * C92: the two ways to UTM coordinates agree

    Property: the UTM coordinates that lla2utm computes for a latitude, longitude and altitude, and those that ecef2utm computes for the Earth-centred position that lla2ecef gives for them,
    all in double precision, are the same zone and differ by at most 8.01 m in x (4.01 m within three degrees of the central meridian), 73.01 m in y and 70.01 m in altitude; after i passes of the loop of ecef2lla,
    by at most 308 / 40^i m and 2920 / 40^i m, up to a tenth of a millimetre. *)
From Coq Require Import Reals ZArith Lra Lia Psatz List String Ascii.
From Flocq Require Import Core Binary Bits.
From Verif Require Import Real3 RangeCoordinates PropGeo PropUtm UtmShape UtmDeriv PropTm Conv PropConv Float64 DeadReckoning64 Range64 FloatErr PropDR64 PropDR64b FloatAbs PropRange64 RangeErr PropTrip64 PropLla64 Utm64 UtmErr UtmTerms PropUtm64 PropEcefUtm.
Local Open Scope R_scope.

Section Whole.
Variable J : projlib.
Hypothesis AJ : accurate_proj J.
Let L := j_math J.

(** the machine finds the zone of a position that is not at the border of it *)
Lemma inner_zone la lo z : fin la -> fin lo -> -180 <= val lo < 180 -> (forall lat' lon', Rabs (lat' - val la) <= 65 / 100000 -> Rabs (lon' - val lo) <= / 10 ^ 12 -> in_zone lat' lon' z) -> utm_zone64 la lo = GRet z.
Proof.
  intros F1 F2 EDGE HZ. assert (Z0 : forall x, Rabs (x - x) = 0) by (intros x; rewrite Rminus_diag_eq, Rabs_R0 by reflexivity; reflexivity).
  assert (Z2 : in_zone (val la) (val lo) z) by (apply HZ; rewrite Z0; lra).
  destruct (zone_ok la lo F1 F2 EDGE) as (z' & E & [->|(-> & (k & W) & NX)]); [now rewrite E, (zone_is _ _ _ Z2)|]. exfalso.
  destruct Z2 as [X|(_ & _ & B)]; [exact (NX _ X)|]. assert (Z3 : in_zone (val la) (6 * IZR k) z) by (apply HZ; [rewrite Z0; lra|apply Rabs_le; lra]).
  unfold central_meridian in B. assert (K1 : (z - 31 < k)%Z) by (apply lt_IZR; rewrite minus_IZR; lra). assert (K2 : (k < z - 29)%Z) by (apply lt_IZR; rewrite minus_IZR; lra). assert (k = z - 30)%Z by lia. subst k. rewrite minus_IZR in *.
  destruct Z3 as [X|(_ & _ & X)]; [|unfold central_meridian in X; lra]. unfold exceptional in X.
  assert (N2 := NX z). unfold exceptional in N2. repeat match goal with H : _ \/ _ |- _ => destruct H | H : _ /\ _ |- _ => destruct H end; subst z; try lra; apply N2; first [left; repeat split; lra | right; split; [lra|]; first [left; split; [lra|reflexivity] | right; left; split; [lra|reflexivity] | right; right; left; split; [lra|reflexivity] | right; right; right; split; [lra|reflexivity]]].
Qed.

Theorem C92_routes lla z : fin3 lla -> Rabs (val (fx lla)) <= 8398 / 100 -> -17999 / 100 <= val (fy lla) <= 17999 / 100 -> Rabs (val (fz lla)) <= 149000 ->
  (forall lat' lon', Rabs (lat' - val (fx lla)) <= 66 / 100000 -> Rabs (lon' - val (fy lla)) <= / 10 ^ 11 -> in_zone lat' lon' z) ->
  exists s e r, lla2utm64 J lla = GRet s /\ lla2ecef64 L lla = GRet e /\ (forall n, (6 <= n)%nat -> ecef2utm64 J n e = Some (GRet r)) /\
    (fin (utm_x64 r) /\ fin (utm_y64 r) /\ fin (utm_k64 r) /\ fin (utm_x64 s) /\ fin (utm_y64 s) /\ fin (utm_k64 s)) /\
    Rabs (val (utm_x64 r) - val (utm_x64 s)) <= 801 / 100 /\ (Rabs (val (fy lla) - central_meridian z) <= 299 / 100 -> Rabs (val (utm_x64 r) - val (utm_x64 s)) <= 401 / 100) /\
    Rabs (val (utm_y64 r) - val (utm_y64 s)) <= 7301 / 100 /\ Rabs (val (utm_alt64 r) - val (utm_alt64 s)) <= 7001 / 100 /\ Rabs (val (utm_k64 r) - val (utm_k64 s)) <= 2 / 10 ^ 7 /\
    utm_zone_name64 s = zone_text z (utmLetterDesignator (val (fx lla))) /\ (exists lat', Rabs (lat' - val (fx lla)) <= 66 / 100000 /\ utm_zone_name64 r = zone_text z (utmLetterDesignator lat')) /\
    (forall i, ecef2lla64 L i e f_nano = None -> Rabs (val (utm_x64 r) - val (utm_x64 s)) <= 308 * (/ 40) ^ i + / 10 ^ 4 /\ Rabs (val (utm_y64 r) - val (utm_y64 s)) <= 2920 * (/ 40) ^ i + / 10 ^ 4).
Proof.
  intros F H1 H2 H3 HZ. assert (Hl : -90 < val (fx lla) < 90) by (apply Rabs_le_inv in H1; lra).
  assert (H84 : Rabs (val (fx lla)) <= 84) by lra. pose proof (cos_84 _ H84) as C84. set (c := cos (deg2rad (val (fx lla)))) in *.
  destruct (there L (ap_math J AJ) lla F Hl H2 H3 ltac:(fold c; lra)) as (e & lat & lon & alt & G & FE & Hl' & Ho' & Ha' & EQ & _ & _ & B1 & B2 & B3). fold c in B2.
  assert (B2' : Rabs (val (fy lla) - lon) <= 5 / 10 ^ 12).
  { eapply Rle_trans; [exact B2|]. apply Rmult_le_reg_r with c; [lra|]. unfold Rdiv at 1. rewrite Rmult_assoc, Rinv_l by lra. lra. }
  assert (NL : Rabs lat <= 8399 / 100) by (apply Rabs_le_inv in H1, B1; apply Rabs_le; lra).
  assert (TR : forall u v w a b, Rabs (u - v) <= a -> Rabs (v - w) <= b -> Rabs (u - w) <= a + b) by (intros u v w a b A B; replace (u - w) with (u - v + (v - w)) by ring; eapply Rle_trans; [apply Rabs_triang|lra]).
  assert (HZ' : forall lat' lon', Rabs (lat' - lat) <= 65 / 100000 -> Rabs (lon' - lon) <= / 10 ^ 12 -> in_zone lat' lon' z).
  { intros la lo A B. apply HZ.
    - eapply Rle_trans; [eapply TR; [exact A|rewrite Rabs_minus_sym; exact B1]|lra].
    - eapply Rle_trans; [eapply TR; [exact B|rewrite Rabs_minus_sym; exact B2']|lra]. }
  destruct (C85_accuracy J AJ e lat lon alt z FE NL Ho' Ha' EQ HZ') as (r & q & RN & Q & X & X3 & Y & A & K & NQ & NR & I).
  assert (Z0 : forall x, Rabs (x - x) = 0) by (intros x; rewrite Rminus_diag_eq, Rabs_R0 by reflexivity; reflexivity).
  assert (Z1 : in_zone lat lon z) by (apply HZ'; rewrite Z0; lra). assert (Z2 : in_zone (val (fx lla)) (val (fy lla)) z) by (apply HZ; rewrite Z0; lra).
  assert (EDGE : -180 <= val (fy lla) < 180) by lra.
  assert (ZZ : utm_zone64 (fx lla) (fy lla) = GRet z) by (apply inner_zone; [exact (F AX)|exact (F AY)|exact EDGE|]; intros; apply HZ; lra).
  assert (OZ : forall la lo, -180 <= lo < 180 -> in_zone la lo z -> (1 <= z <= 60)%Z /\ Rabs (lo - central_meridian z) <= 6).
  { intros la lo Hlo V. destruct (own_zone la lo Hlo) as (U1 & U2 & _). rewrite (zone_is _ _ _ V) in U1, U2. split; [exact U1|exact U2]. }
  destruct (OZ lat lon ltac:(lra) Z1) as [Hz C1]. destruct (OZ _ _ EDGE Z2) as [_ C2].
  destruct (projected J AJ lla z (F AX) (F AY) H84 ltac:(apply Rabs_le; lra) ltac:(lia) C2 ZZ) as (x & y & k & E & [FX PX] & [FY PY] & [FK PK]).
  destruct (utm_gs (val (fx lla)) (val (fy lla)) z H84) as (TX & TY & TK). rewrite TX in PX. rewrite TY in PY. rewrite TK in PK. clear TX TY TK.
  pose proof (utm_terms (V lat lon alt)) as QT. cbv zeta in QT. cbn [vx vy vz] in QT. rewrite (zone_is _ _ _ Z1) in QT. destruct (utm_gs lat lon z ltac:(lra)) as (TX & TY & TK). rewrite TX, TY, TK in QT.
  rewrite Q in QT. injection QT as ->. cbn [utm_x utm_y utm_alt utm_k utm_zone_name] in *. clear TX TY TK Q NQ.
  set (l' := deg2rad (val (fx lla))) in *. set (d' := deg2rad (val (fy lla) - central_meridian z)) in *. set (l := deg2rad lat) in *. set (d := deg2rad (lon - central_meridian z)) in *.
  pose proof pi_digits as PD. assert (RB : forall a, Rabs (deg2rad a) = Rabs a * (PI / 180)) by (intros a; rewrite deg2rad_is, Rabs_mult, (Rabs_pos_eq (PI / 180)); lra).
  assert (M : forall a b, deg2rad a - deg2rad b = deg2rad (a - b)) by (intros; rewrite !deg2rad_is; ring).
  assert (LL : Rabs (l - l') <= / 10 ^ 14).
  { unfold l', l. rewrite M, RB, Rabs_minus_sym. apply Rle_trans with (4 / 10 ^ 13 * (PI / 180)); [apply Rmult_le_compat_r; lra|lra]. }
  assert (DD : Rabs (d - d') <= / 10 ^ 13).
  { unfold d', d. rewrite M, RB. replace (lon - central_meridian z - (val (fy lla) - central_meridian z)) with (lon - val (fy lla)) by ring. rewrite Rabs_minus_sym. apply Rle_trans with (5 / 10 ^ 12 * (PI / 180)); [apply Rmult_le_compat_r; lra|lra]. }
  assert (D1 : Rabs d <= 10472 / 100000) by (unfold d; rewrite RB; apply Rle_trans with (6 * (PI / 180)); [apply Rmult_le_compat_r; lra|lra]).
  assert (D2 : Rabs d' <= 10472 / 100000) by (unfold d'; rewrite RB; apply Rle_trans with (6 * (PI / 180)); [apply Rmult_le_compat_r; lra|lra]).
  pose proof (gx_near l' l d' d _ _ D2 D1 (Rle_refl _) yl_6) as GX. pose proof (gy_near l' l d' d _ _ D2 D1 (Rle_refl _) yl_6) as GY. pose proof (gk_near l' l d' d _ D2 D1 (Rle_refl _)) as GK. unfold r_max in GX, GY.
  pose proof (Rabs_pos (l - l')). pose proof (Rabs_pos (d - d')).
  assert (SX : Rabs (gx l d - val x) <= / 10 ^ 5) by (eapply Rle_trans; [eapply TR; [exact GX|rewrite Rabs_minus_sym; exact PX]|lra]).
  assert (SY : Rabs (gy l d - val y) <= / 10 ^ 5) by (eapply Rle_trans; [eapply TR; [exact GY|rewrite Rabs_minus_sym; exact PY]|lra]).
  assert (SK : Rabs (gk l d - val k) <= / 10 ^ 12) by (eapply Rle_trans; [eapply TR; [exact GK|rewrite Rabs_minus_sym; exact PK]|lra]).
  clear PX PY PK GX GY GK.
  exists (UTM64 x y (fz lla) (zone_text z (utmLetterDesignator64 (fx lla))) k), e, r. split; [exact E|]. split; [exact G|]. split; [exact RN|].
  cbn [utm_x64 utm_y64 utm_alt64 utm_k64 utm_zone_name64].
  split; [exact (conj (proj1 X) (conj (proj1 Y) (conj (proj1 K) (conj FX (conj FY FK)))))|].
  split; [destruct X as [_ XB]; eapply Rle_trans; [exact (TR _ _ _ _ _ XB SX)|lra]|].
  split; [intros C3; destruct X3 as [_ X4]; [|eapply Rle_trans; [exact (TR _ _ _ _ _ X4 SX)|lra]]|].
  { replace (lon - central_meridian z) with (val (fy lla) - central_meridian z - (val (fy lla) - lon)) by ring. eapply Rle_trans; [apply Rabs_triang|]. rewrite Rabs_Ropp. lra. }
  split; [destruct Y as [_ YB]; eapply Rle_trans; [exact (TR _ _ _ _ _ YB SY)|lra]|].
  split; [destruct A as [_ AB]; eapply Rle_trans; [eapply TR; [exact AB|rewrite Rabs_minus_sym; exact B3]|lra]|].
  split; [destruct K as [_ KB]; eapply Rle_trans; [exact (TR _ _ _ _ _ KB SK)|lra]|].
  split; [now rewrite letter_ok by exact (F AX)|]. split.
  { destruct NR as (lat' & N1 & N2). exists lat'. split; [|exact N2]. eapply Rle_trans; [eapply TR; [exact N1|rewrite Rabs_minus_sym; exact B1]|lra]. }
  intros i Hi. destruct (I i Hi) as [[_ IX] [_ IY]]. assert (P0 : 0 <= (/ 40) ^ i) by (apply pow_le; lra).
  split; (eapply Rle_trans; [first [exact (TR _ _ _ _ _ IX SX)|exact (TR _ _ _ _ _ IY SY)]|lra]).
Qed.
End Whole.

(** ** A case: 30 degrees north, 45 degrees east, 1000 m up *)
Definition arabia : fvec := FV (b64_of_bits 4629137466983448576) (b64_of_bits 4631530004285489152) (b64_of_bits 4652007308841189376).
Example C92_case : accurate_proj ideal_proj /\ fin3 arabia /\ Rabs (val (fx arabia)) <= 8398 / 100 /\ -17999 / 100 <= val (fy arabia) <= 17999 / 100 /\ Rabs (val (fz arabia)) <= 149000 /\
  (forall lat' lon', Rabs (lat' - val (fx arabia)) <= 66 / 100000 -> Rabs (lon' - val (fy arabia)) <= / 10 ^ 11 -> in_zone lat' lon' 38).
Proof.
  split; [exact ideal_proj_accurate|]. split; [now intros []|].
  assert (X : val (fx arabia) = 30) by (cbn [arabia fx]; value_of_bits; lra). assert (Y : val (fy arabia) = 45) by (cbn [arabia fy]; value_of_bits; lra). assert (Z : val (fz arabia) = 1000) by (cbn [arabia fz]; value_of_bits; lra).
  rewrite X, Y, Z. rewrite !Rabs_pos_eq by lra. split; [lra|]. split; [lra|]. split; [lra|].
  intros lat' lon' A B. apply Rabs_le_inv in A, B. right. split; [lia|]. split; [unfold exceptional; intros z' E; lra|]. unfold central_meridian. lra.
Qed.

Definition all_PropRoutes := (C92_routes, C92_case).
Print Assumptions all_PropRoutes.
