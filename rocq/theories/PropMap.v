(** * C81: where dead-reckoned entities are shown on the map

    A receiver extrapolates an entity and converts the result with ecef2lla; examples/dis_dead_reckoning.py does the same with its own numbers. *)
From Coq Require Import ZArith String List Bool Lia Reals Lra.
From Coq Require Import Strings.Byte.
From Flocq Require Import Core Binary Bits.
From Verif Require Import Lang Bytes Interp Mono ProgDis Prog Spec Codec Codec2 Rep SerSound Layouts Refine Api Classes PropFactory Assign PropAccept
  Real3 DeadReckoning RangeCoordinates PropGeo Conv PropConv Float64 DeadReckoning64 Range64 FloatErr PropDR PropDR64 PropDR64b FloatLink PropEnd FloatAbs PropRange64 RangeErr PropLla64 PropTrip64 Attitude64 AttErr Utm64 UtmErr Examples PropExample PropTurn Demo.
Import ListNotations.
Open Scope string_scope. Open Scope R_scope. Open Scope list_scope.

Section Map.
Variable L : mathlib.
Hypothesis AM : accurate_math L.

(** a position within d per axis of a place near the surface has coordinates near those of the place *)
Lemma near_there e lat lon alt q d : fin3 e -> -90 < lat < 90 -> -17999 / 100 <= lon <= 17999 / 100 -> Rabs alt <= 149000 -> / 10 ^ 5 <= cos (deg2rad lat) ->
  lla2ecef (V lat lon alt) = Ret q -> 0 <= d <= / 200 -> (forall i, Rabs (val (fc i e) - rc i q) <= d) ->
  let c := cos (deg2rad lat) in
  exists lat' lon' alt', -90 < lat' < 90 /\ -180 < lon' < 180 /\ Rabs alt' <= 150000 /\ lla2ecef (V lat' lon' alt') = Ret (real3 e) /\
    dist e <= 2 / c * axis e /\ dist e <= 6600000 /\ Rabs (lat - lat') <= 17 / 10 ^ 6 * d /\ Rabs (lon - lon') <= 17 / 10 ^ 6 * d / c /\ Rabs (alt - alt') <= 4 * d.
Proof.
  intros FE Hl Ho Ha Hc EQ Hd WI c. destruct (Rabs_le_inv _ _ Ha) as [Ha1 Ha2]. destruct (COS_bound (deg2rad lat)) as [_ c1]. fold c in Hc, c1.
  set (D := 1733 / 1000 * d). assert (DV : D = 1733 / 1000 * d) by reflexivity. clearbody D.
  assert (WX := WI AX). assert (WY := WI AY). assert (WZ := WI AZ). cbn [fc rc] in WX, WY, WZ. apply Rabs_le_inv in WX, WY, WZ.
  assert (AP2 : apart2 q (real3 e) <= D ^ 2).
  { unfold apart2, real3. cbn [vx vy vz]. assert (SQ : forall t, - d <= t <= d -> t ^ 2 <= d * d) by (intros t Ht; nra).
    assert (Q1 := SQ (vx q - val (fx e)) ltac:(lra)). assert (Q2 := SQ (vy q - val (fy e)) ltac:(lra)). assert (Q3 := SQ (vz q - val (fz e)) ltac:(lra)). rewrite DV.
    replace ((1733 / 1000 * d) ^ 2) with (3003289 / 1000000 * (d * d)) by field. assert (0 <= d * d) by nra. lra. }
  destruct (polar lat lon alt q Hl ltac:(lra) EQ) as (P0 & FA & X & Y & Z). fold c in P0, FA, X, Y.
  pose proof (normal_bounds (deg2rad lat)) as NB. pose proof e2_bounds as EB. assert (AV : a = 6378137) by reflexivity. rewrite AV in NB. set (N := normal_radius (deg2rad lat)) in *.
  assert (NE : 0 <= N * E <= 6400461 * (67 / 10000)) by (split; [apply Rmult_le_pos|apply Rmult_le_compat]; lra).
  assert (AXq : 6229137 * c <= from_axis q) by (rewrite FA; apply Rmult_le_compat_r; lra).
  assert (FCq : 6186000 <= from_centre q <= 6549462).
  { unfold from_centre. pose proof (sc (deg2rad lat)) as O. fold c in O. set (s := sin (deg2rad lat)) in *. set (lo := N * (1 - E) + alt) in *. set (hi := N + alt) in *.
    assert (F2 : vx q ^ 2 + vy q ^ 2 = (hi * c) ^ 2). { rewrite <- FA. unfold from_axis. rewrite pow2_sqrt; [reflexivity|]. pose proof (pow2_ge_0 (vx q)). pose proof (pow2_ge_0 (vy q)). lra. }
    rewrite F2, Z. assert (LO : 6186000 <= lo) by (unfold lo; lra). assert (LH : lo <= hi) by (unfold lo, hi; lra). assert (HI : hi <= 6549462) by (unfold hi; lra).
    assert (M : lo * lo <= hi * hi) by (apply Rmult_le_compat; lra). assert (S2 : 0 <= s * s) by nra. assert (C2 : 0 <= c * c) by nra.
    assert (M1 : lo * lo * (c * c) <= hi * hi * (c * c)) by (apply Rmult_le_compat_r; assumption). assert (M2 : lo * lo * (s * s) <= hi * hi * (s * s)) by (apply Rmult_le_compat_r; assumption).
    assert (T1 : lo * lo * (s * s) + lo * lo * (c * c) = lo * lo) by (rewrite <- Rmult_plus_distr_l, O; ring). assert (T2 : hi * hi * (s * s) + hi * hi * (c * c) = hi * hi) by (rewrite <- Rmult_plus_distr_l, O; ring).
    split.
    - apply Rle_trans with lo; [exact LO|]. rewrite <- (sqrt_square lo) at 1 by lra. apply sqrt_le_1_alt. lra.
    - apply Rle_trans with hi; [|exact HI]. apply Rle_trans with (sqrt (hi * hi)); [apply sqrt_le_1_alt; lra|rewrite sqrt_square; lra]. }
  assert (HA3 : (vx q - val (fx e)) ^ 2 + (vy q - val (fy e)) ^ 2 + (vz q - val (fz e)) ^ 2 <= D ^ 2) by exact AP2.
  assert (FCe : 6185999 <= dist e <= 6549463).
  { assert (T1 := tri3 _ _ _ _ _ _ D ltac:(lra) HA3). assert (T2 := tri3 (val (fx e)) (val (fy e)) (val (fz e)) (vx q) (vy q) (vz q) D ltac:(lra) ltac:(lra)). unfold from_centre in FCq. rewrite DV in *. lra. }
  assert (AXe : from_axis q - D <= axis e).
  { assert (T1 := tri3 (vx q) (vy q) 0 (val (fx e)) (val (fy e)) 0 D ltac:(lra) ltac:(pose proof (pow2_ge_0 (vz q - val (fz e))); lra)). unfold from_axis. replace (0 ^ 2) with 0 in T1 by ring. rewrite !Rplus_0_r in T1. lra. }
  assert (AX0 : 62 <= axis e) by lra.
  assert (HXY : val (fx e) <> 0 \/ val (fy e) <> 0).
  { destruct (Req_dec (val (fx e)) 0) as [ZX|]; [|now left]. right. intros ZY. rewrite ZX, ZY in AX0. replace (0 ^ 2 + 0 ^ 2) with 0 in AX0 by ring. rewrite sqrt_0 in AX0. lra. }
  assert (HR : 3401000 ^ 2 <= val (fx e) ^ 2 + val (fy e) ^ 2 + val (fz e) ^ 2).
  { set (S := val (fx e) ^ 2 + val (fy e) ^ 2 + val (fz e) ^ 2) in *. assert (0 <= S) by (unfold S; pose proof (pow2_ge_0 (val (fx e))); pose proof (pow2_ge_0 (val (fy e))); pose proof (pow2_ge_0 (val (fz e))); lra). rewrite <- (sqrt_sqrt S) by assumption. assert (6185999 * 6185999 <= sqrt S * sqrt S) by (apply Rmult_le_compat; lra). lra. }
  destruct (C58_coordinates_exist _ _ _ HXY HR) as (lat' & lon' & alt' & Hl' & Ho' & Ha' & Eq').
  assert (EQ' : lla2ecef (V lat' lon' alt') = Ret (real3 e)) by exact Eq'.
  destruct (C72_stable lat lon alt lat' lon' alt' q (real3 e) D (-3000000) Hl Hl' ltac:(lra) Ho' ltac:(lra) ltac:(lra) Ha' EQ EQ' ltac:(lra) AP2) as (_ & A1 & _).
  assert (FR : from_centre (real3 e) = dist e) by reflexivity. rewrite FR in A1.
  assert (B1 : Rabs (alt - alt') <= 1).
  { eapply Rle_trans; [exact A1|]. assert ((dist e + 44000) * D <= 6600000 * D) by (apply Rmult_le_compat_r; lra). unfold Rdiv. lra. }
  apply Rabs_le_inv in B1.
  destruct (C72_stable lat lon alt lat' lon' alt' q (real3 e) D (-150000) Hl Hl' ltac:(lra) Ho' ltac:(lra) ltac:(lra) ltac:(lra) EQ EQ' ltac:(lra) AP2) as (L2 & A2 & O2).
  rewrite FR in A2. destruct (O2 ltac:(lra)) as (turn & T & O3). clear O2.
  assert (IC : 0 < / c <= 10 ^ 5) by (split; [apply Rinv_0_lt_compat; lra|]; rewrite <- (Rinv_inv (10 ^ 5)); apply Rinv_le_contravar; lra).
  assert (O4 : Rabs (lon - lon' - turn) <= 17 / 10 ^ 6 * d / c).
  { eapply Rle_trans; [exact O3|]. apply Rle_trans with (574 / 10 * D / (6227000 * c)).
    - apply Rmult_le_compat_l; [lra|]. apply Rinv_le_contravar; lra.
    - replace (574 / 10 * D / (6227000 * c)) with (574 / 10 * D / 6227000 * / c) by (field; lra). apply Rmult_le_compat_r; [lra|]. rewrite DV. lra. }
  assert (O5 : 17 / 10 ^ 6 * d / c <= 85 / 10 ^ 4).
  { unfold Rdiv at 1. apply Rle_trans with (85 / 10 ^ 9 * 10 ^ 5); [apply Rmult_le_compat; lra|lra]. }
  assert (T0 : turn = 0) by (destruct T as [T|[T|T]]; [exact T|exfalso|exfalso]; rewrite T in O4; apply Rabs_le_inv in O4; lra).
  rewrite T0, Rminus_0_r in O4. pose proof O4 as O6. apply Rabs_le_inv in O6.
  exists lat', lon', alt'. split; [exact Hl'|]. split; [lra|]. split; [apply Rabs_le; lra|]. split; [exact EQ'|].
  split; [|split; [lra|split; [|split; [exact O4|]]]].
  - apply Rle_trans with (2 / c * (6220000 * c)); [replace (2 / c * (6220000 * c)) with 12440000 by (field; lra); lra|]. apply Rmult_le_compat_l; [unfold Rdiv; lra|lra].
  - eapply Rle_trans; [exact L2|]. lra.
  - eapply Rle_trans; [exact A2|]. assert ((dist e + 44000) * D <= 6600000 * D) by (apply Rmult_le_compat_r; lra). unfold Rdiv. lra.
Qed.

(** the coordinates that ecef2lla returns for it; the number of iterations made tells how good they are *)
Lemma located e lat lon alt q d : fin3 e -> -90 < lat < 90 -> -17999 / 100 <= lon <= 17999 / 100 -> Rabs alt <= 149000 -> / 10 ^ 5 <= cos (deg2rad lat) ->
  lla2ecef (V lat lon alt) = Ret q -> 0 <= d <= / 200 -> (forall i, Rabs (val (fc i e) - rc i q) <= d) ->
  let c := cos (deg2rad lat) in
  exists r, (forall n, (6 <= n)%nat -> ecef2lla64 L n e f_nano = Some (GRet r)) /\ fin3 r /\
    Rabs (val (fx r) - lat) <= 66 / 100000 /\ Rabs (val (fy r) - lon) <= 17 / 10 ^ 6 * d / c + 2 / 10 ^ 13 /\ Rabs (val (fz r) - alt) <= 71 /\
    (forall i, ecef2lla64 L i e f_nano = None ->
      Rabs (val (fx r) - lat) <= 26 / 1000 * (/ 40) ^ i + 17 / 10 ^ 6 * d + / 10 ^ 12 / c /\ Rabs (val (fz r) - alt) <= 2760 * (/ 40) ^ i + 4 * d + / 10 ^ 7 / c).
Proof.
  intros FE Hl Ho Ha Hc EQ Hd WI c. destruct (near_there e lat lon alt q d FE Hl Ho Ha Hc EQ Hd WI) as (lat' & lon' & alt' & Hl' & Ho' & Ha' & EQ' & HK & HD & B1 & B2 & B3). fold c in Hc, HK, B2.
  destruct (COS_bound (deg2rad lat)) as [_ c1]. fold c in c1.
  assert (IC : 1 <= / c <= 10 ^ 5) by (split; [rewrite <- Rinv_1; apply Rinv_le_contravar; lra|rewrite <- (Rinv_inv (10 ^ 5)); apply Rinv_le_contravar; lra]).
  destruct (C71_near_surface L AM e lat' lon' alt' (2 / c) FE Hl' Ho' Ha' EQ' ltac:(unfold Rdiv; lra) HK) as (r & R1 & R2 & R3 & R4 & R5 & R6).
  assert (P53 : 2 ^ 53 = 9007199254740992) by ring. rewrite P53 in *.
  exists r. split; [exact R1|]. split; [exact R2|].
  apply Rabs_le_inv in B1, B2, B3, R3, R4, R5. set (k := 17 / 10 ^ 6 * d / c) in *.
  split; [apply Rabs_le; lra|]. split; [apply Rabs_le; lra|]. split; [apply Rabs_le; lra|].
  intros i Hi. destruct (R6 i Hi) as [X1 X2]. clear R6. apply Rabs_le_inv in X1, X2. set (t := (/ 40) ^ i) in *. split; apply Rabs_le.
  - unfold Rdiv in X1 |- *. lra.
  - assert (DK : dist e * (18 * (2 / c) + 18) <= 6600000 * (18 * (2 / c) + 18)) by (apply Rmult_le_compat_r; [unfold Rdiv; lra|exact HD]). unfold Rdiv in X2, DK |- *. lra.
Qed.
End Map.

(** ** Specification: where an entity is after the time t *)
Definition moved (m : motion) (t : Rdefinitions.R) : vec :=
  let at_ i := val (fc i (m_loc m)) + val (fc i (m_vel m)) * t + / 2 * val (fc i (m_acc m)) * (t * t) in V (at_ AX) (at_ AY) (at_ AZ).
Lemma rc_moved i m t : rc i (moved m t) = val (fc i (m_loc m)) + val (fc i (m_vel m)) * t + / 2 * val (fc i (m_acc m)) * (t * t).
Proof. now destruct i. Qed.

(** ** The receiver: a millimetre per axis from single precision, then ecef2lla *)
Theorem C81_map n s o W bs m L K dt lat lon alt : (fuel_ok <= n)%nat -> contents the_prog (heap s) "EntityStatePdu" w_EntityStatePdu o = Some W -> getattr n o "pduType" s = (Ok (VInt 1), s) ->
  has_motion n s o m -> serialize n o s = (Ok VNone, appended s bs) -> accurate L -> accurate_math K -> fin dt -> Rabs (val dt) <= 5 ->
  (forall i, Rabs (val (fc i (m_loc m))) <= 2 ^ 26 /\ Rabs (val (fc i (m_vel m))) <= 2 ^ 10 /\ Rabs (val (fc i (m_acc m))) <= 2 ^ 7) ->
  lla2ecef (V lat lon alt) = Ret (moved m (val dt)) -> -90 < lat < 90 -> -17999 / 100 <= lon <= 17999 / 100 -> Rabs alt <= 149000 -> / 10 ^ 5 <= cos (deg2rad lat) ->
  forall h rest, exists o' s' m' p' r, factory n h (bs ++ rest) = (Ok o', s') /\ has_motion n s' o' m' /\
    drm_fvw64 L (m_loc m') (m_vel m') (m_acc m') dt (m_ori m') = FRet (p', m_ori m') /\
    (forall k, (6 <= k)%nat -> ecef2lla64 K k p' f_nano = Some (GRet r)) /\ fin3 r /\
    Rabs (val (fx r) - lat) <= 66 / 100000 /\ Rabs (val (fy r) - lon) <= 2 / 10 ^ 8 / cos (deg2rad lat) /\ Rabs (val (fz r) - alt) <= 71 /\
    (forall k, ecef2lla64 K k p' f_nano = None -> Rabs (val (fx r) - lat) <= 26 / 1000 * (/ 40) ^ k + 2 / 10 ^ 7 /\ Rabs (val (fz r) - alt) <= 2760 * (/ 40) ^ k + 15 / 1000).
Proof.
  intros Hn HW G HM SE HL HK Ft T B EQ Hl Ho Ha Hc h rest. destruct (C69_millimetre n s o W bs m L dt Hn HW G HM SE HL Ft T B h rest) as (o' & s' & m' & p' & F1 & F2 & F3 & F4).
  assert (WI : forall i, Rabs (val (fc i p') - rc i (moved m (val dt))) <= / 1000) by (intros i; rewrite rc_moved; apply F4).
  destruct (located K HK p' lat lon alt _ (/ 1000) (fun i => proj1 (F4 i)) Hl Ho Ha Hc EQ ltac:(lra) WI) as (r & R1 & R2 & R3 & R4 & R5 & R6).
  set (c := cos (deg2rad lat)) in *. assert (c1 : c <= 1) by apply COS_bound.
  assert (IC : 1 <= / c <= 10 ^ 5) by (split; [rewrite <- Rinv_1; apply Rinv_le_contravar; lra|rewrite <- (Rinv_inv (10 ^ 5)); apply Rinv_le_contravar; lra]).
  exists o', s', m', p', r. split; [exact F1|]. split; [exact F2|]. split; [exact F3|]. split; [exact R1|]. split; [exact R2|]. split; [exact R3|]. split; [unfold Rdiv in *; lra|]. split; [exact R5|].
  intros k Hk. destruct (R6 k Hk) as [X1 X2]. set (t := (/ 40) ^ k) in *. unfold Rdiv in *. lra.
Qed.

(** ** dis_dead_reckoning.py *)
Lemma half_step t j : fin t -> val t = INR j / 2 -> (j <= 1000)%nat -> fin (fadd t f_half) /\ val (fadd t f_half) = INR (S j) / 2.
Proof.
  intros F VT Hj. assert (FH : fin f_half) by reflexivity. assert (VH : val f_half = / 2) by (unfold f_half; value_of_bits; lra).
  assert (BJ : 0 <= INR j <= 1000) by (split; [apply pos_INR|]; replace 1000 with (INR 1000) by (cbn; lra); now apply le_INR).
  assert (S1 : val t + val f_half = INR (S j) / 2) by (rewrite VT, VH, S_INR; lra).
  destruct (fadd_rnd t f_half F FH) as [F1 V1]. { pose proof huge_200. rewrite S1, S_INR. rewrite Rabs_pos_eq by lra. lra. }
  split; [exact F1|]. rewrite V1, S1. unfold rnd. apply round_generic; [apply valid_rnd_N|].
  apply generic_format_FLT. exists (Float radix2 (Z.of_nat (S j)) (-1)).
  - unfold F2R. cbn [Fnum Fexp]. rewrite <- INR_IZR_INZ. reflexivity.
  - cbn [Fnum]. change (radix_val radix2 ^ 53)%Z with (2 ^ 53)%Z. lia.
  - cbn [Fexp]. lia.
Qed.
Lemma fle_fin x y : fin x -> fin y -> fle x y = if Rle_dec (val x) (val y) then true else false.
Proof. intros Fx Fy. unfold fle. now apply fge_fin. Qed.

Section Demo.
Variables (L : platform) (K : mathlib).
Hypotheses (AL : accurate L) (AK : accurate_math K).

(** up to 67000 km, 16 km/s, 1024 m/s2 *)
Definition demo_motion (m : motion) : Prop := finite_motion m /\
  forall i, Rabs (val (fc i (m_loc m))) <= 2 ^ 26 /\ Rabs (val (fc i (m_vel m))) <= 2 ^ 14 /\ Rabs (val (fc i (m_acc m))) <= 2 ^ 10.

Lemma frame_ok m t : demo_motion m -> fin t -> Rabs (val t) <= 2 ^ 7 -> exists p o, drm_rvw64 L (m_loc m) (m_vel m) (m_acc m) t (m_ori m) (m_spin m) = FRet (p, o) /\ forall i, within (fc i p) (rc i (moved m (val t))) (/ 10 ^ 6).
Proof.
  intros [(F1 & F2 & F3 & F4 & F5) B] Ft T. destruct (C66_micrometre L (m_loc m) (m_vel m) (m_acc m) t (m_ori m) AL F1 F2 F3 Ft T B) as (_ & p & A & W).
  destruct (C66_rpw L (m_loc m) (m_vel m) t (m_ori m) (m_spin m)) as [[[[s I]|[s I]] _]|(_ & _ & o' & R)]; [pose proof (F4 AZ) as Q; cbn [fc] in Q; rewrite I in Q; discriminate Q|pose proof (F4 AY) as Q; cbn [fc] in Q; rewrite I in Q; discriminate Q|].
  assert (SQ : exists sq, square L t = FRet sq). { unfold drm_fvw64 in A. destruct (square L t) as [sq| |]; cbn [fbind] in A; [now exists sq|discriminate A|discriminate A]. }
  destruct (C66_rvw L _ _ (m_acc m) _ _ _ _ SQ R) as (p2 & A2 & R2). rewrite A in A2. injection A2 as <-. exists p, o'. split; [exact R2|].
  intros i. specialize (W i). replace (rc i (moved m (val t))) with (rc i (fst (drm_fvw (real3 (m_loc m)) (real3 (m_vel m)) (real3 (m_acc m)) (val t) (real3 (m_ori m))))); [replace (10 ^ 6) with 1000000 by ring; exact W|].
  rewrite rc_moved. unfold drm_fvw, to_numpy. destruct i; cbn; field.
Qed.

(** the frames from the j-th on *)
Lemma frames_from m d N : demo_motion m -> fin d -> INR N / 2 <= val d < INR (S N) / 2 -> val d <= 2 ^ 7 ->
  forall c j k t, (j + c = S N)%nat -> (c <= k)%nat -> fin t -> val t = INR j / 2 ->
  exists l, frames L k m t d = Some (FRet l) /\ length l = c /\
    forall i, (i < c)%nat -> exists t' p, nth_error l i = Some (t', p) /\ fin t' /\ val t' = INR (j + i) / 2 /\ forall ax, within (fc ax p) (rc ax (moved m (INR (j + i) / 2))) (/ 10 ^ 6).
Proof.
  intros HM Fd HN Hd. assert (BN : (N <= 256)%nat). { apply INR_le. replace (INR 256) with 256 by (cbn; lra). lra. }
  induction c as [|c IH]; intros j k t Hj Hk Ft Vt.
  - assert (Ej : j = S N) by lia. subst j. exists []. split; [|split; [reflexivity|intros i Hi; lia]].
    assert (R : fle t d = false) by (rewrite fle_fin by assumption; destruct (Rle_dec (val t) (val d)); [lra|reflexivity]). destruct k; cbn [frames]; rewrite R; reflexivity.
  - destruct k as [|k]; [lia|]. assert (JN : INR j <= INR N) by (apply le_INR; lia). pose proof (pos_INR j) as J0.
    assert (R : fle t d = true) by (rewrite fle_fin by assumption; destruct (Rle_dec (val t) (val d)); [reflexivity|lra]).
    destruct (frame_ok m t HM Ft) as (p & o & A & W). { rewrite Vt, Rabs_pos_eq by lra. lra. }
    destruct (half_step t j Ft Vt ltac:(lia)) as [Ft' Vt']. destruct (IH (S j) k (fadd t f_half) ltac:(lia) ltac:(lia) Ft' Vt') as (l & R1 & R2 & R3).
    exists ((t, p) :: l). split; [cbn [frames]; rewrite R, A, R1; reflexivity|]. split; [cbn [length]; now rewrite R2|].
    intros [|i] Hi.
    + exists t, p. rewrite Nat.add_0_r. split; [reflexivity|]. split; [exact Ft|]. split; [exact Vt|]. rewrite <- Vt. exact W.
    + cbn [nth_error]. replace (j + S i)%nat with (S j + i)%nat by lia. apply R3. lia.
Qed.

(** the PDU holds the state *)
Definition demo_bits (n : nat) (x1 x2 x3 v1 v2 v3 a1 a2 a3 o1 o2 o3 w1 w2 w3 : Z) : M Interp.val :=
  pdu <~ new the_prog n "EntityStatePdu" [] ;
  _ <~ put n pdu ["entityLocation"] "x" (VFloat x1) ; _ <~ put n pdu ["entityLocation"] "y" (VFloat x2) ; _ <~ put n pdu ["entityLocation"] "z" (VFloat x3) ;
  _ <~ put n pdu ["entityLinearVelocity"] "x" (VFloat v1) ; _ <~ put n pdu ["entityLinearVelocity"] "y" (VFloat v2) ; _ <~ put n pdu ["entityLinearVelocity"] "z" (VFloat v3) ;
  _ <~ put n pdu ["deadReckoningParameters"; "entityLinearAcceleration"] "x" (VFloat a1) ; _ <~ put n pdu ["deadReckoningParameters"; "entityLinearAcceleration"] "y" (VFloat a2) ;
  _ <~ put n pdu ["deadReckoningParameters"; "entityLinearAcceleration"] "z" (VFloat a3) ;
  _ <~ put n pdu ["entityOrientation"] "psi" (VFloat o1) ; _ <~ put n pdu ["entityOrientation"] "theta" (VFloat o2) ; _ <~ put n pdu ["entityOrientation"] "phi" (VFloat o3) ;
  _ <~ put n pdu ["deadReckoningParameters"; "entityAngularVelocity"] "x" (VFloat w1) ; _ <~ put n pdu ["deadReckoningParameters"; "entityAngularVelocity"] "y" (VFloat w2) ;
  _ <~ put n pdu ["deadReckoningParameters"; "entityAngularVelocity"] "z" (VFloat w3) ;
  Interp.ret pdu.
Lemma demo_is n m : demo_pdu n m = demo_bits n (bits_of_b64 (fx (m_loc m))) (bits_of_b64 (fy (m_loc m))) (bits_of_b64 (fz (m_loc m))) (bits_of_b64 (fx (m_vel m))) (bits_of_b64 (fy (m_vel m))) (bits_of_b64 (fz (m_vel m)))
  (bits_of_b64 (fx (m_acc m))) (bits_of_b64 (fy (m_acc m))) (bits_of_b64 (fz (m_acc m))) (bits_of_b64 (fx (m_ori m))) (bits_of_b64 (fy (m_ori m))) (bits_of_b64 (fz (m_ori m)))
  (bits_of_b64 (fx (m_spin m))) (bits_of_b64 (fy (m_spin m))) (bits_of_b64 (fz (m_spin m))).
Proof. reflexivity. Qed.
Definition demo_o : Interp.val := Eval vm_compute in match fst (demo_bits 50 0 0 0 0 0 0 0 0 0 0 0 0 0 0 0 (mkst [] [] [] [])) with Ok o => o | _ => VNone end.
Definition demo_st (x1 x2 x3 v1 v2 v3 a1 a2 a3 o1 o2 o3 w1 w2 w3 : Z) : st := Eval vm_compute in snd (demo_bits 50 x1 x2 x3 v1 v2 v3 a1 a2 a3 o1 o2 o3 w1 w2 w3 (mkst [] [] [] [])).
Lemma demo_50 x1 x2 x3 v1 v2 v3 a1 a2 a3 o1 o2 o3 w1 w2 w3 : demo_bits 50 x1 x2 x3 v1 v2 v3 a1 a2 a3 o1 o2 o3 w1 w2 w3 (mkst [] [] [] []) = (Ok demo_o, demo_st x1 x2 x3 v1 v2 v3 a1 a2 a3 o1 o2 o3 w1 w2 w3).
Proof. vm_compute. reflexivity. Qed.
Lemma demo_any n x1 x2 x3 v1 v2 v3 a1 a2 a3 o1 o2 o3 w1 w2 w3 : (50 <= n)%nat -> demo_bits n x1 x2 x3 v1 v2 v3 a1 a2 a3 o1 o2 o3 w1 w2 w3 (mkst [] [] [] []) = (Ok demo_o, demo_st x1 x2 x3 v1 v2 v3 a1 a2 a3 o1 o2 o3 w1 w2 w3).
Proof.
  intros Hn. assert (A : approx (demo_bits 50 x1 x2 x3 v1 v2 v3 a1 a2 a3 o1 o2 o3 w1 w2 w3) (demo_bits n x1 x2 x3 v1 v2 v3 a1 a2 a3 o1 o2 o3 w1 w2 w3)).
  { unfold demo_bits. apply approx_bind; [apply approx_apply; now apply approx_run|intros o]. do 15 (apply approx_bind; [now apply approx_put|intros _]). apply approx_refl. }
  destruct (A (mkst [] [] [] [])) as [H|H]; rewrite demo_50 in H; [discriminate|exact H].
Qed.
Lemma read_any n s o path b : (50 <= n)%nat -> reach 50 o (map Attr path) s = (Ok (VFloat b), s) -> read_float n s o path = Some (b64_of_bits b).
Proof.
  intros Hn H. unfold read_float. destruct (approx_reach 50 n Hn (map Attr path) o s) as [Q|Q]; rewrite H in Q; [discriminate|]. now rewrite Q.
Qed.
Lemma demo_reads n m : (50 <= n)%nat -> finite_motion m -> exists o s, demo_pdu n m (mkst [] [] [] []) = (Ok o, s) /\ read_motion n s o = Some m.
Proof.
  intros Hn (F1 & F2 & F3 & F4 & F5). exists demo_o. eexists. split; [rewrite demo_is; exact (demo_any n _ _ _ _ _ _ _ _ _ _ _ _ _ _ _ Hn)|].
  pose proof (fun i => proj2 (bits_fin _ (F1 i))) as G1. pose proof (fun i => proj2 (bits_fin _ (F2 i))) as G2. pose proof (fun i => proj2 (bits_fin _ (F3 i))) as G3. pose proof (fun i => proj2 (bits_fin _ (F4 i))) as G4. pose proof (fun i => proj2 (bits_fin _ (F5 i))) as G5.
  pose proof (G1 AX) as X1. pose proof (G1 AY) as Y1. pose proof (G1 AZ) as Z1. pose proof (G2 AX) as X2. pose proof (G2 AY) as Y2. pose proof (G2 AZ) as Z2. pose proof (G3 AX) as X3. pose proof (G3 AY) as Y3. pose proof (G3 AZ) as Z3.
  pose proof (G4 AX) as X4. pose proof (G4 AY) as Y4. pose proof (G4 AZ) as Z4. pose proof (G5 AX) as X5. pose proof (G5 AY) as Y5. pose proof (G5 AZ) as Z5. cbn [fc] in *.
  unfold read_motion, readp. cbn [app].
  generalize dependent (bits_of_b64 (fx (m_loc m))). generalize dependent (bits_of_b64 (fy (m_loc m))). generalize dependent (bits_of_b64 (fz (m_loc m))).
  generalize dependent (bits_of_b64 (fx (m_vel m))). generalize dependent (bits_of_b64 (fy (m_vel m))). generalize dependent (bits_of_b64 (fz (m_vel m))).
  generalize dependent (bits_of_b64 (fx (m_acc m))). generalize dependent (bits_of_b64 (fy (m_acc m))). generalize dependent (bits_of_b64 (fz (m_acc m))).
  generalize dependent (bits_of_b64 (fx (m_ori m))). generalize dependent (bits_of_b64 (fy (m_ori m))). generalize dependent (bits_of_b64 (fz (m_ori m))).
  generalize dependent (bits_of_b64 (fx (m_spin m))). generalize dependent (bits_of_b64 (fy (m_spin m))). generalize dependent (bits_of_b64 (fz (m_spin m))).
  intros. clear G1 G2 G3 G4 G5 F1 F2 F3 F4 F5.
  repeat (erewrite read_any by (first [exact Hn|vm_compute; reflexivity])).
  rewrite X1, Y1, Z1, X2, Y2, Z2, X3, Y3, Z3, X4, Y4, Z4, X5, Y5, Z5. destruct m as [[] [] [] [] []]. reflexivity.
Qed.

Lemma last_frame {A} (l : list A) N x : length l = S N -> nth_error l N = Some x -> exists r, rev l = x :: r.
Proof.
  intros Hl Hn. destruct (rev l) as [|y r] eqn:R; [apply (f_equal (@length A)) in R; rewrite rev_length, Hl in R; discriminate R|].
  assert (El : l = rev r ++ [y]) by (rewrite <- (rev_involutive l), R; reflexivity). subst l. rewrite app_length in Hl. cbn [length] in Hl.
  rewrite nth_error_app2 in Hn by lia. replace (N - length (rev r))%nat with 0%nat in Hn by lia. injection Hn as ->. now exists r.
Qed.
Lemma ecef_size lat lon alt q i : Rabs alt <= 149000 -> lla2ecef (V lat lon alt) = Ret q -> Rabs (rc i q) <= 6600000.
Proof.
  intros Ha EQ. rewrite lla2ecef_is in EQ. cbn [vx vy vz] in EQ. apply ret_inj in EQ. subst q. pose proof (normal_bounds (deg2rad lat)) as NB. pose proof e2_bounds as EB. assert (AV : a = 6378137) by reflexivity. rewrite AV in NB. set (N := normal_radius (deg2rad lat)) in *.
  apply Rabs_le_inv in Ha. assert (NE : 0 <= N * E <= 6400461 * (67 / 10000)) by (split; [apply Rmult_le_pos|apply Rmult_le_compat]; lra).
  assert (H1 : Rabs (N + alt) <= 6600000) by (apply Rabs_le; lra). assert (H2 : Rabs (N * (1 - E) + alt) <= 6600000) by (apply Rabs_le; lra).
  destruct i; cbn [rc vx vy vz].
  - replace 6600000 with (6600000 * 1 * 1) by lra. apply mul_bound; [apply mul_bound; [exact H1|]|]; apply cos_abs.
  - replace 6600000 with (6600000 * 1 * 1) by lra. apply mul_bound; [apply mul_bound; [exact H1|]|]; [apply cos_abs|apply sin_abs].
  - replace 6600000 with (6600000 * 1) by lra. apply mul_bound; [exact H2|apply sin_abs].
Qed.

(** For every state, duration up to 128 s and start near the surface, the program prints a frame for every half second and the position of each to a micrometre; the second run starts at the
    given coordinates and ends, on the map, where the start displaced by the last position is *)
Theorem C81_demo m d N start q lat lon alt : demo_motion m -> fin d -> 0 <= val d <= 2 ^ 7 -> INR N / 2 <= val d < INR (S N) / 2 ->
  fin3 start -> Rabs (val (fx start)) <= 90 -> Rabs (val (fy start)) <= 180 -> Rabs (val (fz start)) <= 149000 -> lla2ecef (real3 start) = Ret q ->
  lla2ecef (V lat lon alt) = Ret (vadd q (moved m (INR N / 2))) -> -90 < lat < 90 -> -17999 / 100 <= lon <= 17999 / 100 -> Rabs alt <= 149000 -> / 10 ^ 5 <= cos (deg2rad lat) ->
  exists l s f r, (forall n k, (50 <= n)%nat -> (6 <= k)%nat -> (S N <= k)%nat -> run_demo L K n k m d start = Shown l s f r) /\
    length l = S N /\
    (forall j, (j <= N)%nat -> exists t p, nth_error l j = Some (t, p) /\ fin t /\ val t = INR j / 2 /\ forall i, within (fc i p) (rc i (moved m (INR j / 2))) (/ 10 ^ 6)) /\
    (forall i, within (fc i s) (rc i q) (/ 10 ^ 7)) /\ (forall i, within (fc i f) (rc i (vadd q (moved m (INR N / 2)))) (2 / 10 ^ 6)) /\
    fin3 r /\ Rabs (val (fx r) - lat) <= 66 / 100000 /\ Rabs (val (fy r) - lon) <= / 10 ^ 10 / cos (deg2rad lat) /\ Rabs (val (fz r) - alt) <= 71 /\
    (forall k, ecef2lla64 K k f f_nano = None -> Rabs (val (fx r) - lat) <= 26 / 1000 * (/ 40) ^ k + 2 / 10 ^ 7 /\ Rabs (val (fz r) - alt) <= 2760 * (/ 40) ^ k + 15 / 1000).
Proof.
  intros HM Fd Hd HN Fs Hs1 Hs2 Hs3 EQ EQ' Hl Ho Ha Hc.
  assert (F0 : fin f_zero) by reflexivity. assert (V0 : val f_zero = INR 0 / 2) by (change (val f_zero) with 0; cbn [INR]; lra).
  destruct (frames_from m d N HM Fd HN ltac:(lra) (S N) 0 (S N) f_zero eq_refl (le_n _) F0 V0) as (l & R1 & R2 & R3). cbn [Nat.add] in R3.
  assert (RK : forall k, (S N <= k)%nat -> frames L k m f_zero d = Some (FRet l)).
  { intros k Hk. destruct (frames_from m d N HM Fd HN ltac:(lra) (S N) 0 k f_zero eq_refl Hk F0 V0) as (l' & Q1 & _ & _). rewrite Q1. f_equal. f_equal.
    assert (MONO : forall k k' t x, (k <= k')%nat -> frames L k m t d = Some x -> frames L k' m t d = Some x).
    { clear. induction k as [|k IH]; intros k' t x Hk; destruct k' as [|k']; try lia; cbn [frames]; destruct (fle t d); try congruence. destruct (drm_rvw64 _ _ _ _ _ _ _) as [[p o]| |]; try congruence.
      destruct (frames L k m (fadd t f_half) d) as [[y| |]|] eqn:R; try discriminate; rewrite (IH k' _ _ ltac:(lia) R); congruence. }
    pose proof (MONO (S N) k f_zero _ Hk R1) as Q2. congruence. }
  destruct (R3 N ltac:(lia)) as (tN & pN & RN & _ & _ & WN). destruct (last_frame l N (tN, pN) R2 RN) as (r0 & RV).
  destruct (C70_ecef K AK start q Fs Hs1 ltac:(lra) ltac:(lra) EQ) as (s & GS & WS).
  assert (WS' : forall i, within (fc i s) (rc i q) (/ 10 ^ 7)).
  { intros i. destruct (WS i) as [A B]. split; [exact A|]. eapply Rle_trans; [exact B|]. replace (2 ^ 48) with 281474976710656 by ring. lra. }
  set (f := FV (fadd (fx s) (fx pN)) (fadd (fy s) (fy pN)) (fadd (fz s) (fz pN))).
  assert (WF : forall i, within (fc i f) (rc i (vadd q (moved m (INR N / 2)))) (2 / 10 ^ 6)).
  { intros i. replace (fc i f) with (fadd (fc i s) (fc i pN)) by (now destruct i). pose proof (ecef_size lat lon alt _ i Ha EQ') as SZ. rewrite rc_vadd in *. set (y := rc i q) in *. set (z := rc i (moved m (INR N / 2))) in *.
    destruct (WS' i) as [A B]. destruct (WN i) as [A' B']. fold y in B. fold z in B'. pose proof huge_200 as HH. apply Rabs_le_inv in B, B', SZ.
    destruct (fadd_err _ _ A A') as [A3 B3]; [apply Rabs_le; lra|]. split; [exact A3|].
    assert (B4 : Rabs (val (fc i s) + val (fc i pN)) <= 6600001) by (apply Rabs_le; lra). pose proof u_val as U. assert (u * Rabs (val (fc i s) + val (fc i pN)) <= u * 6600001) by (apply Rmult_le_compat_l; [rewrite U; lra|exact B4]).
    assert (u * 6600001 <= / 10 ^ 8) by (rewrite U; lra). apply Rabs_le_inv in B3. apply Rabs_le. lra. }
  destruct (located K AK f lat lon alt _ (2 / 10 ^ 6) (fun i => proj1 (WF i)) Hl Ho Ha Hc EQ' ltac:(lra) (fun i => proj2 (WF i))) as (r & Q1 & Q2 & Q3 & Q4 & Q5 & Q6).
  set (c := cos (deg2rad lat)) in *. assert (c1 : c <= 1) by apply COS_bound.
  assert (IC : 1 <= / c <= 10 ^ 5) by (split; [rewrite <- Rinv_1; apply Rinv_le_contravar; lra|rewrite <- (Rinv_inv (10 ^ 5)); apply Rinv_le_contravar; lra]).
  exists l, s, f, r. split; [|split; [exact R2|split; [|split; [exact WS'|split; [exact WF|split; [exact Q2|split; [exact Q3|split; [unfold Rdiv in *; lra|split; [exact Q5|]]]]]]]]].
  - intros n k Hn Hk HkN. destruct (demo_reads n m Hn (proj1 HM)) as (o & st & D1 & D2). unfold run_demo. rewrite D1, D2, (RK k HkN), RV, GS. fold f. rewrite (Q1 k Hk). reflexivity.
  - intros j Hj. apply R3. lia.
  - intros k Hk. destruct (Q6 k Hk) as [X1 X2]. set (t := (/ 40) ^ k) in *. unfold Rdiv in *. lra.
Qed.
End Demo.

(** ** The program's own numbers: 10 m/s and 1 m/s2 along x for five seconds, from Monterey at 100 m *)
Local Open Scope Z_scope.
Definition z3 : fvec := FV f_zero f_zero f_zero.
Definition demo_m : motion := {| m_loc := z3; m_vel := FV (b64_of_bits 4621819117588971520) f_zero f_zero; m_acc := FV (b64_of_bits 4607182418800017408) f_zero f_zero; m_ori := z3; m_spin := z3 |}.
Definition demo_d : f64 := b64_of_bits 4617315517961601024.
Definition demo_start : fvec := FV (b64_of_bits 4630347809383304397) (b64_of_bits 13861650403706902938) (b64_of_bits 4636737291354636288).
Local Close Scope Z_scope.
Example C81_case : accurate ideal /\ accurate_math ideal_math /\ demo_motion demo_m /\ fin demo_d /\ 0 <= val demo_d <= 2 ^ 7 /\ INR 10 / 2 <= val demo_d < INR 11 / 2 /\ moved demo_m (INR 10 / 2) = V (625 / 10) 0 0 /\
  fin3 demo_start /\ Rabs (val (fx demo_start)) <= 90 /\ Rabs (val (fy demo_start)) <= 180 /\ Rabs (val (fz demo_start)) <= 149000 /\
  exists q lat lon alt, lla2ecef (real3 demo_start) = Ret q /\ lla2ecef (V lat lon alt) = Ret (vadd q (moved demo_m (INR 10 / 2))) /\ -90 < lat < 90 /\ -17999 / 100 <= lon <= 17999 / 100 /\ Rabs alt <= 149000 /\ / 10 ^ 5 <= cos (deg2rad lat).
Proof.
  assert (V0 : val f_zero = 0) by reflexivity. assert (V1 : val (b64_of_bits 4621819117588971520) = 10) by (value_of_bits; lra). assert (V2 : val (b64_of_bits 4607182418800017408) = 1) by (value_of_bits; lra).
  assert (VD : val demo_d = 5) by (unfold demo_d; value_of_bits; lra). assert (I10 : INR 10 = 10) by (cbn; lra). assert (I11 : INR 11 = 11) by (cbn; lra).
  assert (W1 : val (fx demo_start) = 5150992073805005 / 140737488355328) by (cbn [demo_start fx]; value_of_bits; lra).
  assert (W2 : val (fy demo_start) = - (4288974957628621 / 35184372088832)) by (cbn [demo_start fy]; value_of_bits; lra).
  assert (W3 : val (fz demo_start) = 100) by (cbn [demo_start fz]; value_of_bits; lra).
  assert (MV : moved demo_m (INR 10 / 2) = V (625 / 10) 0 0).
  { unfold moved. cbn [demo_m m_loc m_vel m_acc fc fx fy fz z3]. rewrite V0, V1, V2, I10. f_equal; field. }
  split; [exact ideal_accurate|]. split; [exact ideal_math_accurate|]. split.
  { split; [repeat split; now intros []|]. intros []; cbn [demo_m m_loc m_vel m_acc fc fx fy fz z3]; rewrite ?V0, ?V1, ?V2, ?Rabs_R0; (split; [|split]); try lra; rewrite Rabs_pos_eq; lra. }
  split; [reflexivity|]. split; [rewrite VD; lra|]. split; [rewrite VD, I10, I11; lra|]. split; [exact MV|]. split; [now intros []|].
  assert (R1 : Rabs (val (fx demo_start)) <= 90) by (rewrite W1; apply Rabs_le; lra). assert (R2 : Rabs (val (fy demo_start)) <= 180) by (rewrite W2; apply Rabs_le; lra). assert (R3 : Rabs (val (fz demo_start)) <= 149000) by (rewrite W3; apply Rabs_le; lra).
  split; [exact R1|]. split; [exact R2|]. split; [exact R3|]. rewrite MV.
  assert (EQ : exists q, lla2ecef (real3 demo_start) = Ret q) by (eexists; apply lla2ecef_is). destruct EQ as [q EQ].
  change (real3 demo_start) with (V (val (fx demo_start)) (val (fy demo_start)) (val (fz demo_start))) in EQ |- *. pose proof pi_digits as PD.
  assert (SZ : forall i, Rabs (rc i q) <= 6600000) by (intros i; exact (ecef_size _ _ _ q i R3 EQ)). pose proof (SZ AX) as S1. pose proof (SZ AY) as S2. pose proof (SZ AZ) as S3. cbn [rc] in S1, S2, S3. apply Rabs_le_inv in S1, S2, S3.
  destruct (polar (val (fx demo_start)) (val (fy demo_start)) (val (fz demo_start)) q ltac:(rewrite W1; lra) ltac:(rewrite W3; lra) EQ) as (P0 & FA & X & Y & Z). cbv zeta in *. rewrite W1, W3 in FA. set (l := deg2rad (5150992073805005 / 140737488355328)) in *.
  assert (CL : 7 / 10 <= cos l).
  { apply Rle_trans with (cos (PI / 4)); [|left; apply cos_decreasing_1; unfold l, deg2rad; lra]. rewrite cos_PI4. assert (0 < sqrt 2 <= 142 / 100). { split; [apply sqrt_lt_R0; lra|]. rewrite <- (sqrt_square (142 / 100)) by lra. apply sqrt_le_1_alt. lra. } apply Rmult_le_reg_r with (sqrt 2); [lra|]. replace (1 / sqrt 2 * sqrt 2) with 1 by (field; lra). lra. }
  pose proof (normal_bounds l) as NB. assert (AV : wgs84_a = 6378137) by reflexivity. rewrite AV in NB.
  assert (FQ : 4400000 <= from_axis q). { rewrite FA. apply Rle_trans with (6378137 * (7 / 10)); [lra|]. apply Rmult_le_compat; lra. }
  set (g := vadd q (V (625 / 10) 0 0)).
  assert (AP : apart2 q g <= (625 / 10) ^ 2) by (unfold apart2, g; cbn [vadd vx vy vz]; lra).
  assert (GA : 4399937 <= from_axis g).
  { unfold from_axis in *. assert (T1 := tri3 (vx q) (vy q) 0 (vx g) (vy g) 0 (625 / 10) ltac:(lra) ltac:(unfold g; cbn [vadd vx vy vz]; lra)). replace (0 ^ 2) with 0 in T1 by ring. rewrite !Rplus_0_r in T1. lra. }
  assert (G2 : 4399937 * 4399937 <= vx g ^ 2 + vy g ^ 2).
  { rewrite <- (sqrt_sqrt (vx g ^ 2 + vy g ^ 2)) by (pose proof (pow2_ge_0 (vx g)); pose proof (pow2_ge_0 (vy g)); lra). unfold from_axis in GA. apply Rmult_le_compat; lra. }
  assert (HXY : vx g <> 0 \/ vy g <> 0). { destruct (Req_dec (vx g) 0) as [ZX|]; [|now left]. right. intros ZY. rewrite ZX, ZY in G2. lra. }
  destruct (C58_coordinates_exist _ _ (vz g) HXY ltac:(pose proof (pow2_ge_0 (vz g)); lra)) as (lat & lon & alt & Hl & Ho & Ha & EQ'). assert (EG : lla2ecef (V lat lon alt) = Ret g) by (rewrite EQ'; now destruct g).
  destruct (C72_stable (val (fx demo_start)) (val (fy demo_start)) (val (fz demo_start)) lat lon alt q g (625 / 10) (-3000000) ltac:(rewrite W1; lra) Hl ltac:(rewrite W2; lra) Ho ltac:(lra) ltac:(rewrite W3; lra) Ha EQ EG ltac:(lra) AP) as (A1 & A2 & A3).
  destruct (A3 ltac:(lra)) as (turn & T & A4). rewrite W1 in A1. rewrite W3 in A2. rewrite W2 in A4.
  assert (FG : from_centre g <= 12000000).
  { unfold from_centre. rewrite <- (sqrt_square 12000000) by lra. apply sqrt_le_1_alt. unfold g. cbn [vadd vx vy vz]. assert (B : forall x, -6600063 <= x <= 6600063 -> x ^ 2 <= 6600063 * 6600063) by (intros x Hx; nra).
    pose proof (B (vx q + 625 / 10) ltac:(lra)). pose proof (B (vy q + 0) ltac:(lra)). pose proof (B (vz q + 0) ltac:(lra)). lra. }
  assert (A5 : Rabs (- (4288974957628621 / 35184372088832) - lon - turn) <= 1).
  { eapply Rle_trans; [exact A4|]. apply Rmult_le_reg_r with (from_axis q - 2 * (625 / 10)); [lra|]. unfold Rdiv at 1. rewrite Rmult_assoc, Rinv_l by lra. lra. }
  apply Rabs_le_inv in A1, A5. assert (A6 : Rabs (100 - alt) <= 1000) by (eapply Rle_trans; [exact A2|lra]). apply Rabs_le_inv in A6.
  exists q, lat, lon, alt. split; [exact EQ|]. split; [exact EG|]. split; [exact Hl|]. split; [destruct T as [T|[T|T]]; rewrite T in A5; lra|]. split; [apply Rabs_le; lra|].
  apply Rle_trans with (cos (PI / 3)); [rewrite cos_PI3; lra|]. left. apply cos_decreasing_1; unfold deg2rad; nra.
Qed.
Definition all_PropMap := (C81_map, C81_demo, C81_case).
Print Assumptions all_PropMap.
