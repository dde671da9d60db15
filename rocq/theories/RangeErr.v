(** Rounding errors of one iteration of the loop of ecef2lla *)
From Coq Require Import Reals ZArith Lra Lia List.
From Flocq Require Import Core Binary Bits.
From Verif Require Import Real3 RangeCoordinates PropGeo Conv PropConv Float64 DeadReckoning64 Range64 FloatErr PropDR64 PropDR64b FloatAbs PropRange64.
Local Open Scope R_scope.

Lemma atan_lipschitz x y : Rabs (atan x - atan y) <= Rabs (x - y).
Proof. pose proof (atan_between (wgs84_e ^ 2) e2_bounds x y 0 (Rle_refl 0) ltac:(intros; apply pow2_ge_0)) as H. eapply Rle_trans; [exact H|]. rewrite Rplus_0_r. unfold Rdiv. rewrite Rinv_1. lra. Qed.
Lemma atan_rel Q d : 0 <= d <= / 2 -> forall x, Rabs (x - Q) <= d * Rabs Q -> Rabs (atan x - atan Q) <= d.
Proof.
  intros Hd x H. destruct (Req_dec Q 0) as [->|NQ]. { rewrite Rabs_R0, Rmult_0_r in H. eapply Rle_trans; [apply atan_lipschitz|lra]. }
  assert (C : forall c, Rmin x Q <= c <= Rmax x Q -> (Q / 2) ^ 2 <= c ^ 2).
  { intros c Hc. assert (M : d * Rabs Q <= / 2 * Rabs Q) by (apply Rmult_le_compat_r; [apply Rabs_pos|lra]). assert (H' : Rabs (x - Q) <= / 2 * Rabs Q) by lra. clear H M. revert H' Hc. unfold Rmin, Rmax. apply Rabs_no_R0 in NQ.
    destruct (Rle_dec 0 Q) as [P|P]; [rewrite (Rabs_pos_eq Q P)|rewrite (Rabs_left Q) by lra]; intros H'; apply Rabs_le_inv in H'; destruct (Rle_dec x Q); intros Hc; nra. }
  eapply Rle_trans; [apply (atan_between (wgs84_e ^ 2) e2_bounds x Q ((Q / 2) ^ 2)); [apply pow2_ge_0|exact C]|].
  apply Rmult_le_reg_r with (1 + (Q / 2) ^ 2); [nra|]. unfold Rdiv at 1. rewrite Rmult_assoc, Rinv_l by nra. rewrite Rmult_1_r. eapply Rle_trans; [exact H|]. apply Rmult_le_compat_l; [lra|].
  pose proof (pow2_ge_0 (Q / 2 - 1)). pose proof (pow2_ge_0 (Q / 2 + 1)). apply Rabs_le. split; lra.
Qed.
Lemma one_ap : ap f_1 1 0. Proof. rewrite <- val_1. apply ap_exact. reflexivity. Qed.
Lemma a_ap : ap a64 wgs84_a 0. Proof. rewrite <- val_a. apply ap_exact. reflexivity. Qed.

Lemma rnd_le x y : x <= y -> rnd x <= rnd y. Proof. intros H. unfold rnd. apply round_le; [apply FLT_exp_valid; reflexivity|apply valid_rnd_N|exact H]. Qed.

Section Step.
Variable L : mathlib.
Hypothesis AM : accurate_math L.
Notation a := wgs84_a.
Notation E := (wgs84_e ^ 2).
Variables p64 z64 : f64.
Variables P K : R.
Notation z := (val z64).
Hypothesis HP : / 10 <= P.
Hypothesis Hp : ap p64 P (4 * u * P).
Hypothesis Hz : fin z64.
Hypothesis Hr : (a / 2) ^ 2 <= P ^ 2 + z ^ 2.
Hypothesis HZ : Rabs z <= 60000000.
Hypothesis HPB : P <= 10 ^ 9.
Hypothesis HK : 1 <= K <= 10 ^ 8.
Hypothesis HKP : sqrt (P ^ 2 + z ^ 2) <= K * P.
Notation N_ := (Nf a E).
Notation U_ := (uf E z).
Notation w_ := (wf E P z).
Notation lat_ := (angle E P z).
Notation alt_ := (height a E P z).
Notation D_ := (Df a E P z).
Notation nx := (next a E P z).

(** the rest of the body of the loop, after sinLat *)
Definition rest64 (e2 N sinLat : f64) : fpy (f64 * f64 * f64) :=
  q <-! gdiv (fadd z64 (fmul (fmul e2 N) sinLat)) p64 ;
  let lat := g_atan L q in
  es <-! gsquare L (fmul e64 sinLat) ;
  d <-! gsqrt (fsub f_1 es) ;
  N <-! gdiv a64 d ;
  c <-! gcos L lat ;
  h <-! gdiv p64 c ;
  GRet (lat, N, fsub h N).
Lemma step_rest N alt : lla_step64 L p64 z64 N alt = (e2 <-! gsquare L e64 ; sinLat <-! gdiv z64 (fadd (fmul N (fsub f_1 e2)) alt) ; rest64 e2 N sinLat).
Proof. reflexivity. Qed.

(** the arguments with which the loop is entered: s = sinLat and n = N *)
Definition enters (s n : R) : Prop := 0 <= s * z /\ a <= n <= 17 / 10 * a /\ n * Rabs s <= 7 * Rabs z.

Lemma a_bounds : 6378137 <= a <= 6378137. Proof. unfold wgs84_a. lra. Qed.
Lemma U_facts s n : enters s n -> Rabs z <= Rabs (U_ s n) <= 1047 / 1000 * Rabs z /\ n * Rabs s <= 7 * Rabs z.
Proof.
  intros (HS & HN & HB). pose proof e2_bounds as EB. pose proof a_bounds as AB. pose proof (Rabs_pos s) as S0.
  pose proof HB as NS.
  split; [|exact NS]. unfold uf. assert (ES : Rabs (E * n * s) <= 47 / 1000 * Rabs z).
  { rewrite !Rabs_mult, (Rabs_pos_eq E), (Rabs_pos_eq n) by lra. rewrite Rmult_assoc. apply Rle_trans with (67 / 10000 * (n * Rabs s)); [apply Rmult_le_compat_r; [apply Rmult_le_pos; lra|lra]|]. pose proof (Rabs_pos z). lra. }
  split.
  - assert (SG : 0 <= (E * n * s) * z) by (replace (E * n * s * z) with (E * n * (s * z)) by ring; apply Rmult_le_pos; [apply Rmult_le_pos; lra|exact HS]).
    set (t := E * n * s) in *. apply Rsqr_le_abs_0. unfold Rsqr. nra.
  - eapply Rle_trans; [apply Rabs_triang|]. lra.
Qed.
Lemma w_all s n : enters s n -> a / 2 <= w_ s n /\ P <= w_ s n /\ Rabs (U_ s n) <= w_ s n /\ w_ s n <= 1047 / 1000 * (K * P) /\ w_ s n * w_ s n <= 1047 / 1000 * (K * w_ s n) * P /\ w_ s n <= 2 * 10 ^ 9 /\ w_ s n <= 1047 / 1000 * sqrt (P ^ 2 + z ^ 2).
Proof.
  intros HE. destruct (U_facts s n HE) as [[U1 U2] _]. destruct HE as (HS & HN & HB). pose proof a_bounds as AB.
  destruct (wf_bounds a E P z a_pos e2_bounds Hr s n HS ltac:(lra)) as (W1 & W2 & W3). split; [exact W1|].
  assert (W0 : 0 <= w_ s n) by lra. assert (WS : w_ s n * w_ s n = P ^ 2 + U_ s n ^ 2) by (unfold wf; apply sqrt_sqrt; nra).
  assert (W4 : P <= w_ s n) by (apply Rsqr_incr_0; unfold Rsqr; nra). split; [exact W4|].
  assert (UU : Rabs (U_ s n) * Rabs (U_ s n) = U_ s n ^ 2) by (rewrite <- Rabs_mult, Rabs_pos_eq by nra; ring).
  assert (W5 : Rabs (U_ s n) <= w_ s n) by (apply Rsqr_incr_0; [unfold Rsqr; nra|apply Rabs_pos|exact W0]). split; [exact W5|].
  assert (ZZ : Rabs z * Rabs z = z ^ 2) by (rewrite <- Rabs_mult, Rabs_pos_eq by nra; ring).
  set (r := sqrt (P ^ 2 + z ^ 2)) in *. assert (RR : r * r = P ^ 2 + z ^ 2) by (unfold r; apply sqrt_sqrt; nra). assert (R0 : 0 <= r) by apply sqrt_pos.
  assert (W6 : w_ s n <= 1047 / 1000 * r). { apply Rsqr_incr_0; [unfold Rsqr|exact W0|lra]. rewrite WS. assert (U_ s n ^ 2 <= 1047 / 1000 * Rabs z * (1047 / 1000 * Rabs z)) by (rewrite <- UU; apply Rmult_le_compat; try apply Rabs_pos; lra). nra. }
  assert (W7 : w_ s n <= 1047 / 1000 * (K * P)) by lra. split; [exact W7|]. split.
  - apply Rle_trans with (w_ s n * (1047 / 1000 * (K * P))); [apply Rmult_le_compat_l; assumption|]. lra.
  - assert (r <= P + Rabs z). { apply Rsqr_incr_0; [unfold Rsqr|exact R0|pose proof (Rabs_pos z); lra]. rewrite RR. pose proof (Rabs_pos z). nra. } split; [lra|exact W6].
Qed.
Lemma w_facts s n : enters s n -> a / 2 <= w_ s n /\ P <= w_ s n /\ Rabs (U_ s n) <= w_ s n /\ w_ s n <= 1047 / 1000 * (K * P) /\ w_ s n * w_ s n <= 1047 / 1000 * (K * w_ s n) * P /\ w_ s n <= 2 * 10 ^ 9.
Proof. intros HE. destruct (w_all s n HE) as (H1 & H2 & H3 & H4 & H5 & H6 & _). exact (conj H1 (conj H2 (conj H3 (conj H4 (conj H5 H6))))). Qed.

(** *** The latitude *)
Lemma lat_ap e2 s64 n64 : ap e2 E (u * (35 / 100)) -> fin s64 -> fin n64 -> enters (val s64) (val n64) ->
  exists q, gdiv (fadd z64 (fmul (fmul e2 n64) s64)) p64 = GRet q /\ ap (g_atan L q) (lat_ (val s64) (val n64)) (13 * u).
Proof.
  intros AE Fs Fn HE. set (s := val s64) in *. set (n := val n64) in *. destruct (U_facts s n HE) as [[U1 U2] NS]. destruct (w_facts s n HE) as (_ & _ & W5 & W7 & _ & WB).
  destruct HE as (HS & HN & HB). pose proof e2_bounds as EB. pose proof a_bounds as AB. pose proof (Rabs_pos s) as S0.
  assert (A1 : ap (fmul e2 n64) (E * n) (u * (36 / 100) * n)). { apply (ap_mul _ _ _ _ (u * (35 / 100)) 0 (67 / 10000) n (u * (35 / 100) * n)); [exact AE|apply ap_exact; exact Fn|apply Rabs_le; lra|apply Rabs_le; lra|num|num|num]. }
  assert (EN : Rabs (E * n) <= 67 / 10000 * n) by (rewrite Rabs_mult, (Rabs_pos_eq E), (Rabs_pos_eq n) by lra; apply Rmult_le_compat_r; lra).
  set (ns := n * Rabs s) in *. assert (NS0 : 0 <= ns) by (apply Rmult_le_pos; lra).
  assert (A2 : ap (fmul (fmul e2 n64) s64) (E * n * s) (u * (37 / 100) * ns + 2 * eta)).
  { apply (ap_mul _ _ _ _ (u * (36 / 100) * n) 0 (67 / 10000 * n) (Rabs s) (u * (36 / 100) * ns)); [exact A1|apply ap_exact; exact Fs|exact EN|apply Rle_refl|unfold ns; num| |];
      replace (67 / 10000 * n * Rabs s) with (67 / 10000 * ns) by (unfold ns; ring); num. }
  assert (A3 : ap (fadd z64 (fmul (fmul e2 n64) s64)) (U_ s n) (4 * u * Rabs (U_ s n) + 4 * eta)).
  { apply (ap_add _ _ _ _ 0 (u * (37 / 100) * ns + 2 * eta) (Rabs (U_ s n))); [apply ap_exact; exact Hz|exact A2|apply Rle_refl|num|num]. }
  set (Uv := Rabs (U_ s n)) in *. assert (U0 : 0 <= Uv) by apply Rabs_pos.
  set (Q := Uv / P). assert (Q0 : 0 <= Q) by (apply Rmult_le_pos; [exact U0|left; apply Rinv_0_lt_compat; lra]). assert (QB : Q <= 2 * 10 ^ 10).
  { unfold Q. apply Rmult_le_reg_r with P; [lra|]. unfold Rdiv. rewrite Rmult_assoc, Rinv_l by lra. lra. }
  assert (UQ : Uv = Q * P) by (unfold Q; field; lra).
  destruct (ap_div (fadd z64 (fmul (fmul e2 n64) s64)) p64 (U_ s n) P (4 * u * Uv + 4 * eta) (4 * u * P) Uv P (801 / 100 * u * Q + 50 * eta) (91 / 10 * u * Q + 60 * eta) A3 Hp) as [G A4].
  { apply Rle_refl. } { lra. } { rewrite Rabs_pos_eq; lra. } { num. }
  { fold Q. apply Rmult_le_reg_r with (P - 4 * u * P); [num|]. unfold Rdiv at 1. rewrite Rmult_assoc, Rinv_l by num. rewrite Rmult_1_r, UQ. set (PQ := Q * P) in *. assert (0 <= PQ) by lra.
    replace (4 * u * PQ + 4 * eta + Q * (4 * u * P)) with (8 * u * PQ + 4 * eta) by (unfold PQ; ring).
    replace ((801 / 100 * u * Q + 50 * eta) * (P - 4 * u * P)) with (801 / 100 * u * (1 - 4 * u) * PQ + 50 * (1 - 4 * u) * (eta * P)) by (unfold PQ; ring).
    pose proof eta_pos. assert (eta / 10 <= eta * P) by (apply Rle_trans with (eta * / 10); [lra|apply Rmult_le_compat_l; lra]). num. }
  { fold Q. num. } { fold Q. num. }
  eexists. split; [exact G|]. destruct A4 as [FQ EQ]. set (q := fdiv (fadd z64 (fmul (fmul e2 n64) s64)) p64) in *.
  assert (AB' : Rabs (U_ s n / P) = Q) by (unfold Rdiv; rewrite Rabs_mult, Rabs_inv, (Rabs_pos_eq P) by lra; reflexivity).
  assert (T : Rabs (atan (val q) - lat_ s n) <= 92 / 10 * u).
  { unfold angle. set (x := U_ s n / P) in *.
    assert (exists x', Rabs (x' - x) <= 91 / 10 * u * Rabs x /\ Rabs (val q - x') <= 60 * eta) as (x' & X1 & X2).
    { rewrite AB'. set (D := val q - x) in *. destruct (Rle_dec (Rabs D) (91 / 10 * u * Q)) as [C|C].
      - exists (val q). fold D. split; [exact C|]. replace (val q - val q) with 0 by ring. rewrite Rabs_R0. pose proof eta_pos. lra.
      - assert (0 <= 91 / 10 * u * Q) by num. destruct (Rle_dec 0 D) as [S|S].
        + rewrite (Rabs_pos_eq D S) in *. exists (x + 91 / 10 * u * Q). split; apply Rabs_le; unfold D in *; lra.
        + rewrite (Rabs_left D) in * by lra. exists (x - 91 / 10 * u * Q). split; apply Rabs_le; unfold D in *; lra. }
    replace (atan (val q) - atan x) with ((atan (val q) - atan x') + (atan x' - atan x)) by ring. eapply Rle_trans; [apply Rabs_triang|].
    pose proof (atan_lipschitz (val q) x') as B1. pose proof (atan_rel x (91 / 10 * u) ltac:(split; num) x' X1) as B2. num. }
  pose proof (am_atan L AM q FQ) as O. apply (ap_ulp _ (atan (val q)) _ (92 / 10 * u) (16 / 10)); [exact O|exact T| |num].
  unfold angle. pose proof (atan_bound (U_ s n / P)). pose proof pi_digits. apply Rabs_le. lra.
Qed.
End Step.
