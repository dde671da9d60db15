(** * The iteration of GPS.ecef2lla as a contraction

    One pass through the loop of RangeCoordinates.py:149-154 depends only on sinLat and on the N used to get lat from it.
    On pairs (sinLat, N) it is a contraction with factor 1/40 for every position at least half an Earth radius from the centre. *)
From Coq Require Import Reals Lra Lia ZArith Psatz.
Local Open Scope R_scope.

Lemma Rabs_le_iff x y : Rabs x <= y <-> - y <= x <= y.
Proof. unfold Rabs. destruct (Rcase_abs x); lra. Qed.
Lemma sqrt_ge_id x : 0 <= x <= 1 -> x <= sqrt x.
Proof. intros H. rewrite <- (sqrt_square x) at 1 by lra. apply sqrt_le_1; nra. Qed.
Lemma Rabs_mult_le x y m k : Rabs x <= m -> Rabs y <= k -> Rabs (x * y) <= m * k.
Proof. intros A B. rewrite Rabs_mult. pose proof (Rabs_pos x). pose proof (Rabs_pos y). apply Rmult_le_compat; lra. Qed.
(** sqrt (p^2 + u^2) changes no faster than u *)
Lemma hyp_lipschitz p u v : Rabs (sqrt (p ^ 2 + u ^ 2) - sqrt (p ^ 2 + v ^ 2)) <= Rabs (u - v).
Proof.
  assert (K : forall u v, sqrt (p ^ 2 + u ^ 2) <= sqrt (p ^ 2 + v ^ 2) + Rabs (u - v)).
  { clear. intros u v. set (w := sqrt (p ^ 2 + v ^ 2)). pose proof (sqrt_pos (p ^ 2 + v ^ 2)) as P. fold w in P.
    assert (S : w * w = p ^ 2 + v ^ 2) by (apply sqrt_sqrt; nra). pose proof (Rabs_pos (u - v)) as D.
    rewrite <- (sqrt_square (w + Rabs (u - v))) by lra. apply sqrt_le_1; [nra|nra|].
    assert (Hv : Rabs v <= w). { rewrite <- (sqrt_square (Rabs v)) by apply Rabs_pos. apply sqrt_le_1; [apply Rmult_le_pos; apply Rabs_pos|nra|]. rewrite <- Rabs_mult, Rabs_pos_eq by nra. nra. }
    assert (Q : Rabs (u - v) * Rabs (u - v) = (u - v) * (u - v)) by (rewrite <- Rabs_mult; apply Rabs_pos_eq; apply Rle_0_sqr).
    assert (C : v * (u - v) <= w * Rabs (u - v)). { eapply Rle_trans; [apply Rle_abs|]. rewrite Rabs_mult. apply Rmult_le_compat_r; assumption. }
    nra. }
  apply Rabs_le_iff. pose proof (K u v) as A. pose proof (K v u) as B. rewrite (Rabs_minus_sym v u) in B. lra.
Qed.

Section Iteration.
Variables a E p z : R.
Hypothesis Ha : 0 < a.
Hypothesis HE : 0 < E < 67 / 10000.
Hypothesis Hp : 0 < p.
Hypothesis Hr : (a / 2) ^ 2 <= p ^ 2 + z ^ 2.

Definition Nf (s : R) : R := a / sqrt (1 - E * s ^ 2).
Definition uf (s n : R) : R := z + E * n * s.
Definition wf (s n : R) : R := sqrt (p ^ 2 + uf s n ^ 2).
Definition Df (s n : R) : R := wf s n - E * Nf s.
Definition next (s n : R) : R := z / Df s n.

Lemma Nf_bounds s M q : 0 < q -> E * M ^ 2 <= 1 - q -> Rabs s <= M -> q <= 1 -> 0 < 1 - E * s ^ 2 <= 1 /\ a <= Nf s <= a / sqrt q.
Proof.
  intros Hq HM Hs Hq1. apply Rabs_le_iff in Hs. assert (S : 0 <= s ^ 2 <= M ^ 2) by (split; nra).
  assert (B : q <= 1 - E * s ^ 2 <= 1) by (split; nra). split; [lra|]. unfold Nf.
  assert (Q1 : 0 < sqrt q) by (apply sqrt_lt_R0; lra).
  assert (Q2 : sqrt q <= sqrt (1 - E * s ^ 2)) by (apply sqrt_le_1; lra).
  assert (Q3 : sqrt (1 - E * s ^ 2) <= 1) by (apply Rle_trans with (sqrt 1); [apply sqrt_le_1; lra|rewrite sqrt_1; lra]).
  split.
  - apply Rmult_le_reg_r with (sqrt (1 - E * s ^ 2)); [lra|]. unfold Rdiv. rewrite Rmult_assoc, Rinv_l by lra. nra.
  - unfold Rdiv. apply Rmult_le_compat_l; [lra|]. apply Rinv_le_contravar; assumption.
Qed.
Lemma Nf_small s : Rabs s <= 103 / 100 -> 0 < 1 - E * s ^ 2 <= 1 /\ a <= Nf s <= 101 / 100 * a.
Proof.
  intros Hs. destruct (Nf_bounds s (103 / 100) (99 / 100)) as (A & B & C); [lra|nra|exact Hs|lra|]. split; [exact A|]. split; [exact B|].
  eapply Rle_trans; [exact C|]. assert (Q : 994 / 1000 <= sqrt (99 / 100)). { rewrite <- (sqrt_square (994 / 1000)) by lra. apply sqrt_le_1; lra. }
  unfold Rdiv at 1. apply Rle_trans with (a * / (994 / 1000)); [|lra]. apply Rmult_le_compat_l; [lra|]. apply Rinv_le_contravar; lra.
Qed.

(** the distance from the centre, and from the axis plane *)
Lemma wf_bounds s n : 0 <= s * z -> 0 <= n -> a / 2 <= wf s n /\ Rabs z <= wf s n /\ sqrt (p ^ 2 + z ^ 2) <= wf s n.
Proof.
  intros Hs Hn. assert (U : z ^ 2 <= uf s n ^ 2). { unfold uf. assert (0 <= E * n * (s * z)) by (apply Rmult_le_pos; [nra|exact Hs]). nra. }
  assert (K : sqrt (p ^ 2 + z ^ 2) <= wf s n) by (apply sqrt_le_1; nra). split; [|split; [|exact K]].
  - eapply Rle_trans; [|exact K]. rewrite <- (sqrt_square (a / 2)) by lra. apply sqrt_le_1; nra.
  - eapply Rle_trans; [|exact K]. rewrite <- (sqrt_square (Rabs z)) by apply Rabs_pos. apply sqrt_le_1; [apply Rmult_le_pos; apply Rabs_pos|nra|].
    rewrite <- Rabs_mult, Rabs_pos_eq by apply Rle_0_sqr. nra.
Qed.

(** the denominator, with N at most k a and E k <= c / 2 *)
Lemma Df_bounds s n k c : 0 <= s * z -> 0 <= n -> Nf s <= k * a -> E * k <= c / 2 -> c < 1 -> 0 <= c ->
  (1 - c) * wf s n <= Df s n /\ (1 - c) * (a / 2) <= Df s n.
Proof.
  intros Hs Hn HN Hk Hc Hc0. destruct (wf_bounds s n Hs Hn) as (A & B & _). unfold Df.
  assert (E * Nf s <= c / 2 * a). { apply Rle_trans with (E * (k * a)); [apply Rmult_le_compat_l; lra|]. nra. }
  split; nra.
Qed.
Lemma next_bounds s n k c : 0 <= s * z -> 0 <= n -> Nf s <= k * a -> E * k <= c / 2 -> c < 1 -> 0 <= c ->
  0 < Df s n /\ 0 <= next s n * z /\ Rabs (next s n) <= / (1 - c).
Proof.
  intros Hs Hn HN Hk Hc Hc0. destruct (wf_bounds s n Hs Hn) as (A & B & _). destruct (Df_bounds s n k c Hs Hn HN Hk Hc Hc0) as [D1 D2].
  assert (D : 0 < Df s n) by nra. split; [exact D|]. assert (I : 0 < / Df s n) by (apply Rinv_0_lt_compat; exact D). split.
  - unfold next, Rdiv. replace (z * / Df s n * z) with (z ^ 2 * / Df s n) by ring. nra.
  - unfold next, Rdiv. rewrite Rabs_mult, (Rabs_pos_eq (/ _)) by lra. apply Rmult_le_reg_r with (Df s n); [exact D|]. rewrite Rmult_assoc, Rinv_l, Rmult_1_r by lra.
    apply Rmult_le_reg_l with (1 - c); [lra|]. rewrite <- Rmult_assoc, Rinv_r, Rmult_1_l by lra. nra.
Qed.

(** the states on which it contracts, and what leads into them *)
Definition near (s n : R) : Prop := Rabs s <= 103 / 100 /\ 0 <= s * z /\ a <= n <= 101 / 100 * a.
Lemma next_near s n : Rabs s <= 103 / 100 -> 0 <= s * z -> 0 <= n -> 0 < Df s n /\ near (next s n) (Nf s).
Proof.
  intros Hs Hz Hn. destruct (Nf_small s Hs) as (_ & N1 & N2).
  destruct (next_bounds s n (101 / 100) (14 / 1000) Hz Hn N2 ltac:(lra) ltac:(lra) ltac:(lra)) as (D & S & B). split; [exact D|]. split; [|split; [exact S|split; assumption]].
  eapply Rle_trans; [exact B|]. lra.
Qed.

Lemma Nf_lipschitz s t : Rabs s <= 103 / 100 -> Rabs t <= 103 / 100 -> Rabs (Nf s - Nf t) <= 106 / 100 * a * E * Rabs (s - t).
Proof.
  intros Hs Ht. destruct (Nf_small s Hs) as (A & N1 & N2). destruct (Nf_small t Ht) as (B & M1 & M2).
  apply Rabs_le_iff in Hs, Ht. assert (S2 : 0 <= s ^ 2 <= 10609 / 10000) by (split; nra). assert (T2 : 0 <= t ^ 2 <= 10609 / 10000) by (split; nra).
  set (x := sqrt (1 - E * s ^ 2)) in *. set (y := sqrt (1 - E * t ^ 2)) in *.
  assert (X : 9928 / 10000 <= x) by (eapply Rle_trans; [|apply sqrt_ge_id; lra]; nra).
  assert (Y : 9928 / 10000 <= y) by (eapply Rle_trans; [|apply sqrt_ge_id; lra]; nra).
  assert (XX : x * x = 1 - E * s ^ 2) by (apply sqrt_sqrt; lra). assert (YY : y * y = 1 - E * t ^ 2) by (apply sqrt_sqrt; lra).
  assert (XY : 195 / 100 <= x * y * (x + y)). { apply Rle_trans with (985 / 1000 * (x + y)); [lra|]. apply Rmult_le_compat_r; nra. }
  assert (Q : Nf s - Nf t = a * E * (s + t) * (s - t) * / (x * y * (x + y))).
  { unfold Nf. fold x y. apply Rmult_eq_reg_r with (x * y * (x + y)); [|lra]. rewrite (Rmult_assoc _ (/ _)), Rinv_l, Rmult_1_r by lra.
    replace ((a / x - a / y) * (x * y * (x + y))) with (a * (y * y - x * x)) by (field; split; lra). rewrite XX, YY. ring. }
  rewrite Q. assert (I : 0 < / (x * y * (x + y)) <= / (195 / 100)).
  { split; [apply Rinv_0_lt_compat; lra|apply Rinv_le_contravar; lra]. }
  rewrite !Rabs_mult, (Rabs_pos_eq a), (Rabs_pos_eq E), (Rabs_pos_eq (/ _)) by lra.
  assert (ST : Rabs (s + t) <= 206 / 100) by (apply Rabs_le_iff; lra). pose proof (Rabs_pos (s + t)). pose proof (Rabs_pos (s - t)).
  replace (a * E * Rabs (s + t) * Rabs (s - t) * / (x * y * (x + y))) with (a * E * Rabs (s - t) * (Rabs (s + t) * / (x * y * (x + y)))) by ring.
  replace (106 / 100 * a * E * Rabs (s - t)) with (a * E * Rabs (s - t) * (106 / 100)) by ring.
  apply Rmult_le_compat_l; [apply Rmult_le_pos; [nra|lra]|]. apply Rle_trans with (206 / 100 * / (195 / 100)); [apply Rmult_le_compat; lra|lra].
Qed.

Lemma uf_lipschitz s n t m : near s n -> near t m -> Rabs (uf s n - uf t m) <= E * (101 / 100 * a * Rabs (s - t) + 103 / 100 * Rabs (n - m)).
Proof.
  intros (S1 & _ & N1) (T1 & _ & M1). unfold uf. replace (z + E * n * s - (z + E * m * t)) with (E * (n * (s - t) + t * (n - m))) by ring.
  rewrite Rabs_mult, (Rabs_pos_eq E) by lra. apply Rmult_le_compat_l; [lra|]. eapply Rle_trans; [apply Rabs_triang|]. rewrite !Rabs_mult, (Rabs_pos_eq n) by lra.
  pose proof (Rabs_pos (s - t)). pose proof (Rabs_pos (n - m)). apply Rplus_le_compat; apply Rmult_le_compat_r; lra.
Qed.

(** the distance between two states, the second component in Earth radii *)
Definition gap (s n t m : R) : R := Rabs (s - t) + Rabs (n - m) / a.
Lemma gap_pos s n t m : 0 <= gap s n t m.
Proof. unfold gap. pose proof (Rabs_pos (s - t)). assert (0 <= Rabs (n - m) / a) by (apply Rmult_le_pos; [apply Rabs_pos|left; apply Rinv_0_lt_compat; exact Ha]). lra. Qed.
Lemma gap_tri s n t m u k : gap s n u k <= gap s n t m + gap t m u k.
Proof.
  unfold gap. pose proof (Rabs_triang (s - t) (t - u)) as A. replace (s - t + (t - u)) with (s - u) in A by ring.
  pose proof (Rabs_triang (n - m) (m - k)) as B. replace (n - m + (m - k)) with (n - k) in B by ring.
  assert (I : 0 < / a) by (apply Rinv_0_lt_compat; exact Ha). unfold Rdiv. nra.
Qed.

Lemma contracts s n t m : near s n -> near t m -> gap (next s n) (Nf s) (next t m) (Nf t) <= gap s n t m / 40.
Proof.
  intros HS HT. pose proof HS as (S1 & S2 & S3). pose proof HT as (T1 & T2 & T3).
  pose proof (uf_lipschitz s n t m HS HT) as U. pose proof (Nf_lipschitz s t S1 T1) as NN.
  destruct (Nf_small s S1) as (_ & N1 & N2). destruct (Nf_small t T1) as (_ & M1 & M2).
  destruct (Df_bounds s n (101 / 100) (14 / 1000) S2 ltac:(lra) N2 ltac:(lra) ltac:(lra) ltac:(lra)) as [D1 D2].
  destruct (Df_bounds t m (101 / 100) (14 / 1000) T2 ltac:(lra) M2 ltac:(lra) ltac:(lra) ltac:(lra)) as [G1 G2].
  destruct (next_bounds t m (101 / 100) (14 / 1000) T2 ltac:(lra) M2 ltac:(lra) ltac:(lra) ltac:(lra)) as (GP & _ & Z).
  destruct (next_bounds s n (101 / 100) (14 / 1000) S2 ltac:(lra) N2 ltac:(lra) ltac:(lra) ltac:(lra)) as (DP & _ & _).
  set (ds := Rabs (s - t)) in *. set (dn := Rabs (n - m)) in *. assert (Hds : 0 <= ds) by apply Rabs_pos. assert (Hdn : 0 <= dn) by apply Rabs_pos.
  assert (DD : Rabs (Df t m - Df s n) <= E * (10172 / 10000 * a * ds + 103 / 100 * dn)).
  { unfold Df. replace (wf t m - E * Nf t - (wf s n - E * Nf s)) with (- ((wf s n - wf t m) - E * (Nf s - Nf t))) by ring. rewrite Rabs_Ropp.
    eapply Rle_trans; [apply Rabs_triang|]. rewrite Rabs_Ropp, Rabs_mult, (Rabs_pos_eq E) by lra.
    pose proof (hyp_lipschitz p (uf s n) (uf t m)) as H. fold (wf s n) (wf t m) in H.
    assert (E * Rabs (Nf s - Nf t) <= E * (72 / 10000 * a * ds)). { apply Rmult_le_compat_l; [lra|]. eapply Rle_trans; [exact NN|]. apply Rmult_le_compat_r; [exact Hds|]. nra. }
    lra. }
  assert (NS : Rabs (next s n - next t m) <= / a * (2058 / 1000) * Rabs (Df t m - Df s n)).
  { assert (Q : next s n - next t m = next t m * (Df t m - Df s n) * / Df s n) by (unfold next; field; split; lra).
    rewrite Q, !Rabs_mult, (Rabs_pos_eq (/ _)) by (left; apply Rinv_0_lt_compat; lra). pose proof (Rabs_pos (Df t m - Df s n)). pose proof (Rabs_pos (next t m)).
    assert (I : / Df s n <= / ((1 - 14 / 1000) * (a / 2))) by (apply Rinv_le_contravar; lra).
    replace (/ ((1 - 14 / 1000) * (a / 2))) with (/ a * (/ (1 - 14 / 1000) * 2)) in I by (field; lra).
    assert (IA : 0 < / a) by (apply Rinv_0_lt_compat; exact Ha). assert (ID : 0 < / Df s n) by (apply Rinv_0_lt_compat; exact DP).
    replace (Rabs (next t m) * Rabs (Df t m - Df s n) * / Df s n) with (Rabs (next t m) * / Df s n * Rabs (Df t m - Df s n)) by ring. apply Rmult_le_compat_r; [lra|].
    apply Rle_trans with (/ (1 - 14 / 1000) * (/ a * (/ (1 - 14 / 1000) * 2))); [apply Rmult_le_compat; lra|]. lra. }
  assert (IA : 0 < / a) by (apply Rinv_0_lt_compat; exact Ha). unfold gap, Rdiv. fold ds dn.
  set (dm := dn * / a). assert (Hdm : dn = dm * a) by (unfold dm; field; lra). assert (0 <= dm) by (unfold dm; apply Rmult_le_pos; lra).
  assert (K1 : Rabs (next s n - next t m) <= 1403 / 100000 * ds + 143 / 10000 * dm).
  { eapply Rle_trans; [exact NS|]. apply Rle_trans with (/ a * (2058 / 1000) * (E * (10172 / 10000 * a * ds + 103 / 100 * dn))); [apply Rmult_le_compat_l; [lra|exact DD]|].
    rewrite Hdm. replace (/ a * (2058 / 1000) * (E * (10172 / 10000 * a * ds + 103 / 100 * (dm * a)))) with (2058 / 1000 * E * (10172 / 10000 * ds + 103 / 100 * dm)) by (field; lra). nra. }
  assert (K2 : Rabs (Nf s - Nf t) * / a <= 711 / 100000 * ds).
  { apply Rle_trans with (106 / 100 * a * E * ds * / a); [apply Rmult_le_compat_r; lra|]. replace (106 / 100 * a * E * ds * / a) with (106 / 100 * E * ds) by (field; lra). nra. }
  lra.
Qed.

(** *** Latitude and altitude of a state *)
Definition angle (s n : R) : R := atan (uf s n / p).
Definition height (s n : R) : R := wf s n - Nf s.

Lemma atan_between x y b : 0 <= b -> (forall c, Rmin x y <= c <= Rmax x y -> b <= c ^ 2) -> Rabs (atan x - atan y) <= Rabs (x - y) / (1 + b).
Proof.
  intros Hb. assert (K : forall x y, x < y -> (forall c, x <= c <= y -> b <= c ^ 2) -> Rabs (atan x - atan y) <= Rabs (x - y) / (1 + b)).
  { intros x0 y0 L H. destruct (MVT_cor2 atan (fun c => / (1 + c ^ 2)) x0 y0 L) as (c & C1 & C2); [intros c _; apply derivable_pt_lim_atan|].
    rewrite (Rabs_minus_sym (atan x0)), (Rabs_minus_sym x0), C1. assert (Q := H c ltac:(lra)).
    rewrite Rabs_mult, (Rabs_pos_eq (/ _)) by (left; apply Rinv_0_lt_compat; lra).
    unfold Rdiv. rewrite Rmult_comm. apply Rmult_le_compat_l; [apply Rabs_pos|]. apply Rinv_le_contravar; lra. }
  intros H. destruct (Rtotal_order x y) as [L|[->|L]].
  - apply K; [exact L|]. intros c Hc. apply H. rewrite Rmin_left, Rmax_right by lra. exact Hc.
  - rewrite !Rminus_diag_eq, Rabs_R0 by reflexivity. unfold Rdiv. rewrite Rmult_0_l. lra.
  - rewrite Rabs_minus_sym, (Rabs_minus_sym x). apply K; [exact L|]. intros c Hc. apply H. rewrite Rmin_right, Rmax_left by lra. exact Hc.
Qed.

Lemma uf_side s n : 0 <= s * z -> 0 <= n -> 0 < z /\ z <= uf s n \/ z < 0 /\ uf s n <= z \/ z = 0.
Proof.
  intros Hs Hn. unfold uf. destruct (Rtotal_order z 0) as [L|[->|L]]; [right; left|now right; right|left]; (split; [exact L|]).
  - assert (s <= 0) by nra. assert (0 <= E * n) by nra. nra.
  - assert (0 <= s) by nra. assert (0 <= E * n) by nra. nra.
Qed.

Lemma angle_uf s n t m : 0 <= s * z -> 0 <= n -> 0 <= t * z -> 0 <= m -> Rabs (angle s n - angle t m) <= Rabs (uf s n - uf t m) * (2 / a).
Proof.
  intros Hs Hn Ht Hm. unfold angle. set (u := uf s n). set (v := uf t m). assert (IP : 0 < / p) by (apply Rinv_0_lt_compat; exact Hp).
  eapply Rle_trans; [apply (atan_between _ _ ((z / p) ^ 2)); [nra|]|].
  - intros c Hc. pose proof (uf_side s n Hs Hn) as U. pose proof (uf_side t m Ht Hm) as W. fold u in U. fold v in W. unfold Rdiv in *.
    assert (Sc : forall x y, x <= y -> x * / p <= y * / p) by (intros; apply Rmult_le_compat_r; lra).
    destruct (Rtotal_order z 0) as [L|[L|L]].
    + assert (c <= z * / p). { eapply Rle_trans; [apply Hc|]. apply Rmax_lub; apply Sc; lra. } assert (z * / p < 0) by nra. nra.
    + rewrite L, Rmult_0_l. nra.
    + assert (z * / p <= c). { eapply Rle_trans; [|apply Hc]. apply Rmin_glb; apply Sc; lra. } assert (0 < z * / p) by nra. nra.
  - replace (u / p - v / p) with ((u - v) * / p) by (field; lra). rewrite Rabs_mult, (Rabs_pos_eq (/ p)) by lra. unfold Rdiv. rewrite Rmult_assoc. apply Rmult_le_compat_l; [apply Rabs_pos|].
    replace (/ p * / (1 + (z * / p) ^ 2)) with (p * / (p ^ 2 + z ^ 2)) by (field; split; nra).
    set (r := sqrt (p ^ 2 + z ^ 2)). assert (RR : r * r = p ^ 2 + z ^ 2) by (apply sqrt_sqrt; nra).
    assert (R1 : p <= r) by (unfold r; rewrite <- (sqrt_square p) at 1 by lra; apply sqrt_le_1; nra).
    assert (R2 : a / 2 <= r) by (unfold r; rewrite <- (sqrt_square (a / 2)) by lra; apply sqrt_le_1; nra).
    rewrite <- RR. apply Rle_trans with (/ r).
    + replace (/ r) with (r * / (r * r)) by (field; lra). apply Rmult_le_compat_r; [left; apply Rinv_0_lt_compat; nra|exact R1].
    + replace (2 * / a) with (/ (a / 2)) by (field; lra). apply Rinv_le_contravar; lra.
Qed.

Lemma angle_near s n t m : near s n -> near t m -> Rabs (angle s n - angle t m) <= 139 / 10000 * gap s n t m.
Proof.
  intros HS HT. pose proof HS as (S1 & S2 & S3). pose proof HT as (T1 & T2 & T3).
  eapply Rle_trans; [apply angle_uf; try assumption; lra|]. pose proof (uf_lipschitz s n t m HS HT) as U.
  assert (IA : 0 < / a) by (apply Rinv_0_lt_compat; exact Ha). unfold gap, Rdiv. set (ds := Rabs (s - t)) in *. set (dm := Rabs (n - m) * / a).
  assert (0 <= ds) by apply Rabs_pos. assert (0 <= dm) by (apply Rmult_le_pos; [apply Rabs_pos|lra]). assert (Q : Rabs (n - m) = dm * a) by (unfold dm; field; lra). rewrite Q in U.
  eapply Rle_trans; [apply Rmult_le_compat_r; [lra|exact U]|].
  replace (E * (101 / 100 * a * ds + 103 / 100 * (dm * a)) * (2 * / a)) with (E * (202 / 100 * ds + 206 / 100 * dm)) by (field; lra). nra.
Qed.
Lemma height_near s n t m : near s n -> near t m -> Rabs (height s n - height t m) <= 139 / 10000 * a * gap s n t m.
Proof.
  intros HS HT. pose proof HS as (S1 & S2 & S3). pose proof HT as (T1 & T2 & T3).
  pose proof (uf_lipschitz s n t m HS HT) as U. pose proof (Nf_lipschitz s t S1 T1) as NN. pose proof (hyp_lipschitz p (uf s n) (uf t m)) as H. fold (wf s n) (wf t m) in H.
  unfold height. replace (wf s n - Nf s - (wf t m - Nf t)) with (wf s n - wf t m + - (Nf s - Nf t)) by ring. eapply Rle_trans; [apply Rabs_triang|]. rewrite Rabs_Ropp.
  assert (IA : 0 < / a) by (apply Rinv_0_lt_compat; exact Ha). unfold gap, Rdiv. set (ds := Rabs (s - t)) in *. set (dm := Rabs (n - m) * / a).
  assert (0 <= ds) by apply Rabs_pos. assert (0 <= dm) by (apply Rmult_le_pos; [apply Rabs_pos|lra]). assert (Q : Rabs (n - m) = dm * a) by (unfold dm; field; lra). rewrite Q in U.
  apply Rle_trans with (E * (a * (207 / 100 * ds + 103 / 100 * dm))); [lra|]. replace (139 * / 10000 * a * (ds + dm)) with (139 / 10000 * (a * (ds + dm))) by field.
  apply Rle_trans with (67 / 10000 * (a * (207 / 100 * ds + 103 / 100 * dm))); [apply Rmult_le_compat_r; [apply Rmult_le_pos; lra|lra]|].
  replace (67 / 10000 * (a * (207 / 100 * ds + 103 / 100 * dm))) with (a * (13869 / 1000000 * ds + 6901 / 1000000 * dm)) by field. replace (139 / 10000 * (a * (ds + dm))) with (a * (139 / 10000 * ds + 139 / 10000 * dm)) by field.
  apply Rmult_le_compat_l; lra.
Qed.

(** *** Iterates *)
Fixpoint iter (k : nat) (s n : R) : R * R := match k with O => (s, n) | S k => iter k (next s n) (Nf s) end.
Lemma iter_near k : forall s n, near s n -> near (fst (iter k s n)) (snd (iter k s n)).
Proof. induction k as [|k IH]; intros s n H; [exact H|]. cbn [iter]. apply IH. destruct H as (A & B & C). apply next_near; try assumption; lra. Qed.
Lemma iter_gap k : forall s n t m, near s n -> near t m -> gap (fst (iter k s n)) (snd (iter k s n)) (fst (iter k t m)) (snd (iter k t m)) <= gap s n t m * (/ 40) ^ k.
Proof.
  induction k as [|k IH]; intros s n t m HS HT; [cbn; lra|]. cbn [iter].
  assert (NS : near (next s n) (Nf s)) by (destruct HS as (A & B & C); apply next_near; try assumption; lra).
  assert (NT : near (next t m) (Nf t)) by (destruct HT as (A & B & C); apply next_near; try assumption; lra).
  eapply Rle_trans; [apply (IH _ _ _ _ NS NT)|]. pose proof (contracts s n t m HS HT) as C. assert (0 < (/ 40) ^ k) by (apply pow_lt; lra). cbn [pow]. nra.
Qed.
Lemma iter_fixed k s n : next s n = s -> Nf s = n -> iter k s n = (s, n).
Proof. intros A B. induction k as [|k IH]; [reflexivity|]. cbn [iter]. now rewrite A, B. Qed.

End Iteration.
