(** * Further facts about the wire specification: decoding first *)
From Coq Require Import ZArith String List Bool Lia ZifyBool.
From Coq Require Import Strings.Byte.
From Verif Require Import Lang Bytes Spec Codec.
Import ListNotations.
Open Scope string_scope. Open Scope Z_scope. Open Scope list_scope.

(** ** float32 -> float64 -> float32 *)

(** bit pattern of the quiet NaN a signalling NaN is turned into *)
Definition is_nan32 (c : Z) : bool := ((c / 2 ^ 23) mod 2 ^ 8 =? 255) && negb (c mod 2 ^ 23 =? 0).
Definition is_nan64 (d : Z) : bool := ((d / 2 ^ 52) mod 2 ^ 11 =? 2047) && negb (d mod 2 ^ 52 =? 0).
Definition quiet32 (c : Z) : Z :=
  if is_nan32 c then (c / 2 ^ 23) * 2 ^ 23 + 2 ^ 22 + c mod 2 ^ 22 else c.

Lemma split64 s e m : 0 <= s <= 1 -> 0 <= e < 2 ^ 11 -> 0 <= m < 2 ^ 52 ->
  let d := s * 2 ^ 63 + e * 2 ^ 52 + m in
  d / 2 ^ 63 = s /\ (d / 2 ^ 52) mod 2 ^ 11 = e /\ d mod 2 ^ 52 = m.
Proof.
  intros Hs He Hm d.
  assert (A : d / 2 ^ 52 = s * 2 ^ 11 + e) by (symmetry; apply Z.div_unique with (r := m); lia).
  assert (B : d mod 2 ^ 52 = m) by (symmetry; apply Z.mod_unique with (q := s * 2 ^ 11 + e); lia).
  assert (C : d / 2 ^ 63 = s) by (symmetry; apply Z.div_unique with (r := e * 2 ^ 52 + m); lia).
  rewrite A, B, C. repeat split. symmetry. apply Z.mod_unique with (q := s); lia.
Qed.

Lemma round_shift_exact q k : 0 < k -> round_shift (q * 2 ^ k) k = q.
Proof.
  intros Hk. unfold round_shift. destruct (Z.leb_spec k 0); [lia|].
  rewrite Z.div_mul, Z.mod_mul by (apply Z.pow_nonzero; lia).
  assert (0 < 2 ^ (k - 1)) by (apply Z.pow_pos_nonneg; lia).
  destruct (Z.ltb_spec 0 (2 ^ (k - 1))); lia.
Qed.

Lemma parts32 c : 0 <= c < 2 ^ 32 ->
  exists s e m, 0 <= s <= 1 /\ 0 <= e < 2 ^ 8 /\ 0 <= m < 2 ^ 23 /\ c = s * 2 ^ 31 + e * 2 ^ 23 + m /\
    c / 2 ^ 31 = s /\ (c / 2 ^ 23) mod 2 ^ 8 = e /\ c mod 2 ^ 23 = m /\ c / 2 ^ 23 = s * 2 ^ 8 + e.
Proof.
  intros Hc. exists (c / 2 ^ 31), ((c / 2 ^ 23) mod 2 ^ 8), (c mod 2 ^ 23).
  assert (A : (c / 2 ^ 23) / 2 ^ 8 = c / 2 ^ 31) by (rewrite Z.div_div by lia; reflexivity).
  assert (0 <= c / 2 ^ 31) by (apply Z.div_pos; lia).
  assert (c / 2 ^ 31 < 2) by (apply Z.div_lt_upper_bound; lia).
  assert (0 <= (c / 2 ^ 23) mod 2 ^ 8 < 2 ^ 8) by (apply Z.mod_pos_bound; lia).
  assert (0 <= c mod 2 ^ 23 < 2 ^ 23) by (apply Z.mod_pos_bound; lia).
  assert (E1 := Z.div_mod c (2 ^ 23)). assert (E2 := Z.div_mod (c / 2 ^ 23) (2 ^ 8)).
  rewrite A in E2. repeat split; lia.
Qed.

Theorem narrow_widen c : 0 <= c < 2 ^ 32 -> narrow (widen c) = Some (quiet32 c).
Proof.
  intros Hc. destruct (parts32 c Hc) as (s & e & m & Hs & He & Hm & Ec & E1 & E2 & E3 & E4).
  unfold widen, quiet32, is_nan32. rewrite E1, E2, E3.
  destruct (Z.eqb_spec e 255) as [->|Ne]; cbn [andb].
  - destruct (Z.eqb_spec m 0) as [->|Nm]; cbn [negb].
    + replace (s * 2 ^ 63 + 2047 * 2 ^ 52) with (s * 2 ^ 63 + 2047 * 2 ^ 52 + 0) by lia.
      destruct (split64 s 2047 0) as (A & B & D); try lia. unfold narrow. rewrite A, B, D.
      simpl (2047 =? 2047). simpl (0 =? 0). cbv iota. f_equal. lia.
    + assert (Hr : 0 <= m mod 2 ^ 22 < 2 ^ 22) by (apply Z.mod_pos_bound; lia).
      rewrite <- Z.add_assoc.
      destruct (split64 s 2047 (2 ^ 51 + m mod 2 ^ 22 * 2 ^ 29)) as (A & B & D); try lia.
      unfold narrow. rewrite A, B, D. simpl (2047 =? 2047). cbv iota.
      destruct (Z.eqb_spec (2 ^ 51 + m mod 2 ^ 22 * 2 ^ 29) 0); [lia|]. f_equal.
      replace ((2 ^ 51 + m mod 2 ^ 22 * 2 ^ 29) / 2 ^ 29) with (2 ^ 22 + m mod 2 ^ 22)
        by (apply Z.div_unique with (r := 0); lia).
      assert (Q : c mod 2 ^ 22 = m mod 2 ^ 22).
      { assert (E5 := Z.div_mod m (2 ^ 22)).
        symmetry. apply Z.mod_unique with (q := s * 2 ^ 9 + 255 * 2 + m / 2 ^ 22); lia. }
      assert (Q' : (2 ^ 22 + m mod 2 ^ 22) mod 2 ^ 22 = m mod 2 ^ 22)
        by (symmetry; apply Z.mod_unique with (q := 1); lia).
      rewrite E4, Q, Q'. lia.
  - destruct (Z.eqb_spec e 0) as [->|Ne0].
    + destruct (Z.eqb_spec m 0) as [->|Nm].
      * replace (s * 2 ^ 63) with (s * 2 ^ 63 + 0 * 2 ^ 52 + 0) by lia.
        destruct (split64 s 0 0) as (A & B & D); try lia. unfold narrow. rewrite A, B, D.
        simpl (0 =? 2047). simpl (0 =? 0). cbv iota. f_equal. lia.
      * set (k := Z.log2 m). assert (Hk : 0 <= k <= 22).
        { split; [apply Z.log2_nonneg|]. unfold k. apply Z.lt_succ_r. apply Z.log2_lt_pow2; lia. }
        assert (Hl := Z.log2_spec m ltac:(lia)). fold k in Hl. rewrite Z.pow_succ_r in Hl by lia.
        assert (P : 2 ^ 52 = 2 ^ k * 2 ^ (52 - k)) by (rewrite <- Z.pow_add_r by lia; f_equal; lia).
        assert (0 < 2 ^ (52 - k)) by (apply Z.pow_pos_nonneg; lia).
        assert (0 < 2 ^ k) by (apply Z.pow_pos_nonneg; lia).
        destruct (split64 s (k + 874) ((m - 2 ^ k) * 2 ^ (52 - k))) as (A & B & D); try lia; try nia.
        unfold narrow. rewrite A, B, D.
        destruct (Z.eqb_spec (k + 874) 2047); [lia|]. destruct (Z.eqb_spec (k + 874) 0); [lia|].
        destruct (Z.leb_spec 897 (k + 874)); [lia|].
        replace ((m - 2 ^ k) * 2 ^ (52 - k) + 2 ^ 52) with (m * 2 ^ (52 - k)) by (rewrite P; ring).
        replace (926 - (k + 874)) with (52 - k) by lia. rewrite round_shift_exact by lia. f_equal. lia.
    + destruct (split64 s (e + 896) (m * 2 ^ 29)) as (A & B & D); try lia.
      unfold narrow. rewrite A, B, D.
      destruct (Z.eqb_spec (e + 896) 2047); [lia|]. destruct (Z.eqb_spec (e + 896) 0); [lia|].
      destruct (Z.leb_spec 897 (e + 896)); [|lia].
      replace (m * 2 ^ 29 + 2 ^ 52) with ((m + 2 ^ 23) * 2 ^ 29) by ring.
      rewrite round_shift_exact by lia.
      destruct (Z.ltb_spec ((e + 896 - 897) * 2 ^ 23 + (m + 2 ^ 23)) (255 * 2 ^ 23)); [|lia]. f_equal. lia.
Qed.

Lemma widen_range c : 0 <= c < 2 ^ 32 -> 0 <= widen c < 2 ^ 64.
Proof.
  intros Hc. destruct (parts32 c Hc) as (s & e & m & Hs & He & Hm & Ec & E1 & E2 & E3 & E4).
  unfold widen. rewrite E1, E2, E3.
  destruct (Z.eqb_spec e 255) as [->|Ne].
  - destruct (Z.eqb_spec m 0); [lia|].
    assert (Hr : 0 <= m mod 2 ^ 22 < 2 ^ 22) by (apply Z.mod_pos_bound; lia). lia.
  - destruct (Z.eqb_spec e 0) as [->|Ne0]; [|lia].
    destruct (Z.eqb_spec m 0); [lia|].
    set (k := Z.log2 m). assert (Hk : 0 <= k <= 22).
    { split; [apply Z.log2_nonneg|]. unfold k. apply Z.lt_succ_r. apply Z.log2_lt_pow2; lia. }
    assert (Hl := Z.log2_spec m ltac:(lia)). fold k in Hl. rewrite Z.pow_succ_r in Hl by lia.
    assert (P : 2 ^ 52 = 2 ^ k * 2 ^ (52 - k)) by (rewrite <- Z.pow_add_r by lia; f_equal; lia).
    assert (0 < 2 ^ (52 - k)) by (apply Z.pow_pos_nonneg; lia).
    assert (0 <= (m - 2 ^ k) * 2 ^ (52 - k) < 2 ^ 52) by nia. lia.
Qed.

Lemma widen_quiet c : 0 <= c < 2 ^ 32 -> widen (quiet32 c) = widen c /\ 0 <= quiet32 c < 2 ^ 32.
Proof.
  intros Hc. unfold quiet32. destruct (is_nan32 c) eqn:N; [|auto].
  unfold is_nan32 in N. apply andb_true_iff in N as [N1 N2]. apply Z.eqb_eq in N1.
  apply negb_true_iff, Z.eqb_neq in N2.
  destruct (parts32 c Hc) as (s & e & m & Hs & He & Hm & Ec & E1 & E2 & E3 & E4).
  rewrite N1 in E2. subst e. rewrite E3 in N2. rewrite E4.
  assert (Hr : 0 <= c mod 2 ^ 22 < 2 ^ 22) by (apply Z.mod_pos_bound; lia).
  assert (Q : c mod 2 ^ 22 = m mod 2 ^ 22).
  { assert (E5 := Z.div_mod m (2 ^ 22)).
    assert (0 <= m mod 2 ^ 22 < 2 ^ 22) by (apply Z.mod_pos_bound; lia).
    symmetry. apply Z.mod_unique with (q := s * 2 ^ 9 + 255 * 2 + m / 2 ^ 22); lia. }
  set (c' := (s * 2 ^ 8 + 255) * 2 ^ 23 + 2 ^ 22 + c mod 2 ^ 22).
  assert (A1 : c' / 2 ^ 31 = s) by (symmetry; apply Z.div_unique with (r := 255 * 2 ^ 23 + 2 ^ 22 + c mod 2 ^ 22); unfold c'; lia).
  assert (A2 : c' / 2 ^ 23 = s * 2 ^ 8 + 255) by (symmetry; apply Z.div_unique with (r := 2 ^ 22 + c mod 2 ^ 22); unfold c'; lia).
  assert (A3 : c' mod 2 ^ 23 = 2 ^ 22 + c mod 2 ^ 22) by (symmetry; apply Z.mod_unique with (q := s * 2 ^ 8 + 255); unfold c'; lia).
  assert (A4 : (s * 2 ^ 8 + 255) mod 2 ^ 8 = 255) by (symmetry; apply Z.mod_unique with (q := s); lia).
  assert (A5 : (2 ^ 22 + c mod 2 ^ 22) mod 2 ^ 22 = m mod 2 ^ 22) by (rewrite Q; symmetry; apply Z.mod_unique with (q := 1); lia).
  split; [|unfold c'; lia].
  unfold widen. rewrite A1, A2, A3, A4, E1, E4, E3, A4, A5. simpl (255 =? 255). cbv iota.
  destruct (Z.eqb_spec (2 ^ 22 + c mod 2 ^ 22) 0); [lia|]. destruct (Z.eqb_spec m 0); [lia|]. reflexivity.
Qed.

Lemma is_nan_widen c : 0 <= c < 2 ^ 32 -> is_nan64 (widen c) = is_nan32 c.
Proof.
  intros Hc. destruct (parts32 c Hc) as (s & e & m & Hs & He & Hm & Ec & E1 & E2 & E3 & E4).
  unfold widen, is_nan32, is_nan64. rewrite E1, E2, E3.
  destruct (Z.eqb_spec e 255) as [->|Ne]; cbn [andb].
  - destruct (Z.eqb_spec m 0) as [->|Nm]; cbn [negb].
    + replace (s * 2 ^ 63 + 2047 * 2 ^ 52) with (s * 2 ^ 63 + 2047 * 2 ^ 52 + 0) by lia.
      destruct (split64 s 2047 0) as (A & B & D); try lia.
    + assert (Hr : 0 <= m mod 2 ^ 22 < 2 ^ 22) by (apply Z.mod_pos_bound; lia).
      rewrite <- Z.add_assoc.
      destruct (split64 s 2047 (2 ^ 51 + m mod 2 ^ 22 * 2 ^ 29)) as (A & B & D); try lia.
  - destruct (Z.eqb_spec e 0) as [->|Ne0].
    + destruct (Z.eqb_spec m 0) as [->|Nm].
      * replace (s * 2 ^ 63) with (s * 2 ^ 63 + 0 * 2 ^ 52 + 0) by lia.
        destruct (split64 s 0 0) as (A & B & D); try lia. all: try (now rewrite B, D).
      * set (k := Z.log2 m). assert (Hk : 0 <= k <= 22).
        { split; [apply Z.log2_nonneg|]. unfold k. apply Z.lt_succ_r. apply Z.log2_lt_pow2; lia. }
        assert (Hl := Z.log2_spec m ltac:(lia)). fold k in Hl. rewrite Z.pow_succ_r in Hl by lia.
        assert (P : 2 ^ 52 = 2 ^ k * 2 ^ (52 - k)) by (rewrite <- Z.pow_add_r by lia; f_equal; lia).
        assert (0 < 2 ^ (52 - k)) by (apply Z.pow_pos_nonneg; lia).
        destruct (split64 s (k + 874) ((m - 2 ^ k) * 2 ^ (52 - k))) as (A & B & D); try lia; try nia.
    + destruct (split64 s (e + 896) (m * 2 ^ 29)) as (A & B & D); try lia.
Qed.

(** ** Decoders that consume a prefix of the input *)
Definition prefixed {A} (d : list byte -> dres A) : Prop :=
  forall bs w r, d bs = DOk w r -> exists c, bs = c ++ r /\ forall t, d (c ++ t) = DOk w t.

Lemma dec_val_inv p bs x r : dec_val p bs = DOk x r ->
  exists c, bs = c ++ r /\ length c = width p /\ x = dec_prim p c.
Proof.
  unfold dec_val, read_prim. destruct (Nat.leb_spec (width p) (length bs)); [|discriminate].
  intros [= <- <-]. exists (firstn (width p) bs). rewrite firstn_skipn, firstn_length_le by assumption. auto.
Qed.

Lemma prefixed_val p : prefixed (dec_val p).
Proof.
  intros bs x r H. destruct (dec_val_inv _ _ _ _ H) as (c & -> & Hc & ->). exists c. split; [reflexivity|].
  intros t. now apply dec_val_app.
Qed.

Lemma prefixed_bind {A B} (d : list byte -> dres A) (k : A -> list byte -> dres B) :
  prefixed d -> (forall x, prefixed (k x)) -> prefixed (fun bs => dbind (d bs) k).
Proof.
  intros Hd Hk bs w r. unfold dbind. destruct (d bs) as [x r1|] eqn:E; [|discriminate]. intros H.
  destruct (Hd _ _ _ E) as (c1 & -> & H1). destruct (Hk x _ _ _ H) as (c2 & -> & H2).
  exists (c1 ++ c2). split; [now rewrite app_assoc|]. intros t. now rewrite <- app_assoc, H1, H2.
Qed.

Lemma prefixed_map {A B} (g : A -> B) d : prefixed d -> prefixed (fun bs => dmap g (d bs)).
Proof.
  intros Hd bs w r. unfold dmap. destruct (d bs) as [x r1|] eqn:E; [|discriminate]. intros [= <- <-].
  destruct (Hd _ _ _ E) as (c & -> & H). exists c. split; [reflexivity|]. intros t. now rewrite H.
Qed.

Lemma prefixed_list {A} (d : list byte -> dres A) n : prefixed d -> prefixed (dec_list d n).
Proof.
  intros Hd. induction n as [|n IH]; simpl.
  - intros bs w r [= <- <-]. exists []. split; reflexivity.
  - apply prefixed_bind; [exact Hd|]. intros x. now apply prefixed_map.
Qed.

Lemma prefixed_err {A} e : prefixed (fun _ => @DErr A e).
Proof. intros bs w r. discriminate. Qed.

Theorem decode_prefixed f : forall W0 C, prefixed (decode f W0 C).
Proof.
  induction f as [|a p k IH|a c sub IHs k IH|a p m k IH|a p k IH|a c sub IHs k IH|a p n k IH|p k IH|a n k IH
                 |a p b dv k IH|b k IH|a b d k IH|bf k IH|a k IH]; intros W0 C; simpl.
  - intros bs w r [= <- <-]. exists []. split; reflexivity.
  - apply prefixed_bind; [apply prefixed_val|]. intros x. apply prefixed_map, IH.
  - apply prefixed_bind; [apply IHs|]. intros x. apply prefixed_map, IH.
  - apply prefixed_bind; [apply prefixed_val|]. intros x. destruct (wint x); [apply IH|apply prefixed_err].
  - destruct (count _ C); [|apply prefixed_err].
    apply prefixed_bind; [apply prefixed_list, prefixed_val|]. intros x. apply prefixed_map, IH.
  - destruct (count _ C); [|apply prefixed_err].
    apply prefixed_bind; [apply prefixed_list, IHs|]. intros x. apply prefixed_map, IH.
  - apply prefixed_bind; [apply prefixed_list, prefixed_val|]. intros x. apply prefixed_map, IH.
  - apply prefixed_bind; [apply prefixed_val|]. intros x. apply IH.
  - apply prefixed_bind; [apply prefixed_val|]. intros x. destruct (wint x); [apply prefixed_map, IH|apply prefixed_err].
  - destruct (count _ C); [|apply prefixed_err].
    apply prefixed_bind; [apply prefixed_list, prefixed_val|]. intros x. apply prefixed_map, IH.
  - destruct (count _ C); [|apply prefixed_err].
    apply prefixed_bind; [apply prefixed_list, prefixed_val|]. intros x. apply IH.
  - destruct (count _ C); [|apply prefixed_err]. apply IH.
  - intros bs w r. destruct (Nat.leb_spec (bits_bytes bf) (length bs)); [|discriminate].
    set (n := bits_bytes bf) in *. unfold dmap at 1.
    destruct (decode k W0 C (skipn n bs)) as [w' r'|] eqn:E; [|discriminate]. intros [= <- <-].
    destruct (IH _ _ _ _ _ E) as (c & Ec & H'). exists (firstn n bs ++ c). split.
    + now rewrite <- app_assoc, <- Ec, firstn_skipn.
    + intros t. assert (L : length (firstn n bs) = n) by now apply firstn_length_le.
      rewrite <- app_assoc, app_length, L. destruct (Nat.leb_spec n (n + length (c ++ t))); [|lia].
      rewrite firstn_app, skipn_app, L, Nat.sub_diag, firstn_O, app_nil_r, firstn_firstn, Nat.min_id.
      rewrite skipn_all2 by (rewrite L; lia). cbn [skipn app]. now rewrite H'.
  - destruct (count _ C); [|apply prefixed_err]. destruct (_ <=? 0); [|apply prefixed_err]. apply prefixed_map, IH.
Qed.

(** bytes after the record are left alone and do not change the result *)
Corollary decode_trailing f W0 C bs W r t : decode f W0 C bs = DOk W r -> decode f W0 C (bs ++ t) = DOk W (r ++ t).
Proof.
  intros H. destruct (decode_prefixed f _ _ _ _ _ H) as (c & -> & H'). rewrite <- app_assoc. apply H'.
Qed.

(** no truncation of an accepted input that consumes it all is accepted *)
Corollary decode_truncated f W0 C p q W : q <> [] -> decode f W0 C (p ++ q) = DOk W [] ->
  exists e, decode f W0 C p = DErr e.
Proof.
  intros Hq H. destruct (decode f W0 C p) as [W' r'|e] eqn:E; [|eauto]. exfalso.
  apply decode_trailing with (t := q) in E. rewrite E in H. injection H as _ H.
  apply app_eq_nil in H as [_ H]. contradiction.
Qed.

(** ** Errors *)
Definition covers (cs is : list string) (C : counts) : Prop :=
  (forall a, In a cs -> exists n, count (CLen a) C = Some n) /\ (forall b, In b is -> exists z, count (CInt b) C = Some z).

Lemma covers_int cs is C a n (sg : bool) l : covers cs is C ->
  covers cs (if sg then is else a :: is) (cadd a (dec_prim (PInt n sg) l) C).
Proof.
  intros [H1 H2]. simpl. unfold cadd. simpl. split; [exact H1|]. intros b Hb. simpl.
  destruct (String.eqb_spec b a) as [->|N]; [eauto|]. apply H2. destruct sg; [exact Hb|].
  destruct Hb as [->|Hb]; [contradiction|exact Hb].
Qed.

Lemma covers_prim cs is C a p l : covers cs is C ->
  covers cs (match p with PInt _ false => a :: is | _ => is end) (cadd a (dec_prim p l) C).
Proof.
  intros H. destruct p as [n sg| |]; [|exact H|exact H]. apply (covers_int _ _ _ a n sg l) in H. destruct sg; exact H.
Qed.

Lemma covers_cnt cs is C a z : covers cs is C -> covers (a :: cs) is ((CLen a, z) :: C).
Proof.
  intros [H1 H2]. split; [|exact H2]. intros b Hb. simpl. destruct (String.eqb_spec b a) as [->|N]; [eauto|].
  destruct Hb as [->|Hb]; [contradiction|auto].
Qed.

Lemma dec_list_err {A} (d : list byte -> dres A) (Q : exn -> Prop) n : (forall bs e, d bs = DErr e -> Q e) ->
  forall bs e, dec_list d n bs = DErr e -> Q e.
Proof.
  intros H. induction n as [|n IH]; simpl; [discriminate|]. intros bs e. unfold dbind, dmap.
  destruct (d bs) as [x r|e'] eqn:E.
  - destruct (dec_list d n r) as [|e''] eqn:E2; [discriminate|]. intros [= <-]. eauto.
  - intros [= <-]. eauto.
Qed.

Lemma dec_val_err p bs e : dec_val p bs = DErr e -> e = StructError.
Proof. unfold dec_val. destruct (read_prim p bs) as [[x r]|]; congruence. Qed.

Lemma dec_vals_err p n bs e : dec_list (dec_val p) n bs = DErr e -> e = StructError.
Proof. apply (dec_list_err (dec_val p) (fun e => e = StructError)). apply dec_val_err. Qed.

(** how decoding can fail *)
Definition dec_error (f : fmt) (e : exn) : Prop :=
  e = StructError \/ (has_bits f = true /\ e = ValueError) \/ (has_null f = true /\ e = NameError).

Ltac split_wf := repeat match goal with H : _ && _ = true |- _ => apply andb_true_iff in H; destruct H end.
Ltac err_weaken := intros; unfold dec_error in *; simpl; rewrite ?orb_true_iff; intuition congruence.

Theorem decode_errors f : forall cs is W0 C bs e, wf_in cs is f = true -> covers cs is C ->
  decode f W0 C bs = DErr e -> dec_error f e.
Proof.
  induction f as [|a p k IH|a c sub IHs k IH|a p m k IH|a p k IH|a c sub IHs k IH|a p n k IH|p k IH|a n k IH
                 |a p b dv k IH|b k IH|a b d k IH|bf k IH|a k IH]; intros cs is W0 C bs e Hw Hc; simpl in *; split_wf; unfold dbind, dmap.
  - discriminate.
  - destruct (dec_val p bs) as [x r|e'] eqn:E; [|intros [= <-]; left; eapply dec_val_err; eauto].
    destruct (dec_val_inv _ _ _ _ E) as (l & _ & _ & ->).
    destruct (decode k _ _ _) as [|e'] eqn:E2; [discriminate|]. intros [= <-].
    apply (IH _ _ _ _ _ _ H0 (covers_prim _ _ _ _ _ _ Hc) E2).
  - destruct (decode sub _ _ _) as [x r|e'] eqn:E.
    + destruct (decode k _ _ _) as [|e'] eqn:E2; [discriminate|]. intros [= <-].
      assert (Q := IH _ _ _ _ _ _ H0 Hc E2). revert Q. err_weaken.
    + intros [= <-]. assert (Hn : covers [] [] []) by (split; intros ? []).
      assert (Q := IHs _ _ _ _ _ _ H1 Hn E). revert Q. err_weaken.
  - destruct (dec_val p bs) as [x r|e'] eqn:E; [|intros [= <-]; left; eapply dec_val_err; eauto].
    destruct (dec_val_inv _ _ _ _ E) as (l & _ & _ & ->). destruct p as [n sg| |]; try discriminate. cbn [dec_prim wint].
    intros E2. eapply IH; [eassumption| |exact E2]. now apply covers_cnt.
  - destruct (proj1 Hc a) as [n Hn]; [now apply mem_In|]. rewrite Hn.
    destruct (dec_list _ _ bs) as [x r|e'] eqn:E.
    + destruct (decode k _ _ _) as [|e'] eqn:E2; [discriminate|]. intros [= <-]. eapply IH; eauto.
    + intros [= <-]. left. revert E. apply dec_vals_err.
  - destruct (proj1 Hc a) as [n Hn]; [now apply mem_In|]. rewrite Hn.
    destruct (dec_list _ _ bs) as [x r|e'] eqn:E.
    + destruct (decode k _ _ _) as [|e'] eqn:E2; [discriminate|]. intros [= <-].
      assert (Q := IH _ _ _ _ _ _ H0 Hc E2). revert Q. err_weaken.
    + intros [= <-]. assert (Hnn : covers [] [] []) by (split; intros ? []).
      assert (Q : dec_error sub e').
      { revert E. apply (dec_list_err _ (dec_error sub)). intros bs' e''. now apply IHs with (cs := []) (is := []). }
      revert Q. err_weaken.
  - destruct (dec_list _ _ bs) as [x r|e'] eqn:E.
    + destruct (decode k _ _ _) as [|e'] eqn:E2; [discriminate|]. intros [= <-]. eapply IH; eauto.
    + intros [= <-]. left. revert E. apply dec_vals_err.
  - destruct (dec_val p bs) as [x r|e'] eqn:E; [|intros [= <-]; left; eapply dec_val_err; eauto].
    intros E2. eapply IH; eauto.
  - destruct (dec_val _ bs) as [x r|e'] eqn:E; [|intros [= <-]; left; eapply dec_val_err; eauto].
    destruct (dec_val_inv _ _ _ _ E) as (l & _ & _ & ->). cbn [dec_prim wint].
    destruct (decode k _ _ _) as [|e'] eqn:E2; [discriminate|]. intros [= <-]. eapply IH; eauto.
  - destruct (proj2 Hc b) as [n Hn]; [now apply mem_In|]. rewrite Hn.
    destruct (dec_list _ _ bs) as [x r|e'] eqn:E.
    + destruct (decode k _ _ _) as [|e'] eqn:E2; [discriminate|]. intros [= <-]. eapply IH; eauto.
    + intros [= <-]. left. revert E. apply dec_vals_err.
  - destruct (proj2 Hc b) as [n Hn]; [now apply mem_In|]. rewrite Hn.
    destruct (dec_list _ _ bs) as [x r|e'] eqn:E.
    + intros E2. eapply IH; eauto.
    + intros [= <-]. left. revert E. apply dec_vals_err.
  - discriminate.
  - destruct (_ <=? _)%nat; [|intros [= <-]; right; left; auto].
    destruct (decode k _ _ _) as [|e'] eqn:E2; [discriminate|]. intros [= <-].
    assert (Q := IH _ _ _ _ _ _ H0 Hc E2). revert Q. err_weaken.
  - destruct (proj1 Hc a) as [n Hn]; [now apply mem_In|]. rewrite Hn.
    destruct (n <=? 0); [|intros [= <-]; right; right; auto].
    destruct (decode k _ _ _) as [|e'] eqn:E2; [discriminate|]. intros [= <-].
    assert (Q := IH _ _ _ _ _ _ H0 Hc E2). revert Q. err_weaken.
Qed.

(** ** Truncation is the only way to fail: every input is a prefix of an accepted one *)
Definition extendable {A} (d : list byte -> dres A) : Prop := forall bs, exists x w r, d (bs ++ x) = DOk w r.

Lemma ext_bind {A B} (d : list byte -> dres A) (k : A -> list byte -> dres B) :
  extendable d -> prefixed d -> (forall bs x r, d bs = DOk x r -> extendable (k x)) -> extendable (fun bs => dbind (d bs) k).
Proof.
  intros He Hp Hk bs. destruct (He bs) as (x & w & r & E).
  destruct (Hk _ _ _ E r) as (y & w' & r' & E'). exists (x ++ y), w', r'.
  destruct (Hp _ _ _ E) as (c & Ec & H). rewrite app_assoc, Ec, <- app_assoc, H. exact E'.
Qed.

Lemma ext_map {A B} (g : A -> B) d : extendable d -> extendable (fun bs => dmap g (d bs)).
Proof. intros H bs. destruct (H bs) as (x & w & r & E). exists x, (g w), r. now rewrite E. Qed.

Lemma ext_val p : extendable (dec_val p).
Proof.
  intros bs. exists (repeat x00 (width p)). unfold dec_val, read_prim. rewrite app_length, repeat_length.
  destruct (Nat.leb_spec (width p) (length bs + width p)); [eauto|lia].
Qed.

Lemma ext_list {A} (d : list byte -> dres A) n : extendable d -> prefixed d -> extendable (dec_list d n).
Proof.
  intros He Hp. induction n as [|n IH]; simpl.
  - intros bs. exists [], [], (bs ++ []). reflexivity.
  - apply ext_bind; [exact He|exact Hp|]. intros _ x _ _. now apply ext_map.
Qed.

Theorem decode_extendable f : forall cs is W0 C, wf_in cs is f = true -> has_null f = false -> covers cs is C ->
  extendable (decode f W0 C).
Proof.
  induction f as [|a p k IH|a c sub IHs k IH|a p m k IH|a p k IH|a c sub IHs k IH|a p n k IH|p k IH|a n k IH
                 |a p b dv k IH|b k IH|a b d k IH|bf k IH|a k IH]; intros cs is W0 C Hw Hn Hc; simpl in *; split_wf.
  - intros bs. exists [], [], (bs ++ []). reflexivity.
  - apply ext_bind; [apply ext_val|apply prefixed_val|]. intros bs x r E.
    destruct (dec_val_inv _ _ _ _ E) as (l & _ & _ & ->). apply ext_map. eapply IH; eauto. now apply covers_prim.
  - apply orb_false_iff in Hn as [Hn1 Hn2].
    apply ext_bind; [eapply IHs; eauto; split; intros ? []|apply decode_prefixed|]. intros _ x _ _. apply ext_map. eauto.
  - apply ext_bind; [apply ext_val|apply prefixed_val|]. intros bs x r E.
    destruct (dec_val_inv _ _ _ _ E) as (l & _ & _ & ->). destruct p as [n sg| |]; try discriminate. cbn [dec_prim wint].
    eapply IH; eauto. now apply covers_cnt.
  - destruct (proj1 Hc a) as [n Hn']; [now apply mem_In|]. rewrite Hn'.
    apply ext_bind; [apply ext_list|apply prefixed_list|]; auto using ext_val, prefixed_val.
    intros _ x _ _. apply ext_map. eauto.
  - apply orb_false_iff in Hn as [Hn1 Hn2].
    destruct (proj1 Hc a) as [n Hn']; [now apply mem_In|]. rewrite Hn'.
    apply ext_bind; [apply ext_list|apply prefixed_list|]; auto using decode_prefixed.
    + eapply IHs; eauto; split; intros ? [].
    + intros _ x _ _. apply ext_map. eauto.
  - apply ext_bind; [apply ext_list|apply prefixed_list|]; auto using ext_val, prefixed_val.
    intros _ x _ _. apply ext_map. eauto.
  - apply ext_bind; [apply ext_val|apply prefixed_val|]. intros _ x _ _. eauto.
  - apply ext_bind; [apply ext_val|apply prefixed_val|]. intros bs x r E.
    destruct (dec_val_inv _ _ _ _ E) as (l & _ & _ & ->). cbn [dec_prim wint]. apply ext_map. eauto.
  - destruct (proj2 Hc b) as [n Hn']; [now apply mem_In|]. rewrite Hn'.
    apply ext_bind; [apply ext_list|apply prefixed_list|]; auto using ext_val, prefixed_val.
    intros _ x _ _. apply ext_map. eauto.
  - destruct (proj2 Hc b) as [n Hn']; [now apply mem_In|]. rewrite Hn'.
    apply ext_bind; [apply ext_list|apply prefixed_list|]; auto using ext_val, prefixed_val.
    intros _ x _ _. eauto.
  - discriminate.
  - intros bs. set (n := bits_bytes bf).
    destruct (IH _ _ W0 C H0 Hn Hc (skipn n (bs ++ repeat x00 n))) as (x & w & r & E).
    exists (repeat x00 n ++ x). rewrite app_assoc. set (b' := bs ++ repeat x00 n) in *.
    assert (L : (n <= length b')%nat) by (unfold b'; rewrite app_length, repeat_length; lia).
    rewrite app_length. destruct (Nat.leb_spec n (length b' + length x)); [|lia].
    rewrite skipn_app. replace (n - length b')%nat with 0%nat by lia. simpl. rewrite E. cbn [dmap]. eauto.
  - discriminate.
Qed.

(** ** Sizes *)
Lemma enc_list_length {A} (e : A -> outcome) (g : A -> nat) l bs :
  (forall x b, In x l -> e x = (b, None) -> length b = g x) -> enc_list e l = (bs, None) -> length bs = sum (map g l).
Proof.
  revert bs. induction l as [|x r IH]; simpl; intros bs H.
  - intros [= <-]. reflexivity.
  - intros E. apply oseq_ok in E as (b1 & b2 & E1 & E2 & ->). rewrite app_length. f_equal; [eauto|]. eapply IH; eauto.
Qed.

Lemma enc_idx_length e n l bs (w : nat) :
  (forall x b, e x = (b, None) -> length b = w) -> enc_idx e l n = (bs, None) -> length bs = (n * w)%nat.
Proof.
  intros H. revert l bs. induction n as [|n IH]; intros l bs; simpl.
  - intros [= <-]. reflexivity.
  - destruct l as [|x r]; [discriminate|]. intros E. apply oseq_ok in E as (b1 & b2 & E1 & E2 & ->).
    rewrite app_length. f_equal; eauto.
Qed.

Lemma enc_val_length p x bs : enc_val p x = (bs, None) -> length bs = width p.
Proof. intros H. apply enc_val_ok in H. eapply enc_prim_length; eauto. Qed.

Lemma sum_const {A} (l : list A) w : sum (map (fun _ => w) l) = (length l * w)%nat.
Proof. induction l as [|x r IH]; simpl; [reflexivity|]. now rewrite <- IH. Qed.

Theorem encode_size f : forall W bs, encode f W = (bs, None) -> length bs = size f W.
Proof.
  induction f as [|a p k IH|a c sub IHs k IH|a p m k IH|a p k IH|a c sub IHs k IH|a p n k IH|p k IH|a n k IH
                 |a p b dv k IH|b k IH|a b d k IH|bf k IH|a k IH]; intros W bs; cbn [encode size].
  - intros [= <-]. reflexivity.
  - destruct (field a W); [|discriminate]. intros E. apply oseq_ok in E as (b1 & b2 & E1 & E2 & ->).
    rewrite app_length. f_equal; [eapply enc_val_length; eauto|auto].
  - unfold old_obj. destruct (field a W) as [[]|]; try discriminate. intros E.
    apply oseq_ok in E as (b1 & b2 & E1 & E2 & ->). rewrite app_length. f_equal; auto.
  - destruct (field a W) as [[]|]; try discriminate. intros E. apply oseq_ok in E as (b1 & b2 & E1 & E2 & ->).
    rewrite app_length. f_equal; [eapply enc_val_length; eauto|auto].
  - unfold old_list. destruct (field a W) as [[]|]; try discriminate. intros E.
    apply oseq_ok in E as (b1 & b2 & E1 & E2 & ->). rewrite app_length. f_equal; [|auto].
    rewrite (enc_list_length _ (fun _ => width p) _ _) with (2 := E1); [apply sum_const|].
    intros x b _. apply enc_val_length.
  - unfold old_list. destruct (field a W) as [[]|]; try discriminate. intros E.
    apply oseq_ok in E as (b1 & b2 & E1 & E2 & ->). rewrite app_length. f_equal; [|auto].
    apply (enc_list_length _ _ _ _) with (2 := E1). intros x b _. apply IHs.
  - destruct (field a W) as [[]|]; try discriminate. intros E. apply oseq_ok in E as (b1 & b2 & E1 & E2 & ->).
    rewrite app_length. f_equal; [|auto]. eapply enc_idx_length; [|exact E1]. apply enc_val_length.
  - intros E. apply oseq_ok in E as (b1 & b2 & E1 & E2 & ->). rewrite app_length.
    f_equal; [eapply enc_val_length; eauto|auto].
  - destruct (field a W) as [x|]; try discriminate. destruct (wint x); [|discriminate].
    intros E. apply oseq_ok in E as (b1 & b2 & E1 & E2 & ->). rewrite app_length.
    f_equal; [apply (enc_val_length _ _ _ E1)|auto].
  - unfold old_int. destruct (field a W) as [[]|]; try discriminate. destruct (field b W) as [y|]; [|discriminate].
    destruct (wint y); [|discriminate]. intros E. apply oseq_ok in E as (b1 & b2 & E1 & E2 & ->).
    rewrite app_length. f_equal; [|auto]. eapply enc_idx_length; [|exact E1]. apply enc_val_length.
  - unfold old_int. destruct (field b W) as [y|]; [|discriminate].
    destruct (wint y); [|discriminate]. intros E. apply oseq_ok in E as (b1 & b2 & [= <-] & E2 & ->).
    rewrite app_length, repeat_length. f_equal. auto.
  - auto.
  - destruct (enc_bits bf W); [|discriminate]. intros E. apply oseq_ok in E as (b1 & b2 & [= <-] & E2 & ->).
    rewrite app_length, be_length. f_equal. auto.
  - destruct (field a W) as [[| | | | | |[]|]|]; try discriminate. auto.
Qed.

(** ** Decoded values are values of the layout, and re-encode to the same bytes *)
Lemma be_mod n z : be n (z mod 256 ^ Z.of_nat n) = be n z.
Proof. rewrite <- be_val_be. rewrite <- (be_length n z) at 1. apply be_be_val. Qed.

Lemma signed_range n v : (0 < n)%nat -> 0 <= v < 2 ^ (8 * Z.of_nat n) ->
  - 2 ^ (8 * Z.of_nat n - 1) <= signed n v < 2 ^ (8 * Z.of_nat n - 1) /\ signed n v mod 2 ^ (8 * Z.of_nat n) = v.
Proof.
  intros Hn Hv. unfold signed. set (k := 8 * Z.of_nat n) in *. assert (0 < k) by lia.
  assert (E : 2 ^ k = 2 * 2 ^ (k - 1)) by (rewrite <- Z.pow_succ_r by lia; f_equal; lia).
  destruct (Z.ltb_spec v (2 ^ (k - 1))).
  - split; [lia|]. apply Z.mod_small; lia.
  - split; [lia|]. symmetry. apply Z.mod_unique with (q := -1); lia.
Qed.

Lemma dec_prim_fits p c : wf_prim p = true -> length c = width p -> fits p (dec_prim p c).
Proof.
  intros Hp Hc. assert (R := be_val_range c). rewrite Hc, pow256 in R. destruct p as [n sg| |]; cbn [dec_prim fits].
  - apply wf_pos in Hp. unfold lo, hi. cbn [width] in R. destruct sg; [|exact R]. apply signed_range; assumption.
  - change (2 ^ (8 * Z.of_nat (width PF32))) with (2 ^ 32) in R.
    split; [now apply widen_range|]. destruct (widen_quiet _ R) as [Q1 Q2].
    exists (quiet32 (be_val c)). split; [now apply narrow_widen|exact Q1].
  - exact R.
Qed.

Lemma enc_dec_prim p c : wf_prim p = true -> length c = width p -> plain p (dec_prim p c) = true ->
  enc_val p (dec_prim p c) = (c, None).
Proof.
  intros Hp Hc Hn. assert (R := be_val_range c). rewrite Hc, pow256 in R.
  unfold enc_val. destruct p as [n sg| |]; cbn [dec_prim enc_prim wint].
  - cbn [width] in *. apply wf_pos in Hp.
    assert (F := dec_prim_fits (PInt n sg) c (proj2 (Nat.ltb_lt _ _) Hp) Hc). cbn [dec_prim fits] in F.
    match goal with |- context [(?x <=? ?y) && (?y <? ?z)] => assert (E : (x <=? y) && (y <? z) = true) by lia; rewrite E; clear E end.
    f_equal. destruct sg.
    + rewrite <- be_mod, pow256. rewrite (proj2 (signed_range n _ Hp R)). rewrite <- Hc. apply be_be_val.
    + rewrite <- Hc. apply be_be_val.
  - change (2 ^ (8 * Z.of_nat (width PF32))) with (2 ^ 32) in R.
    rewrite narrow_widen by exact R. cbn [plain is_nan dec_prim] in Hn. apply negb_true_iff in Hn.
    change (is_nan64 (widen (be_val c)) = false) in Hn. rewrite is_nan_widen in Hn by exact R.
    unfold quiet32. rewrite Hn. f_equal. change 4%nat with (width PF32). rewrite <- Hc. apply be_be_val.
  - f_equal. change 8%nat with (width PF64). rewrite <- Hc. apply be_be_val.
Qed.

Lemma dec_list_length {A} (d : list byte -> dres A) n bs l r : dec_list d n bs = DOk l r -> length l = n.
Proof.
  revert bs l r. induction n as [|n IH]; intros bs l r; simpl; [intros [= <- _]; reflexivity|].
  unfold dbind, dmap. destruct (d bs) as [x r1|]; [|discriminate].
  destruct (dec_list d n r1) as [l' r'|] eqn:E; [|discriminate]. intros [= <- _]. simpl. f_equal. eauto.
Qed.

Lemma dec_list_inv {A} (d : list byte -> dres A) (Q : A -> list byte -> Prop) n bs l r :
  (forall bs x r, d bs = DOk x r -> exists c, bs = c ++ r /\ Q x c) ->
  dec_list d n bs = DOk l r -> exists cs, bs = concat cs ++ r /\ Forall2 Q l cs.
Proof.
  intros H. revert bs l r. induction n as [|n IH]; intros bs l r; simpl.
  - intros [= <- <-]. exists []. split; constructor.
  - unfold dbind, dmap. destruct (d bs) as [x r1|] eqn:E1; [|discriminate].
    destruct (dec_list d n r1) as [l' r'|] eqn:E; [|discriminate]. intros [= <- <-].
    destruct (H _ _ _ E1) as (c & -> & Hc). destruct (IH _ _ _ E) as (cs & -> & Hcs).
    exists (c :: cs). simpl. split; [now rewrite app_assoc|]. now constructor.
Qed.

Lemma dec_vals_inv p n bs l r : wf_prim p = true -> dec_list (dec_val p) n bs = DOk l r ->
  length l = n /\ Forall (fits p) l /\
  (forallb (plain p) l = true -> exists c, bs = c ++ r /\ enc_list (enc_val p) l = (c, None) /\ enc_idx (enc_val p) l n = (c, None)).
Proof.
  intros Hp E. split; [eapply dec_list_length; eauto|].
  destruct (dec_list_inv (dec_val p) (fun x c => length c = width p /\ x = dec_prim p c) n bs l r) as (cs & -> & F).
  - apply dec_val_inv.
  - exact E.
  - split.
    + clear E. induction F as [|x c l cs [Hc ->] F IH]; constructor; auto. now apply dec_prim_fits.
    + intros Hn. exists (concat cs). split; [reflexivity|].
      apply dec_list_length in E. subst n.
      induction F as [|x c l cs [Hc ->] F IH]; [split; reflexivity|]. cbn [forallb] in Hn.
      apply andb_true_iff in Hn as [Hn1 Hn2]. destruct (IH Hn2) as [I1 I2].
      cbn [length enc_list enc_idx]. rewrite enc_dec_prim, I1, I2 by assumption. split; reflexivity.
Qed.

Lemma lists_names f a : In a (lists f) -> In a (names f).
Proof.
  induction f; simpl; auto; try tauto; try (intros [->|H]; auto; fail); intros H; try (right; auto; fail).
  apply in_or_app. auto.
Qed.

Lemma field_In a W : In a (map fst W) <-> exists x, field a W = Some x.
Proof.
  induction W as [|[b y] r IH]; simpl.
  - split; [intros []|intros [x [=]]].
  - destruct (String.eqb_spec a b) as [->|N]; [split; eauto|]. rewrite <- IH. split; [|auto]. intros [->|H]; [contradiction|auto].
Qed.

Lemma field_app a W V : field a (W ++ V) = match field a W with Some x => Some x | None => field a V end.
Proof. induction W as [|[b y] r IH]; simpl; [reflexivity|]. destruct (String.eqb a b); auto. Qed.

Lemma bnames_dec bf u : map fst (dec_bits bf u) = bnames bf.
Proof. induction bf as [|b r IH]; simpl; [reflexivity|]. destruct (bf_attr b); simpl; now rewrite IH. Qed.

Lemma dec_bits_fit bf Wf u : bits_wf bf = true -> nodupb (bnames bf) = true ->
  (forall a, In a (bnames bf) -> field a Wf = field a (dec_bits bf u)) ->
  bits_fit bf Wf /\
  (forallb (fun b => match bf_attr b with Some _ => true | None => false end) bf = true ->
   enc_bits bf Wf = Some (u mod 2 ^ bits_tot bf)).
Proof.
  induction bf as [|b r IH]; intros Hw Hd H.
  - split; [exact I|]. intros _. simpl. now rewrite Z.mod_1_r.
  - cbn [forallb] in Hw. apply andb_true_iff in Hw as [Hb Hw]. assert (Hp := bits_pos _ Hb).
    assert (Ht := bits_tot_nonneg _ Hw).
    assert (Hr : bits_fit r Wf /\ (forallb (fun b => match bf_attr b with Some _ => true | None => false end) r = true ->
       enc_bits r Wf = Some (u mod 2 ^ bits_tot r))).
    { apply IH; [exact Hw| |].
      - cbn [flat_map] in Hd. destruct (bf_attr b); simpl in Hd; [|exact Hd]. now apply andb_true_iff in Hd as [_ Hd].
      - intros a Ha. rewrite H by (cbn [flat_map]; apply in_or_app; auto). cbn [dec_bits].
        destruct (bf_attr b) as [c|] eqn:Eb; [|reflexivity]. cbn [field].
        destruct (String.eqb_spec a c) as [->|N]; [exfalso|reflexivity].
        cbn [flat_map] in Hd. rewrite Eb in Hd. cbn in Hd. apply andb_true_iff in Hd as [Hd _].
        apply negb_true_iff in Hd. apply mem_In in Ha. unfold mem in Ha. congruence. }
    destruct Hr as [R1 R2]. cbn [bits_fit enc_bits forallb].
    destruct (bf_attr b) as [c|] eqn:Eb; [|split; [auto|discriminate]].
    assert (Hc : field c Wf = Some (let z := (u / 2 ^ bits_tot r) mod 2 ^ bf_width b in
       if bf_flag b then WBool (negb (z =? 0)) else WInt z)).
    { rewrite H; cbn [flat_map dec_bits]; rewrite Eb; [|left; reflexivity]. cbn [field]. now rewrite String.eqb_refl. }
    assert (Hm : 0 <= (u / 2 ^ bits_tot r) mod 2 ^ bf_width b < 2 ^ bf_width b)
      by (apply Z.mod_pos_bound, Z.pow_pos_nonneg; lia).
    split.
    + split; [|exact R1]. rewrite Hc. cbv zeta. destruct (bf_flag b); [reflexivity|]. split; [reflexivity|exact Hm].
    + intros Ha. cbn [andb] in Ha. rewrite (R2 Ha), Hc. cbv zeta.
      assert (E : wint (if bf_flag b then WBool (negb ((u / 2 ^ bits_tot r) mod 2 ^ bf_width b =? 0))
                        else WInt ((u / 2 ^ bits_tot r) mod 2 ^ bf_width b)) = Some ((u / 2 ^ bits_tot r) mod 2 ^ bf_width b)).
      { destruct (bf_flag b); [|reflexivity]. apply Z.eqb_eq in Hb. rewrite Hb in *. change (2 ^ 1) with 2 in *. simpl. f_equal.
        destruct (Z.eqb_spec ((u / 2 ^ bits_tot r) mod 2) 0); simpl; lia. }
      rewrite E. f_equal. rewrite Z.mod_mod by (apply Z.pow_nonzero; lia).
      change (bits_tot (b :: r)) with (bf_width b + bits_tot r).
      rewrite Z.add_comm with (n := bf_width b), Z.pow_add_r by lia.
      rewrite (Z.rem_mul_r u) by (try apply Z.pow_nonzero; try apply Z.pow_pos_nonneg; lia). lia.
Qed.

Lemma nodupb_app l m : nodupb (l ++ m) = true -> nodupb l = true /\ nodupb m = true /\ forall a, In a l -> ~ In a m.
Proof.
  induction l as [|a r IH]; simpl; [repeat split; auto|]. intros H. apply andb_true_iff in H as [H1 H2].
  destruct (IH H2) as (A & B & D). apply negb_true_iff in H1.
  assert (N : forall X, mem a X = false -> ~ In a X) by (intros X HX HI; apply mem_In in HI; congruence).
  unfold mem in H1. rewrite existsb_app in H1. apply orb_false_iff in H1 as [H3 H4].
  repeat split; [|exact B|].
  - unfold mem. rewrite H3. exact A.
  - intros b [<-|Hb]; [apply N; exact H4|auto].
Qed.

Lemma nodupb_cons a l : nodupb (a :: l) = true -> ~ In a l /\ nodupb l = true.
Proof.
  simpl. intros H. apply andb_true_iff in H as [H1 H2]. split; [|exact H2]. intros HI. apply mem_In in HI. now rewrite HI in H1.
Qed.

Lemma count_cadd_len a b x C : count (CLen a) (cadd b x C) = count (CLen a) C.
Proof. unfold cadd. destruct (wint x); reflexivity. Qed.

Definition dec_value_at (f : fmt) : Prop := forall cs is C bs W r,
  wf_in cs is f = true -> lists_ok cs f = true -> nodupb (names f) = true ->
  (forall b, In b is -> ~ In b (names f)) ->
  (forall b, In b is -> exists z, count (CInt b) C = Some z /\ 0 <= z) ->
  (forall a, In a cs -> exists n, count (CLen a) C = Some n) ->
  decode f [] C bs = DOk W r ->
  map fst W = names f /\
  (forall a n, In a cs -> In a (lists f) -> count (CLen a) C = Some n ->
     exists l, field a W = Some (WList l) /\ length l = Z.to_nat n) /\
  (forall Wf, (forall a, In a (names f) -> field a Wf = field a W) ->
     (forall b z, In b is -> count (CInt b) C = Some z -> field b Wf = Some (WInt z)) ->
     typed f Wf /\
     (exact f = true -> nonan f Wf = true -> exists c, bs = c ++ r /\ encode f Wf = (c, None))).

Lemma dec_objs_inv sub n bs l r : dec_value_at sub ->
  wf_in [] [] sub = true -> lists_ok [] sub = true -> nodupb (names sub) = true ->
  dec_list (decode sub [] []) n bs = DOk l r ->
  Forall (fun w => typed sub w /\ map fst w = names sub) l /\
  (exact sub = true -> forallb (fun x => nonan sub (as_obj x)) (map WObj l) = true ->
   exists c, bs = c ++ r /\ enc_list (fun x => encode sub (as_obj x)) (map WObj l) = (c, None)).
Proof.
  intros H Hw Hl Hd. revert bs l r. induction n as [|n IH]; intros bs l r; simpl.
  - intros [= <- <-]. split; [constructor|]. intros _ _. exists []. split; reflexivity.
  - unfold dbind, dmap. destruct (decode sub [] [] bs) as [w r1|] eqn:E1; [|discriminate].
    destruct (dec_list _ n r1) as [l' r'|] eqn:E; [|discriminate]. intros [= <- <-].
    destruct (IH _ _ _ E) as [I1 I2].
    destruct (H [] [] [] bs w r1 Hw Hl Hd) as (A & _ & D); try (intros ? []); [exact E1|].
    destruct (D w) as [T X]; [auto|intros ? ? []|].
    split; [constructor; auto|]. intros He Hn. cbn [map forallb as_obj] in Hn. apply andb_true_iff in Hn as [Hn1 Hn2].
    destruct (X He Hn1) as (c & -> & Ec). destruct (I2 He Hn2) as (c' & -> & Ec').
    exists (c ++ c'). split; [now rewrite app_assoc|]. cbn [map enc_list as_obj]. now rewrite Ec, Ec'.
Qed.

(** adding a field in front *)
Lemma front (a : string) x W k (Wf : flds) : map fst W = names k -> ~ In a (names k) ->
  (forall b, In b (a :: names k) -> field b Wf = field b ((a, x) :: W)) ->
  field a Wf = Some x /\ (forall b, In b (names k) -> field b Wf = field b W).
Proof.
  intros Hn Ha H. split.
  - rewrite H by (left; reflexivity). simpl. now rewrite String.eqb_refl.
  - intros b Hb. rewrite H by (right; exact Hb). simpl. destruct (String.eqb_spec b a) as [->|N]; [contradiction|reflexivity].
Qed.

Lemma front_lists (a : string) x W (k : fmt) b (n : Z) : ~ In a (names k) -> In b (lists k) ->
  (exists l, field b W = Some (WList l) /\ length l = Z.to_nat n) ->
  exists l, field b ((a, x) :: W) = Some (WList l) /\ length l = Z.to_nat n.
Proof.
  intros Ha Hb H. simpl. destruct (String.eqb_spec b a) as [->|N]; [|exact H].
  exfalso. apply Ha. now apply lists_names.
Qed.

Lemma old_list_at a W l : field a W = Some (WList l) -> old_list a W = l.
Proof. unfold old_list. now intros ->. Qed.
Lemma old_obj_at a W w : field a W = Some (WObj w) -> old_obj a W = w.
Proof. unfold old_obj. now intros ->. Qed.

Theorem decode_value f : dec_value_at f.
Proof.
  induction f as [|a p k IH|a c sub IHs k IH|a p m k IH|a p k IH|a c sub IHs k IH|a p n k IH|p k IH|a n k IH
                 |a p b dv k IH|b k IH|a b d k IH|bf k IH|a k IH];
    intros cs is C bs W r Hw Hl Hd Hdis Hi Hcs; cbn [wf_in lists_ok names lists typed exact nonan] in *; split_wf;
    cbn [decode]; unfold dbind, dmap.
  - intros [= <- <-]. split; [reflexivity|]. split; [intros ? ? _ []|]. intros Wf _ _. split; [exact I|].
    intros _ _. exists []. split; reflexivity.
  - (* Prim *)
    apply nodupb_cons in Hd as [Ha Hd].
    destruct (dec_val p bs) as [x r1|] eqn:E1; [|discriminate].
    destruct (decode k [] _ r1) as [V r2|] eqn:E2; [|discriminate]. intros [= <- <-].
    destruct (dec_val_inv _ _ _ _ E1) as (c & -> & Hc & ->).
    assert (Hfit := dec_prim_fits p c H Hc).
    edestruct (IH cs (match p with PInt _ false => a :: is | _ => is end) (cadd a (dec_prim p c) C) r1 V r2) as (A & B & D);
      [exact H0|exact Hl|exact Hd| | | |exact E2|].
    + intros b Hb. assert (In b is -> ~ In b (names k)) by (intros Hb' Hk; apply (Hdis b Hb'); right; exact Hk).
      destruct p as [? []| |]; auto. destruct Hb as [<-|Hb]; auto.
    + intros b Hb. destruct p as [n sg| |]; [|auto|auto]. unfold cadd. cbn [dec_prim wint count key_eqb].
      destruct (String.eqb_spec b a) as [->|N].
      * destruct sg; [exfalso; apply (Hdis a Hb); left; reflexivity|]. cbn [dec_prim fits] in Hfit. unfold lo in Hfit.
        eexists. split; [reflexivity|]. lia.
      * apply Hi. destruct sg; [exact Hb|]. destruct Hb as [<-|Hb]; [contradiction|exact Hb].
    + intros a' Ha'. rewrite count_cadd_len. auto.
    + split; [simpl; now rewrite A|]. split.
      * intros a' n Ha' Hin Hct. apply front_lists with (k := k); auto. apply B; auto. now rewrite count_cadd_len.
      * intros Wf F1 F2. destruct (front _ _ _ _ _ A Ha F1) as [G1 G2].
        destruct (D Wf G2) as [T X].
        { intros b z Hb Hz. destruct p as [n sg| |]; [|auto|auto]. unfold cadd in Hz. cbn [dec_prim wint count key_eqb] in Hz.
          destruct (String.eqb_spec b a) as [->|N].
          - rewrite G1. cbn [dec_prim]. congruence.
          - apply F2; [|exact Hz]. destruct sg; [exact Hb|]. destruct Hb as [<-|Hb]; [contradiction|exact Hb]. }
        split; [split; [eauto|exact T]|]. intros He Hn. rewrite G1 in Hn. apply andb_true_iff in Hn as [Hn1 Hn2].
        destruct (X He Hn2) as (c' & -> & Ec). exists (c ++ c'). split; [now rewrite app_assoc|].
        cbn [encode]. rewrite G1, Ec, enc_dec_prim by assumption. reflexivity.
  - (* Obj *)
    apply nodupb_cons in Hd as [Ha Hd].
    change (old_obj a []) with (@nil (string * wv)).
    destruct (decode sub [] [] bs) as [w r1|] eqn:E1; [|discriminate].
    destruct (decode k [] C r1) as [V r2|] eqn:E2; [|discriminate]. intros [= <- <-].
    destruct (IHs [] [] [] bs w r1) as (As & _ & Ds); try assumption; try (intros ? []).
    destruct (Ds w) as [Ts Xs]; [auto|intros ? ? []|].
    edestruct (IH cs is C r1 V r2) as (A & B & D); try assumption.
    { intros b Hb Hk. apply (Hdis b Hb). right. exact Hk. }
    split; [simpl; now rewrite A|]. split.
    + intros a' n Ha' Hin Hct. apply front_lists with (k := k); auto.
    + intros Wf F1 F2. destruct (front _ _ _ _ _ A Ha F1) as [G1 G2]. destruct (D Wf G2 F2) as [T X].
      split; [split; [eauto|exact T]|]. intros He Hn. rewrite (old_obj_at _ _ _ G1) in Hn. split_wf.
      destruct (Xs ltac:(assumption) ltac:(assumption)) as (c1 & -> & Ec1).
      destruct (X ltac:(assumption) ltac:(assumption)) as (c2 & -> & Ec2).
      exists (c1 ++ c2). split; [now rewrite app_assoc|]. cbn [encode]. now rewrite G1, Ec1, Ec2.
  - (* Cnt *)
    destruct (dec_val p bs) as [x r1|] eqn:E1; [|discriminate].
    destruct (dec_val_inv _ _ _ _ E1) as (c & -> & Hc & ->). destruct p as [n sg| |]; try discriminate.
    assert (Hfit := dec_prim_fits (PInt n sg) c ltac:(assumption) Hc). cbn [dec_prim wint fits] in *.
    set (z := if sg then signed n (be_val c) else be_val c) in *. intros E2.
    assert (Hna : ~ In a cs) by (intros HI; apply mem_In in HI; rewrite HI in *; discriminate).
    assert (Hak : In a (lists k)) by now apply mem_In.
    edestruct (IH (a :: cs) is ((CLen a, z / m) :: C) r1 W r) as (A & B & D); try assumption.
    { intros a' [<-|Ha']; cbn [count key_eqb]; [rewrite String.eqb_refl; eauto|].
      destruct (String.eqb_spec a' a) as [->|N]; [eauto|auto]. }
    split; [exact A|]. split.
    + intros a' n' Ha' Hin Hct. apply B; [right; exact Ha'|exact Hin|]. cbn [count key_eqb].
      destruct (String.eqb_spec a' a) as [->|N]; [contradiction|exact Hct].
    + intros Wf F1 F2. destruct (D Wf F1) as [T X]; [intros b z' Hb Hz; apply F2; auto|].
      destruct (B a (z / m)) as (l & Gl & Ll); [left; reflexivity|exact Hak|cbn [count key_eqb]; now rewrite String.eqb_refl|].
      rewrite <- (F1 a) in Gl by now apply lists_names.
      assert (Hm : 0 < m) by lia. assert (Hdm := Z.div_mod z m ltac:(lia)). assert (Hmm := Z.mod_pos_bound z m Hm).
      assert (Hlo : lo n sg <= 0) by (unfold lo; destruct sg; [|lia]; assert (0 < 2 ^ (8 * Z.of_nat n - 1)) by (apply Z.pow_pos_nonneg; lia); lia).
      assert (Hhi : 0 < hi n sg) by (unfold hi; destruct sg; apply Z.pow_pos_nonneg; lia).
      split.
      * split; [|exact T]. exists l. split; [exact Gl|]. rewrite Ll. destruct (Z.leb_spec 0 (z / m)).
        -- rewrite Z2Nat.id by lia. destruct (Z.eqb_spec (z / m) 0) as [E0|]; [rewrite E0; lia|]. assert (0 < z / m) by lia. nia.
        -- replace (Z.to_nat (z / m)) with 0%nat by lia. cbn. lia.
      * intros He Hn. split_wf. destruct sg; [discriminate|].
        assert (m = 1) by lia. subst m. rewrite Z.div_1_r in *.
        destruct (X ltac:(assumption) ltac:(assumption)) as (c2 & -> & Ec2).
        exists (c ++ c2). split; [now rewrite app_assoc|]. cbn [encode]. rewrite Gl, Ll, Ec2.
        unfold lo in Hfit. rewrite Z2Nat.id, Z.mul_1_r by lia.
        change (WInt z) with (dec_prim (PInt n false) c). rewrite enc_dec_prim by (assumption || reflexivity). reflexivity.
  - (* PList *)
    apply nodupb_cons in Hd as [Ha Hd]. destruct (count (CLen a) C) as [n|] eqn:En; [|discriminate].
    destruct (dec_list (dec_val p) (Z.to_nat n) bs) as [l r1|] eqn:E1; [|discriminate].
    destruct (decode k [] C r1) as [V r2|] eqn:E2; [|discriminate]. intros [= <- <-]. change (old_list a []) with (@nil wv).
    cbn [app].
    destruct (dec_vals_inv _ _ _ _ _ H E1) as (Ll & Lf & Lx).
    edestruct (IH cs is C r1 V r2) as (A & B & D); try assumption.
    { intros b Hb Hk. apply (Hdis b Hb). right. exact Hk. }
    split; [simpl; now rewrite A|]. split.
    + intros a' n' Ha' Hin Hct. destruct (String.eqb_spec a' a) as [->|N].
      * exists l. cbn [field]. rewrite String.eqb_refl. split; [reflexivity|congruence].
      * destruct Hin as [->|Hin]; [contradiction|]. apply front_lists with (k := k); auto.
    + intros Wf F1 F2. destruct (front _ _ _ _ _ A Ha F1) as [G1 G2]. destruct (D Wf G2 F2) as [T X].
      split; [split; [eauto|exact T]|]. intros He Hn. rewrite (old_list_at _ _ _ G1) in Hn. split_wf.
      destruct (Lx ltac:(assumption)) as (c1 & -> & Ec1 & _).
      destruct (X ltac:(assumption) ltac:(assumption)) as (c2 & -> & Ec2).
      exists (c1 ++ c2). split; [now rewrite app_assoc|]. cbn [encode]. now rewrite G1, Ec1, Ec2.
  - (* OList *)
    apply nodupb_cons in Hd as [Ha Hd]. destruct (count (CLen a) C) as [n|] eqn:En; [|discriminate].
    destruct (dec_list _ (Z.to_nat n) bs) as [l r1|] eqn:E1; [|discriminate].
    destruct (decode k [] C r1) as [V r2|] eqn:E2; [|discriminate]. intros [= <- <-]. change (old_list a []) with (@nil wv).
    cbn [app].
    destruct (dec_objs_inv sub (Z.to_nat n) bs l r1) as (Lf & Lx); try assumption.
    edestruct (IH cs is C r1 V r2) as (A & B & D); try assumption.
    { intros b Hb Hk. apply (Hdis b Hb). right. exact Hk. }
    split; [simpl; now rewrite A|]. split.
    + intros a' n' Ha' Hin Hct. destruct (String.eqb_spec a' a) as [->|N].
      * exists (map WObj l). cbn [field]. rewrite String.eqb_refl. split; [reflexivity|].
        rewrite map_length. apply dec_list_length in E1. rewrite En in Hct. injection Hct as <-. exact E1.
      * destruct Hin as [->|Hin]; [contradiction|]. apply front_lists with (k := k); auto.
    + intros Wf F1 F2. destruct (front _ _ _ _ _ A Ha F1) as [G1 G2]. destruct (D Wf G2 F2) as [T X].
      split; [split; [eauto|exact T]|]. intros He Hn. rewrite (old_list_at _ _ _ G1) in Hn. split_wf.
      destruct (Lx ltac:(assumption) ltac:(assumption)) as (c1 & -> & Ec1).
      destruct (X ltac:(assumption) ltac:(assumption)) as (c2 & -> & Ec2).
      exists (c1 ++ c2). split; [now rewrite app_assoc|]. cbn [encode]. now rewrite G1, Ec1, Ec2.
  - (* Arr *)
    apply nodupb_cons in Hd as [Ha Hd].
    destruct (dec_list (dec_val p) n bs) as [l r1|] eqn:E1; [|discriminate].
    destruct (decode k [] C r1) as [V r2|] eqn:E2; [|discriminate]. intros [= <- <-].
    destruct (dec_vals_inv _ _ _ _ _ H E1) as (Ll & Lf & Lx).
    edestruct (IH cs is C r1 V r2) as (A & B & D); try assumption.
    { intros b Hb Hk. apply (Hdis b Hb). right. exact Hk. }
    split; [simpl; now rewrite A|]. split.
    + intros a' n' Ha' Hin Hct. apply front_lists with (k := k); auto.
    + intros Wf F1 F2. destruct (front _ _ _ _ _ A Ha F1) as [G1 G2]. destruct (D Wf G2 F2) as [T X].
      split; [split; [eauto|exact T]|]. intros He Hn. rewrite (old_list_at _ _ _ G1) in Hn. split_wf.
      destruct (Lx ltac:(assumption)) as (c1 & -> & _ & Ec1).
      destruct (X ltac:(assumption) ltac:(assumption)) as (c2 & -> & Ec2).
      exists (c1 ++ c2). split; [now rewrite app_assoc|]. cbn [encode]. now rewrite G1, Ec1, Ec2.
  - (* Zero *)
    destruct (dec_val p bs) as [x r1|] eqn:E1; [|discriminate]. intros E2.
    edestruct (IH cs is C r1 W r) as (A & B & D); try assumption.
    split; [exact A|]. split; [exact B|]. intros Wf F1 F2. destruct (D Wf F1 F2) as [T X].
    split; [exact T|discriminate].
  - (* Mask *)
    apply nodupb_cons in Hd as [Ha Hd].
    destruct (dec_val _ bs) as [x r1|] eqn:E1; [|discriminate].
    destruct (dec_val_inv _ _ _ _ E1) as (c & -> & Hc & ->). cbn [dec_prim wint].
    destruct (decode k [] C r1) as [V r2|] eqn:E2; [|discriminate]. intros [= <- <-].
    edestruct (IH cs is C r1 V r2) as (A & B & D); try assumption.
    { intros b Hb Hk. apply (Hdis b Hb). right. exact Hk. }
    split; [simpl; now rewrite A|]. split.
    + intros a' n' Ha' Hin Hct. apply front_lists with (k := k); auto.
    + intros Wf F1 F2. destruct (front _ _ _ _ _ A Ha F1) as [G1 G2]. destruct (D Wf G2 F2) as [T X].
      split; [|discriminate]. split; [|exact T]. rewrite G1.
      replace (Z.land (be_val c) 1) with (be_val c mod 2 ^ 1) by (symmetry; apply (Z.land_ones (be_val c) 1); lia).
      change (2 ^ 1) with 2. assert (Hb := Z.mod_pos_bound (be_val c) 2 ltac:(lia)).
      destruct (Z.eqb_spec (be_val c mod 2) 0) as [->|N0]; [auto|]. right. do 2 f_equal. lia.
  - (* VList *)
    apply nodupb_cons in Hd as [Ha Hd]. assert (Hb : In b is) by now apply mem_In.
    destruct (Hi b Hb) as (z & Ez & Hz). rewrite Ez.
    destruct (dec_list (dec_val p) (Z.to_nat (z / dv)) bs) as [l r1|] eqn:E1; [|discriminate].
    destruct (decode k [] C r1) as [V r2|] eqn:E2; [|discriminate]. intros [= <- <-]. change (old_list a []) with (@nil wv).
    cbn [app].
    destruct (dec_vals_inv _ _ _ _ _ H E1) as (Ll & Lf & Lx).
    edestruct (IH cs is C r1 V r2) as (A & B & D); try assumption.
    { intros b' Hb' Hk. apply (Hdis b' Hb'). right. exact Hk. }
    split; [simpl; now rewrite A|]. split.
    + intros a' n' Ha' Hin Hct. apply front_lists with (k := k); auto.
    + intros Wf F1 F2. destruct (front _ _ _ _ _ A Ha F1) as [G1 G2]. destruct (D Wf G2 F2) as [T X].
      assert (Gb := F2 b z Hb Ez).
      split.
      * split; [|exact T]. exists l, z. repeat split; auto. rewrite Ll. apply Z2Nat.id. apply Z.div_pos; lia.
      * intros He Hn. rewrite (old_list_at _ _ _ G1) in Hn. split_wf.
        destruct (Lx ltac:(assumption)) as (c1 & -> & _ & Ec1).
        destruct (X ltac:(assumption) ltac:(assumption)) as (c2 & -> & Ec2).
        exists (c1 ++ c2). split; [now rewrite app_assoc|]. cbn [encode]. rewrite G1, Gb. cbn [wint]. now rewrite Ec1, Ec2.
  - (* Pad *)
    assert (Hb : In b is) by now apply mem_In. destruct (Hi b Hb) as (z & Ez & Hz). rewrite Ez.
    destruct (dec_list _ _ bs) as [l r1|] eqn:E1; [|discriminate]. intros E2.
    edestruct (IH cs is C r1 W r) as (A & B & D); try assumption.
    split; [exact A|]. split; [exact B|]. intros Wf F1 F2. destruct (D Wf F1 F2) as [T X].
    split; [|discriminate]. split; [|exact T]. exists z. auto.
  - discriminate.
  - (* Bits *)
    apply nodupb_app in Hd as (Hd1 & Hd2 & Hd3).
    destruct (Nat.leb_spec (bits_bytes bf) (length bs)) as [L|]; [|discriminate].
    destruct (decode k [] C (skipn (bits_bytes bf) bs)) as [V r2|] eqn:E2; [|discriminate]. intros [= <- <-].
    edestruct (IH cs is C (skipn (bits_bytes bf) bs) V r2) as (A & B & D); try eassumption.
    { intros b Hb Hk. apply (Hdis b Hb). apply in_or_app. auto. }
    set (u := be_val (firstn (bits_bytes bf) bs)) in *.
    assert (Hn : map fst (dec_bits bf u) = bnames bf) by apply bnames_dec.
    assert (Hsk : forall a, In a (names k) -> field a (dec_bits bf u ++ V) = field a V).
    { intros a Ha. rewrite field_app. destruct (field a (dec_bits bf u)) eqn:E; [exfalso|reflexivity].
      apply (Hd3 a); [|exact Ha]. rewrite <- Hn. apply field_In. eauto. }
    split; [now rewrite map_app, A, Hn|]. split.
    + intros a' n' Ha' Hin Hct. rewrite Hsk by now apply lists_names. auto.
    + intros Wf F1 F2. destruct (D Wf) as [T X]; [|exact F2|].
      { intros a Ha. rewrite F1, Hsk; auto. apply in_or_app. auto. }
      destruct (dec_bits_fit bf Wf u) as [P1 P2]; try assumption.
      { intros a Ha. rewrite F1 by (apply in_or_app; auto). rewrite field_app.
        rewrite <- Hn in Ha. apply field_In in Ha as [x ->]. reflexivity. }
      split; [split; assumption|]. intros He Hn'. split_wf.
      destruct (X ltac:(assumption) ltac:(assumption)) as (c2 & Ec & Ec2).
      exists (firstn (bits_bytes bf) bs ++ c2). split; [now rewrite <- app_assoc, <- Ec, firstn_skipn|].
      cbn [encode]. rewrite (P2 ltac:(assumption)), Ec2. unfold oseq. cbn [fst snd]. f_equal. f_equal.
      assert (Hbt : 2 ^ bits_tot bf = 256 ^ Z.of_nat (bits_bytes bf)).
      { rewrite pow256. f_equal. assert (Ht := bits_tot_nonneg bf ltac:(assumption)).
        assert (Hm8 := Z.div_mod (bits_tot bf) 8 ltac:(lia)).
        assert (0 <= bits_tot bf / 8) by (apply Z.div_pos; lia). unfold bits_bytes. rewrite Z2Nat.id; lia. }
      rewrite Hbt, be_mod. unfold u. rewrite <- (firstn_length_le bs L) at 1. apply be_be_val.
  - (* NullL *)
    apply nodupb_cons in Hd as [Ha Hd]. destruct (count (CLen a) C) as [n|] eqn:En; [|discriminate].
    destruct (Z.leb_spec n 0) as [Hn0|]; [|discriminate].
    destruct (decode k [] C bs) as [V r2|] eqn:E2; [|discriminate]. intros [= <- <-].
    edestruct (IH cs is C bs V r2) as (A & B & D); try assumption.
    { intros b Hb Hk. apply (Hdis b Hb). right. exact Hk. }
    split; [simpl; now rewrite A|]. split.
    + intros a' n' Ha' Hin Hct. destruct (String.eqb_spec a' a) as [->|N].
      * exists []. cbn [field]. rewrite String.eqb_refl. split; [reflexivity|].
        rewrite En in Hct. injection Hct as <-. symmetry. simpl. lia.
      * destruct Hin as [->|Hin]; [contradiction|]. apply front_lists with (k := k); auto.
    + intros Wf F1 F2. destruct (front _ _ _ _ _ A Ha F1) as [G1 G2]. destruct (D Wf G2 F2) as [T X].
      split; [split; [exact G1|exact T]|]. intros He Hn.
      destruct (X He Hn) as (c2 & -> & Ec2). exists c2. split; [reflexivity|]. cbn [encode]. now rewrite G1.
Qed.

(** ** Summary for whole records *)
Definition sound (f : fmt) : bool := wf f && lists_ok [] f.

Theorem decode_value_of f bs W r : sound f = true -> decode f [] [] bs = DOk W r -> value_of f W.
Proof.
  unfold sound, wf. intros H E. split_wf.
  destruct (decode_value f [] [] [] bs W r) as (A & _ & D); try assumption; try (intros ? []).
  split; [exact A|]. destruct (D W) as [T _]; [auto|intros ? ? []|exact T].
Qed.

Theorem decode_exact f bs W r : sound f = true -> exact f = true -> decode f [] [] bs = DOk W r -> nonan f W = true ->
  exists c, bs = c ++ r /\ encode f W = (c, None).
Proof.
  unfold sound, wf. intros H He E Hn. split_wf.
  destruct (decode_value f [] [] [] bs W r) as (A & _ & D); try assumption; try (intros ? []).
  destruct (D W) as [_ X]; [auto|intros ? ? []|]. now apply X.
Qed.

(** what was decoded encodes, and decodes again to the same *)
Theorem decode_stable f bs W r : sound f = true -> decode f [] [] bs = DOk W r ->
  exists c, encode f W = (c, None) /\ forall t, decode f [] [] (c ++ t) = DOk W t.
Proof.
  intros H E. assert (V := decode_value_of _ _ _ _ H E). unfold sound in H. apply andb_true_iff in H as [H _].
  destruct (roundtrip f W [] H V) as (c & Ec & Dc). exists c. split; [exact Ec|]. intros t.
  destruct (roundtrip f W t H V) as (c' & Ec' & Dc'). congruence.
Qed.

(** two values of a layout with prefix-comparable encodings are equal *)
Theorem encode_prefix_free f V W c d t : wf f = true -> value_of f V -> value_of f W ->
  encode f V = (c, None) -> encode f W = (d, None) -> d = c ++ t -> V = W /\ t = [].
Proof.
  intros H HV HW EV EW ->. destruct (roundtrip f V t H HV) as (c' & Ec & Dc).
  destruct (roundtrip f W [] H HW) as (d' & Ed & Dd). rewrite EV in Ec. injection Ec as <-. rewrite EW in Ed. injection Ed as <-.
  rewrite app_nil_r in Dd. rewrite Dc in Dd. injection Dd as -> ->. auto.
Qed.
