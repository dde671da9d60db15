(** * Properties C33 and C34: bit fields *)
From Coq Require Import ZArith String List Bool Lia.
From Coq Require Import Strings.Byte.
From Verif Require Import Lang Bytes Interp ProgBase ProgDis Prog Spec Codec Codec2 Rep Dec StreamLem SerSound ParSound NewSound Layouts Refine Api Classes Bitfield.
Import ListNotations.
Open Scope string_scope. Open Scope Z_scope. Open Scope list_scope.

(** ** Specification: sequences of bits *)
(** the w low bits of v, most significant first *)
Fixpoint msb (w : nat) (v : Z) : list bool := match w with O => [] | S k => Z.testbit v (Z.of_nat k) :: msb k v end.
(** the bits of a byte string in transmission order *)
Definition bits_of (bs : list byte) : list bool := flat_map (fun b => msb 8 (b2z b)) bs.

(** what a field description says *)
Definition name_of (d : field_desc) : string := fst (fst d).
Definition width_of (d : field_desc) : Z := match as_int (snd d) with Some b => b | None => 0 end.
Definition good_field (d : field_desc) : Prop := snd (fst d) = INTEGER /\ exists b, as_int (snd d) = Some b /\ 1 <= b <= 32.
Definition total (fields : list field_desc) : Z := fold_right (fun d a => width_of d + a) 0 fields.
(** the bits of a tuple of field values; missing values are zero *)
Fixpoint field_bits (fields : list field_desc) (vs : list Z) : list bool :=
  match fields with
  | [] => []
  | d :: r => msb (Z.to_nat (width_of d)) (hd 0 vs) ++ field_bits r (tl vs)
  end.

(** cls(args) *)
Definition construct (n : nat) (cls : val) (args : list val) : M val :=
  bind (callee_of the_prog cls) (fun c => apply the_prog (run the_prog n) c args []).
(** o.a *)
Definition attribute (n : nat) (o : val) (a : string) : M val := get_attr the_prog (run the_prog n) o a.

(** ** Lemmas on bits *)
Lemma msb_length w v : length (msb w v) = w.
Proof. induction w; cbn; auto. Qed.

Lemma msb_ext w x y : (forall k, 0 <= k < Z.of_nat w -> Z.testbit x k = Z.testbit y k) -> msb w x = msb w y.
Proof. induction w as [|w IH]; intros H; [reflexivity|]. cbn [msb]. rewrite (H (Z.of_nat w)) by lia. f_equal. apply IH. intros. apply H. lia. Qed.

Lemma msb_eq w x y : msb w x = msb w y -> forall k, 0 <= k < Z.of_nat w -> Z.testbit x k = Z.testbit y k.
Proof.
  induction w as [|w IH]; intros H k Hk; [lia|]. cbn [msb] in H. injection H as H1 H2. destruct (Z.eq_dec k (Z.of_nat w)) as [->|]; [exact H1|].
  apply IH; [exact H2|lia].
Qed.

Lemma msb_mod w v : msb w (v mod 2 ^ Z.of_nat w) = msb w v.
Proof. apply msb_ext. intros k Hk. apply Z.mod_pow2_bits_low. lia. Qed.

Lemma msb_inj w x y : 0 <= x < 2 ^ Z.of_nat w -> 0 <= y < 2 ^ Z.of_nat w -> msb w x = msb w y -> x = y.
Proof.
  intros Hx Hy H. rewrite <- (Z.mod_small x (2 ^ Z.of_nat w)), <- (Z.mod_small y (2 ^ Z.of_nat w)) by assumption.
  apply Z.bits_inj'. intros k Hk. destruct (Z_lt_le_dec k (Z.of_nat w)).
  - rewrite !Z.mod_pow2_bits_low by lia. apply (msb_eq w); auto.
  - rewrite !Z.mod_pow2_bits_high by lia. reflexivity.
Qed.

Lemma add_low x y b k : 0 <= b -> 0 <= y < 2 ^ b -> Z.testbit (x * 2 ^ b + y) k = if k <? b then Z.testbit y k else Z.testbit x (k - b).
Proof.
  intros Hb Hy. destruct (k <? b) eqn:E.
  - apply Z.ltb_lt in E. rewrite <- (Z.mod_pow2_bits_low (x * 2 ^ b + y) b k) by lia. f_equal.
    rewrite Z.add_comm, Z_mod_plus_full. apply Z.mod_small. lia.
  - apply Z.ltb_ge in E. replace k with ((k - b) + b) at 1 by lia. rewrite <- Z.div_pow2_bits by lia. f_equal.
    rewrite Z.div_add_l by lia. rewrite Z.div_small by lia. lia.
Qed.

Lemma msb_app a b x y : 0 <= y < 2 ^ Z.of_nat b -> msb (a + b) (x * 2 ^ Z.of_nat b + y) = msb a x ++ msb b y.
Proof.
  intros Hy. induction a as [|a IH]; cbn [Nat.add msb app].
  - apply msb_ext. intros k Hk. rewrite add_low by lia. replace (k <? Z.of_nat b) with true by (symmetry; apply Z.ltb_lt; lia). reflexivity.
  - rewrite IH. f_equal. rewrite add_low by lia. replace (Z.of_nat (a + b) <? Z.of_nat b) with false by (symmetry; apply Z.ltb_ge; lia). f_equal. lia.
Qed.

Lemma pow256' n : 256 ^ Z.of_nat n = 2 ^ Z.of_nat (8 * n).
Proof. rewrite pow256. f_equal. lia. Qed.

Lemma bits_be n u : bits_of (be n u) = msb (8 * n) u.
Proof.
  induction n as [|n IH]; [reflexivity|]. cbn [be]. unfold bits_of in *. cbn [flat_map]. rewrite IH, b2z_z2b, pow256'.
  change 256 with (2 ^ Z.of_nat 8). rewrite msb_mod.
  replace (8 * S n)%nat with (8 + 8 * n)%nat by lia.
  rewrite <- (msb_mod (8 * n) u). rewrite <- msb_app by (apply Z.mod_pos_bound; lia).
  f_equal. rewrite Z.mul_comm. rewrite <- Z.div_mod; [reflexivity|]. apply Z.pow_nonzero; lia.
Qed.

Lemma bits_of_val l : bits_of l = msb (8 * length l) (be_val l).
Proof. rewrite <- (be_be_val l) at 1. apply bits_be. Qed.

Lemma bits_inj a b : length a = length b -> bits_of a = bits_of b -> a = b.
Proof.
  intros L H. rewrite !bits_of_val, L in H. rewrite <- (be_be_val a), <- (be_be_val b), L. f_equal.
  pose proof (be_val_range a). pose proof (be_val_range b). rewrite L, pow256' in *. apply (msb_inj (8 * length b)); auto.
Qed.

(** *** bits_pack and bits_unpack *)
Definition pos_widths (fs : list (string * Z)) : Prop := Forall (fun f => 0 < snd f) fs.

Lemma total_nonneg fs : pos_widths fs -> 0 <= bits_total fs.
Proof. induction 1; cbn [bits_total fold_right]; [lia|]. change (fold_right _ 0 l) with (bits_total l). lia. Qed.

Lemma bits_total_cons f fs : bits_total (f :: fs) = snd f + bits_total fs. Proof. reflexivity. Qed.

Lemma pack_range fs : forall vs, pos_widths fs -> 0 <= bits_pack fs vs < 2 ^ bits_total fs.
Proof.
  induction fs as [|[a w] fs IH]; intros vs H; [cbn; lia|]. inversion H as [|? ? Hw Hr]; subst. cbn [snd] in Hw.
  cbn [bits_pack]. rewrite bits_total_cons. cbn [snd]. specialize (IH (tl vs) Hr). pose proof (total_nonneg _ Hr).
  pose proof (Z.mod_pos_bound (hd 0 vs) (2 ^ w) ltac:(apply Z.pow_pos_nonneg; lia)). rewrite Z.pow_add_r by lia. nia.
Qed.

Fixpoint fs_bits (fs : list (string * Z)) (vs : list Z) : list bool :=
  match fs with [] => [] | f :: r => msb (Z.to_nat (snd f)) (hd 0 vs) ++ fs_bits r (tl vs) end.

Lemma pack_bits fs : forall vs, pos_widths fs -> msb (Z.to_nat (bits_total fs)) (bits_pack fs vs) = fs_bits fs vs.
Proof.
  induction fs as [|[a w] fs IH]; intros vs H; [reflexivity|]. inversion H as [|? ? Hw Hr]; subst. cbn [snd] in Hw.
  cbn [bits_pack fs_bits]. rewrite bits_total_cons. cbn [snd]. pose proof (total_nonneg _ Hr). rewrite Z2Nat.inj_add by lia.
  replace (2 ^ bits_total fs) with (2 ^ Z.of_nat (Z.to_nat (bits_total fs))) by (rewrite Z2Nat.id; auto).
  rewrite msb_app; [|rewrite Z2Nat.id by auto; apply pack_range; auto]. rewrite IH by auto. f_equal.
  rewrite <- (msb_mod (Z.to_nat w) (hd 0 vs)). now rewrite Z2Nat.id by lia.
Qed.

Lemma unpack_low fs : forall h u, pos_widths fs -> bits_unpack fs (h * 2 ^ bits_total fs + u) = bits_unpack fs u.
Proof.
  assert (G : forall fs t h u, pos_widths fs -> bits_total fs <= t -> bits_unpack fs (h * 2 ^ t + u) = bits_unpack fs u).
  { induction fs0 as [|[a w] fs0 IH]; intros t h u H Ht; [reflexivity|]. inversion H as [|? ? Hw Hr]; subst. cbn [snd] in Hw.
    rewrite bits_total_cons in Ht. cbn [snd] in Ht. cbn [bits_unpack]. pose proof (total_nonneg _ Hr). rewrite IH by (auto; lia). f_equal.
    replace t with (w + bits_total fs0 + (t - w - bits_total fs0)) by lia. rewrite !Z.pow_add_r by lia.
    replace (h * (2 ^ w * 2 ^ bits_total fs0 * 2 ^ (t - w - bits_total fs0)) + u) with
      (u + (h * 2 ^ (t - w - bits_total fs0) * 2 ^ w) * 2 ^ bits_total fs0) by ring.
    rewrite Z.div_add by (apply Z.pow_nonzero; lia). rewrite Z_mod_plus_full. reflexivity. }
  intros. apply G; auto. lia.
Qed.

Lemma unpack_length fs u : length (bits_unpack fs u) = length fs.
Proof. induction fs as [|[a w] fs IH]; cbn; auto. Qed.

Lemma pack_unpack fs : forall u, pos_widths fs -> bits_pack fs (bits_unpack fs u) = u mod 2 ^ bits_total fs.
Proof.
  induction fs as [|[a w] fs IH]; intros u H; [cbn; now rewrite Z.mod_1_r|]. inversion H as [|? ? Hw Hr]; subst. cbn [snd] in Hw.
  cbn [bits_unpack bits_pack hd tl]. rewrite IH by auto. rewrite bits_total_cons. cbn [snd]. pose proof (total_nonneg _ Hr).
  rewrite Z.mod_mod by (apply Z.pow_nonzero; lia). rewrite Z.pow_add_r by lia. rewrite (Z.mul_comm (2 ^ w)), Z.rem_mul_r; [lia|apply Z.pow_nonzero; lia|apply Z.pow_pos_nonneg; lia].
Qed.

(** the values of the fields, reduced *)
Fixpoint reduced (fs : list (string * Z)) (vs : list Z) : list Z :=
  match fs with [] => [] | f :: r => hd 0 vs mod 2 ^ snd f :: reduced r (tl vs) end.

Lemma unpack_pack fs : forall vs, pos_widths fs -> bits_unpack fs (bits_pack fs vs) = reduced fs vs.
Proof.
  induction fs as [|[a w] fs IH]; intros vs H; [reflexivity|]. inversion H as [|? ? Hw Hr]; subst. cbn [snd] in Hw.
  cbn [bits_pack bits_unpack reduced snd]. rewrite unpack_low, IH by auto. f_equal. pose proof (pack_range fs (tl vs) Hr).
  rewrite Z.div_add_l by lia. rewrite Z.div_small by lia. rewrite Z.add_0_r. apply Z.mod_mod. apply Z.pow_nonzero; lia.
Qed.

Lemma reduced_bits fs : forall vs, pos_widths fs -> fs_bits fs (reduced fs vs) = fs_bits fs vs.
Proof.
  induction fs as [|[a w] fs IH]; intros vs H; [reflexivity|]. inversion H as [|? ? Hw Hr]; subst. cbn [snd] in Hw.
  cbn [fs_bits reduced hd tl snd]. rewrite IH by auto. f_equal. rewrite <- (msb_mod (Z.to_nat w) (hd 0 vs)). now rewrite Z2Nat.id by lia.
Qed.

Lemma F2_impl {A B} (P Q : A -> B -> Prop) l l' : (forall a b, P a b -> Q a b) -> Forall2 P l l' -> Forall2 Q l l'.
Proof. induction 2; constructor; auto. Qed.

(** ** Acceptance *)
Definition strip (d : field_desc) : string * Z := (name_of d, width_of d).

Lemma is_INTEGER_eq v : is_INTEGER v = true <-> v = INTEGER.
Proof.
  unfold is_INTEGER, INTEGER. split; [|intros ->; reflexivity]. destruct v; try discriminate.
  assert (G : forall a b, zlist_eqb a b = true -> a = b).
  { induction a as [|x a IH]; intros [|y b]; cbn; try discriminate; auto. intros H. apply andb_prop in H as [H1 H2]. apply Z.eqb_eq in H1. f_equal; auto. }
  intros H. apply G in H. now rewrite H.
Qed.

Lemma first_pass_ok fields : forall k, Forall good_field fields -> first_pass fields k = inl (k + total fields).
Proof.
  induction fields as [|[[a ft] b] r IH]; intros k H; cbn [first_pass total fold_right]; [f_equal; lia|].
  inversion H as [|? ? [G1 (z & G2 & G3)] Hr]; subst. cbn [fst snd] in *. subst ft. cbn [is_INTEGER INTEGER].
  replace (zlist_eqb _ _) with true by reflexivity. cbn [negb]. rewrite G2.
  replace ((z <=? 0) || (32 <? z)) with false by (symmetry; apply orb_false_iff; split; [apply Z.leb_gt|apply Z.ltb_ge]; lia).
  rewrite IH by auto. unfold width_of at 1. cbn [snd]. rewrite G2. f_equal. fold (total r). lia.
Qed.

Lemma first_pass_bad fields : forall k, ~ Forall good_field fields -> first_pass fields k = inr ValueError.
Proof.
  induction fields as [|[[a ft] b] r IH]; intros k H; [exfalso; apply H; constructor|]. cbn [first_pass].
  destruct (is_INTEGER ft) eqn:E; [|reflexivity]. cbn [negb]. destruct (as_int b) as [z|] eqn:E2; [|reflexivity].
  destruct ((z <=? 0) || (32 <? z)) eqn:E3; [reflexivity|]. apply IH. intros Hr. apply H. constructor; [|exact Hr].
  apply orb_false_iff in E3 as [E3 E4]. apply Z.leb_gt in E3. apply Z.ltb_ge in E4. split; [now apply is_INTEGER_eq|]. exists z. split; [exact E2|lia].
Qed.

Lemma second_pass_ok fields base : Forall good_field fields -> second_pass fields base = inl (map (fun d => (name_of d, base, width_of d)) fields).
Proof.
  induction fields as [|[[a ft] b] r IH]; intros H; [reflexivity|]. inversion H as [|? ? [G1 (z & G2 & G3)] Hr]; subst. cbn [fst snd] in *. subst ft.
  cbn [second_pass field_ is_INTEGER INTEGER]. replace (zlist_eqb _ _) with true by reflexivity. cbn [negb]. rewrite G2.
  replace ((z <=? 0) || (32 <? z)) with false by (symmetry; apply orb_false_iff; split; [apply Z.leb_gt|apply Z.ltb_ge]; lia).
  rewrite IH by auto. cbn [map]. unfold width_of at 2, name_of. cbn [fst snd]. now rewrite G2.
Qed.

Lemma total_pos fields : Forall good_field fields -> 0 <= total fields.
Proof.
  induction 1 as [|d r [_ (b & E & R)] _ IH]; cbn [total fold_right]; [lia|]. fold (total r). unfold width_of. rewrite E. lia.
Qed.

Lemma units_fit base l : forall free, (forall f, In f l -> 0 < snd f) -> fold_right (fun f a => snd f + a) 0 l <= free -> units base free l = 0%nat.
Proof.
  induction l as [|[[a x] b] r IH]; intros free H Hf; [reflexivity|]. cbn [units]. cbn [fold_right snd] in Hf.
  assert (0 < b) by (apply (H (a, x, b)); now left). assert (0 <= fold_right (fun (f : string * nat * Z) a => snd f + a) 0 r).
  { clear -H. assert (forall f, In f r -> 0 < snd f) as K by (intros; apply H; now right). clear H. induction r as [|f r IH]; cbn [fold_right]; [lia|].
    assert (0 < snd f) by (apply K; now left). assert (forall g, In g r -> 0 < snd g) as K' by (intros; apply K; now right). specialize (IH K'). lia. }
  replace (b <=? free) with true by (symmetry; apply Z.leb_le; lia). apply IH; [intros; apply H; now right|lia].
Qed.

Lemma sizeof_one fields base : Forall good_field fields -> 0 < total fields <= 8 * Z.of_nat base ->
  sizeof base (map (fun d => (name_of d, base, width_of d)) fields) = base.
Proof.
  intros H R. unfold sizeof. destruct fields as [|d r]; [cbn in R; lia|]. cbn [map units]. inversion H as [|? ? [G1 (z & G2 & G3)] Hr]; subst.
  replace (width_of d <=? 0) with false by (symmetry; apply Z.leb_gt; unfold width_of; rewrite G2; lia).
  rewrite units_fit; [lia| |].
  - intros f Hf. apply in_map_iff in Hf as (e & <- & He). cbn [snd]. rewrite Forall_forall in Hr. destruct (Hr _ He) as [_ (y & E & Y)]. unfold width_of. rewrite E. lia.
  - cbn [total fold_right] in R. fold (total r) in R. replace (fold_right _ 0 _) with (total r); [lia|]. clear. induction r as [|d r IH]; [reflexivity|].
    cbn [total map fold_right snd]. fold (total r). now rewrite IH.
Qed.

(** C33: exactly the field lists of widths 1..32 with a total of 8, 16 or 32 bits are accepted *)
Theorem C33_accepted fields : Forall good_field fields -> total fields = 8 \/ total fields = 16 \/ total fields = 32 ->
  bitfield fields = inl (VBitCls (map strip fields)).
Proof.
  intros H T. unfold bitfield. rewrite first_pass_ok by auto. cbn [Z.add].
  assert (S : forall base, total fields <= 8 * Z.of_nat base -> second_pass fields base = inl (map (fun d => (name_of d, base, width_of d)) fields) /\
    sizeof base (map (fun d => (name_of d, base, width_of d)) fields) = base).
  { intros base L. split; [now apply second_pass_ok|]. apply sizeof_one; auto. lia. }
  assert (M : forall base, map (fun f : string * nat * Z => (fst (fst f), snd f)) (map (fun d => (name_of d, base, width_of d)) fields) = map strip fields).
  { intros. rewrite map_map. reflexivity. }
  destruct T as [T|[T|T]];
    [destruct (S 1%nat ltac:(lia)) as [S1 S2]|destruct (S 2%nat ltac:(lia)) as [S1 S2]|destruct (S 4%nat ltac:(lia)) as [S1 S2]]; clear S; rewrite T.
  - change (8 =? 0) with false. change (8 mod 8 =? 0) with true. change (8 <=? 8) with true. cbn [negb]. rewrite S1, S2, M. reflexivity.
  - change (16 =? 0) with false. change (16 mod 8 =? 0) with true. change (16 <=? 8) with false. change (16 <=? 16) with true. cbn [negb]. rewrite S1, S2, M. reflexivity.
  - change (32 =? 0) with false. change (32 mod 8 =? 0) with true. change (32 <=? 8) with false. change (32 <=? 16) with false. change (32 <=? 32) with true.
    cbn [negb]. rewrite S1, S2, M. reflexivity.
Qed.

Theorem C33_rejected fields : ~ (Forall good_field fields /\ (total fields = 8 \/ total fields = 16 \/ total fields = 32)) ->
  exists e, bitfield fields = inr e /\ (e = ValueError \/ e = AssertionError /\ Forall good_field fields /\ total fields = 24).
Proof.
  intros H. unfold bitfield. assert (D : Forall good_field fields \/ ~ Forall good_field fields).
  { assert (forall d, good_field d \/ ~ good_field d) as D1.
    { intros [[a ft] b]. unfold good_field. cbn [fst snd]. destruct (is_INTEGER ft) eqn:E; [|right; intros [-> _]; discriminate].
      apply is_INTEGER_eq in E. destruct (as_int b) as [z|]; [|right; intros [_ (y & Y & _)]; discriminate].
      destruct (Z_le_gt_dec 1 z); [|right; intros [_ (y & Y & R)]; injection Y as <-; lia].
      destruct (Z_le_gt_dec z 32); [|right; intros [_ (y & Y & R)]; injection Y as <-; lia]. left. split; [exact E|]. exists z. auto. }
    clear H. induction fields as [|d r IH]; [left; constructor|]. destruct (D1 d) as [G|G]; [|right; intros F; inversion F; auto].
    destruct IH as [I|I]; [left; constructor; auto|right; intros F; inversion F; auto]. }
  assert (V : forall x : val + exn, x = inr ValueError -> exists e, x = inr e /\ (e = ValueError \/ e = AssertionError /\ Forall good_field fields /\ total fields = 24)) by eauto.
  destruct D as [D|D]; [|rewrite first_pass_bad by auto; auto]. rewrite first_pass_ok by auto. cbn [Z.add].
  assert (T : ~ (total fields = 8 \/ total fields = 16 \/ total fields = 32)) by tauto. pose proof (total_pos _ D) as P.
  destruct (Z.eqb_spec (total fields) 0) as [E|E]; [auto|].
  destruct (Z.eqb_spec (total fields mod 8) 0) as [E8|E8]; cbn [negb]; [|auto].
  assert (Q : total fields = 8 * (total fields / 8)) by (pose proof (Z.div_mod (total fields) 8 ltac:(lia)); lia).
  destruct (Z.leb_spec (total fields) 8) as [L|L]; [exfalso; apply T; lia|]. destruct (Z.leb_spec (total fields) 16) as [L2|L2]; [exfalso; apply T; lia|].
  destruct (Z.leb_spec (total fields) 32) as [L3|L3]; [|auto].
  assert (Q24 : total fields = 24) by lia. rewrite second_pass_ok, sizeof_one by (auto; lia). rewrite Q24. exists AssertionError. auto.
Qed.

Definition ex_fields : list field_desc := [("a", INTEGER, VInt 3); ("b", INTEGER, VBool true); ("c", INTEGER, VInt 12)].
Example C33_ok_case : Forall good_field ex_fields /\ total ex_fields = 16.
Proof. split; [|reflexivity]. repeat constructor; cbn; eexists; split; try reflexivity; lia. Qed.
Example C33_24 : bitfield [("a", INTEGER, VInt 20); ("b", INTEGER, VInt 4)] = inr AssertionError. Proof. reflexivity. Qed.
Example C33_40 : bitfield [("a", INTEGER, VInt 20); ("b", INTEGER, VInt 20)] = inr ValueError. Proof. reflexivity. Qed.

(** the three bit fields of the library are the factory's results for the descriptions in the source *)
Example lib_fields :
  map (fun c => lookup the_prog c "_struct") ["SpreadSpectrum"; "NetId"; "DEFireFlags"] =
  map (fun d => match bitfield (map (fun p => (fst p, INTEGER, VInt (snd p))) d) with inl (VBitCls fs) => Some (MAttr (LBits fs)) | _ => None end)
    [(* radio/__init__.py:180-185 *) [("frequencyHopping", 1); ("pseudoNoise", 1); ("timeHopping", 1); ("padding", 13)];
     (* radio/__init__.py:276-281 *) [("netNumber", 10); ("frequencyTable", 2); ("mode", 2); ("padding", 2)];
     (* warfare/enums.py:11-15 *) [("weaponOn", 1); ("stateUpdateFlag", 1); ("padding", 14)]].
Proof. vm_compute. reflexivity. Qed.

(** ** C33: writing and reading *)
Lemma accepted_inv fields cls : bitfield fields = inl cls ->
  Forall good_field fields /\ (total fields = 8 \/ total fields = 16 \/ total fields = 32) /\ cls = VBitCls (map strip fields).
Proof.
  intros H. assert (D : (Forall good_field fields /\ (total fields = 8 \/ total fields = 16 \/ total fields = 32)) \/
    ~ (Forall good_field fields /\ (total fields = 8 \/ total fields = 16 \/ total fields = 32))).
  { destruct (first_pass fields 0) as [k|e] eqn:E.
    - assert (F : Forall good_field fields).
      { revert E. clear H. generalize 0. induction fields as [|[[a ft] b] r IH]; intros j E; [constructor|]. cbn [first_pass] in E.
        destruct (is_INTEGER ft) eqn:E1; [|discriminate]. cbn [negb] in E. destruct (as_int b) as [z|] eqn:E2; [|discriminate].
        destruct ((z <=? 0) || (32 <? z)) eqn:E3; [discriminate|]. constructor; [|eapply IH; exact E].
        apply orb_false_iff in E3 as [E3 E4]. apply Z.leb_gt in E3. apply Z.ltb_ge in E4. split; [now apply is_INTEGER_eq|]. exists z. split; [exact E2|lia]. }
      destruct (Z.eq_dec (total fields) 8); [left; auto|]. destruct (Z.eq_dec (total fields) 16); [left; auto|]. destruct (Z.eq_dec (total fields) 32); [left; auto|].
      right. tauto.
    - right. intros [F _]. rewrite first_pass_ok in E by auto. discriminate. }
  destruct D as [[F T]|D]; [|destruct (C33_rejected _ D) as (e & E & _); congruence]. rewrite C33_accepted in H by auto. injection H as <-. auto.
Qed.

Lemma strip_pos fields : Forall good_field fields -> pos_widths (map strip fields).
Proof. induction 1 as [|d r [_ (b & E & R)] _ IH]; constructor; auto. unfold strip, width_of. cbn [snd]. rewrite E. lia. Qed.
Lemma strip_total fields : bits_total (map strip fields) = total fields.
Proof. induction fields as [|d r IH]; [reflexivity|]. cbn [map]. rewrite bits_total_cons, IH. reflexivity. Qed.
Lemma strip_bits fields : forall vs, fs_bits (map strip fields) vs = field_bits fields vs.
Proof. induction fields as [|d r IH]; intros vs; [reflexivity|]. cbn [map fs_bits field_bits]. rewrite IH. reflexivity. Qed.
Lemma strip_size fields : total fields = 8 \/ total fields = 16 \/ total fields = 32 -> (8 * bits_size (map strip fields))%nat = Z.to_nat (total fields).
Proof. intros T. unfold bits_size. rewrite strip_total. destruct T as [T|[T|T]]; rewrite T; reflexivity. Qed.

Definition bit_len (fields : list field_desc) : nat := Z.to_nat (total fields / 8).

Lemma inst_serialize n fs vs s : (1 <= n)%nat ->
  call_method the_prog n (VBitInst fs vs) "serialize" [VOut] s = (Ok VNone, appended s (be (bits_size fs) (bits_pack fs vs))).
Proof.
  intros Hn. destruct (write_bytes_ok the_prog out_cls n (be (bits_size fs) (bits_pack fs vs)) s Hn) as (k & E1 & E2).
  unfold call_method, bind. change (resolve the_prog (VBitInst fs vs) "serialize") with (@ret callee (KNative (VBitInst fs vs) "serialize")).
  cbv beta iota delta [ret apply native bind]. change (String.eqb "serialize" "serialize") with true. cbv beta iota.
  rewrite E1. cbn [app]. rewrite E2. reflexivity.
Qed.

Lemma cls_parse n fs s : (1 <= n)%nat ->
  call_method the_prog n (VBitCls fs) "parse" [VIn] s =
  if (length (irest s) <? bits_size fs)%nat then (Exc ValueError, unread s [])
  else (Ok (VBitInst fs (bits_unpack fs (be_val (firstn (bits_size fs) (irest s))))), unread s (skipn (bits_size fs) (irest s))).
Proof.
  intros Hn. destruct (read_bytes_ok the_prog in_cls n (bits_size fs) s Hn) as (k & E1 & E2).
  unfold call_method, bind. change (resolve the_prog (VBitCls fs) "parse") with (@ret callee (KNative (VBitCls fs) "parse")).
  cbv beta iota delta [ret apply native bind]. change (String.eqb "parse" "parse") with true. cbv beta iota.
  rewrite E1. cbn [app]. rewrite E2.
  rewrite firstn_length, firstn_firstn, Nat.min_id. destruct (Nat.ltb_spec (length (irest s)) (bits_size fs)) as [L|L].
  - rewrite Nat.min_r by lia. replace (length (irest s) <? bits_size fs)%nat with true by (symmetry; apply Nat.ltb_lt; exact L). rewrite skipn_all2 by lia. reflexivity.
  - rewrite Nat.min_l, Nat.ltb_irrefl by lia. reflexivity.
Qed.

(** cls( *args ).serialize(outputStream): the fields' low bits one after the other, the first field first *)
Theorem C33_write n fields cls args vs s : (2 <= n)%nat -> bitfield fields = inl cls -> as_ints args = Some vs -> (length vs <= length fields)%nat ->
  exists inst bs, construct n cls args s = (Ok inst, s) /\ call_method the_prog n inst "serialize" [VOut] s = (Ok VNone, appended s bs) /\
    length bs = bit_len fields /\ bits_of bs = field_bits fields vs.
Proof.
  intros Hn H Ha Hl. apply accepted_inv in H as (F & T & ->). pose proof (strip_pos _ F) as Hp. set (fs := map strip fields) in *.
  exists (VBitInst fs (bits_unpack fs (bits_pack fs vs))), (be (bits_size fs) (bits_pack fs (bits_unpack fs (bits_pack fs vs)))).
  assert (Hfs : (length fs <? length vs)%nat = false) by (apply Nat.ltb_ge; unfold fs; rewrite map_length; lia).
  split; [|split; [|split]].
  - unfold construct, bind, callee_of, ret. unfold apply. rewrite Ha, Hfs. reflexivity.
  - now apply inst_serialize; lia.
  - rewrite be_length. unfold bit_len, bits_size, fs. now rewrite strip_total.
  - rewrite bits_be. unfold fs at 1. rewrite strip_size by exact T. rewrite <- strip_total. fold fs. rewrite pack_unpack by auto.
    rewrite Z.mod_small by (apply pack_range; auto). rewrite pack_bits by auto. apply strip_bits.
Qed.

(** cls.parse(inputStream): an instance whose attributes are the fields' bits, read in the same order; writing it gives the bytes back *)
Theorem C33_read n fields cls s bs rest : (2 <= n)%nat -> bitfield fields = inl cls -> length bs = bit_len fields -> irest s = bs ++ rest ->
  exists inst vs, call_method the_prog n cls "parse" [VIn] s = (Ok inst, unread s rest) /\
    Forall2 (fun d v => 0 <= v < 2 ^ width_of d) fields vs /\ field_bits fields vs = bits_of bs /\
    (NoDup (map name_of fields) -> forall s1, Forall2 (fun d v => attribute n inst (name_of d) s1 = (Ok (VInt v), s1)) fields vs) /\
    forall s1, call_method the_prog n inst "serialize" [VOut] s1 = (Ok VNone, appended s1 bs).
Proof.
  intros Hn H Hl Hi. apply accepted_inv in H as (F & T & ->). pose proof (strip_pos _ F) as Hp. set (fs := map strip fields) in *.
  assert (Hb : bits_size fs = length bs) by (rewrite Hl; unfold bit_len, bits_size, fs; now rewrite strip_total).
  assert (Hr : 0 <= be_val bs < 2 ^ bits_total fs).
  { pose proof (be_val_range bs) as R. rewrite pow256' in R. rewrite <- Hb in R. unfold fs in R at 1. rewrite strip_size in R by auto.
    rewrite Z2Nat.id in R by (apply total_pos; auto). unfold fs. now rewrite strip_total. }
  exists (VBitInst fs (bits_unpack fs (be_val bs))), (bits_unpack fs (be_val bs)). split; [|split; [|split; [|split]]].
  - rewrite cls_parse by lia. rewrite Hi, Hb, app_length. replace (_ <? _)%nat with false by (symmetry; apply Nat.ltb_ge; lia).
    rewrite firstn_app, Nat.sub_diag, firstn_all, firstn_O, app_nil_r. rewrite skipn_app, Nat.sub_diag, skipn_all, skipn_O. reflexivity.
  - clear -F. unfold fs. generalize (be_val bs). induction F as [|d r [_ (b & E & R)] _ IH]; intros u; cbn [map bits_unpack]; constructor; [|apply IH].
    apply Z.mod_pos_bound. apply Z.pow_pos_nonneg; [lia|]. unfold width_of. rewrite E. lia.
  - rewrite <- strip_bits. fold fs. rewrite <- pack_bits by auto. rewrite pack_unpack by auto. rewrite Z.mod_small by auto.
    rewrite bits_of_val, <- Hb. subst fs. rewrite strip_total, strip_size by auto. reflexivity.
  - intros HN s1. unfold attribute, get_attr.
    assert (G : forall fields vs, length fields = length vs -> NoDup (map name_of fields) -> Forall2 (fun d v => bits_field (name_of d) (map strip fields) vs = Some v) fields vs).
    { clear. induction fields as [|d r IH]; intros [|v vs] L N; try discriminate; constructor.
      - cbn [map bits_field strip hd]. now rewrite String.eqb_refl.
      - inversion N as [|? ? N1 N2]; subst. injection L as L. specialize (IH vs L N2). clear N N2.
        assert (K : forall e, In e r -> name_of e <> name_of d) by (intros e He Q; apply N1; rewrite <- Q; now apply in_map).
        cbn [map bits_field strip tl].
        assert (J : forall q ws l l', (forall e, In e l -> name_of e <> name_of d) -> Forall2 (fun e w => bits_field (name_of e) q ws = Some w) l l' ->
          Forall2 (fun e w => (if String.eqb (name_of e) (name_of d) then Some (hd 0 (v :: vs)) else bits_field (name_of e) q ws) = Some w) l l').
        { clear. intros q ws l l' K. induction 1 as [|e w l l' E]; constructor.
          - destruct (String.eqb_spec (name_of e) (name_of d)) as [Q|]; [exfalso; apply (K e); [now left|exact Q]|]. exact E.
          - apply IHForall2. intros; apply K; now right. }
        apply J; [exact K|exact IH]. }
    specialize (G fields (bits_unpack fs (be_val bs))). rewrite unpack_length in G. unfold fs in G at 1. rewrite map_length in G. specialize (G eq_refl HN).
    fold fs in G. apply F2_impl with (2 := G). intros d v E. rewrite E. reflexivity.
  - intros s1. rewrite inst_serialize by lia. rewrite pack_unpack, Z.mod_small, Hb, be_be_val by auto. reflexivity.
Qed.

(** fewer bytes than the field needs *)
Theorem C33_short n fields cls s : (2 <= n)%nat -> bitfield fields = inl cls -> (length (irest s) < bit_len fields)%nat ->
  exists s', call_method the_prog n cls "parse" [VIn] s = (Exc ValueError, s').
Proof.
  intros Hn H Hl. apply accepted_inv in H as (F & T & ->). set (fs := map strip fields).
  assert (Hb : bits_size fs = bit_len fields) by (unfold bit_len, bits_size, fs; now rewrite strip_total).
  eexists. rewrite cls_parse by lia. replace (_ <? _)%nat with true by (symmetry; apply Nat.ltb_lt; lia). reflexivity.
Qed.

(** the field values returned after writing args and reading them back: each argument modulo 2^width *)
Fixpoint wrapped (fields : list field_desc) (vs : list Z) : list Z :=
  match fields with [] => [] | d :: r => hd 0 vs mod 2 ^ width_of d :: wrapped r (tl vs) end.

Lemma field_bits_inj fields : forall vs ws, Forall good_field fields -> Forall2 (fun d v => 0 <= v < 2 ^ width_of d) fields vs ->
  field_bits fields vs = field_bits fields ws -> vs = wrapped fields ws.
Proof.
  induction fields as [|d r IH]; intros vs ws F H E; inversion H as [|? v ? vs' R HR]; subst; [reflexivity|]. inversion F as [|? ? [_ (b & Eb & Rb)] Fr]; subst.
  cbn [field_bits wrapped hd tl] in *. assert (W : 0 <= width_of d) by (unfold width_of; rewrite Eb; lia).
  apply app_eq_app in E. assert (E' : msb (Z.to_nat (width_of d)) v = msb (Z.to_nat (width_of d)) (hd 0 ws) /\ field_bits r vs' = field_bits r (tl ws)).
  { destruct E as (l & [[E1 E2]|[E1 E2]]); pose proof (f_equal (@length _) E1) as L; rewrite app_length, !msb_length in L; destruct l; cbn in L; try lia;
      rewrite app_nil_r in E1; cbn [app] in E2; auto. }
  destruct E' as [E1 E2]. f_equal; [|apply IH; auto]. rewrite <- (msb_mod _ (hd 0 ws)) in E1. rewrite Z2Nat.id in E1 by exact W.
  apply msb_inj in E1; auto; rewrite Z2Nat.id by exact W; [exact R|]. apply Z.mod_pos_bound. apply Z.pow_pos_nonneg; lia.
Qed.

Theorem C33_round_trip n fields cls args vs s : (2 <= n)%nat -> bitfield fields = inl cls -> as_ints args = Some vs -> (length vs <= length fields)%nat ->
  NoDup (map name_of fields) ->
  exists inst bs, construct n cls args s = (Ok inst, s) /\ call_method the_prog n inst "serialize" [VOut] s = (Ok VNone, appended s bs) /\
    forall s1 rest, irest s1 = bs ++ rest -> exists back, call_method the_prog n cls "parse" [VIn] s1 = (Ok back, unread s1 rest) /\
      forall s2, Forall2 (fun d v => attribute n back (name_of d) s2 = (Ok (VInt v), s2)) fields (wrapped fields vs).
Proof.
  intros Hn H Ha Hl HN. destruct (C33_write n fields cls args vs s Hn H Ha Hl) as (inst & bs & E1 & E2 & L & B). exists inst, bs. split; [exact E1|]. split; [exact E2|].
  intros s1 rest Hi. destruct (C33_read n fields cls s1 bs rest Hn H L Hi) as (back & ws & P1 & P2 & P3 & P4 & _). exists back. split; [exact P1|].
  apply accepted_inv in H as (F & _ & _). rewrite B in P3. rewrite <- (field_bits_inj fields ws vs F P2 P3). auto.
Qed.

(** three fields of a 16-bit word: 5 in 3 bits, 1, 0xABC; then an over-wide value, which does not spill *)
Example C33_case : exists cls inst, bitfield ex_fields = inl cls /\ NoDup (map name_of ex_fields) /\
  construct 5 cls [VInt 5; VBool true; VInt 2748] (mkst [] [] [] []) = (Ok inst, mkst [] [] [] []) /\
  call_method the_prog 5 inst "serialize" [VOut] (mkst [] [] [] []) = (Ok VNone, mkst [] [] [] [xba; xbc]).
Proof.
  exists (VBitCls [("a", 3); ("b", 1); ("c", 12)]), (VBitInst [("a", 3); ("b", 1); ("c", 12)] [5; 1; 2748]).
  split; [reflexivity|]. split; [repeat constructor; cbn; intuition discriminate|]. split; vm_compute; reflexivity.
Qed.

(** ** C34: the flag records *)
(** serialise with the layout fw, read with the layout fr: what comes back *)
Lemma two_layouts n c fw fr s o W W' bs : (fuel_ok <= n)%nat -> assoc c TW = Some fw -> assoc c TR = Some fr -> mem c NC = true ->
  contents the_prog (heap s) c fw o = Some W -> encode fw W = (bs, None) -> (forall rest, decode fr [] [] (bs ++ rest) = DOk W' rest) ->
  serialize n o s = (Ok VNone, appended s bs) /\
  forall s' rest, irest s' = bs ++ rest -> exists o' s'', load the_prog n c s' = (Ok o', s'') /\ contents the_prog (heap s'') c fr o' = Some W' /\ irest s'' = rest.
Proof.
  intros Hn A B HC HW E D. split.
  - unfold serialize. rewrite (serialize_spec n c fw o s W Hn A HW), E. reflexivity.
  - intros s' rest Hi. pose proof (load_spec n c fr s' Hn B HC) as L. rewrite Hi, D in L. destruct L as (o' & s'' & l & fp & L1 & _ & L2 & _ & _ & L3 & _). eauto.
Qed.

(** the integer a bit field takes from the object *)
Definition taken (b : bfield) (W : flds) : option Z :=
  match bf_attr b with None => Some 0 | Some a => match field a W with Some x => wint x | None => None end end.
Fixpoint back (bf bf' : list bfield) (W : flds) : flds :=
  match bf, bf' with
  | b :: r, b' :: r' =>
      match bf_attr b', taken b W with
      | Some a, Some z => let y := z mod 2 ^ bf_width b in (a, if bf_flag b' then WBool (negb (y =? 0)) else WInt y) :: back r r' W
      | _, _ => back r r' W
      end
  | _, _ => []
  end.

Lemma tot_eq bf bf' : map bf_width bf = map bf_width bf' -> bits_tot bf = bits_tot bf'.
Proof. revert bf'. induction bf as [|b r IH]; intros [|b' r'] E; try discriminate; [reflexivity|]. injection E as E1 E2. cbn [bits_tot fold_right]. fold (bits_tot r) (bits_tot r'). rewrite E1, (IH _ E2). reflexivity. Qed.

Lemma dec_enc bf : forall bf' W u, bits_wf bf = true -> bits_wf bf' = true -> map bf_width bf = map bf_width bf' -> enc_bits bf W = Some u -> dec_bits bf' u = back bf bf' W.
Proof.
  induction bf as [|b r IH]; intros [|b' r'] W u H H' E HE; try discriminate; [reflexivity|]. injection E as E1 E2.
  assert (H1 := H). cbn [bits_wf forallb] in H1. apply andb_prop in H1 as [Hb Hr]. assert (H2 := H'). cbn [bits_wf forallb] in H2. apply andb_prop in H2 as [Hb' Hr'].
  apply bits_pos in Hb. cbn [enc_bits] in HE. fold (taken b W) in HE. destruct (taken b W) as [z|] eqn:T; [|discriminate].
  destruct (enc_bits r W) as [v|] eqn:Er; [|discriminate]. injection HE as <-. cbn [dec_bits back]. rewrite T.
  pose proof (bits_enc_range r W v Hr Er) as R. rewrite <- (tot_eq _ _ E2).
  assert (D : dec_bits r' (z mod 2 ^ bf_width b * 2 ^ bits_tot r + v) = back r r' W).
  { rewrite (tot_eq _ _ E2), dec_bits_low by exact Hr'. apply IH; auto. }
  rewrite D. destruct (bf_attr b') as [a|]; [|reflexivity]. rewrite Z.div_add_l by lia. rewrite Z.div_small by lia. rewrite Z.add_0_r, <- E1.
  rewrite Z.mod_mod by (apply Z.pow_nonzero; lia). reflexivity.
Qed.

(** records that are one bit-packed word *)
Lemma word_record n c bf bf' s o W u : (fuel_ok <= n)%nat -> assoc c TW = Some (Bits bf Done) -> assoc c TR = Some (Bits bf' Done) -> mem c NC = true ->
  bits_wf bf = true -> bits_wf bf' = true -> map bf_width bf = map bf_width bf' -> bits_tot bf mod 8 = 0 ->
  contents the_prog (heap s) c (Bits bf Done) o = Some W -> enc_bits bf W = Some u ->
  exists bs, serialize n o s = (Ok VNone, appended s bs) /\ length bs = bits_bytes bf /\
  forall s' rest, irest s' = bs ++ rest -> exists o' s'', load the_prog n c s' = (Ok o', s'') /\ irest s'' = rest /\
    contents the_prog (heap s'') c (Bits bf' Done) o' = Some (back bf bf' W).
Proof.
  intros Hn A B HC H H' E M HW HE. exists (be (bits_bytes bf) u). assert (BB : bits_bytes bf = bits_bytes bf') by (unfold bits_bytes; now rewrite (tot_eq _ _ E)).
  pose proof (bits_enc_range bf W u H HE) as R. pose proof (bits_tot_nonneg bf H) as T.
  destruct (two_layouts n c (Bits bf Done) (Bits bf' Done) s o W (back bf bf' W) (be (bits_bytes bf) u) Hn A B HC HW) as [P Q].
  - cbn [encode]. rewrite HE. unfold oseq, done. cbn [fst snd]. now rewrite app_nil_r.
  - intros rest. cbn [decode]. rewrite <- BB. rewrite app_length, be_length. replace (bits_bytes bf <=? bits_bytes bf + length rest)%nat with true by (symmetry; apply Nat.leb_le; lia).
    rewrite firstn_app, skipn_app, be_length, Nat.sub_diag, firstn_O, skipn_O, app_nil_r, firstn_all2, skipn_all2 by (rewrite be_length; lia).
    cbn [app dmap]. rewrite app_nil_r. rewrite be_val_be, pow256'. replace (Z.of_nat (8 * bits_bytes bf)) with (bits_tot bf).
    2:{ unfold bits_bytes. rewrite Nat2Z.inj_mul, Z2Nat.id by (apply Z.div_pos; lia). pose proof (Z.div_mod (bits_tot bf) 8 ltac:(lia)). lia. }
    rewrite Z.mod_small by exact R. rewrite (dec_enc bf bf' W u H H' E HE). reflexivity.
  - split; [exact P|]. split; [apply be_length|]. intros s' rest Hi. destruct (Q s' rest Hi) as (o' & s'' & L1 & L2 & L3). exists o', s''. auto.
Qed.

(** a flag read back, a number of w bits read back *)
Definition flag (z : Z) : wv := WBool (negb (z mod 2 =? 0)).
Definition number (w z : Z) : wv := WInt (z mod 2 ^ w).

(** the three flags (any Python int or bool; the low bit counts) come back, whatever the padding holds *)
Theorem C34_spread_spectrum n s o x1 x2 x3 x4 z1 z2 z3 z4 : (fuel_ok <= n)%nat ->
  contents the_prog (heap s) "SpreadSpectrum" w_SpreadSpectrum o = Some [("frequencyHopping", x1); ("pseudoNoise", x2); ("timeHopping", x3); ("padding", x4)] ->
  wint x1 = Some z1 -> wint x2 = Some z2 -> wint x3 = Some z3 -> wint x4 = Some z4 ->
  exists bs, serialize n o s = (Ok VNone, appended s bs) /\ length bs = 2%nat /\
    forall s' rest, irest s' = bs ++ rest -> exists o' s'', load the_prog n "SpreadSpectrum" s' = (Ok o', s'') /\ irest s'' = rest /\
      contents the_prog (heap s'') "SpreadSpectrum" r_SpreadSpectrum o' = Some [("frequencyHopping", flag z1); ("pseudoNoise", flag z2); ("timeHopping", flag z3)].
Proof.
  intros Hn HW E1 E2 E3 E4. match type of HW with _ = Some ?w => set (W := w) in * end.
  set (bf := [mkbf (Some "frequencyHopping") 1 true; mkbf (Some "pseudoNoise") 1 true; mkbf (Some "timeHopping") 1 true; mkbf (Some "padding") 13 false]) in *. set (bf' := [mkbf (Some "frequencyHopping") 1 true; mkbf (Some "pseudoNoise") 1 true; mkbf (Some "timeHopping") 1 true; mkbf None 13 false]) in *.
  assert (HE : exists u, enc_bits bf W = Some u) by (subst bf W; cbn; rewrite E1, E2, E3, E4; eauto). destruct HE as (u & HE).
  destruct (word_record n "SpreadSpectrum" bf bf' s o W u Hn eq_refl eq_refl eq_refl eq_refl eq_refl eq_refl eq_refl HW HE) as (bs & A & B & C).
  exists bs. split; [exact A|]. split; [exact B|]. intros s' rest Hi. destruct (C s' rest Hi) as (o' & s'' & L1 & L2 & L3).
  exists o', s''. split; [exact L1|]. split; [exact L2|]. refine (eq_trans L3 _). clear L3. subst bf bf' W. unfold back, taken. cbn. rewrite E1, E2, E3. reflexivity.
Qed.

Theorem C34_net_id n s o x1 x2 x3 x4 z1 z2 z3 z4 : (fuel_ok <= n)%nat ->
  contents the_prog (heap s) "NetId" w_NetId o = Some [("netNumber", x1); ("frequencyTable", x2); ("mode", x3); ("padding", x4)] ->
  wint x1 = Some z1 -> wint x2 = Some z2 -> wint x3 = Some z3 -> wint x4 = Some z4 ->
  exists bs, serialize n o s = (Ok VNone, appended s bs) /\ length bs = 2%nat /\
    forall s' rest, irest s' = bs ++ rest -> exists o' s'', load the_prog n "NetId" s' = (Ok o', s'') /\ irest s'' = rest /\
      contents the_prog (heap s'') "NetId" w_NetId o' = Some [("netNumber", number 10 z1); ("frequencyTable", number 2 z2); ("mode", number 2 z3); ("padding", number 2 z4)].
Proof.
  intros Hn HW E1 E2 E3 E4. match type of HW with _ = Some ?w => set (W := w) in * end.
  set (bf := [mkbf (Some "netNumber") 10 false; mkbf (Some "frequencyTable") 2 false; mkbf (Some "mode") 2 false; mkbf (Some "padding") 2 false]) in *. set (bf' := [mkbf (Some "netNumber") 10 false; mkbf (Some "frequencyTable") 2 false; mkbf (Some "mode") 2 false; mkbf (Some "padding") 2 false]) in *.
  assert (HE : exists u, enc_bits bf W = Some u) by (subst bf W; cbn; rewrite E1, E2, E3, E4; eauto). destruct HE as (u & HE).
  destruct (word_record n "NetId" bf bf' s o W u Hn eq_refl eq_refl eq_refl eq_refl eq_refl eq_refl eq_refl HW HE) as (bs & A & B & C).
  exists bs. split; [exact A|]. split; [exact B|]. intros s' rest Hi. destruct (C s' rest Hi) as (o' & s'' & L1 & L2 & L3).
  exists o', s''. split; [exact L1|]. split; [exact L2|]. refine (eq_trans L3 _). clear L3. subst bf bf' W. unfold back, taken. cbn. rewrite E1, E2, E3, E4. reflexivity.
Qed.

Theorem C34_fire_flags n s o x1 x2 z1 z2 : (fuel_ok <= n)%nat ->
  contents the_prog (heap s) "DEFireFlags" w_DEFireFlags o = Some [("weaponOn", x1); ("stateUpdateFlag", x2)] ->
  wint x1 = Some z1 -> wint x2 = Some z2 ->
  exists bs, serialize n o s = (Ok VNone, appended s bs) /\ length bs = 2%nat /\
    forall s' rest, irest s' = bs ++ rest -> exists o' s'', load the_prog n "DEFireFlags" s' = (Ok o', s'') /\ irest s'' = rest /\
      contents the_prog (heap s'') "DEFireFlags" r_DEFireFlags o' = Some [("weaponOn", number 1 z1); ("stateUpdateFlag", number 1 z2); ("padding", WInt 0)].
Proof.
  intros Hn HW E1 E2. match type of HW with _ = Some ?w => set (W := w) in * end.
  set (bf := [mkbf (Some "weaponOn") 1 false; mkbf (Some "stateUpdateFlag") 1 false; mkbf None 14 false]) in *. set (bf' := [mkbf (Some "weaponOn") 1 false; mkbf (Some "stateUpdateFlag") 1 false; mkbf (Some "padding") 14 false]) in *.
  assert (HE : exists u, enc_bits bf W = Some u) by (subst bf W; cbn; rewrite E1, E2; eauto). destruct HE as (u & HE).
  destruct (word_record n "DEFireFlags" bf bf' s o W u Hn eq_refl eq_refl eq_refl eq_refl eq_refl eq_refl eq_refl HW HE) as (bs & A & B & C).
  exists bs. split; [exact A|]. split; [exact B|]. intros s' rest Hi. destruct (C s' rest Hi) as (o' & s'' & L1 & L2 & L3).
  exists o', s''. split; [exact L1|]. split; [exact L2|]. refine (eq_trans L3 _). clear L3. subst bf bf' W. unfold back, taken. cbn. rewrite E1, E2. reflexivity.
Qed.

(** in-range values come back unchanged *)
Example flag_bool (b : bool) : flag (if b then 1 else 0) = WBool b. Proof. destruct b; reflexivity. Qed.
Lemma number_small w z : 0 <= z < 2 ^ w -> number w z = WInt z.
Proof. intros H. unfold number. now rewrite Z.mod_small. Qed.

(** but padding does not: a SpreadSpectrum with padding 5 reads back with padding 0 (its value in a new object) and a DEFireFlags never writes it *)
Definition spread_padding (p : Z) : res val * st :=
  bind (new the_prog 20 "SpreadSpectrum" [VBool true; VBool false; VBool true; VInt p]) (fun o =>
  bind (serialize 20 o) (fun _ s => bind (load the_prog 20 "SpreadSpectrum") (fun o' => attribute 20 o' "padding") (mkst (heap s) (out s) (out s) []))) (mkst [] [] [] []).
Theorem C34_padding_refuted : fst (spread_padding 5) = Ok (VInt 0) /\
  exists o s f, load the_prog 20 "DEFireFlags" (mkst [] [x80; x05] [] []) = (Ok o, s) /\ f = [("weaponOn", WInt 1); ("stateUpdateFlag", WInt 0); ("padding", WInt 5)] /\
    contents the_prog (heap s) "DEFireFlags" r_DEFireFlags o = Some f /\ serialize 20 o s = (Ok VNone, appended s [x80; x00]).
Proof. split; [vm_compute; reflexivity|]. do 3 eexists. split; [vm_compute; reflexivity|]. split; [reflexivity|]. split; vm_compute; reflexivity. Qed.

Example C34_case : exists o s, new the_prog 20 "NetId" [VInt 999; VInt 3; VInt 2; VInt 0] (mkst [] [] [] []) = (Ok o, s) /\
  contents the_prog (heap s) "NetId" w_NetId o = Some [("netNumber", WInt 999); ("frequencyTable", WInt 3); ("mode", WInt 2); ("padding", WInt 0)] /\
  serialize 20 o s = (Ok VNone, appended s [xf9; xf8]).
Proof. do 2 eexists. split; [vm_compute; reflexivity|]. split; vm_compute; reflexivity. Qed.

Definition all_PropBits := (C33_accepted, C33_rejected, C33_write, C33_read, C33_short, C33_round_trip, C34_spread_spectrum, C34_net_id, C34_fire_flags, C34_padding_refuted).
Print Assumptions all_PropBits.
