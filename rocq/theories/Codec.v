(** * Facts about the wire specification (no program involved) *)
From Coq Require Import ZArith String List Bool Lia ZifyBool.
From Coq Require Import Strings.Byte.
From Verif Require Import Lang Bytes Spec.
Import ListNotations.
Open Scope string_scope. Open Scope Z_scope. Open Scope list_scope.

(** ** Primitive types *)
Lemma enc_prim_length p x l : enc_prim p x = inl l -> length l = width p.
Proof.
  destruct p; simpl.
  - destruct (wint x); [|discriminate]. destruct (_ && _); [|discriminate]. intros [= <-]. apply be_length.
  - destruct x; simpl; try discriminate.
    all: try (destruct (of_int _); [|discriminate]).
    all: destruct (narrow _); [|discriminate]; intros [= <-]; reflexivity.
  - destruct x; simpl; try discriminate.
    all: try (destruct (of_int _); [|discriminate]).
    all: intros [= <-]; reflexivity.
Qed.

Lemma enc_val_ok p x bs : enc_val p x = (bs, None) -> enc_prim p x = inl bs.
Proof. unfold enc_val. destruct (enc_prim p x); unfold fail; congruence. Qed.

Lemma dec_val_app p l r : length l = width p -> dec_val p (l ++ r) = DOk (dec_prim p l) r.
Proof.
  intros H. unfold dec_val, read_prim. rewrite app_length.
  destruct (Nat.leb_spec (width p) (length l + length r)); [|lia].
  rewrite <- H, firstn_app, skipn_app, firstn_all, skipn_all, Nat.sub_diag. simpl.
  now rewrite app_nil_r.
Qed.

(** what reading back an encoded scalar gives *)
Definition norm_prim (p : prim) (x : wv) : wv :=
  match enc_prim p x with inl l => dec_prim p l | inr _ => x end.

Lemma dec_enc_val p x bs rest : enc_val p x = (bs, None) -> dec_val p (bs ++ rest) = DOk (norm_prim p x) rest.
Proof.
  intros H. apply enc_val_ok in H. unfold norm_prim. rewrite H.
  apply dec_val_app. eapply enc_prim_length; eauto.
Qed.

Lemma pow256 n : 256 ^ Z.of_nat n = 2 ^ (8 * Z.of_nat n).
Proof. rewrite Z.pow_mul_r by lia. reflexivity. Qed.

(** a two's complement n-byte integer survives *)
Lemma int_round n sg z : (0 < n)%nat -> lo n sg <= z < hi n sg ->
  (if sg then signed n (be_val (be n z)) else be_val (be n z)) = z.
Proof.
  intros Hn Hz. rewrite be_val_be, pow256. unfold lo, hi in Hz.
  set (k := 8 * Z.of_nat n) in *. assert (0 < k) by lia.
  assert (E : 2 ^ k = 2 * 2 ^ (k - 1)) by (rewrite <- Z.pow_succ_r by lia; f_equal; lia).
  assert (0 < 2 ^ (k - 1)) by (apply Z.pow_pos_nonneg; lia).
  destruct sg; [|apply Z.mod_small; lia].
  unfold signed. fold k. destruct (Z.ltb_spec z 0).
  - replace (z mod 2 ^ k) with (z + 2 ^ k) by (apply Z.mod_unique with (q := -1); lia).
    destruct (Z.ltb_spec (z + 2 ^ k) (2 ^ (k - 1))); lia.
  - rewrite Z.mod_small by lia. destruct (Z.ltb_spec z (2 ^ (k - 1))); lia.
Qed.

Lemma norm_int n sg x z bs : (0 < n)%nat -> wint x = Some z -> enc_val (PInt n sg) x = (bs, None) ->
  norm_prim (PInt n sg) x = WInt z.
Proof.
  intros Hn Hx H. apply enc_val_ok in H. unfold norm_prim. rewrite H. simpl in H. rewrite Hx in H.
  destruct ((lo n sg <=? z) && (z <? hi n sg)) eqn:E; [|discriminate]. injection H as <-.
  unfold dec_prim. f_equal. apply int_round; lia.
Qed.

Lemma norm_int' n sg z bs : (0 < n)%nat -> enc_val (PInt n sg) (WInt z) = (bs, None) ->
  norm_prim (PInt n sg) (WInt z) = WInt z.
Proof. intros Hn H. eapply norm_int; eauto. Qed.

Lemma narrow_range b c : 0 <= b < 2 ^ 64 -> narrow b = Some c -> 0 <= c < 2 ^ 32.
Proof.
  intros Hb. unfold narrow.
  assert (S : 0 <= b / 2 ^ 63 <= 1).
  { split; [apply Z.div_pos; lia|]. apply Z.lt_succ_r. apply Z.div_lt_upper_bound; lia. }
  set (s := b / 2 ^ 63) in *. set (m := b mod 2 ^ 52). assert (Hm : 0 <= m < 2 ^ 52) by (apply Z.mod_pos_bound; lia).
  set (e := (b / 2 ^ 52) mod 2 ^ 11). assert (He : 0 <= e < 2 ^ 11) by (apply Z.mod_pos_bound; lia).
  clearbody s m e. clear b Hb.
  destruct (Z.eqb_spec e 2047).
  - destruct (m =? 0); intros [= <-].
    + lia.
    + assert (0 <= (m / 2 ^ 29) mod 2 ^ 22 < 2 ^ 22) by (apply Z.mod_pos_bound; lia). lia.
  - destruct (Z.eqb_spec e 0); [intros [= <-]; lia|].
    assert (R : forall k, 29 < k -> 0 <= round_shift (m + 2 ^ 52) k <= 2 ^ 23).
    { intros k Hk. unfold round_shift. destruct (Z.leb_spec k 0); [lia|].
      assert (Hp : 2 ^ k = 2 ^ 30 * 2 ^ (k - 30)) by (rewrite <- Z.pow_add_r by lia; f_equal; lia).
      assert (0 < 2 ^ (k - 30)) by (apply Z.pow_pos_nonneg; lia).
      assert (0 <= (m + 2 ^ 52) / 2 ^ k) by (apply Z.div_pos; nia).
      assert ((m + 2 ^ 52) / 2 ^ k < 2 ^ 23) by (apply Z.div_lt_upper_bound; nia).
      repeat match goal with |- context [if ?c then _ else _] => destruct c end; lia. }
    destruct (Z.leb_spec 897 e).
    + assert (Q : 0 <= round_shift (m + 2 ^ 52) 29).
      { unfold round_shift. simpl (29 <=? 0). cbv iota.
        assert (0 <= (m + 2 ^ 52) / 2 ^ 29) by (apply Z.div_pos; lia).
        repeat match goal with |- context [if ?c then _ else _] => destruct c end; lia. }
      destruct (Z.ltb_spec ((e - 897) * 2 ^ 23 + round_shift (m + 2 ^ 52) 29) (255 * 2 ^ 23)); [|discriminate].
      generalize dependent (round_shift (m + 2 ^ 52) 29). intros t Q H0 [= <-]. lia.
    + specialize (R (926 - e) ltac:(lia)). generalize dependent (round_shift (m + 2 ^ 52) (926 - e)).
      intros t R' [= <-]. lia.
Qed.

Lemma wf_pos n sg : wf_prim (PInt n sg) = true -> (0 < n)%nat.
Proof. apply Nat.ltb_lt. Qed.

Lemma norm_fits p x : wf_prim p = true -> fits p x ->
  (exists bs, enc_val p x = (bs, None)) /\ norm_prim p x = x.
Proof.
  intros Hp H. unfold enc_val. destruct p, x; simpl in *; try contradiction.
  - assert (E : (lo n sg <=? z) && (z <? hi n sg) = true) by lia. unfold norm_prim. cbn [enc_prim wint]. rewrite E.
    split; [eauto|]. cbn [dec_prim]. f_equal. apply int_round; lia.
  - destruct H as (Hr & c & E1 & E2). unfold norm_prim. cbn [enc_prim]. rewrite E1. split; [eauto|]. cbn [dec_prim].
    rewrite be_val_be. change (256 ^ Z.of_nat 4) with (2 ^ 32). rewrite Z.mod_small by (eapply narrow_range; eauto).
    now rewrite E2.
  - unfold norm_prim. cbn [enc_prim]. split; [eauto|]. cbn [dec_prim]. rewrite be_val_be.
    change (256 ^ Z.of_nat 8) with (2 ^ 64). now rewrite Z.mod_small.
Qed.

(** ** Encoding of sequences *)
Lemma oseq_ok x y bs : oseq x y = (bs, None) ->
  exists b1 b2, x = (b1, None) /\ y = (b2, None) /\ bs = b1 ++ b2.
Proof.
  unfold oseq. destruct x as [b1 [e|]], y as [b2 o]; simpl; intros H; [discriminate|].
  injection H as <- ->. eauto.
Qed.

Lemma oseq_assoc x y z : oseq (oseq x y) z = oseq x (oseq y z).
Proof.
  unfold oseq. destruct x as [b1 [e|]]; simpl; [reflexivity|].
  destruct y as [b2 [e|]]; simpl; [reflexivity|]. now rewrite app_assoc.
Qed.

Lemma oseq_done_l x : oseq done x = x.
Proof. destruct x; reflexivity. Qed.

Lemma oseq_done_r x : oseq x done = x.
Proof. destruct x as [b [e|]]; unfold oseq; simpl; now rewrite ?app_nil_r. Qed.

(** ** What comes back from the wire *)
Fixpoint norm (f : fmt) (W : flds) : flds :=
  match f with
  | Done => []
  | Prim a p k => match field a W with Some x => [(a, norm_prim p x)] | None => [] end ++ norm k W
  | Obj a _ sub k => match field a W with Some (WObj w) => [(a, WObj (norm sub w))] | _ => [] end ++ norm k W
  | Cnt _ _ _ k | Zero _ k | Pad _ k | Derive _ _ _ k => norm k W
  | PList a p k => match field a W with Some (WList l) => [(a, WList (map (norm_prim p) l))] | _ => [] end ++ norm k W
  | OList a _ sub k =>
      match field a W with
      | Some (WList l) => [(a, WList (map (fun x => WObj (norm sub (as_obj x))) l))]
      | _ => []
      end ++ norm k W
  | Arr a p n k =>
      match field a W with Some (WList l) => [(a, WList (map (norm_prim p) (firstn n l)))] | _ => [] end ++ norm k W
  | Mask a _ k =>
      match field a W with
      | Some x => match wint x with Some z => [(a, WInt (Z.land z 1))] | None => [] end
      | None => []
      end ++ norm k W
  | VList a p b dv k =>
      match field a W, field b W with
      | Some (WList l), Some y =>
          match wint y with Some z => [(a, WList (map (norm_prim p) (firstn (Z.to_nat (z / dv)) l)))] | None => [] end
      | _, _ => []
      end ++ norm k W
  | Bits bf k => match enc_bits bf W with Some u => dec_bits bf u | None => [] end ++ norm k W
  | NullL a k => (a, WList []) :: norm k W
  end.

Lemma dec_enc_list {A B} (e : A -> outcome) (d : list byte -> dres B) (g : A -> B) l :
  (forall x bs rest, In x l -> e x = (bs, None) -> d (bs ++ rest) = DOk (g x) rest) ->
  forall bs rest, enc_list e l = (bs, None) -> dec_list d (length l) (bs ++ rest) = DOk (map g l) rest.
Proof.
  induction l as [|x r IH]; intros H bs rest; simpl.
  - intros [= <-]. reflexivity.
  - intros E. apply oseq_ok in E as (b1 & b2 & E1 & E2 & ->). rewrite <- app_assoc.
    rewrite (H x b1) by (simpl; auto). simpl. rewrite IH; auto. intros. apply H; simpl; auto.
Qed.

Lemma dec_enc_idx e (d : list byte -> dres wv) (g : wv -> wv) l :
  (forall x bs rest, e x = (bs, None) -> d (bs ++ rest) = DOk (g x) rest) ->
  forall n bs rest, enc_idx e l n = (bs, None) -> dec_list d n (bs ++ rest) = DOk (map g (firstn n l)) rest.
Proof.
  intros H n. revert l. induction n as [|n IH]; intros l bs rest; simpl.
  - intros [= <-]. reflexivity.
  - destruct l as [|x r]; simpl; [discriminate|]. intros E. apply oseq_ok in E as (b1 & b2 & E1 & E2 & ->).
    rewrite <- app_assoc, (H x b1) by auto. simpl. now rewrite (IH r).
Qed.

Lemma mem_In a l : mem a l = true <-> In a l.
Proof.
  unfold mem. rewrite existsb_exists. split.
  - intros (x & H & E). apply String.eqb_eq in E. now subst.
  - intros H. exists a. split; [exact H|apply String.eqb_refl].
Qed.

Notation bits_wf bf := (forallb (fun b => if bf_flag b then bf_width b =? 1 else 0 <? bf_width b) bf).

Lemma bits_pos b : (if bf_flag b then bf_width b =? 1 else 0 <? bf_width b) = true -> 0 < bf_width b.
Proof. destruct (bf_flag b); lia. Qed.

Lemma bits_tot_nonneg bf : bits_wf bf = true -> 0 <= bits_tot bf.
Proof.
  induction bf as [|c r IH]; simpl; [lia|]. intros H. apply andb_true_iff in H as [A B].
  apply bits_pos in A. specialize (IH B). fold (bits_tot r). lia.
Qed.

Lemma bits_enc_range bf W u : bits_wf bf = true -> enc_bits bf W = Some u -> 0 <= u < 2 ^ bits_tot bf.
Proof.
  revert u. induction bf as [|b r IH]; intros u; simpl.
  - intros _ [= <-]. lia.
  - intros H. apply andb_true_iff in H as [H1 H2].
    destruct (match bf_attr b with Some a => _ | None => Some 0 end) as [z|]; [|discriminate].
    destruct (enc_bits r W) as [v|]; [|discriminate]. intros [= <-]. specialize (IH v H2 eq_refl).
    assert (0 <= bits_tot r) by now apply bits_tot_nonneg. apply bits_pos in H1.
    fold (bits_tot r). rewrite Z.pow_add_r by lia.
    assert (0 <= z mod 2 ^ bf_width b < 2 ^ bf_width b) by (apply Z.mod_pos_bound, Z.pow_pos_nonneg; lia). nia.
Qed.

Theorem decode_encode f : forall cs is W C bs rest,
  wf_in cs is f = true ->
  (forall a, In a cs -> exists l, field a W = Some (WList l) /\ count (CLen a) C = Some (Z.of_nat (length l))) ->
  (forall b, In b is -> exists y z, field b W = Some y /\ wint y = Some z /\ count (CInt b) C = Some z) ->
  encode f W = (bs, None) ->
  decode f [] C (bs ++ rest) = DOk (norm f W) rest.
Proof.
  induction f as [|a p k IH|a c sub IHs k IH|a p m k IH|a p k IH|a c sub IHs k IH|a p n k IH|p k IH|a n k IH
                 |a p b dv k IH|b k IH|a b d k IH|bf k IH|a k IH];
    intros cs is W C bs rest Hwf HC HI; cbn [encode decode norm wf_in] in *; rewrite ?andb_true_iff in Hwf.
  - intros [= <-]. reflexivity.
  - destruct (field a W) as [x|] eqn:Ea; [|discriminate]. intros E.
    apply oseq_ok in E as (b1 & b2 & E1 & E2 & ->). rewrite <- app_assoc.
    rewrite (dec_enc_val _ _ _ _ E1). cbn [dbind app].
    destruct Hwf as [Hp Hk]. rewrite (IH _ _ W _ _ rest Hk); [reflexivity| | |exact E2].
    + intros a' Ha'. destruct (HC a' Ha') as (l & A & B). exists l. split; [exact A|].
      unfold cadd. destruct (wint _); simpl; auto.
    + assert (G : forall b, In b is -> exists y z, field b W = Some y /\ wint y = Some z /\
                     count (CInt b) (cadd a (norm_prim p x) C) = Some z).
      { intros b Hb. destruct (HI b Hb) as (y & z & A & B & D). exists y, z. repeat split; auto.
        unfold cadd. destruct (wint (norm_prim p x)) as [w|] eqn:Ew; [|exact D]. simpl.
        destruct (String.eqb_spec b a) as [->|]; [|exact D].
        assert (x = y) by congruence. subst y. destruct p as [n sg| |].
        - rewrite (norm_int _ _ _ _ _ (wf_pos _ _ Hp) B E1) in Ew. simpl in Ew. congruence.
        - exfalso. unfold norm_prim in Ew. apply enc_val_ok in E1. rewrite E1 in Ew. discriminate.
        - exfalso. unfold norm_prim in Ew. apply enc_val_ok in E1. rewrite E1 in Ew. discriminate. }
      destruct p as [n [|]| |]; auto. intros b [<-|Hb]; [|auto].
      destruct (wint x) as [z|] eqn:Ez.
      * exists x, z. repeat split; auto. rewrite (norm_int _ _ _ _ _ (wf_pos _ _ Hp) Ez E1).
        unfold cadd. simpl. now rewrite String.eqb_refl.
      * exfalso. apply enc_val_ok in E1. simpl in E1. now rewrite Ez in E1.
  - destruct (field a W) as [[]|] eqn:Ea; try discriminate. intros E.
    apply oseq_ok in E as (b1 & b2 & E1 & E2 & ->). rewrite <- app_assoc.
    destruct Hwf as [[Hn Hs] Hk]. unfold old_obj. cbn [field].
    rewrite (IHs [] [] fs [] b1 (b2 ++ rest) Hs); [|intros ? []|intros ? []|exact E1]. cbn [dbind app].
    now rewrite (IH _ _ W _ _ rest Hk HC HI E2).
  - destruct (field a W) as [[]|] eqn:Ea; try discriminate. intros E.
    apply oseq_ok in E as (b1 & b2 & E1 & E2 & ->). rewrite <- app_assoc.
    destruct p as [n sg| |]; try (destruct Hwf as [[? ?] ?]; discriminate).
    destruct Hwf as [[Hp Hm] Hk].
    rewrite (dec_enc_val _ _ _ _ E1). cbn [dbind]. rewrite (norm_int' _ _ _ _ (proj1 (Nat.ltb_lt _ _) Hp) E1). simpl.
    rewrite Z.div_mul by lia. eapply (IH _ _ W _ _ rest Hk); [| |exact E2].
    + intros a' [<-|Ha'].
      * exists l. simpl. rewrite String.eqb_refl. auto.
      * destruct (HC a' Ha') as (l' & A & B). exists l'. split; [exact A|]. simpl.
        destruct (String.eqb_spec a' a) as [->|]; [|exact B]. congruence.
    + intros b Hb. destruct (HI b Hb) as (y & z & A & B & D). exists y, z. repeat split; auto.
  - destruct (field a W) as [[]|] eqn:Ea; try discriminate. intros E.
    apply oseq_ok in E as (b1 & b2 & E1 & E2 & ->). rewrite <- app_assoc.
    destruct Hwf as [[Hp Ha] Hk]. apply mem_In in Ha. destruct (HC a Ha) as (l' & A & B).
    rewrite Ea in A. injection A as <-. rewrite B, Nat2Z.id.
    rewrite (dec_enc_list (enc_val p) _ (norm_prim p) l) with (bs := b1); [|intros; now apply dec_enc_val|exact E1].
    cbn [dbind app]. now rewrite (IH _ _ W _ _ rest Hk HC HI E2).
  - destruct (field a W) as [[]|] eqn:Ea; try discriminate. intros E.
    apply oseq_ok in E as (b1 & b2 & E1 & E2 & ->). rewrite <- app_assoc.
    destruct Hwf as [[[Hn Hs] Ha] Hk]. apply mem_In in Ha. destruct (HC a Ha) as (l' & A & B).
    rewrite Ea in A. injection A as <-. rewrite B, Nat2Z.id.
    rewrite (dec_enc_list (fun x => encode sub (as_obj x)) _ (fun x => norm sub (as_obj x)) l) with (bs := b1); [| |exact E1].
    + cbn [dbind app]. rewrite (IH _ _ W _ _ rest Hk HC HI E2). cbn [dmap old_list field app]. now rewrite map_map.
    + intros x b0 r0 _ Hx. apply (IHs [] [] _ [] _ _ Hs); auto; intros ? [].
  - destruct (field a W) as [[]|] eqn:Ea; try discriminate. intros E.
    apply oseq_ok in E as (b1 & b2 & E1 & E2 & ->). rewrite <- app_assoc. destruct Hwf as [Hp Hk].
    rewrite (dec_enc_idx (enc_val p) _ (norm_prim p) l) with (bs := b1); [|intros; now apply dec_enc_val|exact E1].
    cbn [dbind app]. now rewrite (IH _ _ W _ _ rest Hk HC HI E2).
  - intros E. apply oseq_ok in E as (b1 & b2 & E1 & E2 & ->). rewrite <- app_assoc. destruct Hwf as [Hp Hk].
    rewrite (dec_enc_val _ _ _ _ E1). cbn [dbind]. exact (IH _ _ W _ _ rest Hk HC HI E2).
  - destruct (field a W) as [x|] eqn:Ea; [|discriminate]. destruct (wint x) as [z|]; [|discriminate]. intros E.
    apply oseq_ok in E as (b1 & b2 & E1 & E2 & ->). rewrite <- app_assoc. destruct Hwf as [Hp Hk].
    rewrite (dec_enc_val _ _ _ _ E1). cbn [dbind]. rewrite (norm_int' _ _ _ _ (proj1 (Nat.ltb_lt _ _) Hp) E1). cbn [wint].
    rewrite <- Z.land_assoc. change (Z.land 1 1) with 1. now rewrite (IH _ _ W _ _ rest Hk HC HI E2).
  - destruct (field a W) as [[]|] eqn:Ea; try discriminate. destruct (field b W) as [y|] eqn:Eb; [|discriminate].
    destruct (wint y) as [z|] eqn:Ez; [|discriminate]. intros E.
    apply oseq_ok in E as (b1 & b2 & E1 & E2 & ->). rewrite <- app_assoc.
    destruct Hwf as [[[Hp Hb] Hd] Hk]. apply mem_In in Hb. destruct (HI b Hb) as (y' & z' & A & B & D).
    assert (y' = y) by congruence. subst y'. assert (z' = z) by congruence. subst z'. rewrite D.
    rewrite (dec_enc_idx (enc_val p) _ (norm_prim p) l) with (bs := b1); [|intros; now apply dec_enc_val|exact E1].
    cbn [dbind app]. now rewrite (IH _ _ W _ _ rest Hk HC HI E2).
  - destruct (field b W) as [y|] eqn:Eb; [|discriminate].
    destruct (wint y) as [z|] eqn:Ez; [|discriminate]. intros E.
    apply oseq_ok in E as (b1 & b2 & E1 & E2 & ->). rewrite <- app_assoc. injection E1 as <-.
    destruct Hwf as [Hb Hk]. apply mem_In in Hb. destruct (HI b Hb) as (y' & z' & A & B & D).
    assert (y' = y) by congruence. subst y'. assert (z' = z) by congruence. subst z'. rewrite D.
    assert (G : forall n r, dec_list (dec_val (PInt 1 false)) n (repeat x00 n ++ r) = DOk (repeat (WInt 0) n) r).
    { induction n as [|n IHn]; intros r; [reflexivity|]. cbn [repeat dec_list app].
      change (x00 :: repeat x00 n ++ r) with ([x00] ++ (repeat x00 n ++ r)). rewrite dec_val_app by reflexivity.
      cbn [dbind]. now rewrite IHn. }
    rewrite G. cbn [dbind]. exact (IH _ _ W _ _ rest Hk HC HI E2).
  - discriminate.
  - destruct (enc_bits bf W) as [u|] eqn:Eu; [|discriminate]. intros E.
    apply oseq_ok in E as (b1 & b2 & E1 & E2 & ->). rewrite <- app_assoc. injection E1 as <-.
    destruct Hwf as [[Hw H8] Hk]. rewrite app_length, be_length.
    destruct (Nat.leb_spec (bits_bytes bf) (bits_bytes bf + length (b2 ++ rest))); [|lia].
    assert (R := bits_enc_range _ _ _ Hw Eu).
    rewrite firstn_app, skipn_app, be_length, Nat.sub_diag. cbn [firstn skipn].
    rewrite firstn_all2, skipn_all2 by (rewrite be_length; lia). rewrite app_nil_r. cbn [app].
    rewrite (IH _ _ W _ _ rest Hk HC HI E2). cbn [dmap]. do 2 f_equal.
    rewrite be_val_be, pow256. rewrite Z.mod_small; [reflexivity|].
    unfold bits_bytes. assert (0 <= bits_tot bf) by now apply bits_tot_nonneg.
    rewrite Z2Nat.id by (apply Z.div_pos; lia).
    replace (8 * (bits_tot bf / 8)) with (bits_tot bf); [exact R|].
    apply Z.eqb_eq in H8. assert (E := Z.div_mod (bits_tot bf) 8). lia.
  - destruct (field a W) as [[| | | | | | [|] |]|] eqn:Ea; try discriminate. intros E.
    destruct Hwf as [Ha Hk]. apply mem_In in Ha. destruct (HC a Ha) as (l & A & B). rewrite Ea in A. injection A as <-.
    rewrite B. simpl. now rewrite (IH _ _ W _ _ rest Hk HC HI E).
Qed.

Corollary decode_encode_top f W bs rest : wf f = true -> encode f W = (bs, None) ->
  decode f [] [] (bs ++ rest) = DOk (norm f W) rest.
Proof.
  intros H E. apply andb_true_iff in H as [_ H]. eapply decode_encode; eauto; intros ? [].
Qed.

(** ** Typed values: encoding succeeds and decoding returns them *)
Definition proj (ns : list string) (W : flds) : flds :=
  flat_map (fun a => match field a W with Some x => [(a, x)] | None => [] end) ns.

Lemma nodupb_NoDup l : nodupb l = true -> NoDup l.
Proof.
  induction l as [|a r IH]; simpl; [constructor|]. intros H. apply andb_true_iff in H as [A B].
  constructor; [|auto]. rewrite <- mem_In. now destruct (mem a r).
Qed.

Lemma proj_id W : NoDup (map fst W) -> proj (map fst W) W = W.
Proof.
  intros H. unfold proj.
  assert (G : forall V, (forall a x, In (a, x) V -> field a W = Some x) ->
     flat_map (fun a => match field a W with Some x => [(a, x)] | None => [] end) (map fst V) = V).
  { induction V as [|[a x] V IH]; intros HV; [reflexivity|]. simpl.
    rewrite (HV a x) by (simpl; auto). simpl. f_equal. apply IH. intros. apply HV. simpl; auto. }
  apply G. clear G. intros a x Hin. induction W as [|[b y] W IH]; [contradiction|].
  inversion H as [|? ? Hn Hd]; subst. simpl. destruct Hin as [[= -> ->]|Hin].
  - now rewrite String.eqb_refl.
  - destruct (String.eqb_spec a b) as [->|]; [|auto].
    exfalso. apply Hn. apply in_map_iff. now exists (b, x).
Qed.

Lemma enc_list_ok {A} (e : A -> outcome) l : Forall (fun x => exists bs, e x = (bs, None)) l -> exists bs, enc_list e l = (bs, None).
Proof.
  induction 1 as [|x r [b Hb] Hr [b' Hb']]; simpl; [eexists; reflexivity|].
  rewrite Hb, Hb'. eexists. reflexivity.
Qed.

Lemma enc_idx_ok e l n : (n <= length l)%nat -> Forall (fun x => exists bs, e x = (bs, None)) l -> exists bs, enc_idx e l n = (bs, None).
Proof.
  revert l. induction n as [|n IH]; intros l Hl H; simpl; [eexists; reflexivity|].
  destruct l as [|x r]; simpl in Hl; [lia|]. inversion H as [|? ? [b Hb] Hr]; subst.
  destruct (IH r) as [b' Hb']; [lia|assumption|]. rewrite Hb, Hb'. eexists. reflexivity.
Qed.

Lemma map_id_in {A} (g : A -> A) l : Forall (fun x => g x = x) l -> map g l = l.
Proof. induction 1; simpl; congruence. Qed.

Lemma bits_fit_enc bf W : bits_wf bf = true -> bits_fit bf W -> exists u, enc_bits bf W = Some u.
Proof.
  induction bf as [|b r IH]; simpl; [eauto|]. intros Hw [H1 H2]. apply andb_true_iff in Hw as [_ Hw].
  destruct (IH Hw H2) as [u ->]. destruct (bf_attr b) as [a|]; [|eauto].
  destruct (field a W) as [[]|]; try contradiction; simpl; eauto.
Qed.

Lemma dec_bits_low r h u : bits_wf r = true -> dec_bits r (h * 2 ^ bits_tot r + u) = dec_bits r u.
Proof.
  assert (G : forall r' T h u, bits_wf r' = true -> bits_tot r' <= T -> dec_bits r' (h * 2 ^ T + u) = dec_bits r' u).
  { clear. induction r' as [|b r IH]; intros T h u Hw HT; [reflexivity|]. simpl in Hw. apply andb_true_iff in Hw as [H1 H2].
    assert (0 <= bits_tot r) by now apply bits_tot_nonneg. apply bits_pos in H1.
    cbn [bits_tot fold_right] in HT. fold (bits_tot r) in HT.
    cbn [dec_bits]. rewrite (IH T h u H2 ltac:(lia)).
    assert (E : ((h * 2 ^ T + u) / 2 ^ bits_tot r) mod 2 ^ bf_width b = (u / 2 ^ bits_tot r) mod 2 ^ bf_width b).
    { replace (2 ^ T) with (2 ^ (T - bits_tot r - bf_width b) * 2 ^ bf_width b * 2 ^ bits_tot r)
        by (rewrite <- !Z.pow_add_r by lia; f_equal; lia).
      rewrite (Z.add_comm (h * _)), !Z.mul_assoc, Z.div_add by (apply Z.pow_nonzero; lia).
      now rewrite Z.mod_add by (apply Z.pow_nonzero; lia). }
    now rewrite E. }
  intros. apply G; auto. lia.
Qed.

Lemma proj_app a b W : proj (a ++ b) W = proj a W ++ proj b W.
Proof. unfold proj. apply flat_map_app. Qed.

Notation bnames bf := (flat_map (fun b => match bf_attr b with Some a => [a] | None => [] end) bf).

Lemma bits_fit_dec bf W u : bits_wf bf = true -> bits_fit bf W -> enc_bits bf W = Some u ->
  dec_bits bf u = proj (bnames bf) W.
Proof.
  revert u. induction bf as [|b r IH]; intros u Hw Hf; simpl in *; [reflexivity|].
  destruct Hf as [H1 H2]. apply andb_true_iff in Hw as [Hb Hw].
  destruct (enc_bits r W) as [v|] eqn:Ev; [|destruct (match bf_attr b with Some _ => _ | None => _ end); discriminate].
  assert (R := bits_enc_range _ _ _ Hw Ev). specialize (IH v Hw H2 eq_refl).
  assert (0 <= bits_tot r) by now apply bits_tot_nonneg. assert (Hp := bits_pos _ Hb).
  assert (D : forall z, 0 <= z < 2 ^ bf_width b -> ((z mod 2 ^ bf_width b) * 2 ^ bits_tot r + v) / 2 ^ bits_tot r mod 2 ^ bf_width b = z).
  { intros z Hz. rewrite (Z.mod_small z) by lia. rewrite Z.div_add_l by lia.
    rewrite (Z.div_small v) by lia. rewrite Z.add_0_r. now apply Z.mod_small. }
  destruct (bf_attr b) as [a|].
  - destruct (field a W) as [x|] eqn:Ea; [|contradiction].
    destruct (wint x) as [z|] eqn:Ez; [|discriminate]. intros [= <-].
    rewrite dec_bits_low, IH by exact Hw. cbn [app proj flat_map]. rewrite Ea. cbn [app]. f_equal.
    destruct x; try contradiction; simpl in Ez; injection Ez as <-.
    + rewrite H1. rewrite H1 in Hb. apply Z.eqb_eq in Hb. rewrite D by (rewrite Hb; destruct b0; lia). now destruct b0.
    + destruct H1 as [-> H1]. now rewrite D.
  - intros [= <-]. rewrite ?dec_bits_low by exact Hw. exact IH.
Qed.

Theorem typed_ok f : forall cs is W, wf_in cs is f = true -> typed f W ->
  (exists bs, encode f W = (bs, None)) /\ norm f W = proj (names f) W.
Proof.
  induction f as [|a p k IH|a c sub IHs k IH|a p m k IH|a p k IH|a c sub IHs k IH|a p n k IH|p k IH|a n k IH
                 |a p b dv k IH|b k IH|a b d k IH|bf k IH|a k IH];
    intros cs is W Hwf HT; cbn [encode norm wf_in typed names] in *; rewrite ?andb_true_iff in Hwf.
  - split; [eexists; reflexivity|reflexivity].
  - destruct HT as [(x & Ex & Hx) Hk]. destruct Hwf as [Hp Hwk]. destruct (IH _ _ W Hwk Hk) as [[b Eb] En].
    destruct (norm_fits p x Hp Hx) as [[b1 E1] E2]. simpl. rewrite Ex, E1, Eb, E2, En.
    split; [eexists; reflexivity|reflexivity].
  - destruct HT as [(w & Ex & Hx & Hn) Hk]. destruct Hwf as [[Hd Hs] Hwk].
    destruct (IHs _ _ w Hs Hx) as [[b1 E1] En1]. destruct (IH _ _ W Hwk Hk) as [[b Eb] En].
    simpl. rewrite Ex, E1, Eb, En, En1, <- Hn, proj_id by (rewrite Hn; now apply nodupb_NoDup).
    split; [eexists; reflexivity|reflexivity].
  - destruct HT as [(l & Ex & Hx) Hk]. destruct Hwf as [[Hp Hm] Hwk].
    destruct (IH _ _ W Hwk Hk) as [[b Eb] En]. 
    destruct p as [n sg| |]; try discriminate.
    destruct (norm_fits (PInt n sg) _ Hp Hx) as [[b1 E1] E2]. rewrite Ex, E1, Eb, En.
    split; [eexists; reflexivity|reflexivity].
  - destruct HT as [(l & Ex & Hx) Hk]. destruct Hwf as [[Hp Ha] Hwk].
    destruct (IH _ _ W Hwk Hk) as [[b Eb] En]. simpl. rewrite Ex.
    destruct (enc_list_ok (enc_val p) l) as [b1 E1]. { eapply Forall_impl; [|exact Hx]. intros x Hf. now apply norm_fits. }
    rewrite E1, Eb, En, map_id_in. { split; [eexists; reflexivity|reflexivity]. }
    eapply Forall_impl; [|exact Hx]. intros x Hf. now apply norm_fits.
  - destruct HT as [(l & Ex & Hx) Hk]. destruct Hwf as [[[Hd Hs] Ha] Hwk].
    destruct (IH _ _ W Hwk Hk) as [[b Eb] En]. simpl. rewrite Ex.
    destruct (enc_list_ok (fun x => encode sub (as_obj x)) (map WObj l)) as [b1 E1].
    { apply Forall_map. eapply Forall_impl; [|exact Hx]. intros x [Hf _]. cbn [as_obj]. now apply (IHs _ _ x Hs). }
    rewrite E1, Eb, En, map_map. cbn [as_obj]. split; [eexists; reflexivity|]. cbn [app]. do 3 f_equal.
    apply map_ext_in. intros w Hw. rewrite Forall_forall in Hx. destruct (Hx w Hw) as [Hf Hn].
    destruct (IHs _ _ w Hs Hf) as [_ ->]. rewrite <- Hn, proj_id; [reflexivity|]. rewrite Hn. now apply nodupb_NoDup.
  - destruct HT as [(l & Ex & Hl & Hx) Hk]. destruct Hwf as [Hp Hwk].
    destruct (IH _ _ W Hwk Hk) as [[b Eb] En]. simpl. rewrite Ex.
    destruct (enc_idx_ok (enc_val p) l n) as [b1 E1]; [lia| |]. { eapply Forall_impl; [|exact Hx]. intros x Hf. now apply norm_fits. }
    rewrite E1, Eb, En, firstn_all2 by lia. rewrite map_id_in. { split; [eexists; reflexivity|reflexivity]. }
    eapply Forall_impl; [|exact Hx]. intros x Hf. now apply norm_fits.
  - destruct Hwf as [Hp Hwk]. destruct (IH _ _ W Hwk HT) as [[b Eb] En]. destruct p as [n sg| |]; try discriminate.
    assert (F : fits (PInt n sg) (WInt 0)).
    { cbn [fits]. unfold lo, hi. apply Nat.ltb_lt in Hp. destruct sg.
      - assert (0 < 2 ^ (8 * Z.of_nat n - 1)) by (apply Z.pow_pos_nonneg; lia). lia.
      - assert (0 < 2 ^ (8 * Z.of_nat n)) by (apply Z.pow_pos_nonneg; lia). lia. }
    destruct (norm_fits (PInt n sg) _ Hp F) as [[b1 E1] _]. rewrite E1, Eb, En.
    split; [eexists; reflexivity|reflexivity].
  - destruct HT as [Hx Hk]. destruct Hwf as [Hp Hwk]. destruct (IH _ _ W Hwk Hk) as [[b Eb] En]. simpl.
    assert (F : forall z, z = 0 \/ z = 1 -> fits (PInt n false) (WInt z)).
    { intros z Hz. cbn [fits]. unfold lo, hi. apply Nat.ltb_lt in Hp.
      assert (2 <= 2 ^ (8 * Z.of_nat n)) by (change 2 with (2 ^ 1) at 1; apply Z.pow_le_mono_r; lia). lia. }
    destruct Hx as [Ex|Ex]; rewrite Ex; cbn [wint]; [change (Z.land 0 1) with 0|change (Z.land 1 1) with 1].
    all: match goal with |- context [enc_val _ (WInt ?z)] =>
           destruct (norm_fits (PInt n false) (WInt z) Hp (F z ltac:(lia))) as [[b1 E1] _] end.
    all: rewrite E1, Eb, En; split; [eexists; reflexivity|reflexivity].
  - destruct HT as [(l & z & Ex & Ez & Hl & Hx) Hk]. destruct Hwf as [[[Hp Hb] Hd] Hwk].
    destruct (IH _ _ W Hwk Hk) as [[b' Eb] En]. simpl. rewrite Ex, Ez. cbn [wint].
    assert (Hn : Z.to_nat (z / dv) = length l) by lia. rewrite Hn.
    destruct (enc_idx_ok (enc_val p) l (length l)) as [b1 E1]; [lia| |]. { eapply Forall_impl; [|exact Hx]. intros x Hf. now apply norm_fits. }
    rewrite E1, Eb, En, firstn_all, map_id_in. { split; [eexists; reflexivity|reflexivity]. }
    eapply Forall_impl; [|exact Hx]. intros x Hf. now apply norm_fits.
  - destruct HT as [(z & Ez) Hk]. destruct Hwf as [Hb Hwk]. destruct (IH _ _ W Hwk Hk) as [[b' Eb] En].
    rewrite Ez. cbn [wint]. rewrite Eb, En. split; [eexists; reflexivity|reflexivity].
  - discriminate.
  - destruct HT as [Hb Hk]. destruct Hwf as [[Hw H8] Hwk]. destruct (IH _ _ W Hwk Hk) as [[b' Eb] En].
    destruct (bits_fit_enc bf W Hw Hb) as [u Eu]. rewrite Eu, Eb, En, proj_app.
    split; [eexists; reflexivity|]. f_equal. now apply bits_fit_dec.
  - destruct HT as [Ex Hk]. destruct Hwf as [Ha Hwk]. destruct (IH _ _ W Hwk Hk) as [[b' Eb] En].
    simpl. rewrite Ex, Eb, En. split; [eexists; reflexivity|reflexivity].
Qed.

(** a value of the layout is encoded without exception and decoded back unchanged *)
Theorem roundtrip f W rest : wf f = true -> value_of f W ->
  exists bs, encode f W = (bs, None) /\ decode f [] [] (bs ++ rest) = DOk W rest.
Proof.
  intros H [HN HT]. assert (H' := H). apply andb_true_iff in H' as [Hd Hw].
  destruct (typed_ok f [] [] W Hw HT) as [[bs E] En]. exists bs. split; [exact E|].
  rewrite (decode_encode_top f W bs rest H E), En, <- HN, proj_id; [reflexivity|].
  rewrite HN. now apply nodupb_NoDup.
Qed.
