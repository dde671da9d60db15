(** * Property C38: the Transmitter PDU *)
From Coq Require Import ZArith String List Bool Lia.
From Coq Require Import Strings.Byte.
From Verif Require Import Lang Bytes Interp Shift Mono ProgBase ProgDis Prog Spec Codec Codec2 Rep Dec StreamLem SerSound ParSound ParStep ParClass NewSound Layouts Refine Api StreamApi Classes PropCodec PropFactory Special PropSize PropSV SvList TxRun TxPar.
Import ListNotations.
Open Scope string_scope. Open Scope Z_scope. Open Scope list_scope.

(** ** What the property is about *)
(** o is a TransmitterPdu with the fields W, the modulation parameters pm, the antenna pattern pp, and no variable transmitter parameters *)
Definition transmitter (h : list hobj) (o : val) (W : flds) (pm pp : tpart) : Prop := tx_object 0 h o W pm pp [].
(** W without modulationType.spreadSpectrum.padding, the only field that is written and not read *)
Definition on_field (a : string) (g : wv -> wv) (W : flds) : flds := map (fun p => if String.eqb (fst p) a then (fst p, g (snd p)) else p) W.
Definition on_obj (g : flds -> flds) (x : wv) : wv := match x with WObj w => WObj (g w) | _ => x end.
Definition without_padding (W : flds) : flds :=
  on_field "modulationType" (on_obj (on_field "spreadSpectrum" (on_obj (filter (fun p => negb (String.eqb (fst p) "padding")))))) W.
(** the number of the radio system and the major modulation in the fields W *)
Definition radio (W : flds) (sys major : Z) : Prop :=
  exists w, field "modulationType" W = Some (WObj w) /\ field "radioSystem" w = Some (WInt sys) /\ field "majorModulation" w = Some (WInt major).
(** the modulation parameters agree with the modulation type: none; a HAVE QUICK record with a HAVE QUICK system (2, 3, 4); a CCTT SINCGARS record with
    system 6; or 1 to 255 bytes with a system that has no record class *)
Definition agrees (W : flds) (pm : tpart) : Prop :=
  exists sys major, radio W sys major /\
  match pm with
  | PNone => True
  | PRec c w => (c = "BasicHaveQuickMP" /\ (sys = 2 \/ sys = 3 \/ sys = 4) /\ value_of w_BasicHaveQuickMP w) \/
                (c = "CCTTSincgarsMP" /\ sys = 6 /\ value_of w_CCTTSincgarsMP w)
  | PRaw c d => c = "UnknownRadio" /\ ~ In sys [1; 2; 3; 4; 6] /\ (0 < length d < 256)%nat
  end.
(** the antenna pattern: none, or a beam pattern with pattern type 1 *)
Definition pattern_agrees (W : flds) (pp : tpart) : Prop :=
  match pp with
  | PNone => True
  | PRec c w => c = "BeamAntennaPattern" /\ field "antennaPatternType" W = Some (WInt 1) /\ value_of w_BeamAntennaPattern w
  | PRaw _ _ => False
  end.

(** ** Reading back the fixed fields *)
(** the frequency is written unsigned and read signed *)
Definition as_signed (x : wv) : wv := match x with WInt z => WInt (signed 8 z) | _ => x end.
Definition seen (W : flds) : flds := on_field "frequency" as_signed (without_padding W).

Lemma on_field_other a g W : ~ In a (map fst W) -> on_field a g W = W.
Proof.
  intros H. unfold on_field. rewrite <- (map_id W) at 2. apply map_ext_in. intros [b x] Hb. cbn [fst snd]. destruct (String.eqb_spec b a) as [->|]; [|reflexivity].
  destruct H. apply in_map_iff. exists (a, x). auto.
Qed.
Lemma on_field_app a g W V : on_field a g (W ++ V) = on_field a g W ++ on_field a g V.
Proof. apply map_app. Qed.
Lemma seen_other W : ~ In "frequency" (map fst W) -> ~ In "modulationType" (map fst W) -> seen W = W.
Proof. intros A B. unfold seen, without_padding. rewrite (on_field_other "modulationType") by assumption. now apply on_field_other. Qed.
Lemma seen_app W V : seen (W ++ V) = seen W ++ seen V.
Proof. unfold seen, without_padding. now rewrite !on_field_app. Qed.

Definition strip_mt := on_field "spreadSpectrum" (on_obj (filter (fun p => negb (String.eqb (fst p) "padding")))).
Lemma dec_ss bs : decode r_SpreadSpectrum [] [] bs = dmap (filter (fun p => negb (String.eqb (fst p) "padding"))) (decode w_SpreadSpectrum [] [] bs).
Proof.
  unfold r_SpreadSpectrum, w_SpreadSpectrum, lay. cbn [fold_right decode].
  match goal with |- _ = dmap _ (if (?m <=? _)%nat then _ else _) => change (bits_bytes _) with m; destruct (m <=? length bs)%nat; [|reflexivity] end. reflexivity.
Qed.
Lemma dec_mt bs : decode r_ModulationType [] [] bs = dmap strip_mt (decode w_ModulationType [] [] bs).
Proof.
  unfold r_ModulationType, w_ModulationType. unfold lay. cbn [fold_right decode]. change (old_obj "spreadSpectrum" []) with (@nil (string * wv)). rewrite dec_ss.
  destruct (decode w_SpreadSpectrum [] [] bs) as [w r|e]; cbn [dmap dbind]; [|reflexivity].
  destruct (dec_val u16 r) as [x1 r1|e]; cbn [dmap dbind]; [|reflexivity]. destruct (dec_val u16 r1) as [x2 r2|e]; cbn [dmap dbind]; [|reflexivity].
  destruct (dec_val u16 r2) as [x3 r3|e]; cbn [dmap dbind]; reflexivity.
Qed.
Lemma dec_freq bs : dec_val i64 bs = dmap as_signed (dec_val u64 bs).
Proof. unfold dec_val, read_prim, i64, u64. cbn [width]. destruct (8 <=? length bs)%nat; reflexivity. Qed.

Lemma dec_c bs : decode (tx_c i64 r_ModulationType) [] [] bs = dmap seen (decode (tx_c u64 w_ModulationType) [] [] bs).
Proof.
  unfold tx_c, lay. cbn [fold_right decode]. change (old_obj "modulationType" []) with (@nil (string * wv)). rewrite dec_freq.
  destruct (dec_val u64 bs) as [x1 r1|e]; cbn [dmap dbind]; [|reflexivity]. destruct (dec_val f32 r1) as [x2 r2|e]; cbn [dmap dbind]; [|reflexivity].
  destruct (dec_val f32 r2) as [x3 r3|e]; cbn [dmap dbind]; [|reflexivity]. rewrite dec_mt. destruct (decode w_ModulationType [] [] r3) as [x4 r4|e]; cbn [dmap dbind]; [|reflexivity].
  destruct (dec_val u16 r4) as [x5 r5|e]; cbn [dmap dbind]; [|reflexivity]. destruct (dec_val u16 r5) as [x6 r6|e]; cbn [dmap dbind]; reflexivity.
Qed.

(** a layout without lists: decoding does not depend on the counts, and adds none *)
Fixpoint flat (f : fmt) : bool := match f with Done => true | Prim _ _ k | Obj _ _ _ k => flat k | _ => false end.
Lemma count_cadd a b x C : count (CLen a) (cadd b x C) = count (CLen a) C.
Proof. unfold cadd. destruct (wint x); reflexivity. Qed.
Lemma dec2_flat f : flat f = true -> forall C C2 bs W r, decode f [] C2 bs = DOk W r ->
  exists C', dec2 f [] C bs = DOk (W, C') r /\ forall a, count (CLen a) C' = count (CLen a) C.
Proof.
  induction f as [|a p k IH|a c sub IHs k IH|a p m k IH|a p k IH|a c sub IHs k IH|a p n k IH|p k IH|a n k IH|a p e dv k IH|e k IH|a e d k IH|bf k IH|a k IH];
    intros Hf C C2 bs W r; cbn [flat decode dec2] in *; try discriminate.
  - intros [= <- <-]. exists C. auto.
  - destruct (dec_val p bs) as [x r1|]; cbn [dbind]; [|discriminate]. destruct (decode k [] (cadd a x C2) r1) as [W1 r2|] eqn:E; cbn [dmap]; [|discriminate]. intros [= <- <-].
    destruct (IH Hf (cadd a x C) _ _ _ _ E) as (C' & E' & Q). exists C'. rewrite E'. split; [reflexivity|]. intros b. rewrite Q. apply count_cadd.
  - destruct (decode sub (old_obj a []) [] bs) as [x r1|]; cbn [dbind]; [|discriminate]. destruct (decode k [] C2 r1) as [W1 r2|] eqn:E; cbn [dmap]; [|discriminate]. intros [= <- <-].
    destruct (IH Hf C _ _ _ _ E) as (C' & E' & Q). exists C'. rewrite E'. split; [reflexivity|exact Q].
Qed.

Lemma dec2_cnt a p z C bs r : (exists k, p = PInt k false /\ (0 < k)%nat /\ in_range k false z /\ bs = be k z) -> dec2 (lay [Cnt a p 1]) [] C (bs ++ r) = DOk ([], (CLen a, z) :: C) r.
Proof.
  intros (k & -> & Hk & Hz & ->). unfold lay. cbn [fold_right dec2]. rewrite dec_be by assumption. cbn [dbind wint dec2]. now rewrite Z.div_1_r.
Qed.

(** one block of fields, and what follows *)
Lemma block f g W C bs rest : flat f = true -> decode f [] [] (bs ++ rest) = DOk W rest ->
  exists C', (forall a, count (CLen a) C' = count (CLen a) C) /\ dec2 (fapp f g) [] C (bs ++ rest) = dmap (cat2 W) (dec2 g [] C' rest).
Proof.
  intros Hf HD. destruct (dec2_flat f Hf C _ _ _ _ HD) as (C' & E & Q). exists C'. split; [exact Q|]. rewrite dec2_fapp, E. reflexivity.
Qed.

Lemma typed_fapp f g W : typed (fapp f g) W -> typed f W /\ typed g W.
Proof.
  induction f; cbn [fapp typed]; intros H; [auto|..]; repeat match goal with H : _ /\ _ |- _ => destruct H end; try tauto.
  all: match goal with IH : typed ?x _ -> _ |- _ => apply IH in H end || idtac; tauto.
Qed.

Lemma block_enc f W : wf f = true -> typed f W -> exists bs, encode f W = (bs, None) /\ forall rest, decode f [] [] (bs ++ rest) = DOk (proj (names f) W) rest.
Proof.
  intros H HT. assert (H' := H). apply andb_true_iff in H' as [Hd Hw]. destruct (typed_ok f [] [] W Hw HT) as [[bs E] En]. exists bs. split; [exact E|].
  intros rest. now rewrite (decode_encode_top f W bs rest H E), En.
Qed.
Lemma tx_wf : wf tx_a = true /\ wf tx_b = true /\ wf (tx_c u64 w_ModulationType) = true /\ wf tx_d = true.
Proof. repeat split; vm_compute; reflexivity. Qed.

Lemma proj_names ns W : NoDup (map fst W) -> incl ns (map fst W) -> map fst (proj ns W) = ns.
Proof.
  intros ND. induction ns as [|a ns IH]; intros Hi; [reflexivity|]. rewrite proj_cons. destruct (field a W) as [x|] eqn:E.
  - cbn [app map fst]. f_equal. apply IH. intros b Hb. apply Hi. now right.
  - exfalso. assert (Ha : In a (map fst W)) by (apply Hi; now left). clear - E Ha. induction W as [|[b y] W IHW]; [destruct Ha|]. unfold field in *. cbn [assoc] in E. destruct (String.eqb_spec a b) as [->|]; [discriminate|].
    destruct Ha as [Ha|Ha]; [cbn in Ha; congruence|auto].
Qed.

Lemma field_map a g W : field a (on_field a g W) = match field a W with Some x => Some (g x) | None => None end.
Proof.
  induction W as [|[b x] W IH]; [reflexivity|]. unfold field in *. cbn [on_field map fst snd assoc]. destruct (String.eqb_spec b a) as [->|N].
  - cbn [assoc]. rewrite String.eqb_refl. reflexivity.
  - cbn [assoc]. destruct (String.eqb_spec a b); [congruence|]. exact IH.
Qed.
Lemma field_map_ne a b g W : a <> b -> field a (on_field b g W) = field a W.
Proof.
  intros N. induction W as [|[c x] W IH]; [reflexivity|]. unfold field in *. cbn [on_field map fst snd assoc]. destruct (String.eqb_spec c b) as [->|]; cbn [assoc].
  - destruct (String.eqb_spec a b); [congruence|exact IH].
  - destruct (String.eqb_spec a c); [reflexivity|exact IH].
Qed.

Lemma tx_fields W zv zp zm : value_of tx_w W -> in_range 2 false zv -> in_range 2 false zp -> in_range 1 false zm ->
  exists ba bb bc bd, encode tx_a W = (ba, None) /\ encode tx_b W = (bb, None) /\ encode (tx_c u64 w_ModulationType) W = (bc, None) /\ encode tx_d W = (bd, None) /\
  forall rest, exists C, dec2 tx_in [] [] (ba ++ be 2 zv ++ bb ++ be 2 zp ++ bc ++ be 1 zm ++ bd ++ rest) = DOk (seen W, C) rest /\
    count (CLen "modulationParameters") C = Some zm /\ count (CLen "antennaPattern") C = Some zp /\ count (CLen "variableTransmitterParameters") C = Some zv.
Proof.
  intros [HN HT] Hv Hp Hm. destruct tx_wf as (Wa & Wb & Wc & Wd). unfold tx_w in HT. apply typed_fapp in HT as [Ta HT]. apply typed_fapp in HT as [Tb HT]. apply typed_fapp in HT as [Tc Td].
  destruct (block_enc _ _ Wa Ta) as (ba & Ea & Da). destruct (block_enc _ _ Wb Tb) as (bb & Eb & Db). destruct (block_enc _ _ Wc Tc) as (bc & Ec & Dc). destruct (block_enc _ _ Wd Td) as (bd & Ed & Dd).
  exists ba, bb, bc, bd. do 4 (split; [assumption|]). intros rest. unfold tx_in.
  assert (ND : NoDup (map fst W)) by (rewrite HN; apply nodupb_NoDup; vm_compute; reflexivity).
  assert (PN : forall ns, incl ns (names tx_w) -> map fst (proj ns W) = ns) by (intros ns Hi; apply proj_names; [exact ND|now rewrite HN]).
  assert (Dc' : forall rest, decode (tx_c i64 r_ModulationType) [] [] (bc ++ rest) = DOk (seen (proj (names (tx_c u64 w_ModulationType)) W)) rest) by (intros q; rewrite dec_c, Dc; reflexivity).
  destruct (block tx_a (fapp tx_vtp (fapp tx_b (fapp tx_pat (fapp (tx_c i64 r_ModulationType) (fapp tx_mod tx_d))))) _ [] ba (be 2 zv ++ bb ++ be 2 zp ++ bc ++ be 1 zm ++ bd ++ rest) eq_refl (Da _)) as (C1 & Q1 & ->).
  rewrite dec2_fapp. unfold tx_vtp at 1. rewrite (dec2_cnt _ _ zv _ (be 2 zv)) by (exists 2%nat; split; [reflexivity|]; split; [lia|]; split; [exact Hv|reflexivity]). cbn [dbind fst snd].
  destruct (block tx_b (fapp tx_pat (fapp (tx_c i64 r_ModulationType) (fapp tx_mod tx_d))) _ ((CLen "variableTransmitterParameters", zv) :: C1) bb (be 2 zp ++ bc ++ be 1 zm ++ bd ++ rest) eq_refl (Db _)) as (C2 & Q2 & ->).
  rewrite dec2_fapp. unfold tx_pat at 1. rewrite (dec2_cnt _ _ zp _ (be 2 zp)) by (exists 2%nat; split; [reflexivity|]; split; [lia|]; split; [exact Hp|reflexivity]). cbn [dbind fst snd].
  destruct (block (tx_c i64 r_ModulationType) (fapp tx_mod tx_d) _ ((CLen "antennaPattern", zp) :: C2) bc (be 1 zm ++ bd ++ rest) eq_refl (Dc' _)) as (C3 & Q3 & ->).
  rewrite dec2_fapp. unfold tx_mod at 1. rewrite (dec2_cnt _ _ zm _ (be 1 zm)) by (exists 1%nat; split; [reflexivity|]; split; [lia|]; split; [exact Hm|reflexivity]). cbn [dbind fst snd].
  destruct (dec2_flat tx_d eq_refl ((CLen "modulationParameters", zm) :: C3) _ _ _ _ (Dd rest)) as (C4 & E4 & Q4). rewrite E4. cbn [dmap cat2 on1 app].
  exists C4. split; [|rewrite !Q4; cbn [count key_eqb String.eqb Ascii.eqb Bool.eqb]; rewrite !Q3; cbn [count key_eqb String.eqb Ascii.eqb Bool.eqb]; rewrite !Q2; auto].
  assert (S : seen W = proj (names tx_a) W ++ proj (names tx_b) W ++ seen (proj (names (tx_c u64 w_ModulationType)) W) ++ proj (names tx_d) W).
  { rewrite <- (proj_id W ND) at 1. rewrite HN. unfold tx_w. rewrite !names_fapp, !proj_app, !seen_app.
    rewrite (seen_other (proj (names tx_a) W)), (seen_other (proj (names tx_b) W)), (seen_other (proj (names tx_d) W)); [reflexivity|..];
      (rewrite PN; [vm_compute; intuition discriminate|]; intros x Hx; unfold tx_w; rewrite !names_fapp, !in_app_iff; tauto). }
  rewrite S. reflexivity.
Qed.

(** o is a TransmitterPdu with the fields W (all but the padding of spreadSpectrum) and these parts *)
Definition received (h : list hobj) (o : val) (W : flds) (pm pp : tpart) : Prop :=
  contents the_prog h "TransmitterPdu" tx_r o = Some W /\ tx_parts h o pm pp [].

Lemma oseq_ok1 a b c : a = (b, None) -> oseq a c = (b ++ fst c, snd c).
Proof. intros ->. reflexivity. Qed.
Lemma enc_nat k z : in_range k false z -> enc_val (PInt k false) (WInt z) = (be k z, None).
Proof. intros [A B]. unfold enc_val, enc_prim. cbn [wint]. rewrite (proj2 (Z.leb_le _ _)), (proj2 (Z.ltb_lt _ _)); [reflexivity|exact B|exact A]. Qed.

(** the same with variable transmitter parameters of the classes and fields ps *)
Definition received_with (h : list hobj) (o : val) (W : flds) (pm pp : tpart) (ps : list (string * flds)) : Prop :=
  contents the_prog h "TransmitterPdu" tx_r o = Some W /\ exists vs, tx_parts h o pm pp vs /\ Forall2 (sv_is h) vs ps.

Lemma tx_read n W zv zp zm sys major type : (S fuel_ok < n)%nat -> value_of tx_w W -> field "pduType" W = Some (WInt 25) ->
  in_range 2 false zv -> in_range 2 false zp -> in_range 1 false zm -> radio W sys major -> field "antennaPatternType" W = Some (WInt type) ->
  exists ba bb bc bd, encode tx_a W = (ba, None) /\ encode tx_b W = (bb, None) /\ encode (tx_c u64 w_ModulationType) W = (bc, None) /\ encode tx_d W = (bd, None) /\
    forall h tail, match dec_parts (Build_tx_nums sys major type zm zp zv) tail with
    | DOk (pm', pp') r =>
        match dec_list (sv_get "VariableTransmitterParametersRecord") (Z.to_nat zv) r with
        | DOk ps r' => exists o' s', factory n h (ba ++ be 2 zv ++ bb ++ be 2 zp ++ bc ++ be 1 zm ++ bd ++ tail) = (Ok o', s') /\ received_with (heap s') o' (seen W) pm' pp' ps /\ irest s' = r'
        | DErr e => exists s', factory n h (ba ++ be 2 zv ++ bb ++ be 2 zp ++ bc ++ be 1 zm ++ bd ++ tail) = (Exc e, s')
        end
    | DErr e => exists s', factory n h (ba ++ be 2 zv ++ bb ++ be 2 zp ++ bc ++ be 1 zm ++ bd ++ tail) = (Exc e, s')
    end.
Proof.
  intros Hn HV Ht Lv Lp Lm (w & R1 & R2 & R3) HY.
  destruct (tx_fields W zv zp zm HV Lv Lp Lm) as (ba & bb & bc & bd & Ea & Eb & Ec & Ed & DD). exists ba, bb, bc, bd. do 4 (split; [assumption|]).
  intros h tail. set (data := ba ++ be 2 zv ++ bb ++ be 2 zp ++ bc ++ be 1 zm ++ bd ++ tail). destruct (starts_bytes header 0 tx_a W [] ba ltac:(vm_compute; reflexivity) Ea eq_refl "pduType" 2%nat 1%nat ltac:(cbn; tauto)) as (x & z & F & Z1 & R & B).
    rewrite Ht in F. injection F as <-. injection Z1 as <-. destruct (be1 25 R) as (b & B1 & B2). rewrite B1 in B. cbn [app] in B.
    assert (N : nth_error ba 2 = Some b) by (destruct ba as [|b0 [|b1 [|b2 r]]]; cbn in B; try discriminate; injection B as ->; reflexivity).
    set (s0 := mkst h data data []).
    assert (EF : factory n h data = load the_prog n "TransmitterPdu" s0).
    { unfold factory, createPdu. rewrite (factory_spec n) by (unfold fuel_ok, need, G in Hn; lia). cbn [ifull heap out]. unfold data at 1. rewrite nth_error_app1 by (apply nth_error_Some; congruence).
      rewrite N, B2. reflexivity. }
    rewrite EF. clear EF. pose proof (tx_load n s0 ltac:(lia)) as TL. change (irest s0) with data in TL. unfold data in TL at 1.
    destruct (DD tail) as (C & D1 & D2 & D3 & D4). rewrite D1 in TL. specialize (TL (Build_tx_nums sys major type zm zp zv)).
    assert (NM : nums_of (seen W) C (Build_tx_nums sys major type zm zp zv)).
    { split; [|split; [|auto]]; cbn [n_sys n_major n_type].
      - exists (strip_mt w). unfold seen, without_padding. rewrite field_map_ne, field_map, R1 by discriminate. split; [reflexivity|]. unfold strip_mt. rewrite !field_map_ne by discriminate. auto.
      - unfold seen, without_padding. rewrite !field_map_ne by discriminate. exact HY. }
    specialize (TL NM). destruct (dec_parts _ tail) as [[pm' pp'] r|e]; [|exact TL]. cbn [n_vtp] in TL.
    destruct (dec_list _ (Z.to_nat zv) r) as [ps r'|e]; [|exact TL].
    destruct TL as (o' & s' & vs' & A & B' & C' & F' & D' & _). exists o', s'. split; [exact A|]. split; [split; [exact B'|exists vs'; split; [exact C'|exact F']]|exact D'].
Qed.

Lemma tx_wire_with n s o W pm pp vs os bm bp bv sys major type : (S fuel_ok < n)%nat -> tx_object 0 (heap s) o W pm pp vs -> all_write (Nat.pred n) (heap s) vs os -> outs os = (bv, None) ->
  in_range 2 false (Z.of_nat (length os)) -> value_of tx_w W -> field "pduType" W = Some (WInt 25) ->
  part_out pm = (bm, None) -> part_out pp = (bp, None) -> in_range 1 false (part_len pm) -> in_range 2 false (part_len pp) -> radio W sys major -> field "antennaPatternType" W = Some (WInt type) ->
  exists hd, serialize n o s = (Ok VNone, appended s (hd ++ bm ++ bp ++ bv)) /\
    forall h tail, match dec_parts (Build_tx_nums sys major type (part_len pm) (part_len pp) (Z.of_nat (length os))) tail with
    | DOk (pm', pp') r =>
        match dec_list (sv_get "VariableTransmitterParametersRecord") (length os) r with
        | DOk ps r' => exists o' s', factory n h (hd ++ tail) = (Ok o', s') /\ received_with (heap s') o' (seen W) pm' pp' ps /\ irest s' = r'
        | DErr e => exists s', factory n h (hd ++ tail) = (Exc e, s')
        end
    | DErr e => exists s', factory n h (hd ++ tail) = (Exc e, s')
    end.
Proof.
  intros Hn HO AW Ev Lv HV Ht Em Ep Lm Lp HR HY.
  destruct (tx_read n W (Z.of_nat (length os)) (part_len pp) (part_len pm) sys major type Hn HV Ht Lv Lp Lm HR HY) as (ba & bb & bc & bd & Ea & Eb & Ec & Ed & DD).
  set (hd := ba ++ be 2 (Z.of_nat (length os)) ++ bb ++ be 2 (part_len pp) ++ bc ++ be 1 (part_len pm) ++ bd). exists hd.
  assert (HH : forall x, hd ++ x = ba ++ be 2 (Z.of_nat (length os)) ++ bb ++ be 2 (part_len pp) ++ bc ++ be 1 (part_len pm) ++ bd ++ x) by (intros x; unfold hd; now rewrite <- !app_assoc).
  split.
  - rewrite (tx_writes n s o W pm pp vs os Hn HO AW). unfold tx_out.
    rewrite (oseq_ok1 _ _ _ Ea), (oseq_ok1 _ _ _ (enc_nat 2 _ Lv)), (oseq_ok1 _ _ _ Eb), (oseq_ok1 _ _ _ (enc_nat 2 _ Lp)), (oseq_ok1 _ _ _ Ec), (oseq_ok1 _ _ _ (enc_nat 1 _ Lm)), (oseq_ok1 _ _ _ Ed), (oseq_ok1 _ _ _ Em), (oseq_ok1 _ _ _ Ep), Ev.
    unfold oc. cbn [fst snd]. unfold appended, add_out. now rewrite HH.
  - intros h tail. rewrite HH. specialize (DD h tail). rewrite Nat2Z.id in DD. exact DD.
Qed.

Lemma tx_wire n s o W pm pp bm bp sys major type : (S fuel_ok < n)%nat -> transmitter (heap s) o W pm pp -> value_of tx_w W -> field "pduType" W = Some (WInt 25) ->
  part_out pm = (bm, None) -> part_out pp = (bp, None) -> in_range 1 false (part_len pm) -> in_range 2 false (part_len pp) -> radio W sys major -> field "antennaPatternType" W = Some (WInt type) ->
  exists hd, serialize n o s = (Ok VNone, appended s (hd ++ bm ++ bp)) /\
    forall h tail, match dec_parts (Build_tx_nums sys major type (part_len pm) (part_len pp) 0) tail with
    | DOk (pm', pp') r => exists o' s', factory n h (hd ++ tail) = (Ok o', s') /\ received (heap s') o' (seen W) pm' pp' /\ irest s' = r
    | DErr e => exists s', factory n h (hd ++ tail) = (Exc e, s')
    end.
Proof.
  intros Hn HO HV Ht Em Ep Lm Lp HR HY.
  destruct (tx_wire_with n s o W pm pp [] [] bm bp [] sys major type Hn HO ltac:(constructor) eq_refl ltac:(unfold in_range; cbn; lia) HV Ht Em Ep Lm Lp HR HY) as (hd & E & K). exists hd. rewrite app_nil_r in E. split; [exact E|].
  intros h tail. specialize (K h tail). cbn [length Z.of_nat dec_list] in K. destruct (dec_parts _ tail) as [[pm' pp'] r|e]; [|exact K].
  destruct K as (o' & s' & A & (B & vs & C & F) & D). exists o', s'. split; [exact A|]. split; [|exact D]. split; [exact B|]. inversion F; subst. exact C.
Qed.

(** ** C38 *)
Lemma seen_small W z : field "frequency" W = Some (WInt z) -> NoDup (map fst W) -> 0 <= z < 2 ^ 63 -> seen W = without_padding W.
Proof.
  intros Hf ND Hz. unfold seen.
  assert (NF : NoDup (map fst (without_padding W)) /\ field "frequency" (without_padding W) = Some (WInt z)).
  { split; [|unfold without_padding; rewrite field_map_ne by discriminate; exact Hf]. unfold without_padding, on_field. rewrite map_map. erewrite map_ext; [exact ND|]. intros [a x]. cbn [fst]. now destruct (String.eqb a "modulationType"). }
  destruct NF as [N F]. revert N F. generalize (without_padding W). clear - Hz. induction f as [|[a x] V IH]; intros N F; [reflexivity|].
  cbn [on_field map fst snd]. inversion N as [|? ? N1 N2]; subst. unfold field in F. cbn [assoc] in F. rewrite String.eqb_sym in F. cbn [fst] in N1. destruct (String.eqb_spec a "frequency") as [->|].
  - injection F as ->. f_equal; [|now apply on_field_other]. cbn [as_signed]. f_equal. f_equal. unfold signed. change (8 * Z.of_nat 8 - 1) with 63. destruct (Z.ltb_spec z (2 ^ 63)); [reflexivity|lia].
  - f_equal. apply IH; assumption.
Qed.

Lemma radio_same W a b c d : radio W a b -> radio W c d -> a = c /\ b = d.
Proof. intros (w & A & B & C) (w' & A' & B' & C'). rewrite A in A'. injection A' as <-. split; congruence. Qed.

Lemma mod_back W pm sys major : radio W sys major -> agrees W pm -> exists bm, part_out pm = (bm, None) /\ in_range 1 false (part_len pm) /\ forall rest, dec_mod sys major (part_len pm) (bm ++ rest) = DOk pm rest.
Proof.
  intros HR (sys' & major' & HR' & H). destruct (radio_same _ _ _ _ _ HR' HR) as [-> ->]. clear HR'. destruct pm as [|c w|c d].
  - exists []. split; [reflexivity|]. split; [unfold in_range; cbn; lia|]. reflexivity.
  - destruct H as [(-> & Hs & HV)|(-> & -> & HV)].
    + destruct (roundtrip w_BasicHaveQuickMP w [] ltac:(vm_compute; reflexivity) HV) as (bs & E & _). exists bs. split; [exact E|]. split; [unfold in_range; cbn; lia|]. intros rest.
      destruct (roundtrip w_BasicHaveQuickMP w rest ltac:(vm_compute; reflexivity) HV) as (bs' & E' & D). rewrite E in E'. injection E' as <-.
      unfold dec_mod, mod_class. cbn [part_len]. change (assoc "BasicHaveQuickMP" part_sizes) with (Some 16). cbn [Z.leb Z.compare].
      replace (sys =? 1) with false by (destruct Hs as [->|[->| ->]]; reflexivity). replace ((sys =? 2) || (sys =? 3) || (sys =? 4)) with true by (destruct Hs as [->|[->| ->]]; reflexivity). rewrite D. reflexivity.
    + destruct (roundtrip w_CCTTSincgarsMP w [] ltac:(vm_compute; reflexivity) HV) as (bs & E & _). exists bs. split; [exact E|]. split; [unfold in_range; cbn; lia|]. intros rest.
      destruct (roundtrip w_CCTTSincgarsMP w rest ltac:(vm_compute; reflexivity) HV) as (bs' & E' & D). rewrite E in E'. injection E' as <-.
      unfold dec_mod, mod_class. cbn [part_len]. change (assoc "CCTTSincgarsMP" part_sizes) with (Some 16). cbn [Z.leb Z.compare Z.eqb Pos.eqb orb]. rewrite D. reflexivity.
  - destruct H as (-> & Hs & Hd). exists d. split; [reflexivity|]. cbn [part_len]. split; [unfold in_range; change (8 * Z.of_nat 1) with 8; lia|]. intros rest.
    unfold dec_mod, mod_class. destruct (Z.leb_spec (Z.of_nat (length d)) 0); [lia|]. cbn [In] in Hs.
    replace (sys =? 1) with false by (symmetry; apply Z.eqb_neq; intuition congruence). replace (sys =? 2) with false by (symmetry; apply Z.eqb_neq; intuition congruence).
    replace (sys =? 3) with false by (symmetry; apply Z.eqb_neq; intuition congruence). replace (sys =? 4) with false by (symmetry; apply Z.eqb_neq; intuition congruence).
    replace (sys =? 6) with false by (symmetry; apply Z.eqb_neq; intuition congruence). cbn [orb]. unfold dec_raw, raw_amount. cbn [String.eqb Ascii.eqb Bool.eqb]. unfold amount.
    destruct (Z.ltb_spec (Z.of_nat (length d)) 0); [lia|]. rewrite Nat2Z.id, app_length, Nat.min_l, firstn_app, firstn_all, Nat.sub_diag, firstn_O, app_nil_r, skipn_app, skipn_all, Nat.sub_diag by lia. reflexivity.
Qed.

Lemma pat_back W pp type : field "antennaPatternType" W = Some (WInt type) -> pattern_agrees W pp ->
  exists bp, part_out pp = (bp, None) /\ in_range 2 false (part_len pp) /\ forall rest, dec_pat type (part_len pp) (bp ++ rest) = DOk pp rest.
Proof.
  intros HT H. destruct pp as [|c w|c d]; cbn [pattern_agrees] in H; [| |contradiction].
  - exists []. split; [reflexivity|]. split; [unfold in_range; cbn; lia|]. reflexivity.
  - destruct H as (-> & HT' & HV). rewrite HT in HT'. injection HT' as ->.
    destruct (roundtrip w_BeamAntennaPattern w [] ltac:(vm_compute; reflexivity) HV) as (bs & E & _). exists bs. split; [exact E|]. split; [unfold in_range; cbn; lia|]. intros rest.
    destruct (roundtrip w_BeamAntennaPattern w rest ltac:(vm_compute; reflexivity) HV) as (bs' & E' & D). rewrite E in E'. injection E' as <-.
    unfold dec_pat. cbn [part_len]. change (assoc "BeamAntennaPattern" part_sizes) with (Some 40). cbn [Z.leb Z.compare Z.eqb Pos.eqb]. rewrite D. reflexivity.
Qed.

Lemma tx_typed W : value_of tx_w W -> (exists type, field "antennaPatternType" W = Some (WInt type)) /\ exists z, field "frequency" W = Some (WInt z) /\ 0 <= z < 2 ^ 64.
Proof.
  intros [_ HT]. unfold tx_w in HT. apply typed_fapp in HT as [_ HT]. apply typed_fapp in HT as [Tb HT]. apply typed_fapp in HT as [Tc _].
  unfold tx_b, tx_c, lay in *. cbn [fold_right typed] in Tb, Tc. destruct Tb as (_ & _ & (x & A & B) & _). destruct Tc as ((y & C & D) & _). split.
  - destruct x; cbn in B; try contradiction. eauto.
  - destruct y; cbn [fits u64] in D; try contradiction. exists z. split; [exact C|]. unfold lo, hi in D. exact D.
Qed.

(** the Transmitter PDUs the property is about come back unchanged; the bytes that follow stay unread *)
Theorem C38_round_trip_partial n s o W pm pp z : (S fuel_ok < n)%nat -> transmitter (heap s) o W pm pp -> value_of tx_w W -> field "pduType" W = Some (WInt 25) ->
  field "frequency" W = Some (WInt z) -> z < 2 ^ 63 -> agrees W pm -> pattern_agrees W pp ->
  exists bs, serialize n o s = (Ok VNone, appended s bs) /\
    forall h rest, exists o' s', factory n h (bs ++ rest) = (Ok o', s') /\ received (heap s') o' (without_padding W) pm pp /\ irest s' = rest.
Proof.
  intros Hn HO HV Ht Hz Lz HA HP. destruct (tx_typed W HV) as [(type & HY) (z' & Hz' & Rz)]. rewrite Hz in Hz'. injection Hz' as <-.
  pose proof HA as (sys & major & HR & _). destruct (mod_back W pm sys major HR HA) as (bm & M1 & M2 & M3). destruct (pat_back W pp type HY HP) as (bp & P1 & P2 & P3).
  destruct (tx_wire n s o W pm pp bm bp sys major type Hn HO HV Ht M1 P1 M2 P2 HR HY) as (hd & E & K). exists (hd ++ bm ++ bp). split; [exact E|]. intros h rest. specialize (K h (bm ++ bp ++ rest)).
  unfold dec_parts in K. cbn [n_sys n_major n_type n_mod n_pat] in K. rewrite M3 in K. cbn [dbind] in K. rewrite P3 in K. cbn [dmap] in K. rewrite (seen_small W z) in K; [now rewrite <- !app_assoc|exact Hz| |lia].
  destruct HV as [-> _]. apply nodupb_NoDup. vm_compute. reflexivity.
Qed.

(** *** Outside these conditions *)
(** an unknown antenna pattern of at least six bytes loses its last six, which stay in the stream; a shorter one swallows the rest of the stream *)
Theorem C38_unknown_antenna_refuted n s o W pm d type : (S fuel_ok < n)%nat -> transmitter (heap s) o W pm (PRaw "UnknownAntennaPattern" d) -> value_of tx_w W -> field "pduType" W = Some (WInt 25) ->
  agrees W pm -> field "antennaPatternType" W = Some (WInt type) -> type <> 1 -> 0 < Z.of_nat (length d) < 65536 ->
  exists bs, serialize n o s = (Ok VNone, appended s bs) /\
    forall h rest, exists o' s' d', factory n h (bs ++ rest) = (Ok o', s') /\ received (heap s') o' (seen W) pm (PRaw "UnknownAntennaPattern" d') /\
      if (length d <? 6)%nat then d' = d ++ rest /\ irest s' = []
      else length d = (length d' + 6)%nat /\ d' ++ irest s' = d ++ rest.
Proof.
  intros Hn HO HV Ht HA HY Nt Hd. pose proof HA as (sys & major & HR & _). destruct (mod_back W pm sys major HR HA) as (bm & M1 & M2 & M3).
  destruct (tx_wire n s o W pm (PRaw "UnknownAntennaPattern" d) bm d sys major type Hn HO HV Ht M1 eq_refl M2 ltac:(unfold in_range; cbn [part_len]; change (8 * Z.of_nat 2) with 16; change (2 ^ 16) with 65536; lia) HR HY) as (hd & E & K).
  exists (hd ++ bm ++ d). split; [exact E|]. intros h rest. specialize (K h (bm ++ d ++ rest)). unfold dec_parts in K. cbn [n_sys n_major n_type n_mod n_pat] in K. rewrite M3 in K. cbn [dbind] in K.
  unfold dec_pat in K. cbn [part_len] in K. destruct (Z.leb_spec (Z.of_nat (length d)) 0); [lia|]. rewrite (proj2 (Z.eqb_neq type 1) Nt) in K. unfold dec_raw in K. cbn [dmap] in K.
  set (k := raw_amount "UnknownAntennaPattern" (Z.of_nat (length d)) (d ++ rest)) in *.
  destruct K as (o' & s' & A & B & C). exists o', s', (firstn k (d ++ rest)). split; [now rewrite <- !app_assoc|]. split; [exact B|]. rewrite C. clear A B C.
  unfold raw_amount in k. cbn [String.eqb Ascii.eqb Bool.eqb] in k. unfold amount in k. destruct (Nat.ltb_spec (length d) 6).
  - assert (Ek : k = length (d ++ rest)) by (unfold k; destruct (Z.ltb_spec (Z.of_nat (length d) - 6) 0); [reflexivity|lia]). rewrite Ek, firstn_all, skipn_all. auto.
  - assert (Ek : k = (length d - 6)%nat) by (unfold k; rewrite app_length; destruct (Z.ltb_spec (Z.of_nat (length d) - 6) 0); lia). rewrite firstn_skipn. split; [|reflexivity].
    rewrite firstn_length, app_length. lia.
Qed.

(** a frequency of 2^63 or more comes back negative *)
Theorem C38_frequency_refuted n s o W pm pp z : (S fuel_ok < n)%nat -> transmitter (heap s) o W pm pp -> value_of tx_w W -> field "pduType" W = Some (WInt 25) ->
  field "frequency" W = Some (WInt z) -> 2 ^ 63 <= z -> agrees W pm -> pattern_agrees W pp ->
  exists bs, serialize n o s = (Ok VNone, appended s bs) /\
    forall h rest, exists o' s' W', factory n h (bs ++ rest) = (Ok o', s') /\ received (heap s') o' W' pm pp /\ field "frequency" W' = Some (WInt (z - 2 ^ 64)).
Proof.
  intros Hn HO HV Ht Hz Lz HA HP. destruct (tx_typed W HV) as [(type & HY) (z' & Hz' & Rz)]. rewrite Hz in Hz'. injection Hz' as <-.
  pose proof HA as (sys & major & HR & _). destruct (mod_back W pm sys major HR HA) as (bm & M1 & M2 & M3). destruct (pat_back W pp type HY HP) as (bp & P1 & P2 & P3).
  destruct (tx_wire n s o W pm pp bm bp sys major type Hn HO HV Ht M1 P1 M2 P2 HR HY) as (hd & E & K). exists (hd ++ bm ++ bp). split; [exact E|]. intros h rest. specialize (K h (bm ++ bp ++ rest)).
  unfold dec_parts in K. cbn [n_sys n_major n_type n_mod n_pat] in K. rewrite M3 in K. cbn [dbind] in K. rewrite P3 in K. cbn [dmap] in K. destruct K as (o' & s' & A & B & _).
  exists o', s', (seen W). split; [now rewrite <- !app_assoc|]. split; [exact B|]. unfold seen. rewrite field_map. unfold without_padding. rewrite field_map_ne, Hz by discriminate. cbn [as_signed]. unfold signed.
  change (8 * Z.of_nat 8 - 1) with 63. change (8 * Z.of_nat 8) with 64. destruct (Z.ltb_spec z (2 ^ 63)); [lia|reflexivity].
Qed.

(** the modulation parameters of a generic radio or a simple intercom, which have no fields, come back as None *)
Theorem C38_generic_radio_refuted n s o W c w pp z : (S fuel_ok < n)%nat -> transmitter (heap s) o W (PRec c w) pp -> In c ["GenericRadio"; "SimpleIntercomRadio"] -> value_of tx_w W -> field "pduType" W = Some (WInt 25) ->
  field "frequency" W = Some (WInt z) -> z < 2 ^ 63 -> pattern_agrees W pp ->
  exists bs, serialize n o s = (Ok VNone, appended s bs) /\
    forall h rest, exists o' s', factory n h (bs ++ rest) = (Ok o', s') /\ received (heap s') o' (without_padding W) PNone pp /\ irest s' = rest.
Proof.
  intros Hn HO Hc HV Ht Hz Lz HP. destruct (tx_typed W HV) as [(type & HY) (z' & Hz' & Rz)]. rewrite Hz in Hz'. injection Hz' as <-.
  assert (HR : exists sys major, radio W sys major).
  { destruct HV as [_ HT]. unfold tx_w in HT. apply typed_fapp in HT as [_ HT]. apply typed_fapp in HT as [_ HT]. apply typed_fapp in HT as [Tc _]. unfold tx_c, lay in Tc. cbn [fold_right typed] in Tc.
    destruct Tc as (_ & _ & _ & (v & A & B & _) & _). unfold w_ModulationType, lay in B. cbn [fold_right typed] in B. destruct B as (_ & (x & B1 & B2) & _ & (y & B3 & B4) & _).
    destruct x; cbn in B2; try contradiction. destruct y; cbn in B4; try contradiction. do 2 eexists. exists v. eauto. }
  destruct HR as (sys & major & HR). destruct (pat_back W pp type HY HP) as (bp & P1 & P2 & P3).
  assert (PM : part_out (PRec c w) = ([], None) /\ part_len (PRec c w) = 0) by (destruct Hc as [<-|[<-|[]]]; split; reflexivity).
  destruct PM as [M1 M2].
  destruct (tx_wire n s o W (PRec c w) pp [] bp sys major type Hn HO HV Ht M1 P1 ltac:(rewrite M2; unfold in_range; cbn; lia) P2 HR HY) as (hd & E & K). exists (hd ++ [] ++ bp). split; [exact E|]. intros h rest. specialize (K h ([] ++ bp ++ rest)).
  unfold dec_parts in K. cbn [n_sys n_major n_type n_mod n_pat] in K. rewrite M2 in K. unfold dec_mod in K. cbn [Z.leb Z.compare dbind app] in K. rewrite P3 in K. cbn [dmap] in K. rewrite (seen_small W z) in K; [cbn [app]; now rewrite <- !app_assoc|exact Hz| |lia].
  destruct HV as [-> _]. apply nodupb_NoDup. vm_compute. reflexivity.
Qed.

(** a PDU cut inside the modulation parameters of an unknown radio is accepted, with the bytes there are *)
Theorem C38_truncated_refuted n s o W d : (S fuel_ok < n)%nat -> transmitter (heap s) o W (PRaw "UnknownRadio" d) PNone -> value_of tx_w W -> field "pduType" W = Some (WInt 25) ->
  agrees W (PRaw "UnknownRadio" d) ->
  exists hd, serialize n o s = (Ok VNone, appended s (hd ++ d)) /\
    forall h k, (k <= length d)%nat -> exists o' s', factory n h (hd ++ firstn k d) = (Ok o', s') /\ received (heap s') o' (seen W) (PRaw "UnknownRadio" (firstn k d)) PNone.
Proof.
  intros Hn HO HV Ht HA. destruct (tx_typed W HV) as [(type & HY) _]. pose proof HA as (sys & major & HR & _ & Hs & Hd). destruct (mod_back W _ sys major HR HA) as (bm & M1 & M2 & _). injection M1 as <-.
  destruct (tx_wire n s o W (PRaw "UnknownRadio" d) PNone d [] sys major type Hn HO HV Ht eq_refl eq_refl M2 ltac:(unfold in_range; cbn; lia) HR HY) as (hd & E & K).
  rewrite app_nil_r in E. exists hd. split; [exact E|]. intros h k Hk. specialize (K h (firstn k d)). unfold dec_parts in K. cbn [n_sys n_major n_type n_mod n_pat] in K.
  unfold dec_mod, mod_class in K. cbn [part_len] in K. destruct (Z.leb_spec (Z.of_nat (length d)) 0); [lia|]. cbn [In] in Hs.
  assert (Q : (sys =? 1) = false /\ (sys =? 2) = false /\ (sys =? 3) = false /\ (sys =? 4) = false /\ (sys =? 6) = false) by (repeat split; apply Z.eqb_neq; intuition congruence).
  destruct Q as (Q1 & Q2 & Q3 & Q4 & Q6). rewrite Q1, Q2, Q3, Q4, Q6 in K. cbn [orb] in K. unfold dec_raw, raw_amount in K. cbn [String.eqb Ascii.eqb Bool.eqb] in K. unfold amount in K.
  destruct (Z.ltb_spec (Z.of_nat (length d)) 0); [lia|]. rewrite Nat2Z.id, Nat.min_r in K by (rewrite firstn_length; lia). rewrite firstn_all, skipn_all in K.
  cbn [dbind dec_pat Z.leb Z.compare dmap] in K. destruct K as (o' & s' & A & B & _). eauto.
Qed.

(** *** The hypotheses can be met *)
(** a Transmitter PDU with the given modulation parameters, radio system, antenna pattern and pattern type *)
Definition build (mkm : M val) (sys : Z) (mkp : M val) (type freq : Z) : M val :=
  bind mkm (fun m => bind mkp (fun p => bind (new the_prog 20 "TransmitterPdu" []) (fun o =>
  bind (set_attr the_prog o "modulationParameters" m) (fun _ => bind (set_attr the_prog o "antennaPattern" p) (fun _ =>
  bind (set_attr the_prog o "antennaPatternType" (VInt type)) (fun _ => bind (set_attr the_prog o "frequency" (VInt freq)) (fun _ =>
  bind (get_attr the_prog (run the_prog 20) o "modulationType") (fun mt => bind (set_attr the_prog mt "radioSystem" (VInt sys)) (fun _ => ret o))))))))).
Definition fits_case (mkm : M val) (sys : Z) (mkp : M val) (type freq : Z) (pm pp : tpart) : Prop :=
  exists o s W, build mkm sys mkp type freq st0 = (Ok o, s) /\ transmitter (heap s) o W pm pp /\ value_of tx_w W /\ field "pduType" W = Some (WInt 25) /\
    field "frequency" W = Some (WInt freq) /\ field "antennaPatternType" W = Some (WInt type) /\ radio W sys 0.
Definition decoded (c : string) (bs : list byte) : flds := match layout c with Some f => match decode f [] [] bs with DOk W _ => W | DErr _ => [] end | None => [] end.
Definition hq_bytes : list byte := [x00; x00; x00; x01] ++ repeat x00 12.
Definition beam_bytes : list byte := repeat x00 40.

Lemma tx_sound : sound tx_w = true.
Proof. vm_compute. reflexivity. Qed.
Lemma tx_value bs W : decode tx_w [] [] bs = DOk W [] -> value_of tx_w W.
Proof. intros D. exact (decode_value_of tx_w _ _ _ tx_sound D). Qed.
Ltac part_case := cbn [part_at]; try reflexivity; try (do 2 eexists; (split; [cbn; auto 6|]); split; vm_compute; reflexivity); try ((split; [cbn; auto|]); do 2 eexists; repeat split; reflexivity).
Ltac case_tac :=
  do 3 eexists; (split; [vm_compute; reflexivity|]);
  (split; [split; [vm_compute; reflexivity|do 5 eexists; (split; [reflexivity|]); (split; [reflexivity|]); (split; [reflexivity|]); (split; [part_case|]); (split; [reflexivity|]); (split; [part_case|]); split; reflexivity]|]);
  (split; [match goal with |- value_of tx_w ?W => apply (tx_value (fst (encode tx_w W))); vm_compute; reflexivity end|]);
  (split; [reflexivity|]); (split; [reflexivity|]); (split; [reflexivity|]); eexists; repeat split; reflexivity.

(** a HAVE QUICK radio with a beam antenna, an unknown radio without antenna, an unknown antenna pattern, a high frequency, a generic radio *)
Example C38_case : fits_case (new the_prog 20 "BasicHaveQuickMP" []) 2 (new the_prog 20 "BeamAntennaPattern" []) 1 225000000 (PRec "BasicHaveQuickMP" (decoded "BasicHaveQuickMP" hq_bytes)) (PRec "BeamAntennaPattern" (decoded "BeamAntennaPattern" beam_bytes)) /\
  value_of w_BasicHaveQuickMP (decoded "BasicHaveQuickMP" hq_bytes) /\ value_of w_BeamAntennaPattern (decoded "BeamAntennaPattern" beam_bytes).
Proof.
  split; [case_tac|]. split.
  - apply (value_by_decoding "BasicHaveQuickMP" _ hq_bytes); vm_compute; reflexivity.
  - apply (value_by_decoding "BeamAntennaPattern" _ beam_bytes); vm_compute; reflexivity.
Qed.
Example C38_case_raw : fits_case (new the_prog 20 "UnknownRadio" [VBytes [x01; x02; x03]]) 9 (ret VNone) 0 5 (PRaw "UnknownRadio" [x01; x02; x03]) PNone.
Proof. case_tac. Qed.
Example C38_case_antenna : fits_case (ret VNone) 0 (new the_prog 20 "UnknownAntennaPattern" [VBytes [x01; x02; x03; x04; x05; x06; x07; x08]]) 2 5 PNone (PRaw "UnknownAntennaPattern" [x01; x02; x03; x04; x05; x06; x07; x08]).
Proof. case_tac. Qed.
Example C38_case_frequency : fits_case (ret VNone) 0 (ret VNone) 0 (2 ^ 63 + 1) PNone PNone.
Proof. case_tac. Qed.
Example C38_case_generic : fits_case (new the_prog 20 "GenericRadio" []) 1 (ret VNone) 0 5 (PRec "GenericRadio" []) PNone.
Proof. case_tac. Qed.

Definition all_PropTransmit := (C38_round_trip_partial, C38_unknown_antenna_refuted, C38_frequency_refuted, C38_generic_radio_refuted, C38_truncated_refuted).
Print Assumptions all_PropTransmit.
