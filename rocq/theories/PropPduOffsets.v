(** * C59 for Directed Energy Fire and Entity Damage Status, C60 for the classes whose serialize has no layout

    opendis/dis7.py:6318-6400, 6635-6663; C60 also for the Transmitter and Aggregate State PDUs and the four standard variable records. *)
From Coq Require Import ZArith String List Bool Lia.
From Coq Require Import Strings.Byte.
From Verif Require Import Lang Bytes Interp Shift Mono ProgBase ProgDis Prog Spec Codec Codec2 Rep Dec StreamLem SerSound ParSound ParStep ParClass NewSound Layouts Refine Api StreamApi Classes PropCodec PropFactory Special PropSize PropOffsets SvRun PropSV SvList TxRun TxPar PropTransmit PropSvList PropTxOffsets Declared PropDeclared PropAggregate.
Import ListNotations.
Open Scope string_scope. Open Scope Z_scope. Open Scope list_scope.

(** ** The tables of IEEE 1278.1-2012 *)
(** 7.3.4 Directed Energy Fire: after the firing entity comes the event ID, which this implementation calls targetEntityID; it calls the cumulative shot time commulativeShotTime.
    Number of DE records at 86, the records from 88 *)
Definition directed_energy_std : list frow :=
  pdu_header ++ at_ 12 (of_ "firingEntityID" entity_id) ++ at_ 24 (of_ "munitionType" entity_type) ++ at_ 32 (of_ "shotStartTime" clock) ++ [(40%nat, f32, ["commulativeShotTime"])] ++
  at_ 44 (of_ "apertureEmitterLocation" vector3) ++ [(56%nat, f32, ["apertureDiameter"]); (60%nat, f32, ["wavelength"]); (68%nat, f32, ["pulseRepetitionFrequency"]); (72%nat, f32, ["pulseWidth"]); (78%nat, u8, ["pulseShape"])].
(** 7.3.5 Entity Damage Status: number of damage descriptions at 22, the records from 24 *)
Definition entity_damage_std : list frow := pdu_header ++ at_ 12 (of_ "damagedEntityID" entity_id).

(** ** Directed Energy Fire follows the table *)
Lemma with_records n D f pre cnt x a s o W vs bss bs z : (S fuel_ok < n)%nat -> writer D f pre cnt x a = true /\ chkS the_prog TW 4 D pre f = Some Done -> fixed f = Some z ->
  contents the_prog (heap s) D f o = Some W -> list_attr (heap s) o a = Some vs -> Forall2 (writes_bytes (Nat.pred n) (heap s)) vs bss -> serialize n o s = (Ok VNone, appended s bs) ->
  exists b c, encode f W = (b, None) /\ length b = z /\ enc_val u16 (WInt (Z.of_nat (length vs))) = (c, None) /\ length c = 2%nat /\ bs = b ++ c ++ concat bss.
Proof.
  intros Hn [HK CK] Hz HW HV F E. rewrite (sv_pdu_writes n D f pre cnt x a s o W vs _ Hn HK CK HW HV (all_bytes _ _ _ _ F)) in E. unfold oc in E.
  destruct (oseq _ _) as [b0 [e|]] eqn:Eo; cbn [fst snd] in E; [discriminate|]. unfold add_out, appended in E. apply (f_equal (fun x => out (snd x))) in E. cbn [out snd] in E. apply app_inv_head in E. subst b0.
  apply oseq_ok in Eo as (b & r & E0 & Eo & ->). apply oseq_ok in Eo as (c & r' & E1 & Eo & ->). rewrite map_length, <- (SerSound.Forall2_length _ _ _ F) in E1. rewrite outs_bytes in Eo. injection Eo as <-.
  exists b, c. split; [exact E0|]. split; [rewrite (encode_size _ _ _ E0); now apply fixed_size|]. split; [exact E1|]. split; [exact (enc_val_length _ _ _ E1)|reflexivity].
Qed.
Lemma skip_two (b c r : list byte) k : (length b + length c)%nat = k -> skipn k (b ++ c ++ r) = r.
Proof. intros <-. rewrite app_assoc, skipn_app, <- app_length, skipn_all, Nat.sub_diag. reflexivity. Qed.

Theorem C59_directed_energy n s o W vs bss bs : (S fuel_ok < n)%nat -> contents the_prog (heap s) "DirectedEnergyFirePdu" (def_fields w_DEFireFlags) o = Some W ->
  list_attr (heap s) o "dERecords" = Some vs -> Forall2 (writes_bytes (Nat.pred n) (heap s)) vs bss -> serialize n o s = (Ok VNone, appended s bs) ->
  Forall (field_holds bs W) directed_energy_std /\ holds_at_offset u16 86 bs (WInt (Z.of_nat (length vs))) /\ skipn 88 bs = concat bss.
Proof.
  intros Hn HW HV F E. destruct (with_records n _ _ _ _ _ _ s o W vs bss bs 86%nat Hn def_writer eq_refl HW HV F E) as (b & c & E0 & L0 & E1 & L1 & ->). split; [|split].
  - change (b ++ c ++ concat bss) with ([] ++ b ++ (c ++ concat bss)). apply block_rows with (def_fields w_DEFireFlags); [exact E0|vm_compute; reflexivity].
  - now apply one_slice.
  - apply skip_two. lia.
Qed.

Lemma u16_inj x y l : enc_prim u16 (WInt x) = inl l -> enc_prim u16 (WInt y) = inl l -> x = y.
Proof.
  cbn [enc_prim wint u16]. change (lo 2 false) with 0. change (hi 2 false) with 65536. destruct ((0 <=? x) && (x <? 65536))%bool eqn:A; [|discriminate]. destruct ((0 <=? y) && (y <? 65536))%bool eqn:B; [|discriminate].
  intros X Y. pose proof (f_equal (fun r : list byte + exn => match r with inl a => be_val a | inr _ => 0 end) (eq_trans X (eq_sym Y))) as E. cbv beta iota in E. rewrite !be_val_be in E. change (256 ^ Z.of_nat 2) with 65536 in E. rewrite !Z.mod_small in E by lia. exact E.
Qed.
(** ** Entity Damage Status does not: firingEntityID and targetEntityID, which the PDU does not have, are written at 12-23, before the damaged entity (opendis/dis7.py:6635-6663, the superclass WarfareFamilyPdu) *)
Theorem C59_entity_damage_refuted n s o W vs bss bs : (S fuel_ok < n)%nat -> contents the_prog (heap s) "EntityDamageStatusPdu" eds_fields o = Some W ->
  list_attr (heap s) o "damageDescriptions" = Some vs -> Forall2 (writes_bytes (Nat.pred n) (heap s)) vs bss -> serialize n o s = (Ok VNone, appended s bs) ->
  Forall (field_holds bs W) (pdu_header ++ at_ 12 (of_ "firingEntityID" entity_id) ++ at_ 18 (of_ "targetEntityID" entity_id) ++ at_ 24 (of_ "damagedEntityID" entity_id)) /\
  holds_at_offset u16 34 bs (WInt (Z.of_nat (length vs))) /\ skipn 36 bs = concat bss /\
  forall x y, walk ["firingEntityID"; "entityNumber"] W = Some (WInt x) -> walk ["damagedEntityID"; "entityNumber"] W = Some (WInt y) -> x <> y -> ~ Forall (field_holds bs W) entity_damage_std.
Proof.
  intros Hn HW HV F E. destruct (with_records n _ _ _ _ _ _ s o W vs bss bs 34%nat Hn eds_writer eq_refl HW HV F E) as (b & c & E0 & L0 & E1 & L1 & ->).
  assert (H : Forall (field_holds (b ++ c ++ concat bss) W) (pdu_header ++ at_ 12 (of_ "firingEntityID" entity_id) ++ at_ 18 (of_ "targetEntityID" entity_id) ++ at_ 24 (of_ "damagedEntityID" entity_id))).
  { change (b ++ c ++ concat bss) with ([] ++ b ++ (c ++ concat bss)). apply block_rows with eds_fields; [exact E0|vm_compute; reflexivity]. }
  split; [exact H|]. split; [now apply one_slice|]. split; [apply skip_two; lia|]. intros x y Wx Wy Df HS.
  rewrite Forall_forall in H, HS. destruct (H (16%nat, u16, ["firingEntityID"; "entityNumber"]) ltac:(vm_compute; tauto)) as (x' & X1 & X2). destruct (HS (16%nat, u16, ["damagedEntityID"; "entityNumber"]) ltac:(vm_compute; tauto)) as (y' & Y1 & Y2).
  rewrite Wx in X1. rewrite Wy in Y1. injection X1 as <-. injection Y1 as <-. unfold holds_at_offset in X2, Y2. exact (Df (u16_inj _ _ _ X2 Y2)).
Qed.

(** ** C60: declared attributes of the classes without a layout *)
(** where the layout fields f, written from byte off on, have attribute a as a value of type p *)
Definition offset_of (f : fmt) (off : nat) (a : string) (p : prim) : option nat :=
  match find (fun e => let '(path, k, i) := e in match path with [b] => String.eqb a b && match i with IField q => prim_eqb q p | _ => false end | _ => false end) (entries f off) with Some (_, k, _) => Some k | None => None end.
(** every attribute of f that class c declares is there *)
Definition all_declared (c : string) (f : fmt) (off : nat) : bool :=
  forallb (fun a => match declared_type c a with Some p => match offset_of f off a p with Some k => row_ok (entries f off) (k, p, [a]) | None => false end | None => true end) (names f).
Lemma declared_at c f off a p : all_declared c f off = true -> In a (names f) -> declared_type c a = Some p -> exists k, row_ok (entries f off) (k, p, [a]) = true.
Proof.
  intros H Ha D. unfold all_declared in H. rewrite forallb_forall in H. specialize (H _ Ha). cbv beta in H. rewrite D in H. destruct (offset_of f off a p) as [k|]; [|discriminate]. now exists k.
Qed.
Lemma one_row f W b x c r : encode f W = (x, None) -> row_ok (entries f (length b)) r = true -> field_holds (b ++ x ++ c) W r.
Proof. intros E H. exact (Forall_inv (block_rows f W b x c [r] E ltac:(cbn [forallb]; now rewrite H))). Qed.

(** the two PDUs above: each declared attribute is written at an offset of its own, in its declared type *)
Definition war_pdus : list (string * fmt * string) := [("DirectedEnergyFirePdu", def_fields w_DEFireFlags, "dERecords"); ("EntityDamageStatusPdu", eds_fields, "damageDescriptions")].
Lemma war_declared : forallb (fun e => all_declared (fst (fst e)) (snd (fst e)) 0) war_pdus = true. Proof. vm_compute. reflexivity. Qed.
Theorem C60_war_pdus D f l a p : In (D, f, l) war_pdus -> In a (names f) -> declared_type D a = Some p -> exists k, forall n s o W vs bss bs, (S fuel_ok < n)%nat ->
  contents the_prog (heap s) D f o = Some W -> list_attr (heap s) o l = Some vs -> Forall2 (writes_bytes (Nat.pred n) (heap s)) vs bss -> serialize n o s = (Ok VNone, appended s bs) -> field_holds bs W (k, p, [a]).
Proof.
  intros Hi Ha Dt. pose proof war_declared as Q. rewrite forallb_forall in Q. specialize (Q _ Hi). cbn [fst snd] in Q. destruct (declared_at _ _ _ _ _ Q Ha Dt) as (k & K). exists k.
  intros n s o W vs bss bs Hn HW HV F E.
  assert (X : exists b r, encode f W = (b, None) /\ bs = [] ++ b ++ r).
  { unfold war_pdus in Hi. cbn [In] in Hi. destruct Hi as [Hi|[Hi|[]]]; injection Hi as <- <- <-.
    - destruct (with_records n _ _ _ _ _ _ s o W vs bss bs 86%nat Hn def_writer eq_refl HW HV F E) as (b & c & E0 & _ & _ & _ & ->). exists b, (c ++ concat bss). split; [exact E0|reflexivity].
    - destruct (with_records n _ _ _ _ _ _ s o W vs bss bs 34%nat Hn eds_writer eq_refl HW HV F E) as (b & c & E0 & _ & _ & _ & ->). exists b, (c ++ concat bss). split; [exact E0|reflexivity]. }
  destruct X as (b & r & E0 & ->). now apply one_row with f.
Qed.

(** the Aggregate State PDU (without silent aggregates; with one, serialize raises: C64_silent_refuted) *)
Definition agg_ok : bool := forallb (fun a => String.eqb a "forceID" || match declared_type "AggregateStatePdu" a with Some p => match offset_of r_AggregateStatePdu 0 a p with Some k => row_ok (entries r_AggregateStatePdu 0) (k, p, [a]) | None => false end | None => true end) (names r_AggregateStatePdu).
Lemma agg_declared : agg_ok = true. Proof. vm_compute. reflexivity. Qed.
Lemma agg_row n s o W bs r : (fuel_ok < n)%nat -> contents the_prog (heap s) "AggregateStatePdu" r_AggregateStatePdu o = Some W -> field "silentAggregateSystems" W = Some (WList []) ->
  serialize n o s = (Ok VNone, appended s bs) -> row_ok (entries r_AggregateStatePdu 0) r = true -> field_holds bs W r.
Proof.
  intros Hn HW H0 E K. rewrite (C64_write n s o W Hn HW H0) in E. unfold oc in E.
  destruct (encode _ W) as [b [e|]] eqn:Ee; cbn [fst snd] in E; [discriminate|]. unfold add_out, appended in E. apply (f_equal (fun x => out (snd x))) in E. cbn [out snd] in E. apply app_inv_head in E. subst b.
  rewrite <- (app_nil_r bs). change (bs ++ []) with ([] ++ bs ++ []). now apply one_row with r_AggregateStatePdu.
Qed.
Theorem C60_aggregate a p : In a (names r_AggregateStatePdu) -> a <> "forceID" -> declared_type "AggregateStatePdu" a = Some p -> exists k, forall n s o W bs, (fuel_ok < n)%nat ->
  contents the_prog (heap s) "AggregateStatePdu" r_AggregateStatePdu o = Some W -> field "silentAggregateSystems" W = Some (WList []) -> serialize n o s = (Ok VNone, appended s bs) -> field_holds bs W (k, p, [a]).
Proof.
  intros Ha Ne Dt. pose proof agg_declared as Q. unfold agg_ok in Q. rewrite forallb_forall in Q. specialize (Q _ Ha). cbv beta in Q. rewrite Dt in Q. apply orb_prop in Q as [Q|Q]; [apply String.eqb_eq in Q; contradiction|].
  destruct (offset_of _ _ a p) as [k|]; [|discriminate]. exists k. intros n s o W bs Hn HW H0 E. now apply (agg_row n s o).
Qed.
(** forceID is declared as a 16-bit number (opendis/dis7.py:7410) and written in 8 bits: serialize raises on the others *)
Theorem C60_force_refuted n s o W z : (fuel_ok < n)%nat -> contents the_prog (heap s) "AggregateStatePdu" r_AggregateStatePdu o = Some W -> field "silentAggregateSystems" W = Some (WList []) ->
  field "forceID" W = Some (WInt z) -> 256 <= z < 65536 ->
  declared_type "AggregateStatePdu" "forceID" = Some u16 /\ (exists b, enc_prim u16 (WInt z) = inl b) /\ forall bs, serialize n o s <> (Ok VNone, appended s bs).
Proof.
  intros Hn HW H0 Hf Hz. split; [vm_compute; reflexivity|]. split.
  - exists (be 2 z). unfold enc_prim. cbn [u16 wint]. change (lo 2 false) with 0. change (hi 2 false) with 65536. replace ((0 <=? z) && (z <? 65536))%bool with true; [reflexivity|]. symmetry. apply andb_true_intro. split; lia.
  - intros bs E. destruct (agg_row n s o W bs (18%nat, u8, ["forceID"]) Hn HW H0 E ltac:(vm_compute; reflexivity)) as (x & X & Y). cbn [walk] in X. rewrite Hf in X. injection X as <-.
    unfold holds_at_offset, enc_prim in Y. cbn [u8 wint] in Y. change (hi 1 false) with 256 in Y. replace (z <? 256) with false in Y by (symmetry; lia). rewrite andb_false_r in Y. discriminate.
Qed.

(** the Transmitter PDU *)
Lemma tx_declared : all_declared "TransmitterPdu" tx_a 0 && all_declared "TransmitterPdu" tx_b 32 && all_declared "TransmitterPdu" (tx_c u64 w_ModulationType) 72 && all_declared "TransmitterPdu" tx_d 101 = true. Proof. vm_compute. reflexivity. Qed.
Theorem C60_transmitter a p : In a (names tx_w) -> declared_type "TransmitterPdu" a = Some p -> exists k, forall n s o W pm pp vs bss bs, (S fuel_ok < n)%nat -> tx_object 0 (heap s) o W pm pp vs ->
  Forall2 (writes_bytes (Nat.pred n) (heap s)) vs bss -> serialize n o s = (Ok VNone, appended s bs) -> field_holds bs W (k, p, [a]).
Proof.
  intros Ha Dt. pose proof tx_declared as Q. apply andb_prop in Q as [Q Q4]. apply andb_prop in Q as [Q Q3]. apply andb_prop in Q as [Q1 Q2].
  assert (SPL : names tx_w = names tx_a ++ names tx_b ++ names (tx_c u64 w_ModulationType) ++ names tx_d) by (vm_compute; reflexivity). rewrite SPL in Ha. clear SPL.
  assert (K : exists k, row_ok (entries tx_a 0) (k, p, [a]) = true \/ row_ok (entries tx_b 32) (k, p, [a]) = true \/ row_ok (entries (tx_c u64 w_ModulationType) 72) (k, p, [a]) = true \/ row_ok (entries tx_d 101) (k, p, [a]) = true).
  { apply in_app_or in Ha as [Ha|Ha]; [destruct (declared_at _ _ _ _ _ Q1 Ha Dt) as (k & K); exists k; auto|]. apply in_app_or in Ha as [Ha|Ha]; [destruct (declared_at _ _ _ _ _ Q2 Ha Dt) as (k & K); exists k; auto|].
    apply in_app_or in Ha as [Ha|Ha]; [destruct (declared_at _ _ _ _ _ Q3 Ha Dt) as (k & K); exists k; auto|destruct (declared_at _ _ _ _ _ Q4 Ha Dt) as (k & K); exists k; auto]. }
  destruct K as (k & K). exists k. intros n s o W pm pp vs bss bs Hn HO F HS.
  rewrite (tx_writes n s o W pm pp vs _ Hn HO (all_bytes _ _ _ _ F)) in HS. unfold oc in HS. destruct (tx_out _ _ _ _) as [b [x|]] eqn:Eo; cbn [fst snd] in HS; [discriminate|].
  unfold add_out, appended in HS. apply (f_equal (fun x => out (snd x))) in HS. cbn [out snd] in HS. apply app_inv_head in HS. subst b. unfold tx_out in Eo.
  apply oseq_ok in Eo as (b0 & ? & E0 & Eo & ->). apply oseq_ok in Eo as (b1 & ? & E1 & Eo & ->). apply oseq_ok in Eo as (b2 & ? & E2 & Eo & ->). apply oseq_ok in Eo as (b3 & ? & E3 & Eo & ->).
  apply oseq_ok in Eo as (b4 & ? & E4 & Eo & ->). apply oseq_ok in Eo as (b5 & ? & E5 & Eo & ->). apply oseq_ok in Eo as (b6 & tl & E6 & _ & ->).
  assert (L0 : length b0 = 30%nat) by (rewrite (encode_size _ _ _ E0); now apply fixed_size). assert (L1 : length b1 = 2%nat) by exact (enc_val_length _ _ _ E1).
  assert (L2 : length b2 = 38%nat) by (rewrite (encode_size _ _ _ E2); now apply fixed_size). assert (L3 : length b3 = 2%nat) by exact (enc_val_length _ _ _ E3).
  assert (L4 : length b4 = 28%nat) by (rewrite (encode_size _ _ _ E4); now apply fixed_size). assert (L5 : length b5 = 1%nat) by exact (enc_val_length _ _ _ E5).
  destruct K as [K|[K|[K|K]]].
  - change (b0 ++ ?r) with ([] ++ b0 ++ r). now apply one_row with tx_a.
  - replace (b0 ++ _) with ((b0 ++ b1) ++ b2 ++ (b3 ++ b4 ++ b5 ++ b6 ++ tl)) by (rewrite <- !app_assoc; reflexivity). apply one_row with tx_b; [exact E2|]. replace (length _) with 32%nat by (rewrite !app_length; lia). exact K.
  - replace (b0 ++ _) with ((b0 ++ b1 ++ b2 ++ b3) ++ b4 ++ (b5 ++ b6 ++ tl)) by (rewrite <- !app_assoc; reflexivity). apply one_row with (tx_c u64 w_ModulationType); [exact E4|]. replace (length _) with 72%nat by (rewrite !app_length; lia). exact K.
  - replace (b0 ++ _) with ((b0 ++ b1 ++ b2 ++ b3 ++ b4 ++ b5) ++ b6 ++ tl) by (rewrite <- !app_assoc; reflexivity). apply one_row with tx_d; [exact E6|]. replace (length _) with 101%nat by (rewrite !app_length; lia). exact K.
Qed.

(** the four standard variable records *)
Definition head_size (dbl : bool) : nat := if dbl then 14 else 8.
Lemma sv_declared : forallb (fun e => let '(c, (t, dbl, f)) := e in all_declared c f (head_size dbl)) sv_classes = true. Proof. vm_compute. reflexivity. Qed.
Theorem C60_standard_variable c t dbl f a p : In (c, (t, dbl, f)) sv_classes -> In a (names f) -> declared_type c a = Some p -> exists k, forall n s o W bs, (fuel_ok <= n)%nat -> sv_record (heap s) c f o W ->
  serialize n o s = (Ok VNone, appended s bs) -> field_holds bs W (k, p, [a]).
Proof.
  intros Hc Ha Dt. pose proof sv_declared as Q. rewrite forallb_forall in Q. specialize (Q _ Hc). cbv beta iota in Q. destruct (declared_at _ _ _ _ _ Q Ha Dt) as (k & K). exists k. intros n s o W bs Hn HW E.
  rewrite (proj1 (sv_writes n c t dbl f s o W Hn Hc HW)) in E. unfold oc in E. destruct (oseq _ _) as [b [e|]] eqn:Eo; cbn [fst snd] in E; [discriminate|].
  unfold add_out, appended in E. apply (f_equal (fun x => out (snd x))) in E. cbn [out snd] in E. apply app_inv_head in E. subst b.
  apply oseq_ok in Eo as (b1 & b2 & E1 & E2 & ->). rewrite <- (app_nil_r b2). apply one_row with f; [exact E2|]. rewrite (head_len _ _ _ _ E1). exact K.
Qed.

(** ** Objects the theorems apply to: a Directed Energy Fire PDU without records (the constructor does not set commulativeShotTime: the caller must), an Entity Damage Status PDU for entity 7, an Aggregate State PDU of force 300 *)
Definition def_obj : res val * st := bind (new the_prog 60 "DirectedEnergyFirePdu" []) (fun o => bind (set_attr the_prog o "commulativeShotTime" (VInt 3)) (fun _ => ret o)) st0.
Definition dam_obj : res val * st := bind (new the_prog 60 "EntityIdentifier" [VNone; VInt 7]) (fun e => new the_prog 60 "EntityDamageStatusPdu" [e]) st0.
Definition force_obj : res val * st := new the_prog 60 "AggregateStatePdu" [VNone; VInt 300] st0.
Example C59_directed_energy_case : exists o s W bs, def_obj = (Ok o, s) /\ contents the_prog (heap s) "DirectedEnergyFirePdu" (def_fields w_DEFireFlags) o = Some W /\ list_attr (heap s) o "dERecords" = Some [] /\
  Forall2 (writes_bytes 59 (heap s)) [] [] /\ serialize 60 o s = (Ok VNone, appended s bs) /\ length bs = 88%nat.
Proof. do 4 eexists. split; [vm_compute; reflexivity|]. split; [vm_compute; reflexivity|]. split; [vm_compute; reflexivity|]. split; [constructor|]. split; [unfold appended; vm_compute; reflexivity|vm_compute; reflexivity]. Qed.
Example C59_entity_damage_case : exists o s W bs, dam_obj = (Ok o, s) /\ contents the_prog (heap s) "EntityDamageStatusPdu" eds_fields o = Some W /\ list_attr (heap s) o "damageDescriptions" = Some [] /\
  Forall2 (writes_bytes 59 (heap s)) [] [] /\ serialize 60 o s = (Ok VNone, appended s bs) /\ walk ["firingEntityID"; "entityNumber"] W = Some (WInt 0) /\ walk ["damagedEntityID"; "entityNumber"] W = Some (WInt 7).
Proof. do 4 eexists. split; [vm_compute; reflexivity|]. split; [vm_compute; reflexivity|]. split; [vm_compute; reflexivity|]. split; [constructor|]. split; [unfold appended; vm_compute; reflexivity|split; vm_compute; reflexivity]. Qed.
Example C60_force_case : exists o s W, force_obj = (Ok o, s) /\ contents the_prog (heap s) "AggregateStatePdu" r_AggregateStatePdu o = Some W /\ field "silentAggregateSystems" W = Some (WList []) /\ field "forceID" W = Some (WInt 300).
Proof. do 3 eexists. split; [vm_compute; reflexivity|]. split; [vm_compute; reflexivity|]. split; vm_compute; reflexivity. Qed.
(** how many attributes the C60 theorems speak about *)
Definition declared_in (c : string) (f : fmt) : nat := length (filter (fun a => match declared_type c a with Some _ => true | None => false end) (names f)).
Example C60_counts : map (fun e => declared_in (fst (fst e)) (snd (fst e))) war_pdus = [16; 9]%nat /\ declared_in "AggregateStatePdu" r_AggregateStatePdu = 10%nat /\ declared_in "TransmitterPdu" tx_w = 16%nat /\
  map (fun e => let '(c, (t, dbl, f)) := e in declared_in c f) sv_classes = [10; 8; 1; 8]%nat.
Proof. vm_compute. repeat split. Qed.

Definition all_PropPduOffsets := (C59_directed_energy, C59_entity_damage_refuted, C60_war_pdus, C60_aggregate, C60_force_refuted, C60_transmitter, C60_standard_variable).
Print Assumptions all_PropPduOffsets.
