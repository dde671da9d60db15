(** * C59 for the PDUs without a layout of their own: Transmitter, Entity Damage Status, Directed Energy Fire (opendis/dis7.py:5016-5050, 6360-6381, 6655-6663) *)
From Coq Require Import ZArith String List Bool Lia.
From Coq Require Import Strings.Byte.
From Verif Require Import Lang Bytes Interp Shift Mono ProgBase ProgDis Prog Spec Codec Codec2 Rep Dec StreamLem SerSound ParSound ParStep ParClass NewSound Layouts Refine Api StreamApi Classes PropCodec PropFactory Special PropSize PropOffsets SvRun PropSV SvList TxRun TxPar PropTransmit PropSvList.
Import ListNotations.
Open Scope string_scope. Open Scope Z_scope. Open Scope list_scope.

(** ** Specification: the table of the Transmitter PDU, IEEE 1278.1-2012 7.7.2 *)
Definition transmitter_std : list frow :=
  pdu_header ++ at_ 12 (of_ "radioReferenceID" entity_id) ++ [(18%nat, u16, ["radioNumber"])] ++ at_ 20 (of_ "radioEntityType" entity_type) ++ [(28%nat, u8, ["transmitState"]); (29%nat, u8, ["inputSource"])] ++
  at_ 32 (of_ "antennaLocation" world) ++ at_ 56 (of_ "relativeAntennaLocation" vector3) ++ [(68%nat, u16, ["antennaPatternType"]); (72%nat, u64, ["frequency"]); (80%nat, f32, ["transmitFrequencyBandwidth"]);
   (84%nat, f32, ["power"]); (90%nat, u16, ["modulationType"; "majorModulation"]); (92%nat, u16, ["modulationType"; "detail"]); (94%nat, u16, ["modulationType"; "radioSystem"]);
   (96%nat, u16, ["cryptoSystem"]); (98%nat, u16, ["cryptoKeyId"])].

(** ** Offsets of one block among others *)
Lemma block_rows f W b a c rows : encode f W = (a, None) -> forallb (row_ok (entries f (length b))) rows = true -> Forall (field_holds (b ++ a ++ c) W) rows.
Proof.
  intros E H. rewrite forallb_forall in H. apply Forall_forall. intros [[off p] path] Hr. specialize (H _ Hr). unfold row_ok in H. cbn [fst snd] in H.
  apply find_item_in in H as (i & Hi & C). destruct i as [q| | |]; try discriminate. apply prim_eqb_eq in C. subst q.
  pose proof (entries_hold f W b a c _ E eq_refl) as K. rewrite Forall_forall in K. exact (K _ Hi).
Qed.
Lemma one_slice p x b a c off : enc_val p x = (a, None) -> length b = off -> holds_at_offset p off (b ++ a ++ c) x.
Proof. intros E Hb. now apply val_slice. Qed.

(** every field of a Transmitter PDU is where the table puts it; the three lengths are those of what follows, which starts at byte 104: modulation parameters,
    antenna pattern, variable transmitter parameters *)
Theorem C59_transmitter n s o W pm pp vs bss bs : (S fuel_ok < n)%nat -> tx_object 0 (heap s) o W pm pp vs -> Forall2 (writes_bytes (Nat.pred n) (heap s)) vs bss ->
  serialize n o s = (Ok VNone, appended s bs) ->
  Forall (field_holds bs W) transmitter_std /\
  holds_at_offset u16 30 bs (WInt (Z.of_nat (length vs))) /\ holds_at_offset u16 70 bs (WInt (part_len pp)) /\ holds_at_offset u8 100 bs (WInt (part_len pm)) /\
  exists bm bp, part_out pm = (bm, None) /\ part_out pp = (bp, None) /\ skipn 104 bs = bm ++ bp ++ concat bss.
Proof.
  intros Hn HO F HS. rewrite (tx_writes n s o W pm pp vs _ Hn HO (all_bytes _ _ _ _ F)) in HS. unfold oc in HS. destruct (tx_out _ _ _ _) as [b [x|]] eqn:Eo; cbn [fst snd] in HS; [discriminate|].
  unfold add_out, appended in HS. apply (f_equal (fun x => out (snd x))) in HS. cbn [out snd] in HS. apply app_inv_head in HS. subst b.
  unfold tx_out in Eo. rewrite map_length, <- (SerSound.Forall2_length _ _ _ F), outs_bytes in Eo.
  apply oseq_ok in Eo as (b0 & ? & E0 & Eo & ->). apply oseq_ok in Eo as (b1 & ? & E1 & Eo & ->). apply oseq_ok in Eo as (b2 & ? & E2 & Eo & ->). apply oseq_ok in Eo as (b3 & ? & E3 & Eo & ->).
  apply oseq_ok in Eo as (b4 & ? & E4 & Eo & ->). apply oseq_ok in Eo as (b5 & ? & E5 & Eo & ->). apply oseq_ok in Eo as (b6 & ? & E6 & Eo & ->). apply oseq_ok in Eo as (b7 & ? & E7 & Eo & ->).
  apply oseq_ok in Eo as (b8 & ? & E8 & Eo & ->). injection Eo as <-.
  assert (L0 : length b0 = 30%nat) by (rewrite (encode_size _ _ _ E0); now apply fixed_size). assert (L1 : length b1 = 2%nat) by exact (enc_val_length _ _ _ E1).
  assert (L2 : length b2 = 38%nat) by (rewrite (encode_size _ _ _ E2); now apply fixed_size). assert (L3 : length b3 = 2%nat) by exact (enc_val_length _ _ _ E3).
  assert (L4 : length b4 = 28%nat) by (rewrite (encode_size _ _ _ E4); now apply fixed_size). assert (L5 : length b5 = 1%nat) by exact (enc_val_length _ _ _ E5).
  assert (L6 : length b6 = 3%nat) by (rewrite (encode_size _ _ _ E6); now apply fixed_size).
  set (tl := b7 ++ b8 ++ concat bss).
  assert (A0 : b0 ++ b1 ++ b2 ++ b3 ++ b4 ++ b5 ++ b6 ++ tl = [] ++ b0 ++ (b1 ++ b2 ++ b3 ++ b4 ++ b5 ++ b6 ++ tl)) by reflexivity.
  assert (A1 : b0 ++ b1 ++ b2 ++ b3 ++ b4 ++ b5 ++ b6 ++ tl = (b0 ++ b1) ++ b2 ++ (b3 ++ b4 ++ b5 ++ b6 ++ tl)) by (rewrite <- !app_assoc; reflexivity).
  assert (A2 : b0 ++ b1 ++ b2 ++ b3 ++ b4 ++ b5 ++ b6 ++ tl = (b0 ++ b1 ++ b2 ++ b3) ++ b4 ++ (b5 ++ b6 ++ tl)) by (rewrite <- !app_assoc; reflexivity).
  split; [|split; [|split; [|split]]].
  - assert (SP : exists r1 r2 r3, transmitter_std = r1 ++ r2 ++ r3 /\ forallb (row_ok (entries tx_a 0)) r1 = true /\ forallb (row_ok (entries tx_b 32)) r2 = true /\
      forallb (row_ok (entries (tx_c u64 w_ModulationType) 72)) r3 = true).
    { exists (firstn 20 transmitter_std), (firstn 7 (skipn 20 transmitter_std)), (skipn 27 transmitter_std). repeat split; vm_compute; reflexivity. }
    destruct SP as (r1 & r2 & r3 & -> & R1 & R2 & R3). apply Forall_app. split; [|apply Forall_app; split].
    + rewrite A0. now apply block_rows with tx_a.
    + rewrite A1. apply block_rows with tx_b; [exact E2|]. replace (length (b0 ++ b1)) with 32%nat by (rewrite app_length; lia). exact R2.
    + rewrite A2. apply block_rows with (tx_c u64 w_ModulationType); [exact E4|]. replace (length (b0 ++ b1 ++ b2 ++ b3)) with 72%nat by (rewrite !app_length; lia). exact R3.
  - apply one_slice; auto.
  - replace (b0 ++ _) with ((b0 ++ b1 ++ b2) ++ b3 ++ (b4 ++ b5 ++ b6 ++ tl)) by (rewrite <- !app_assoc; reflexivity). apply one_slice; [exact E3|]. rewrite !app_length. lia.
  - replace (b0 ++ _) with ((b0 ++ b1 ++ b2 ++ b3 ++ b4) ++ b5 ++ (b6 ++ tl)) by (rewrite <- !app_assoc; reflexivity). apply one_slice; [exact E5|]. rewrite !app_length. lia.
  - exists b7, b8. split; [exact E7|]. split; [exact E8|]. replace (b0 ++ _) with ((b0 ++ b1 ++ b2 ++ b3 ++ b4 ++ b5 ++ b6) ++ tl) by (rewrite <- !app_assoc; reflexivity).
    rewrite skipn_app. replace (104 - _)%nat with 0%nat by (rewrite !app_length; lia). rewrite skipn_all2 by (rewrite !app_length; lia). reflexivity.
Qed.

(** the Transmitter PDU of [tx_obj], which has one variable transmitter parameters record *)
Example C59_transmitter_case : exists o s vs bss bs, tx_obj = (Ok o, s) /\ tx_object 0 (heap s) o tx_W PNone PNone vs /\ length vs = 1%nat /\ Forall2 (writes_bytes 59 (heap s)) vs bss /\ serialize 60 o s = (Ok VNone, appended s bs).
Proof.
  destruct C62_transmitter_case as (o & s & vs & ps & bs & E & HO & L & F & HS & _). destruct (records_write 59 (heap s) vs ps ltac:(vm_compute; lia) F) as (os & A & _).
  pose proof HS as HS0. rewrite (tx_writes 60 s o _ _ _ vs os ltac:(vm_compute; lia) HO A) in HS0. unfold oc in HS0. destruct (tx_out _ _ _ _) as [b [x|]] eqn:Eo; cbn [fst snd] in HS0; [discriminate|]. clear HS0.
  unfold tx_out in Eo. do 9 apply oseq_ok in Eo as (? & ? & _ & Eo & _).
  assert (K : forall vs os b, all_write 59 (heap s) vs os -> outs os = (b, None) -> exists bss, Forall2 (writes_bytes 59 (heap s)) vs bss).
  { clear. intros vs os b H. revert b. induction H as [|v o vs os Hv H IH]; intros b E; [exists []; constructor|]. cbn [outs fold_right] in E. fold (outs os) in E. apply oseq_ok in E as (b1 & b2 & E1 & E2 & _). subst o.
    destruct (IH _ E2) as (bss & G). exists (b1 :: bss). constructor; [|exact G]. intros s' Hs. rewrite (Hv s' Hs). reflexivity. }
  destruct (K _ _ _ A Eo) as (bss & G). exists o, s, vs, bss, bs. auto.
Qed.

Definition all_PropTxOffsets := C59_transmitter.
Print Assumptions all_PropTxOffsets.
