(** * C59 for Record Query-R and Event Report-R, C60 for silent aggregates

    opendis/dis7.py:6527-6581, 7186-7250, 2221-2242. *)
From Coq Require Import ZArith String List Bool Lia.
From Coq Require Import Strings.Byte.
From Verif Require Import Lang Bytes Interp Shift Mono ProgBase ProgDis Prog Spec Codec Codec2 Rep Dec StreamLem SerSound ParSound ParStep ParClass NewSound Layouts Refine Api StreamApi Classes PropCodec PropFactory Special PropSize PropOffsets PropAggregate.
Import ListNotations.
Open Scope string_scope. Open Scope Z_scope. Open Scope list_scope.

(** ** Record Query-R *)
(** IEEE 1278.1-2012 7.11.14: request ID at 24, required reliability service at 28, a 32-bit event type at 32, time at 36, the number of records at 40 *)
Definition record_query_std : pdu_table := mkpdu
  (siman ++ [(24%nat, u32, ["requestID"]); (28%nat, u8, ["requiredReliabilityService"]); (32%nat, u32, ["eventType"]); (36%nat, u32, ["time"])]) [(40%nat, u32, 1, ["recordIDs"])] [] [].
(** what is written instead: a 16-bit event type at 32, so time at 34 *)
Definition record_query_code : list frow :=
  siman ++ [(24%nat, u32, ["requestID"]); (28%nat, u8, ["requiredReliabilityService"]); (32%nat, u16, ["eventType"]); (34%nat, u32, ["time"])].

Lemma written n c f o s W bs : (fuel_ok <= n)%nat -> layout c = Some f -> contents the_prog (heap s) c f o = Some W -> serialize n o s = (Ok VNone, appended s bs) -> encode f W = (bs, None).
Proof.
  intros Hn L HW E. rewrite (ser_layout n _ f o s W Hn L HW) in E. destruct (encode f W) as [b1 [e|]] eqn:Ee; cbn [fst snd] in E; [discriminate|].
  unfold appended in E. injection E as E. apply app_inv_head in E. now subst b1.
Qed.

(** whatever it holds, a RecordQueryReliablePdu is written in 42 bytes, two fewer than the standard's, with time two bytes too early *)
Theorem C59_record_query_refuted n f s o W bs : (fuel_ok <= n)%nat -> layout "RecordQueryReliablePdu" = Some f -> contents the_prog (heap s) "RecordQueryReliablePdu" f o = Some W ->
  serialize n o s = (Ok VNone, appended s bs) -> length bs = 42%nat /\ ~ table_holds record_query_std bs W /\ Forall (field_holds bs W) record_query_code.
Proof.
  intros Hn L HW E. pose proof (C17_fixed_sizes n "RecordQueryReliablePdu" 42 s o f W bs Hn ltac:(vm_compute; tauto) L HW E) as Hl. split; [exact Hl|]. split.
  - intros (_ & H & _). destruct (H 40%nat u32 1 ["recordIDs"] (or_introl eq_refl)) as (l & _ & K). unfold holds_at_offset, slice in K. apply enc_prim_length in K. rewrite firstn_length, skipn_length, Hl in K. cbn in K. lia.
  - pose proof (written _ _ _ _ _ _ _ Hn L HW E) as Ee. vm_compute in L. injection L as <-. exact (rows_hold _ W bs record_query_code Ee eq_refl).
Qed.
Example C59_record_query_case : exists o s f W bs, new the_prog 20 "RecordQueryReliablePdu" [VInt 7; VInt 0; VInt 3; VInt 9] st0 = (Ok o, s) /\ layout "RecordQueryReliablePdu" = Some f /\
  contents the_prog (heap s) "RecordQueryReliablePdu" f o = Some W /\ serialize 50 o s = (Ok VNone, appended s bs) /\ length bs = 42%nat.
Proof. do 4 eexists. exists (out (snd (bind (new the_prog 20 "RecordQueryReliablePdu" [VInt 7; VInt 0; VInt 3; VInt 9]) (serialize 50) st0))). repeat (split; [vm_compute; reflexivity|]). vm_compute. reflexivity. Qed.

(** ** Event Report-R *)
Lemma be4_be2 z : 0 <= z < 65536 -> firstn 2 (be 4 z) = be 2 0.
Proof. intros H. cbn [be firstn]. change (256 ^ Z.of_nat 3) with 16777216. change (256 ^ Z.of_nat 2) with 65536. now rewrite !Z.div_small by lia. Qed.
Lemma inl_inj (x y : list byte) : @inl (list byte) exn x = inl y -> x = y. Proof. congruence. Qed.
(** a number that is both a 16-bit and a 32-bit field at one offset is 0 *)
Lemma two_types off bs z : holds_at_offset u16 off bs (WInt z) -> holds_at_offset u32 off bs (WInt z) -> z = 0.
Proof.
  unfold holds_at_offset, slice, u16, u32. cbn [enc_prim wint width]. destruct ((lo 2 false <=? z) && (z <? hi 2 false)) eqn:R; [|discriminate]. apply andb_prop in R as [R1 R2]. apply Z.leb_le in R1. apply Z.ltb_lt in R2.
  change (lo 2 false) with 0 in R1. change (hi 2 false) with 65536 in R2. intros A. destruct ((lo 4 false <=? z) && (z <? hi 4 false)); [|discriminate]. intros B.
  apply inl_inj in A, B.
  assert (C : be 2 z = be 2 0). { rewrite A, <- (be4_be2 z) by lia. rewrite B, firstn_firstn. reflexivity. }
  apply (f_equal be_val) in C. rewrite !be_val_be in C. change (256 ^ Z.of_nat 2) with 65536 in C. rewrite Z.mod_small in C by lia. exact C.
Qed.

(** every EventReportReliablePdu with an event type other than 0 has it in two bytes, and the counts of the datums at 30 and 34, where the standard has them at 32 and 36 *)
Theorem C59_event_report_every_refuted n f s o W bs z : (fuel_ok <= n)%nat -> layout "EventReportReliablePdu" = Some f -> contents the_prog (heap s) "EventReportReliablePdu" f o = Some W ->
  serialize n o s = (Ok VNone, appended s bs) -> field "eventType" W = Some (WInt z) -> z <> 0 ->
  holds_at_offset u16 24 bs (WInt z) /\ ~ table_holds event_report_std bs W.
Proof.
  intros Hn L HW E HF Nz. pose proof (written _ _ _ _ _ _ _ Hn L HW E) as Ee. vm_compute in L. injection L as <-.
  pose proof (Forall_inv (rows_hold _ W bs [(24%nat, u16, ["eventType"])] Ee eq_refl)) as (x & A & B). cbn [walk] in A. rewrite HF in A. injection A as <-. split; [exact B|].
  intros (H & _). rewrite Forall_forall in H. destruct (H (24%nat, u32, ["eventType"]) ltac:(vm_compute; tauto)) as (x & A & C). cbn [walk] in A. rewrite HF in A. injection A as <-. apply Nz. exact (two_types _ _ _ B C).
Qed.
Example C59_event_report_case : exists o s f W bs, new the_prog 20 "EventReportReliablePdu" [VInt 7] st0 = (Ok o, s) /\ layout "EventReportReliablePdu" = Some f /\
  contents the_prog (heap s) "EventReportReliablePdu" f o = Some W /\ serialize 50 o s = (Ok VNone, appended s bs) /\ field "eventType" W = Some (WInt 7).
Proof. do 4 eexists. exists (out (snd (bind (new the_prog 20 "EventReportReliablePdu" [VInt 7]) (serialize 50) st0))). repeat (split; [vm_compute; reflexivity|]). vm_compute. reflexivity. Qed.

(** ** Silent aggregates *)
Lemma sas_tidy : subs_nodup r_SilentAggregateSystem = true /\ nodupb (names r_SilentAggregateSystem) = true. Proof. split; vm_compute; reflexivity. Qed.
(** a SilentAggregateSystem never reaches the bytes of its aggregateType: serialize writes the number of aggregates, then raises AttributeError (or StructError before it, when the number is out of range),
    unless the client has set an attribute entityType, which the class does not have *)
Theorem C60_silent_refuted n s o W : (fuel_ok < n)%nat -> contents the_prog (heap s) "SilentAggregateSystem" r_SilentAggregateSystem o = Some W -> fst (getattr 9 o "entityType" s) = Exc AttributeError ->
  exists x e, field "numberOfAggregates" W = Some x /\
    match enc_prim u16 x with
    | inl b => e = AttributeError /\ serialize n o s = (Exc e, appended s b)
    | inr e' => e = e' /\ serialize n o s = (Exc e, appended s [])
    end.
Proof.
  intros Hn HW He. destruct (contents_inv _ _ _ _ _ (proj1 sas_tidy) (proj2 sas_tidy) HW) as (l & at_ & fp & -> & Hl & HR).
  assert (Ha : assoc "entityType" at_ = None). { unfold getattr, get_attr, bind, hget in He. rewrite Hl, sas_none in He. destruct (assoc "entityType" at_); [discriminate|reflexivity]. }
  assert (E : serialize n (VRef l) s = oc (oseq (encode sas_pre W) (fail AttributeError)) VNone s).
  { unfold serialize, call_method, bind at 1, resolve, bind at 1, hget. rewrite Hl, sas_lookup. cbn [m_kind sas_meth]. unfold ret at 1. cbn [apply app]. exact (sas_run n s l at_ W fp ltac:(lia) Hl HR Ha). }
  assert (HF : exists x, field "numberOfAggregates" W = Some x).
  { clear E He HW Hl. change r_SilentAggregateSystem with (fapp sas_pre (Obj "aggregateType" "AggregateType" w_AggregateType Done)) in HR. apply rep_fapp in HR as (p1 & p2 & HR & _). unfold sas_pre in HR. cbn [rep] in HR.
    destruct HR as ((v & x & _ & _ & Hx) & _). now exists x. }
  destruct HF as [x Hx]. exists x. rewrite E. clear E He HW Hl HR. unfold sas_pre. cbn [encode]. rewrite Hx. unfold enc_val, oc, oseq, fail, appended, add_out.
  destruct (enc_prim u16 x) as [b|e]; cbn [fst snd].
  - exists AttributeError. split; [reflexivity|]. split; [reflexivity|]. now rewrite !app_nil_r.
  - exists e. auto.
Qed.
Example C60_silent_case : exists o s W, new the_prog 20 "SilentAggregateSystem" [VInt 5] st0 = (Ok o, s) /\ contents the_prog (heap s) "SilentAggregateSystem" r_SilentAggregateSystem o = Some W /\
  fst (getattr 9 o "entityType" s) = Exc AttributeError /\ serialize 60 o s = (Exc AttributeError, appended s [x00; x05]).
Proof. do 3 eexists. repeat (split; [vm_compute; reflexivity|]). vm_compute. reflexivity. Qed.

Definition all_PropPduOffsets2 := (C59_record_query_refuted, C59_event_report_every_refuted, C60_silent_refuted).
Print Assumptions all_PropPduOffsets2.
