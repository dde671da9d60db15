(** * C96: assigning a record to an attribute replaces its bytes by those of the new record (opendis/dis7.py: every class's serialize) *)
From Coq Require Import ZArith String List Bool Lia Permutation.
From Coq Require Import Strings.Byte.
From Verif Require Import Lang Bytes Interp Shift Mono ProgBase ProgDis Prog Spec Codec Codec2 Rep Dec StreamLem SerSound ParSound ParStep ParClass NewSound Layouts Refine Api StreamApi Classes PropCodec CtorRun PropFactory PropOffsets Assign PropAssign Append PropAppend Rewrite PropRewrite Replace.
Import ListNotations.
Open Scope string_scope. Open Scope Z_scope. Open Scope list_scope.

(** ** Specification *)
(** the attributes that are records, and their classes: those the constructors fill with [x or Class()] in opendis/dis7.py, and _datums and _dataQuery.
    Not here, because serialize does not write them as records: AttachedParts.attachedPartType and SeparationVP.stationLocation *)
Definition record_attributes : list (string * list (string * string)) :=
  [
    ("EntityIdentifier", [("simulationAddress", "SimulationAddress")]);
    ("EventIdentifier", [("simulationAddress", "SimulationAddress")]);
    ("BeamAntennaPattern", [("beamDirection", "EulerAngles")]);
    ("BasicHaveQuickMP", [("net_id", "NetId")]);
    ("DirectedEnergyTargetEnergyDeposition", [("targetEntityID", "EntityIdentifier")]);
    ("MunitionDescriptor", [("munitionType", "EntityType")]);
    ("GroupID", [("simulationAddress", "SimulationAddress")]);
    ("DeadReckoningParameters", [("entityLinearAcceleration", "Vector3Float"); ("entityAngularVelocity", "Vector3Float")]);
    ("EntityAssociation", [("entityID", "EntityIdentifier")]);
    ("MinefieldIdentifier", [("simulationAddress", "SimulationAddress")]);
    ("OwnershipStatus", [("entityId", "EntityIdentifier")]);
    ("Association", [("associatedEntityID", "EntityIdentifier"); ("associatedLocation", "WorldCoordinates")]);
    ("AntennaLocation", [("antennaLocation", "WorldCoordinates"); ("relativeAntennaLocation", "Vector3Float")]);
    ("ObjectIdentifier", [("simulationAddress", "SimulationAddress")]);
    ("AggregateIdentifier", [("simulationAddress", "SimulationAddress")]);
    ("ExplosionDescriptor", [("explodingObject", "EntityType")]);
    ("MineEntityIdentifier", [("simulationAddress", "SimulationAddress")]);
    ("Expendable", [("expendable", "EntityType")]);
    ("IOCommunicationsNode", [("communicationsNodeID", "CommunicationsNodeID")]);
    ("LinearSegmentParameter", [("segmentLocation", "WorldCoordinates"); ("segmentOrientation", "EulerAngles")]);
    ("SystemIdentifier", [("changeOptions", "ChangeOptions")]);
    ("TrackJamData", [("entityID", "EntityIdentifier")]);
    ("SimulationManagementPduHeader", [("pduHeader", "PduHeader"); ("originatingID", "SimulationIdentifier"); ("receivingID", "SimulationIdentifier")]);
    ("SimulationIdentifier", [("simulationAddress", "SimulationAddress")]);
    ("SupplyQuantity", [("supplyType", "EntityType")]);
    ("SilentEntitySystem", [("entityType", "EntityType")]);
    ("LaunchedMunitionRecord", [("fireEventID", "EventIdentifier"); ("firingEntityID", "EventIdentifier"); ("targetEntityID", "EventIdentifier"); ("targetLocation", "WorldCoordinates")]);
    ("Munition", [("munitionType", "EntityType")]);
    ("MunitionReload", [("munitionType", "EntityType")]);
    ("ExpendableReload", [("expendable", "EntityType")]);
    ("UnattachedIdentifier", [("simulationAddress", "SimulationAddress")]);
    ("EntityTypeVP", [("entityType", "EntityType")]);
    ("CommunicationsNodeID", [("entityID", "EntityIdentifier")]);
    ("ExpendableDescriptor", [("expendableType", "EntityType")]);
    ("LiveEntityIdentifier", [("liveSimulationAddress", "LiveSimulationAddress")]);
    ("SeparationVP", [("parentEntityID", "EntityIdentifier")]);
    ("EntityStateUpdatePdu", [("entityID", "EntityIdentifier"); ("entityLinearVelocity", "Vector3Float"); ("entityLocation", "WorldCoordinates"); ("entityOrientation", "EulerAngles")]);
    ("ServiceRequestPdu", [("requestingEntityID", "EntityIdentifier"); ("servicingEntityID", "EntityIdentifier")]);
    ("RepairCompletePdu", [("receivingEntityID", "EntityIdentifier"); ("repairingEntityID", "EntityIdentifier")]);
    ("CollisionPdu", [("issuingEntityID", "EntityIdentifier"); ("collidingEntityID", "EntityIdentifier"); ("eventID", "EventIdentifier"); ("velocity", "Vector3Float"); ("location", "Vector3Float")]);
    ("RepairResponsePdu", [("receivingEntityID", "EntityIdentifier"); ("repairingEntityID", "EntityIdentifier")]);
    ("DataQueryPdu", [("originatingEntityID", "EntityIdentifier"); ("receivingEntityID", "EntityIdentifier"); ("_dataQuery", "DataQueryDatumSpecification")]);
    ("CreateEntityPdu", [("originatingEntityID", "EntityIdentifier"); ("receivingEntityID", "EntityIdentifier")]);
    ("IntercomSignalPdu", [("entityID", "EntityIdentifier")]);
    ("RemoveEntityPdu", [("originatingEntityID", "EntityIdentifier"); ("receivingEntityID", "EntityIdentifier")]);
    ("ResupplyReceivedPdu", [("receivingEntityID", "EntityIdentifier"); ("supplyingEntityID", "EntityIdentifier")]);
    ("CollisionElasticPdu", [("issuingEntityID", "EntityIdentifier"); ("collidingEntityID", "EntityIdentifier"); ("collisionEventID", "EventIdentifier"); ("contactVelocity", "Vector3Float"); ("locationOfImpact", "Vector3Float"); ("unitSurfaceNormal", "Vector3Float")]);
    ("ActionRequestPdu", [("originatingEntityID", "EntityIdentifier"); ("receivingEntityID", "EntityIdentifier"); ("_datums", "DatumSpecification")]);
    ("AcknowledgePdu", [("originatingEntityID", "EntityIdentifier"); ("receivingEntityID", "EntityIdentifier")]);
    ("ActionRequestReliablePdu", [("originatingEntityID", "EntityIdentifier"); ("receivingEntityID", "EntityIdentifier"); ("_datums", "DatumSpecification")]);
    ("DesignatorPdu", [("designatingEntityID", "EntityIdentifier"); ("designatedEntityID", "EntityIdentifier"); ("designatorSpotWrtDesignated", "Vector3Float"); ("designatorSpotLocation", "WorldCoordinates"); ("entityLinearAcceleration", "Vector3Float")]);
    ("StopFreezePdu", [("originatingEntityID", "EntityIdentifier"); ("receivingEntityID", "EntityIdentifier"); ("realWorldTime", "ClockTime")]);
    ("EntityStatePdu", [("entityID", "EntityIdentifier"); ("entityType", "EntityType"); ("alternativeEntityType", "EntityType"); ("entityLinearVelocity", "Vector3Float"); ("entityLocation", "WorldCoordinates"); ("entityOrientation", "EulerAngles"); ("deadReckoningParameters", "DeadReckoningParameters"); ("marking", "EntityMarking")]);
    ("StartResumePdu", [("originatingEntityID", "EntityIdentifier"); ("receivingEntityID", "EntityIdentifier"); ("realWorldTime", "ClockTime"); ("simulationTime", "ClockTime")]);
    ("ElectromagneticEmissionsPdu", [("emittingEntityID", "EntityIdentifier"); ("eventID", "EventIdentifier")]);
    ("EmissionSystemBeamRecord", [("fundamentalParameterData", "EEFundamentalParameterData"); ("beamStatus", "BeamStatus")]);
    ("EmissionSystemRecord", [("emitterSystem", "EmitterSystem"); ("location", "Vector3Float")]);
    ("ResupplyOfferPdu", [("receivingEntityID", "EntityIdentifier"); ("supplyingEntityID", "EntityIdentifier")]);
    ("SetDataReliablePdu", [("originatingEntityID", "EntityIdentifier"); ("receivingEntityID", "EntityIdentifier"); ("_datums", "DatumSpecification")]);
    ("EventReportPdu", [("originatingEntityID", "EntityIdentifier"); ("receivingEntityID", "EntityIdentifier"); ("_datums", "DatumSpecification")]);
    ("PointObjectStatePdu", [("objectID", "EntityIdentifier"); ("referencedObjectID", "EntityIdentifier"); ("objectType", "ObjectType"); ("objectLocation", "WorldCoordinates"); ("objectOrientation", "EulerAngles"); ("requesterID", "SimulationAddress"); ("receivingID", "SimulationAddress")]);
    ("DataPdu", [("originatingEntityID", "EntityIdentifier"); ("receivingEntityID", "EntityIdentifier"); ("_datums", "DatumSpecification")]);
    ("AcknowledgeReliablePdu", [("originatingEntityID", "EntityIdentifier"); ("receivingEntityID", "EntityIdentifier")]);
    ("StartResumeReliablePdu", [("originatingEntityID", "EntityIdentifier"); ("receivingEntityID", "EntityIdentifier"); ("realWorldTime", "ClockTime"); ("simulationTime", "ClockTime")]);
    ("ArealObjectStatePdu", [("objectID", "EntityIdentifier"); ("referencedObjectID", "EntityIdentifier"); ("objectType", "ObjectType"); ("requesterID", "SimulationAddress"); ("receivingID", "SimulationAddress")]);
    ("DataQueryReliablePdu", [("originatingEntityID", "EntityIdentifier"); ("receivingEntityID", "EntityIdentifier"); ("_dataQuery", "DataQueryDatumSpecification")]);
    ("MinefieldStatePdu", [("minefieldID", "MinefieldIdentifier"); ("minefieldType", "EntityType"); ("minefieldLocation", "WorldCoordinates"); ("minefieldOrientation", "EulerAngles")]);
    ("DataReliablePdu", [("originatingEntityID", "EntityIdentifier"); ("receivingEntityID", "EntityIdentifier"); ("_datums", "DatumSpecification")]);
    ("CommentPdu", [("originatingEntityID", "EntityIdentifier"); ("receivingEntityID", "EntityIdentifier"); ("_datums", "DatumSpecification")]);
    ("CommentReliablePdu", [("originatingEntityID", "EntityIdentifier"); ("receivingEntityID", "EntityIdentifier"); ("_datums", "DatumSpecification")]);
    ("DetonationPdu", [("firingEntityID", "EntityIdentifier"); ("targetEntityID", "EntityIdentifier"); ("explodingEntityID", "EntityIdentifier"); ("eventID", "EventIdentifier"); ("velocity", "Vector3Float"); ("location", "WorldCoordinates"); ("descriptor", "MunitionDescriptor"); ("locationInEntityCoordinates", "Vector3Float")]);
    ("SetDataPdu", [("originatingEntityID", "EntityIdentifier"); ("receivingEntityID", "EntityIdentifier"); ("_datums", "DatumSpecification")]);
    ("RecordQueryReliablePdu", [("originatingEntityID", "EntityIdentifier"); ("receivingEntityID", "EntityIdentifier")]);
    ("ActionResponsePdu", [("originatingEntityID", "EntityIdentifier"); ("receivingEntityID", "EntityIdentifier"); ("_datums", "DatumSpecification")]);
    ("FirePdu", [("firingEntityID", "EntityIdentifier"); ("targetEntityID", "EntityIdentifier"); ("munitionExpendableID", "EntityIdentifier"); ("eventID", "EventIdentifier"); ("location", "WorldCoordinates"); ("descriptor", "MunitionDescriptor"); ("velocity", "Vector3Float")]);
    ("ReceiverPdu", [("transmitterEntityID", "EntityIdentifier")]);
    ("UaPdu", [("emittingEntityID", "EntityIdentifier"); ("eventID", "EventIdentifier")]);
    ("SignalPdu", [("entityID", "EntityIdentifier")]);
    ("RemoveEntityReliablePdu", [("originatingEntityID", "EntityIdentifier"); ("receivingEntityID", "EntityIdentifier")]);
    ("SeesPdu", [("orginatingEntityID", "EntityIdentifier")]);
    ("CreateEntityReliablePdu", [("originatingEntityID", "EntityIdentifier"); ("receivingEntityID", "EntityIdentifier")]);
    ("StopFreezeReliablePdu", [("originatingEntityID", "EntityIdentifier"); ("receivingEntityID", "EntityIdentifier"); ("realWorldTime", "ClockTime")]);
    ("EventReportReliablePdu", [("originatingEntityID", "EntityIdentifier"); ("receivingEntityID", "EntityIdentifier"); ("_datums", "DatumSpecification")]);
    ("MinefieldResponseNackPdu", [("minefieldID", "EntityIdentifier"); ("requestingEntityID", "EntityIdentifier")]);
    ("ActionResponseReliablePdu", [("originatingEntityID", "EntityIdentifier"); ("receivingEntityID", "EntityIdentifier"); ("_datums", "DatumSpecification")]);
    ("IsPartOfPdu", [("orginatingEntityID", "EntityIdentifier"); ("receivingEntityID", "EntityIdentifier"); ("relationship", "Relationship"); ("partLocation", "Vector3Float"); ("namedLocationID", "NamedLocationIdentification"); ("partEntityType", "EntityType")])
  ].
Definition listed (c : string) : list (string * string) := match assoc c record_attributes with Some l => l | None => [] end.

(** ** Lemmas *)
(** the classes of the records a layout names have these layouts *)
Fixpoint joined (f : fmt) : Prop :=
  match f with
  | Done => True
  | Obj _ c sub k => layout c = Some sub /\ joined sub /\ joined k
  | OList _ _ sub k => joined sub /\ joined k
  | Prim _ _ k | Cnt _ _ _ k | PList _ _ k | Arr _ _ _ k | Zero _ k | Mask _ _ k | VList _ _ _ _ k | Pad _ k | Derive _ _ _ k | Bits _ k | NullL _ k => joined k
  end.
Lemma joined_fapp f g : joined (fapp f g) -> joined g.
Proof. induction f; cbn [fapp joined]; tauto. Qed.
Lemma joined_all : Forall (fun p => layout (fst p) = Some (snd p) -> joined (snd p)) TW.
Proof. unfold TW. repeat (constructor; [vm_compute; first [discriminate|intros _; repeat split]|]). constructor. Qed.
Lemma joined_layout c f : layout c = Some f -> joined f.
Proof. intros L. destruct (layout_inv _ _ L) as (L1 & _). pose proof joined_all as K. rewrite Forall_forall in K. exact (K _ (assoc_In _ _ _ L1) L). Qed.
Lemma joined_record a : forall path f dc e off, joined f -> record_at f path a = Some (dc, e, off) -> layout dc = Some e.
Proof.
  induction path as [|[b|b i] path IH]; intros f dc e off HJ HT; cbn [record_at] in HT.
  - destruct (find_spot a f) as [[[f1 k] f2]|] eqn:HF; [|discriminate]. destruct k; try discriminate. injection HT as <- <- <-. apply find_spot_inv in HF as (-> & _). apply joined_fapp in HJ. exact (proj1 HJ).
  - destruct (find_spot b f) as [[[f1 k] f2]|] eqn:HF; [|discriminate]. destruct k as [|d sub|d sub| |]; try discriminate. destruct (record_at sub path a) as [[[dc' e'] off']|] eqn:HT'; [|discriminate]. injection HT as <- <- <-.
    apply find_spot_inv in HF as (-> & _). apply joined_fapp in HJ. exact (IH _ _ _ _ (proj1 (proj2 HJ)) HT').
  - destruct (find_spot b f) as [[[f1 k] f2]|] eqn:HF; [|discriminate]. destruct k as [|d sub|d sub| |]; try discriminate. destruct (record_at sub path a) as [[[dc' e'] off']|] eqn:HT'; [|discriminate]. injection HT as <- <- <-.
    apply find_spot_inv in HF as (-> & _). apply joined_fapp in HJ. exact (IH _ _ _ _ (proj1 HJ) HT').
Qed.
Lemma elem_out n s dc e v w q : (fuel_ok <= n)%nat -> layout dc = Some e -> elem_rep the_prog (heap s) dc e v (WObj w) q -> NoDup q -> serialize n v s = oc (encode e w) VNone s.
Proof.
  intros Hn L (l & at_ & w' & r & -> & Hl & Ew & HR & ->) N. injection Ew as <-. destruct (layout_inv _ _ L) as (L1 & _). apply (serialize_holds n dc e (VRef l) s w Hn L1). exists l, r, at_. auto.
Qed.

(** ** C96 *)
(** o.path.a = v, v an object of the class of the record that o.path.a is, which shares nothing with o.  Let r be the outcome of serializing v, and vb the bytes it writes.  Of the bytes o serializes to, those of the old record are replaced by vb, and no other byte changes;
    if serializing v raises, serializing o raises the same, having written what precedes the record and vb.  The old record keeps its bytes *)
Theorem C96_replace n c f s o path a dc e off v r vb bs s1 : (fuel_ok <= n)%nat -> layout c = Some f -> record_at f path a = Some (dc, e, off) ->
  separate_all (heap s) c f o (SRecords dc e) [v] -> serialize n v s = (r, appended s vb) -> serialize n o s = (Ok VNone, appended s bs) -> assign n o path (TAttr a) v s = (Ok tt, s1) ->
  out s1 = out s /\ irest s1 = irest s /\ unshared (heap s1) c f o /\
  exists before old ob after, reach n o (path ++ [Attr a]) s = (Ok old, s) /\ serialize n old s = (Ok VNone, appended s ob) /\ bs = before ++ ob ++ after /\
    (forall k, off = Some k -> length before = k) /\ serialize n old s1 = (Ok VNone, appended s1 ob) /\
    serialize n o s1 = match r with Ok _ => (Ok VNone, appended s1 (before ++ vb ++ after)) | Exc ex => (Exc ex, appended s1 (before ++ vb)) end.
Proof.
  intros Hn L HT (W & l & fp & xs & qs & (at_ & -> & Hl & HR & HN1) & HX & HN) HV HS HA. destruct (layout_inv _ _ L) as (L1 & _). pose proof (joined_record _ _ _ _ _ _ (joined_layout _ _ L) HT) as Ld.
  inversion HX as [|? x q ? ? ? HI HX']; subst. inversion HX'; subst. cbn [concat item] in *. rewrite app_nil_r in HN. clear HX HX'.
  destruct (swap_ind n a v path f dc e off s l c at_ W fp s1 HT Hl HR HN1 HA) as (lu & ob & A & B & old & w0 & q0 & rest & Hin & E1 & HRe & HC1 & HO & HPf & HC3 & HW).
  assert (exists w, x = WObj w) as (w & ->) by (destruct HI as (? & ? & w & ? & _ & _ & -> & _); eauto).
  assert (N0 : NoDup (((l :: rest) ++ q) ++ q0)).
  { eapply Permutation_NoDup; [|exact HN]. cbn [app]. apply perm_skip. transitivity ((rest ++ q0) ++ q); [now apply Permutation_app_tail|]. rewrite <- !app_assoc. apply Permutation_app_head, Permutation_app_comm. }
  pose proof N0 as N2. apply NoDup_app_parts in N2 as (N2 & N3 & N4). destruct (HW w q HI N2) as (at' & W' & fp' & Hl' & HR' & HC2 & HP'). pose proof N2 as N5. apply NoDup_app_parts in N5 as (_ & N5 & _).
  assert (HH : holds the_prog (heap s) c f (VRef l) W) by (exists l, fp, at_; auto).
  assert (HH' : holds the_prog (heap s1) c f (VRef l) W').
  { exists l, fp', at'. split; [reflexivity|]. split; [exact Hl'|]. split; [exact HR'|]. eapply Permutation_NoDup; [|exact N2]. cbn [app]. apply perm_skip. now apply Permutation_sym. }
  split; [now subst s1|]. split; [now subst s1|]. split; [now exists W'|].
  unfold serialize in HS. rewrite (serialize_holds n c f (VRef l) s W Hn L1 HH) in HS. apply ok_bytes in HS. rewrite HC1 in HS.
  apply oseq_ok in HS as (b1 & b2 & EA & HS & ->). apply oseq_ok in HS as (b3 & b4 & EO & EB & ->).
  assert (HO' : elem_rep the_prog (heap s1) dc e old (WObj w0) q0).
  { subst s1. cbn [heap]. apply elem_rep_set; [exact HO|]. apply N4. apply in_or_app. now left. }
  exists b1, old, b3, b4. split; [exact HRe|]. split; [rewrite (elem_out n s dc e old w0 q0 Hn Ld HO N3), EO; reflexivity|]. split; [reflexivity|]. split; [intros k Hk; eapply HC3; eauto|].
  split; [rewrite (elem_out n s1 dc e old w0 q0 Hn Ld HO' N3), EO; reflexivity|].
  rewrite (elem_out n s dc e v w q Hn Ld HI N5) in HV.
  unfold serialize. rewrite (serialize_holds n c f (VRef l) s1 W' Hn L1 HH'), HC2, EA, EB. destruct (encode e w) as [b [ex|]]; unfold oc, oseq, add_out, appended in *; cbn [fst snd] in *;
    assert (b = vb) as -> by (apply (f_equal (fun x => out (snd x))) in HV; cbn [out snd] in HV; now apply app_inv_head in HV); apply (f_equal fst) in HV; cbn [fst] in HV; subst r; reflexivity.
Qed.

(** the attributes this covers: every attribute of every class with a layout that is a record *)
Fixpoint records (f : fmt) : list string :=
  match f with
  | Done => []
  | Obj a _ _ k => a :: records k
  | Prim _ _ k | OList _ _ _ k | Cnt _ _ _ k | PList _ _ k | Arr _ _ _ k | Zero _ k | Mask _ _ k | VList _ _ _ _ k | Pad _ k | Derive _ _ _ k | Bits _ k | NullL _ k => records k
  end.
Definition record_covered (p : string * fmt) : bool :=
  match layout (fst p) with Some f => forallb (fun a => match record_at f [] a with Some (dc, _, _) => negb (mem dc not_readable_new) | None => false end) (records f) | None => true end.
Lemma records_covered : forallb record_covered TW = true. Proof. vm_compute. reflexivity. Qed.
Theorem C96_covers c f a : layout c = Some f -> In a (records f) -> exists dc e off, record_at f [] a = Some (dc, e, off) /\ layout dc = Some e /\ ~ In dc not_readable_new.
Proof.
  intros L Ha. pose proof records_covered as K. rewrite forallb_forall in K. destruct (layout_inv _ _ L) as (L1 & _). specialize (K _ (assoc_In _ _ _ L1)). unfold record_covered in K. cbn [fst] in K. rewrite L, forallb_forall in K.
  specialize (K _ Ha). destruct (record_at f [] a) as [[[dc e] off]|] eqn:E; [|discriminate]. exists dc, e, off. split; [reflexivity|]. split; [exact (joined_record _ _ _ _ _ _ (joined_layout _ _ L) E)|].
  intros Hi. apply mem_In in Hi. rewrite Hi in K. discriminate.
Qed.
(** these are the attributes listed above, all of them *)
Definition listed_ok (p : string * list (string * string)) : bool :=
  match layout (fst p) with Some f => forallb (fun q => match record_at f [] (fst q) with Some (dc, _, _) => String.eqb dc (snd q) | None => false end) (snd p) | None => false end.
Lemma all_listed_ok : forallb listed_ok record_attributes = true. Proof. vm_compute. reflexivity. Qed.
Definition in_listed (p : string * fmt) : bool :=
  match layout (fst p) with Some f => forallb (fun a => mem a (map fst (listed (fst p)))) (records f) | None => true end.
Lemma all_in_listed : forallb in_listed TW = true. Proof. vm_compute. reflexivity. Qed.
Theorem C96_attributes c a dc : In (a, dc) (listed c) -> exists f e off, layout c = Some f /\ record_at f [] a = Some (dc, e, off) /\ layout dc = Some e.
Proof.
  unfold listed. destruct (assoc c record_attributes) as [l|] eqn:El; [|intros []]. intros Hi. pose proof all_listed_ok as K. rewrite forallb_forall in K. specialize (K _ (assoc_In _ _ _ El)). unfold listed_ok in K. cbn [fst snd] in K.
  destruct (layout c) as [f|] eqn:L; [|discriminate]. rewrite forallb_forall in K. specialize (K _ Hi). cbn [fst snd] in K. destruct (record_at f [] a) as [[[d e] off]|] eqn:E; [|discriminate]. apply String.eqb_eq in K. subst d.
  exists f, e, off. split; [reflexivity|]. split; [exact E|]. exact (joined_record _ _ _ _ _ _ (joined_layout _ _ L) E).
Qed.
Theorem C96_no_others c f a : layout c = Some f -> In a (records f) -> exists dc, In (a, dc) (listed c).
Proof.
  intros L Ha. pose proof all_in_listed as K. rewrite forallb_forall in K. destruct (layout_inv _ _ L) as (L1 & _). specialize (K _ (assoc_In _ _ _ L1)). unfold in_listed in K. cbn [fst] in K. rewrite L, forallb_forall in K.
  specialize (K _ Ha). apply mem_In in K. apply in_map_iff in K as ([x dc] & <- & Hi). eauto.
Qed.
(** and the assignment goes through: a new object of the class can be made and assigned *)
Theorem C96_goes_through n c f s o a dc e off : (fuel_ok <= n)%nat -> layout c = Some f -> unshared (heap s) c f o -> record_at f [] a = Some (dc, e, off) -> ~ In dc not_readable_new ->
  exists v s' s1, new the_prog n dc [] s = (Ok v, s') /\ separate_all (heap s') c f o (SRecords dc e) [v] /\ assign n o [] (TAttr a) v s' = (Ok tt, s1).
Proof.
  intros Hn L U HT Hx. pose proof (joined_record _ _ _ _ _ _ (joined_layout _ _ L) HT) as Ld. destruct (C94_new n c f s o dc e [] Hn (no_news _ _ _ _ _ U) Ld Hx) as (v & s' & E & HS & _). cbn [app] in HS.
  pose proof HS as (W & l & fp & xs & qs & (at_ & -> & Hl & HR & HN1) & _). cbn [record_at] in HT. destruct (find_spot a f) as [[[f1 k] f2]|] eqn:HF; [|discriminate]. destruct k; try discriminate.
  apply find_spot_inv in HF as (-> & _). apply rep_fapp in HR as (q1 & q2 & R1 & R2 & _). cbn [put_spot rep] in R2. destruct R2 as (l' & at' & w0 & r1 & r2 & G & _).
  exists v, s'. eexists. split; [exact E|]. split; [exact HS|]. unfold assign. cbn [reach]. unfold bind at 1, ret. unfold set_attr, bind, hget, hset. rewrite Hl. unfold getA in G. destruct (lookup the_prog c a) as [[m|]|]; [discriminate| |]; reflexivity.
Qed.

(** ** A case *)
(** a received Entity State PDU; loc = WorldCoordinates(); loc.y = 1.0; pdu.entityLocation = loc: bytes 48-71 become those of loc *)
Definition r_new : res val * st := Eval vm_compute in new the_prog 50 "WorldCoordinates" [] (snd rx).
Definition loc : val := Eval vm_compute in match fst r_new with Ok v => v | _ => VNone end.
Definition y1 : st := Eval vm_compute in snd (assign 50 loc [] (TAttr "y") (VFloat 4607182418800017408) (snd r_new)).
Definition y2 : st := Eval vm_compute in snd (assign 50 (fst rx) [] (TAttr "entityLocation") loc y1).
Example C96_case : exists f dc e, layout "EntityStatePdu" = Some f /\ record_at f [] "entityLocation" = Some (dc, e, Some 48%nat) /\ separate_all (heap y1) "EntityStatePdu" f (fst rx) (SRecords dc e) [loc] /\
  serialize 50 (fst rx) y1 = (Ok VNone, appended y1 (bytes (fst rx) y1)) /\ serialize 50 loc y1 = (Ok VNone, appended y1 (bytes loc y1)) /\ bytes loc y1 = repeat x00 8 ++ [x3f; xf0] ++ repeat x00 14 /\
  assign 50 (fst rx) [] (TAttr "entityLocation") loc y1 = (Ok tt, y2) /\ bytes (fst rx) y2 = firstn 48 es_mixed ++ bytes loc y1 ++ skipn 72 es_mixed.
Proof.
  assert (L : layout "WorldCoordinates" = Some w_WorldCoordinates) by (vm_compute; reflexivity). assert (LE : layout "EntityStatePdu" = Some w_EntityStatePdu) by (vm_compute; reflexivity).
  exists w_EntityStatePdu. do 2 eexists. split; [exact LE|]. split; [vm_compute; reflexivity|].
  assert (F : (fuel_ok <= 50)%nat) by (apply Nat.leb_le; vm_compute; reflexivity).
  split.
  - assert (U : unshared (heap (snd rx)) "EntityStatePdu" w_EntityStatePdu (fst rx)).
    { apply (load_unshared 50 "EntityStatePdu" w_EntityStatePdu (mkst [] es_mixed es_mixed []) (fst rx) (snd rx) F LE). vm_compute. reflexivity. }
    destruct (C94_new 50 "EntityStatePdu" w_EntityStatePdu (snd rx) (fst rx) "WorldCoordinates" w_WorldCoordinates [] F (no_news _ _ _ _ _ U) L) as (v & s' & E & HS & _); [cbn; intuition discriminate|].
    change (new the_prog 50 "WorldCoordinates" [] (snd rx)) with (new the_prog 50 "WorldCoordinates" [] (snd rx)) in E. assert (E2 : new the_prog 50 "WorldCoordinates" [] (snd rx) = (Ok loc, snd r_new)) by (vm_compute; reflexivity).
    rewrite E2 in E. injection E as <- <-. cbn [app] in HS.
    eapply (proj1 (C94_assign_new 50 "EntityStatePdu" w_EntityStatePdu (snd r_new) (fst rx) "WorldCoordinates" w_WorldCoordinates [] loc [] [] (TAttr "y") _ _ (VFloat 4607182418800017408) _ y1 F HS ltac:(vm_compute; reflexivity) ltac:(reflexivity) ltac:(vm_compute; reflexivity))).
  - repeat (split; [vm_compute; reflexivity|]). vm_compute. reflexivity.
Qed.

Definition all_PropReplace := (C96_replace, C96_covers, C96_attributes, C96_no_others, C96_goes_through, C96_case).
Print Assumptions all_PropReplace.
