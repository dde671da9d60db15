(** * Properties C10, C12-C18: records and PDUs on the wire

    [layout c = Some f] ([Classes.v]): the serialize and parse methods of class c agree on the layout f.
    [contents the_prog h c f o = Some W] ([Rep.v]): in heap h, o is an instance of c and W lists the values of the
    attributes named in f, recursively.  [value_of f W] ([Spec.v]): these values are in the range of their wire types.
    [load the_prog n c s]: o = c(); o.parse(inputStream); return o. *)
From Coq Require Import ZArith String List Bool Lia.
From Coq Require Import Strings.Byte.
From Verif Require Import Lang Bytes Interp ProgDis Prog Spec Codec Codec2 Rep Dec StreamLem SerSound ParSound NewSound Layouts Refine Api Classes Padding.
Import ListNotations.
Open Scope string_scope. Open Scope Z_scope. Open Scope list_scope.

(** ** C10 *)
Theorem C10_round_trip n c f s o W : (fuel_ok <= n)%nat -> layout c = Some f -> contents the_prog (heap s) c f o = Some W -> value_of f W ->
  exists bs, serialize n o s = (Ok VNone, appended s bs) /\
    forall s' rest, irest s' = bs ++ rest ->
      exists o' s'', load the_prog n c s' = (Ok o', s'') /\ contents the_prog (heap s'') c f o' = Some W /\ irest s'' = rest.
Proof.
  intros Hn L HW HV. destruct (roundtrip f W [] (layout_wf _ _ L) HV) as (bs & E & _). exists bs. split.
  - rewrite (ser_layout n c f o s W Hn L HW), E. reflexivity.
  - intros s' rest Hi. pose proof (load_layout n c f s' Hn L) as H. rewrite Hi in H.
    destruct (roundtrip f W rest (layout_wf _ _ L) HV) as (bs' & E' & D). rewrite E in E'. injection E' as <-. rewrite D in H.
    destruct H as (o' & s'' & A & B & _ & R & _). eauto.
Qed.

(** an event identifier with its simulation address, built by the constructors *)
Definition st0 : st := mkst [] [] [] [].
Definition ex_event : res val * st :=
  bind (new the_prog 20 "SimulationAddress" [VInt 7; VInt 65535]) (fun a => new the_prog 20 "EventIdentifier" [a; VInt 42]) st0.
Example C10_case : exists o s f W, ex_event = (Ok o, s) /\ layout "EventIdentifier" = Some f /\
  contents the_prog (heap s) "EventIdentifier" f o = Some W /\ value_of f W /\
  W = [("simulationAddress", WObj [("site", WInt 7); ("application", WInt 65535)]); ("eventNumber", WInt 42)].
Proof.
  do 4 eexists. split; [vm_compute; reflexivity|]. split; [vm_compute; reflexivity|]. split; [vm_compute; reflexivity|]. split; [|reflexivity].
  split; [reflexivity|]. cbn. repeat (split || eexists || reflexivity || lia).
Qed.

(** ** C12 *)
Definition exact_layout (c : string) (f : fmt) : Prop := layout c = Some f /\ exact f = true.

Theorem C12_reencode n c f s o s' W : (fuel_ok <= n)%nat -> exact_layout c f -> load the_prog n c s = (Ok o, s') ->
  contents the_prog (heap s') c f o = Some W -> nonan f W = true ->
  exists p, irest s = p ++ irest s' /\ serialize n o s' = (Ok VNone, appended s' p).
Proof.
  intros Hn [L Hx] E HW HN. destruct (load_inv n c f s o s' Hn L E) as (W' & D & HW' & _). rewrite HW in HW'. injection HW' as <-.
  destruct (decode_exact f _ _ _ (layout_sound _ _ L) Hx D HN) as (p & Ep & Ee). exists p. split; [exact Ep|].
  rewrite (ser_layout n c f o s' W Hn L HW), Ee. reflexivity.
Qed.

(** the layouts with padding or counts in bits, where some input bits are ignored; every other layout is exact *)
Definition inexact : list string := Eval vm_compute in filter (fun c => match layout c with Some f => negb (exact f) | None => false end) wire_classes.
Example inexact_is : inexact =
  ["DatumSpecification"; "BeamStatus"; "VariableDatum"; "IntercomSignalPdu"; "ActionRequestPdu"; "ActionRequestReliablePdu";
   "ElectromagneticEmissionsPdu"; "EmissionSystemBeamRecord"; "EmissionSystemRecord"; "SetDataReliablePdu"; "EventReportPdu"; "DataPdu";
   "FastEntityStatePdu"; "DataReliablePdu"; "CommentPdu"; "CommentReliablePdu"; "SetDataPdu"; "ActionResponsePdu"; "SignalPdu";
   "EventReportReliablePdu"; "ActionResponseReliablePdu"].
Proof. reflexivity. Qed.

(** whatever the layout, re-encoding gives bytes that decode to the same object *)
Theorem C12_stable n c f s o s' W : (fuel_ok <= n)%nat -> layout c = Some f -> load the_prog n c s = (Ok o, s') -> contents the_prog (heap s') c f o = Some W ->
  exists p, serialize n o s' = (Ok VNone, appended s' p) /\ value_of f W /\
    forall s1 t, irest s1 = p ++ t -> exists o1 s1', load the_prog n c s1 = (Ok o1, s1') /\ contents the_prog (heap s1') c f o1 = Some W /\ irest s1' = t.
Proof.
  intros Hn L E HW. destruct (load_inv n c f s o s' Hn L E) as (W' & D & HW' & _). rewrite HW in HW'. injection HW' as <-.
  pose proof (decode_value_of f _ _ _ (layout_sound _ _ L) D) as HV. destruct (C10_round_trip n c f s' o W Hn L HW HV) as (p & A & B). exists p. auto.
Qed.

(** whatever the layout, re-encoding gives as many bytes as were consumed *)
Theorem C12_length n c f s o s' : (fuel_ok <= n)%nat -> layout c = Some f -> load the_prog n c s = (Ok o, s') ->
  exists p q, irest s = p ++ irest s' /\ serialize n o s' = (Ok VNone, appended s' q) /\ length q = length p.
Proof.
  intros Hn L E. destruct (load_inv n c f s o s' Hn L E) as (W & D & HW & _).
  destruct (decode_prefixed f _ _ _ _ _ D) as (p & Ep & _). destruct (decode_stable f _ _ _ (layout_sound _ _ L) D) as (q & Eq & Dq).
  exists p, q. split; [exact Ep|]. split; [rewrite (ser_layout n c f o s' W Hn L HW), Eq; reflexivity|].
  specialize (Dq []). assert (A := decode_same_length f [] [] _ _ _ _ _ (fun b => eq_refl) D Dq). rewrite Ep, !app_length in A. cbn [length] in A. lia.
Qed.
(** the padding of this variable datum (24 bits in 64) is not zero: consumed and written bytes differ, their number does not *)
Example C12_length_case : exists f o s', layout "VariableDatum" = Some f /\
  load the_prog 50 "VariableDatum" (mkst [] [x00; x00; x00; x01; x00; x00; x00; x18; x61; x62; x63; xff; xff; xff; xff; xff; x99] [] []) = (Ok o, s') /\
  serialize 50 o s' = (Ok VNone, appended s' [x00; x00; x00; x01; x00; x00; x00; x18; x61; x62; x63; x00; x00; x00; x00; x00]) /\ irest s' = [x99].
Proof. do 3 eexists. split; [vm_compute; reflexivity|]. split; [vm_compute; reflexivity|]. split; vm_compute; reflexivity. Qed.

Example C12_case : exists f o s' W, exact_layout "EventIdentifier" f /\ load the_prog 50 "EventIdentifier" (mkst [] [x00; x07; xff; xff; x00; x2a; x99] [] []) = (Ok o, s') /\
  contents the_prog (heap s') "EventIdentifier" f o = Some W /\ nonan f W = true /\ irest s' = [x99].
Proof. do 4 eexists. split; [split; vm_compute; reflexivity|]. split; [vm_compute; reflexivity|]. split; [vm_compute; reflexivity|]. split; reflexivity. Qed.

(** the condition on NaNs is needed: a signalling NaN in a float32 field comes back quiet *)
Theorem C12_signalling_nan_refuted : exists f s o s' W, exact_layout "Vector3Float" f /\ load the_prog 50 "Vector3Float" s = (Ok o, s') /\
  contents the_prog (heap s') "Vector3Float" f o = Some W /\ irest s' = [] /\
  exists p, serialize 50 o s' = (Ok VNone, appended s' p) /\ p <> irest s.
Proof.
  eexists; exists (mkst [] [x7f; x80; x00; x01; x00; x00; x00; x00; x00; x00; x00; x00] [] []). do 3 eexists.
  split; [split; vm_compute; reflexivity|]. split; [vm_compute; reflexivity|]. split; [vm_compute; reflexivity|]. split; [reflexivity|].
  eexists. split; [vm_compute; reflexivity|]. vm_compute. discriminate.
Qed.

(** ** C13 *)
(** classes without bit fields (these raise ValueError on short input) and without lists of undefined element type *)
Definition total_layout (c : string) (f : fmt) : Prop := layout c = Some f /\ has_bits f = false /\ has_null f = false.

Lemma layout_errors c f bs e : layout c = Some f -> decode f [] [] bs = DErr e -> dec_error f e.
Proof.
  intros L. apply layout_wf in L. apply andb_prop in L as [_ L]. eapply decode_errors; [exact L|]. split; intros ? [].
Qed.

Theorem C13_total n c f s : (fuel_ok <= n)%nat -> total_layout c f ->
  (exists o s', load the_prog n c s = (Ok o, s')) \/
  ((exists s', load the_prog n c s = (Exc StructError, s')) /\
   exists missing, forall s1, irest s1 = irest s ++ missing -> exists o s1', load the_prog n c s1 = (Ok o, s1')).
Proof.
  intros Hn (L & HB & HN). pose proof (load_layout n c f s Hn L) as H. destruct (decode f [] [] (irest s)) as [W r|e] eqn:D.
  - left. destruct H as (o & s' & A & _). eauto.
  - right. destruct (layout_errors _ _ _ _ L D) as [->|[[X _]|[X _]]]; [|congruence|congruence]. split; [exact H|].
    pose proof (layout_wf _ _ L) as Hw. apply andb_prop in Hw as [_ Hw].
    destruct (decode_extendable f [] [] [] [] Hw HN ltac:(split; intros ? []) (irest s)) as (x & w & r & E). exists x. intros s1 Hi.
    pose proof (load_layout n c f s1 Hn L) as H1. rewrite Hi, E in H1. destruct H1 as (o & s' & A & _). eauto.
Qed.

Definition not_total : list string := Eval vm_compute in filter (fun c => match layout c with Some f => has_bits f || has_null f | None => false end) wire_classes.
Example not_total_is : not_total =
  ["NetId"; "BasicHaveQuickMP"; "GridAxisDescriptorVariable"; "SilentEntitySystem"; "StandardVariableSpecification"; "RecordSpecification";
   "IntercomSignalPdu"; "ResupplyReceivedPdu"; "RecordQueryReliablePdu"; "UaPdu"; "SeesPdu"; "MinefieldResponseNackPdu"].
Proof. reflexivity. Qed.
Example C13_case : exists f, total_layout "EntityStatePdu" f.
Proof. eexists. repeat split; vm_compute; reflexivity. Qed.

(** ** C14 *)
Theorem C14_truncated n c f s o s' p q s1 : (fuel_ok <= n)%nat -> layout c = Some f -> load the_prog n c s = (Ok o, s') ->
  irest s = (p ++ q) ++ irest s' -> q <> [] -> irest s1 = p ->
  exists e s2, load the_prog n c s1 = (Exc e, s2) /\ (has_bits f = false -> has_null f = false -> e = StructError).
Proof.
  intros Hn L E Hs Hq Hp. destruct (load_inv n c f s o s' Hn L E) as (W & D & _ & _). rewrite Hs in D.
  destruct (decode_prefixed f _ _ _ _ _ D) as (c0 & Ec & Dt). apply app_inv_tail in Ec. specialize (Dt []). rewrite app_nil_r, <- Ec in Dt.
  destruct (decode_truncated f [] [] p q W Hq Dt) as (e & De). pose proof (load_layout n c f s1 Hn L) as H. rewrite Hp, De in H.
  destruct H as (s2 & H). exists e, s2. split; [exact H|]. intros HB HN. destruct (layout_errors _ _ _ _ L De) as [->|[[X _]|[X _]]]; congruence.
Qed.

Example C14_run : exists s2, load the_prog 50 "EventIdentifier" (mkst [] [x00; x07; xff; xff; x00] [] []) = (Exc StructError, s2).
Proof. eexists. vm_compute. reflexivity. Qed.

(** ** C15 *)
Theorem C15_trailing n c f s o s' t s1 : (fuel_ok <= n)%nat -> layout c = Some f -> load the_prog n c s = (Ok o, s') -> irest s1 = irest s ++ t ->
  exists o1 s1' W, load the_prog n c s1 = (Ok o1, s1') /\ contents the_prog (heap s') c f o = Some W /\ contents the_prog (heap s1') c f o1 = Some W /\
    irest s1' = irest s' ++ t.
Proof.
  intros Hn L E H1. destruct (load_inv n c f s o s' Hn L E) as (W & D & HW & _). apply decode_trailing with (t := t) in D.
  pose proof (load_layout n c f s1 Hn L) as H. rewrite H1, D in H. destruct H as (o1 & s1' & A & B & _ & R & _). exists o1, s1', W. auto.
Qed.

(** ** C16 *)
Theorem C16_unambiguous n c f s1 o1 W1 s2 o2 W2 b1 b2 : (fuel_ok <= n)%nat -> layout c = Some f ->
  contents the_prog (heap s1) c f o1 = Some W1 -> value_of f W1 -> contents the_prog (heap s2) c f o2 = Some W2 -> value_of f W2 ->
  serialize n o1 s1 = (Ok VNone, appended s1 b1) -> serialize n o2 s2 = (Ok VNone, appended s2 b2) ->
  forall t, b2 = b1 ++ t -> t = [] /\ W1 = W2.
Proof.
  intros Hn L H1 V1 H2 V2 E1 E2 t Ht. rewrite (ser_layout n c f o1 s1 W1 Hn L H1) in E1. rewrite (ser_layout n c f o2 s2 W2 Hn L H2) in E2.
  assert (forall x s b, (match snd (encode f x) with None => Ok VNone | Some e => Exc e end, appended s (fst (encode f x))) = (Ok VNone, appended s b) ->
    encode f x = (b, None)) as K.
  { intros x s b H. destruct (encode f x) as [y [e|]]; cbn [fst snd] in H; [discriminate|]. unfold appended in H. injection H as H. apply app_inv_head in H. now subst. }
  apply K in E1, E2. destruct (encode_prefix_free f W1 W2 b1 b2 t (layout_wf _ _ L) V1 V2 E1 E2 Ht). auto.
Qed.

(** ** C17 *)
Theorem C17_size n c f s o W bs : (fuel_ok <= n)%nat -> layout c = Some f -> contents the_prog (heap s) c f o = Some W ->
  serialize n o s = (Ok VNone, appended s bs) -> length bs = size f W.
Proof.
  intros Hn L H1 E1. rewrite (ser_layout n c f o s W Hn L H1) in E1. apply encode_size.
  destruct (encode f W) as [y [e|]]; cbn [fst snd] in E1; [discriminate|]. unfold appended in E1. injection E1 as E1. apply app_inv_head in E1. now subst.
Qed.

(** layouts without lists have one size *)
Fixpoint fixed (f : fmt) : option nat :=
  match f with
  | Done => Some 0%nat
  | Prim _ p k | Cnt _ p _ k | Zero p k => option_map (Nat.add (width p)) (fixed k)
  | Mask _ n k => option_map (Nat.add n) (fixed k)
  | Arr _ p n k => option_map (Nat.add (n * width p)) (fixed k)
  | Obj _ _ sub k => match fixed sub with Some x => option_map (Nat.add x) (fixed k) | None => None end
  | Bits bf k => option_map (Nat.add (bits_bytes bf)) (fixed k)
  | NullL _ k | Derive _ _ _ k => fixed k
  | PList _ _ _ | OList _ _ _ _ | VList _ _ _ _ _ | Pad _ _ => None
  end.

Lemma fixed_size f : forall k W, fixed f = Some k -> size f W = k.
Proof.
  induction f; intros x W H; cbn [fixed size] in *;
    try (destruct (fixed f) as [y|] eqn:E; cbn [option_map] in H; [|discriminate]; injection H as <-; now rewrite (IHf y W eq_refl)); try discriminate.
  - now injection H.
  - destruct (fixed f1) as [y|]; [|discriminate]. destruct (fixed f2) as [z|]; cbn [option_map] in H; [|discriminate]. injection H as <-.
    now rewrite (IHf1 y _ eq_refl), (IHf2 z _ eq_refl).
Qed.

Definition sizes : list (string * nat) :=
  [("EntityIdentifier", 6); ("EulerAngles", 12); ("EventIdentifier", 6); ("SimulationAddress", 4); ("Vector3Float", 12); ("WorldCoordinates", 24);
   ("BeamAntennaPattern", 40); ("NetId", 2); ("GenericRadio", 0); ("SimpleIntercomRadio", 0); ("BasicHaveQuickMP", 16); ("CCTTSincgarsMP", 16);
   ("DirectedEnergyTargetEnergyDeposition", 12); ("RadioIdentifier", 8); ("RequestID", 4); ("MunitionDescriptor", 16); ("MinefieldSensorType", 2); ("GroupID", 6);
   ("LayerHeader", 4); ("UnsignedDISInteger", 4); ("DeadReckoningParameters", 40); ("ProtocolMode", 2); ("AngleDeception", 48); ("EntityAssociation", 16);
   ("VectoringNozzleSystem", 8); ("FalseTargetsAttribute", 34); ("MinefieldIdentifier", 6); ("RadioType", 8); ("NamedLocationIdentification", 4);
   ("OwnershipStatus", 8); ("AttachedParts", 16); ("Attribute", 14); ("ArticulatedParts", 16); ("ObjectType", 4); ("Association", 32);
   ("RecordSpecificationElement", 15); ("AntennaLocation", 36); ("ObjectIdentifier", 6); ("AggregateIdentifier", 6); ("FixedDatum", 8); ("VariableParameter", 16);
   ("ChangeOptions", 0); ("LiveSimulationAddress", 2); ("EntityMarking", 12); ("UAFundamentalParameter", 20); ("ExplosionDescriptor", 16); ("ClockTime", 8);
   ("SecondaryOperationalData", 4); ("EnvironmentType", 8); ("TotalRecordSets", 4); ("MineEntityIdentifier", 6); ("Relationship", 4);
   ("EEFundamentalParameterData", 40); ("JammingTechnique", 4); ("Expendable", 16); ("IOCommunicationsNode", 16); ("LinearSegmentParameter", 64);
   ("SystemIdentifier", 6); ("TrackJamData", 8); ("AggregateType", 8); ("SimulationManagementPduHeader", 24); ("BeamData", 20); ("EngineFuel", 8); ("IOEffect", 16);
   ("SimulationIdentifier", 6); ("GridAxisDescriptorVariable", 40); ("SupplyQuantity", 12); ("SilentEntitySystem", 12); ("BlankingSector", 40);
   ("LaunchedMunitionRecord", 48); ("IFFFundamentalParameterData", 24); ("FundamentalOperationalData", 16); ("IntercomCommunicationsParameters", 8);
   ("EntityType", 8); ("Munition", 16); ("StandardVariableSpecification", 2); ("Vector2Float", 8); ("Environment", 8); ("AcousticEmitter", 4);
   ("AngularVelocityVector", 12); ("AggregateMarking", 32); ("DataFilterRecord", 4); ("IntercomIdentifier", 8); ("StorageFuel", 8); ("Sensor", 12);
   ("MunitionReload", 24); ("StorageFuelReload", 14); ("ExpendableReload", 24); ("EngineFuelReload", 19); ("UnattachedIdentifier", 6); ("EntityTypeVP", 16);
   ("BeamStatus", 1); ("EnvironmentGeneral", 9); ("GridAxis", 24); ("RecordSpecification", 4); ("EventIdentifierLiveEntity", 4); ("PduHeader", 12);
   ("CommunicationsNodeID", 8); ("ExpendableDescriptor", 16); ("PropulsionSystemData", 8); ("LiveEntityIdentifier", 4); ("SeparationVP", 16); ("EmitterSystem", 4);
   ("PduStatus", 1); ("RepairCompletePdu", 28); ("CollisionPdu", 60); ("RepairResponsePdu", 28); ("CreateEntityPdu", 28); ("IntercomSignalPdu", 32);
   ("RemoveEntityPdu", 28); ("ResupplyReceivedPdu", 28); ("CollisionElasticPdu", 100); ("AcknowledgePdu", 32); ("DesignatorPdu", 88); ("StopFreezePdu", 40);
   ("StartResumePdu", 44); ("PointObjectStatePdu", 88); ("AcknowledgeReliablePdu", 32); ("StartResumeReliablePdu", 48); ("RecordQueryReliablePdu", 42);
   ("FirePdu", 96); ("ReceiverPdu", 28); ("UaPdu", 32); ("RemoveEntityReliablePdu", 32); ("SeesPdu", 28); ("CreateEntityReliablePdu", 32);
   ("StopFreezeReliablePdu", 40); ("MinefieldResponseNackPdu", 26); ("IsPartOfPdu", 52)]%nat.

Theorem C17_fixed_sizes n c k s o f W bs : (fuel_ok <= n)%nat -> In (c, k) sizes -> layout c = Some f -> contents the_prog (heap s) c f o = Some W ->
  serialize n o s = (Ok VNone, appended s bs) -> length bs = k.
Proof.
  intros Hn Hk L H1 E1. rewrite (C17_size n c f s o W bs Hn L H1 E1). apply fixed_size.
  assert (Q : forallb (fun p => match layout (fst p) with Some f => match fixed f with Some x => Nat.eqb x (snd p) | None => false end | None => false end) sizes = true)
    by (vm_compute; reflexivity).
  rewrite forallb_forall in Q. specialize (Q _ Hk). cbn [fst snd] in Q. rewrite L in Q. destruct (fixed f); [|discriminate]. apply Nat.eqb_eq in Q. now subst.
Qed.

Theorem C17_entity_state n s o f W l bs : (fuel_ok <= n)%nat -> layout "EntityStatePdu" = Some f ->
  contents the_prog (heap s) "EntityStatePdu" f o = Some W -> field "variableParameters" W = Some (WList l) ->
  serialize n o s = (Ok VNone, appended s bs) -> length bs = (144 + 16 * length l)%nat.
Proof.
  intros Hn L H1 Hl E1. rewrite (C17_size n _ f s o W bs Hn L H1 E1). vm_compute in L. injection L as <-. cbn [size width]. unfold old_list. rewrite Hl.
  assert (E : sum (map (fun x => size w_VariableParameter (as_obj x)) l) = (16 * length l)%nat).
  { clear. induction l as [|x l IH]; [reflexivity|]. cbn [map sum fold_right length]. unfold sum in IH. rewrite IH.
    rewrite (fixed_size w_VariableParameter 16 _ eq_refl). lia. }
  change (sum _) with (sum (map (fun x => size w_VariableParameter (as_obj x)) l)). rewrite E. cbn. lia.
Qed.

(** ** C18 *)
(** the count fields: class, list attribute, bytes and signedness of the count, units per element (payloads are counted in bits) *)
Definition count_fields : list (string * (string * (nat * bool) * Z)) :=
  [("DataQueryDatumSpecification", ("fixedDatumIDs", (4%nat, false), 1)); ("DataQueryDatumSpecification", ("variableDatumIDs", (4%nat, false), 1));
   ("RecordQuerySpecification", ("recordIDs", (4%nat, false), 1)); ("DatumSpecification", ("fixedDatumRecords", (4%nat, false), 1));
   ("DatumSpecification", ("variableDatumRecords", (4%nat, false), 1)); ("GridAxisDescriptorVariable", ("xiValues", (2%nat, false), 1));
   ("SilentEntitySystem", ("appearanceRecordList", (2%nat, false), 1)); ("StandardVariableSpecification", ("standardVariables", (2%nat, false), 1));
   ("RecordSpecification", ("recordSets", (4%nat, false), 1)); ("EntityStateUpdatePdu", ("variableParameters", (1%nat, false), 1));
   ("ServiceRequestPdu", ("supplies", (1%nat, false), 1)); ("IntercomSignalPdu", ("data", (2%nat, false), 8));
   ("ResupplyReceivedPdu", ("supplies", (1%nat, false), 1)); ("EntityStatePdu", ("variableParameters", (1%nat, false), 1));
   ("ElectromagneticEmissionsPdu", ("systems", (1%nat, false), 1)); ("EmissionSystemBeamRecord", ("trackJamRecords", (1%nat, false), 1));
   ("EmissionSystemRecord", ("beamRecords", (1%nat, false), 1)); ("ResupplyOfferPdu", ("supplies", (1%nat, false), 1));
   ("FastEntityStatePdu", ("variableParameters", (1%nat, true), 1)); ("ArealObjectStatePdu", ("objectLocation", (2%nat, false), 1));
   ("MinefieldStatePdu", ("perimeterPoints", (1%nat, false), 1)); ("MinefieldStatePdu", ("mineTypes", (2%nat, false), 1));
   ("DetonationPdu", ("variableParameters", (1%nat, false), 1)); ("RecordQueryReliablePdu", ("recordIDs", (4%nat, false), 1));
   ("UaPdu", ("shaftRPMs", (1%nat, false), 1)); ("UaPdu", ("apaData", (1%nat, false), 1)); ("UaPdu", ("emitterSystems", (1%nat, false), 1));
   ("SignalPdu", ("data", (2%nat, false), 8)); ("SeesPdu", ("propulsionSystemData", (2%nat, false), 1));
   ("SeesPdu", ("vectoringSystemData", (2%nat, false), 1)); ("MinefieldResponseNackPdu", ("missingPduSequenceNumbers", (1%nat, false), 1))].

(** the fields of f before the count of list a, and those after it *)
Fixpoint split_cnt (a : string) (f : fmt) : option (fmt * prim * Z * fmt) :=
  let on g k := match split_cnt a k with Some (x, p, m, r) => Some (g x, p, m, r) | None => None end in
  match f with
  | Done => None
  | Cnt b p m k => if String.eqb a b then Some (Done, p, m, k) else on (Cnt b p m) k
  | Prim b p k => on (Prim b p) k
  | Obj b c sub k => on (Obj b c sub) k
  | PList b p k => on (PList b p) k
  | OList b c sub k => on (OList b c sub) k
  | Arr b p n k => on (Arr b p n) k
  | Zero p k => on (Zero p) k
  | Mask b n k => on (Mask b n) k
  | VList b p x dv k => on (VList b p x dv) k
  | Pad b k => on (Pad b) k
  | Derive b x d k => on (Derive b x d) k
  | Bits bf k => on (Bits bf) k
  | NullL b k => on (NullL b) k
  end.

Lemma split_cnt_ok a f : forall g p m r, split_cnt a f = Some (g, p, m, r) -> f = fapp g (Cnt a p m r).
Proof.
  induction f; intros g q z r H; cbn [split_cnt] in H; try discriminate;
    try (destruct (split_cnt a f) as [[[[x p'] m'] r']|] eqn:E; [injection H as <- <- <- <-; cbn [fapp]; f_equal; now apply IHf|discriminate]);
    try (destruct (split_cnt a f2) as [[[[x p'] m'] r']|] eqn:E; [injection H as <- <- <- <-; cbn [fapp]; f_equal; now apply IHf2|discriminate]).
  destruct (String.eqb_spec a a0) as [->|].
  - injection H as <- <- <- <-. reflexivity.
  - destruct (split_cnt a f) as [[[[x p'] m'] r']|] eqn:E; [injection H as <- <- <- <-; cbn [fapp]; f_equal; now apply IHf|discriminate].
Qed.

Definition count_ok (e : string * (string * (nat * bool) * Z)) : bool :=
  match e with
  | (c, (a, (k, sg), m)) =>
      match layout c with
      | Some f => match split_cnt a f with Some (_, PInt k' sg', m', _) => Nat.eqb k k' && Bool.eqb sg sg' && (m =? m') | _ => false end
      | None => false
      end
  end.
Lemma counts_ok : forallb count_ok count_fields = true. Proof. vm_compute. reflexivity. Qed.
(** no other layout has a count field *)
Fixpoint has_cnt (a : list string) (f : fmt) : bool :=
  match f with
  | Done => false
  | Cnt b _ _ k => negb (mem b a) || has_cnt a k
  | Prim _ _ k | Zero _ k | Mask _ _ k | Arr _ _ _ k | Obj _ _ _ k | Bits _ k | NullL _ k | Derive _ _ _ k | PList _ _ k | OList _ _ _ k | VList _ _ _ _ k | Pad _ k => has_cnt a k
  end.
Example counts_complete :
  forallb (fun c => match layout c with
                    | Some f => negb (has_cnt (map (fun e => fst (fst (snd e))) (filter (fun e => String.eqb (fst e) c) count_fields)) f)
                    | None => true end) wire_classes = true.
Proof. vm_compute. reflexivity. Qed.

(** [before] are the bytes of the fields that precede the count (of as many of them as are in range) *)
Theorem C18_counts n c f s o W a k sg m l : (fuel_ok <= n)%nat -> In (c, (a, (k, sg), m)) count_fields -> layout c = Some f ->
  contents the_prog (heap s) c f o = Some W -> field a W = Some (WList l) ->
  exists f1 f2, f = fapp f1 (Cnt a (PInt k sg) m f2) /\
    (forall bs, serialize n o s = (Ok VNone, appended s bs) ->
       in_range k sg (Z.of_nat (length l) * m) /\ exists before after, encode f1 W = (before, None) /\ bs = before ++ be k (Z.of_nat (length l) * m) ++ after) /\
    (forall before, encode f1 W = (before, None) -> ~ in_range k sg (Z.of_nat (length l) * m) -> serialize n o s = (Exc StructError, appended s before)).
Proof.
  intros Hn Hi L HW Hl. pose proof counts_ok as Q. rewrite forallb_forall in Q. specialize (Q _ Hi). unfold count_ok in Q. rewrite L in Q.
  destruct (split_cnt a f) as [[[[f1 p] m'] f2]|] eqn:E; [|discriminate]. destruct p as [k' sg'| |]; try discriminate.
  apply andb_prop in Q as [Q Q3]. apply andb_prop in Q as [Q1 Q2]. apply Nat.eqb_eq in Q1. apply eqb_prop in Q2. apply Z.eqb_eq in Q3. subst k' sg' m'.
  apply split_cnt_ok in E. exists f1, f2. split; [exact E|]. rewrite (ser_layout n c f o s W Hn L HW). rewrite E, encode_fapp.
  assert (ER : encode (Cnt a (PInt k sg) m f2) W = oseq (enc_val (PInt k sg) (WInt (Z.of_nat (length l) * m))) (encode f2 W)) by (cbn [encode]; now rewrite Hl).
  rewrite ER. unfold enc_val. cbn [enc_prim wint]. set (z := Z.of_nat (length l) * m). split.
  - intros bs H. destruct (encode f1 W) as [b1 [e|]]; unfold oseq in H; cbn [fst snd] in H; [discriminate|].
    destruct ((lo k sg <=? z) && (z <? hi k sg)) eqn:ER1; cbn [fst snd fail] in H; [|discriminate].
    split; [unfold in_range; unfold lo, hi in ER1; apply andb_prop in ER1 as [R1 R2]; apply Z.leb_le in R1; apply Z.ltb_lt in R2; destruct sg; lia|].
    exists b1, (fst (encode f2 W)). split; [reflexivity|]. destruct (snd (encode f2 W)); [discriminate|]. unfold appended in H. injection H as H.
    apply app_inv_head in H. now symmetry.
  - intros before H1 H2. rewrite H1. unfold oseq at 1. cbn [fst snd].
    destruct ((lo k sg <=? z) && (z <? hi k sg)) eqn:ER1.
    + destruct H2. unfold in_range. unfold lo, hi in ER1. apply andb_prop in ER1 as [R1 R2]. apply Z.leb_le in R1. apply Z.ltb_lt in R2. destruct sg; lia.
    + cbn [fst snd fail oseq]. now rewrite app_nil_r.
Qed.

(** an entity state PDU built with two variable parameters: byte 19 is 2; with 256 of them serialize raises *)
Definition ex_es (k : nat) : M val :=
  bind (new the_prog 20 "VariableParameter" []) (fun p => bind (halloc (HList (repeat p k))) (fun l => bind (new the_prog 20 "EntityStatePdu" []) (fun o =>
    match o with VRef x => bind (hget x) (fun ob => match ob with Some (HInst c at_) => bind (hset x (HInst c (upd "variableParameters" l at_))) (fun _ => ret o) | _ => ret o end) | _ => ret o end))).
Definition run2 (k : nat) : res val * list byte := let (r, s) := bind (ex_es k) (serialize 50) st0 in (r, out s).
Example C18_two : fst (run2 2) = Ok VNone /\ nth_error (snd (run2 2)) 19 = Some x02 /\ length (snd (run2 2)) = 176%nat.
Proof. vm_compute. auto. Qed.
Example C18_256 : fst (run2 256) = Exc StructError /\ length (snd (run2 256)) = 19%nat.
Proof. vm_compute. auto. Qed.

Definition all_PropCodec :=
  (C10_round_trip, C12_reencode, C12_stable, C12_length, C12_signalling_nan_refuted, C13_total, C14_truncated, C15_trailing, C16_unambiguous, C17_size, C17_fixed_sizes,
   C17_entity_state, C18_counts).
Print Assumptions all_PropCodec.
