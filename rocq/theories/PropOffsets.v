(** * Property C59: where the DIS standard puts each field

    The tables below give, for each PDU, the offset and type of its fields according to IEEE 1278.1-2012 (version 7).  They
    are written down by hand, and mention neither the layouts of [Layouts.v] nor the program. *)
From Coq Require Import ZArith String List Bool Lia.
From Coq Require Import Strings.Byte.
From Verif Require Import Lang Bytes Interp ProgDis Prog Spec Codec Codec2 Rep Dec StreamLem SerSound ParSound NewSound Layouts Refine Api Classes PropCodec PropFactory.
Import ListNotations.
Open Scope string_scope. Open Scope Z_scope. Open Scope list_scope.

(** ** The standard *)

(** a field: its offset, its type, and the attribute that holds it, as a path o.a1.a2... *)
Definition frow : Type := nat * prim * list string.

Definition at_ (off : nat) (rows : list frow) : list frow := map (fun r => ((off + fst (fst r))%nat, snd (fst r), snd r)) rows.
Definition of_ (a : string) (rows : list frow) : list frow := map (fun r => (fst r, a :: snd r)) rows.

Definition entity_id : list frow := [(0%nat, u16, ["simulationAddress"; "site"]); (2%nat, u16, ["simulationAddress"; "application"]); (4%nat, u16, ["entityNumber"])].
Definition event_id : list frow := [(0%nat, u16, ["simulationAddress"; "site"]); (2%nat, u16, ["simulationAddress"; "application"]); (4%nat, u16, ["eventNumber"])].
Definition vector3 : list frow := [(0%nat, f32, ["x"]); (4%nat, f32, ["y"]); (8%nat, f32, ["z"])].
Definition world : list frow := [(0%nat, f64, ["x"]); (8%nat, f64, ["y"]); (16%nat, f64, ["z"])].
Definition euler : list frow := [(0%nat, f32, ["psi"]); (4%nat, f32, ["theta"]); (8%nat, f32, ["phi"])].
Definition entity_type : list frow :=
  [(0%nat, u8, ["entityKind"]); (1%nat, u8, ["domain"]); (2%nat, u16, ["country"]); (4%nat, u8, ["category"]); (5%nat, u8, ["subcategory"]);
   (6%nat, u8, ["specific"]); (7%nat, u8, ["extra"])].
Definition object_type : list frow := [(0%nat, u8, ["domain"]); (1%nat, u8, ["objectKind"]); (2%nat, u8, ["category"]); (3%nat, u8, ["subcategory"])].
Definition simulation_address : list frow := [(0%nat, u16, ["site"]); (2%nat, u16, ["application"])].
Definition clock : list frow := [(0%nat, u32, ["hour"]); (4%nat, u32, ["timePastHour"])].
Definition munition : list frow :=
  of_ "munitionType" entity_type ++ [(8%nat, u16, ["warhead"]); (10%nat, u16, ["fuse"]); (12%nat, u16, ["quantity"]); (14%nat, u16, ["rate"])].

(** the header, then the two entity identifiers of the simulation management PDUs *)
Definition pdu_header : list frow :=
  [(0%nat, u8, ["protocolVersion"]); (1%nat, u8, ["exerciseID"]); (2%nat, u8, ["pduType"]); (3%nat, u8, ["protocolFamily"]); (4%nat, u32, ["timestamp"]);
   (8%nat, u16, ["length"]); (10%nat, u8, ["pduStatus"])].
Definition two (a b : string) : list frow := pdu_header ++ at_ 12 (of_ a entity_id) ++ at_ 18 (of_ b entity_id).
Definition siman : list frow := two "originatingEntityID" "receivingEntityID".

Record pdu_table := mkpdu {
  fixed_fields : list frow;
  count_fields_at : list (nat * prim * Z * list string);   (* offset, type, units per element, list *)
  arrays_at : list (nat * prim * nat * list string);       (* offset of the first element, type of the elements, their number, list *)
  records_at : list (nat * nat * string * list frow) }.    (* offset of the first record, bytes per record, list, the fields of a record *)

Definition plain (l : list frow) : pdu_table := mkpdu l [] [] [].

Definition variable_parameter : list frow := [(0%nat, u8, ["recordType"])].
Definition supply : list frow := of_ "supplyType" entity_type ++ [(8%nat, f32, ["quantity"])].
Definition datums (off : nat) (l : list frow) : pdu_table :=
  mkpdu l [(off, u32, 1, ["_datums"; "fixedDatumRecords"]); ((off + 4)%nat, u32, 1, ["_datums"; "variableDatumRecords"])] [] [].

Definition std : list (string * pdu_table) :=
  [("EntityStatePdu", mkpdu
      (pdu_header ++ at_ 12 (of_ "entityID" entity_id) ++ [(18%nat, u8, ["forceId"])] ++ at_ 20 (of_ "entityType" entity_type) ++
       at_ 28 (of_ "alternativeEntityType" entity_type) ++ at_ 36 (of_ "entityLinearVelocity" vector3) ++ at_ 48 (of_ "entityLocation" world) ++
       at_ 72 (of_ "entityOrientation" euler) ++ [(84%nat, u32, ["entityAppearance"]); (88%nat, u8, ["deadReckoningParameters"; "deadReckoningAlgorithm"])] ++
       at_ 104 (of_ "deadReckoningParameters" (of_ "entityLinearAcceleration" vector3)) ++
       at_ 116 (of_ "deadReckoningParameters" (of_ "entityAngularVelocity" vector3)) ++
       [(128%nat, u8, ["marking"; "characterSet"]); (140%nat, u32, ["capabilities"])])
      [(19%nat, u8, 1, ["variableParameters"])] [(89%nat, u8, 15%nat, ["deadReckoningParameters"; "parameters"]); (129%nat, i8, 11%nat, ["marking"; "characters"])]
      [(144%nat, 16%nat, "variableParameters", variable_parameter)]);
   ("EntityStateUpdatePdu", mkpdu
      (pdu_header ++ at_ 12 (of_ "entityID" entity_id) ++ at_ 20 (of_ "entityLinearVelocity" vector3) ++ at_ 32 (of_ "entityLocation" world) ++
       at_ 56 (of_ "entityOrientation" euler) ++ [(68%nat, u32, ["entityAppearance"])])
      [(19%nat, u8, 1, ["variableParameters"])] [] [(72%nat, 16%nat, "variableParameters", variable_parameter)]);
   ("CollisionPdu", plain
      (two "issuingEntityID" "collidingEntityID" ++ at_ 24 (of_ "eventID" event_id) ++ [(30%nat, u8, ["collisionType"])] ++ at_ 32 (of_ "velocity" vector3) ++
       [(44%nat, f32, ["mass"])] ++ at_ 48 (of_ "location" vector3)));
   ("CollisionElasticPdu", plain
      (two "issuingEntityID" "collidingEntityID" ++ at_ 24 (of_ "collisionEventID" event_id) ++ at_ 32 (of_ "contactVelocity" vector3) ++
       [(44%nat, f32, ["mass"])] ++ at_ 48 (of_ "locationOfImpact" vector3) ++
       [(60%nat, f32, ["collisionIntermediateResultXX"]); (64%nat, f32, ["collisionIntermediateResultXY"]); (68%nat, f32, ["collisionIntermediateResultXZ"]);
        (72%nat, f32, ["collisionIntermediateResultYY"]); (76%nat, f32, ["collisionIntermediateResultYZ"]); (80%nat, f32, ["collisionIntermediateResultZZ"])] ++
       at_ 84 (of_ "unitSurfaceNormal" vector3) ++ [(96%nat, f32, ["coefficientOfRestitution"])]));
   ("FirePdu", plain
      (two "firingEntityID" "targetEntityID" ++ at_ 24 (of_ "munitionExpendableID" entity_id) ++ at_ 30 (of_ "eventID" event_id) ++
       [(36%nat, u32, ["fireMissionIndex"])] ++ at_ 40 (of_ "location" world) ++ at_ 64 (of_ "descriptor" munition) ++ at_ 80 (of_ "velocity" vector3) ++
       [(92%nat, f32, ["range"])]));
   ("DetonationPdu", mkpdu
      (two "firingEntityID" "targetEntityID" ++ at_ 24 (of_ "explodingEntityID" entity_id) ++ at_ 30 (of_ "eventID" event_id) ++ at_ 36 (of_ "velocity" vector3) ++
       at_ 48 (of_ "location" world) ++ at_ 72 (of_ "descriptor" munition) ++ at_ 88 (of_ "locationInEntityCoordinates" vector3) ++
       [(100%nat, u8, ["detonationResult"])])
      [(101%nat, u8, 1, ["variableParameters"])] [] [(104%nat, 16%nat, "variableParameters", variable_parameter)]);
   ("ServiceRequestPdu", mkpdu (two "requestingEntityID" "servicingEntityID" ++ [(24%nat, u8, ["serviceTypeRequested"])])
      [(25%nat, u8, 1, ["supplies"])] [] [(28%nat, 12%nat, "supplies", supply)]);
   ("ResupplyOfferPdu", mkpdu (two "receivingEntityID" "supplyingEntityID") [(24%nat, u8, 1, ["supplies"])] [] [(28%nat, 12%nat, "supplies", supply)]);
   ("RepairCompletePdu", plain (two "receivingEntityID" "repairingEntityID" ++ [(24%nat, u16, ["repair"])]));
   ("RepairResponsePdu", plain (two "receivingEntityID" "repairingEntityID" ++ [(24%nat, u8, ["repairResult"])]));
   ("CreateEntityPdu", plain (siman ++ [(24%nat, u32, ["requestID"])]));
   ("RemoveEntityPdu", plain (siman ++ [(24%nat, u32, ["requestID"])]));
   ("StartResumePdu", plain (siman ++ at_ 24 (of_ "realWorldTime" clock) ++ at_ 32 (of_ "simulationTime" clock) ++ [(40%nat, u32, ["requestID"])]));
   ("StopFreezePdu", plain (siman ++ at_ 24 (of_ "realWorldTime" clock) ++ [(32%nat, u8, ["reason"]); (33%nat, u8, ["frozenBehavior"]); (36%nat, u32, ["requestID"])]));
   ("AcknowledgePdu", plain (siman ++ [(24%nat, u16, ["acknowledgeFlag"]); (26%nat, u16, ["responseFlag"]); (28%nat, u32, ["requestID"])]));
   ("ActionRequestPdu", datums 32 (siman ++ [(24%nat, u32, ["requestID"]); (28%nat, u32, ["actionID"])]));
   ("ActionResponsePdu", datums 32 (siman ++ [(24%nat, u32, ["requestID"]); (28%nat, u32, ["requestStatus"])]));
   ("DataQueryPdu", mkpdu (siman ++ [(24%nat, u32, ["requestID"]); (28%nat, u32, ["timeInterval"])])
      [(32%nat, u32, 1, ["_dataQuery"; "fixedDatumIDs"]); (36%nat, u32, 1, ["_dataQuery"; "variableDatumIDs"])] [] []);
   ("SetDataPdu", datums 32 (siman ++ [(24%nat, u32, ["requestID"])]));
   ("DataPdu", datums 32 (siman ++ [(24%nat, u32, ["requestID"])]));
   ("EventReportPdu", datums 32 (siman ++ [(24%nat, u32, ["eventType"])]));
   ("CommentPdu", datums 24 siman);
   ("ElectromagneticEmissionsPdu", mkpdu
      (pdu_header ++ at_ 12 (of_ "emittingEntityID" entity_id) ++ at_ 18 (of_ "eventID" event_id) ++ [(24%nat, u8, ["stateUpdateIndicator"])])
      [(25%nat, u8, 1, ["systems"])] [] []);
   ("EmissionSystemRecord", mkpdu
      ([(0%nat, u8, ["systemDataLength"]); (4%nat, u16, ["emitterSystem"; "emitterName"]); (6%nat, u8, ["emitterSystem"; "emitterFunction"]);
        (7%nat, u8, ["emitterSystem"; "emitterIDNumber"])] ++ at_ 8 (of_ "location" vector3))
      [(1%nat, u8, 1, ["beamRecords"])] [] []);
   ("EmissionSystemBeamRecord", mkpdu
      ([(0%nat, u8, ["beamDataLength"]); (1%nat, u8, ["beamIDNumber"]); (2%nat, u16, ["beamParameterIndex"])] ++
       at_ 4 (of_ "fundamentalParameterData"
         [(0%nat, f32, ["frequency"]); (4%nat, f32, ["frequencyRange"]); (8%nat, f32, ["effectiveRadiatedPower"]); (12%nat, f32, ["pulseRepetitionFrequency"]);
          (16%nat, f32, ["pulseWidth"]); (20%nat, f32, ["beamAzimuthCenter"]); (24%nat, f32, ["beamAzimuthSweep"]); (28%nat, f32, ["beamElevationCenter"]);
          (32%nat, f32, ["beamElevationSweep"]); (36%nat, f32, ["beamSweepSync"])]) ++
       [(44%nat, u8, ["beamFunction"]); (46%nat, u8, ["highDensityTrackJam"]); (48%nat, u32, ["jammingModeSequence"])])
      [(45%nat, u8, 1, ["trackJamRecords"])] []
      [(52%nat, 8%nat, "trackJamRecords", of_ "entityID" entity_id ++ [(6%nat, u8, ["emitterNumber"]); (7%nat, u8, ["beamNumber"])])]);
   ("DesignatorPdu", plain
      (pdu_header ++ at_ 12 (of_ "designatingEntityID" entity_id) ++ [(18%nat, u16, ["codeName"])] ++ at_ 20 (of_ "designatedEntityID" entity_id) ++
       [(26%nat, u16, ["designatorCode"]); (28%nat, f32, ["designatorPower"]); (32%nat, f32, ["designatorWavelength"])] ++
       at_ 36 (of_ "designatorSpotWrtDesignated" vector3) ++ at_ 48 (of_ "designatorSpotLocation" world) ++ at_ 76 (of_ "entityLinearAcceleration" vector3)));
   ("SignalPdu", mkpdu
      (pdu_header ++ at_ 12 (of_ "entityID" entity_id) ++
       [(18%nat, u16, ["radioID"]); (20%nat, u16, ["encodingScheme"]); (22%nat, u16, ["tdlType"]); (24%nat, u32, ["sampleRate"]); (30%nat, u16, ["samples"])])
      [(28%nat, u16, 8, ["data"])] [] []);
   ("UaPdu", mkpdu
      (pdu_header ++ at_ 12 (of_ "emittingEntityID" entity_id) ++ at_ 18 (of_ "eventID" event_id) ++
       [(26%nat, u16, ["passiveParameterIndex"]); (28%nat, u8, ["propulsionPlantConfiguration"])])
      [(29%nat, u8, 1, ["shaftRPMs"]); (30%nat, u8, 1, ["apaData"]); (31%nat, u8, 1, ["emitterSystems"])] [] []);
   ("SeesPdu", mkpdu
      (pdu_header ++ at_ 12 (of_ "orginatingEntityID" entity_id) ++
       [(18%nat, u16, ["infraredSignatureRepresentationIndex"]); (20%nat, u16, ["acousticSignatureRepresentationIndex"]);
        (22%nat, u16, ["radarCrossSectionSignatureRepresentationIndex"])])
      [(24%nat, u16, 1, ["propulsionSystemData"]); (26%nat, u16, 1, ["vectoringSystemData"])] [] []);
   ("IsPartOfPdu", plain
      (two "orginatingEntityID" "receivingEntityID" ++ [(24%nat, u16, ["relationship"; "nature"]); (26%nat, u16, ["relationship"; "position"])] ++
       at_ 28 (of_ "partLocation" vector3) ++ [(40%nat, u16, ["namedLocationID"; "stationName"]); (42%nat, u16, ["namedLocationID"; "stationNumber"])] ++
       at_ 44 (of_ "partEntityType" entity_type)));
   ("MinefieldStatePdu", mkpdu
      (pdu_header ++ [(12%nat, u16, ["minefieldID"; "simulationAddress"; "site"]); (14%nat, u16, ["minefieldID"; "simulationAddress"; "application"]);
        (16%nat, u16, ["minefieldID"; "minefieldNumber"]); (18%nat, u16, ["minefieldSequence"]); (20%nat, u8, ["forceID"])] ++
       at_ 22 (of_ "minefieldType" entity_type) ++ at_ 32 (of_ "minefieldLocation" world) ++ at_ 56 (of_ "minefieldOrientation" euler) ++
       [(68%nat, u16, ["appearance"])])
      [(21%nat, u8, 1, ["perimeterPoints"]); (30%nat, u16, 1, ["mineTypes"])] [] [(72%nat, 8%nat, "perimeterPoints", [(0%nat, f32, ["x"]); (4%nat, f32, ["y"])])]);
   ("CreateEntityReliablePdu", plain (siman ++ [(24%nat, u8, ["requiredReliabilityService"]); (28%nat, u32, ["requestID"])]));
   ("RemoveEntityReliablePdu", plain (siman ++ [(24%nat, u8, ["requiredReliabilityService"]); (28%nat, u32, ["requestID"])]));
   ("StartResumeReliablePdu", plain
      (siman ++ at_ 24 (of_ "realWorldTime" clock) ++ at_ 32 (of_ "simulationTime" clock) ++ [(40%nat, u8, ["requiredReliabilityService"]); (44%nat, u32, ["requestID"])]));
   ("StopFreezeReliablePdu", plain
      (siman ++ at_ 24 (of_ "realWorldTime" clock) ++
       [(32%nat, u8, ["reason"]); (33%nat, u8, ["frozenBehavior"]); (34%nat, u8, ["requiredReliablityService"]); (36%nat, u32, ["requestID"])]));
   ("AcknowledgeReliablePdu", plain (siman ++ [(24%nat, u16, ["acknowledgeFlag"]); (26%nat, u16, ["responseFlag"]); (28%nat, u32, ["requestID"])]));
   ("ActionRequestReliablePdu", datums 40 (siman ++ [(24%nat, u8, ["requiredReliabilityService"]); (28%nat, u32, ["requestID"]); (32%nat, u32, ["actionID"])]));
   ("ActionResponseReliablePdu", datums 32 (siman ++ [(24%nat, u32, ["requestID"]); (28%nat, u32, ["responseStatus"])]));
   ("DataQueryReliablePdu", mkpdu
      (siman ++ [(24%nat, u8, ["requiredReliabilityService"]); (28%nat, u32, ["requestID"]); (32%nat, u32, ["timeInterval"])])
      [(36%nat, u32, 1, ["_dataQuery"; "fixedDatumIDs"]); (40%nat, u32, 1, ["_dataQuery"; "variableDatumIDs"])] [] []);
   ("SetDataReliablePdu", datums 32 (siman ++ [(24%nat, u8, ["requiredReliabilityService"]); (28%nat, u32, ["requestID"])]));
   ("DataReliablePdu", datums 32 (siman ++ [(24%nat, u32, ["requestID"]); (28%nat, u8, ["requiredReliabilityService"])]));
   ("CommentReliablePdu", datums 24 siman);
   ("ResupplyReceivedPdu", mkpdu (two "receivingEntityID" "supplyingEntityID") [(24%nat, u8, 1, ["supplies"])] [] []);
   ("IntercomSignalPdu", mkpdu
      (pdu_header ++ at_ 12 (of_ "entityID" entity_id) ++
       [(18%nat, u16, ["communicationsDeviceID"]); (20%nat, u16, ["encodingScheme"]); (22%nat, u16, ["tdlType"]); (24%nat, u32, ["sampleRate"]); (30%nat, u16, ["samples"])])
      [(28%nat, u16, 8, ["data"])] [] []);
   ("MinefieldResponseNackPdu", mkpdu (two "minefieldID" "requestingEntityID" ++ [(24%nat, u8, ["requestID"])])
      [(25%nat, u8, 1, ["missingPduSequenceNumbers"])] [] []);
   ("PointObjectStatePdu", plain
      (two "objectID" "referencedObjectID" ++ [(24%nat, u16, ["updateNumber"]); (26%nat, u8, ["forceID"]); (27%nat, u8, ["modifications"])] ++
       at_ 28 (of_ "objectType" object_type) ++ at_ 32 (of_ "objectLocation" world) ++ at_ 56 (of_ "objectOrientation" euler) ++
       at_ 76 (of_ "requesterID" simulation_address) ++ at_ 80 (of_ "receivingID" simulation_address)));
   ("ArealObjectStatePdu", mkpdu
      (two "objectID" "referencedObjectID" ++ [(24%nat, u16, ["updateNumber"]); (26%nat, u8, ["forceID"]); (27%nat, u8, ["modifications"])] ++
       at_ 28 (of_ "objectType" object_type) ++ [(32%nat, u32, ["specificObjectAppearance"]); (36%nat, u16, ["generalObjectAppearance"])] ++
       at_ 40 (of_ "requesterID" simulation_address) ++ at_ 44 (of_ "receivingID" simulation_address))
      [(38%nat, u16, 1, ["objectLocation"])] [] [(48%nat, 24%nat, "objectLocation", world)])].

(** ** What it means for a table to hold *)

(** o.a1.a2. ... *)
Fixpoint walk (path : list string) (W : flds) : option wv :=
  match path with
  | [] => None
  | a :: r => match r, field a W with
              | [], x => x
              | _, Some (WObj w) => walk r w
              | _, _ => None
              end
  end.

(** n bytes from offset o *)
Definition slice (o n : nat) (bs : list byte) : list byte := firstn n (skipn o bs).

(** the bytes at offset off are those of x as a field of type p: big-endian, IEEE 754 ([enc_prim], [Spec.v]) *)
Definition holds_at_offset (p : prim) (off : nat) (bs : list byte) (x : wv) : Prop := enc_prim p x = inl (slice off (width p) bs).

Definition field_holds (bs : list byte) (W : flds) (r : frow) : Prop :=
  let '(off, p, path) := r in exists x, walk path W = Some x /\ holds_at_offset p off bs x.

Definition table_holds (t : pdu_table) (bs : list byte) (W : flds) : Prop :=
  Forall (field_holds bs W) (fixed_fields t) /\
  (forall off p m path, In (off, p, m, path) (count_fields_at t) ->
     exists l, walk path W = Some (WList l) /\ holds_at_offset p off bs (WInt (Z.of_nat (length l) * m))) /\
  (forall off p n path, In (off, p, n, path) (arrays_at t) ->
     exists l, walk path W = Some (WList l) /\ forall i, (i < n)%nat -> exists x, nth_error l i = Some x /\ holds_at_offset p (off + i * width p) bs x) /\
  (forall off z a rows, In (off, z, a, rows) (records_at t) ->
     exists l, walk [a] W = Some (WList l) /\ (off + length l * z <= length bs)%nat /\
       forall i x, nth_error l i = Some x -> Forall (field_holds (slice (off + i * z) z bs) (as_obj x)) rows).

(** ** The offsets of a layout *)
Inductive item :=
| IField (p : prim)
| ICount (p : prim) (m : Z)
| IArray (p : prim) (n : nat)
| IRecords (sub : fmt).

Definition under (a : string) (e : list string * nat * item) : list string * nat * item := let '(path, off, i) := e in (a :: path, off, i).

Fixpoint entries (f : fmt) (off : nat) : list (list string * nat * item) :=
  match f with
  | Done => []
  | Prim a p k => ([a], off, IField p) :: entries k (off + width p)
  | Obj a _ sub k => map (under a) (entries sub off) ++ match fixed sub with Some n => entries k (off + n) | None => [] end
  | Cnt a p m k => ([a], off, ICount p m) :: entries k (off + width p)
  | OList a _ sub _ => [([a], off, IRecords sub)]
  | Arr a p n k => ([a], off, IArray p n) :: entries k (off + n * width p)
  | Zero p k => entries k (off + width p)
  | Mask _ n k => entries k (off + n)
  | Bits bf k => entries k (off + bits_bytes bf)
  | Derive _ _ _ k | NullL _ k => entries k off
  | PList _ _ _ | VList _ _ _ _ _ | Pad _ _ => []
  end.

Definition item_holds (bs : list byte) (W : flds) (e : list string * nat * item) : Prop :=
  let '(path, off, i) := e in
  match i with
  | IField p => exists x, walk path W = Some x /\ holds_at_offset p off bs x
  | ICount p m => exists l, walk path W = Some (WList l) /\ holds_at_offset p off bs (WInt (Z.of_nat (length l) * m))
  | IArray p n => exists l, walk path W = Some (WList l) /\ forall i, (i < n)%nat -> exists x, nth_error l i = Some x /\ holds_at_offset p (off + i * width p) bs x
  | IRecords sub => exists l, walk path W = Some (WList l) /\ forall z, fixed sub = Some z ->
      (off + length l * z <= length bs)%nat /\ forall i x, nth_error l i = Some x -> encode sub (as_obj x) = (slice (off + i * z) z bs, None)
  end.

Lemma slice_mid b a c : slice (length b) (length a) (b ++ a ++ c) = a.
Proof. unfold slice. rewrite skipn_app, skipn_all, Nat.sub_diag. cbn [app skipn]. rewrite firstn_app, firstn_all, Nat.sub_diag. cbn [firstn]. apply app_nil_r. Qed.

Lemma slice_at b a c o n : length b = o -> length a = n -> slice o n (b ++ a ++ c) = a.
Proof. intros <- <-. apply slice_mid. Qed.

Lemma val_slice p x b a c o : enc_val p x = (a, None) -> length b = o -> holds_at_offset p o (b ++ a ++ c) x.
Proof.
  intros E Hb. unfold holds_at_offset. rewrite slice_at; [|exact Hb|exact (enc_val_length _ _ _ E)]. now apply enc_val_ok in E.
Qed.

Lemma idx_slice p n : forall l b a c o, enc_idx (enc_val p) l n = (a, None) -> length b = o ->
  forall i, (i < n)%nat -> exists x, nth_error l i = Some x /\ holds_at_offset p (o + i * width p) (b ++ a ++ c) x.
Proof.
  induction n as [|n IH]; intros l b a c o E Hb i Hi; [lia|]. cbn [enc_idx] in E. destruct l as [|x l]; [discriminate|].
  apply oseq_ok in E as (b1 & b2 & E1 & E2 & ->). destruct i as [|i].
  - exists x. split; [reflexivity|]. rewrite <- app_assoc. replace (o + 0 * width p)%nat with o by lia. now apply val_slice.
  - destruct (IH l (b ++ b1) b2 c (o + width p)%nat E2) with (i := i) as (y & Hy & K); [rewrite app_length, (enc_val_length _ _ _ E1); lia|lia|].
    exists y. split; [exact Hy|]. replace (o + S i * width p)%nat with (o + width p + i * width p)%nat by lia.
    rewrite <- !app_assoc in *. exact K.
Qed.

Lemma list_slice f z : fixed f = Some z -> forall l b a c o, enc_list (fun x => encode f (as_obj x)) l = (a, None) -> length b = o ->
  length a = (length l * z)%nat /\ forall i x, nth_error l i = Some x -> encode f (as_obj x) = (slice (o + i * z) z (b ++ a ++ c), None).
Proof.
  intros Hz. induction l as [|y l IH]; intros b a c o E Hb.
  - cbn [enc_list] in E. injection E as <-. split; [reflexivity|]. intros [|i] x H; discriminate.
  - cbn [enc_list] in E. apply oseq_ok in E as (b1 & b2 & E1 & E2 & ->).
    assert (L1 : length b1 = z) by (rewrite (encode_size _ _ _ E1); now apply fixed_size).
    destruct (IH (b ++ b1) b2 c (o + z)%nat E2) as [L2 K]; [rewrite app_length; lia|]. split; [rewrite app_length; cbn [length]; lia|].
    intros [|i] x H; cbn [nth_error] in H.
    + injection H as <-. rewrite <- app_assoc. replace (o + 0 * z)%nat with o by lia. now rewrite slice_at.
    + specialize (K i x H). rewrite <- !app_assoc in *. replace (o + S i * z)%nat with (o + z + i * z)%nat by lia. exact K.
Qed.

Lemma item_under a w bs W e : field a W = Some (WObj w) -> item_holds bs w e -> item_holds bs W (under a e).
Proof.
  intros Ha. destruct e as [[path off] i]. cbn [under item_holds].
  assert (K : forall x, walk path w = Some x -> walk (a :: path) W = Some x). { intros x Hx. destruct path as [|b r]; [discriminate|]. cbn [walk] in *. now rewrite Ha. }
  destruct i; intros (x & Hx & H); exists x; split; auto.
Qed.

Theorem entries_hold f : forall W b a c off, encode f W = (a, None) -> length b = off -> Forall (item_holds (b ++ a ++ c) W) (entries f off).
Proof.
  induction f as [|a p k IH|a c sub IHs k IH|a p m k IH|a p k IH|a c sub IHs k IH|a p n k IH|p k IH|a n k IH
                 |a p b dv k IH|b k IH|a b d k IH|bf k IH|a k IH]; intros W b0 a0 c0 off E Hb; cbn [entries encode] in *.
  - constructor.
  - destruct (field a W) as [x|] eqn:Ha; [|discriminate]. apply oseq_ok in E as (b1 & b2 & E1 & E2 & ->). rewrite <- app_assoc. constructor.
    + exists x. split; [exact Ha|]. now apply val_slice.
    + rewrite app_assoc. apply IH; [exact E2|]. rewrite app_length, (enc_val_length _ _ _ E1). lia.
  - destruct (field a W) as [[| | | | | | |w]|] eqn:Ha; try discriminate. apply oseq_ok in E as (b1 & b2 & E1 & E2 & ->). rewrite <- app_assoc. apply Forall_app. split.
    + apply Forall_map. specialize (IHs w b0 b1 (b2 ++ c0) off E1 Hb). revert IHs. apply Forall_impl. intros e. now apply item_under.
    + destruct (fixed sub) as [z|] eqn:Hz; [|constructor]. rewrite app_assoc. apply IH; [exact E2|].
      rewrite app_length, (encode_size _ _ _ E1), (fixed_size _ _ _ Hz). lia.
  - destruct (field a W) as [[| | | | | |l|]|] eqn:Ha; try discriminate. apply oseq_ok in E as (b1 & b2 & E1 & E2 & ->). rewrite <- app_assoc. constructor.
    + exists l. split; [exact Ha|]. now apply val_slice.
    + rewrite app_assoc. apply IH; [exact E2|]. rewrite app_length, (enc_val_length _ _ _ E1). lia.
  - constructor.
  - destruct (field a W) as [[| | | | | |l|]|] eqn:Ha; try discriminate. apply oseq_ok in E as (b1 & b2 & E1 & E2 & ->). rewrite <- app_assoc. constructor; [|constructor].
    exists l. split; [exact Ha|]. intros z Hz. destruct (list_slice sub z Hz l b0 b1 (b2 ++ c0) off E1 Hb) as [L K]. split; [|exact K]. rewrite !app_length. lia.
  - destruct (field a W) as [[| | | | | |l|]|] eqn:Ha; try discriminate. apply oseq_ok in E as (b1 & b2 & E1 & E2 & ->). rewrite <- app_assoc. constructor.
    + exists l. split; [exact Ha|]. now apply idx_slice with (n := n).
    + rewrite app_assoc. apply IH; [exact E2|]. pose proof (enc_idx_length (enc_val p) n l b1 (width p) (enc_val_length p) E1) as EL. rewrite app_length, EL. lia.
  - apply oseq_ok in E as (b1 & b2 & E1 & E2 & ->). rewrite <- app_assoc, app_assoc. apply IH; [exact E2|]. rewrite app_length, (enc_val_length _ _ _ E1). lia.
  - destruct (field a W) as [x|]; [|discriminate]. destruct (wint x); [|destruct x; discriminate].
    apply oseq_ok in E as (b1 & b2 & E1 & E2 & ->). rewrite <- app_assoc, app_assoc. apply IH; [exact E2|]. rewrite app_length, (enc_val_length _ _ _ E1). cbn [width]. lia.
  - constructor.
  - constructor.
  - now apply IH.
  - destruct (enc_bits bf W) as [u|]; [|discriminate]. apply oseq_ok in E as (b1 & b2 & [= <-] & E2 & ->). rewrite <- app_assoc, app_assoc.
    apply IH; [exact E2|]. rewrite app_length, be_length. lia.
  - destruct (field a W) as [[| | | | | |[|? ?]|]|]; try discriminate. now apply IH.
Qed.

(** ** Checking the tables against the layouts *)
Definition prim_eqb (p q : prim) : bool :=
  match p, q with PInt n s, PInt m t => Nat.eqb n m && Bool.eqb s t | PF32, PF32 | PF64, PF64 => true | _, _ => false end.
Lemma prim_eqb_eq p q : prim_eqb p q = true -> p = q.
Proof. destruct p, q; try discriminate; try reflexivity. cbn. intros H. apply andb_prop in H as [A B]. apply Nat.eqb_eq in A. apply eqb_prop in B. now subst. Qed.
Fixpoint path_eqb (x y : list string) : bool :=
  match x, y with [], [] => true | a :: r, b :: s => String.eqb a b && path_eqb r s | _, _ => false end.
Lemma path_eqb_eq x : forall y, path_eqb x y = true -> x = y.
Proof. induction x as [|a r IH]; destruct y as [|b s]; try discriminate; [reflexivity|]. cbn. intros H. apply andb_prop in H as [A B]. apply String.eqb_eq in A. subst. f_equal. auto. Qed.

Definition find_item (E : list (list string * nat * item)) (path : list string) (off : nat) (chk : item -> bool) : bool :=
  existsb (fun e => let '(q, o, i) := e in path_eqb path q && Nat.eqb off o && chk i) E.
Lemma find_item_in E path off chk : find_item E path off chk = true -> exists i, In (path, off, i) E /\ chk i = true.
Proof.
  unfold find_item. intros H. apply existsb_exists in H as ([[q o] i] & Hi & H). apply andb_prop in H as [H C]. apply andb_prop in H as [A B].
  apply path_eqb_eq in A. apply Nat.eqb_eq in B. subst. eauto.
Qed.

Definition row_ok (E : list (list string * nat * item)) (r : frow) : bool :=
  find_item E (snd r) (fst (fst r)) (fun i => match i with IField p => prim_eqb p (snd (fst r)) | _ => false end).

Definition table_ok (t : pdu_table) (f : fmt) : bool :=
  let E := entries f 0 in
  forallb (row_ok E) (fixed_fields t) &&
  forallb (fun r => let '(off, p, m, path) := r in find_item E path off (fun i => match i with ICount q m' => prim_eqb q p && (m =? m') | _ => false end)) (count_fields_at t) &&
  forallb (fun r => let '(off, p, n, path) := r in find_item E path off (fun i => match i with IArray q n' => prim_eqb q p && Nat.eqb n n' | _ => false end)) (arrays_at t) &&
  forallb (fun r => let '(off, z, a, rows) := r in find_item E [a] off (fun i => match i with
    | IRecords sub => match fixed sub with Some z' => Nat.eqb z z' && forallb (row_ok (entries sub 0)) rows | None => false end | _ => false end)) (records_at t).

Lemma rows_hold f W bs l : encode f W = (bs, None) -> forallb (row_ok (entries f 0)) l = true -> Forall (field_holds bs W) l.
Proof.
  intros E H. rewrite forallb_forall in H. apply Forall_forall. intros [[off p] path] Hr. specialize (H _ Hr). unfold row_ok in H. cbn [fst snd] in H.
  apply find_item_in in H as (i & Hi & C). destruct i as [q| | |]; try discriminate. apply prim_eqb_eq in C. subst q.
  pose proof (entries_hold f W [] bs [] 0 E eq_refl) as K. rewrite Forall_forall in K. specialize (K _ Hi). cbn [app item_holds] in K. now rewrite app_nil_r in K.
Qed.

Lemma table_ok_holds t f W bs : table_ok t f = true -> encode f W = (bs, None) -> table_holds t bs W.
Proof.
  intros T E. unfold table_ok in T. apply andb_prop in T as [T T4]. apply andb_prop in T as [T T3]. apply andb_prop in T as [T1 T2].
  pose proof (entries_hold f W [] bs [] 0 E eq_refl) as K. rewrite Forall_forall in K. cbn [app] in K. rewrite app_nil_r in K.
  rewrite forallb_forall in T2, T3, T4. split; [now apply rows_hold with f|]. split; [|split].
  - intros off p m path Hr. specialize (T2 _ Hr). cbv beta iota in T2. apply find_item_in in T2 as (i & Hi & C). destruct i as [|q m'| |]; try discriminate.
    apply andb_prop in C as [C1 C2]. apply prim_eqb_eq in C1. apply Z.eqb_eq in C2. subst. exact (K _ Hi).
  - intros off p n path Hr. specialize (T3 _ Hr). cbv beta iota in T3. apply find_item_in in T3 as (i & Hi & C). destruct i as [| |q n'|]; try discriminate.
    apply andb_prop in C as [C1 C2]. apply prim_eqb_eq in C1. apply Nat.eqb_eq in C2. subst. exact (K _ Hi).
  - intros off z a rows Hr. specialize (T4 _ Hr). cbv beta iota in T4. apply find_item_in in T4 as (i & Hi & C). destruct i as [| | |sub]; try discriminate.
    destruct (fixed sub) as [z'|] eqn:Hz; [|discriminate]. apply andb_prop in C as [C1 C2]. apply Nat.eqb_eq in C1. subst z'.
    destruct (K _ Hi) as (l & Hl & Q). destruct (Q z Hz) as [Q1 Q2]. exists l. split; [exact Hl|]. split; [exact Q1|].
    intros i x Hx. exact (rows_hold sub _ _ rows (Q2 i x Hx) C2).
Qed.

Lemma std_ok : forallb (fun e => match layout (fst e) with Some f => table_ok (snd e) f | None => false end) std = true.
Proof. vm_compute. reflexivity. Qed.

Theorem C59_offsets_partial n c t f s o W bs : (fuel_ok <= n)%nat -> In (c, t) std -> layout c = Some f -> contents the_prog (heap s) c f o = Some W ->
  serialize n o s = (Ok VNone, appended s bs) -> table_holds t bs W.
Proof.
  intros Hn Hi L HW E. pose proof std_ok as Q. rewrite forallb_forall in Q. specialize (Q _ Hi). cbn [fst snd] in Q. rewrite L in Q.
  rewrite (ser_layout n c f o s W Hn L HW) in E. destruct (encode f W) as [b1 [e|]] eqn:Ee; cbn [fst snd] in E; [discriminate|].
  unfold appended in E. injection E as E. apply app_inv_head in E. subst b1. now apply table_ok_holds with f.
Qed.

(** ** Reading *)

(** decoding a layout of fixed size takes that many bytes *)
Lemma dec_vals_take p n : forall bs l r, dec_list (dec_val p) n bs = DOk l r -> length bs = (n * width p + length r)%nat.
Proof.
  induction n as [|n IH]; intros bs l r H; cbn [dec_list] in H; [injection H as _ <-; lia|]. unfold dbind, dmap in H.
  destruct (dec_val p bs) as [x r1|] eqn:E; [|discriminate]. destruct (dec_list (dec_val p) n r1) as [l1 r2|] eqn:E1; [|discriminate]. injection H as _ <-.
  apply dec_val_inv in E as (c & -> & L & _). rewrite app_length, L, (IH _ _ _ E1). lia.
Qed.

Lemma fixed_take f : forall z W0 C bs W r, fixed f = Some z -> decode f W0 C bs = DOk W r -> length bs = (z + length r)%nat.
Proof.
  induction f as [|a p k IH|a c sub IHs k IH|a p m k IH|a p k IH|a c sub IHs k IH|a p n k IH|p k IH|a n k IH
                 |a p b dv k IH|b k IH|a b d k IH|bf k IH|a k IH]; intros z W0 C bs W r Hz H; cbn [fixed decode] in *; try discriminate; unfold dbind, dmap in H;
    try (destruct (fixed k) as [y|] eqn:Hy; cbn [option_map] in Hz; [|discriminate]; injection Hz as <-).
  - injection Hz as <-. injection H as _ <-. reflexivity.
  - destruct (dec_val p bs) as [x r1|] eqn:E; [|discriminate]. destruct (decode k _ _ r1) as [w r2|] eqn:E1; [|discriminate]. injection H as _ <-.
    apply dec_val_inv in E as (c & -> & L & _). rewrite app_length, L, (IH _ _ _ _ _ _ eq_refl E1). lia.
  - destruct (fixed sub) as [x|] eqn:Hx; [|discriminate]. destruct (fixed k) as [y|] eqn:Hy; cbn [option_map] in Hz; [|discriminate]. injection Hz as <-.
    destruct (decode sub _ _ bs) as [w r1|] eqn:E; [|discriminate]. destruct (decode k _ _ r1) as [w2 r2|] eqn:E1; [|discriminate]. injection H as _ <-.
    rewrite (IHs _ _ _ _ _ _ eq_refl E), (IH _ _ _ _ _ _ eq_refl E1). lia.
  - destruct (dec_val p bs) as [x r1|] eqn:E; [|discriminate]. destruct (wint x) as [u|]; [|discriminate].
    apply dec_val_inv in E as (c & -> & L & _). rewrite app_length, L, (IH _ _ _ _ _ _ eq_refl H). lia.
  - destruct (dec_list (dec_val p) n bs) as [l r1|] eqn:E; [|discriminate]. destruct (decode k _ _ r1) as [w r2|] eqn:E1; [|discriminate]. injection H as _ <-.
    rewrite (dec_vals_take _ _ _ _ _ E), (IH _ _ _ _ _ _ eq_refl E1). lia.
  - destruct (dec_val p bs) as [x r1|] eqn:E; [|discriminate]. apply dec_val_inv in E as (c & -> & L & _). rewrite app_length, L, (IH _ _ _ _ _ _ eq_refl H). lia.
  - destruct (dec_val (PInt n false) bs) as [x r1|] eqn:E; [|discriminate]. destruct (wint x) as [u|]; [|discriminate].
    destruct (decode k _ _ r1) as [w r2|] eqn:E1; [|discriminate]. injection H as _ <-.
    apply dec_val_inv in E as (c & -> & L & _). cbn [width] in L. rewrite app_length, L, (IH _ _ _ _ _ _ eq_refl E1). lia.
  - destruct (count (CInt b) C) as [u|]; [|discriminate]. exact (IH _ _ _ _ _ _ eq_refl H).
  - destruct (Nat.leb_spec (bits_bytes bf) (length bs)) as [L|]; [|discriminate]. destruct (decode k _ _ _) as [w r2|] eqn:E1; [|discriminate]. injection H as _ <-.
    pose proof (IH _ _ _ _ _ _ eq_refl E1) as Q. rewrite skipn_length in Q. lia.
  - destruct (count (CLen a) C) as [u|]; [|discriminate]. destruct (u <=? 0); [|discriminate]. destruct (decode k _ _ bs) as [w r2|] eqn:E1; [|discriminate].
    injection H as _ <-. exact (IH _ _ _ _ _ _ eq_refl E1).
Qed.

Lemma NoDup_nodupb l : NoDup l -> nodupb l = true.
Proof. induction 1 as [|a l H _ IH]; [reflexivity|]. cbn [nodupb]. rewrite IH. destruct (mem a l) eqn:E; [|reflexivity]. destruct H. apply existsb_exists in E as (b & Hb & E). apply String.eqb_eq in E. now subst. Qed.

(** list a follows its count in f *)
Fixpoint lists (a : string) (f : fmt) : bool :=
  match f with
  | Done => false
  | PList b _ k | OList b _ _ k | NullL b k => String.eqb a b || lists a k
  | Prim b _ k | Obj b _ _ k | Arr b _ _ k | Mask b _ k | VList b _ _ _ k | Cnt b _ _ k | Derive b _ _ k => negb (String.eqb a b) && lists a k
  | Zero _ k | Pad _ k => lists a k
  | Bits bf k => negb (mem a (flat_map (fun b => match bf_attr b with Some a => [a] | None => [] end) bf)) && lists a k
  end.
Fixpoint counts_listed (f : fmt) : bool :=
  match f with
  | Done => true
  | Cnt a _ _ k => lists a k && counts_listed k
  | Obj _ _ sub k => counts_listed sub && counts_listed k
  | OList _ _ sub k => counts_listed sub && counts_listed k
  | Prim _ _ k | Arr _ _ _ k | Mask _ _ k | VList _ _ _ _ k | Derive _ _ _ k | Zero _ k | Pad _ k | Bits _ k | PList _ _ k | NullL _ k => counts_listed k
  end.

Lemma bits_names bf u : map fst (dec_bits bf u) = flat_map (fun b => match bf_attr b with Some a => [a] | None => [] end) bf.
Proof. induction bf as [|b r IH]; [reflexivity|]. cbn [dec_bits flat_map]. destruct (bf_attr b); cbn [map fst app]; now rewrite IH. Qed.

Lemma lists_read a f : forall n C bs W r, lists a f = true -> count (CLen a) C = Some n -> decode f [] C bs = DOk W r ->
  exists l, field a W = Some (WList l) /\ length l = Z.to_nat n.
Proof.
  induction f as [|b p k IH|b c sub IHs k IH|b p m k IH|b p k IH|b c sub IHs k IH|b p q k IH|p k IH|b q k IH
                 |b p b' dv k IH|b k IH|b b' d k IH|bf k IH|b k IH]; intros n C bs W r HL HC H; cbn [lists decode] in *; try discriminate; unfold dbind, dmap in H.
  - apply andb_prop in HL as [N HL]. destruct (dec_val p bs) as [x r1|]; [|discriminate]. destruct (decode k _ _ r1) as [w r2|] eqn:E1; [|discriminate]. injection H as <- <-.
    cbn [field]. destruct (String.eqb a b); [discriminate|]. eapply IH; [exact HL| |exact E1]. unfold cadd. destruct (wint x); [|exact HC]. cbn [count key_eqb]. exact HC.
  - apply andb_prop in HL as [N HL]. destruct (decode sub _ _ bs) as [x r1|]; [|discriminate]. destruct (decode k _ _ r1) as [w r2|] eqn:E1; [|discriminate]. injection H as <- <-.
    cbn [field]. destruct (String.eqb a b); [discriminate|]. eapply IH; [exact HL|exact HC|exact E1].
  - apply andb_prop in HL as [N HL]. destruct (dec_val p bs) as [x r1|]; [|discriminate]. destruct (wint x) as [u|]; [|discriminate].
    eapply IH; [exact HL| |exact H]. cbn [count key_eqb]. now destruct (String.eqb a b).
  - destruct (count (CLen b) C) as [u|] eqn:Hu; [|discriminate]. destruct (dec_list (dec_val p) (Z.to_nat u) bs) as [x r1|] eqn:E; [|discriminate].
    destruct (decode k _ _ r1) as [w r2|] eqn:E1; [|discriminate]. injection H as <- <-. cbn [field]. destruct (String.eqb_spec a b) as [->|].
    + rewrite HC in Hu. injection Hu as ->. exists (old_list b [] ++ x). split; [reflexivity|]. exact (dec_list_length _ _ _ _ _ E).
    + eapply IH; [exact HL|exact HC|exact E1].
  - destruct (count (CLen b) C) as [u|] eqn:Hu; [|discriminate]. destruct (dec_list (decode sub [] []) (Z.to_nat u) bs) as [x r1|] eqn:E; [|discriminate].
    destruct (decode k _ _ r1) as [w r2|] eqn:E1; [|discriminate]. injection H as <- <-. cbn [field]. destruct (String.eqb_spec a b) as [->|].
    + rewrite HC in Hu. injection Hu as ->. eexists. split; [reflexivity|]. cbn. rewrite map_length. exact (dec_list_length _ _ _ _ _ E).
    + eapply IH; [exact HL|exact HC|exact E1].
  - apply andb_prop in HL as [N HL]. destruct (dec_list (dec_val p) q bs) as [x r1|]; [|discriminate]. destruct (decode k _ _ r1) as [w r2|] eqn:E1; [|discriminate]. injection H as <- <-.
    cbn [field]. destruct (String.eqb a b); [discriminate|]. eapply IH; [exact HL|exact HC|exact E1].
  - destruct (dec_val p bs) as [x r1|]; [|discriminate]. eapply IH; [exact HL|exact HC|exact H].
  - apply andb_prop in HL as [N HL]. destruct (dec_val (PInt q false) bs) as [x r1|]; [|discriminate]. destruct (wint x); [|discriminate].
    destruct (decode k _ _ r1) as [w r2|] eqn:E1; [|discriminate]. injection H as <- <-.
    cbn [field]. destruct (String.eqb a b); [discriminate|]. eapply IH; [exact HL|exact HC|exact E1].
  - apply andb_prop in HL as [N HL]. destruct (count (CInt b') C) as [u|]; [|discriminate]. destruct (dec_list (dec_val p) _ bs) as [x r1|]; [|discriminate].
    destruct (decode k _ _ r1) as [w r2|] eqn:E1; [|discriminate]. injection H as <- <-.
    cbn [field]. destruct (String.eqb a b); [discriminate|]. eapply IH; [exact HL|exact HC|exact E1].
  - destruct (count (CInt b) C) as [u|]; [|discriminate]. destruct (dec_list _ _ bs) as [x r1|]; [|discriminate]. eapply IH; [exact HL|exact HC|exact H].
  - apply andb_prop in HL as [N HL]. destruct (count (CInt b') C) as [u|]; [|discriminate]. eapply IH; [exact HL| |exact H]. cbn [count key_eqb]. now destruct (String.eqb a b).
  - apply andb_prop in HL as [N HL]. destruct (Nat.leb (bits_bytes bf) (length bs)); [|discriminate]. destruct (decode k _ _ _) as [w r2|] eqn:E1; [|discriminate]. injection H as <- <-.
    rewrite field_cat2; [eapply IH; [exact HL|exact HC|exact E1]|]. rewrite bits_names. intros K. apply negb_true_iff in N.
    assert (mem a (flat_map (fun b => match bf_attr b with Some a => [a] | None => [] end) bf) = true); [|congruence].
    apply existsb_exists. exists a. split; [exact K|apply String.eqb_refl].
  - destruct (count (CLen b) C) as [u|] eqn:Hu; [|discriminate]. destruct (Z.leb_spec u 0); [|discriminate]. destruct (decode k _ _ bs) as [w r2|] eqn:E1; [|discriminate].
    injection H as <- <-. cbn [field]. destruct (String.eqb_spec a b) as [->|].
    + rewrite HC in Hu. injection Hu as ->. exists []. split; [reflexivity|]. cbn. lia.
    + eapply IH; [exact HL|exact HC|exact E1].
Qed.

(** the value of the bytes at offset off, read as a field of type p *)
Definition read_at (p : prim) (off : nat) (bs : list byte) : wv := dec_prim p (slice off (width p) bs).

Definition item_read (bs : list byte) (W : flds) (e : list string * nat * item) : Prop :=
  let '(path, off, i) := e in
  match i with
  | IField p => (off + width p <= length bs)%nat /\ walk path W = Some (read_at p off bs)
  | ICount p m => exists l z, walk path W = Some (WList l) /\ wint (read_at p off bs) = Some z /\ length l = Z.to_nat (z / m)
  | IArray p n => exists l, walk path W = Some (WList l) /\ length l = n /\ forall i, (i < n)%nat -> nth_error l i = Some (read_at p (off + i * width p) bs)
  | IRecords sub => exists l, walk path W = Some (WList l) /\ forall z, fixed sub = Some z ->
      (off + length l * z <= length bs)%nat /\ forall i x, nth_error l i = Some x -> exists w, x = WObj w /\ decode sub [] [] (slice (off + i * z) z bs) = DOk w []
  end.

Definition head (e : list string * nat * item) : option string := match fst (fst e) with a :: _ => Some a | [] => None end.

Lemma keep bs P W e a : head e = Some a -> ~ In a (map fst P) -> item_read bs W e -> item_read bs (P ++ W) e.
Proof.
  destruct e as [[path off] i]. unfold head. cbn [fst]. destruct path as [|b r]; [discriminate|]. intros [= ->] H.
  assert (K : walk (a :: r) (P ++ W) = walk (a :: r) W) by (cbn [walk]; now rewrite field_cat2).
  unfold item_read. now rewrite K.
Qed.

Lemma lists_names a f : lists a f = true -> In a (names f).
Proof.
  induction f; cbn [lists names]; intros H; try discriminate; auto; try (apply andb_prop in H as [_ H]; auto; right; auto; fail);
    try (apply orb_prop in H as [H|H]; [left; now apply String.eqb_eq in H|right; auto]).
  apply andb_prop in H as [_ H]. apply in_or_app. right. auto.
Qed.

Lemma entries_head f : forall off e, counts_listed f = true -> In e (entries f off) -> exists a, head e = Some a /\ In a (names f).
Proof.
  induction f as [|a p k IH|a c sub IHs k IH|a p m k IH|a p k IH|a c sub IHs k IH|a p n k IH|p k IH|a n k IH
                 |a p b dv k IH|b k IH|a b d k IH|bf k IH|a k IH]; intros off e HC H; cbn [entries counts_listed names] in *; try (now destruct H).
  - destruct H as [<-|H]; [exists a; split; [reflexivity|now left]|]. destruct (IH _ _ HC H) as (x & A & B). exists x. split; [exact A|now right].
  - apply andb_prop in HC as [H1 H2]. apply in_app_or in H as [H|H].
    + apply in_map_iff in H as ([[q o] i] & <- & _). exists a. split; [reflexivity|now left].
    + destruct (fixed sub); [|destruct H]. destruct (IH _ _ H2 H) as (x & A & B). exists x. split; [exact A|now right].
  - apply andb_prop in HC as [H1 H2]. destruct H as [<-|H]; [exists a; split; [reflexivity|now apply lists_names]|]. exact (IH _ _ H2 H).
  - destruct H as [<-|[]]. exists a. split; [reflexivity|now left].
  - destruct H as [<-|H]; [exists a; split; [reflexivity|now left]|]. destruct (IH _ _ HC H) as (x & A & B). exists x. split; [exact A|now right].
  - exact (IH _ _ HC H).
  - destruct (IH _ _ HC H) as (x & A & B). exists x. split; [exact A|now right].
  - exact (IH _ _ HC H).
  - destruct (IH _ _ HC H) as (x & A & B). exists x. split; [exact A|apply in_or_app; now right].
  - destruct (IH _ _ HC H) as (x & A & B). exists x. split; [exact A|now right].
Qed.

Lemma read_slice p b c r o : length b = o -> length c = width p -> read_at p o (b ++ c ++ r) = dec_prim p c.
Proof. intros Hb Hc. unfold read_at. now rewrite slice_at. Qed.

Lemma vals_read p n : forall bs l r b o, dec_list (dec_val p) n bs = DOk l r -> length b = o ->
  length l = n /\ forall i, (i < n)%nat -> nth_error l i = Some (read_at p (o + i * width p) (b ++ bs)).
Proof.
  induction n as [|n IH]; intros bs l r b o H Hb; cbn [dec_list] in H; [injection H as <- _; split; [reflexivity|lia]|]. unfold dbind, dmap in H.
  destruct (dec_val p bs) as [x r1|] eqn:E; [|discriminate]. destruct (dec_list (dec_val p) n r1) as [l1 r2|] eqn:E1; [|discriminate]. injection H as <- <-.
  apply dec_val_inv in E as (c & -> & L & ->). destruct (IH _ _ _ (b ++ c) (o + width p)%nat E1) as [L1 K]; [rewrite app_length; lia|].
  split; [cbn [length]; lia|]. intros [|i] Hi; cbn [nth_error].
  - replace (o + 0 * width p)%nat with o by lia. now rewrite read_slice.
  - rewrite K by lia. rewrite <- app_assoc. do 2 f_equal. lia.
Qed.

Lemma recs_read f z : fixed f = Some z -> forall n bs l r b o, dec_list (decode f [] []) n bs = DOk l r -> length b = o ->
  length bs = (length l * z + length r)%nat /\ forall i w, nth_error l i = Some w -> decode f [] [] (slice (o + i * z) z (b ++ bs)) = DOk w [].
Proof.
  intros Hz. induction n as [|n IH]; intros bs l r b o H Hb; cbn [dec_list] in H; [injection H as <- <-; split; [reflexivity|intros [|i]; discriminate]|]. unfold dbind, dmap in H.
  destruct (decode f [] [] bs) as [x r1|] eqn:E; [|discriminate]. destruct (dec_list (decode f [] []) n r1) as [l1 r2|] eqn:E1; [|discriminate]. injection H as <- <-.
  pose proof (fixed_take _ _ _ _ _ _ _ Hz E) as T. destruct (decode_prefixed f _ _ _ _ _ E) as (c & -> & D). rewrite app_length in T.
  destruct (IH _ _ _ (b ++ c) (o + z)%nat E1) as [L1 K]; [rewrite app_length; lia|]. split; [rewrite app_length; cbn [length]; lia|].
  intros [|i] w Hi; cbn [nth_error] in Hi.
  - injection Hi as <-. replace (o + 0 * z)%nat with o by lia. rewrite slice_at; [|exact Hb|lia]. specialize (D []). now rewrite app_nil_r in D.
  - specialize (K i w Hi). rewrite <- app_assoc in K. replace (o + S i * z)%nat with (o + z + i * z)%nat by lia. exact K.
Qed.

Lemma read_under a w bs W e : field a W = Some (WObj w) -> item_read bs w e -> item_read bs W (under a e).
Proof.
  intros Ha. destruct e as [[path off] i]. cbn [under item_read].
  assert (K : forall x, walk path w = Some x -> walk (a :: path) W = Some x). { intros x Hx. destruct path as [|b r]; [discriminate|]. cbn [walk] in *. now rewrite Ha. }
  destruct i; [intros [H1 H2]; auto|intros (x & y & H1 & H2); exists x, y; split; [auto|tauto]|intros (x & H1 & H2); exists x; split; auto|intros (x & H1 & H2); exists x; split; auto].
Qed.

Lemma keep_all bs P W k off : counts_listed k = true -> (forall a, In a (map fst P) -> ~ In a (names k)) -> Forall (item_read bs W) (entries k off) ->
  Forall (item_read bs (P ++ W)) (entries k off).
Proof.
  intros HC HD H. rewrite Forall_forall in *. intros e He. destruct (entries_head _ _ _ HC He) as (a & Ha & Hi). apply keep with a; [exact Ha| |now apply H].
  intros K. exact (HD a K Hi).
Qed.

Lemma old_obj_nil a : old_obj a [] = []. Proof. reflexivity. Qed.

Theorem entries_read f : forall C bs W r b off, subs_nodup f = true -> nodupb (names f) = true -> counts_listed f = true ->
  decode f [] C bs = DOk W r -> length b = off -> Forall (item_read (b ++ bs) W) (entries f off).
Proof.
  induction f as [|a p k IH|a c sub IHs k IH|a p m k IH|a p k IH|a c sub IHs k IH|a p n k IH|p k IH|a n k IH
                 |a p b dv k IH|b k IH|a b d k IH|bf k IH|a k IH]; intros C bs W r b0 off HS HN HC H Hb; cbn [entries decode subs_nodup names counts_listed] in *; unfold dbind, dmap in H;
    try (apply nodupb_NoDup in HN).
  - constructor.
  - inversion HN as [|? ? N1 N2]; subst. destruct (dec_val p bs) as [x r1|] eqn:E; [|discriminate]. destruct (decode k _ _ r1) as [w r2|] eqn:E1; [|discriminate]. injection H as <- <-.
    apply dec_val_inv in E as (c & -> & L & ->). constructor.
    + cbn [item_read walk field]. rewrite String.eqb_refl, read_slice by auto. split; [rewrite !app_length; lia|reflexivity].
    + apply (keep_all _ [(a, _)]); [exact HC|intros y [<-|[]]; exact N1|]. rewrite app_assoc.
      eapply IH; [exact HS|now apply NoDup_nodupb|exact HC|exact E1|rewrite app_length; lia].
  - inversion HN as [|? ? N1 N2]; subst. apply andb_prop in HS as [HS HS3]. apply andb_prop in HS as [HS1 HS2]. apply andb_prop in HC as [HC1 HC2]. rewrite old_obj_nil in H.
    destruct (decode sub _ _ bs) as [x r1|] eqn:E; [|discriminate]. destruct (decode k _ _ r1) as [w r2|] eqn:E1; [|discriminate]. injection H as <- <-.
    apply Forall_app. split.
    + apply Forall_map. assert (K := IHs [] bs x r1 b0 (length b0) HS2 HS1 HC1 E eq_refl). revert K. apply Forall_impl. intros e. apply read_under. cbn [field]. now rewrite String.eqb_refl.
    + destruct (fixed sub) as [z|] eqn:Hz; [|constructor]. pose proof (fixed_take _ _ _ _ _ _ _ Hz E) as T. destruct (decode_prefixed sub _ _ _ _ _ E) as (c0 & -> & _). rewrite app_length in T.
      apply (keep_all _ [(a, _)]); [exact HC2|intros y [<-|[]]; exact N1|]. rewrite app_assoc.
      eapply IH; [exact HS3|now apply NoDup_nodupb|exact HC2|exact E1|rewrite app_length; lia].
  - apply andb_prop in HC as [HC1 HC2]. destruct (dec_val p bs) as [x r1|] eqn:E; [|discriminate]. destruct (wint x) as [u|] eqn:Hu; [|discriminate].
    apply dec_val_inv in E as (c & -> & L & ->). constructor.
    + destruct (lists_read a k (u / m) ((CLen a, u / m) :: C) r1 W r HC1 ltac:(cbn [count key_eqb]; now rewrite String.eqb_refl) H) as (l & F & Ll).
      exists l, u. split; [exact F|]. rewrite read_slice by auto. auto.
    + rewrite app_assoc. eapply IH; [exact HS|now apply NoDup_nodupb|exact HC2|exact H|rewrite app_length; lia].
  - constructor.
  - destruct (count (CLen a) C) as [u|]; [|discriminate]. destruct (dec_list (decode sub [] []) (Z.to_nat u) bs) as [x r1|] eqn:E; [|discriminate].
    destruct (decode k _ _ r1) as [w r2|] eqn:E1; [|discriminate]. injection H as <- <-. constructor; [|constructor].
    cbn [item_read walk field]. rewrite String.eqb_refl. eexists. split; [reflexivity|]. cbn [old_list field app]. intros z Hz.
    destruct (recs_read sub z Hz _ _ _ _ b0 off E Hb) as [L K]. split; [rewrite app_length, map_length; rewrite L, Hb; apply Nat.add_le_mono_l, Nat.le_add_r|]. intros i y Hy. rewrite nth_error_map in Hy.
    match type of Hy with option_map _ ?t = _ => destruct t as [w1|] eqn:Hw end; cbn [option_map] in Hy; [|discriminate]. injection Hy as <-. eauto.
  - inversion HN as [|? ? N1 N2]; subst. destruct (dec_list (dec_val p) n bs) as [x r1|] eqn:E; [|discriminate]. destruct (decode k _ _ r1) as [w r2|] eqn:E1; [|discriminate]. injection H as <- <-.
    constructor.
    + destruct (vals_read p n _ _ _ b0 _ E eq_refl) as [L K]. exists x. cbn [walk field]. rewrite String.eqb_refl. auto.
    + pose proof (dec_vals_take _ _ _ _ _ E) as T. apply (keep_all _ [(a, _)]); [exact HC|intros y [<-|[]]; exact N1|].
      rewrite <- (firstn_skipn (n * width p) bs), app_assoc.
      assert (S : skipn (n * width p) bs = r1).
      { destruct (dec_list_inv (dec_val p) (fun _ c => length c = width p) n bs x r1) as (cs & -> & F); [|exact E|].
        - intros b1 y r0 Hy. apply dec_val_inv in Hy as (c & -> & Lc & _). eauto.
        - assert (LC : length (concat cs) = (n * width p)%nat). { rewrite app_length in T. lia. } rewrite skipn_app, LC, Nat.sub_diag, skipn_all2 by lia. reflexivity. }
      rewrite S. eapply IH; [exact HS|now apply NoDup_nodupb|exact HC|exact E1|rewrite app_length, firstn_length; lia].
  - destruct (dec_val p bs) as [x r1|] eqn:E; [|discriminate]. apply dec_val_inv in E as (c & -> & L & ->). rewrite app_assoc.
    eapply IH; [exact HS|now apply NoDup_nodupb|exact HC|exact H|rewrite app_length; lia].
  - inversion HN as [|? ? N1 N2]; subst. destruct (dec_val (PInt n false) bs) as [x r1|] eqn:E; [|discriminate]. destruct (wint x) as [u|]; [|discriminate].
    destruct (decode k _ _ r1) as [w r2|] eqn:E1; [|discriminate]. injection H as <- <-. apply dec_val_inv in E as (c & -> & L & ->). cbn [width] in L.
    apply (keep_all _ [(a, _)]); [exact HC|intros y [<-|[]]; exact N1|]. rewrite app_assoc.
    eapply IH; [exact HS|now apply NoDup_nodupb|exact HC|exact E1|rewrite app_length; lia].
  - constructor.
  - constructor.
  - destruct (count (CInt b) C) as [u|]; [|discriminate]. eapply IH; [exact HS|now apply NoDup_nodupb|exact HC|exact H|exact Hb].
  - destruct (Nat.leb_spec (bits_bytes bf) (length bs)) as [L|]; [|discriminate]. destruct (decode k _ _ _) as [w r2|] eqn:E1; [|discriminate]. injection H as <- <-.
    apply keep_all; [exact HC| |].
    + intros y Hy. rewrite bits_names in Hy. intros K. clear - HN Hy K. revert HN. generalize dependent (names k). intros l. induction (flat_map _ bf) as [|z t IHt]; intros K HN; [destruct Hy|].
      cbn [app] in HN. inversion HN as [|? ? M1 M2]; subst. destruct Hy as [->|Hy]; [apply M1, in_or_app; now right|auto].
    + rewrite <- (firstn_skipn (bits_bytes bf) bs), app_assoc at 1. eapply IH; [exact HS| |exact HC|exact E1|rewrite app_length, firstn_length; lia].
      apply NoDup_nodupb. clear - HN. induction (flat_map _ bf) as [|z t IHt]; [exact HN|]. cbn [app] in HN. inversion HN; auto.
  - inversion HN as [|? ? N1 N2]; subst. destruct (count (CLen a) C) as [u|]; [|discriminate]. destruct (u <=? 0); [|discriminate]. destruct (decode k _ _ bs) as [w r2|] eqn:E1; [|discriminate].
    injection H as <- <-. apply (keep_all _ [(a, _)]); [exact HC|intros y [<-|[]]; exact N1|].
    eapply IH; [exact HS|now apply NoDup_nodupb|exact HC|exact E1|reflexivity].
Qed.

Definition field_read (bs : list byte) (W : flds) (r : frow) : Prop :=
  let '(off, p, path) := r in (off + width p <= length bs)%nat /\ walk path W = Some (read_at p off bs).

(** the attributes are what the bytes say they are; counts count the elements *)
Definition table_read (t : pdu_table) (bs : list byte) (W : flds) : Prop :=
  Forall (field_read bs W) (fixed_fields t) /\
  (forall off p m path, In (off, p, m, path) (count_fields_at t) ->
     exists l z, walk path W = Some (WList l) /\ wint (read_at p off bs) = Some z /\ length l = Z.to_nat (z / m)) /\
  (forall off p n path, In (off, p, n, path) (arrays_at t) ->
     exists l, walk path W = Some (WList l) /\ length l = n /\ forall i, (i < n)%nat -> nth_error l i = Some (read_at p (off + i * width p) bs)) /\
  (forall off z a rows, In (off, z, a, rows) (records_at t) ->
     exists l, walk [a] W = Some (WList l) /\ (off + length l * z <= length bs)%nat /\
       forall i x, nth_error l i = Some x -> Forall (field_read (slice (off + i * z) z bs) (as_obj x)) rows).

Definition tidy (f : fmt) : bool := subs_nodup f && nodupb (names f) && counts_listed f.
Fixpoint tidy_lists (f : fmt) : bool :=
  match f with
  | Done => true
  | OList _ _ sub k => tidy sub && tidy_lists k
  | Obj _ _ _ k | Cnt _ _ _ k | Prim _ _ k | Arr _ _ _ k | Mask _ _ k | VList _ _ _ _ k | Derive _ _ _ k | Zero _ k | Pad _ k | Bits _ k | PList _ _ k | NullL _ k => tidy_lists k
  end.

Lemma rows_read f W bs r l : tidy f = true -> decode f [] [] bs = DOk W r -> forallb (row_ok (entries f 0)) l = true -> Forall (field_read bs W) l.
Proof.
  intros T E H. unfold tidy in T. apply andb_prop in T as [T T3]. apply andb_prop in T as [T1 T2].
  rewrite forallb_forall in H. apply Forall_forall. intros [[off p] path] Hr. specialize (H _ Hr). unfold row_ok in H. cbn [fst snd] in H.
  apply find_item_in in H as (i & Hi & C). destruct i as [q| | |]; try discriminate. apply prim_eqb_eq in C. subst q.
  pose proof (entries_read f [] bs W r [] 0 T1 T2 T3 E eq_refl) as K. rewrite Forall_forall in K. exact (K _ Hi).
Qed.

Lemma tidy_records f : forall off a o sub, tidy_lists f = true -> In ([a], o, IRecords sub) (entries f off) -> tidy sub = true.
Proof.
  induction f as [|b p k IH|b c sub IHs k IH|b p m k IH|b p k IH|b c sub IHs k IH|b p n k IH|p k IH|b n k IH
                 |b p b' dv k IH|b k IH|b b' d k IH|bf k IH|b k IH]; intros off a o s T H; cbn [entries tidy_lists] in *; try (now destruct H); try (exact (IH _ _ _ _ T H)).
  - destruct H as [H|H]; [discriminate|exact (IH _ _ _ _ T H)].
  - apply in_app_or in H as [H|H].
    + apply in_map_iff in H as ([[q o'] i] & H & H2). exfalso. cbn [under] in H. injection H as -> -> -> ->. clear - H2. revert H2. generalize off. induction sub; intros off0 H2; cbn [entries] in H2; try (now destruct H2); eauto;
        try (destruct H2 as [H2|H2]; [discriminate|eauto]; fail); try (destruct H2 as [H2|[]]; discriminate).
      apply in_app_or in H2 as [H2|H2]; [apply in_map_iff in H2 as ([[? ?] ?] & H2 & _); discriminate|]. destruct (fixed sub1); [eauto|destruct H2].
    + destruct (fixed sub); [exact (IH _ _ _ _ T H)|destruct H].
  - destruct H as [H|H]; [discriminate|exact (IH _ _ _ _ T H)].
  - apply andb_prop in T as [T _]. destruct H as [[= _ _ <-]|[]]. exact T.
  - destruct H as [H|H]; [discriminate|exact (IH _ _ _ _ T H)].
Qed.

Lemma table_ok_read t f W bs r : table_ok t f = true -> tidy f = true -> tidy_lists f = true -> decode f [] [] bs = DOk W r -> table_read t bs W.
Proof.
  intros T TD TL E. unfold table_ok in T. apply andb_prop in T as [T T4]. apply andb_prop in T as [T T3]. apply andb_prop in T as [T1 T2].
  pose proof TD as TD0. unfold tidy in TD. apply andb_prop in TD as [TD D3]. apply andb_prop in TD as [D1 D2].
  pose proof (entries_read f [] bs W r [] 0 D1 D2 D3 E eq_refl) as K. rewrite Forall_forall in K. cbn [app] in K.
  rewrite forallb_forall in T2, T3, T4. split; [now apply rows_read with f r|]. split; [|split].
  - intros off p m path Hr. specialize (T2 _ Hr). cbv beta iota in T2. apply find_item_in in T2 as (i & Hi & C). destruct i as [|q m'| |]; try discriminate.
    apply andb_prop in C as [C1 C2]. apply prim_eqb_eq in C1. apply Z.eqb_eq in C2. subst. exact (K _ Hi).
  - intros off p n path Hr. specialize (T3 _ Hr). cbv beta iota in T3. apply find_item_in in T3 as (i & Hi & C). destruct i as [| |q n'|]; try discriminate.
    apply andb_prop in C as [C1 C2]. apply prim_eqb_eq in C1. apply Nat.eqb_eq in C2. subst. exact (K _ Hi).
  - intros off z a rows Hr. specialize (T4 _ Hr). cbv beta iota in T4. apply find_item_in in T4 as (i & Hi & C). destruct i as [| | |sub]; try discriminate.
    destruct (fixed sub) as [z'|] eqn:Hz; [|discriminate]. apply andb_prop in C as [C1 C2]. apply Nat.eqb_eq in C1. subst z'.
    destruct (K _ Hi) as (l & Hl & Q). destruct (Q z Hz) as [Q1 Q2]. exists l. split; [exact Hl|]. split; [exact Q1|].
    intros i x Hx. destruct (Q2 i x Hx) as (w & -> & D). cbn [as_obj]. exact (rows_read sub w _ [] rows (tidy_records _ _ _ _ _ TL Hi) D C2).
Qed.

Lemma std_tidy : forallb (fun e => match layout (fst e) with Some f => tidy f && tidy_lists f | None => false end) std = true.
Proof. vm_compute. reflexivity. Qed.

Theorem C59_read_partial n c t f s o s' W : (fuel_ok <= n)%nat -> In (c, t) std -> layout c = Some f -> load the_prog n c s = (Ok o, s') ->
  contents the_prog (heap s') c f o = Some W -> table_read t (irest s) W.
Proof.
  intros Hn Hi L E HW. pose proof std_ok as Q. rewrite forallb_forall in Q. specialize (Q _ Hi). pose proof std_tidy as Q2. rewrite forallb_forall in Q2. specialize (Q2 _ Hi).
  cbn [fst snd] in *. rewrite L in Q, Q2. apply andb_prop in Q2 as [Q2 Q3].
  destruct (load_inv n c f s o s' Hn L E) as (W' & D & HW' & _). rewrite HW in HW'. injection HW' as <-. now apply table_ok_read with f (irest s').
Qed.

(** an entity state PDU with two variable parameters, built and serialised; and read back *)
Definition ex_pdu : res val * st := bind (ex_es 2) (fun o => bind (serialize 50 o) (fun _ => ret o)) st0.
Example C59_case : exists o s s1 f W bs t, ex_pdu = (Ok o, s1) /\ fst (ex_es 2 st0) = Ok o /\ s = snd (ex_es 2 st0) /\ layout "EntityStatePdu" = Some f /\ In ("EntityStatePdu", t) std /\
  contents the_prog (heap s) "EntityStatePdu" f o = Some W /\ serialize 50 o s = (Ok VNone, appended s bs) /\ length bs = 176%nat /\ length (fixed_fields t) = 44%nat /\
  slice 19 1 bs = [x02] /\ slice 2 2 bs = [x01; x01].
Proof.
  do 5 eexists. exists (out (snd ex_pdu)). eexists. split; [vm_compute; reflexivity|]. split; [vm_compute; reflexivity|]. split; [vm_compute; reflexivity|].
  split; [vm_compute; reflexivity|]. split; [left; reflexivity|]. split; [vm_compute; reflexivity|]. split; [vm_compute; reflexivity|]. repeat split; vm_compute; reflexivity.
Qed.
Example C59_read_case : exists o s', load the_prog 50 "EntityStatePdu" (mkst [] (out (snd ex_pdu)) [] []) = (Ok o, s') /\ irest s' = [].
Proof. do 2 eexists. split; vm_compute; reflexivity. Qed.

(** ** PDUs that do not follow the standard *)

(** the standard's Receiver PDU: 36 bytes *)
Definition receiver_std : pdu_table := plain
  (pdu_header ++ [(20%nat, u16, ["receiverState"]); (24%nat, f32, ["receivedPower"])] ++ at_ 28 (of_ "transmitterEntityID" entity_id) ++ [(34%nat, u16, ["transmitterRadioId"])]).

Lemma beyond p off bs x : (0 < width p)%nat -> (length bs <= off)%nat -> ~ holds_at_offset p off bs x.
Proof.
  intros Hw Hl H. unfold holds_at_offset, slice in H. apply enc_prim_length in H. rewrite firstn_length, skipn_length in H. lia.
Qed.

(** whatever it holds, a ReceiverPdu is written in 28 bytes, with the receiver state where the standard has the site of the receiving
    entity: the entity and radio identifiers at 12-19 are missing (opendis/dis7.py:6759-6766) *)
Theorem C59_receiver_refuted n f s o W bs : (fuel_ok <= n)%nat -> layout "ReceiverPdu" = Some f -> contents the_prog (heap s) "ReceiverPdu" f o = Some W ->
  serialize n o s = (Ok VNone, appended s bs) ->
  length bs = 28%nat /\ ~ table_holds receiver_std bs W /\ exists x, field "receiverState" W = Some x /\ holds_at_offset u16 12 bs x.
Proof.
  intros Hn L HW E. pose proof (C17_fixed_sizes n "ReceiverPdu" 28 s o f W bs Hn ltac:(vm_compute; tauto) L HW E) as Hl. split; [exact Hl|]. split.
  - intros (H & _). rewrite Forall_forall in H. specialize (H (34%nat, u16, ["transmitterRadioId"]) ltac:(vm_compute; tauto)). destruct H as (x & _ & H). revert H. apply beyond; cbn; lia.
  - rewrite (ser_layout n _ f o s W Hn L HW) in E. destruct (encode f W) as [b1 [e|]] eqn:Ee; cbn [fst snd] in E; [discriminate|].
    unfold appended in E. injection E as E. apply app_inv_head in E. subst b1. vm_compute in L. injection L as <-.
    exact (Forall_inv (rows_hold _ W bs [(12%nat, u16, ["receiverState"])] Ee eq_refl)).
Qed.

(** reading a standard Receiver PDU takes the site of the receiving entity for the receiver state, and leaves the last 8 bytes unread *)
Theorem C59_receiver_read_refuted n f s o s' W : (fuel_ok <= n)%nat -> layout "ReceiverPdu" = Some f -> load the_prog n "ReceiverPdu" s = (Ok o, s') ->
  contents the_prog (heap s') "ReceiverPdu" f o = Some W -> length (irest s) = 36%nat ->
  field "receiverState" W = Some (read_at u16 12 (irest s)) /\ length (irest s') = 8%nat.
Proof.
  intros Hn L E HW Hl. destruct (load_inv n _ f s o s' Hn L E) as (W' & D & HW' & _). rewrite HW in HW'. injection HW' as <-.
  assert (Q : match layout "ReceiverPdu" with Some f => tidy f && forallb (row_ok (entries f 0)) [(12%nat, u16, ["receiverState"])] &&
    match fixed f with Some z => Nat.eqb z 28 | None => false end | None => false end = true) by (vm_compute; reflexivity).
  rewrite L in Q. apply andb_prop in Q as [Q Q3]. apply andb_prop in Q as [Q1 Q2]. destruct (fixed f) as [z|] eqn:Hz; [|discriminate]. apply Nat.eqb_eq in Q3. subst z.
  split; [exact (proj2 (Forall_inv (rows_read f W _ _ _ Q1 D Q2)))|]. pose proof (fixed_take f 28 _ _ _ _ _ Hz D). lia.
Qed.
Example C59_receiver_case : exists o s f W bs, new the_prog 20 "ReceiverPdu" [] st0 = (Ok o, s) /\ layout "ReceiverPdu" = Some f /\
  contents the_prog (heap s) "ReceiverPdu" f o = Some W /\ serialize 50 o s = (Ok VNone, appended s bs) /\ length bs = 28%nat.
Proof. do 4 eexists. exists (out (snd (bind (new the_prog 20 "ReceiverPdu" []) (serialize 50) st0))). repeat (split; [vm_compute; reflexivity|]). vm_compute. reflexivity. Qed.

(** the standard's Event Report-R PDU: a 32-bit event type, the counts of datums at 32 and 36 *)
Definition event_report_std : pdu_table := datums 32 (siman ++ [(24%nat, u32, ["eventType"])]).

(** EventReportReliablePdu writes a 16-bit event type and the counts at 30 and 34 (opendis/dis7.py:7240-7243) *)
Theorem C59_event_report_refuted : exists s o f W bs, layout "EventReportReliablePdu" = Some f /\ contents the_prog (heap s) "EventReportReliablePdu" f o = Some W /\
  serialize 50 o s = (Ok VNone, appended s bs) /\ ~ table_holds event_report_std bs W.
Proof.
  set (r := new the_prog 20 "EventReportReliablePdu" [VInt 7] st0). exists (snd r), (match fst r with Ok v => v | Exc _ => VNone end). eexists. eexists.
  exists (out (snd (bind (new the_prog 20 "EventReportReliablePdu" [VInt 7]) (serialize 50) st0))).
  split; [vm_compute; reflexivity|]. split; [vm_compute; reflexivity|]. split; [vm_compute; reflexivity|].
  intros (H & _). rewrite Forall_forall in H. specialize (H (24%nat, u32, ["eventType"]) ltac:(vm_compute; tauto)). destruct H as (x & A & B). vm_compute in A. injection A as <-. vm_compute in B. discriminate.
Qed.

Definition all_PropOffsets := (C59_offsets_partial, C59_read_partial, C59_receiver_refuted, C59_receiver_read_refuted, C59_event_report_refuted).
Print Assumptions all_PropOffsets.
