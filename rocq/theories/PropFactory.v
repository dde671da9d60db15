(** * Properties C11, C19-C24: headers and the PDU factory *)
From Coq Require Import ZArith String List Bool Lia.
From Coq Require Import Strings.Byte.
From Verif Require Import Lang Bytes Interp Inv Shift Mono Closed Anywhere ProgDis Prog Spec Codec Codec2 Rep Dec StreamLem SerSound ParSound NewSound Layouts Refine Api StreamApi Classes PropCodec.
Import ListNotations.
Open Scope string_scope. Open Scope Z_scope. Open Scope list_scope.

(** ** C19 *)
(** attribute, offset, bytes *)
Definition header : list (string * (nat * nat)) :=
  [("protocolVersion", (0, 1)); ("exerciseID", (1, 1)); ("pduType", (2, 1)); ("protocolFamily", (3, 1)); ("timestamp", (4, 4)); ("length", (8, 2));
   ("pduStatus", (10, 1)); ("padding", (11, 1))]%nat.

(** the subclasses of Pdu *)
Definition is_pdu (c : string) : bool := mem "Pdu" (mro the_prog c).

(** the layout starts with the unsigned integers of the header, each at its offset *)
Fixpoint starts (off : nat) (hs : list (string * (nat * nat))) (f : fmt) : bool :=
  match hs, f with
  | [], _ => true
  | (a, (o, k)) :: r, Prim b (PInt k' false) f' => String.eqb a b && Nat.eqb o off && Nat.eqb k k' && starts (off + k) r f'
  | _, _ => false
  end.
Lemma pdus_start : forallb (fun p => negb (is_pdu (fst p)) || starts 0 header (snd p)) TW = true. Proof. vm_compute. reflexivity. Qed.

Lemma enc_first a k f W bs : encode (Prim a (PInt k false) f) W = (bs, None) ->
  exists x z b2, field a W = Some x /\ wint x = Some z /\ in_range k false z /\ bs = be k z ++ b2 /\ encode f W = (b2, None).
Proof.
  cbn [encode]. destruct (field a W) as [x|]; [|discriminate]. unfold enc_val, enc_prim. destruct (wint x) as [z|] eqn:Z1; [|discriminate].
  destruct ((lo k false <=? z) && (z <? hi k false)) eqn:R; [|discriminate]. unfold oseq. cbn [fst snd]. intros H.
  apply andb_prop in R as [R1 R2]. apply Z.leb_le in R1. apply Z.ltb_lt in R2. injection H as H1 H2.
  exists x, z, (fst (encode f W)). split; [reflexivity|]. split; [exact Z1|]. split; [split; [exact R1|exact R2]|]. split; [now symmetry|].
  rewrite <- H2. now destruct (encode f W).
Qed.

Lemma starts_bytes hs : forall off f W b bs, starts off hs f = true -> encode f W = (bs, None) -> length b = off ->
  forall a o k, In (a, (o, k)) hs -> exists x z, field a W = Some x /\ wint x = Some z /\ in_range k false z /\ firstn k (skipn o (b ++ bs)) = be k z.
Proof.
  induction hs as [|[a0 [o0 k0]] hs IH]; intros off f W b bs Hs E Hb a o k Hi; [destruct Hi|]. cbn [starts] in Hs.
  destruct f as [|b0 p f| | | | | | | | | | | | ]; try discriminate. destruct p as [k' [|]| |]; try discriminate.
  apply andb_prop in Hs as [Hs S4]. apply andb_prop in Hs as [Hs S3]. apply andb_prop in Hs as [S1 S2].
  apply String.eqb_eq in S1. apply Nat.eqb_eq in S2, S3. subst b0 o0 k'.
  apply enc_first in E as (x & z & b2 & F & Z1 & R & -> & E). destruct Hi as [Hi|Hi].
  - injection Hi as <- <- <-. exists x, z. repeat (split; [assumption|]). subst off. rewrite skipn_app, skipn_all, Nat.sub_diag. cbn [skipn app].
    rewrite firstn_app, be_length, Nat.sub_diag, firstn_O, app_nil_r. rewrite firstn_all2; [reflexivity|]. now rewrite be_length.
  - destruct (IH (off + k0)%nat f W (b ++ be k0 z) b2 S4 E ltac:(rewrite app_length, be_length; lia) a o k Hi) as (x' & z' & A).
    exists x', z'. now rewrite <- app_assoc in A.
Qed.

Theorem C19_header n c f s o W bs a off k : (fuel_ok <= n)%nat -> is_pdu c = true -> assoc c TW = Some f ->
  contents the_prog (heap s) c f o = Some W -> serialize n o s = (Ok VNone, appended s bs) -> In (a, (off, k)) header ->
  exists x z, field a W = Some x /\ wint x = Some z /\ in_range k false z /\ firstn k (skipn off bs) = be k z.
Proof.
  intros Hn HP L HW E Hi. pose proof pdus_start as Q. rewrite forallb_forall in Q. specialize (Q _ (assoc_In _ _ _ L)). cbn [fst snd] in Q. rewrite HP in Q. cbn [negb orb] in Q.
  unfold serialize in E. rewrite (serialize_spec n c f o s W Hn L HW) in E. unfold oc in E.
  destruct (encode f W) as [b1 [e|]] eqn:Ee; cbn [fst snd] in E; [discriminate|]. unfold appended in E. injection E as E. apply app_inv_head in E. subst b1.
  exact (starts_bytes header 0 f W [] bs Q Ee eq_refl a off k Hi).
Qed.

(** the classes the theorem is about *)
Definition header_classes : list string := Eval vm_compute in map fst (filter (fun p => is_pdu (fst p)) TW).
Example header_classes_are : filter (fun c => is_pdu c && negb (mem c header_classes)) wire_classes =
  ["TransmitterPdu"; "DirectedEnergyFirePdu"; "EntityDamageStatusPdu"; "AggregateStatePdu"].
Proof. reflexivity. Qed.

Lemma be1 z : in_range 1 false z -> exists b, be 1 z = [b] /\ b2z b = z.
Proof.
  intros H. destruct (be 1 z) as [|b [|? ?]] eqn:E; pose proof (be_length 1 z) as L; rewrite E in L; try discriminate. exists b. split; [reflexivity|].
  pose proof (be_back 1 false z ltac:(lia) H) as B. rewrite E in B. cbn [be_val length] in B. change (256 ^ Z.of_nat 0) with 1 in B. lia.
Qed.

(** ** The classes the factory makes, by type number (the documented table of opendis/PduFactory.py:11-63, written out again so that the theorems do not depend on the model's copy) *)
Definition pdu_types : list (Z * string) :=
  [(1, "EntityStatePdu"); (2, "FirePdu"); (3, "DetonationPdu"); (4, "CollisionPdu"); (5, "ServiceRequestPdu"); (6, "CollisionElasticPdu"); (7,
   "ResupplyReceivedPdu"); (9, "RepairCompletePdu"); (10, "RepairResponsePdu"); (11, "CreateEntityPdu"); (12, "RemoveEntityPdu"); (13, "StartResumePdu");
   (14, "StopFreezePdu"); (15, "AcknowledgePdu"); (16, "ActionRequestPdu"); (17, "ActionResponsePdu"); (18, "DataQueryPdu"); (19, "SetDataPdu"); (20,
   "DataPdu"); (21, "EventReportPdu"); (22, "CommentPdu"); (23, "ElectromagneticEmissionsPdu"); (24, "DesignatorPdu"); (25, "TransmitterPdu"); (26,
   "SignalPdu"); (27, "ReceiverPdu"); (29, "UaPdu"); (31, "IntercomSignalPdu"); (32, "IntercomControlPdu"); (33, "AggregateStatePdu"); (36,
   "IsPartOfPdu"); (37, "MinefieldStatePdu"); (40, "MinefieldResponseNackPdu"); (41, "PointObjectStatePdu"); (43, "PointObjectStatePdu"); (44,
   "LinearObjectStatePdu"); (45, "ArealObjectStatePdu"); (51, "CreateEntityReliablePdu"); (52, "RemoveEntityReliablePdu"); (54, "StopFreezeReliablePdu");
   (55, "AcknowledgeReliablePdu"); (56, "ActionRequestReliablePdu"); (57, "ActionResponseReliablePdu"); (58, "DataQueryReliablePdu"); (59,
   "SetDataReliablePdu"); (60, "DataReliablePdu"); (61, "EventReportReliablePdu"); (62, "CommentReliablePdu"); (63, "RecordQueryReliablePdu"); (66,
   "CollisionElasticPdu"); (67, "EntityStateUpdatePdu"); (69, "EntityDamageStatusPdu")].
Lemma types_ok t : zassoc t ProgDis.PduTypeDecoders = zassoc t pdu_types.
Proof. unfold ProgDis.PduTypeDecoders, pdu_types. cbn [zassoc]. repeat match goal with |- context [Z.eqb t ?k] => destruct (Z.eqb t k); [reflexivity|] end. reflexivity. Qed.

(** ** C11 *)
Lemma third_byte c f W bs t : is_pdu c = true -> assoc c TW = Some f -> encode f W = (bs, None) -> field "pduType" W = Some (WInt t) ->
  exists b, nth_error bs 2 = Some b /\ b2z b = t.
Proof.
  intros HP L E Ht. pose proof pdus_start as Q. rewrite forallb_forall in Q. specialize (Q _ (assoc_In _ _ _ L)). cbn [fst snd] in Q. rewrite HP in Q. cbn [negb orb] in Q.
  destruct (starts_bytes header 0 f W [] bs Q E eq_refl "pduType" 2%nat 1%nat) as (x & z & F & Z1 & R & B); [cbn; tauto|].
  rewrite Ht in F. injection F as <-. injection Z1 as <-. destruct (be1 t R) as (b & B1 & B2). rewrite B1 in B. cbn [app] in B.
  exists b. split; [|exact B2]. destruct bs as [|b0 [|b1 [|b2 r]]]; cbn in B; try discriminate. injection B as ->. reflexivity.
Qed.

Theorem C11_factory_round_trip n c f s o W t : (fuel_ok <= n)%nat -> layout c = Some f -> is_pdu c = true ->
  contents the_prog (heap s) c f o = Some W -> value_of f W -> field "pduType" W = Some (WInt t) -> zassoc t pdu_types = Some c ->
  exists bs, serialize n o s = (Ok VNone, appended s bs) /\
    forall h rest, exists o' s', factory n h (bs ++ rest) = (Ok o', s') /\ contents the_prog (heap s') c f o' = Some W /\ irest s' = rest.
Proof.
  intros Hn L HP HW HV Ht Hz. rewrite <- types_ok in Hz. destruct (C10_round_trip n c f s o W Hn L HW HV) as (bs & E & K). exists bs. split; [exact E|]. intros h rest.
  rewrite (ser_layout n c f o s W Hn L HW) in E. destruct (encode f W) as [b1 [e|]] eqn:Ee; cbn [fst snd] in E; [discriminate|].
  unfold appended in E. injection E as E. apply app_inv_head in E. subst b1.
  destruct (third_byte c f W bs t HP (proj1 (layout_inv _ _ L)) Ee Ht) as (b & N & B).
  unfold factory, createPdu. rewrite (factory_spec n) by (unfold fuel_ok, need, G in Hn; lia). cbn [ifull heap out].
  rewrite nth_error_app1 by (apply nth_error_Some; congruence). rewrite N, B. unfold table. rewrite Hz. apply K. reflexivity.
Qed.

(** the classes and type numbers it is about *)
Definition self_codes : list (Z * string) :=
  [(1, "EntityStatePdu"); (2, "FirePdu"); (3, "DetonationPdu"); (4, "CollisionPdu"); (5, "ServiceRequestPdu"); (7, "ResupplyReceivedPdu");
   (9, "RepairCompletePdu"); (10, "RepairResponsePdu"); (11, "CreateEntityPdu"); (12, "RemoveEntityPdu"); (13, "StartResumePdu"); (14, "StopFreezePdu");
   (15, "AcknowledgePdu"); (16, "ActionRequestPdu"); (17, "ActionResponsePdu"); (18, "DataQueryPdu"); (19, "SetDataPdu"); (20, "DataPdu");
   (21, "EventReportPdu"); (22, "CommentPdu"); (23, "ElectromagneticEmissionsPdu"); (24, "DesignatorPdu"); (26, "SignalPdu"); (27, "ReceiverPdu"); (29, "UaPdu");
   (31, "IntercomSignalPdu"); (36, "IsPartOfPdu"); (37, "MinefieldStatePdu"); (40, "MinefieldResponseNackPdu"); (43, "PointObjectStatePdu");
   (45, "ArealObjectStatePdu"); (51, "CreateEntityReliablePdu"); (52, "RemoveEntityReliablePdu"); (54, "StopFreezeReliablePdu"); (55, "AcknowledgeReliablePdu");
   (56, "ActionRequestReliablePdu"); (57, "ActionResponseReliablePdu"); (58, "DataQueryReliablePdu"); (59, "SetDataReliablePdu"); (60, "DataReliablePdu");
   (61, "EventReportReliablePdu"); (62, "CommentReliablePdu"); (63, "RecordQueryReliablePdu"); (66, "CollisionElasticPdu"); (67, "EntityStateUpdatePdu")].
Example self_codes_apply : forallb (fun p => match layout (snd p) with Some _ => is_pdu (snd p) | None => false end
   && match zassoc (fst p) pdu_types with Some c => String.eqb c (snd p) | None => false end
   && match lookup the_prog (snd p) "pduType" with Some (MAttr (LInt t)) => Z.eqb t (fst p) | _ => false end) self_codes = true.
Proof. vm_compute. reflexivity. Qed.

(** building an instance with defaults, in the empty state *)
Definition fresh (c : string) : res val * st := new the_prog 20 c [] st0.
(** W is a value of the layout because its encoding decodes to it *)
Lemma value_by_decoding c f bs W : layout c = Some f -> decode f [] [] bs = DOk W [] -> value_of f W.
Proof. intros L D. exact (decode_value_of f _ _ _ (layout_sound _ _ L) D). Qed.
Example C11_case : exists f o s W, layout "EntityStatePdu" = Some f /\ fresh "EntityStatePdu" = (Ok o, s) /\
  contents the_prog (heap s) "EntityStatePdu" f o = Some W /\ value_of f W /\ field "pduType" W = Some (WInt 1).
Proof.
  do 4 eexists. split; [vm_compute; reflexivity|]. split; [vm_compute; reflexivity|]. split; [vm_compute; reflexivity|]. split.
  - eapply (value_by_decoding "EntityStatePdu"); [vm_compute; reflexivity|]. instantiate (1 := [x07; x00; x01; x01] ++ repeat x00 140). vm_compute. reflexivity.
  - reflexivity.
Qed.

(** ** C20 *)
(** bytes 8 and 9 hold the length attribute, whatever the caller put there; so they announce the size of the PDU exactly when the caller did *)
Theorem C20_length_partial n c f s o W bs : (fuel_ok <= n)%nat -> is_pdu c = true -> assoc c TW = Some f ->
  contents the_prog (heap s) c f o = Some W -> serialize n o s = (Ok VNone, appended s bs) ->
  exists x z, field "length" W = Some x /\ wint x = Some z /\ (be_val (firstn 2 (skipn 8 bs)) = Z.of_nat (length bs) <-> z = Z.of_nat (length bs)).
Proof.
  intros Hn HP L HW E. destruct (C19_header n c f s o W bs "length" 8%nat 2%nat Hn HP L HW E ltac:(cbn; tauto)) as (x & z & F & Z1 & R & B).
  exists x, z. split; [exact F|]. split; [exact Z1|]. rewrite B. rewrite (be_back 2 false z ltac:(lia) R). reflexivity.
Qed.

(** no PDU built with defaults announces its size: the field is 0 *)
Definition default_bytes (c : string) : res val * list byte :=
  let (r, s) := bind (new the_prog 20 c []) (serialize 50) st0 in (r, out s).
Definition default_ok (c : string) : bool := match fst (default_bytes c) with Ok _ => true | Exc _ => false end.
Theorem C20_length_refuted c : In c header_classes -> default_ok c = true ->
  be_val (firstn 2 (skipn 8 (snd (default_bytes c)))) = 0 /\ (12 <= length (snd (default_bytes c)))%nat.
Proof.
  assert (Q : forallb (fun c => negb (default_ok c) ||
     (be_val (firstn 2 (skipn 8 (snd (default_bytes c)))) =? 0) && (12 <=? length (snd (default_bytes c)))%nat) header_classes = true) by (vm_compute; reflexivity).
  rewrite forallb_forall in Q. intros Hi Hd. specialize (Q _ Hi). rewrite Hd in Q. cbn [negb orb] in Q. apply andb_prop in Q as [A B].
  apply Z.eqb_eq in A. apply Nat.leb_le in B. auto.
Qed.
Example C20_defaults : filter (fun c => negb (default_ok c)) header_classes =
  ["Pdu"; "EntityInformationFamilyPdu"; "LogisticsFamilyPdu"; "SyntheticEnvironmentFamilyPdu"; "SimulationManagementFamilyPdu"; "LinearObjectStatePdu";
   "RadioCommunicationsFamilyPdu"; "WarfareFamilyPdu"; "DistributedEmissionsFamilyPdu"; "SimulationManagementWithReliabilityFamilyPdu";
   "EntityManagementFamilyPdu"; "AttributePdu"; "MinefieldFamilyPdu"; "IntercomControlPdu"].
Proof. vm_compute. reflexivity. Qed.

(** ** C21 *)
(** what createPdu may return for the class c: an object of exactly that class, new *)
Definition is_new (h : list hobj) (c : string) (v : val) (s : st) : Prop :=
  exists l at_, v = VRef l /\ (length h <= l)%nat /\ nth_error (heap s) l = Some (HInst c at_).

Lemma load_class n c s o s' : load the_prog n c s = (Ok o, s') -> is_new (heap s) c o s'.
Proof.
  unfold load, bind. destruct (new the_prog n c [] s) as [[v|e] s1] eqn:E; [|discriminate]. destruct (new_class _ _ _ _ _ _ _ E) as (-> & at_ & A).
  pose proof (ev_call_method the_prog n (VRef (length (heap s))) "parse" [VIn] s1) as (_ & _ & _ & _ & K).
  destruct (call_method the_prog n (VRef (length (heap s))) "parse" [VIn] s1) as [[v|e] s2]; [|discriminate]. unfold ret. intros [= <- <-].
  destruct (K _ _ A) as ([d a'|vs] & B & C); [|discriminate]. injection C as ->. exists (length (heap s)), a'. auto.
Qed.

Theorem C21_dispatch n h data : (2 <= n)%nat ->
  match nth_error data 2 with
  | None => exists s, factory n h data = (Exc StructError, s)
  | Some b =>
      match zassoc (b2z b) pdu_types with
      | Some c => forall v s, factory n h data = (Ok v, s) -> is_new h c v s
      | None => exists s, factory n h data = (Ok VNone, s)
      end
  end.
Proof.
  intros Hn. unfold factory, createPdu. rewrite (factory_spec n) by exact Hn. cbn [ifull heap out]. destruct (nth_error data 2) as [b|]; [|eauto].
  unfold table. pose proof (types_ok (b2z b)) as TO. destruct (zassoc (b2z b) ProgDis.PduTypeDecoders) as [c|]; rewrite <- TO; [|eauto]. intros v s E. now apply load_class in E.
Qed.
(** nothing else of the data or of the heap decides the class *)
Corollary C21_third_byte n h h' data data' v v' s s' : (2 <= n)%nat -> nth_error data 2 = nth_error data' 2 ->
  factory n h data = (Ok v, s) -> factory n h' data' = (Ok v', s') -> (v = VNone /\ v' = VNone) \/ exists c, is_new h c v s /\ is_new h' c v' s'.
Proof.
  intros Hn Hb E E'. pose proof (C21_dispatch n h data Hn) as A. pose proof (C21_dispatch n h' data' Hn) as B. rewrite <- Hb in B.
  destruct (nth_error data 2) as [b|].
  - destruct (zassoc (b2z b) pdu_types) as [c|]; [right; exists c; eauto|].
    left. destruct A as (s1 & A), B as (s2 & B). rewrite E in A. rewrite E' in B. split; congruence.
  - destruct A as (s1 & A). congruence.
Qed.
Lemma unknown_above b : 128 <= b2z b -> zassoc (b2z b) pdu_types = None.
Proof.
  intros H. apply (zassoc_out _ _ (fun z => z <? 128)); [reflexivity|]. apply Z.ltb_ge. exact H.
Qed.
Example C21_run : exists s, factory 50 [] [x07; x00; xc8; x00] = (Ok VNone, s). Proof. eexists. vm_compute. reflexivity. Qed.
Example C21_run2 : exists s, factory 50 [] ([x07; x00; x02; x02] ++ repeat x00 92) = (Ok (VRef 0), s). Proof. eexists. vm_compute. reflexivity. Qed.

(** ** C12 for createPdu *)
Theorem C12_created n h data b c f o s' W : (fuel_ok <= n)%nat -> nth_error data 2 = Some b -> zassoc (b2z b) pdu_types = Some c -> exact_layout c f ->
  factory n h data = (Ok o, s') -> contents the_prog (heap s') c f o = Some W -> nonan f W = true ->
  exists p, data = p ++ irest s' /\ serialize n o s' = (Ok VNone, appended s' p).
Proof.
  intros Hn Hb Hz L E HW HN. unfold factory, createPdu in E. rewrite (factory_spec n) in E by (unfold fuel_ok, need, G in Hn; lia). cbn [ifull heap out] in E.
  rewrite Hb in E. unfold table in E. rewrite types_ok, Hz in E. exact (C12_reencode n c f _ o s' W Hn L E HW HN).
Qed.
Example C12_created_case : exists f o s' W, exact_layout "FirePdu" f /\ zassoc 2 pdu_types = Some "FirePdu" /\
  factory 50 [] ([x07; x01; x02; x02] ++ repeat x41 92 ++ [x99]) = (Ok o, s') /\ contents the_prog (heap s') "FirePdu" f o = Some W /\ nonan f W = true /\ irest s' = [x99].
Proof. do 4 eexists. split; [split; vm_compute; reflexivity|]. split; [reflexivity|]. split; [vm_compute; reflexivity|]. split; [vm_compute; reflexivity|]. split; vm_compute; reflexivity. Qed.

(** ** C22 *)
(** o.a, for an object o *)
Definition getattr (n : nat) (o : val) (a : string) : M val := get_attr the_prog (run the_prog n) o a.
(** the PDU classes with a type number *)
Definition concrete_pdus : list (string * Z) :=
  Eval vm_compute in flat_map (fun c => if is_pdu c then match lookup the_prog c "pduType" with Some (MAttr (LInt t)) => [(c, t)] | _ => [] end else []) wire_classes.
(** those that cannot even be built *)
Definition unbuildable : list string := ["LinearObjectStatePdu"].

Definition built_type (p : string * Z) (n : nat) : M val := bind (new the_prog n (fst p) []) (fun o => getattr n o "pduType").
Lemma types_new i fu : forallb (fun p => mem (fst p) unbuildable || match fst (built_type p 20 (mkst [] i fu [])) with Ok (VInt t) => t =? snd p | _ => false end) concrete_pdus = true.
Proof. vm_compute. reflexivity. Qed.

(** a new instance of the class has the type number of its class *)
Lemma new_type n c t s : (20 <= n)%nat -> In (c, t) concrete_pdus -> mem c unbuildable = false ->
  exists o s1 s2, new the_prog n c [] s = (Ok o, s1) /\ getattr n o "pduType" s1 = (Ok (VInt t), s2).
Proof.
  intros Hn Hin Hb. pose proof (types_new (irest s) (ifull s)) as F. rewrite forallb_forall in F. specialize (F _ Hin). cbn [fst] in F. rewrite Hb in F. cbn [orb] in F.
  destruct (built_type (c, t) 20 (mkst [] (irest s) (ifull s) [])) as [r s1] eqn:E. cbn [fst] in F. destruct r as [v|]; [|discriminate]. destruct v; try discriminate.
  apply Z.eqb_eq in F. cbn [snd] in F. subst z.
  pose proof (anywhere (built_type (c, t)) 20 (Ok (VInt t)) s1 s (portable_new_get the_prog no_shared c "pduType") E ltac:(discriminate) n Hn) as H.
  unfold built_type, bind in H. cbn [fst] in H. destruct (new the_prog n c [] s) as [[o|e] s2]; [|discriminate]. exists o, s2. eexists. split; [reflexivity|exact H].
Qed.

(** the type number of a class, and the class the factory makes for it, are the same except for *)
Definition misrouted : list string := ["ResupplyOfferPdu"; "FastEntityStatePdu"; "StartResumeReliablePdu"; "DirectedEnergyFirePdu"; "SeesPdu"].
Lemma routes : forallb (fun p => mem (fst p) misrouted || match zassoc (snd p) pdu_types with Some d => String.eqb (fst p) d | None => false end) concrete_pdus = true.
Proof. vm_compute. reflexivity. Qed.

Theorem C22_own_type_partial n h c t data b : (20 <= n)%nat -> In (c, t) concrete_pdus -> mem c misrouted = false ->
  (mem c unbuildable = false -> forall s, exists o s1 s2, new the_prog n c [] s = (Ok o, s1) /\ getattr n o "pduType" s1 = (Ok (VInt t), s2)) /\
  (nth_error data 2 = Some b -> b2z b = t -> forall v s, factory n h data = (Ok v, s) -> is_new h c v s).
Proof.
  intros Hn Hin Hm. split; [intros Hu s; now apply new_type|].
  intros Hb Ht v s E. pose proof (C21_dispatch n h data ltac:(lia)) as D. rewrite Hb, Ht in D.
  pose proof routes as F. rewrite forallb_forall in F. specialize (F _ Hin). cbn [fst snd] in F. rewrite Hm in F. cbn [orb] in F.
  destruct (zassoc t pdu_types) as [d|]; [|discriminate]. apply String.eqb_eq in F. subst d. now apply D.
Qed.

(** a new object of one of these five classes says type t, and no datagram of type t is ever decoded as that class *)
Theorem C22_own_type_refuted n c : (20 <= n)%nat -> mem c misrouted = true ->
  exists t, In (c, t) concrete_pdus /\ (forall s, exists o s1 s2, new the_prog n c [] s = (Ok o, s1) /\ getattr n o "pduType" s1 = (Ok (VInt t), s2)) /\
  (forall h data b v s, nth_error data 2 = Some b -> b2z b = t -> factory n h data = (Ok v, s) -> ~ is_new h c v s).
Proof.
  intros Hn Hm.
  assert (T : exists t, In (c, t) concrete_pdus /\ mem c unbuildable = false /\ match zassoc t pdu_types with Some d => d <> c | None => True end).
  { unfold misrouted, mem in Hm. cbn [existsb] in Hm. rewrite !orb_true_iff, !String.eqb_eq in Hm.
    destruct Hm as [->|[->|[->|[->|[->|Hm]]]]]; [exists 6|exists 1|exists 53|exists 68|exists 30|discriminate]; (split; [vm_compute; tauto|]); (split; [reflexivity|]); vm_compute; try exact I; discriminate. }
  destruct T as (t & Hin & Hu & Hz). exists t. split; [exact Hin|]. split; [intros s; now apply new_type|].
  intros h data b v s Hb Ht E HN. pose proof (C21_dispatch n h data ltac:(lia)) as D. rewrite Hb, Ht in D.
  destruct (zassoc t pdu_types) as [d|].
  - specialize (D v s E). destruct HN as (l & at_ & -> & _ & H1). destruct D as (l2 & at2 & [= <-] & _ & H2). congruence.
  - destruct D as [s' D]. rewrite D in E. injection E as <- _. destruct HN as (l & at_ & X & _). discriminate.
Qed.

(** ** C23 *)
(** the PDU types for which some datagram gets another exception *)
Definition unsafe : list Z := [7; 25; 29; 31; 32; 33; 40; 44; 63; 69].
Definition safe_class (c : string) : bool := match layout c with Some f => negb (has_bits f) && negb (has_null f) | None => false end.
Lemma safe_types : forallb (fun p => existsb (Z.eqb (fst p)) unsafe || safe_class (snd p)) ProgDis.PduTypeDecoders = true.
Proof. vm_compute. reflexivity. Qed.

Theorem C23_safe_partial n h data : (fuel_ok <= n)%nat -> (forall b, nth_error data 2 = Some b -> existsb (Z.eqb (b2z b)) unsafe = false) ->
  match fst (factory n h data) with Ok _ => True | Exc e => e = StructError end.
Proof.
  intros Hn Hs. unfold factory, createPdu. assert (2 <= n)%nat by (unfold fuel_ok in Hn; vm_compute in Hn; lia). rewrite (factory_spec n) by assumption. cbn [ifull heap out].
  destruct (nth_error data 2) as [b|]; [|reflexivity]. specialize (Hs b eq_refl). unfold table. destruct (zassoc (b2z b) ProgDis.PduTypeDecoders) as [c|] eqn:E; [|exact I].
  assert (S : safe_class c = true).
  { pose proof safe_types as F. rewrite forallb_forall in F. assert (I1 : In (b2z b, c) ProgDis.PduTypeDecoders).
    { revert E. generalize ProgDis.PduTypeDecoders. induction l as [|[y w] r IH]; simpl; [discriminate|]. destruct (Z.eqb_spec (b2z b) y); [intros [= ->]; left; congruence|auto]. }
    specialize (F _ I1). cbn [fst snd] in F. now rewrite Hs in F. }
  unfold safe_class in S. destruct (layout c) as [f|] eqn:L; [|discriminate]. apply andb_prop in S as [S1 S2]. apply negb_true_iff in S1, S2.
  set (s0 := mkst h data data []).
  destruct (C13_total n c f s0 Hn) as [(o & s' & ->)|[(s' & ->) _]]; [split; [exact L|split; assumption]|exact I|reflexivity].
Qed.

(** one datagram for each of the other types *)
Definition crash (t : byte) : list byte :=
  [x07; x01; t] ++
  if Byte.eqb t x21 then repeat x00 (9 + 6 + 2 + 8 + 4 + 32 + 12 + 12 + 24 + 12) ++ [x00; x00; x00; x00; x00; x00; x00; x01] ++ [x00; x00; x00; x01] ++ repeat x00 100
  else if Byte.eqb t x3f then repeat x00 38 ++ [x01] ++ repeat x00 100 else repeat x01 700.
Definition escapes (r : res val) : bool := match r with Exc StructError | Exc RecursionError | Ok _ => false | Exc _ => true end.
Lemma crashes : forallb (fun t => match Byte.of_N (Z.to_N t) with
  | Some b => (b2z b =? t) && match nth_error (crash b) 2 with Some b' => b2z b' =? t | None => false end && escapes (fst (factory 50 [] (crash b))) | None => false end) unsafe = true.
Proof. vm_compute. reflexivity. Qed.

Theorem C23_safe_refuted n h t : (50 <= n)%nat -> In t unsafe ->
  exists data b e, nth_error data 2 = Some b /\ b2z b = t /\ fst (factory n h data) = Exc e /\ e <> StructError.
Proof.
  intros Hn Hin. pose proof crashes as F. rewrite forallb_forall in F. specialize (F _ Hin). destruct (Byte.of_N (Z.to_N t)) as [b|]; [|discriminate].
  apply andb_prop in F as [F F3]. apply andb_prop in F as [F1 F2]. destruct (nth_error (crash b) 2) as [b'|] eqn:E; [|discriminate].
  destruct (factory 50 [] (crash b)) as [r s1] eqn:E2. cbn [fst] in F3.
  assert (Hr : r <> Exc RecursionError) by (intros ->; discriminate).
  pose proof (anywhere _ 50 r s1 (mkst h (crash b) (crash b) []) (portable_getPdu the_prog no_shared ProgDis.PduTypeDecoders) E2 Hr n Hn) as H.
  destruct r as [v|e]; [discriminate|]. exists (crash b), b', e. split; [exact E|]. split; [now apply Z.eqb_eq|]. split.
  - unfold factory, createPdu. now rewrite H.
  - intros ->. discriminate.
Qed.
(** a type is safe exactly if it is not in the list *)
Corollary C23_exact n t : (fuel_ok <= n)%nat -> (50 <= n)%nat ->
  (In t unsafe <-> exists data b h e, nth_error data 2 = Some b /\ b2z b = t /\ fst (factory n h data) = Exc e /\ e <> StructError).
Proof.
  intros H1 H2. split.
  - intros Hin. destruct (C23_safe_refuted n [] t H2 Hin) as (data & b & e & H). now exists data, b, [], e.
  - intros (data & b & h & e & Hb & Ht & He & Hne). destruct (existsb (Z.eqb t) unsafe) eqn:E.
    + apply existsb_exists in E as (x & Hx & Ex). apply Z.eqb_eq in Ex. now subst x.
    + pose proof (C23_safe_partial n h data H1) as S. rewrite Hb in S. rewrite He in S. exfalso. apply Hne, S. intros b' [= <-]. now rewrite Ht.
Qed.
Example C23_run : map (fun t => fst (factory 50 [] (crash t))) [x07; x19; x21] = [Exc NameError; Exc TypeError; Exc NameError]. Proof. vm_compute. reflexivity. Qed.

(** ** C24 *)
(** the objects one can get at from a value *)
Inductive reach (h : list hobj) : val -> nat -> Prop :=
| reach_here l : reach h (VRef l) l
| reach_part vs v l : In v vs -> reach h v l -> reach h (VTuple vs) l
| reach_attr l c at_ a v l' : nth_error h l = Some (HInst c at_) -> In (a, v) at_ -> reach h v l' -> reach h (VRef l) l'
| reach_item l vs v l' : nth_error h l = Some (HList vs) -> In v vs -> reach h v l' -> reach h (VRef l) l'.

Fixpoint vin (lo hi : nat) (v : val) : bool :=
  match v with VRef l => Nat.leb lo l && Nat.ltb l hi | VTuple vs => forallb (vin lo hi) vs | _ => true end.
Definition oin (lo hi : nat) (o : hobj) : bool := match o with HInst _ a => forallb (fun p => vin lo hi (snd p)) a | HList vs => forallb (vin lo hi) vs end.
Lemma reach_in h lo hi : (forall l o, (lo <= l < hi)%nat -> nth_error h l = Some o -> oin lo hi o = true) ->
  forall v l, reach h v l -> vin lo hi v = true -> (lo <= l < hi)%nat.
Proof.
  intros Hh v l Hr. induction Hr as [l|vs v l Hi Hr IH|l c at_ a v l' E Hi Hr IH|l vs v l' E Hi Hr IH]; simpl; intros Hv.
  - apply andb_prop in Hv as [A B]. apply Nat.leb_le in A. apply Nat.ltb_lt in B. lia.
  - rewrite forallb_forall in Hv. auto.
  - apply andb_prop in Hv as [A B]. apply Nat.leb_le in A. apply Nat.ltb_lt in B. specialize (Hh l _ (conj A B) E). simpl in Hh. rewrite forallb_forall in Hh. apply IH, (Hh (a, v) Hi).
  - apply andb_prop in Hv as [A B]. apply Nat.leb_le in A. apply Nat.ltb_lt in B. specialize (Hh l _ (conj A B) E). simpl in Hh. rewrite forallb_forall in Hh. apply IH, (Hh v Hi).
Qed.
Fixpoint shift_in k n v {struct v} : vok n v = true -> vin k (k + n) (shift k v) = true.
Proof.
  destruct v; simpl; auto.
  - rewrite Nat.ltb_lt. intros H. apply andb_true_iff. split; [apply Nat.leb_le|apply Nat.ltb_lt]; lia.
  - induction vs as [|x r IH]; simpl; auto. rewrite !andb_true_iff. intros [A B]. split; [now apply shift_in|auto].
Qed.
Lemma shift_obj_in k n o : ook n o = true -> oin k (k + n) (shift_obj k o) = true.
Proof.
  destruct o as [c at_|vs]; simpl; unfold eok, shift_env; rewrite !forallb_forall; intros H x Hx; apply in_map_iff in Hx as (y & <- & Hy); apply shift_in; [apply (H y Hy)|auto].
Qed.

(** the factory adds its objects at the end of the heap; the old ones are unchanged; whatever is added to the heap later, what can be
    reached from the result are those new objects *)
Theorem C24_isolated n h data : exists new, heap (snd (factory n h data)) = h ++ new /\
  forall v, fst (factory n h data) = Ok v -> forall later l, reach (h ++ new ++ later) v l -> (length h <= l < length h + length new)%nat.
Proof.
  unfold factory, createPdu.
  pose proof (sim_getPdu h [] the_prog no_shared ProgDis.PduTypeDecoders n (mkst [] data data [])) as S. unfold lift in S at 1. cbn [heap irest ifull out map] in S. rewrite !app_nil_r in S.
  pose proof (cl_getPdu the_prog no_shared ProgDis.PduTypeDecoders n 0 (mkst [] data data []) eq_refl ltac:(simpl; lia)) as (C1 & _ & C2).
  destruct (getPdu the_prog ProgDis.PduTypeDecoders n (mkst [] data data [])) as [r s1]. cbn [fst snd] in *. rewrite S. cbn [fst snd lift heap].
  exists (map (shift_obj (length h)) (heap s1)). split; [reflexivity|]. intros v Hv later l Hr. rewrite map_length. destruct r as [v1|e]; [|discriminate]. cbn [map_res] in Hv. injection Hv as <-.
  eapply reach_in; [|exact Hr|now apply shift_in].
  intros l' o Hl Ho. rewrite nth_error_app2 in Ho by lia. rewrite nth_error_app1 in Ho by (rewrite map_length; lia). rewrite nth_error_map in Ho.
  destruct (nth_error (heap s1) (l' - length h)) as [o1|] eqn:E1; [|discriminate]. cbn [option_map] in Ho. injection Ho as <-. apply shift_obj_in. eapply hok_get; eauto.
Qed.

(** receiving one datagram after the other *)
Fixpoint receive (n : nat) (h : list hobj) (ds : list (list byte)) : list (res val) * list hobj :=
  match ds with
  | [] => ([], h)
  | d :: r => let '(v, s) := factory n h d in let '(vs, h') := receive n (heap s) r in (v :: vs, h')
  end.
Lemma receive_grows n ds : forall h, exists more, snd (receive n h ds) = h ++ more.
Proof.
  induction ds as [|d r IH]; intros h; simpl; [exists []; now rewrite app_nil_r|]. destruct (C24_isolated n h d) as (nw & A & _). destruct (factory n h d) as [v s]. simpl in A.
  destruct (IH (heap s)) as (more & B). destruct (receive n (heap s) r) as [vs h']. simpl in *. exists (nw ++ more). now rewrite app_assoc, <- A.
Qed.
Lemma receive_new n ds : forall h i v l, nth_error (fst (receive n h ds)) i = Some (Ok v) -> forall later, reach (snd (receive n h ds) ++ later) v l -> (length h <= l)%nat.
Proof.
  induction ds as [|d r IH]; intros h i v l; simpl; [destruct i; discriminate|]. destruct (C24_isolated n h d) as (nw & A & B). destruct (factory n h d) as [v0 s]. simpl in A, B.
  destruct (receive_grows n r (heap s)) as (more & G). specialize (IH (heap s)). destruct (receive n (heap s) r) as [vs h']. simpl in *. destruct i as [|i]; simpl.
  - intros [= ->] later Hr. apply (B v eq_refl (more ++ later)). rewrite G, A in Hr. now rewrite <- !app_assoc in Hr.
  - intros E later Hr. specialize (IH i v l E later Hr). rewrite A, app_length in IH. lia.
Qed.
(** after any number of datagrams: no object belongs to two of the decoded PDUs, or to one of them and to the objects there were before *)
Theorem C24_disjoint n ds : forall h, (exists more, snd (receive n h ds) = h ++ more) /\
  (forall i v l, nth_error (fst (receive n h ds)) i = Some (Ok v) -> reach (snd (receive n h ds)) v l -> (length h <= l)%nat) /\
  (forall i j v w l, i <> j -> nth_error (fst (receive n h ds)) i = Some (Ok v) -> nth_error (fst (receive n h ds)) j = Some (Ok w) ->
    reach (snd (receive n h ds)) v l -> ~ reach (snd (receive n h ds)) w l).
Proof.
  induction ds as [|d r IH]; intros h.
  - split; [exists []; simpl; now rewrite app_nil_r|]. split; intros i; simpl; [destruct i; discriminate|intros j v w l _; destruct i; discriminate].
  - split; [apply receive_grows|]. split.
    + intros i v l E Hr. eapply (receive_new n (d :: r) h i v l E []). now rewrite app_nil_r.
    + simpl. destruct (C24_isolated n h d) as (nw & A & B). destruct (factory n h d) as [v0 s] eqn:F. cbn [fst snd] in A, B.
      destruct (receive_grows n r (heap s)) as (more & G). pose proof (receive_new n r (heap s)) as RN. destruct (IH (heap s)) as (_ & _ & D).
      destruct (receive n (heap s) r) as [vs h']. cbn [fst snd] in *.
      assert (X : forall i v w l, v0 = Ok v -> nth_error vs i = Some (Ok w) -> reach h' v l -> reach h' w l -> False).
      { intros i v w l -> E R1 R2. rewrite G, A, <- app_assoc in R1. specialize (B v eq_refl more l R1).
        specialize (RN i w l E []). rewrite app_nil_r in RN. specialize (RN R2). rewrite A, app_length in RN. lia. }
      intros [|i] [|j] v w l Hij; simpl; try congruence; intros E1 E2 R1 R2.
      * eapply X; [|exact E2|exact R1|exact R2]. congruence.
      * eapply X; [|exact E1|exact R2|exact R1]. congruence.
      * exact (D i j v w l ltac:(congruence) E1 E2 R1 R2).
Qed.

(** two EntityStatePdus: two trees of objects *)
Example C24_run : let d := [x07; x00; x01; x01] ++ repeat x00 140 in
  match receive 50 [] [d; d] with ([Ok (VRef a); Ok (VRef b)], h) => (a <? b)%nat && (b <? length h)%nat && (1 <? b - a)%nat = true | _ => False end.
Proof. vm_compute. reflexivity. Qed.

Definition all_PropFactory := (C19_header, C11_factory_round_trip, C12_created, C20_length_partial, C20_length_refuted, C21_dispatch, C21_third_byte, C22_own_type_partial, C22_own_type_refuted,
  C23_safe_partial, C23_safe_refuted, C23_exact, C24_isolated, C24_disjoint).
Print Assumptions all_PropFactory.
