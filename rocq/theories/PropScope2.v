(** * C12, C13, C18, C19, C27, C60, C65: which classes and attributes meet the conditions these theorems make on a layout (opendis/dis7.py: every class with a serialize method) *)
From Coq Require Import ZArith String List Bool.
From Verif Require Import Lang Interp ProgBase ProgDis Prog Spec Codec SerSound Layouts Refine Classes PropCodec PropFactory PropEffects Declared PropDeclared PropAccept PropScope.
Import ListNotations.
Open Scope string_scope. Open Scope list_scope.

(** the classes with bits or bytes that serialize does not write as they were read: C12 is about the others *)
Definition ignoring : list string :=
  ["DatumSpecification"; "BeamStatus"; "VariableDatum"; "IntercomSignalPdu"; "ActionRequestPdu"; "ActionRequestReliablePdu"; "ElectromagneticEmissionsPdu"; "EmissionSystemBeamRecord";
   "EmissionSystemRecord"; "SetDataReliablePdu"; "EventReportPdu"; "DataPdu"; "FastEntityStatePdu"; "DataReliablePdu"; "CommentPdu"; "CommentReliablePdu"; "SetDataPdu"; "ActionResponsePdu"; "SignalPdu";
   "EventReportReliablePdu"; "ActionResponseReliablePdu"].
(** the classes of which parse can raise something else than what it raises on too few bytes, whatever follows: C13 is about the others *)
Definition failing : list string :=
  ["NetId"; "BasicHaveQuickMP"; "GridAxisDescriptorVariable"; "SilentEntitySystem"; "StandardVariableSpecification"; "RecordSpecification"; "IntercomSignalPdu"; "ResupplyReceivedPdu"; "RecordQueryReliablePdu"; "UaPdu"; "SeesPdu";
   "MinefieldResponseNackPdu"].
(** the classes with lists that parse extends, or with bit fields: C27_replaces_partial is about the others *)
Definition extending : list string :=
  ["NetId"; "BasicHaveQuickMP"; "DataQueryDatumSpecification"; "RecordQuerySpecification"; "DatumSpecification"; "VariableDatum"; "EntityStateUpdatePdu"; "ServiceRequestPdu"; "DataQueryPdu";
   "ActionRequestPdu"; "ActionRequestReliablePdu"; "EntityStatePdu"; "ElectromagneticEmissionsPdu"; "EmissionSystemBeamRecord"; "EmissionSystemRecord"; "ResupplyOfferPdu"; "SetDataReliablePdu";
   "EventReportPdu"; "DataPdu"; "FastEntityStatePdu"; "ArealObjectStatePdu"; "DataQueryReliablePdu"; "MinefieldStatePdu"; "DataReliablePdu"; "CommentPdu"; "CommentReliablePdu";
   "DetonationPdu"; "SetDataPdu"; "ActionResponsePdu"; "SignalPdu"; "EventReportReliablePdu"; "ActionResponseReliablePdu"].
(** the classes with a part of which serialize writes only some of what is there: C65_same is about the others *)
Definition shortening : list string :=
  ["NetId"; "BasicHaveQuickMP"; "DeadReckoningParameters"; "EntityMarking"; "DatumSpecification"; "IFFFundamentalParameterData"; "AggregateMarking"; "BeamStatus"; "VariableDatum";
   "ActionRequestPdu"; "ActionRequestReliablePdu"; "EntityStatePdu"; "ElectromagneticEmissionsPdu"; "EmissionSystemBeamRecord"; "EmissionSystemRecord"; "SetDataReliablePdu"; "EventReportPdu";
   "DataPdu"; "FastEntityStatePdu"; "DataReliablePdu"; "CommentPdu"; "CommentReliablePdu"; "SetDataPdu"; "ActionResponsePdu"; "EventReportReliablePdu"; "ActionResponseReliablePdu"].

Definition spare (l : list string) (q : fmt -> bool) : bool := forallb (fun p => existsb (String.eqb (fst p)) l || match layout (fst p) with Some f => q f | None => true end) TW.
Lemma spare_inv l q c f : spare l q = true -> layout c = Some f -> ~ In c l -> q f = true.
Proof.
  intros H L Hn. unfold spare in H. rewrite forallb_forall in H. destruct (layout_inv _ _ L) as (L1 & _). specialize (H _ (assoc_In _ _ _ L1)). cbn [fst] in H. rewrite L in H.
  apply orb_prop in H as [H|H]; [|exact H]. apply in_by_eqb in H. contradiction.
Qed.
Lemma spare_all : spare ignoring exact && spare failing (fun f => negb (has_bits f) && negb (has_null f)) && spare extending (fun f => negb (has_bits f) && no_lists f) && spare shortening (fun f => negb (cuts f)) = true.
Proof. vm_compute. reflexivity. Qed.
Lemma spares : spare ignoring exact = true /\ spare failing (fun f => negb (has_bits f) && negb (has_null f)) = true /\ spare extending (fun f => negb (has_bits f) && no_lists f) = true /\ spare shortening (fun f => negb (cuts f)) = true.
Proof. pose proof spare_all as H. repeat (apply andb_prop in H as [H ?]). auto. Qed.

Theorem C12_covers c f : layout c = Some f -> ~ In c ignoring -> exact_layout c f.
Proof. intros L H. split; [exact L|]. exact (spare_inv _ _ _ _ (proj1 spares) L H). Qed.
Theorem C13_covers c f : layout c = Some f -> ~ In c failing -> total_layout c f.
Proof. intros L H. pose proof (spare_inv _ _ _ _ (proj1 (proj2 spares)) L H) as K. apply andb_prop in K as [K1 K2]. split; [exact L|]. split; now apply negb_true_iff. Qed.
Theorem C27_covers c f : layout c = Some f -> ~ In c extending -> has_bits f = false /\ no_lists f = true.
Proof. intros L H. pose proof (spare_inv _ _ _ _ (proj1 (proj2 (proj2 spares))) L H) as K. apply andb_prop in K as [K1 K2]. split; [now apply negb_true_iff|exact K2]. Qed.
Theorem C65_covers c f : layout c = Some f -> ~ In c shortening -> cuts f = false.
Proof. intros L H. pose proof (spare_inv _ _ _ _ (proj2 (proj2 (proj2 spares))) L H) as K. now apply negb_true_iff. Qed.
Example scope_case : exists f, layout "FirePdu" = Some f /\ ~ In "FirePdu" ignoring /\ ~ In "FirePdu" failing /\ ~ In "FirePdu" extending /\ ~ In "FirePdu" shortening.
Proof. eexists. split; [vm_compute; reflexivity|]. cbn. repeat split; intuition discriminate. Qed.

(** the declared attributes that are not written under their own name: a length and a count that are computed, one whose padding is written as a constant, and two that are lost *)
Definition unwritten : list (string * string) :=
  [("IFFData", "recordLength"); ("GridAxisDescriptorVariable", "numberOfPointsOnXiAxis"); ("Environment", "padding0"); ("EmissionSystemRecord", "paddingForEmissionsPdu"); ("PointObjectStatePdu", "pad1")].
Lemma declared_written : forallb (fun q => forallb (fun e => let '(k, a, _) := e in negb (mem k (mro the_prog (fst q))) || mem a (names (snd q)) || existsb (fun u => String.eqb k (fst u) && String.eqb a (snd u)) unwritten) declared) TW = true.
Proof. vm_compute. reflexivity. Qed.
(** every other attribute that a class, or a class it inherits from, declares is a field of what the class writes *)
Theorem C60_covers c f k a p : assoc c TW = Some f -> In k (mro the_prog c) -> In (k, a, p) declared -> ~ In (k, a) unwritten -> In a (names f).
Proof.
  intros L Hk Hd Hu. pose proof declared_written as K. rewrite forallb_forall in K. specialize (K _ (assoc_In _ _ _ L)). cbn [fst snd] in K. rewrite forallb_forall in K. specialize (K _ Hd). cbv beta iota in K.
  rewrite (proj2 (mem_In k _) Hk) in K. cbn [negb orb] in K. apply orb_prop in K as [K|K]; [now apply mem_In in K|]. apply existsb_exists in K as ([k' a'] & Hin & K). cbn [fst snd] in K. apply andb_prop in K as [K1 K2].
  apply String.eqb_eq in K1. apply String.eqb_eq in K2. subst. contradiction.
Qed.
(** every concrete PDU class but four has a layout to write: C19_header is about these, C19_header_special about the four *)
Lemma pdus_written : forallb (fun c => match lookup the_prog c "serialize" with
  | Some (MMeth m) => m_abstract m || negb (is_pdu c) || existsb (String.eqb c) ["TransmitterPdu"; "DirectedEnergyFirePdu"; "EntityDamageStatusPdu"; "AggregateStatePdu"] || match assoc c TW with Some _ => true | None => false end
  | _ => true end) (map fst (p_classes the_prog)) = true.
Proof. vm_compute. reflexivity. Qed.
Theorem C19_covers c m : In c (map fst (p_classes the_prog)) -> is_pdu c = true -> lookup the_prog c "serialize" = Some (MMeth m) -> m_abstract m = false ->
  ~ In c ["TransmitterPdu"; "DirectedEnergyFirePdu"; "EntityDamageStatusPdu"; "AggregateStatePdu"] -> exists f, assoc c TW = Some f.
Proof.
  intros Hc Hp Hm Ha Ho. pose proof pdus_written as K. rewrite forallb_forall in K. specialize (K _ Hc). rewrite Hm, Ha, Hp in K. cbn [negb orb] in K. apply orb_prop in K as [K|K].
  - apply in_by_eqb in K. contradiction.
  - destruct (assoc c TW); [eauto|discriminate].
Qed.
(** the table count_fields has every count of every layout *)
Lemma all_counts : forallb (fun q => match layout (fst q) with Some f => negb (has_cnt (map (fun e => fst (fst (snd e))) (filter (fun e => String.eqb (fst e) (fst q)) count_fields)) f) | None => true end) TW = true.
Proof. vm_compute. reflexivity. Qed.
Lemma has_cnt_in l f1 a p m f2 : has_cnt l (fapp f1 (Cnt a p m f2)) = false -> In a l.
Proof. induction f1; cbn [fapp has_cnt]; auto; intros H; apply orb_false_iff in H as [H H']; auto. apply negb_false_iff in H. now apply mem_In. Qed.
Theorem C18_covers c f f1 a p m f2 : layout c = Some f -> f = fapp f1 (Cnt a p m f2) -> exists w k, In (c, (a, w, k)) count_fields.
Proof.
  intros L E. destruct (layout_inv _ _ L) as (L1 & _). pose proof all_counts as K. rewrite forallb_forall in K. specialize (K _ (assoc_In _ _ _ L1)). cbn [fst] in K. rewrite L, E in K. apply negb_true_iff in K.
  apply has_cnt_in in K. apply in_map_iff in K as ([c' [[a' w] k]] & <- & Hin). apply filter_In in Hin as [Hin Hc]. cbn [fst snd] in *. apply String.eqb_eq in Hc. subst. eauto.
Qed.

Definition all_PropScope2 := (C12_covers, C13_covers, C27_covers, C65_covers, C60_covers, C19_covers, C18_covers, scope_case).
Print Assumptions all_PropScope2.
