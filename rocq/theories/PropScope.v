(** * C10: which classes have a wire layout, that is, which classes the theorems about layouts are about (opendis/dis7.py: every class with a serialize method) *)
From Coq Require Import ZArith String List Bool.
From Verif Require Import Lang Interp ProgBase ProgDis Prog Spec Codec Layouts Refine Classes.
Import ListNotations.
Open Scope string_scope. Open Scope list_scope.

(** the abstract families of PDUs, and the classes whose serialize and parse disagree, or that cannot be built or written: they have theorems of their own (C23, C28, C31, C38, C39, C59, C60, C62, C64, C82) *)
Definition others : list string :=
  ["UnknownRadio"; "UnknownAntennaPattern"; "SpreadSpectrum"; "ModulationType"; "HighFidelityHAVEQUICKRadio"; "DEFireFlags"; "DirectedEnergyDamage";
   "DirectedEnergyAreaAimpoint"; "DirectedEnergyPrecisionAimpoint"; "UnknownStandardVariableRecord"; "IFFData"; "IFFDataSpecification";
   "SilentAggregateSystem"; "PduSuperclass"; "LiveEntityPdu"; "Pdu"; "EntityInformationFamilyPdu"; "LogisticsFamilyPdu";
   "SyntheticEnvironmentFamilyPdu"; "SimulationManagementFamilyPdu"; "LinearObjectStatePdu"; "RadioCommunicationsFamilyPdu"; "WarfareFamilyPdu";
   "DistributedEmissionsFamilyPdu"; "SimulationManagementWithReliabilityFamilyPdu"; "EntityManagementFamilyPdu"; "TransmitterPdu"; "AttributePdu";
   "MinefieldFamilyPdu"; "DirectedEnergyFirePdu"; "EntityDamageStatusPdu"; "IntercomControlPdu"; "AggregateStatePdu"].

Lemma all_in_scope : forallb (fun c => match lookup the_prog c "serialize" with
  | Some (MMeth m) => m_abstract m || existsb (String.eqb c) others || match layout c with Some _ => true | None => false end | _ => true end) (map fst (p_classes the_prog)) = true.
Proof. vm_compute. reflexivity. Qed.
(** every class of the program with a serialize method that is not abstract, other than those listed, has a layout *)
Theorem C10_covers c m : In c (map fst (p_classes the_prog)) -> lookup the_prog c "serialize" = Some (MMeth m) -> m_abstract m = false -> ~ In c others -> exists f, layout c = Some f.
Proof.
  intros Hc Hm Ha Ho. pose proof all_in_scope as K. rewrite forallb_forall in K. specialize (K _ Hc). rewrite Hm, Ha in K. cbn [orb] in K. apply orb_prop in K as [K|K].
  - apply existsb_exists in K as (d & Hd & E). apply String.eqb_eq in E. now subst.
  - destruct (layout c); [eauto|discriminate].
Qed.
(** the classes listed have none *)
Lemma others_out : forallb (fun c => match layout c with Some _ => false | None => true end) others = true.
Proof. vm_compute. reflexivity. Qed.
Theorem C10_others c : In c others -> layout c = None.
Proof. intros H. pose proof others_out as K. rewrite forallb_forall in K. specialize (K _ H). now destruct (layout c). Qed.
Lemma in_by_eqb c l : existsb (String.eqb c) l = true -> In c l.
Proof. intros H. apply existsb_exists in H as (d & Hd & E). apply String.eqb_eq in E. now subst. Qed.
Example C10_covers_case : exists m, In "EntityStatePdu" (map fst (p_classes the_prog)) /\ lookup the_prog "EntityStatePdu" "serialize" = Some (MMeth m) /\ m_abstract m = false /\ ~ In "EntityStatePdu" others.
Proof. eexists. split; [apply in_by_eqb; vm_compute; reflexivity|]. split; [vm_compute; reflexivity|]. split; [reflexivity|]. vm_compute. intuition discriminate. Qed.
Example how_many : Z.of_nat (length (filter (fun p => match layout (fst p) with Some _ => true | None => false end) (p_classes the_prog))) = 159%Z /\ Z.of_nat (length others) = 33%Z.
Proof. split; vm_compute; reflexivity. Qed.

Definition all_PropScope := (C10_covers, C10_others, C10_covers_case).
Print Assumptions all_PropScope.
