(** * Which classes the codec theorems are about

    [layout c = Some f]: class c can be built without arguments, and its serialize and its parse follow the same layout f
    ([Layouts.v]; that the methods do follow it is [Refine.serialize_spec] and [Refine.load_spec]). *)
From Coq Require Import ZArith String List Bool Lia.
From Coq Require Import Strings.Byte.
From Verif Require Import Lang Bytes Interp ProgDis Prog Spec Codec Codec2 Rep Dec StreamLem SerSound ParSound NewSound Layouts Refine Api.
Import ListNotations.
Open Scope string_scope. Open Scope Z_scope. Open Scope list_scope.

Definition layout (c : string) : option fmt :=
  if mem c NC then match assoc c TW, assoc c TR with Some f, Some g => if fmt_dec f g then Some f else None | _, _ => None end else None.

Lemma layout_inv c f : layout c = Some f -> assoc c TW = Some f /\ assoc c TR = Some f /\ mem c NC = true.
Proof.
  unfold layout. destruct (mem c NC); [|discriminate]. destruct (assoc c TW) as [g|]; [|discriminate]. destruct (assoc c TR) as [h|]; [|discriminate].
  destruct (fmt_dec g h) as [->|]; [|discriminate]. intros [= ->]. auto.
Qed.

(** the classes of the library that are records or PDUs: those with a serialize method of their own or inherited *)
Definition wire_classes : list string :=
  Eval vm_compute in filter (fun c => match lookup the_prog c "serialize" with Some (MMeth m) => negb (m_abstract m) | _ => false end) (map fst (p_classes the_prog)).

(** those without a layout: abstract families, and the classes listed here *)
Definition no_layout : list string := Eval vm_compute in filter (fun c => match layout c with None => true | Some _ => false end) wire_classes.

Definition all_layouts (q : fmt -> bool) : bool := forallb (fun c => match layout c with Some f => q f | None => true end) (map fst TW).

Lemma all_layouts_inv q c f : all_layouts q = true -> layout c = Some f -> q f = true.
Proof.
  intros H E. unfold all_layouts in H. rewrite forallb_forall in H. assert (I : In c (map fst TW)).
  { apply layout_inv in E as (E & _). apply assoc_In in E. apply in_map_iff. exists (c, f). auto. }
  specialize (H c I). now rewrite E in H.
Qed.

Lemma layouts_sound : all_layouts sound = true. Proof. vm_compute. reflexivity. Qed.
Lemma layout_sound c f : layout c = Some f -> sound f = true.
Proof. apply all_layouts_inv, layouts_sound. Qed.
Lemma layout_wf c f : layout c = Some f -> wf f = true.
Proof. intros H. apply layout_sound in H. unfold sound in H. now apply andb_prop in H. Qed.
Lemma layout_tidy c f : layout c = Some f -> subs_nodup f = true /\ nodupb (names f) = true.
Proof. intros H. apply layout_inv in H as (H & _). eapply tidy_inv; eauto using tidyS. Qed.


Example no_layout_is : no_layout =
  ["UnknownRadio"; "UnknownAntennaPattern"; "SpreadSpectrum"; "ModulationType"; "HighFidelityHAVEQUICKRadio"; "DEFireFlags"; "DirectedEnergyDamage";
   "DirectedEnergyAreaAimpoint"; "DirectedEnergyPrecisionAimpoint"; "UnknownStandardVariableRecord"; "IFFData"; "IFFDataSpecification";
   "SilentAggregateSystem"; "PduSuperclass"; "LiveEntityPdu"; "Pdu"; "EntityInformationFamilyPdu"; "LogisticsFamilyPdu";
   "SyntheticEnvironmentFamilyPdu"; "SimulationManagementFamilyPdu"; "LinearObjectStatePdu"; "RadioCommunicationsFamilyPdu"; "WarfareFamilyPdu";
   "DistributedEmissionsFamilyPdu"; "SimulationManagementWithReliabilityFamilyPdu"; "EntityManagementFamilyPdu"; "TransmitterPdu"; "AttributePdu";
   "MinefieldFamilyPdu"; "DirectedEnergyFirePdu"; "EntityDamageStatusPdu"; "IntercomControlPdu"; "AggregateStatePdu"].
Proof. reflexivity. Qed.

(** ** serialize and load of these classes *)
Lemma ser_layout n c f o s W : (fuel_ok <= n)%nat -> layout c = Some f -> contents the_prog (heap s) c f o = Some W ->
  serialize n o s = (match snd (encode f W) with None => Ok VNone | Some e => Exc e end, appended s (fst (encode f W))).
Proof. intros Hn L H. apply layout_inv in L as (L & _). exact (serialize_spec n c f o s W Hn L H). Qed.

Lemma load_layout n c f s : (fuel_ok <= n)%nat -> layout c = Some f ->
  match decode f [] [] (irest s) with
  | DOk W r => exists o s', load the_prog n c s = (Ok o, s') /\ contents the_prog (heap s') c f o = Some W /\
      (forall x, (x < length (heap s))%nat -> nth_error (heap s') x = nth_error (heap s) x) /\ irest s' = r /\ ifull s' = ifull s /\ out s' = out s
  | DErr e => exists s', load the_prog n c s = (Exc e, s')
  end.
Proof.
  intros Hn L. apply layout_inv in L as (_ & L & HC). pose proof (load_spec n c f s Hn L HC) as H.
  destruct (decode f [] [] (irest s)); [|exact H]. destruct H as (o & s' & l & fp & A & _ & B & _ & [_ C] & D). exists o, s'.
  split; [exact A|]. split; [exact B|]. split; [|exact D]. intros x Hx. apply C; auto.
Qed.

Lemma load_inv n c f s o s' : (fuel_ok <= n)%nat -> layout c = Some f -> load the_prog n c s = (Ok o, s') ->
  exists W, decode f [] [] (irest s) = DOk W (irest s') /\ contents the_prog (heap s') c f o = Some W /\ out s' = out s.
Proof.
  intros Hn L E. pose proof (load_layout n c f s Hn L) as H. destruct (decode f [] [] (irest s)) as [W r|e].
  - destruct H as (o1 & s1 & A & B & _ & D & _ & F). rewrite E in A. injection A as <- <-. exists W. subst r. auto.
  - destruct H as (s1 & A). rewrite E in A. discriminate.
Qed.
