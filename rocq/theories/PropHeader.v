(** * Property C19 for the PDU classes without a fixed layout

    TransmitterPdu, DirectedEnergyFirePdu, EntityDamageStatusPdu and AggregateStatePdu write their family's fields first
    (opendis/dis7.py:5017, 6362, 6658, 7473), then statements outside the layout language. *)
From Coq Require Import ZArith String List Bool Lia.
From Coq Require Import Strings.Byte.
From Verif Require Import Lang Bytes Interp Mono StreamLem Pure Prog Spec Codec Rep SerSound ParSound NewSound Layouts Refine Api StreamApi Classes PropCodec PropFactory PropEffects Special PropSize.
Import ListNotations.
Open Scope string_scope. Open Scope Z_scope. Open Scope list_scope.

(** the class, and the family whose fields it writes first *)
Definition special_pdus : list (string * string) :=
  [("TransmitterPdu", "RadioCommunicationsFamilyPdu"); ("DirectedEnergyFirePdu", "WarfareFamilyPdu"); ("EntityDamageStatusPdu", "WarfareFamilyPdu");
   ("AggregateStatePdu", "EntityManagementFamilyPdu")].
(** with the classes of C19_header, these are all the PDU classes *)
Example special_pdus_are : filter (fun c => is_pdu c && negb (mem c header_classes)) wire_classes = map fst special_pdus.
Proof. reflexivity. Qed.

Definition special_ok (p : string * string) : bool :=
  match lookup the_prog (fst p) "serialize", assoc (snd p) TW with
  | Some (MMeth m), Some f => is_ser m && pure_meth writers m && match chkS the_prog TW 4 (fst p) (firstn 1 (m_body m)) f with Some Done => true | _ => false end
      && starts 0 header f && Nat.leb (nest f) Dp && subs_nodup f && nodupb (names f) && deps_ok f
  | _, _ => false end.
Lemma special_pdus_ok : forallb special_ok special_pdus = true. Proof. vm_compute. reflexivity. Qed.

Lemma pure_rest ss n rho : forallb (pure_stmt writers) ss = true -> pureM (run_block (exec the_prog (run the_prog n)) ss rho).
Proof.
  intros H. apply (pure_block writers); [|exact H]. apply Forall_forall. intros c _ Hc rho'.
  apply (pure_exec writers the_prog writers_pure); [|exact Hc]. intros m x k Hm. exact (pure_run writers the_prog writers_pure n m x k Hm).
Qed.

Theorem C19_header_special n c k f s o W bs a off w : (fuel_ok < n)%nat -> In (c, k) special_pdus -> assoc k TW = Some f ->
  contents the_prog (heap s) c f o = Some W -> serialize n o s = (Ok VNone, appended s bs) -> In (a, (off, w)) header ->
  exists x z, field a W = Some x /\ wint x = Some z /\ in_range w false z /\ firstn w (skipn off bs) = be w z.
Proof.
  intros Hn Hi L HW E Ha. pose proof special_pdus_ok as Q. rewrite forallb_forall in Q. specialize (Q _ Hi). unfold special_ok in Q. cbn [fst snd] in Q. rewrite L in Q.
  destruct (lookup the_prog c "serialize") as [[m|]|] eqn:Lm; try discriminate.
  apply andb_prop in Q as [Q Q9]. apply andb_prop in Q as [Q Q7]. apply andb_prop in Q as [Q Q6]. apply andb_prop in Q as [Q Q5]. apply andb_prop in Q as [Q Q4]. apply andb_prop in Q as [Q Q3]. apply andb_prop in Q as [Q1 Q2].
  destruct (chkS the_prog TW 4 c (firstn 1 (m_body m)) f) as [[]|] eqn:Q8; try discriminate.
  destruct (contents_inv _ _ _ _ _ Q6 Q7 HW) as (l & at_ & fp & -> & Hl & HR). destruct n as [|n]; [lia|].
  rewrite (ser_run _ _ _ _ _ _ Lm Q1 Hl) in E. unfold bind in E.
  rewrite <- (firstn_skipn 1 (m_body m)), run_block_app in E.
  destruct (ser_part n c (firstn 1 (m_body m)) f ltac:(unfold fuel_ok, need, G, Dp in *; lia) Q8 Q5 s [("self", VRef l); ("outputStream", VOut)] l at_ W fp ltac:(split; reflexivity) Hl HR) as (rho' & C & E1).
  { exact (deps_of_rep _ _ _ _ _ _ HR Q9). }
  rewrite E1 in E. unfold oc in E. destruct (encode f W) as [b1 [e|]] eqn:Ee; cbn [fst snd] in E; [discriminate|].
  pose proof (pure_rest (skipn 1 (m_body m)) n rho') as P. rewrite forallb_forall in P.
  assert (HP : forall x, In x (skipn 1 (m_body m)) -> pure_stmt writers x = true).
  { intros x Hx. unfold pure_meth in Q2. rewrite forallb_forall in Q2. apply Q2. rewrite <- (firstn_skipn 1 (m_body m)). apply in_or_app. now right. }
  specialize (P HP). match type of E with context [run_block _ _ rho' ?s1] => specialize (P s1) end. destruct P as (_ & _ & _ & b2 & P).
  destruct (run_block _ _ rho' _) as [[p|e] s2]; [|discriminate]. unfold ret in E. injection E as _ E. subst s2. cbn [snd] in P. unfold appended in P. cbn [out] in P.
  change (out (StreamLem.add_out b1 s)) with (out s ++ b1) in P. rewrite <- app_assoc in P. apply app_inv_head in P. subst bs.
  destruct (starts_bytes header 0 f W [] b1 Q4 Ee eq_refl a off w Ha) as (x & z & F & Z1 & R & B). exists x, z. repeat (split; [assumption|]).
  cbn [app] in B. rewrite <- B. rewrite skipn_app, firstn_app.
  assert (Hlen : (w <= length (skipn off b1))%nat). { apply (f_equal (@length _)) in B. rewrite firstn_length, be_length in B. lia. }
  replace (w - length (skipn off b1))%nat with 0%nat by lia. cbn [firstn]. now rewrite app_nil_r.
Qed.

(** each of them, as built by its constructor, meets the hypotheses, except that DirectedEnergyFirePdu (opendis/dis7.py:6365) needs its
    cumulativeShotTime to be set first *)
Definition built (c : string) : res val * st := new the_prog 20 c [] st0.
Example C19_special_case : forallb (fun p => match assoc (snd p) TW with
  | Some f => match built (fst p) with (Ok o, s) => match contents the_prog (heap s) (fst p) f o with
      | Some W => String.eqb (fst p) "DirectedEnergyFirePdu" || match fst (serialize 50 o s) with Ok VNone => true | _ => false end | None => false end | _ => false end
  | None => false end) special_pdus = true.
Proof. vm_compute. reflexivity. Qed.
Example C19_special_bytes : match built "AggregateStatePdu" with (Ok o, s) =>
  firstn 12 (out (snd (serialize 50 o s))) = [x07; x00; x21; x07; x00; x00; x00; x00; x00; x00; x00; x00] | _ => False end.
Proof. vm_compute. reflexivity. Qed.

Definition all_PropHeader := C19_header_special.
Print Assumptions all_PropHeader.
