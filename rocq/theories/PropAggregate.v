(** * C64: the Aggregate State PDU (opendis/dis7.py:7400-7537, 2221-2242) *)
From Coq Require Import ZArith String List Bool Lia.
From Coq Require Import Strings.Byte.
From Verif Require Import Lang Bytes Interp Shift Mono ProgBase ProgDis Prog Spec Codec Codec2 Rep Dec StreamLem SerSound ParSound ParStep ParClass NewSound Layouts Refine Api StreamApi Classes PropCodec PropFactory Special PropSize PropOffsets.
Import ListNotations.
Open Scope string_scope. Open Scope Z_scope. Open Scope list_scope.

(** ** Layouts with a list that is empty *)
Fixpoint nulled (a : string) (f : fmt) : fmt :=
  match f with
  | Done => Done
  | OList b c sub k => if String.eqb a b then NullL b (nulled a k) else OList b c sub (nulled a k)
  | Prim b p k => Prim b p (nulled a k)
  | Obj b c sub k => Obj b c sub (nulled a k)
  | Cnt b p m k => Cnt b p m (nulled a k)
  | PList b p k => PList b p (nulled a k)
  | Arr b p n k => Arr b p n (nulled a k)
  | Zero p k => Zero p (nulled a k)
  | Mask b n k => Mask b n (nulled a k)
  | VList b p d dv k => VList b p d dv (nulled a k)
  | Pad b k => Pad b (nulled a k)
  | Derive b d z k => Derive b d z (nulled a k)
  | Bits bf k => Bits bf (nulled a k)
  | NullL b k => NullL b (nulled a k)
  end.

Lemma nulled_encode a f W : field a W = Some (WList []) -> encode (nulled a f) W = encode f W.
Proof.
  intros E. induction f; cbn [nulled encode]; try (now rewrite IHf); try (now rewrite IHf2); try reflexivity.
  destruct (String.eqb_spec a a0) as [<-|]; cbn [encode]; [|now rewrite IHf2]. rewrite E. cbn [enc_list]. now rewrite oseq_done_l, IHf2.
Qed.
Lemma nulled_rep a f h : forall ga W fp, field a W = Some (WList []) -> rep the_prog h f ga W fp -> rep the_prog h (nulled a f) ga W fp.
Proof.
  induction f; intros ga W fp E H; cbn [nulled rep] in *; try (now eauto); try (destruct H as [H1 H2]; split; [exact H1|eauto]; fail).
  - destruct H as (l & at_ & w & p1 & p2 & A1 & A2 & A3 & A4 & A5 & ->). exists l, at_, w, p1, p2. auto 10.
  - destruct H as (l & vs & ws & p2 & A1 & A2 & A3 & A4 & A5 & ->). exists l, vs, ws, p2. auto 10.
  - destruct H as (l & vs & ws & fps & p2 & A1 & A2 & A3 & A4 & A5 & ->). destruct (String.eqb_spec a a0) as [<-|]; cbn [rep].
    + assert (ws = []) by congruence. subst ws. inversion A4; subst. exists l, p2. cbn [concat app]. auto 10.
    + exists l, vs, ws, fps, p2. auto 10.
  - destruct H as (l & vs & ws & p2 & A1 & A2 & A3 & A4 & A5 & ->). exists l, vs, ws, p2. auto 10.
  - destruct H as (l & vs & ws & p2 & A1 & A2 & A3 & A4 & A5 & ->). exists l, vs, ws, p2. auto 10.
  - destruct H as (l & p2 & A1 & A2 & A3 & A4 & ->). exists l, p2. auto 10.
Qed.

(** ** What serialize runs *)
Definition agg_meth : meth := Eval vm_compute in match lookup the_prog "AggregateStatePdu" "serialize" with Some (MMeth m) => m | _ => mkmeth KNormal false [] [] end.
Lemma agg_lookup : lookup the_prog "AggregateStatePdu" "serialize" = Some (MMeth agg_meth). Proof. vm_compute. reflexivity. Qed.
Definition agg_null : fmt := Eval vm_compute in nulled "silentAggregateSystems" r_AggregateStatePdu.
Lemma agg_check : chkS the_prog TW 4 "AggregateStatePdu" (m_body agg_meth) agg_null = Some Done. Proof. vm_compute. reflexivity. Qed.
Lemma agg_ser : is_ser agg_meth = true. Proof. vm_compute. reflexivity. Qed.
Lemma agg_tidy : subs_nodup r_AggregateStatePdu = true /\ nodupb (names r_AggregateStatePdu) = true /\ deps_ok r_AggregateStatePdu = true. Proof. vm_compute. auto. Qed.
Lemma agg_deps_null : deps_ok agg_null = true. Proof. vm_compute. reflexivity. Qed.
Lemma agg_nest : (nest agg_null <=? Dp)%nat = true. Proof. vm_compute. reflexivity. Qed.
Lemma agg_wf : wf r_AggregateStatePdu = true. Proof. vm_compute. reflexivity. Qed.
Lemma agg_TR : assoc "AggregateStatePdu" TR = Some r_AggregateStatePdu. Proof. vm_compute. reflexivity. Qed.
Lemma agg_NC : mem "AggregateStatePdu" NC = true. Proof. vm_compute. reflexivity. Qed.
Lemma agg_no_silent W : field "silentAggregateSystems" W = Some (WList []) -> encode agg_null W = encode r_AggregateStatePdu W.
Proof. intros E. change agg_null with (nulled "silentAggregateSystems" r_AggregateStatePdu). now apply nulled_encode. Qed.

Definition agg_pre : fmt := Eval vm_compute in
  (fix go (f : fmt) : fmt := match f with
   | OList b c sub k => if String.eqb "silentAggregateSystems" b then Done else OList b c sub (go k)
   | Prim b p k => Prim b p (go k) | Obj b c sub k => Obj b c sub (go k) | Cnt b p m k => Cnt b p m (go k)
   | _ => Done end) r_AggregateStatePdu.
Definition agg_post : fmt := lay [OList "silentEntitySystems" "SilentEntitySystem" w_SilentEntitySystem; Cnt "variableDatumRecords" u32 1; OList "variableDatumRecords" "VariableDatum" w_VariableDatum].
Lemma agg_split : r_AggregateStatePdu = fapp agg_pre (OList "silentAggregateSystems" "SilentAggregateSystem" r_SilentAggregateSystem agg_post). Proof. vm_compute. reflexivity. Qed.
Lemma agg_pre_check : chkS the_prog TW 4 "AggregateStatePdu" (firstn 17 (m_body agg_meth)) agg_pre = Some Done. Proof. vm_compute. reflexivity. Qed.
Lemma agg_pre_nest : (nest agg_pre <=? Dp)%nat = true. Proof. vm_compute. reflexivity. Qed.
Definition agg_loop : stmt := Eval vm_compute in nth 17 (m_body agg_meth) Pass.

(** ** C64 *)
(** createPdu reads an Aggregate State PDU with any lists, silent aggregates included, laid out in the order of the fields *)
Theorem C64_read n h W rest : (fuel_ok <= n)%nat -> value_of r_AggregateStatePdu W -> field "pduType" W = Some (WInt 33) ->
  exists bs, encode r_AggregateStatePdu W = (bs, None) /\
    exists o s', factory n h (bs ++ rest) = (Ok o, s') /\ contents the_prog (heap s') "AggregateStatePdu" r_AggregateStatePdu o = Some W /\ irest s' = rest.
Proof.
  intros Hn HV Ht. destruct (roundtrip r_AggregateStatePdu W rest agg_wf HV) as (bs & Ee & Ed). exists bs. split; [exact Ee|].
  destruct (starts_bytes header 0 r_AggregateStatePdu W [] bs ltac:(vm_compute; reflexivity) Ee eq_refl "pduType" 2%nat 1%nat) as (x & z & F & Z1 & R & B); [cbn; tauto|].
  rewrite Ht in F. injection F as <-. injection Z1 as <-. destruct (be1 33 R) as (b & B1 & B2). rewrite B1 in B. cbn [app] in B.
  assert (Hb : nth_error bs 2 = Some b) by (destruct bs as [|b0 [|b1 [|b2 r]]]; cbn in B; try discriminate; injection B as ->; reflexivity).
  unfold factory, createPdu. rewrite (factory_spec n) by (unfold fuel_ok, need, G in Hn; lia). cbn [ifull heap out].
  rewrite nth_error_app1 by (apply nth_error_Some; congruence). rewrite Hb, B2. unfold table. rewrite types_ok. change (zassoc 33 pdu_types) with (Some "AggregateStatePdu").
  pose proof (load_spec n "AggregateStatePdu" r_AggregateStatePdu (mkst h (bs ++ rest) (bs ++ rest) []) Hn agg_TR agg_NC) as Q. cbn [irest] in Q. rewrite Ed in Q.
  destruct Q as (o & s' & l & fp & A & _ & C & _ & _ & D & _). exists o, s'. auto.
Qed.

(** without silent aggregates, serialize writes exactly those fields in that order *)
Theorem C64_write n s o W : (fuel_ok < n)%nat -> contents the_prog (heap s) "AggregateStatePdu" r_AggregateStatePdu o = Some W ->
  field "silentAggregateSystems" W = Some (WList []) -> serialize n o s = oc (encode r_AggregateStatePdu W) VNone s.
Proof.
  intros Hn HW E0. destruct agg_tidy as (T1 & T2 & T3). destruct (contents_inv _ _ _ _ _ T1 T2 HW) as (l & at_ & fp & -> & Hl & HR). destruct n as [|n]; [lia|].
  rewrite (ser_run _ _ _ _ _ _ agg_lookup agg_ser Hl). pose proof (nulled_rep "silentAggregateSystems" _ _ _ _ _ E0 HR) as HR'. change (nulled "silentAggregateSystems" r_AggregateStatePdu) with agg_null in HR'.
  destruct (ser_part n "AggregateStatePdu" (m_body agg_meth) agg_null ltac:(unfold fuel_ok, need, G, Dp in *; lia) agg_check agg_nest s [("self", VRef l); ("outputStream", VOut)] l at_ W fp ltac:(split; reflexivity) Hl HR'
    (deps_of_rep _ _ _ _ _ _ HR' agg_deps_null)) as (rho' & C & E1).
  unfold bind. rewrite E1, (agg_no_silent W E0). unfold oc. destruct (encode r_AggregateStatePdu W) as [b [e|]]; reflexivity.
Qed.

(** so such a PDU comes back as it was *)
Theorem C64_round_trip n s o W h rest : (fuel_ok < n)%nat -> contents the_prog (heap s) "AggregateStatePdu" r_AggregateStatePdu o = Some W -> value_of r_AggregateStatePdu W ->
  field "pduType" W = Some (WInt 33) -> field "silentAggregateSystems" W = Some (WList []) ->
  exists bs, serialize n o s = (Ok VNone, appended s bs) /\
    exists o' s', factory n h (bs ++ rest) = (Ok o', s') /\ contents the_prog (heap s') "AggregateStatePdu" r_AggregateStatePdu o' = Some W /\ irest s' = rest.
Proof.
  intros Hn HW HV Ht H0. destruct (C64_read n h W rest ltac:(lia) HV Ht) as (bs & Ee & K). exists bs. split; [|exact K].
  rewrite (C64_write n s o W Hn HW H0), Ee. reflexivity.
Qed.

(** ** With a silent aggregate *)
Definition sas_meth : meth := Eval vm_compute in match lookup the_prog "SilentAggregateSystem" "serialize" with Some (MMeth m) => m | _ => mkmeth KNormal false [] [] end.
Lemma sas_lookup : lookup the_prog "SilentAggregateSystem" "serialize" = Some (MMeth sas_meth). Proof. vm_compute. reflexivity. Qed.
Lemma sas_ser : is_ser sas_meth = true. Proof. vm_compute. reflexivity. Qed.
Lemma sas_none : lookup the_prog "SilentAggregateSystem" "entityType" = None. Proof. vm_compute. reflexivity. Qed.
Definition sas_pre : fmt := Prim "numberOfAggregates" u16 Done.
Lemma sas_pre_check : chkS the_prog TW 4 "SilentAggregateSystem" (firstn 1 (m_body sas_meth)) sas_pre = Some Done. Proof. vm_compute. reflexivity. Qed.
Lemma sas_split : m_body sas_meth = firstn 1 (m_body sas_meth) ++ [Expr (Meth (self_ "entityType") "serialize" [Loc "outputStream"] [])]. Proof. vm_compute. reflexivity. Qed.

Lemma run_stops n ss1 c ss2 rho rho' l s o1 o2 : ctx rho' l -> run_block (exec the_prog (run the_prog n)) ss1 rho s = oc o1 (rho', None) s ->
  snd o2 <> None -> (forall s1, heap s1 = heap s -> exec the_prog (run the_prog n) c rho' s1 = oc o2 (rho', None) s1) ->
  bind (run_block (exec the_prog (run the_prog n)) (ss1 ++ c :: ss2) rho) (fun p => ret match snd p with Some v => v | None => VNone end) s = oc (oseq o1 o2) VNone s.
Proof.
  intros Hc E1 N E2. unfold bind. rewrite run_block_app, E1. unfold oc, oseq. destruct o1 as [b1 [e1|]]; cbn [fst snd]; [reflexivity|].
  cbn [run_block]. unfold bind. rewrite E2 by reflexivity. unfold oc. destruct o2 as [b2 [e2|]]; cbn [fst snd] in *; [|congruence]. now rewrite add_out_add.
Qed.

Lemma sas_run n s l1 at1 w fp : (fuel_ok <= n)%nat -> nth_error (heap s) l1 = Some (HInst "SilentAggregateSystem" at1) ->
  rep the_prog (heap s) r_SilentAggregateSystem (getA the_prog "SilentAggregateSystem" at1) w fp -> assoc "entityType" at1 = None ->
  run the_prog n sas_meth [VRef l1; VOut] [] s = oc (oseq (encode sas_pre w) (fail AttributeError)) VNone s.
Proof.
  intros Hn Hl HR He. destruct n as [|n]; [unfold fuel_ok, need, G in Hn; lia|]. rewrite run_ser by reflexivity.
  change r_SilentAggregateSystem with (fapp sas_pre (Obj "aggregateType" "AggregateType" w_AggregateType Done)) in HR. apply rep_fapp in HR as (p1 & p2 & HR & _).
  destruct (ser_part n "SilentAggregateSystem" (firstn 1 (m_body sas_meth)) sas_pre ltac:(unfold fuel_ok, need, G, Dp in *; lia) sas_pre_check ltac:(vm_compute; reflexivity) s [("self", VRef l1); ("outputStream", VOut)] l1 at1 w p1
    ltac:(split; reflexivity) Hl HR (deps_of_rep _ _ _ _ _ _ HR ltac:(vm_compute; reflexivity))) as (rho' & C & E1).
  rewrite sas_split. apply (run_stops _ _ _ _ _ rho' l1); [exact C|exact E1|discriminate|].
  intros s1 Hh. destruct C as [C _]. cbn [exec eval]. rewrite C. unfold bind, ret at 1, get_attr, bind, hget. rewrite Hh, Hl, sas_none, He. unfold oc, fail. cbn [fst snd]. now rewrite add_out_nil.
Qed.

Definition agg_rest : list stmt := Eval vm_compute in skipn 18 (m_body agg_meth).
Lemma agg_body : m_body agg_meth = firstn 17 (m_body agg_meth) ++ agg_loop :: agg_rest. Proof. vm_compute. reflexivity. Qed.

(** with a silent aggregate serialize writes the fields before the list and the first silent aggregate's number of aggregates, then raises AttributeError, whatever the
    values are, unless the client has set on the record an attribute that its class does not have; if one of those values is out of range it raises before that *)
Theorem C64_silent_refuted n s o W w ws ll v vs : (fuel_ok < n)%nat -> contents the_prog (heap s) "AggregateStatePdu" r_AggregateStatePdu o = Some W ->
  field "silentAggregateSystems" W = Some (WList (WObj w :: ws)) ->
  fst (getattr 9 o "silentAggregateSystems" s) = Ok (VRef ll) -> nth_error (heap s) ll = Some (HList (v :: vs)) -> fst (getattr 9 v "entityType" s) = Exc AttributeError ->
  serialize n o s = oc (oseq (encode agg_pre W) (oseq (encode (Prim "numberOfAggregates" u16 Done) w) (fail AttributeError))) VNone s.
Proof.
  intros Hn HW HF Hg Hll He. destruct agg_tidy as (T1 & T2 & T3). destruct (contents_inv _ _ _ _ _ T1 T2 HW) as (l & at_ & fp & -> & Hl & HR). destruct n as [|n]; [lia|].
  rewrite (ser_run _ _ _ _ _ _ agg_lookup agg_ser Hl). pose proof (deps_of_rep _ _ _ _ _ _ HR T3) as HD. rewrite agg_split in HR, HD. apply deps_fapp in HD as [HD _]. apply rep_fapp in HR as (p1 & p2 & HR & HQ & _).
  cbn [rep] in HQ. destruct HQ as (la & vs' & ws' & fps & p3 & A1 & A2 & A3 & A4 & _).
  unfold getattr in Hg. rewrite (get_attr_ga the_prog _ _ _ _ _ _ _ Hl A1) in Hg. injection Hg as ->. rewrite Hll in A2. injection A2 as <-. rewrite HF in A3. injection A3 as <-.
  inversion A4 as [|v1 y1 q1 vs1 ws1 fps1 (l' & at' & w' & fp' & -> & B1 & B2 & B3 & B4) E4]; subst. injection B2 as <-.
  assert (He' : assoc "entityType" at' = None).
  { unfold getattr, get_attr, bind, hget in He. rewrite B1, sas_none in He. destruct (assoc "entityType" at'); [discriminate|reflexivity]. }
  destruct (ser_part n "AggregateStatePdu" (firstn 17 (m_body agg_meth)) agg_pre ltac:(unfold fuel_ok, need, G, Dp in *; lia) agg_pre_check agg_pre_nest s [("self", VRef l); ("outputStream", VOut)] l at_ W p1
    ltac:(split; reflexivity) Hl HR HD) as (rho' & C & E1).
  rewrite agg_body. apply (run_stops _ _ _ _ _ rho' l); [exact C|exact E1| |].
  { fold sas_pre. destruct (encode sas_pre w) as [b [e|]]; cbn; discriminate. }
  intros s1 Hh. unfold agg_loop. cbn [exec]. assert (Es := ev_self the_prog n _ _ _ _ s1 _ _ C ltac:(rewrite Hh; exact Hl) A1).
  unfold bind at 1. rewrite Es. unfold bind at 1. cbn [iter_vals]. unfold bind at 1, hget. rewrite Hh, Hll. unfold ret at 1.
  pose proof (ctx_upd _ _ "silentAggregateSystem" (VRef l') C eq_refl) as [_ Ho].
  pose proof (sas_run n s1 l' at' w fp' ltac:(lia) ltac:(rewrite Hh; exact B1) ltac:(rewrite Hh; exact B3) He') as R. fold sas_pre.
  cbn [for_loop run_block exec eval eval_list]. rewrite assoc_upd_eq, Ho. unfold bind at 1 2 3 4, ret at 1. unfold bind at 1, resolve, bind at 1, hget. rewrite Hh, B1, sas_lookup.
  change (m_kind sas_meth) with KNormal. cbv iota. unfold bind at 1 2 3, ret at 1 2 3 4. cbn [apply app]. rewrite R. unfold oc.
  destruct (encode sas_pre w) as [b [e|]]; reflexivity.
Qed.

(** so serialize never returns *)
Theorem C64_silent_never n s o W w ws ll v vs : (fuel_ok < n)%nat -> contents the_prog (heap s) "AggregateStatePdu" r_AggregateStatePdu o = Some W ->
  field "silentAggregateSystems" W = Some (WList (WObj w :: ws)) ->
  fst (getattr 9 o "silentAggregateSystems" s) = Ok (VRef ll) -> nth_error (heap s) ll = Some (HList (v :: vs)) -> fst (getattr 9 v "entityType" s) = Exc AttributeError ->
  exists e, fst (serialize n o s) = Exc e.
Proof.
  intros Hn HW HF Hg Hll He. rewrite (C64_silent_refuted n s o W w ws ll v vs Hn HW HF Hg Hll He). unfold oc.
  generalize (encode agg_pre W) (encode (Prim "numberOfAggregates" u16 Done) w). intros [b1 [e1|]] [b2 [e2|]]; eexists; reflexivity.
Qed.

(** ** Cases that meet the hypotheses *)
(** an Aggregate State PDU whose fields up to the counts are zero but for the PDU type; no IDs; [sa] (0 or 1) silent aggregates of 5 aggregates each; no silent entities; no datums *)
Definition agg_bytes (sa : byte) : list byte :=
  [x07; x01; x21] ++ repeat x00 121 ++ [x00; x00; x00; x00; x00; sa; x00; x00] ++ (if Byte.eqb sa x00 then [] else [x00; x05] ++ repeat x00 8) ++ [x00; x00; x00; x00].
Definition agg_read (sa : byte) : res val * st := factory 60 [] (agg_bytes sa).

(** read and written back without a silent aggregate *)
Example C64_round_trip_case : exists o s W, agg_read x00 = (Ok o, s) /\ contents the_prog (heap s) "AggregateStatePdu" r_AggregateStatePdu o = Some W /\
  value_of r_AggregateStatePdu W /\ field "pduType" W = Some (WInt 33) /\ field "silentAggregateSystems" W = Some (WList []) /\ serialize 60 o s = (Ok VNone, appended s (agg_bytes x00)).
Proof.
  eexists. eexists. eexists. split; [vm_compute; reflexivity|]. split; [vm_compute; reflexivity|]. split; [|split; [|split]]; [|vm_compute; reflexivity..].
  exact (decode_value_of r_AggregateStatePdu (agg_bytes x00) _ [] agg_wf ltac:(vm_compute; reflexivity)).
Qed.

(** read with one silent aggregate: serialize raises AttributeError after the number of aggregates, 5 *)
Example C64_silent_case : exists o s W w ws ll v vs, agg_read x01 = (Ok o, s) /\ contents the_prog (heap s) "AggregateStatePdu" r_AggregateStatePdu o = Some W /\
  field "silentAggregateSystems" W = Some (WList (WObj w :: ws)) /\ fst (getattr 9 o "silentAggregateSystems" s) = Ok (VRef ll) /\ nth_error (heap s) ll = Some (HList (v :: vs)) /\
  fst (getattr 9 v "entityType" s) = Exc AttributeError /\ serialize 60 o s = (Exc AttributeError, appended s (firstn 134 (agg_bytes x01))).
Proof. do 8 eexists. split; [vm_compute; reflexivity|]. repeat split; vm_compute; reflexivity. Qed.

(** ** C59 for the Aggregate State PDU: IEEE 1278.1-2012 7.8.2 *)
Definition aggregate_id : list frow := of_ "simulationAddress" simulation_address ++ [(4%nat, u16, ["aggregateID"])].
Definition aggregate_type : list frow :=
  [(0%nat, u8, ["aggregateKind"]); (1%nat, u8, ["domain"]); (2%nat, u16, ["country"]); (4%nat, u8, ["category"]); (5%nat, u8, ["subcategory"]); (6%nat, u8, ["specificInfo"]); (7%nat, u8, ["extra"])].
Definition aggregate_std : pdu_table := mkpdu
  (pdu_header ++ at_ 12 (of_ "aggregateID" aggregate_id) ++ [(18%nat, u8, ["forceID"]); (19%nat, u8, ["aggregateState"])] ++ at_ 20 (of_ "aggregateType" aggregate_type) ++
   [(28%nat, u32, ["formation"]); (32%nat, u8, ["aggregateMarking"; "characterSet"])] ++ at_ 64 (of_ "dimensions" vector3) ++ at_ 76 (of_ "orientation" euler))
  [(124%nat, u16, 1, ["aggregateIDs"]); (126%nat, u16, 1, ["entityIDs"]); (128%nat, u16, 1, ["silentAggregateSystems"]); (130%nat, u16, 1, ["silentEntitySystems"])]
  [(33%nat, u8, 31%nat, ["aggregateMarking"; "characters"])]
  [(132%nat, 6%nat, "aggregateIDs", aggregate_id)].
(** the two fields in between: center of mass and velocity *)
Definition mass_velocity_std : list frow := at_ 88 (of_ "centerOfMass" world) ++ at_ 112 (of_ "velocity" vector3).
Definition mass_velocity_code : list frow := at_ 88 (of_ "centerOfMass" vector3) ++ at_ 100 (of_ "velocity" world).

Lemma aggregate_ok : table_ok aggregate_std r_AggregateStatePdu = true. Proof. vm_compute. reflexivity. Qed.
Lemma mass_velocity_ok : forallb (row_ok (entries r_AggregateStatePdu 0)) mass_velocity_code = true. Proof. vm_compute. reflexivity. Qed.
Lemma aggregate_tidy : tidy r_AggregateStatePdu = true /\ tidy_lists r_AggregateStatePdu = true. Proof. vm_compute. auto. Qed.

Theorem C59_aggregate n s o W bs : (fuel_ok < n)%nat -> contents the_prog (heap s) "AggregateStatePdu" r_AggregateStatePdu o = Some W ->
  field "silentAggregateSystems" W = Some (WList []) -> serialize n o s = (Ok VNone, appended s bs) -> table_holds aggregate_std bs W.
Proof.
  intros Hn HW H0 E. rewrite (C64_write n s o W Hn HW H0) in E. unfold oc in E. destruct (encode r_AggregateStatePdu W) as [b [e|]] eqn:Ee; cbn [fst snd] in E; [discriminate|].
  unfold appended, add_out in E. injection E as E. apply app_inv_head in E. subst b. exact (table_ok_holds _ _ _ _ aggregate_ok Ee).
Qed.

Theorem C59_aggregate_read n s o s' W : (fuel_ok <= n)%nat -> load the_prog n "AggregateStatePdu" s = (Ok o, s') -> contents the_prog (heap s') "AggregateStatePdu" r_AggregateStatePdu o = Some W ->
  table_read aggregate_std (irest s) W.
Proof.
  intros Hn E HW. pose proof (load_spec n "AggregateStatePdu" r_AggregateStatePdu s Hn agg_TR agg_NC) as Q. destruct (decode r_AggregateStatePdu [] [] (irest s)) as [W' r|e] eqn:D.
  - destruct Q as (o1 & s1 & l & fp & A & _ & C & _). rewrite E in A. injection A as <- <-. rewrite HW in C. injection C as <-.
    exact (table_ok_read _ _ _ _ _ aggregate_ok (proj1 aggregate_tidy) (proj2 aggregate_tidy) D).
  - destruct Q as (s1 & A). rewrite E in A. discriminate.
Qed.

(** center of mass and velocity have each other's type: every PDU has the center of mass in bytes 88-99 as 32-bit floats and the velocity in bytes 100-123 as 64-bit
    floats, where the standard has 64-bit floats in bytes 88-111, then 32-bit floats *)
Theorem C59_aggregate_swapped n s o W bs : (fuel_ok < n)%nat -> contents the_prog (heap s) "AggregateStatePdu" r_AggregateStatePdu o = Some W ->
  field "silentAggregateSystems" W = Some (WList []) -> serialize n o s = (Ok VNone, appended s bs) -> Forall (field_holds bs W) mass_velocity_code.
Proof.
  intros Hn HW H0 E. rewrite (C64_write n s o W Hn HW H0) in E. unfold oc in E. destruct (encode r_AggregateStatePdu W) as [b [e|]] eqn:Ee; cbn [fst snd] in E; [discriminate|].
  unfold appended, add_out in E. injection E as E. apply app_inv_head in E. subst b. exact (rows_hold _ W bs _ Ee mass_velocity_ok).
Qed.

(** a PDU with the center of mass at (1, 0, 0) *)
Definition mass_bytes : list byte := firstn 88 (agg_bytes x00) ++ [x3f; x80; x00; x00] ++ skipn 92 (agg_bytes x00).
Theorem C59_aggregate_refuted : exists o s W bs, factory 60 [] mass_bytes = (Ok o, s) /\ contents the_prog (heap s) "AggregateStatePdu" r_AggregateStatePdu o = Some W /\
  serialize 60 o s = (Ok VNone, appended s bs) /\ ~ Forall (field_holds bs W) mass_velocity_std.
Proof.
  do 3 eexists. exists mass_bytes. split; [vm_compute; reflexivity|]. split; [vm_compute; reflexivity|]. split; [vm_compute; reflexivity|].
  intros H. apply Forall_inv in H. destruct H as (x & A & B). vm_compute in A. injection A as <-. vm_compute in B. discriminate.
Qed.

Definition all_PropAggregate := (C64_read, C64_write, C64_round_trip, C64_silent_refuted, C64_silent_never, C59_aggregate, C59_aggregate_read, C59_aggregate_swapped, C59_aggregate_refuted).
Print Assumptions all_PropAggregate.
