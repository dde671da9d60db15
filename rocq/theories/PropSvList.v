(** * C62: the PDUs that carry standard variable records (opendis/dis7.py:4943-5117, 6318-6404, 6635-6678) *)
From Coq Require Import ZArith String List Bool Lia.
From Coq Require Import Strings.Byte.
From Verif Require Import Lang Bytes Interp Shift Mono ProgBase ProgDis Prog Spec Codec Codec2 Rep Dec StreamLem SerSound ParSound ParStep ParClass NewSound Layouts Refine Api StreamApi Classes PropCodec Special PropSize PropFactory SvRun PropSV SvList TxRun TxPar PropTransmit.
Import ListNotations.
Open Scope string_scope. Open Scope Z_scope. Open Scope list_scope.

(** ** Specification *)
(** the fields before the number of records *)
Definition eds_fields : fmt := lay [fapp w_WarfareFamilyPdu; Obj "damagedEntityID" "EntityIdentifier" w_EntityIdentifier; Prim "padding1" u16; Prim "padding2" u16].
Definition def_fields (flags : fmt) : fmt := lay [fapp w_WarfareFamilyPdu; Obj "munitionType" "EntityType" w_EntityType; Obj "shotStartTime" "ClockTime" w_ClockTime; Prim "commulativeShotTime" f32;
  Obj "apertureEmitterLocation" "Vector3Float" w_Vector3Float; Prim "apertureDiameter" f32; Prim "wavelength" f32; Prim "padding1" u32; Prim "pulseRepetitionFrequency" f32; Prim "pulseWidth" f32;
  Obj "flags" "DEFireFlags" flags; Prim "pulseShape" u8; Prim "padding2" u8; Prim "padding3" u32; Prim "padding4" u16].

(** the bytes of a record of class fst p with fields snd p as the reader expects them: type, a length that is a multiple of eight, the fields; no padding *)
Definition sv_wire (e : string) (p : string * flds) (bs : list byte) : Prop :=
  exists t f z b, sv_class e t = Some (fst p, f) /\ in_range 4 false t /\ in_range 2 false z /\ z mod 8 = 0 /\ value_of f (snd p) /\ encode f (snd p) = (b, None) /\ bs = be 4 t ++ be 2 z ++ b.
(** bytes that do not start with a record *)
Inductive bad (e : string) : list byte -> exn -> Prop :=
| bad_type t z r : in_range 4 false t -> in_range 2 false z -> sv_class e t = None -> bad e (be 4 t ++ be 2 z ++ r) TypeError
| bad_length t z r c : in_range 4 false t -> in_range 2 false z -> sv_class e t = Some c -> z mod 8 <> 0 -> bad e (be 4 t ++ be 2 z ++ r) ValueError
| bad_short r : (length r < 6)%nat -> bad e r StructError.

(** o holds the fields W and, in list attribute a, the records ps *)
Definition holds_records (h : list hobj) (D : string) (f : fmt) (o : val) (W : flds) (a : string) (ps : list (string * flds)) : Prop :=
  contents the_prog h D f o = Some W /\ exists vs, list_attr h o a = Some vs /\ Forall2 (sv_is h) vs ps.

(** ** Reading *)
Lemma sv_wire_get e p bs rest : In e expected -> sv_wire e p bs -> sv_get e (bs ++ rest) = DOk p rest.
Proof.
  intros He (t & f & z & b & Hc & Ht & Hz & H8 & HV & HE & ->). unfold sv_get. rewrite <- !app_assoc. unfold u32, u16. rewrite dec_be by (lia || exact Ht). cbn [dbind]. rewrite dec_be by (lia || exact Hz).
  cbn [dbind]. rewrite Hc, H8. cbn [Z.eqb]. destruct (sv_class_some e t _ f He Hc) as (dbl & Hi & _). destruct (svp_tables _ _ _ _ Hi) as (_ & _ & _ & _ & SD). unfold sound in SD. apply andb_prop in SD as [SD _].
  destruct (roundtrip f (snd p) rest SD HV) as (b' & E & D). rewrite HE in E. injection E as <-. rewrite D. cbn [dmap]. destruct p; reflexivity.
Qed.
Lemma sv_wires e ps bss rest : In e expected -> Forall2 (sv_wire e) ps bss -> dec_list (sv_get e) (length ps) (concat bss ++ rest) = DOk ps rest.
Proof.
  intros He F. induction F as [|p b ps bss Hp F IH]; [reflexivity|]. cbn [length concat dec_list]. rewrite <- app_assoc, (sv_wire_get e p b _ He Hp). cbn [dbind]. now rewrite IH.
Qed.
Lemma bad_get e r x : bad e r x -> sv_get e r = DErr x.
Proof.
  intros [t z r' Ht Hz Hc|t z r' c Ht Hz Hc H8|r' HL]; unfold sv_get, u32, u16.
  - rewrite dec_be by (lia || exact Ht). cbn [dbind]. rewrite dec_be by (lia || exact Hz). cbn [dbind]. now rewrite Hc.
  - rewrite dec_be by (lia || exact Ht). cbn [dbind]. rewrite dec_be by (lia || exact Hz). cbn [dbind]. rewrite Hc. destruct c as [c f]. apply Z.eqb_neq in H8. now rewrite H8.
  - destruct (dec_val (PInt 4 false) r') as [y q|y] eqn:D1; cbn [dbind].
    + apply dec_uint in D1 as (t & -> & _ & ->). rewrite app_length, be_length in HL. destruct (dec_val (PInt 2 false) q) as [y q'|y] eqn:D2; cbn [dbind].
      * apply dec_uint in D2 as (z & -> & _ & ->). rewrite app_length, be_length in HL. lia.
      * unfold dec_val in D2. destruct (read_prim _ _) as [[? ?]|]; congruence.
    + unfold dec_val in D1. destruct (read_prim _ _) as [[? ?]|]; congruence.
Qed.
Lemma bad_wires e ps bss r x k : In e expected -> Forall2 (sv_wire e) ps bss -> bad e r x -> (length ps < k)%nat -> dec_list (sv_get e) k (concat bss ++ r) = DErr x.
Proof.
  intros He F Hb. revert k. induction F as [|p b ps bss Hp F IH]; intros k Hk; (destruct k as [|k]; [cbn in Hk; lia|]); cbn [concat app dec_list].
  - now rewrite (bad_get e r x Hb).
  - rewrite <- app_assoc, (sv_wire_get e p b _ He Hp). cbn [dbind]. rewrite IH by (cbn in Hk; lia). reflexivity.
Qed.

Definition body (D m : string) : list stmt := match lookup the_prog D m with Some (MMeth x) => m_body x | _ => [] end.
Definition eds_pre := Eval vm_compute in firstn 5 (body "EntityDamageStatusPdu" "parse").
Definition def_pre := Eval vm_compute in firstn 16 (body "DirectedEnergyFirePdu" "parse").
Definition eds_in := fapp eds_fields (lay [Cnt "damageDescriptions" u16 1]).
Definition def_in := fapp (def_fields r_DEFireFlags) (lay [Cnt "dERecords" u16 1]).
Definition cm_of (D : string) (pre : list stmt) (f : fmt) : list cent := match chkP the_prog TR1 X1 NC 4 D false pre f [] with Some (_, cm) => cm | None => [] end.
Definition eds_cm := Eval vm_compute in cm_of "EntityDamageStatusPdu" eds_pre eds_in.
Definition def_cm := Eval vm_compute in cm_of "DirectedEnergyFirePdu" def_pre def_in.
Lemma eds_ok : sv_pdu "EntityDamageStatusPdu" eds_in eds_pre eds_cm "damageDescriptionCount" "record" "DamageDescriptionRecord" "damageDescriptions" = true /\
  chkP the_prog TR1 X1 NC 4 "EntityDamageStatusPdu" false eds_pre eds_in [] = Some (Done, eds_cm).
Proof. split; vm_compute; reflexivity. Qed.
Lemma def_ok : sv_pdu "DirectedEnergyFirePdu" def_in def_pre def_cm "numberOfDERecords" "vtp" "DamageDescriptionRecord" "dERecords" = true /\
  chkP the_prog TR1 X1 NC 4 "DirectedEnergyFirePdu" false def_pre def_in [] = Some (Done, def_cm).
Proof. split; vm_compute; reflexivity. Qed.

(** the fields, the count, and what the loop makes of the rest *)
Lemma sv_pdu_read n D f a pre cm cnt y s W bs z tail : (S (S fuel_ok) <= n)%nat ->
  sv_pdu D (fapp f (lay [Cnt a u16 1])) pre cm cnt y "DamageDescriptionRecord" a = true -> new_pure the_prog new_fuel_ D ->
  chkP the_prog TR1 X1 NC 4 D false pre (fapp f (lay [Cnt a u16 1])) [] = Some (Done, cm) -> flat f = true -> wf f = true ->
  (forall h o, contents the_prog h D (fapp f (lay [Cnt a u16 1])) o = contents the_prog h D f o) ->
  encode f W = (bs, None) -> in_range 2 false z -> irest s = bs ++ be 2 z ++ tail ->
  match dec_list (sv_get "DamageDescriptionRecord") (Z.to_nat z) tail with
  | DOk ps r' => exists o s', load the_prog n D s = (Ok o, s') /\ holds_records (heap s') D f o (norm f W) a ps /\ irest s' = r'
  | DErr x => exists s', load the_prog n D s = (Exc x, s')
  end.
Proof.
  intros Hn SP NP CK Hf Hw HC HE Hz Hr. pose proof (sv_load n D _ pre cm cnt y "DamageDescriptionRecord" a s Hn SP NP CK) as Q.
  assert (D2 : exists C, dec2 (fapp f (lay [Cnt a u16 1])) [] [] (irest s) = DOk (norm f W, (CLen a, z) :: C) tail).
  { destruct (block f (lay [Cnt a u16 1]) (norm f W) [] bs (be 2 z ++ tail) Hf (decode_encode_top f W bs _ Hw HE)) as (C' & _ & E). exists C'. rewrite Hr, E.
    rewrite (dec2_cnt a u16 z C' (be 2 z) tail) by (exists 2%nat; split; [reflexivity|]; split; [lia|]; split; [exact Hz|reflexivity]). cbn [dmap]. unfold cat2, on1. cbn [fst snd]. rewrite app_nil_r. reflexivity. }
  destruct D2 as (C & D2). rewrite D2 in Q. destruct Q as (z' & Ez & Q). cbn [count key_eqb] in Ez. rewrite String.eqb_refl in Ez. injection Ez as <-.
  destruct (dec_list _ _ tail) as [ps r'|x]; [|exact Q]. destruct Q as (o & s' & vs & A & B & C1 & C2 & C3 & _). exists o, s'. split; [exact A|]. split; [|exact C3]. split; [now rewrite <- HC|eauto].
Qed.

Lemma eds_newpure : new_pure the_prog new_fuel_ "EntityDamageStatusPdu".
Proof. intros i fu. vm_compute. reflexivity. Qed.
Lemma def_newpure : new_pure the_prog new_fuel_ "DirectedEnergyFirePdu".
Proof. intros i fu. vm_compute. reflexivity. Qed.

Lemma eds_wf : wf eds_fields = true.
Proof. vm_compute. reflexivity. Qed.
Lemma def_wf : wf (def_fields r_DEFireFlags) = true.
Proof. vm_compute. reflexivity. Qed.
Lemma value_norm f W bs : wf f = true -> value_of f W -> encode f W = (bs, None) -> norm f W = W.
Proof.
  intros Hw HV HE. destruct (roundtrip f W [] Hw HV) as (b & E & D). rewrite HE in E. injection E as <-. rewrite (decode_encode_top f W bs [] Hw HE) in D. now injection D.
Qed.

(** the factory picks the class from the third byte *)
Lemma eds_routed n h W bs tail : (S (S fuel_ok) <= n)%nat -> encode eds_fields W = (bs, None) -> field "pduType" W = Some (WInt 69) ->
  factory n h (bs ++ tail) = load the_prog n "EntityDamageStatusPdu" (mkst h (bs ++ tail) (bs ++ tail) []).
Proof.
  intros Hn HE Ht. destruct (starts_bytes header 0 eds_fields W [] bs ltac:(vm_compute; reflexivity) HE eq_refl "pduType" 2%nat 1%nat ltac:(cbn; tauto)) as (x & z & F & Z1 & R & B).
  rewrite Ht in F. injection F as <-. injection Z1 as <-. destruct (be1 69 R) as (b & B1 & B2). rewrite B1 in B. cbn [app] in B.
  assert (N : nth_error bs 2 = Some b) by (destruct bs as [|b0 [|b1 [|b2 r]]]; cbn in B; try discriminate; injection B as ->; reflexivity).
  unfold factory, createPdu. rewrite (factory_spec n) by (unfold fuel_ok, need, G in Hn; lia). cbn [ifull heap out]. rewrite nth_error_app1 by (apply nth_error_Some; congruence).
  rewrite N, B2. reflexivity.
Qed.

Lemma eds_reads n h W bs z tail : (S (S fuel_ok) <= n)%nat -> encode eds_fields W = (bs, None) -> field "pduType" W = Some (WInt 69) -> in_range 2 false z ->
  match dec_list (sv_get "DamageDescriptionRecord") (Z.to_nat z) tail with
  | DOk ps r' => exists o s', factory n h (bs ++ be 2 z ++ tail) = (Ok o, s') /\ holds_records (heap s') "EntityDamageStatusPdu" eds_fields o (norm eds_fields W) "damageDescriptions" ps /\ irest s' = r'
  | DErr x => exists s', factory n h (bs ++ be 2 z ++ tail) = (Exc x, s')
  end.
Proof.
  intros Hn HE Ht Hz. rewrite (eds_routed n h W bs _ Hn HE Ht). destruct eds_ok as [A B].
  exact (sv_pdu_read n "EntityDamageStatusPdu" eds_fields "damageDescriptions" eds_pre eds_cm "damageDescriptionCount" "record" (mkst h (bs ++ be 2 z ++ tail) (bs ++ be 2 z ++ tail) []) W bs z tail Hn A eds_newpure B eq_refl ltac:(vm_compute; reflexivity) ltac:(reflexivity) HE Hz eq_refl).
Qed.
Lemma def_reads n s W bs z tail : (S (S fuel_ok) <= n)%nat -> encode (def_fields r_DEFireFlags) W = (bs, None) -> in_range 2 false z -> irest s = bs ++ be 2 z ++ tail ->
  match dec_list (sv_get "DamageDescriptionRecord") (Z.to_nat z) tail with
  | DOk ps r' => exists o s', load the_prog n "DirectedEnergyFirePdu" s = (Ok o, s') /\ holds_records (heap s') "DirectedEnergyFirePdu" (def_fields r_DEFireFlags) o (norm (def_fields r_DEFireFlags) W) "dERecords" ps /\ irest s' = r'
  | DErr x => exists s', load the_prog n "DirectedEnergyFirePdu" s = (Exc x, s')
  end.
Proof.
  intros Hn HE Hz Hr. destruct def_ok as [A B].
  exact (sv_pdu_read n "DirectedEnergyFirePdu" (def_fields r_DEFireFlags) "dERecords" def_pre def_cm "numberOfDERecords" "vtp" s W bs z tail Hn A def_newpure B eq_refl ltac:(vm_compute; reflexivity) ltac:(reflexivity) HE Hz Hr).
Qed.

(** every record of the datagram, in its order, none more, and nothing of what follows *)
Theorem C62_entity_damage_read n h W bs ps bss rest : (S (S fuel_ok) <= n)%nat -> value_of eds_fields W -> field "pduType" W = Some (WInt 69) -> encode eds_fields W = (bs, None) ->
  Forall2 (sv_wire "DamageDescriptionRecord") ps bss -> Z.of_nat (length ps) < 65536 ->
  exists o s', factory n h (bs ++ be 2 (Z.of_nat (length ps)) ++ concat bss ++ rest) = (Ok o, s') /\
    holds_records (heap s') "EntityDamageStatusPdu" eds_fields o W "damageDescriptions" ps /\ irest s' = rest.
Proof.
  intros Hn HV Ht HE F HL. pose proof (eds_reads n h W bs (Z.of_nat (length ps)) (concat bss ++ rest) Hn HE Ht ltac:(unfold in_range; change (2 ^ (8 * Z.of_nat 2)) with 65536; lia)) as Q.
  rewrite Nat2Z.id, (sv_wires _ ps bss rest ltac:(left; reflexivity) F), (value_norm _ _ _ eds_wf HV HE) in Q. exact Q.
Qed.
Theorem C62_directed_energy_read n s W bs ps bss rest : (S (S fuel_ok) <= n)%nat -> value_of (def_fields r_DEFireFlags) W -> encode (def_fields r_DEFireFlags) W = (bs, None) ->
  Forall2 (sv_wire "DamageDescriptionRecord") ps bss -> Z.of_nat (length ps) < 65536 -> irest s = bs ++ be 2 (Z.of_nat (length ps)) ++ concat bss ++ rest ->
  exists o s', load the_prog n "DirectedEnergyFirePdu" s = (Ok o, s') /\
    holds_records (heap s') "DirectedEnergyFirePdu" (def_fields r_DEFireFlags) o W "dERecords" ps /\ irest s' = rest.
Proof.
  intros Hn HV HE F HL Hr. pose proof (def_reads n s W bs (Z.of_nat (length ps)) (concat bss ++ rest) Hn HE ltac:(unfold in_range; change (2 ^ (8 * Z.of_nat 2)) with 65536; lia) Hr) as Q.
  rewrite Nat2Z.id, (sv_wires _ ps bss rest ltac:(left; reflexivity) F), (value_norm _ _ _ def_wf HV HE) in Q. exact Q.
Qed.

(** a list that ends early, or has a record of another type or an impossible length, is refused: no PDU with part of the records *)
Theorem C62_entity_damage_rejects n h W bs z ps bss r x : (S (S fuel_ok) <= n)%nat -> encode eds_fields W = (bs, None) -> field "pduType" W = Some (WInt 69) ->
  Forall2 (sv_wire "DamageDescriptionRecord") ps bss -> Z.of_nat (length ps) < z < 65536 -> bad "DamageDescriptionRecord" r x ->
  exists s', factory n h (bs ++ be 2 z ++ concat bss ++ r) = (Exc x, s').
Proof.
  intros Hn HE Ht F HL Hb. pose proof (eds_reads n h W bs z (concat bss ++ r) Hn HE Ht ltac:(unfold in_range; change (2 ^ (8 * Z.of_nat 2)) with 65536; lia)) as Q.
  rewrite (bad_wires _ ps bss r x (Z.to_nat z) ltac:(left; reflexivity) F Hb ltac:(lia)) in Q. exact Q.
Qed.
Theorem C62_directed_energy_rejects n s W bs z ps bss r x : (S (S fuel_ok) <= n)%nat -> encode (def_fields r_DEFireFlags) W = (bs, None) ->
  Forall2 (sv_wire "DamageDescriptionRecord") ps bss -> Z.of_nat (length ps) < z < 65536 -> bad "DamageDescriptionRecord" r x -> irest s = bs ++ be 2 z ++ concat bss ++ r ->
  exists s', load the_prog n "DirectedEnergyFirePdu" s = (Exc x, s').
Proof.
  intros Hn HE F HL Hb Hr. pose proof (def_reads n s W bs z (concat bss ++ r) Hn HE ltac:(unfold in_range; change (2 ^ (8 * Z.of_nat 2)) with 65536; lia) Hr) as Q.
  rewrite (bad_wires _ ps bss r x (Z.to_nat z) ltac:(left; reflexivity) F Hb ltac:(lia)) in Q. exact Q.
Qed.

Lemma outs_bytes (l : list (list byte)) : outs (map (fun b => (b, None)) l) = (concat l, None).
Proof. induction l as [|b l IH]; [reflexivity|]. cbn [map outs fold_right concat]. fold (outs (map (fun b => (b, None)) l)). rewrite IH. reflexivity. Qed.
Lemma tx_prefix n h W pm pp bss bs rest : (S fuel_ok < n)%nat -> value_of tx_w W -> field "pduType" W = Some (WInt 25) ->
  agrees W pm -> pattern_agrees W pp -> Z.of_nat (length bss) < 65536 -> tx_out W pm pp (map (fun b => (b, None)) bss) = (bs, None) ->
  match dec_list (sv_get "VariableTransmitterParametersRecord") (length bss) (concat bss ++ rest) with
  | DOk ps r => exists o s', factory n h (bs ++ rest) = (Ok o, s') /\ received_with (heap s') o (seen W) pm pp ps /\ irest s' = r
  | DErr x => exists s', factory n h (bs ++ rest) = (Exc x, s')
  end.
Proof.
  intros Hn HV Ht HA HP HL HO. destruct (tx_typed W HV) as [(type & HY) _].
  pose proof HA as (sys & major & HR & _). destruct (mod_back W pm sys major HR HA) as (bm & M1 & M2 & M3). destruct (pat_back W pp type HY HP) as (bp & P1 & P2 & P3).
  assert (Lv : in_range 2 false (Z.of_nat (length bss))) by (unfold in_range; change (2 ^ (8 * Z.of_nat 2)) with 65536; lia).
  destruct (tx_read n W (Z.of_nat (length bss)) (part_len pp) (part_len pm) sys major type Hn HV Ht Lv P2 M2 HR HY) as (ba & bb & bc & bd & Ea & Eb & Ec & Ed & DD).
  unfold tx_out in HO. rewrite map_length in HO.
  rewrite (oseq_ok1 _ _ _ Ea), (oseq_ok1 _ _ _ (enc_nat 2 _ Lv)), (oseq_ok1 _ _ _ Eb), (oseq_ok1 _ _ _ (enc_nat 2 _ P2)), (oseq_ok1 _ _ _ Ec), (oseq_ok1 _ _ _ (enc_nat 1 _ M2)), (oseq_ok1 _ _ _ Ed), (oseq_ok1 _ _ _ M1), (oseq_ok1 _ _ _ P1), outs_bytes in HO.
  apply (f_equal fst) in HO. cbn [fst] in HO. subst bs. specialize (DD h (bm ++ bp ++ concat bss ++ rest)).
  unfold dec_parts in DD. cbn [n_sys n_major n_type n_mod n_pat] in DD. rewrite M3 in DD. cbn [dbind] in DD. rewrite P3 in DD. cbn [dmap] in DD. rewrite Nat2Z.id in DD. rewrite <- !app_assoc. exact DD.
Qed.

(** the Transmitter PDU: fields, modulation parameters and antenna pattern that agree with them, then the records *)
Theorem C62_transmitter_read n h W pm pp z ps bss bs rest : (S fuel_ok < n)%nat -> value_of tx_w W -> field "pduType" W = Some (WInt 25) -> field "frequency" W = Some (WInt z) -> z < 2 ^ 63 ->
  agrees W pm -> pattern_agrees W pp -> Forall2 (sv_wire "VariableTransmitterParametersRecord") ps bss -> Z.of_nat (length ps) < 65536 ->
  tx_out W pm pp (map (fun b => (b, None)) bss) = (bs, None) ->
  exists o s', factory n h (bs ++ rest) = (Ok o, s') /\ received_with (heap s') o (without_padding W) pm pp ps /\ irest s' = rest.
Proof.
  intros Hn HV Ht Hz Lz HA HP F HL HO. destruct (tx_typed W HV) as [_ (z' & Hz' & Rz)]. rewrite Hz in Hz'. injection Hz' as <-.
  rewrite (SerSound.Forall2_length _ _ _ F) in HL. pose proof (tx_prefix n h W pm pp bss bs rest Hn HV Ht HA HP HL HO) as Q.
  rewrite <- (SerSound.Forall2_length _ _ _ F), (sv_wires _ ps bss rest ltac:(right; left; reflexivity) F) in Q. rewrite (seen_small W z) in Q; [exact Q|exact Hz| |lia].
  destruct HV as [-> _]. apply nodupb_NoDup. vm_compute. reflexivity.
Qed.
Theorem C62_transmitter_rejects n h W pm pp ps bss r x bs rest : (S fuel_ok < n)%nat -> value_of tx_w W -> field "pduType" W = Some (WInt 25) ->
  agrees W pm -> pattern_agrees W pp -> Forall2 (sv_wire "VariableTransmitterParametersRecord") ps bss -> Z.of_nat (length ps) < 65535 ->
  bad "VariableTransmitterParametersRecord" (r ++ rest) x -> tx_out W pm pp (map (fun b => (b, None)) (bss ++ [r])) = (bs, None) ->
  exists s', factory n h (bs ++ rest) = (Exc x, s').
Proof.
  intros Hn HV Ht HA HP F HL Hb HO. pose proof (SerSound.Forall2_length _ _ _ F) as LL.
  pose proof (tx_prefix n h W pm pp (bss ++ [r]) bs rest Hn HV Ht HA HP ltac:(rewrite app_length; cbn [length]; lia) HO) as Q.
  rewrite app_length, concat_app in Q. cbn [concat length] in Q. rewrite app_nil_r, <- app_assoc, (bad_wires _ ps bss (r ++ rest) x (length bss + 1)%nat ltac:(right; left; reflexivity) F Hb ltac:(lia)) in Q. exact Q.
Qed.

(** ** Writing *)
Definition count_prop (a : string) : list stmt := [Return (Builtin BLen [self_ a])].
Definition ser_records (x a : string) : stmt := For x (self_ a) [Expr (Meth (Loc x) "serialize" [Loc "outputStream"] [])].
Definition writer (D : string) (f : fmt) (pre : list stmt) (cnt x a : string) : bool :=
  match lookup the_prog D "serialize" with
  | Some (MMeth m) => is_ser m && is (list_eq_dec stmt_dec) (m_body m) (pre ++ [wr_prop "write_uint16" cnt] ++ [ser_records x a])
  | _ => false
  end && is_prop D cnt (count_prop a) && negb (mem x ["self"; "outputStream"]) && (nest f <=? Dp)%nat && deps_ok f && subs_nodup f && nodupb (names f) &&
  match lookup the_prog D a with None => true | _ => false end.

Theorem sv_pdu_writes n D f pre cnt x a s o W vs os : (S fuel_ok < n)%nat -> writer D f pre cnt x a = true -> chkS the_prog TW 4 D pre f = Some Done ->
  contents the_prog (heap s) D f o = Some W -> list_attr (heap s) o a = Some vs -> all_write (Nat.pred n) (heap s) vs os ->
  serialize n o s = oc (oseq (encode f W) (oseq (enc_val u16 (WInt (Z.of_nat (length os)))) (outs os))) VNone s.
Proof.
  intros Hn HK CK HW HV HA. unfold writer in HK. repeat match type of HK with _ && _ = true => apply andb_prop in HK as [HK ?] end.
  rename H into HL, H0 into S2, H1 into S1, H2 into HD, H3 into HN, H4 into HX, H5 into HP.
  destruct n as [|n]; [lia|]. cbn [Nat.pred] in HA.
  destruct (contents_inv _ _ _ _ _ S1 S2 HW) as (l & at_ & fp & -> & Hl & HR). cbn [list_attr] in HV. rewrite Hl in HV.
  destruct (assoc a at_) as [av|] eqn:Aa; [|discriminate]. destruct av as [| | | | | |lv| | | | | | | | | | |]; try discriminate HV. destruct (nth_error (heap s) lv) as [[|vs']|] eqn:Hv; try discriminate HV. injection HV as <-.
  assert (Gv : getA the_prog D at_ a = Some (VRef lv)) by (apply getA_plain; [destruct (lookup the_prog D a); [discriminate|reflexivity]|exact Aa]).
  destruct (lookup the_prog D "serialize") as [[m|]|] eqn:Lm; try discriminate. apply andb_prop in HK as [Im Bm]. apply is_eq in Bm. rewrite (ser_run _ _ _ _ _ _ Lm Im Hl), Bm.
  assert (X : writes n l (heap s) (pre ++ [wr_prop "write_uint16" cnt] ++ [ser_records x a]) (oseq (encode f W) (oseq (enc_val u16 (WInt (Z.of_nat (length os)))) (outs os)))).
  { apply writes_app; [|apply writes_app].
    - intros rho s' Hh Hc. pose proof (deps_of_rep _ _ _ _ _ _ HR HD) as Hd. rewrite <- Hh in HR, Hd, Hl. eapply ser_part; eauto. unfold fuel_ok, need, G, Dp in *. lia.
    - intros rho s' Hh Hc. exists rho. split; [exact Hc|]. apply oc_one. refine (ex_write the_prog out_cls _ _ _ _ (WInt (Z.of_nat (length os))) (VInt (Z.of_nat (length os))) _ _ _ _ (eq_refl : wprim "write_uint16" = Some u16) Hc _ eq_refl); [unfold fuel_ok, need in Hn; lia|].
      rewrite <- Hh in Hl, Hv. destruct n as [|n]; [lia|]. refine (ev_prop _ _ _ n rho l at_ s' _ HP (proj1 Hc) Hl _). unfold count_prop.
      pose proof (ev_attr n [("self", VRef l)] l _ at_ _ _ s' eq_refl Hl Gv) as Ea. remember (self_ a) as e. cbn [run_block exec eval eval_list].
      unfold bind. rewrite Ea. cbn [ret builtin_val]. unfold bind, hget. rewrite Hv. cbn. rewrite (SerSound.Forall2_length _ _ _ HA). reflexivity.
    - intros rho s' Hh Hc.
      assert (N : x <> "self" /\ x <> "outputStream") by (split; intros ->; discriminate HX).
      destruct (ser_loop n (heap s) x vs' os l (proj1 N) (proj2 N) HA rho s' Hh Hc) as (rho' & C' & E'). exists rho'. split; [exact C'|].
      rewrite <- Hh in Hl, Hv. pose proof (ev_attr n rho l _ at_ _ _ s' (proj1 Hc) Hl Gv) as Ea. unfold ser_records. remember (self_ a) as e.
      remember [Expr (Meth (Loc x) "serialize" [Loc "outputStream"] [])] as bd. cbn [run_block exec]. unfold bind. rewrite Ea. cbn [iter_vals]. unfold bind, hget. rewrite Hv. unfold ret at 1.
      fold (run_block (exec the_prog (run the_prog n))). rewrite E'. unfold oc. destruct (snd (outs os)); reflexivity. }
  destruct (X [("self", VRef l); ("outputStream", VOut)] s eq_refl ltac:(split; reflexivity)) as (rho' & _ & E). unfold bind. rewrite E. unfold oc. destruct (snd _); reflexivity.
Qed.

Definition eds_spre := Eval vm_compute in firstn 4 (body "EntityDamageStatusPdu" "serialize").
Definition def_spre := Eval vm_compute in firstn 15 (body "DirectedEnergyFirePdu" "serialize").
Lemma eds_writer : writer "EntityDamageStatusPdu" eds_fields eds_spre "damageDescriptionCount" "record" "damageDescriptions" = true /\ chkS the_prog TW 4 "EntityDamageStatusPdu" eds_spre eds_fields = Some Done.
Proof. split; vm_compute; reflexivity. Qed.
Lemma def_writer : writer "DirectedEnergyFirePdu" (def_fields w_DEFireFlags) def_spre "numberOfDERecords" "record" "dERecords" = true /\ chkS the_prog TW 4 "DirectedEnergyFirePdu" def_spre (def_fields w_DEFireFlags) = Some Done.
Proof. split; vm_compute; reflexivity. Qed.

(** serialising v on its own appends bs, whatever has been written before *)
Definition writes_bytes (n : nat) (h : list hobj) (v : val) (bs : list byte) : Prop := forall s, heap s = h -> serialize n v s = (Ok VNone, appended s bs).

Lemma all_bytes n h vs bss : Forall2 (writes_bytes n h) vs bss -> all_write n h vs (map (fun b => (b, None)) bss).
Proof. intros F. induction F as [|v b vs bss Hv F IH]; constructor; auto. Qed.

Lemma pdu_bytes n D f pre cnt x a s o W bs vs bss : (S fuel_ok < n)%nat -> writer D f pre cnt x a = true /\ chkS the_prog TW 4 D pre f = Some Done ->
  contents the_prog (heap s) D f o = Some W -> encode f W = (bs, None) -> list_attr (heap s) o a = Some vs -> Forall2 (writes_bytes (Nat.pred n) (heap s)) vs bss ->
  serialize n o s = if Z.of_nat (length vs) <? 65536 then (Ok VNone, appended s (bs ++ be 2 (Z.of_nat (length vs)) ++ concat bss)) else (Exc StructError, appended s bs).
Proof.
  intros Hn [HK CK] HW HE HV F. rewrite (sv_pdu_writes n D f pre cnt x a s o W vs _ Hn HK CK HW HV (all_bytes _ _ _ _ F)), map_length, <- (SerSound.Forall2_length _ _ _ F), (oseq_ok1 _ _ _ HE).
  destruct (Z.ltb_spec (Z.of_nat (length vs)) 65536).
  - unfold u16. rewrite enc_nat by (unfold in_range; change (2 ^ (8 * Z.of_nat 2)) with 65536; lia). rewrite (oseq_ok1 _ _ _ eq_refl), outs_bytes. reflexivity.
  - unfold u16, enc_val, enc_prim. cbn [wint]. replace (_ && _) with false; [unfold oc; cbn [oseq fst snd]; rewrite app_nil_r; reflexivity|]. symmetry. apply andb_false_intro2. apply Z.ltb_ge. exact H.
Qed.

(** the fields, the number of records in two bytes, the bytes of every record in the order of the list; more than 65535 records raise struct.error *)
Theorem C62_entity_damage_writes n s o W bs vs bss : (S fuel_ok < n)%nat -> contents the_prog (heap s) "EntityDamageStatusPdu" eds_fields o = Some W -> encode eds_fields W = (bs, None) ->
  list_attr (heap s) o "damageDescriptions" = Some vs -> Forall2 (writes_bytes (Nat.pred n) (heap s)) vs bss ->
  serialize n o s = if Z.of_nat (length vs) <? 65536 then (Ok VNone, appended s (bs ++ be 2 (Z.of_nat (length vs)) ++ concat bss)) else (Exc StructError, appended s bs).
Proof. intros Hn. apply pdu_bytes with (1 := Hn) (2 := eds_writer). Qed.
Theorem C62_directed_energy_writes n s o W bs vs bss : (S fuel_ok < n)%nat -> contents the_prog (heap s) "DirectedEnergyFirePdu" (def_fields w_DEFireFlags) o = Some W -> encode (def_fields w_DEFireFlags) W = (bs, None) ->
  list_attr (heap s) o "dERecords" = Some vs -> Forall2 (writes_bytes (Nat.pred n) (heap s)) vs bss ->
  serialize n o s = if Z.of_nat (length vs) <? 65536 then (Ok VNone, appended s (bs ++ be 2 (Z.of_nat (length vs)) ++ concat bss)) else (Exc StructError, appended s bs).
Proof. intros Hn. apply pdu_bytes with (1 := Hn) (2 := def_writer). Qed.

(** ** What was written is not read back *)
(** v is a record object with class and fields p *)
Definition is_record (h : list hobj) (v : val) (p : string * flds) : Prop := exists t dbl f, In (fst p, (t, dbl, f)) sv_classes /\ sv_record h (fst p) f v (snd p).
Definition rec_size (p : string * flds) : nat := match assoc (fst p) sv_classes with Some (_, _, f) => 6 + size f (snd p) | None => 0 end.
Lemma class_assoc c x : In (c, x) sv_classes -> assoc c sv_classes = Some x.
Proof. unfold sv_classes. cbn [In]. intros H. repeat match goal with H : _ \/ _ |- _ => destruct H as [H|H] end; try contradiction; injection H as <- <-; reflexivity. Qed.
Lemma get_size e bs p r : In e expected -> sv_get e bs = DOk p r -> length bs = (rec_size p + length r)%nat.
Proof.
  intros He. unfold sv_get, u32, u16. destruct (dec_val (PInt 4 false) bs) as [y q|] eqn:D1; cbn [dbind]; [|discriminate]. apply dec_uint in D1 as (t & -> & _ & ->).
  destruct (dec_val (PInt 2 false) q) as [y q'|] eqn:D2; cbn [dbind]; [|discriminate]. apply dec_uint in D2 as (z & -> & _ & ->).
  destruct (sv_class e t) as [[c f]|] eqn:SC; [|discriminate]. destruct (z mod 8 =? 0); [|discriminate]. destruct (decode f [] [] q') as [W' r'|] eqn:ED; [|discriminate]. cbn [dmap]. intros [= <- <-].
  destruct (sv_class_some e t c f He SC) as (dbl & Hi & _). unfold rec_size. cbn [fst snd]. rewrite (class_assoc _ _ Hi). pose proof (sv_consumed _ _ _ _ _ _ _ Hi ED). rewrite !app_length, !be_length. lia.
Qed.
Lemma list_size e k : forall bs ps r, In e expected -> dec_list (sv_get e) k bs = DOk ps r -> length bs = (list_sum (map rec_size ps) + length r)%nat /\ length ps = k.
Proof.
  induction k as [|k IH]; intros bs ps r He; cbn [dec_list].
  - intros [= <- <-]. split; reflexivity.
  - destruct (sv_get e bs) as [p q|] eqn:E; cbn [dbind]; [|discriminate]. destruct (dec_list (sv_get e) k q) as [ps' q'|] eqn:EL; cbn [dmap]; [|discriminate]. intros [= <- <-].
    apply (get_size e _ _ _ He) in E. destruct (IH _ _ _ He EL) as [A B]. cbn [map list_sum fold_right length]. fold (list_sum (map rec_size ps')). split; [lia|now rewrite B].
Qed.

(** a record writes itself, and more than the reader takes for it *)
Lemma record_writes n h v p : (fuel_ok <= n)%nat -> is_record h v p ->
  exists o, (forall s, heap s = h -> serialize n v s = oc o VNone s) /\ forall b, o = (b, None) -> (rec_size p < length b)%nat.
Proof.
  intros Hn (t & dbl & f & Hi & HR). exists (oseq (sv_head dbl (WInt t) (sv_announced (fst p) (snd p))) (encode f (snd p))). split.
  - intros s Hs. rewrite <- Hs in HR. now apply (sv_writes n _ t dbl f).
  - intros b E. apply oseq_ok in E as (b1 & b2 & E1 & E2 & ->). apply head_len in E1. apply encode_size in E2. unfold rec_size. rewrite (class_assoc _ _ Hi), app_length, E1. destruct dbl; lia.
Qed.
Lemma records_write n h vs ps : (fuel_ok <= n)%nat -> Forall2 (is_record h) vs ps ->
  exists os, all_write n h vs os /\ forall b, outs os = (b, None) -> (list_sum (map rec_size ps) + length ps <= length b)%nat.
Proof.
  intros Hn F. induction F as [|v p vs ps Hv F (os & A & B)].
  - exists []. split; [constructor|]. intros b [= <-]. cbn. lia.
  - destruct (record_writes n h v p Hn Hv) as (o & C & D). exists (o :: os). split; [constructor; auto|]. intros b E. cbn [outs fold_right] in E. fold (outs os) in E. apply oseq_ok in E as (b1 & b2 & E1 & E2 & ->).
    apply D in E1. apply B in E2. rewrite app_length. cbn [map list_sum fold_right length]. fold (list_sum (map rec_size ps)). lia.
Qed.
(** the elements of a list are determined by what they are *)
Lemma sv_is_fun h v p q : sv_is h v p -> sv_is h v q -> p = q.
Proof.
  intros (t & dbl & f & A & B) (t' & dbl' & f' & A' & B'). destruct p as [c W], q as [c' W']. cbn [fst snd] in *.
  destruct (sv_tables _ _ _ _ A) as (_ & _ & _ & _ & S1 & S2 & _). destruct (sv_tables _ _ _ _ A') as (_ & _ & _ & _ & S1' & S2' & _).
  destruct (contents_inv _ _ _ _ _ S1 S2 B) as (l & at_ & fp & -> & Hl & _). destruct (contents_inv _ _ _ _ _ S1' S2' B') as (l' & at' & fp' & E & Hl' & _). injection E as <-.
  rewrite Hl in Hl'. injection Hl' as <- <-. apply class_assoc in A, A'. rewrite A in A'. injection A' as <- <- <-. congruence.
Qed.
Lemma sv_all_fun h vs ps : Forall2 (sv_is h) vs ps -> forall qs, Forall2 (sv_is h) vs qs -> ps = qs.
Proof. intros F. induction F; intros qs G; inversion G; subst; [reflexivity|]. f_equal; eauto using sv_is_fun. Qed.

(** a PDU with at least one record: what serialize writes, createPdu does not turn into a PDU with the same records that ends where the datagram ends *)
Theorem C62_round_trip_refuted n h s o W vs ps bs rest : (S (S fuel_ok) <= n)%nat -> contents the_prog (heap s) "EntityDamageStatusPdu" eds_fields o = Some W -> field "pduType" W = Some (WInt 69) ->
  list_attr (heap s) o "damageDescriptions" = Some vs -> vs <> [] -> Forall2 (is_record (heap s)) vs ps -> serialize n o s = (Ok VNone, appended s bs) ->
  ~ exists o' s' vs', factory n h (bs ++ rest) = (Ok o', s') /\ list_attr (heap s') o' "damageDescriptions" = Some vs' /\ Forall2 (sv_is (heap s')) vs' ps /\ irest s' = rest.
Proof.
  intros Hn HW Ht HV Hne F HS (o' & s' & vs' & E1 & E2 & E3 & E4).
  destruct (records_write (Nat.pred n) (heap s) vs ps ltac:(lia) F) as (os & A & B). destruct eds_writer as [K1 K2].
  rewrite (sv_pdu_writes n _ _ _ _ _ _ s o W vs os Hn K1 K2 HW HV A) in HS. unfold oc in HS. destruct (oseq _ _) as [b [x|]] eqn:Eo; cbn [fst snd] in HS; [discriminate|].
  unfold add_out, appended in HS. apply (f_equal (fun x => out (snd x))) in HS. cbn [out snd] in HS. apply app_inv_head in HS. subst b.
  apply oseq_ok in Eo as (b1 & b2 & H1 & H2 & ->). apply oseq_ok in H2 as (b3 & b4 & H2 & H3 & ->). apply B in H3.
  assert (Hb : b3 = be 2 (Z.of_nat (length os)) /\ in_range 2 false (Z.of_nat (length os))).
  { unfold u16, enc_val, enc_prim in H2. cbn [wint] in H2. destruct (_ && _) eqn:L; [|discriminate]. apply (f_equal fst) in H2. split; [symmetry; exact H2|]. now apply in_range_lohi. }
  destruct Hb as [-> Hz]. pose proof (eds_reads n h W b1 _ (b4 ++ rest) Hn H1 Ht Hz) as Q. rewrite <- !app_assoc in E1. rewrite Nat2Z.id in Q.
  destruct (dec_list _ _ _) as [ps' r'|x] eqn:EL; [|destruct Q as (s2 & Q); congruence]. destruct Q as (o2 & s2 & Q1 & (_ & vs2 & Q2 & Q3) & Q4). rewrite E1 in Q1. injection Q1 as <- <-. rewrite E2 in Q2. injection Q2 as <-.
  rewrite (sv_all_fun _ _ _ Q3 _ E3) in EL. apply list_size in EL as [EL _]; [|left; reflexivity]. rewrite app_length in EL. subst r'. rewrite E4 in EL.
  destruct F; [contradiction|]. cbn [length] in H3. lia.
Qed.

(** likewise for the variable transmitter parameters of a Transmitter PDU *)
Theorem C62_transmitter_round_trip_refuted n h s o W pm pp vs ps bs rest : (S fuel_ok < n)%nat -> tx_object 0 (heap s) o W pm pp vs -> value_of tx_w W -> field "pduType" W = Some (WInt 25) ->
  agrees W pm -> pattern_agrees W pp -> vs <> [] -> Forall2 (is_record (heap s)) vs ps -> serialize n o s = (Ok VNone, appended s bs) ->
  ~ exists o' s' W', factory n h (bs ++ rest) = (Ok o', s') /\ received_with (heap s') o' W' pm pp ps /\ irest s' = rest.
Proof.
  intros Hn HO HV Ht HA HP Hne F HS (o' & s' & W' & E1 & E2 & E4). destruct (tx_typed W HV) as [(type & HY) _].
  destruct (records_write (Nat.pred n) (heap s) vs ps ltac:(lia) F) as (os & A & B).
  pose proof HA as (sys & major & HR & _). destruct (mod_back W pm sys major HR HA) as (bm & M1 & M2 & M3). destruct (pat_back W pp type HY HP) as (bp & P1 & P2 & P3).
  pose proof HS as HS0. rewrite (tx_writes n s o W pm pp vs os Hn HO A) in HS. unfold oc in HS. destruct (tx_out _ _ _ _) as [b [x|]] eqn:Eo; cbn [fst snd] in HS; [discriminate|]. clear HS.
  unfold tx_out in Eo. apply oseq_ok in Eo as (? & ? & _ & Eo & _). apply oseq_ok in Eo as (b3 & ? & H2 & Eo & _). do 6 apply oseq_ok in Eo as (? & ? & _ & Eo & _). apply oseq_ok in Eo as (? & bv & _ & Eo & _).
  assert (Hz : in_range 2 false (Z.of_nat (length os))).
  { unfold u16, enc_val, enc_prim in H2. cbn [wint] in H2. destruct (_ && _) eqn:L; [|discriminate]. now apply in_range_lohi. }
  destruct (tx_wire_with n s o W pm pp vs os bm bp bv sys major type Hn HO A Eo Hz HV Ht M1 P1 M2 P2 HR HY) as (hd & HS & K). rewrite HS0 in HS.
  unfold appended in HS. apply (f_equal (fun x => out (snd x))) in HS. cbn [out snd] in HS. apply app_inv_head in HS. subst bs.
  specialize (K h (bm ++ bp ++ bv ++ rest)). unfold dec_parts in K. cbn [n_sys n_major n_type n_mod n_pat] in K. rewrite M3 in K. cbn [dbind] in K. rewrite P3 in K. cbn [dmap] in K.
  rewrite <- !app_assoc in E1. destruct (dec_list _ _ _) as [ps' r'|q] eqn:EL; [|destruct K as (s2 & K); congruence].
  destruct K as (o2 & s2 & Q1 & (_ & vs2 & (l & at_ & vm & vp & lv & -> & Hl & _ & _ & _ & _ & Av & Hv) & Q3) & Q4). rewrite E1 in Q1. injection Q1 as -> <-.
  destruct E2 as (_ & vs3 & (l' & at' & vm' & vp' & lv' & El & Hl' & _ & _ & _ & _ & Av' & Hv') & E3). injection El as <-. rewrite Hl in Hl'. injection Hl' as <-. rewrite Av in Av'. injection Av' as <-. rewrite Hv in Hv'. injection Hv' as <-.
  rewrite (sv_all_fun _ _ _ Q3 _ E3) in EL. apply list_size in EL as [EL _]; [|right; left; reflexivity]. rewrite app_length in EL. subst r'. rewrite E4 in EL. apply B in Eo.
  destruct F; [contradiction|]. cbn [length] in Eo. lia.
Qed.

(** ** Cases meeting the hypotheses *)
Definition pick (f : fmt) (bs : list byte) : flds := match decode f [] [] bs with DOk W _ => W | DErr _ => [] end.
Ltac value_tac f bs := apply (decode_value_of f bs _ []); [vm_compute; reflexivity|vm_compute; reflexivity].
Definition aim_bytes : list byte := repeat x00 89 ++ [x05].
Definition dam_bytes : list byte := repeat x00 33 ++ [x07].
Definition hf_bytes : list byte := repeat x00 33 ++ [x09].
Definition two : list (string * flds) := [("DirectedEnergyPrecisionAimpoint", pick tail_DirectedEnergyPrecisionAimpoint aim_bytes); ("DirectedEnergyDamage", pick tail_DirectedEnergyDamage dam_bytes)].
Definition two_bytes : list (list byte) := [be 4 4000 ++ be 2 96 ++ aim_bytes; be 4 4500 ++ be 2 40 ++ dam_bytes].
(** two records of different classes *)
Example C62_records_case : Forall2 (sv_wire "DamageDescriptionRecord") two two_bytes /\ length (concat two_bytes) = 136%nat.
Proof.
  split; [|vm_compute; reflexivity]. unfold two, two_bytes. constructor; [|constructor; [|constructor]].
  - exists 4000, tail_DirectedEnergyPrecisionAimpoint, 96, aim_bytes. split; [reflexivity|]. do 2 (split; [unfold in_range; cbn; lia|]). split; [reflexivity|].
    split; [value_tac tail_DirectedEnergyPrecisionAimpoint aim_bytes|]. split; [vm_compute; reflexivity|reflexivity].
  - exists 4500, tail_DirectedEnergyDamage, 40, dam_bytes. split; [reflexivity|]. do 2 (split; [unfold in_range; cbn; lia|]). split; [reflexivity|].
    split; [value_tac tail_DirectedEnergyDamage dam_bytes|]. split; [vm_compute; reflexivity|reflexivity].
Qed.
Definition eds_bytes : list byte := [x07; x01; x45; x02] ++ repeat x00 20 ++ [x00; x01; x00; x02; x00; x03] ++ repeat x00 4.
Definition def_bytes : list byte := [x07; x01; x44; x02] ++ repeat x00 72 ++ [x00; x03] ++ [x01] ++ repeat x00 7.
Example C62_entity_damage_case : let W := pick eds_fields eds_bytes in value_of eds_fields W /\ field "pduType" W = Some (WInt 69) /\ encode eds_fields W = (eds_bytes, None).
Proof. cbv zeta. split; [value_tac eds_fields eds_bytes|]. split; vm_compute; reflexivity. Qed.
Example C62_directed_energy_case : let W := pick (def_fields r_DEFireFlags) def_bytes in value_of (def_fields r_DEFireFlags) W /\ encode (def_fields r_DEFireFlags) W = (def_bytes, None).
Proof. cbv zeta. split; [value_tac (def_fields r_DEFireFlags) def_bytes|]. vm_compute. reflexivity. Qed.
Example C62_bad_case : bad "DamageDescriptionRecord" (be 4 3000 ++ be 2 40 ++ []) TypeError /\ bad "DamageDescriptionRecord" (be 4 4500 ++ be 2 39 ++ []) ValueError /\ bad "DamageDescriptionRecord" [x00; x00] StructError.
Proof.
  split; [|split].
  - apply bad_type; [unfold in_range; cbn; lia..|reflexivity].
  - eapply bad_length; [unfold in_range; cbn; lia..|reflexivity|discriminate].
  - apply bad_short. cbn. lia.
Qed.
(** an Entity Damage Status PDU with the default records of two classes; the theorem on writing and the refutation apply to it *)
Definition eds_obj : res val * st :=
  bind (new the_prog 60 "DirectedEnergyDamage" []) (fun r1 => bind (new the_prog 60 "DirectedEnergyPrecisionAimpoint" []) (fun r2 => bind (halloc (HList [r1; r2])) (fun l =>
    new the_prog 60 "EntityDamageStatusPdu" [VNone; l]))) st0.
Ltac record_tac f := do 3 eexists; split; [cbn [fst]; unfold sv_classes; cbn [In]; auto 6|split; [vm_compute; reflexivity|do 2 eexists; split; [reflexivity|split; [vm_compute; reflexivity|reflexivity]]]].
Example C62_written_case : exists o s W vs ps bs, eds_obj = (Ok o, s) /\ contents the_prog (heap s) "EntityDamageStatusPdu" eds_fields o = Some W /\ field "pduType" W = Some (WInt 69) /\
  list_attr (heap s) o "damageDescriptions" = Some vs /\ length vs = 2%nat /\ Forall2 (is_record (heap s)) vs ps /\ serialize 60 o s = (Ok VNone, appended s bs) /\ encode eds_fields W = (firstn 34 bs, None).
Proof.
  do 6 eexists. split; [vm_compute; reflexivity|]. split; [vm_compute; reflexivity|]. split; [vm_compute; reflexivity|]. split; [vm_compute; reflexivity|]. split; [reflexivity|]. split.
  - constructor; [instantiate (1 := ("DirectedEnergyDamage", _)); record_tac tail_DirectedEnergyDamage|]. constructor; [instantiate (1 := ("DirectedEnergyPrecisionAimpoint", _)); record_tac tail_DirectedEnergyPrecisionAimpoint|constructor].
  - split; [unfold appended; vm_compute; reflexivity|vm_compute; reflexivity].
Qed.
(** a Transmitter PDU with one HAVE QUICK record, and a datagram with one *)
Definition tx_obj : res val * st :=
  bind (new the_prog 60 "HighFidelityHAVEQUICKRadio" []) (fun r => bind (halloc (HList [r])) (fun l => bind (new the_prog 60 "TransmitterPdu" []) (fun o =>
    bind (set_attr the_prog o "variableTransmitterParameters" l) (fun _ => ret o)))) st0.
Definition tx_W : flds := match fst tx_obj with Ok o => match contents the_prog (heap (snd tx_obj)) "TransmitterPdu" tx_w o with Some W => W | None => [] end | _ => [] end.
Example C62_transmitter_case : exists o s vs ps bs, tx_obj = (Ok o, s) /\ tx_object 0 (heap s) o tx_W PNone PNone vs /\ length vs = 1%nat /\ Forall2 (is_record (heap s)) vs ps /\ serialize 60 o s = (Ok VNone, appended s bs) /\
  value_of tx_w tx_W /\ field "pduType" tx_W = Some (WInt 25) /\ field "frequency" tx_W = Some (WInt 0) /\ agrees tx_W PNone /\ pattern_agrees tx_W PNone.
Proof.
  do 5 eexists. split; [vm_compute; reflexivity|]. split.
  { split; [vm_compute; reflexivity|do 5 eexists; (split; [reflexivity|]); (split; [reflexivity|]); (split; [reflexivity|]); (split; [part_case|]); (split; [reflexivity|]); (split; [part_case|]); split; reflexivity]. }
  split; [reflexivity|]. split.
  { constructor; [instantiate (1 := ("HighFidelityHAVEQUICKRadio", _)); record_tac tail_HighFidelityHAVEQUICKRadio|constructor]. }
  split; [unfold appended; vm_compute; reflexivity|]. split; [apply (tx_value (fst (encode tx_w tx_W))); vm_compute; reflexivity|]. split; [vm_compute; reflexivity|]. split; [vm_compute; reflexivity|].
  split; [|exact I]. exists 0, 0. split; [|exact I]. eexists. split; [vm_compute; reflexivity|]. split; vm_compute; reflexivity.
Qed.
Definition hf : list (string * flds) := [("HighFidelityHAVEQUICKRadio", pick tail_HighFidelityHAVEQUICKRadio hf_bytes)].
Example C62_transmitter_wire_case : Forall2 (sv_wire "VariableTransmitterParametersRecord") hf [be 4 3000 ++ be 2 40 ++ hf_bytes] /\
  exists bs, tx_out tx_W PNone PNone (map (fun b => (b, None)) [be 4 3000 ++ be 2 40 ++ hf_bytes]) = (bs, None) /\ length bs = 144%nat.
Proof.
  split; [|eexists; split; vm_compute; reflexivity]. constructor; [|constructor]. exists 3000, tail_HighFidelityHAVEQUICKRadio, 40, hf_bytes. split; [reflexivity|]. do 2 (split; [unfold in_range; cbn; lia|]). split; [reflexivity|].
  split; [value_tac tail_HighFidelityHAVEQUICKRadio hf_bytes|]. split; [vm_compute; reflexivity|reflexivity].
Qed.

Definition all_PropSvList := (C62_entity_damage_read, C62_directed_energy_read, C62_transmitter_read, C62_entity_damage_rejects, C62_directed_energy_rejects, C62_transmitter_rejects, C62_entity_damage_writes, C62_directed_energy_writes,
  C62_round_trip_refuted, C62_transmitter_round_trip_refuted).
Print Assumptions all_PropSvList.
