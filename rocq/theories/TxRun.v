(** * How a Transmitter PDU is written and read (C38)

    TransmitterPdu.serialize and parse (opendis/dis7.py:5016-5116) contain statements outside the layout language: three
    lengths computed by properties, two parts that may be absent, and a loop over records of several classes. *)
From Coq Require Import ZArith String List Bool Lia.
From Coq Require Import Strings.Byte.
From Verif Require Import Lang Bytes Interp Shift Mono ProgBase ProgDis Prog Spec Codec Codec2 Rep Dec StreamLem SerSound ParSound ParStep ParClass NewSound Layouts Refine Api StreamApi Classes PropCodec Special PropSize.
Import ListNotations.
Open Scope string_scope. Open Scope Z_scope. Open Scope list_scope.

(** ** The fields *)
(** opendis/dis7.py:5016-5050 serialize, 5052-5080 parse: the fields between the counts *)
Definition tx_a : fmt := lay [
  fapp w_RadioCommunicationsFamilyPdu;
  Obj "radioReferenceID" "EntityIdentifier" w_EntityIdentifier;
  Prim "radioNumber" u16;
  Obj "radioEntityType" "EntityType" w_EntityType;
  Prim "transmitState" u8;
  Prim "inputSource" u8].
Definition tx_b : fmt := lay [
  Obj "antennaLocation" "WorldCoordinates" w_WorldCoordinates;
  Obj "relativeAntennaLocation" "Vector3Float" w_Vector3Float;
  Prim "antennaPatternType" u16].
(** the frequency is written as an unsigned and read as a signed number *)
Definition tx_c (freq : prim) (mt : fmt) : fmt := lay [
  Prim "frequency" freq;
  Prim "transmitFrequencyBandwidth" f32;
  Prim "power" f32;
  Obj "modulationType" "ModulationType" mt;
  Prim "cryptoSystem" u16;
  Prim "cryptoKeyId" u16].
Definition tx_d : fmt := lay [
  Prim "padding2" u16;
  Prim "padding3" u8].
Definition tx_w : fmt := fapp tx_a (fapp tx_b (fapp (tx_c u64 w_ModulationType) tx_d)).
Definition tx_r : fmt := fapp tx_a (fapp tx_b (fapp (tx_c i64 r_ModulationType) tx_d)).
Definition tx_vtp : fmt := lay [Cnt "variableTransmitterParameters" u16 1].
Definition tx_pat : fmt := lay [Cnt "antennaPattern" u16 1].
Definition tx_mod : fmt := lay [Cnt "modulationParameters" u8 1].
Definition tx_in : fmt := fapp tx_a (fapp tx_vtp (fapp tx_b (fapp tx_pat (fapp (tx_c i64 r_ModulationType) (fapp tx_mod tx_d))))).

Definition tx_body (m : string) : list stmt := match lookup the_prog "TransmitterPdu" m with Some (MMeth x) => m_body x | _ => [] end.
Definition part (i k : nat) (ss : list stmt) := firstn k (skipn i ss).
Definition wr_prop (w a : string) : stmt := Expr (Meth (Loc "outputStream") w [self_ a] []).
Definition wr_part (a : string) : stmt := If (self_ a) [Expr (Meth (self_ a) "serialize" [Loc "outputStream"] [])] [].
Definition sA := Eval vm_compute in part 0 6 (tx_body "serialize").
Definition sB := Eval vm_compute in part 7 3 (tx_body "serialize").
Definition sC := Eval vm_compute in part 11 6 (tx_body "serialize").
Definition sD := Eval vm_compute in part 18 2 (tx_body "serialize").
Lemma tx_ser_is : tx_body "serialize" =
  sA ++ [wr_prop "write_uint16" "variableTransmitterParameterCount"] ++ sB ++ [wr_prop "write_uint16" "antennaPatternLength"] ++ sC ++
  [wr_prop "write_uint8" "modulationParametersLength"] ++ sD ++ [wr_part "modulationParameters"] ++ [wr_part "antennaPattern"] ++
  [For "vtp" (self_ "variableTransmitterParameters") [Expr (Meth (Loc "vtp") "serialize" [Loc "outputStream"] [])]].
Proof. vm_compute. reflexivity. Qed.
Lemma tx_blocks : chkS the_prog TW 4 "TransmitterPdu" sA tx_a = Some Done /\ chkS the_prog TW 4 "TransmitterPdu" sB tx_b = Some Done /\
  chkS the_prog TW 4 "TransmitterPdu" sC (tx_c u64 w_ModulationType) = Some Done /\ chkS the_prog TW 4 "TransmitterPdu" sD tx_d = Some Done.
Proof. repeat split; vm_compute; reflexivity. Qed.
Definition pPre := Eval vm_compute in part 0 20 (tx_body "parse").
Definition pMod := Eval vm_compute in part 20 1 (tx_body "parse").
Definition pPat := Eval vm_compute in part 21 1 (tx_body "parse").
Definition pVtp := Eval vm_compute in part 22 1 (tx_body "parse").
Lemma tx_par_is : tx_body "parse" = pPre ++ pMod ++ pPat ++ pVtp.
Proof. vm_compute. reflexivity. Qed.
Definition cm_pre : list cent := Eval vm_compute in match chkP the_prog TR1 X1 NC 4 "TransmitterPdu" false pPre tx_in [] with Some (_, cm) => cm | None => [] end.
Lemma tx_pre : chkP the_prog TR1 X1 NC 4 "TransmitterPdu" false pPre tx_in [] = Some (Done, cm_pre).
Proof. vm_compute. reflexivity. Qed.

(** ** The optional parts *)
(** the modulation parameters or the antenna pattern: absent, a record of class c with fields W, or a record of class c carrying the bytes d *)
Inductive tpart := PNone | PRec (c : string) (W : flds) | PRaw (c : string) (d : list byte).
(** the record classes with a fixed layout, and their sizes *)
Definition part_sizes : list (string * Z) :=
  [("BeamAntennaPattern", 40); ("GenericRadio", 0); ("SimpleIntercomRadio", 0); ("BasicHaveQuickMP", 16); ("CCTTSincgarsMP", 16)].
Definition part_at (h : list hobj) (v : val) (p : tpart) : Prop :=
  match p with
  | PNone => v = VNone
  | PRec c W => exists k f, In (c, k) part_sizes /\ layout c = Some f /\ contents the_prog h c f v = Some W
  | PRaw c d => In c raw_classes /\ raw_data h c v d
  end.
(** what is written, and the length announced *)
Definition part_out (p : tpart) : outcome :=
  match p with
  | PNone => done
  | PRec c W => match layout c with Some f => encode f W | None => done end
  | PRaw _ d => (d, None)
  end.
Definition part_len (p : tpart) : Z :=
  match p with
  | PNone => 0
  | PRec c _ => match assoc c part_sizes with Some k => k | None => 0 end
  | PRaw _ d => Z.of_nat (length d)
  end.

Lemma part_shape h v p : part_at h v p -> v = VNone /\ p = PNone \/ exists l c at_, v = VRef l /\ nth_error h l = Some (HInst c at_) /\ p <> PNone.
Proof.
  destruct p as [|c W|c d]; cbn [part_at]; [auto|intros (k & f & _ & L & H)|intros (_ & l & at_ & -> & H & _)]; right.
  - unfold contents in H. destruct v as [ | | | | | |l| | | | | | | | | | | ]; try discriminate. destruct (nth_error h l) as [[d at_|]|] eqn:E; try discriminate.
    exists l, d, at_. repeat split; auto. discriminate.
  - exists l, c, at_. repeat split; auto. discriminate.
Qed.

Lemma part_writes n v p s : (fuel_ok <= n)%nat -> part_at (heap s) v p -> p <> PNone ->
  serialize n v s = oc (part_out p) VNone s /\ marshalledSize n v s = (Ok (VInt (part_len p)), s).
Proof.
  intros Hn H Hp. destruct p as [|c W|c d]; cbn [part_at part_out part_len] in *; [congruence| |].
  - destruct H as (k & f & Hi & L & H). rewrite L. pose proof (layout_inv _ _ L) as (L' & _). split; [exact (serialize_spec n c f v s W Hn L' H)|].
    unfold contents in H. destruct v as [ | | | | | |l| | | | | | | | | | | ]; try discriminate. destruct (nth_error (heap s) l) as [[d at_|]|] eqn:E; try discriminate.
    destruct (String.eqb_spec c d) as [<-|]; [|discriminate]. destruct n as [|n]; [unfold fuel_ok in Hn; lia|].
    unfold part_sizes in Hi. cbn [In] in Hi. repeat match goal with H : _ \/ _ |- _ => destruct H as [H|H] end; try contradiction; injection Hi as <- <-; cbn; size_const.
  - destruct H as [Hi H]. destruct (C30_raw_partial n c s v d Hn Hi H) as [A B]. split; [|exact B]. rewrite A. reflexivity.
Qed.

Definition part_prop (a : string) : list stmt := [If (self_ a) [Return (Meth (self_ a) "marshalledSize" [] [])] [Return (Lit (LInt 0))]].
Definition is_prop (c a : string) (b : list stmt) : bool :=
  match lookup the_prog c a with
  | Some (MMeth p) => is mkind_dec (m_kind p) KProperty && is (list_eq_dec (pair_dec string_dec (opt_dec dflt_dec))) (m_params p) [("self", None)] && is (list_eq_dec stmt_dec) (m_body p) b
  | _ => false
  end.
Lemma ev_prop c a b n rho l at_ s r : is_prop c a b = true -> assoc "self" rho = Some (VRef l) -> nth_error (heap s) l = Some (HInst c at_) ->
  bind (run_block (exec the_prog (run the_prog n)) b [("self", VRef l)]) (fun p => ret match snd p with Some v => v | None => VNone end) s = r ->
  eval the_prog (run the_prog (S n)) (self_ a) rho s = r.
Proof.
  unfold is_prop. destruct (lookup the_prog c a) as [[p|]|] eqn:L; try discriminate. intros H Hs Hl E. apply andb_prop in H as [H K3]. apply andb_prop in H as [K1 K2]. apply is_eq in K1, K2, K3.
  cbn [eval]. rewrite Hs. unfold bind at 1, ret at 1. unfold get_attr, bind at 1, hget. rewrite Hl, L, K1. cbn [run]. rewrite K2, K3. exact E.
Qed.

Lemma ev_part_len c a b n rho l at_ s v p : (fuel_ok <= n)%nat -> is_prop c a (part_prop b) = true -> assoc "self" rho = Some (VRef l) -> nth_error (heap s) l = Some (HInst c at_) ->
  getA the_prog c at_ b = Some v -> part_at (heap s) v p ->
  eval the_prog (run the_prog (S n)) (self_ a) rho s = (Ok (VInt (part_len p)), s).
Proof.
  intros Hn HP Hs Hl Hg Hp. eapply ev_prop; [exact HP|exact Hs|exact Hl|]. unfold part_prop.
  pose proof (ev_attr n [("self", VRef l)] l c at_ b v s eq_refl Hl Hg) as Ea.
  destruct (part_shape _ _ _ Hp) as [[-> ->]|(l' & c' & at' & -> & Hl' & Hne)].
  - remember (self_ b) as e. cbn [run_block exec]. unfold bind at 1. unfold bind at 1. unfold bind at 1. rewrite Ea. reflexivity.
  - destruct (part_writes n _ _ _ Hn Hp Hne) as [_ Hz]. pose proof (ev_size n _ _ _ _ _ Ea Hz) as E. remember (size_of (self_ b)) as e2. remember (self_ b) as e.
    cbn [run_block exec]. unfold bind at 1. unfold bind at 1. unfold bind at 1. rewrite Ea. cbn [truth]. rewrite Hl'. cbn [run_block exec]. unfold bind. rewrite E. reflexivity.
Qed.

Lemma ev_ser n e rho s v r : assoc "outputStream" rho = Some VOut -> eval the_prog (run the_prog n) e rho s = (Ok v, s) -> serialize n v s = r ->
  eval the_prog (run the_prog n) (Meth e "serialize" [Loc "outputStream"] []) rho s = r.
Proof.
  intros Ho He Hz. cbn [eval]. unfold bind at 1. rewrite He. unfold serialize, call_method in Hz. unfold bind at 1 in Hz. unfold bind at 1.
  destruct (resolve the_prog v "serialize" s) as [[k|e0] s0]; [|exact Hz]. cbn [eval_list eval]. rewrite Ho. exact Hz.
Qed.

Lemma ex_part c a n rho l at_ s v p : (fuel_ok <= n)%nat -> ctx rho l -> nth_error (heap s) l = Some (HInst c at_) ->
  getA the_prog c at_ a = Some v -> part_at (heap s) v p ->
  exec the_prog (run the_prog n) (wr_part a) rho s = oc (part_out p) (rho, None) s.
Proof.
  intros Hn [Hs Ho] Hl Hg Hp. pose proof (ev_attr n rho l c at_ a v s Hs Hl Hg) as Ea. unfold wr_part.
  destruct (part_shape _ _ _ Hp) as [[-> ->]|(l' & c' & at' & -> & Hl' & Hne)].
  - remember (self_ a) as e. cbn [exec]. unfold bind at 1. rewrite Ea. cbn [truth run_block]. unfold part_out. now rewrite oc_done.
  - destruct (part_writes n _ _ _ Hn Hp Hne) as [Hz _]. pose proof (ev_ser n _ _ _ _ _ Ho Ea Hz) as E. remember (Meth (self_ a) "serialize" _ _) as e2. remember (self_ a) as e.
    cbn [exec]. unfold bind at 1. rewrite Ea. cbn [truth]. rewrite Hl'. cbn [run_block exec]. unfold bind. rewrite E. unfold oc. destruct (snd (part_out p)); reflexivity.
Qed.

(** ** serialize *)
Definition outs (l : list outcome) : outcome := fold_right oseq done l.
(** every record of a list is written as given, whatever has been written before *)
Definition all_write (n : nat) (h : list hobj) (vs : list val) (os : list outcome) : Prop :=
  Forall2 (fun v o => forall s, heap s = h -> serialize n v s = oc o VNone s) vs os.

Lemma ser_loop n h x vs os l : x <> "self" -> x <> "outputStream" -> all_write n h vs os -> forall rho s, heap s = h -> ctx rho l ->
  exists rho', ctx rho' l /\ for_loop (run_block (exec the_prog (run the_prog n)) [Expr (Meth (Loc x) "serialize" [Loc "outputStream"] [])]) x vs rho s = oc (outs os) (rho', None) s.
Proof.
  intros X1 X2 F. induction F as [|v o vs os Hv F IH]; intros rho s Hh Hc.
  - exists rho. split; [exact Hc|]. cbn [for_loop outs fold_right]. now rewrite oc_done.
  - assert (Hc' : ctx (upd x v rho) l) by (destruct Hc as [A B]; split; rewrite assoc_upd_ne by (intros Q; subst; contradiction); assumption).
    assert (E := ev_ser n (Loc x) (upd x v rho) s v _ (proj2 Hc') ltac:(cbn [eval]; rewrite assoc_upd_eq; reflexivity) (Hv s Hh)).
    destruct (IH (upd x v rho) (add_out (fst o) s) Hh Hc') as (rho' & C' & E').
    assert (Eb : run_block (exec the_prog (run the_prog n)) [Expr (Meth (Loc x) "serialize" [Loc "outputStream"] [])] (upd x v rho) s = oc o (upd x v rho, None) s).
    { remember (Meth (Loc x) "serialize" _ _) as e. cbn [run_block exec]. unfold bind. rewrite E. unfold oc. destruct (snd o); reflexivity. }
    remember (run_block (exec the_prog (run the_prog n)) [Expr (Meth (Loc x) "serialize" [Loc "outputStream"] [])]) as bd.
    cbn [for_loop]. unfold bind at 1. rewrite Eb. unfold oc at 1. cbn [outs fold_right]. fold (outs os). destruct o as [b [q|]]; cbn [fst snd] in *.
    + exists rho. split; [exact Hc|]. reflexivity.
    + exists rho'. split; [exact C'|]. rewrite E'. unfold oc, oseq. cbn [fst snd]. unfold add_out. cbn. destruct (snd (outs os)); now rewrite app_assoc.
Qed.

Lemma oc_app n ss1 ss2 rho rho1 rho2 s o1 o2 :
  run_block (exec the_prog (run the_prog n)) ss1 rho s = oc o1 (rho1, None) s ->
  (snd o1 = None -> run_block (exec the_prog (run the_prog n)) ss2 rho1 (add_out (fst o1) s) = oc o2 (rho2, None) (add_out (fst o1) s)) ->
  run_block (exec the_prog (run the_prog n)) (ss1 ++ ss2) rho s = oc (oseq o1 o2) (rho2, None) s.
Proof.
  intros H1 H2. rewrite run_block_app, H1. destruct o1 as [b [e|]]; unfold oc, oseq; cbn [fst snd] in *; [reflexivity|].
  rewrite (H2 eq_refl). unfold oc. f_equal. unfold add_out. cbn. now rewrite app_assoc.
Qed.

(** the statements ss, run in a method of the object at l while the heap is h, write o *)
Definition writes (n l : nat) (h : list hobj) (ss : list stmt) (o : outcome) : Prop :=
  forall rho s, heap s = h -> ctx rho l -> exists rho', ctx rho' l /\ run_block (exec the_prog (run the_prog n)) ss rho s = oc o (rho', None) s.
Lemma writes_app n l h ss1 ss2 o1 o2 : writes n l h ss1 o1 -> writes n l h ss2 o2 -> writes n l h (ss1 ++ ss2) (oseq o1 o2).
Proof.
  intros H1 H2 rho s Hh Hc. destruct (H1 rho s Hh Hc) as (r1 & C1 & E1). destruct (H2 r1 (add_out (fst o1) s) Hh C1) as (r2 & C2 & E2).
  exists r2. split; [exact C2|]. eapply oc_app; eauto.
Qed.

Lemma oc_one n c rho s o : exec the_prog (run the_prog n) c rho s = oc o (rho, None) s -> run_block (exec the_prog (run the_prog n)) [c] rho s = oc o (rho, None) s.
Proof. intros H. apply one_block. exact H. Qed.

(** what a Transmitter PDU with fields W, modulation parameters pm, antenna pattern pp and variable transmitter parameters writing os writes *)
Definition tx_out (W : flds) (pm pp : tpart) (os : list outcome) : outcome :=
  oseq (encode tx_a W) (oseq (enc_val u16 (WInt (Z.of_nat (length os)))) (oseq (encode tx_b W) (oseq (enc_val u16 (WInt (part_len pp)))
  (oseq (encode (tx_c u64 w_ModulationType) W) (oseq (enc_val u8 (WInt (part_len pm))) (oseq (encode tx_d W) (oseq (part_out pm) (oseq (part_out pp) (outs os))))))))).

(** o is a Transmitter PDU with these parts and records *)
Definition tx_object (n : nat) (h : list hobj) (o : val) (W : flds) (pm pp : tpart) (vs : list val) : Prop :=
  contents the_prog h "TransmitterPdu" tx_w o = Some W /\
  exists l at_ vm vp lv, o = VRef l /\ nth_error h l = Some (HInst "TransmitterPdu" at_) /\
    assoc "modulationParameters" at_ = Some vm /\ part_at h vm pm /\ assoc "antennaPattern" at_ = Some vp /\ part_at h vp pp /\
    assoc "variableTransmitterParameters" at_ = Some (VRef lv) /\ nth_error h lv = Some (HList vs).

Lemma tx_props : is_prop "TransmitterPdu" "variableTransmitterParameterCount" [Return (Builtin BLen [self_ "variableTransmitterParameters"])] = true /\
  is_prop "TransmitterPdu" "antennaPatternLength" (part_prop "antennaPattern") = true /\ is_prop "TransmitterPdu" "modulationParametersLength" (part_prop "modulationParameters") = true.
Proof. repeat split; vm_compute; reflexivity. Qed.

Theorem tx_writes n s o W pm pp vs os : (S fuel_ok < n)%nat -> tx_object n (heap s) o W pm pp vs -> all_write (Nat.pred n) (heap s) vs os ->
  serialize n o s = oc (tx_out W pm pp os) VNone s.
Proof.
  intros Hn [HW (l & at_ & vm & vp & lv & -> & Hl & Am & Pm & Ap & Pp & Av & Hv)] HA.
  destruct n as [|n]; [lia|]. cbn [Nat.pred] in HA.
  destruct (contents_inv _ _ _ _ _ (eq_refl : subs_nodup tx_w = true) (eq_refl : nodupb (names tx_w) = true) HW) as (l' & at' & fp & E & Hl' & HR). injection E as <-. rewrite Hl in Hl'. injection Hl' as <-.
  assert (Gm : getA the_prog "TransmitterPdu" at_ "modulationParameters" = Some vm) by (apply getA_plain; [vm_compute; reflexivity|exact Am]).
  assert (Gp : getA the_prog "TransmitterPdu" at_ "antennaPattern" = Some vp) by (apply getA_plain; [vm_compute; reflexivity|exact Ap]).
  assert (Gv : getA the_prog "TransmitterPdu" at_ "variableTransmitterParameters" = Some (VRef lv)) by (apply getA_plain; [vm_compute; reflexivity|exact Av]).
  unfold tx_w in HR. apply rep_fapp in HR as (fpa & fp1 & Ra & HR & _). apply rep_fapp in HR as (fpb & fp2 & Rb & HR & _). apply rep_fapp in HR as (fpc & fpd & Rc & Rd & _).
  assert (Lm : exists m, lookup the_prog "TransmitterPdu" "serialize" = Some (MMeth m) /\ is_ser m = true /\ m_body m = tx_body "serialize").
  { assert (Q : match lookup the_prog "TransmitterPdu" "serialize" with Some (MMeth m) => is_ser m | _ => false end = true) by (vm_compute; reflexivity).
    unfold tx_body. destruct (lookup the_prog "TransmitterPdu" "serialize") as [[m|]|]; try discriminate. eauto. }
  destruct Lm as (m & Lm & Im & Bm). rewrite (ser_run _ _ _ _ _ _ Lm Im Hl), Bm.
  assert (BLK : forall ss f fp0, chkS the_prog TW 4 "TransmitterPdu" ss f = Some Done -> (nest f <=? Dp)%nat = true ->
     rep the_prog (heap s) f (getA the_prog "TransmitterPdu" at_) W fp0 -> deps (heap s) f (getA the_prog "TransmitterPdu" at_) W -> writes n l (heap s) ss (encode f W)).
  { intros ss f fp0 C1 C2 Hr Hd rho s' Hh Hc. rewrite <- Hh in Hr, Hd, Hl. eapply ser_part; eauto. unfold fuel_ok, need, G, Dp in *. lia. }
  assert (PRP : forall w p a z, wprim w = Some p -> (forall rho s', heap s' = heap s -> ctx rho l -> eval the_prog (run the_prog n) (self_ a) rho s' = (Ok (VInt z), s')) ->
     writes n l (heap s) [wr_prop w a] (enc_val p (WInt z))).
  { intros w p a z Hw He rho s' Hh Hc. exists rho. split; [exact Hc|]. apply oc_one. refine (ex_write the_prog out_cls _ _ _ _ (WInt z) (VInt z) _ _ _ _ Hw Hc (He _ _ Hh Hc) eq_refl). unfold fuel_ok, need in Hn. lia. }
  destruct tx_blocks as (KA & KB & KC & KD).
  assert (X : writes n l (heap s) (tx_body "serialize") (tx_out W pm pp os)).
  { rewrite tx_ser_is. unfold tx_out. repeat apply writes_app.
    - eapply BLK; eauto. eapply deps_of_rep; eauto.
    - apply PRP; [reflexivity|]. intros rho s' Hh [Hs _]. rewrite <- Hh in Hl, Hv. destruct n as [|n]; [lia|].
      refine (ev_prop _ _ _ n rho l at_ s' _ (proj1 tx_props) Hs Hl _).
      pose proof (ev_attr n [("self", VRef l)] l _ at_ _ _ s' eq_refl Hl Gv) as Ea. remember (self_ "variableTransmitterParameters") as e. cbn [run_block exec eval eval_list].
      unfold bind. rewrite Ea. cbn [ret builtin_val]. unfold bind, hget. rewrite Hv. cbn. rewrite (SerSound.Forall2_length _ _ _ HA). reflexivity.
    - eapply BLK; eauto. eapply deps_of_rep; eauto.
    - apply PRP; [reflexivity|]. intros rho s' Hh [Hs _]. rewrite <- Hh in Hl, Pp. destruct n as [|n]; [lia|]. refine (ev_part_len _ _ _ n rho l at_ s' _ _ _ (proj1 (proj2 tx_props)) Hs Hl Gp Pp). lia.
    - eapply BLK; eauto. eapply deps_of_rep; eauto.
    - apply PRP; [reflexivity|]. intros rho s' Hh [Hs _]. rewrite <- Hh in Hl, Pm. destruct n as [|n]; [lia|]. refine (ev_part_len _ _ _ n rho l at_ s' _ _ _ (proj2 (proj2 tx_props)) Hs Hl Gm Pm). lia.
    - eapply BLK; eauto. eapply deps_of_rep; eauto.
    - intros rho s' Hh Hc. rewrite <- Hh in Hl, Pm. exists rho. split; [exact Hc|]. apply oc_one. eapply ex_part; eauto. lia.
    - intros rho s' Hh Hc. rewrite <- Hh in Hl, Pp. exists rho. split; [exact Hc|]. apply oc_one. eapply ex_part; eauto. lia.
    - intros rho s' Hh Hc. destruct (ser_loop n (heap s) "vtp" vs os l ltac:(discriminate) ltac:(discriminate) HA rho s' Hh Hc) as (rho' & C' & E'). exists rho'. split; [exact C'|].
      rewrite <- Hh in Hl, Hv. pose proof (ev_attr n rho l _ at_ _ _ s' (proj1 Hc) Hl Gv) as Ea. remember (self_ "variableTransmitterParameters") as e.
      remember [Expr (Meth (Loc "vtp") "serialize" [Loc "outputStream"] [])] as bd. cbn [run_block exec]. unfold bind. rewrite Ea. cbn [iter_vals]. unfold bind, hget. rewrite Hv. unfold ret at 1.
      fold (run_block (exec the_prog (run the_prog n))). rewrite E'. unfold oc. destruct (snd (outs os)); reflexivity. }
  destruct (X [("self", VRef l); ("outputStream", VOut)] s eq_refl ltac:(split; reflexivity)) as (rho' & _ & E). unfold bind. rewrite E. unfold oc. destruct (snd _); reflexivity.
Qed.
