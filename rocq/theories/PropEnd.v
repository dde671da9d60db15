(** * C69: sender and receiver agree on a moving entity

    From the attributes of an Entity State PDU, through serialize and createPdu, to the position the receiver extrapolates with DeadReckoning.py. *)
From Coq Require Import ZArith String List Bool Lia Reals Lra.
From Coq Require Import Strings.Byte.
From Flocq Require Import Core Binary Bits.
From Verif Require Import Lang Bytes Interp Shift Mono ProgBase ProgDis Prog Spec Codec Codec2 Rep Dec StreamLem SerSound ParSound ParStep ParClass NewSound Layouts Refine Api StreamApi Classes
  Special PropCodec CtorRun PropFactory PropOffsets Assign PropAccept PropFloat Real3 DeadReckoning Float64 DeadReckoning64 FloatErr PropDR64 PropDR64b FloatLink.
Import ListNotations.
Open Scope string_scope. Open Scope Z_scope. Open Scope list_scope.

(** ** Attributes of a layout *)
(** the scalar or the record under the name a *)
Fixpoint attr_of (a : string) (f : fmt) : option (prim + fmt) :=
  match f with
  | Done => None
  | Prim b p k => if String.eqb a b then Some (inl p) else attr_of a k
  | Obj b _ sub k => if String.eqb a b then Some (inr sub) else attr_of a k
  | Cnt _ _ _ k | Zero _ k | Pad _ k | Derive _ _ _ k | PList _ _ k | OList _ _ _ k | Arr _ _ _ k | Mask _ _ k | VList _ _ _ _ k | NullL _ k | Bits _ k => attr_of a k
  end.
(** the wire type of the scalar attribute o.a1.a2. ... *)
Fixpoint leaf (path : list string) (f : fmt) : option prim :=
  match path with
  | [] => None
  | a :: r => match r, attr_of a f with
              | [], Some (inl p) => Some p
              | _ :: _, Some (inr sub) => leaf r sub
              | _, _ => None
              end
  end.

(** ** Specification *)
(** what the receiver reads where the sender has v, by wire type: the same integer, the same double, or the double of the nearest single ([narrow], C07) *)
Definition received (p : prim) (v v' : Interp.val) : Prop :=
  match p with
  | PInt _ _ => match v with VInt z => v' = VInt z | VBool b => v' = VInt (if b then 1 else 0) | _ => False end
  | PF64 => match v with VFloat b => v' = VFloat (b mod 2 ^ 64) | VInt _ | VBool _ => exists b, v' = VFloat b | _ => False end
  | PF32 => match v with VFloat b => exists c, narrow b = Some c /\ v' = VFloat (widen (c mod 2 ^ 32)) | VInt _ | VBool _ => exists b, v' = VFloat b | _ => False end
  end.

Lemma attr_back a f : forall r W V, attr_of a f = Some r -> comes_back f W V ->
  match r with
  | inl p => exists x y, field a W = Some x /\ field a V = Some y /\ gives p x y
  | inr sub => exists w v, field a W = Some (WObj w) /\ field a V = Some (WObj v) /\ comes_back sub w v
  end.
Proof.
  induction f as [|b p k IH|b c sub IHs k IH|b p m k IH|b p k IH|b c sub IHs k IH|b p n k IH|p k IH|b n k IH|b p d dv k IH|b k IH|b d e k IH|bf k IH|b k IH];
    intros r W V HA HB; cbn [attr_of comes_back] in *; try discriminate; try (eapply IH; eauto; fail); try (eapply IH; [exact HA|exact (proj2 HB)]; fail).
  - destruct HB as [HB HK]. destruct (String.eqb_spec a b) as [->|]; [|now apply (IH r)]. injection HA as <-. exact HB.
  - destruct HB as [HB HK]. destruct (String.eqb_spec a b) as [->|]; [|now apply (IH r)]. injection HA as <-. destruct HB as (w & v & A & B & _ & C). eauto.
Qed.
Lemma attr_rep a f : forall r h ga W fp, attr_of a f = Some r -> rep the_prog h f ga W fp ->
  match r with
  | inl _ => exists v x, ga a = Some v /\ scal v = Some x /\ field a W = Some x
  | inr sub => exists l c at_ w fp', ga a = Some (VRef l) /\ nth_error h l = Some (HInst c at_) /\ field a W = Some (WObj w) /\ rep the_prog h sub (getA the_prog c at_) w fp'
  end.
Proof.
  induction f as [|b p k IH|b c sub IHs k IH|b p m k IH|b p k IH|b c sub IHs k IH|b p n k IH|p k IH|b n k IH|b p d dv k IH|b k IH|b d e k IH|bf k IH|b k IH];
    intros r h ga W fp HA HR; cbn [attr_of rep] in *; try discriminate; try (eapply IH; eauto; fail); try (eapply IH; [exact HA|exact (proj2 HR)]; fail).
  - destruct HR as [HR HK]. destruct (String.eqb_spec a b) as [->|]; [|now apply (IH r h ga W fp)]. injection HA as <-. exact HR.
  - destruct HR as (l & at_ & w & fp1 & fp2 & A & B & C & D & E & F). destruct (String.eqb_spec a b) as [->|]; [|now apply (IH r h ga W fp2)]. injection HA as <-. exists l, c, at_, w, fp1. auto.
  - destruct HR as (l & vs & ws & fp2 & A & B & C & D & E & F). now apply (IH r h ga W fp2).
  - destruct HR as (l & vs & ws & fps & fp2 & A & B & C & D & E & F). now apply (IH r h ga W fp2).
  - destruct HR as (l & vs & ws & fp2 & A & B & C & D & E & F). now apply (IH r h ga W fp2).
  - destruct HR as (l & vs & ws & fp2 & A & B & C & D & E & F). now apply (IH r h ga W fp2).
  - destruct HR as (l & fp2 & A & B & C & D & E). now apply (IH r h ga W fp2).
Qed.

Lemma leaf_back path : forall f W V p, leaf path f = Some p -> comes_back f W V -> exists x y, walk path W = Some x /\ walk path V = Some y /\ gives p x y.
Proof.
  induction path as [|a r IH]; intros f W V p HL HB; [discriminate HL|]. cbn [leaf walk] in *. destruct (attr_of a f) as [q|] eqn:EA; [|destruct r; discriminate HL].
  pose proof (attr_back a f q W V EA HB) as K. destruct r as [|a2 r].
  - destruct q as [q|q]; [|discriminate HL]. injection HL as ->. destruct K as (x & y & A & B & C). eauto.
  - destruct q as [q|sub]; [discriminate HL|]. destruct K as (w & v & A & B & C). rewrite A, B. now apply (IH sub).
Qed.
Lemma leaf_reach n s path : forall f l c at_ W fp p, leaf path f = Some p -> nth_error (heap s) l = Some (HInst c at_) -> rep the_prog (heap s) f (getA the_prog c at_) W fp ->
  exists v x, reach n (VRef l) (map Attr path) s = (Ok v, s) /\ scal v = Some x /\ walk path W = Some x.
Proof.
  induction path as [|a r IH]; intros f l c at_ W fp p HL HN HR; [discriminate HL|]. cbn [leaf walk map reach] in *. destruct (attr_of a f) as [q|] eqn:EA; [|destruct r; discriminate HL].
  pose proof (attr_rep a f q _ _ W fp EA HR) as K. destruct r as [|a2 r].
  - destruct q as [q|q]; [|discriminate HL]. destruct K as (v & x & A & B & C). exists v, x. unfold bind. rewrite (getattr_ok n s l c at_ a v HN A). cbn [map reach]. auto.
  - destruct q as [q|sub]; [discriminate HL|]. destruct K as (l2 & c2 & at2 & w & fp' & A & B & C & D). destruct (IH sub l2 c2 at2 w fp' p HL B D) as (v & x & E & F & G).
    exists v, x. unfold bind. rewrite (getattr_ok n s l c at_ a _ HN A), C. auto.
Qed.

Lemma gives_received p v x y v' : scal v = Some x -> scal v' = Some y -> gives p x y -> received p v v'.
Proof.
  intros Hv Hv' HG. assert (I : forall z, y = WInt z -> v' = VInt z) by (intros z ->; destruct v'; cbn in Hv'; congruence).
  assert (Fl : forall b, y = WFloat b -> v' = VFloat b) by (intros b ->; destruct v'; cbn in Hv'; congruence).
  destruct p; cbn [gives received] in *.
  - destruct HG as (z & A & B). specialize (I _ B). destruct v as [|b|z0| | | | | | | | | | | | | | | ]; cbn in Hv; try discriminate Hv; injection Hv as <-; cbn in A; try discriminate A; injection A as <-; exact I.
  - destruct HG as (b & c & A & N & B). specialize (Fl _ B). destruct v as [|b0|z0|x0| | | | | | | | | | | | | | ]; cbn in Hv; try discriminate Hv; injection Hv as <-; eauto;
      destruct A as [A|(z & A & _)]; try discriminate A. injection A as ->. eauto.
  - destruct HG as (b & A & B). specialize (Fl _ B). destruct v as [|b0|z0|x0| | | | | | | | | | | | | | ]; cbn in Hv; try discriminate Hv; injection Hv as <-; eauto;
      destruct A as [A|(z & A & _)]; try discriminate A. injection A as ->. exact Fl.
Qed.

(** ** Attributes, one by one *)
Definition has_type (f : fmt) : bool := match leaf ["pduType"] f with Some _ => true | None => false end.
Lemma pdus_have_type : forallb (fun p => implb (is_pdu (fst p)) (has_type (snd p))) TW = true. Proof. vm_compute. reflexivity. Qed.
Lemma pdu_has_type c f : layout c = Some f -> is_pdu c = true -> exists p, leaf ["pduType"] f = Some p.
Proof.
  intros L P. destruct (layout_inv c f L) as (A & _ & _). apply assoc_In in A. pose proof pdus_have_type as K. rewrite forallb_forall in K. specialize (K _ A). cbn [fst snd] in K.
  rewrite P in K. cbn [implb] in K. unfold has_type in K. destruct (leaf ["pduType"] f) as [p|]; [eauto|discriminate K].
Qed.
Lemma pdu_type_read n c f s o W t : layout c = Some f -> is_pdu c = true -> contents the_prog (heap s) c f o = Some W -> getattr n o "pduType" s = (Ok (VInt t), s) -> field "pduType" W = Some (WInt t).
Proof.
  intros L P HW G. destruct (layout_tidy c f L) as [S1 S2]. destruct (contents_inv _ _ _ _ _ S1 S2 HW) as (l & at_ & fp & -> & N & R). destruct (pdu_has_type c f L P) as (p & HL).
  destruct (leaf_reach n s ["pduType"] f l c at_ W fp p HL N R) as (v & x & A & B & C). cbn [map reach] in A. unfold bind in A. rewrite G in A. cbn [reach] in A. unfold ret in A.
  injection A as <-. injection B as <-. cbn [walk] in C. exact C.
Qed.

(** For every PDU that serialize accepts, the object createPdu makes from the bytes has, under every path to a scalar, what the sender had there *)
Theorem C69_attributes n c f s o W bs t : (fuel_ok <= n)%nat -> layout c = Some f -> is_pdu c = true -> contents the_prog (heap s) c f o = Some W ->
  getattr n o "pduType" s = (Ok (VInt t), s) -> zassoc t pdu_types = Some c -> serialize n o s = (Ok VNone, appended s bs) ->
  forall h rest, exists o' s', factory n h (bs ++ rest) = (Ok o', s') /\ irest s' = rest /\
    forall path p, leaf path f = Some p -> exists v v', reach n o (map Attr path) s = (Ok v, s) /\ reach n o' (map Attr path) s' = (Ok v', s') /\ received p v v'.
Proof.
  intros Hn L P HW G Hz E h rest. pose proof (pdu_type_read n c f s o W t L P HW G) as Ht.
  destruct (C65_created n c f s o W bs t Hn L P HW Ht Hz E h rest) as (o' & s' & V & A & B & C & D). exists o', s'. split; [exact A|]. split; [exact C|].
  intros path p HL. destruct (layout_tidy c f L) as [S1 S2]. destruct (contents_inv _ _ _ _ _ S1 S2 HW) as (l & at_ & fp & -> & N & R). destruct (contents_inv _ _ _ _ _ S1 S2 B) as (l' & at' & fp' & -> & N' & R').
  destruct (leaf_reach n s path f l c at_ W fp p HL N R) as (v & x & A1 & B1 & C1). destruct (leaf_reach n s' path f l' c at' V fp' p HL N' R') as (v' & y & A2 & B2 & C2).
  destruct (leaf_back path f W V p HL D) as (x1 & y1 & A3 & B3 & C3). exists v, v'. split; [exact A1|]. split; [exact A2|]. apply (gives_received p v x y v' B1 B2). congruence.
Qed.

(** ** The state of an entity *)
(** reading o.path gives the finite double x *)
Definition reads (n : nat) (s : st) (o : Interp.val) (path : list string) (x : f64) : Prop :=
  exists b, reach n o (map Attr path) s = (Ok (VFloat b), s) /\ finite64 b /\ x = b64_of_bits b.
Definition xyz (i : axis) : string := match i with AX => "x" | AY => "y" | AZ => "z" end.
Definition euler (i : axis) : string := match i with AX => "psi" | AY => "theta" | AZ => "phi" end.
(** the location, velocity, acceleration, orientation and angular velocity in an Entity State PDU *)
Record motion := { m_loc : fvec; m_vel : fvec; m_acc : fvec; m_ori : fvec; m_spin : fvec }.
Definition has_motion (n : nat) (s : st) (o : Interp.val) (m : motion) : Prop := forall i,
  reads n s o ["entityLocation"; xyz i] (fc i (m_loc m)) /\
  reads n s o ["entityLinearVelocity"; xyz i] (fc i (m_vel m)) /\
  reads n s o ["deadReckoningParameters"; "entityLinearAcceleration"; xyz i] (fc i (m_acc m)) /\
  reads n s o ["entityOrientation"; euler i] (fc i (m_ori m)) /\
  reads n s o ["deadReckoningParameters"; "entityAngularVelocity"; xyz i] (fc i (m_spin m)).
(** each component of w is that of v, but for the rounding to single precision: 2^-24 relative, 2^-150 absolute *)
Definition single (v w : fvec) : Prop := forall i, (Rabs (val (fc i w) - val (fc i v)) <= u24 * Rabs (val (fc i v)) + eta32)%R.

Lemma reads_fin n s o path x : reads n s o path x -> fin x.
Proof. intros (b & _ & F & ->). exact (proj1 (finite64_bits b F)). Qed.
Lemma reads_double n s o s' o' path v v' x : reads n s o path x -> reach n o (map Attr path) s = (Ok v, s) -> reach n o' (map Attr path) s' = (Ok v', s') -> received PF64 v v' -> reads n s' o' path x.
Proof.
  intros (b & A & F & ->) B C D. rewrite A in B. injection B as <-. cbn [received] in D. exists b. split; [|split; [exact F|reflexivity]]. rewrite C, D. destruct F as [F _]. now rewrite Z.mod_small.
Qed.
Lemma reads_single n s o s' o' path v v' x : reads n s o path x -> reach n o (map Attr path) s = (Ok v, s) -> reach n o' (map Attr path) s' = (Ok v', s') -> received PF32 v v' ->
  exists x', reads n s' o' path x' /\ (Rabs (val x' - val x) <= u24 * Rabs (val x) + eta32)%R.
Proof.
  intros (b & A & F & ->) B C D. rewrite A in B. injection B as <-. cbn [received] in D. destruct D as (c & N & ->). destruct (narrow_near b c F N) as [Fc _].
  assert (Ec : c mod 2 ^ 32 = c) by (destruct Fc as [Fc _]; now rewrite Z.mod_small). rewrite Ec in C. exists (b64_of_bits (widen c)). split; [|exact (proj2 (narrow_err b c F N))].
  exists (widen c). split; [exact C|]. split; [exact (proj1 (widen_value c Fc))|reflexivity].
Qed.

Lemma entity_state_layout : layout "EntityStatePdu" = Some w_EntityStatePdu. Proof. vm_compute. reflexivity. Qed.
Lemma motion_leaves i : leaf ["entityLocation"; xyz i] w_EntityStatePdu = Some PF64 /\ leaf ["entityLinearVelocity"; xyz i] w_EntityStatePdu = Some PF32 /\
  leaf ["deadReckoningParameters"; "entityLinearAcceleration"; xyz i] w_EntityStatePdu = Some PF32 /\ leaf ["entityOrientation"; euler i] w_EntityStatePdu = Some PF32 /\
  leaf ["deadReckoningParameters"; "entityAngularVelocity"; xyz i] w_EntityStatePdu = Some PF32.
Proof. destruct i; vm_compute; auto. Qed.

(** The receiver of an Entity State PDU sees the sender's location, bit for bit, and the sender's velocity, acceleration, orientation and angular velocity in single precision *)
Theorem C69_state n s o W bs m : (fuel_ok <= n)%nat -> contents the_prog (heap s) "EntityStatePdu" w_EntityStatePdu o = Some W -> getattr n o "pduType" s = (Ok (VInt 1), s) ->
  has_motion n s o m -> serialize n o s = (Ok VNone, appended s bs) ->
  forall h rest, exists o' s' m', factory n h (bs ++ rest) = (Ok o', s') /\ getattr n o' "pduType" s' = (Ok (VInt 1), s') /\ has_motion n s' o' m' /\
    m_loc m' = m_loc m /\ single (m_vel m) (m_vel m') /\ single (m_acc m) (m_acc m') /\ single (m_ori m) (m_ori m') /\ single (m_spin m) (m_spin m').
Proof.
  intros Hn HW G HM E h rest.
  destruct (C69_attributes n "EntityStatePdu" w_EntityStatePdu s o W bs 1 Hn entity_state_layout eq_refl HW G eq_refl E h rest) as (o' & s' & A & _ & K).
  assert (KD : forall path x, leaf path w_EntityStatePdu = Some PF64 -> reads n s o path x -> reads n s' o' path x).
  { intros path x HL HR. destruct (K path PF64 HL) as (v & v' & B & C & D). exact (reads_double n s o s' o' path v v' x HR B C D). }
  assert (KS : forall path x, leaf path w_EntityStatePdu = Some PF32 -> reads n s o path x -> exists x', reads n s' o' path x' /\ (Rabs (val x' - val x) <= u24 * Rabs (val x) + eta32)%R).
  { intros path x HL HR. destruct (K path PF32 HL) as (v & v' & B & C & D). exact (reads_single n s o s' o' path v v' x HR B C D). }
  assert (KV : forall (P : axis -> list string) (v : fvec), (forall i, leaf (P i) w_EntityStatePdu = Some PF32) -> (forall i, reads n s o (P i) (fc i v)) ->
    exists v', (forall i, reads n s' o' (P i) (fc i v')) /\ single v v').
  { intros P v HL HR. destruct (KS _ _ (HL AX) (HR AX)) as (x1 & A1 & B1), (KS _ _ (HL AY) (HR AY)) as (x2 & A2 & B2), (KS _ _ (HL AZ) (HR AZ)) as (x3 & A3 & B3).
    exists (FV x1 x2 x3). split; [now intros []|]. intros []; assumption. }
  destruct (KV (fun i => ["entityLinearVelocity"; xyz i]) (m_vel m)) as (v & V1 & V2); [intros i; apply motion_leaves|intros i; apply HM|].
  destruct (KV (fun i => ["deadReckoningParameters"; "entityLinearAcceleration"; xyz i]) (m_acc m)) as (a & A1 & A2); [intros i; apply motion_leaves|intros i; apply HM|].
  destruct (KV (fun i => ["entityOrientation"; euler i]) (m_ori m)) as (q & Q1 & Q2); [intros i; apply motion_leaves|intros i; apply HM|].
  destruct (KV (fun i => ["deadReckoningParameters"; "entityAngularVelocity"; xyz i]) (m_spin m)) as (w & W1 & W2); [intros i; apply motion_leaves|intros i; apply HM|].
  exists o', s', {| m_loc := m_loc m; m_vel := v; m_acc := a; m_ori := q; m_spin := w |}. split; [exact A|]. split.
  { destruct (K ["pduType"] (PInt 1 false) eq_refl) as (v0 & v1 & B & C & D). cbn [map reach] in B, C. unfold bind in B, C. rewrite G in B. unfold ret in B. injection B as <-. cbn [received] in D. subst v1.
    destruct (getattr n o' "pduType" s') as [[v1|e1] s1]; [|discriminate C]. unfold ret in C. exact C. }
  split; [|cbn [m_loc m_vel m_acc m_ori m_spin]; auto]. intros i. cbn [m_loc m_vel m_acc m_ori m_spin]. split; [|auto]. apply KD; [apply motion_leaves|apply HM].
Qed.

(** ** Where the receiver believes the entity to be *)
Local Open Scope R_scope.
Lemma u24_16u : 16 * u <= u24.
Proof. Transparent u u24. unfold u, u24. Opaque u u24. replace 16 with (bpow radix2 4) by (cbn; lra). rewrite <- bpow_plus. apply bpow_le. lia. Qed.
Lemma u24_val : u24 = / 16777216. Proof. Transparent u24. unfold u24. Opaque u24. cbn. lra. Qed.
Lemma eta32_eta : 1000 * eta <= eta32.
Proof. Transparent eta eta32. unfold eta, eta32. Opaque eta eta32. apply Rle_trans with (bpow radix2 10 * bpow radix2 (-1075)); [apply Rmult_le_compat_r; [apply bpow_ge_0|cbn; lra]|]. rewrite <- bpow_plus. apply bpow_le. lia. Qed.
Lemma eta32_small : 0 < eta32 <= / 1000000.
Proof. Transparent eta32. unfold eta32. Opaque eta32. split; [apply bpow_gt_0|]. apply Rle_trans with (bpow radix2 (-20)); [apply bpow_le; lia|]. cbn. lra. Qed.

Lemma eta32_40 : eta32 <= / 2 ^ 40.
Proof. Transparent eta32. unfold eta32. Opaque eta32. apply Rle_trans with (bpow radix2 (-40)); [apply bpow_le; lia|cbn; lra]. Qed.

Lemma single_size x y : Rabs (y - x) <= u24 * Rabs x + eta32 -> Rabs y <= 2 * Rabs x + eta32 /\ Rabs y <= (1 + u24) * Rabs x + eta32.
Proof.
  intros H. pose proof (Rabs_triang x (y - x)) as T. replace (x + (y - x)) with y in T by ring. pose proof (Rabs_pos x). pose proof u24_val as U.
  assert (u24 * Rabs x <= 1 * Rabs x) by (apply Rmult_le_compat_r; lra). lra.
Qed.

(** Constant acceleration: the receiver's extrapolation is within twice the single-precision error of the sender's velocity and acceleration, carried over the time, of the sender's exact motion *)
Theorem C69_fvw n s o W bs m L dt : (fuel_ok <= n)%nat -> contents the_prog (heap s) "EntityStatePdu" w_EntityStatePdu o = Some W -> getattr n o "pduType" s = (Ok (VInt 1), s) ->
  has_motion n s o m -> serialize n o s = (Ok VNone, appended s bs) -> accurate L -> fin dt ->
  (forall i, moderate (val (fc i (m_loc m))) /\ moderate (2 * (1 + Rabs (val (fc i (m_vel m)))) * (1 + Rabs (val dt))) /\ moderate (2 * (1 + Rabs (val (fc i (m_acc m)))) * (1 + val dt * val dt))) ->
  forall h rest, exists o' s' m' p', factory n h (bs ++ rest) = (Ok o', s') /\ has_motion n s' o' m' /\
    drm_fvw64 L (m_loc m') (m_vel m') (m_acc m') dt (m_ori m') = FRet (p', m_ori m') /\ single (m_ori m) (m_ori m') /\
    forall i, within (fc i p') (val (fc i (m_loc m)) + val (fc i (m_vel m)) * val dt + / 2 * val (fc i (m_acc m)) * (val dt * val dt))
      (2 * u24 * (Rabs (val (fc i (m_vel m)) * val dt) + / 2 * Rabs (val (fc i (m_acc m))) * (val dt * val dt)) + 8 * u * Rabs (val (fc i (m_loc m))) +
       2 * eta32 * (1 + Rabs (val (fc i (m_acc m))) + Rabs (val dt) + val dt * val dt)).
Proof.
  intros Hn HW G HM E HL Ft Mo h rest. destruct (C69_state n s o W bs m Hn HW G HM E h rest) as (o' & s' & m' & A & _ & HM' & EL & SV & SA & SO & _).
  assert (T0 : 0 <= val dt * val dt) by apply Rle_0_sqr. pose proof (Rabs_pos (val dt)) as T1. pose proof eta32_small as [E0 E1]. pose proof u24_val as U. pose proof u24_16u as U16. pose proof u_pos as U0. pose proof eta32_eta as EE. pose proof eta_pos as EP.
  assert (C : forall i, Rabs (val (fc i (m_vel m')) * val dt) <= 2 * (1 + Rabs (val (fc i (m_vel m)))) * (1 + Rabs (val dt)) /\
    Rabs (val (fc i (m_acc m')) * (val dt * val dt)) <= 2 * (1 + Rabs (val (fc i (m_acc m)))) * (1 + val dt * val dt) /\ Rabs (val (fc i (m_acc m'))) <= 2 * (1 + Rabs (val (fc i (m_acc m)))) * (1 + val dt * val dt) /\ val dt * val dt <= 2 * (1 + Rabs (val (fc i (m_acc m)))) * (1 + val dt * val dt)).
  { intros i. destruct (single_size _ _ (SV i)) as [V1 _], (single_size _ _ (SA i)) as [A1 _]. rewrite !Rabs_mult. pose proof (Rabs_pos (val (fc i (m_vel m)))). pose proof (Rabs_pos (val (fc i (m_acc m)))).
    pose proof (Rabs_pos (val (fc i (m_vel m')))). pose proof (Rabs_pos (val (fc i (m_acc m')))). rewrite <- !Rabs_mult, (Rabs_mult (val (fc i (m_vel m')))), (Rabs_mult (val (fc i (m_acc m')))), (Rabs_pos_eq _ T0).
    repeat split.
    - apply Rmult_le_compat; lra.
    - apply Rmult_le_compat; lra.
    - rewrite <- (Rmult_1_r (Rabs (val (fc i (m_acc m'))))). apply Rmult_le_compat; lra.
    - rewrite <- (Rmult_1_l (val dt * val dt)) at 1. apply Rmult_le_compat; lra. }
  assert (Fin : forall i, fin (fc i (m_loc m')) /\ fin (fc i (m_vel m')) /\ fin (fc i (m_acc m'))).
  { intros i. destruct (HM' i) as (R1 & R2 & R3 & _). repeat split; eapply reads_fin; eassumption. }
  destruct (C66_fvw L (m_loc m') (m_vel m') (m_acc m') dt (m_ori m')) as (p' & EP' & Wi).
  - exact HL.
  - intros i; apply Fin.
  - intros i; apply Fin.
  - intros i; apply Fin.
  - exact Ft.
  - destruct (Mo AX) as (_ & _ & M3). destruct (C AX) as (_ & _ & _ & C4). unfold moderate in *. rewrite (Rabs_pos_eq _ T0). eapply Rle_trans; [exact C4|]. eapply Rle_trans; [apply Rle_abs|exact M3].
  - intros i. destruct (Mo i) as (M1 & M2 & M3). destruct (C i) as (C1 & C2 & C3 & _). rewrite EL. unfold moderate in *. split; [exact M1|]. split; [|split].
    + eapply Rle_trans; [exact C1|]. eapply Rle_trans; [apply Rle_abs|exact M2].
    + eapply Rle_trans; [exact C3|]. eapply Rle_trans; [apply Rle_abs|exact M3].
    + eapply Rle_trans; [exact C2|]. eapply Rle_trans; [apply Rle_abs|exact M3].
  - exists o', s', m', p'. split; [exact A|]. split; [exact HM'|]. split; [exact EP'|]. split; [exact SO|]. intros i. destruct (Wi i) as [F B]. split; [exact F|]. clear Wi C Mo.
    cbn [fst drm_fvw] in B. unfold to_numpy in B. rewrite !rc_vadd, !rc_vscale, !rc_real3, EL in B.
    destruct (single_size _ _ (SV i)) as [V1 V2], (single_size _ _ (SA i)) as [A1 A2]. pose proof (SV i) as V3. pose proof (SA i) as A3.
    set (P := val (fc i (m_loc m))) in *. set (v := val (fc i (m_vel m))) in *. set (v' := val (fc i (m_vel m'))) in *. set (a := val (fc i (m_acc m))) in *. set (a' := val (fc i (m_acc m'))) in *. set (t := val dt) in *.
    set (x := val (fc i p')) in *. clearbody P v v' a a' t x. clear -B V1 V2 A1 A2 V3 A3 T0 T1 E0 E1 U U16 U0 EE EP.
    rewrite !Rabs_mult in *. set (tt := t * t) in *. replace (t ^ 2) with tt in B by (unfold tt; ring). set (at_ := Rabs t) in *.
    pose proof (Rabs_pos v). pose proof (Rabs_pos a). pose proof (Rabs_pos v'). pose proof (Rabs_pos a'). pose proof (Rabs_pos P).
    assert (D1 : Rabs (x - (P + v * t + / 2 * a * tt)) <= Rabs (x - (P + t * v' + tt * (1 / 2 * a'))) + Rabs (v' - v) * at_ + / 2 * Rabs (a' - a) * tt).
    { replace (x - (P + v * t + / 2 * a * tt)) with ((x - (P + t * v' + tt * (1 / 2 * a'))) + ((v' - v) * t + / 2 * (a' - a) * tt)) by field.
      eapply Rle_trans; [apply Rabs_triang|]. pose proof (Rabs_triang ((v' - v) * t) (/ 2 * (a' - a) * tt)) as K. rewrite !Rabs_mult in K. rewrite (Rabs_pos_eq (/ 2)), (Rabs_pos_eq tt) in K by lra. fold at_ in K. lra. }
    assert (N1 : Rabs (v' - v) * at_ <= u24 * (Rabs v * at_) + eta32 * at_) by (eapply Rle_trans; [apply Rmult_le_compat_r; [exact T1|exact V3]|lra]).
    assert (N2 : Rabs (a' - a) * tt <= u24 * (Rabs a * tt) + eta32 * tt) by (eapply Rle_trans; [apply Rmult_le_compat_r; [exact T0|exact A3]|lra]).
    assert (N3 : Rabs v' * at_ <= 2 * (Rabs v * at_) + eta32 * at_) by (eapply Rle_trans; [apply Rmult_le_compat_r; [exact T1|exact V1]|lra]).
    assert (N4 : Rabs a' * tt <= 2 * (Rabs a * tt) + eta32 * tt) by (eapply Rle_trans; [apply Rmult_le_compat_r; [exact T0|exact A1]|lra]).
    assert (P1 : 0 <= Rabs v * at_) by (apply Rmult_le_pos; lra). assert (P2 : 0 <= Rabs a * tt) by (apply Rmult_le_pos; lra).
    assert (P3 : 0 <= eta32 * at_) by (apply Rmult_le_pos; lra). assert (P4 : 0 <= eta32 * tt) by (apply Rmult_le_pos; lra).
    assert (N5 : 8 * u * (Rabs P + Rabs v' * at_ + / 2 * Rabs a' * tt) <= 8 * u * Rabs P + u24 * (Rabs v * at_ + / 2 * (Rabs a * tt)) + / 100 * (eta32 * at_ + eta32 * tt)).
    { assert (8 * u * (Rabs v' * at_) <= 8 * u * (2 * (Rabs v * at_) + eta32 * at_)) by (apply Rmult_le_compat_l; lra).
      assert (8 * u * (Rabs a' * tt) <= 8 * u * (2 * (Rabs a * tt) + eta32 * tt)) by (apply Rmult_le_compat_l; lra).
      assert (16 * u * (Rabs v * at_) <= u24 * (Rabs v * at_)) by (apply Rmult_le_compat_r; lra). assert (16 * u * (Rabs a * tt) <= u24 * (Rabs a * tt)) by (apply Rmult_le_compat_r; lra).
      assert (8 * u * (eta32 * at_) <= / 100 * (eta32 * at_)) by (apply Rmult_le_compat_r; lra). assert (8 * u * (eta32 * tt) <= / 100 * (eta32 * tt)) by (apply Rmult_le_compat_r; lra). lra. }
    assert (N6 : 8 * eta * (1 + Rabs a' + tt) <= / 100 * (eta32 * (2 + 2 * Rabs a + tt))).
    { rewrite <- Rmult_assoc. apply Rmult_le_compat; lra. }
    rewrite <- (Rmult_assoc (/ 2)) in N5. assert (Q : 0 <= eta32 * Rabs a) by (apply Rmult_le_pos; lra). lra.
Qed.

(** Constant velocity *)
Theorem C69_fpw n s o W bs m dt : (fuel_ok <= n)%nat -> contents the_prog (heap s) "EntityStatePdu" w_EntityStatePdu o = Some W -> getattr n o "pduType" s = (Ok (VInt 1), s) ->
  has_motion n s o m -> serialize n o s = (Ok VNone, appended s bs) -> fin dt ->
  (forall i, moderate (val (fc i (m_loc m))) /\ moderate (2 * (1 + Rabs (val (fc i (m_vel m)))) * (1 + Rabs (val dt)))) ->
  forall h rest, exists o' s' m', factory n h (bs ++ rest) = (Ok o', s') /\ has_motion n s' o' m' /\ snd (drm_fpw64 (m_loc m') (m_vel m') dt (m_ori m')) = m_ori m' /\ single (m_ori m) (m_ori m') /\
    forall i, within (fc i (fst (drm_fpw64 (m_loc m') (m_vel m') dt (m_ori m')))) (val (fc i (m_loc m)) + val (fc i (m_vel m)) * val dt)
      (2 * u24 * Rabs (val (fc i (m_vel m)) * val dt) + 4 * u * Rabs (val (fc i (m_loc m))) + 2 * eta32 * (1 + Rabs (val dt))).
Proof.
  intros Hn HW G HM E Ft Mo h rest. destruct (C69_state n s o W bs m Hn HW G HM E h rest) as (o' & s' & m' & A & _ & HM' & EL & SV & _ & SO & _).
  pose proof (Rabs_pos (val dt)) as T1. pose proof eta32_small as [E0 E1]. pose proof u24_val as U. pose proof u24_16u as U16. pose proof u_pos as U0. pose proof eta32_eta as EE. pose proof eta_pos as EP.
  assert (C : forall i, Rabs (val (fc i (m_vel m')) * val dt) <= 2 * (1 + Rabs (val (fc i (m_vel m)))) * (1 + Rabs (val dt))).
  { intros i. destruct (single_size _ _ (SV i)) as [V1 _]. rewrite Rabs_mult. pose proof (Rabs_pos (val (fc i (m_vel m)))). pose proof (Rabs_pos (val (fc i (m_vel m')))). apply Rmult_le_compat; lra. }
  assert (Fin : forall i, fin (fc i (m_loc m')) /\ fin (fc i (m_vel m'))).
  { intros i. destruct (HM' i) as (R1 & R2 & _). split; eapply reads_fin; eassumption. }
  destruct (C66_fpw (m_loc m') (m_vel m') dt (m_ori m')) as (EO & Wi).
  - intros i; apply Fin.
  - intros i; apply Fin.
  - exact Ft.
  - intros i. destruct (Mo i) as (M1 & M2). pose proof (C i) as C1. rewrite EL. unfold moderate in *. split; [exact M1|]. eapply Rle_trans; [exact C1|]. eapply Rle_trans; [apply Rle_abs|exact M2].
  - exists o', s', m'. split; [exact A|]. split; [exact HM'|]. split; [exact EO|]. split; [exact SO|]. intros i. destruct (Wi i) as [F B]. split; [exact F|]. clear Wi C Mo.
    cbn [fst drm_fpw] in B. unfold to_numpy in B. rewrite !rc_vadd, !rc_vscale, !rc_real3, EL in B. rewrite EL in *. set (x := val (fc i (fst (drm_fpw64 (m_loc m) (m_vel m') dt (m_ori m'))))) in *.
    destruct (single_size _ _ (SV i)) as [V1 V2]. pose proof (SV i) as V3.
    set (P := val (fc i (m_loc m))) in *. set (v := val (fc i (m_vel m))) in *. set (v' := val (fc i (m_vel m'))) in *. set (t := val dt) in *.
    clearbody P v v' t x. clear -B V1 V2 V3 T1 E0 E1 U U16 U0 EE EP.
    rewrite !Rabs_mult in *. set (at_ := Rabs t) in *. pose proof (Rabs_pos v). pose proof (Rabs_pos v'). pose proof (Rabs_pos P).
    assert (D1 : Rabs (x - (P + v * t)) <= Rabs (x - (P + t * v')) + Rabs (v' - v) * at_).
    { replace (x - (P + v * t)) with ((x - (P + t * v')) + (v' - v) * t) by ring. eapply Rle_trans; [apply Rabs_triang|]. rewrite (Rabs_mult (v' - v) t). fold at_. lra. }
    assert (N1 : Rabs (v' - v) * at_ <= u24 * (Rabs v * at_) + eta32 * at_) by (eapply Rle_trans; [apply Rmult_le_compat_r; [exact T1|exact V3]|lra]).
    assert (N3 : Rabs v' * at_ <= 2 * (Rabs v * at_) + eta32 * at_) by (eapply Rle_trans; [apply Rmult_le_compat_r; [exact T1|exact V1]|lra]).
    assert (P1 : 0 <= Rabs v * at_) by (apply Rmult_le_pos; lra). assert (P3 : 0 <= eta32 * at_) by (apply Rmult_le_pos; lra).
    assert (4 * u * (Rabs v' * at_) <= 4 * u * (2 * (Rabs v * at_) + eta32 * at_)) by (apply Rmult_le_compat_l; lra).
    assert (16 * u * (Rabs v * at_) <= u24 * (Rabs v * at_)) by (apply Rmult_le_compat_r; lra). assert (4 * u * (eta32 * at_) <= / 100 * (eta32 * at_)) by (apply Rmult_le_compat_r; lra).
    assert (0 <= u24 * (Rabs v * at_)) by (apply Rmult_le_pos; lra). lra.
Qed.

(** In numbers: up to 67000 km from the centre of the Earth, 1024 m/s, 128 m/s2 and five seconds, the usual interval between Entity State PDUs, the receiver is wrong by less than a millimetre per axis *)
Theorem C69_millimetre n s o W bs m L dt : (fuel_ok <= n)%nat -> contents the_prog (heap s) "EntityStatePdu" w_EntityStatePdu o = Some W -> getattr n o "pduType" s = (Ok (VInt 1), s) ->
  has_motion n s o m -> serialize n o s = (Ok VNone, appended s bs) -> accurate L -> fin dt -> Rabs (val dt) <= 5 ->
  (forall i, Rabs (val (fc i (m_loc m))) <= 2 ^ 26 /\ Rabs (val (fc i (m_vel m))) <= 2 ^ 10 /\ Rabs (val (fc i (m_acc m))) <= 2 ^ 7) ->
  forall h rest, exists o' s' m' p', factory n h (bs ++ rest) = (Ok o', s') /\ has_motion n s' o' m' /\
    drm_fvw64 L (m_loc m') (m_vel m') (m_acc m') dt (m_ori m') = FRet (p', m_ori m') /\
    forall i, within (fc i p') (val (fc i (m_loc m)) + val (fc i (m_vel m)) * val dt + / 2 * val (fc i (m_acc m)) * (val dt * val dt)) (/ 1000).
Proof.
  intros Hn HW G HM E HL Ft T B h rest. pose proof (Rabs_pos (val dt)) as T1. assert (T0 : 0 <= val dt * val dt) by apply Rle_0_sqr.
  assert (TT : val dt * val dt <= 25). { replace (val dt * val dt) with (Rabs (val dt) * Rabs (val dt)) by (rewrite <- Rabs_mult; apply Rabs_pos_eq, T0). replace 25 with (5 * 5) by lra. apply Rmult_le_compat; lra. }
  pose proof huge_100 as HH.
  destruct (C69_fvw n s o W bs m L dt Hn HW G HM E HL Ft) with (h := h) (rest := rest) as (o' & s' & m' & p' & A & C & D & _ & Wi).
  - intros i. destruct (B i) as (B1 & B2 & B3). pose proof (Rabs_pos (val (fc i (m_vel m)))). pose proof (Rabs_pos (val (fc i (m_acc m)))). repeat split; apply moderate_case.
    + lra.
    + rewrite Rabs_pos_eq by (apply Rmult_le_pos; lra). apply Rle_trans with (2 * (1 + 2 ^ 10) * (1 + 5)); [apply Rmult_le_compat; lra|lra].
    + rewrite Rabs_pos_eq by (apply Rmult_le_pos; lra). apply Rle_trans with (2 * (1 + 2 ^ 7) * (1 + 25)); [apply Rmult_le_compat; lra|lra].
  - exists o', s', m', p'. split; [exact A|]. split; [exact C|]. split; [exact D|]. intros i. destruct (Wi i) as [F K]. split; [exact F|]. eapply Rle_trans; [exact K|]. clear K Wi.
    destruct (B i) as (B1 & B2 & B3). pose proof (Rabs_pos (val (fc i (m_vel m)))). pose proof (Rabs_pos (val (fc i (m_acc m)))). pose proof (Rabs_pos (val (fc i (m_loc m)))).
    rewrite Rabs_mult. assert (X1 : Rabs (val (fc i (m_vel m))) * Rabs (val dt) <= 2 ^ 10 * 5) by (apply Rmult_le_compat; lra). assert (X2 : Rabs (val (fc i (m_acc m))) * (val dt * val dt) <= 2 ^ 7 * 25) by (apply Rmult_le_compat; lra).
    pose proof u24_val as U. pose proof u24_16u as U16. pose proof u_pos as U0.
    assert (X3 : 8 * u * Rabs (val (fc i (m_loc m))) <= 8 * (/ 2 ^ 53) * 2 ^ 26).
    { apply Rmult_le_compat; try lra. Transparent u. unfold u. Opaque u. cbn. lra. }
    assert (X4 : 2 * eta32 * (1 + Rabs (val (fc i (m_acc m))) + Rabs (val dt) + val dt * val dt) <= 2 * (/ 2 ^ 40) * (1 + 2 ^ 7 + 5 + 25)).
    { pose proof eta32_small as [Y0 _]. pose proof eta32_40. apply Rmult_le_compat; lra. }
    rewrite U. lra.
Qed.

(** ** A case: an entity at 6378137, -1.5, 0.1 m moving with 250, 9.75, 0.1 m/s, accelerating with 9.75, 0.1, -1.5 m/s2, turned and spinning *)
Local Open Scope Z_scope.
Definition d_radius := 4708606483430899712. Definition d_back := 13832806255468478464. Definition d_tenth := 4591870180066957722.
Definition d_speed := 4643000109586448384. Definition d_g := 4621678380100616192.
Definition fill (n : nat) (o : Interp.val) (l : list (list string * string * Z)) : M unit :=
  fold_right (fun r k => let '(path, a, b) := r in Interp.bind (assign n o (map Attr path) (TAttr a) (VFloat b)) (fun _ => k)) (Interp.ret tt) l.
Definition moving : res Interp.val * st :=
  Interp.bind (new the_prog 40 "EntityStatePdu" []) (fun o => Interp.bind (fill 45 o [
    (["entityLocation"], "x", d_radius); (["entityLocation"], "y", d_back); (["entityLocation"], "z", d_tenth);
    (["entityLinearVelocity"], "x", d_speed); (["entityLinearVelocity"], "y", d_g); (["entityLinearVelocity"], "z", d_tenth);
    (["deadReckoningParameters"; "entityLinearAcceleration"], "x", d_g); (["deadReckoningParameters"; "entityLinearAcceleration"], "y", d_tenth); (["deadReckoningParameters"; "entityLinearAcceleration"], "z", d_back);
    (["entityOrientation"], "psi", d_tenth); (["entityOrientation"], "theta", d_back); (["entityOrientation"], "phi", d_tenth);
    (["deadReckoningParameters"; "entityAngularVelocity"], "x", d_tenth); (["deadReckoningParameters"; "entityAngularVelocity"], "y", d_tenth); (["deadReckoningParameters"; "entityAngularVelocity"], "z", d_back)])
    (fun _ => Interp.ret o)) st0.
Definition moving_o : Interp.val := Eval vm_compute in match fst moving with Ok o => o | _ => VNone end.
Definition moving_st : st := Eval vm_compute in snd moving.
Definition vec3 a b c : fvec := FV (b64_of_bits a) (b64_of_bits b) (b64_of_bits c).
Definition moving_m : motion := {| m_loc := vec3 d_radius d_back d_tenth; m_vel := vec3 d_speed d_g d_tenth; m_acc := vec3 d_g d_tenth d_back; m_ori := vec3 d_tenth d_back d_tenth; m_spin := vec3 d_tenth d_tenth d_back |}.
Lemma d_finite b : In b [d_radius; d_back; d_tenth; d_speed; d_g] -> finite64 b.
Proof. intros [<-|[<-|[<-|[<-|[<-|[]]]]]]; (split; [split; [discriminate|reflexivity]|discriminate]). Qed.
Lemma d_tenth_val : (0 <= val (b64_of_bits d_tenth) <= 1)%R. Proof. unfold d_tenth. value_of_bits. lra. Qed.
Example C69_case : moving = (Ok moving_o, moving_st) /\ (exists W, contents the_prog (heap moving_st) "EntityStatePdu" w_EntityStatePdu moving_o = Some W) /\
  getattr 50 moving_o "pduType" moving_st = (Ok (VInt 1), moving_st) /\ has_motion 50 moving_st moving_o moving_m /\
  (exists bs, serialize 50 moving_o moving_st = (Ok VNone, appended moving_st bs)) /\ (fuel_ok <= 50)%nat /\ accurate ideal /\ fin case_dt /\ (Rabs (val case_dt) <= 5)%R /\
  forall i, (Rabs (val (fc i (m_loc moving_m))) <= 2 ^ 26 /\ Rabs (val (fc i (m_vel moving_m))) <= 2 ^ 10 /\ Rabs (val (fc i (m_acc moving_m))) <= 2 ^ 7)%R.
Proof.
  split; [vm_compute; reflexivity|]. split; [eexists; vm_compute; reflexivity|]. split; [vm_compute; reflexivity|]. split.
  { intros i. repeat split; destruct i; (eexists; split; [vm_compute; reflexivity|]; split; [apply d_finite; cbn; tauto|reflexivity]). }
  split; [exists (out (snd (serialize 50 moving_o moving_st))); vm_compute; reflexivity|]. split; [vm_compute; lia|]. split; [exact ideal_accurate|]. split; [reflexivity|].
  split; [rewrite case_t, Rabs_pos_eq; lra|]. pose proof d_tenth_val. pose proof case_p_x as X1. pose proof case_p_y as X2. pose proof case_v_x as X3. pose proof case_v_y as X4. cbn [case_p case_v fx fy] in X1, X2, X3, X4.
  intros []; cbn [moving_m m_loc m_vel m_acc vec3 fc fx fy fz]; unfold d_radius, d_back, d_speed, d_g; rewrite ?X1, ?X2, ?X3, ?X4; repeat split; apply Rabs_le; lra.
Qed.

Definition all_PropEnd := (C69_attributes, C69_state, C69_fvw, C69_fpw, C69_millimetre).
Print Assumptions all_PropEnd.
