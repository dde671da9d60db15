(** C75, C76: the example programs, from the sender's arguments to what the receiver prints *)
From Coq Require Import ZArith String List Bool Lia Reals Lra.
From Coq Require Import Strings.Byte.
From Flocq Require Import Core Binary Bits.
From Verif Require Import Lang Bytes Interp Mono ProgDis Prog Spec Codec Codec2 Rep Dec StreamLem SerSound ParSound NewSound Layouts Refine Api Classes Special PropCodec PropFactory PropOffsets Assign PropAccept PropFloat
  Real3 RangeCoordinates PropGeo PropAtt Conv PropConv Float64 DeadReckoning64 Range64 FloatErr PropDR64 PropDR64b FloatLink PropEnd FloatAbs PropRange64 RangeErr PropLla64 PropTrip64 PropNed64 Attitude64 AttErr PropAtt64 Examples.
Import ListNotations.
Open Scope string_scope. Open Scope Z_scope. Open Scope list_scope.

(** ** The sender's PDU *)
Definition sender_bits (n : nat) (b1 b2 b3 b4 b5 b6 : Z) : M Interp.val :=
  pdu <~ new the_prog n "EntityStatePdu" [] ;
  _ <~ put n pdu ["entityID"] "entityNumber" (VInt 42) ;
  _ <~ put n pdu ["entityID"; "simulationAddress"] "site" (VInt 17) ;
  _ <~ put n pdu ["entityID"; "simulationAddress"] "application" (VInt 23) ;
  m <~ getattr n pdu "marking" ;
  _ <~ call_method the_prog n m "setString" [VStr (codes "Igor3d")] ;
  _ <~ put n pdu ["entityLocation"] "x" (VFloat b1) ;
  _ <~ put n pdu ["entityLocation"] "y" (VFloat b2) ;
  _ <~ put n pdu ["entityLocation"] "z" (VFloat b3) ;
  _ <~ put n pdu ["entityOrientation"] "psi" (VFloat b4) ;
  _ <~ put n pdu ["entityOrientation"] "theta" (VFloat b5) ;
  _ <~ put n pdu ["entityOrientation"] "phi" (VFloat b6) ;
  Interp.ret pdu.
Lemma sender_is n e a : sender_pdu n e a = sender_bits n (bits_of_b64 (fx e)) (bits_of_b64 (fy e)) (bits_of_b64 (fz e)) (bits_of_b64 (fx a)) (bits_of_b64 (fy a)) (bits_of_b64 (fz a)).
Proof. reflexivity. Qed.
Definition sent_o : Interp.val := Eval vm_compute in match fst (sender_bits 50 0 0 0 0 0 0 st0) with Ok o => o | _ => VNone end.
Definition sent_st (b1 b2 b3 b4 b5 b6 : Z) : st := Eval vm_compute in snd (sender_bits 50 b1 b2 b3 b4 b5 b6 st0).
Definition sent_W (b1 b2 b3 b4 b5 b6 : Z) : flds := Eval vm_compute in match contents the_prog (heap (sent_st b1 b2 b3 b4 b5 b6)) "EntityStatePdu" w_EntityStatePdu sent_o with Some W => W | None => [] end.
Lemma sender_50 b1 b2 b3 b4 b5 b6 : sender_bits 50 b1 b2 b3 b4 b5 b6 st0 = (Ok sent_o, sent_st b1 b2 b3 b4 b5 b6).
Proof. vm_compute. reflexivity. Qed.
Lemma sent_contents b1 b2 b3 b4 b5 b6 : contents the_prog (heap (sent_st b1 b2 b3 b4 b5 b6)) "EntityStatePdu" w_EntityStatePdu sent_o = Some (sent_W b1 b2 b3 b4 b5 b6).
Proof. vm_compute. reflexivity. Qed.

Lemma approx_reach n n' : (n <= n')%nat -> forall path o, approx (reach n o path) (reach n' o path).
Proof.
  intros Hn. assert (G : forall o a, approx (getattr n o a) (getattr n' o a)) by (intros; apply approx_get_attr; now apply approx_run).
  induction path as [|[a|a i] r IH]; intros o; cbn [reach]; [apply approx_refl| |]; (apply approx_bind; [apply G|intros v]); [apply IH|]. apply approx_bind; [apply approx_refl|exact IH].
Qed.
Lemma approx_put n n' : (n <= n')%nat -> forall o path a v, approx (put n o path a v) (put n' o path a v).
Proof. intros Hn o path a v. apply approx_bind; [now apply approx_reach|]. intros u. apply approx_refl. Qed.
Lemma sender_any n b1 b2 b3 b4 b5 b6 : (50 <= n)%nat -> sender_bits n b1 b2 b3 b4 b5 b6 st0 = (Ok sent_o, sent_st b1 b2 b3 b4 b5 b6).
Proof.
  intros Hn. assert (A : approx (sender_bits 50 b1 b2 b3 b4 b5 b6) (sender_bits n b1 b2 b3 b4 b5 b6)).
  { unfold sender_bits. apply approx_bind; [apply approx_apply; now apply approx_run|intros o]. do 3 (apply approx_bind; [now apply approx_put|intros _]).
    apply approx_bind; [apply approx_get_attr; now apply approx_run|intros m]. apply approx_bind; [apply approx_bind; [apply approx_refl|intros c; apply approx_apply; now apply approx_run]|intros _].
    do 6 (apply approx_bind; [now apply approx_put|intros _]). apply approx_refl. }
  destruct (A st0) as [H|H]; rewrite sender_50 in H; [discriminate|exact H].
Qed.

(** ** Its bytes *)
Lemma bits_fin x : fin x -> finite64 (bits_of_b64 x) /\ b64_of_bits (bits_of_b64 x) = x.
Proof.
  intros F. assert (E : b64_of_bits (bits_of_b64 x) = x) by exact (binary_float_of_bits_of_binary_float 52 11 eq_refl eq_refl eq_refl x). split; [|exact E].
  apply bits_finite64; [|now rewrite E]. exact (bits_of_binary_float_range 52 11 eq_refl eq_refl x).
Qed.
Lemma narrow_small x : fin x -> (Rabs (val x) <= 4)%R -> exists c, narrow (bits_of_b64 x) = Some c.
Proof.
  intros F H. destruct (bits_fin x F) as [FB E]. pose proof (narrow_spec _ FB) as N. destruct (finite64_bits _ FB) as [_ V]. rewrite E in V.
  assert (B : Z.abs (value64 (bits_of_b64 x)) < overflow_bound).
  { apply Z.le_lt_trans with (2 ^ 1076); [|vm_compute; reflexivity]. apply le_IZR. rewrite abs_IZR. change (IZR (2 ^ 1076)) with (IZR (radix2 ^ 1076)). rewrite IZR_Zpower by lia.
    apply Rmult_le_reg_r with (bpow radix2 (-1074)); [apply bpow_gt_0|]. rewrite <- bpow_plus. change (bpow radix2 (1076 + -1074)) with 4%R. rewrite <- (Rabs_pos_eq (bpow radix2 (-1074))) by apply bpow_ge_0. rewrite <- Rabs_mult, <- V. exact H. }
  apply Z.ltb_lt in B. rewrite B in N. destruct N as (c & N & _). eauto.
Qed.
Ltac take := match goal with |- takes ?p ?x => let q := eval hnf in p in change (takes q x) end; match goal with
  | |- takes (PInt _ _) _ => eexists; split; [reflexivity|split; vm_compute; [discriminate|reflexivity]]
  | |- takes PF64 _ => left; eexists; reflexivity
  | |- takes PF32 _ => left; do 2 eexists; split; [reflexivity|first [eassumption|vm_compute; reflexivity]]
  end.
Ltac acc := match goal with
  | |- True => exact I
  | |- accepts ?f ?W => let g := eval hnf in f in change (accepts g W); cbn [accepts]
  | |- _ /\ _ => split
  | |- exists x, field _ _ = Some x /\ takes _ x => eexists; split; [reflexivity|take]
  | |- exists w, field _ _ = Some (WObj w) /\ _ => eexists; split; [reflexivity|]
  | |- exists l, field _ _ = Some (WList l) /\ takes _ _ => eexists; split; [reflexivity|take]
  | |- exists l, field _ _ = Some (WList l) /\ _ /\ _ => eexists; split; [reflexivity|split; [vm_compute; lia|repeat (apply Forall_cons; [take|]); apply Forall_nil]]
  | |- exists l, field _ _ = Some (WList l) /\ Forall _ _ => eexists; split; [reflexivity|apply Forall_nil]
  end.
Lemma sent_accepts b1 b2 b3 b4 b5 b6 c4 c5 c6 : narrow b4 = Some c4 -> narrow b5 = Some c5 -> narrow b6 = Some c6 -> accepts w_EntityStatePdu (sent_W b1 b2 b3 b4 b5 b6).
Proof.
  intros N4 N5 N6. unfold w_EntityStatePdu. repeat acc.
Qed.

Lemma sent_reads b1 b2 b3 b4 b5 b6 : let s := sent_st b1 b2 b3 b4 b5 b6 in
  reach 50 sent_o (map Attr ["pduType"]) s = (Ok (VInt 1), s) /\
  reach 50 sent_o (map Attr ["entityID"; "entityNumber"]) s = (Ok (VInt 42), s) /\
  reach 50 sent_o (map Attr ["entityLocation"; "x"]) s = (Ok (VFloat b1), s) /\
  reach 50 sent_o (map Attr ["entityLocation"; "y"]) s = (Ok (VFloat b2), s) /\
  reach 50 sent_o (map Attr ["entityLocation"; "z"]) s = (Ok (VFloat b3), s) /\
  reach 50 sent_o (map Attr ["entityOrientation"; "psi"]) s = (Ok (VFloat b4), s) /\
  reach 50 sent_o (map Attr ["entityOrientation"; "theta"]) s = (Ok (VFloat b5), s) /\
  reach 50 sent_o (map Attr ["entityOrientation"; "phi"]) s = (Ok (VFloat b6), s).
Proof. vm_compute. repeat split. Qed.
Lemma reach_any n o path s v : (50 <= n)%nat -> reach 50 o path s = (Ok v, s) -> reach n o path s = (Ok v, s).
Proof. intros Hn H. destruct (approx_reach 50 n Hn path o s) as [A|A]; rewrite H in A; [discriminate|exact A]. Qed.
Lemma getattr_reach n o a s v s' : reach n o [Attr a] s = (Ok v, s') -> getattr n o a s = (Ok v, s').
Proof. cbn [reach]. unfold Interp.bind. destruct (getattr n o a s) as [[w|x] t]; [|discriminate]. intros H. exact H. Qed.
Lemma read_is n s o path x : reads n s o path x -> read_float n s o path = Some x.
Proof. intros (b & A & _ & ->). unfold read_float. now rewrite A. Qed.

Lemma narrowed x c : fin x -> narrow (bits_of_b64 x) = Some c -> let x' := b64_of_bits (widen (c mod 2 ^ 32)) in fin x' /\ (Rabs (val x' - val x) <= u24 * Rabs (val x) + eta32)%R.
Proof.
  intros F N x'. destruct (bits_fin x F) as [FB EB]. destruct (narrow_near _ c FB N) as [Fc _]. assert (Ec : c mod 2 ^ 32 = c) by (destruct Fc as [Fc _]; now rewrite Z.mod_small).
  unfold x'. rewrite Ec. pose proof (narrow_err _ c FB N) as [G H]. rewrite EB in H. split; [|exact H]. exact (proj1 (finite64_bits _ (proj1 (widen_value c Fc)))).
Qed.

(** From the sender's numbers to the receiver's: the bytes, and what createPdu makes of them *)
Lemma wire e a : fin3 e -> fin3 a -> (forall i, Rabs (val (fc i a)) <= 4)%R ->
  exists bs a', length bs = 144%nat /\ fin3 a' /\ single a a' /\ forall n, (50 <= n)%nat ->
    (exists s, (pdu <~ sender_pdu n e a ; serialize n pdu) (mkst [] [] [] []) = (Ok VNone, s) /\ out s = bs) /\
    forall h, exists o' s', factory n h bs = (Ok o', s') /\ class_name s' o' = "EntityStatePdu" /\ fst (getattr n o' "pduType" s') = Ok (VInt 1) /\
      fst (reach n o' (map Attr ["entityID"; "entityNumber"]) s') = Ok (VInt 42) /\
      read3 n s' o' "entityLocation" "x" "y" "z" = Some e /\ read3 n s' o' "entityOrientation" "psi" "theta" "phi" = Some a'.
Proof.
  intros Fe Fa Ha. set (b1 := bits_of_b64 (fx e)). set (b2 := bits_of_b64 (fy e)). set (b3 := bits_of_b64 (fz e)). set (b4 := bits_of_b64 (fx a)). set (b5 := bits_of_b64 (fy a)). set (b6 := bits_of_b64 (fz a)).
  destruct (narrow_small _ (Fa AX) (Ha AX)) as [c4 N4]. destruct (narrow_small _ (Fa AY) (Ha AY)) as [c5 N5]. destruct (narrow_small _ (Fa AZ) (Ha AZ)) as [c6 N6].
  pose proof (sent_contents b1 b2 b3 b4 b5 b6) as HW. pose proof (sent_accepts b1 b2 b3 b4 b5 b6 c4 c5 c6 N4 N5 N6) as AC.
  destruct (sent_reads b1 b2 b3 b4 b5 b6) as (R1 & R2 & R3 & R4 & R5 & R6 & R7 & R8).
  assert (O0 : out (sent_st b1 b2 b3 b4 b5 b6) = []) by reflexivity. pose proof (fun n => sender_any n b1 b2 b3 b4 b5 b6) as SP. assert (HT : field "pduType" (sent_W b1 b2 b3 b4 b5 b6) = Some (WInt 1)) by reflexivity.
  assert (EL : size w_EntityStatePdu (sent_W b1 b2 b3 b4 b5 b6) = 144%nat) by (vm_compute; reflexivity).
  set (s := sent_st b1 b2 b3 b4 b5 b6) in *. set (W := sent_W b1 b2 b3 b4 b5 b6) in *. clearbody s W.
  pose proof (layout_wf _ _ entity_state_layout) as Hw. apply andb_true_iff in Hw as [_ Hw]. apply (accepts_encode _ _ _ W Hw) in AC as [bs EN].
  exists bs, (FV (b64_of_bits (widen (c4 mod 2 ^ 32))) (b64_of_bits (widen (c5 mod 2 ^ 32))) (b64_of_bits (widen (c6 mod 2 ^ 32)))).
  split; [now rewrite (encode_size _ _ _ EN)|]. destruct (narrowed _ _ (Fa AX) N4) as [F4 E4]. destruct (narrowed _ _ (Fa AY) N5) as [F5 E5]. destruct (narrowed _ _ (Fa AZ) N6) as [F6 E6].
  split; [intros []; assumption|]. split; [intros []; assumption|]. intros n Hn. assert (Hf : (fuel_ok <= n)%nat) by (unfold fuel_ok, need, G in *; cbn; lia).
  assert (SE : serialize n sent_o s = (Ok VNone, appended s bs)) by (rewrite (ser_layout n _ _ sent_o s W Hf entity_state_layout HW), EN; reflexivity).
  split. { exists (appended s bs). split; [unfold Interp.bind; rewrite sender_is; fold st0 b1 b2 b3 b4 b5 b6; rewrite (SP n Hn); exact SE|]. unfold appended. cbn [out]. now rewrite O0. }
  intros h. destruct (C65_created n "EntityStatePdu" w_EntityStatePdu s sent_o W bs 1 Hf entity_state_layout eq_refl HW HT eq_refl SE h []) as (o1 & s1 & V & A1 & B1 & _ & _).
  assert (GP : getattr n sent_o "pduType" s = (Ok (VInt 1), s)) by exact (getattr_reach n _ _ _ _ _ (reach_any n _ _ _ _ Hn R1)).
  destruct (C69_attributes n "EntityStatePdu" w_EntityStatePdu s sent_o W bs 1 Hf entity_state_layout eq_refl HW GP eq_refl SE h []) as (o' & s' & A & _ & K). rewrite A in A1. injection A1 as <- <-. rewrite app_nil_r in A.
  assert (KD : forall path x, leaf path w_EntityStatePdu = Some PF64 -> reach 50 sent_o (map Attr path) s = (Ok (VFloat (bits_of_b64 x)), s) -> fin x -> read_float n s' o' path = Some x).
  { intros path x HL HR Fx. destruct (bits_fin x Fx) as [FB EB]. destruct (K path PF64 HL) as (v & v' & B & C & D). apply read_is. apply (reads_double n s sent_o s' o' path v v' x); [|exact B|exact C|exact D].
    exists (bits_of_b64 x). split; [now apply reach_any|]. split; [exact FB|]. now rewrite EB. }
  assert (KS : forall path x c, leaf path w_EntityStatePdu = Some PF32 -> reach 50 sent_o (map Attr path) s = (Ok (VFloat (bits_of_b64 x)), s) -> narrow (bits_of_b64 x) = Some c -> read_float n s' o' path = Some (b64_of_bits (widen (c mod 2 ^ 32)))).
  { intros path x c HL HR HN. destruct (K path PF32 HL) as (v & v' & B & C & D). rewrite (reach_any n _ _ _ _ Hn HR) in B. injection B as <-. cbn [received] in D. destruct D as (c' & N & ->). rewrite HN in N. injection N as <-. unfold read_float. now rewrite C. }
  exists o', s'. split; [exact A|].
  assert (KI : forall path z w, leaf path w_EntityStatePdu = Some (PInt w false) -> reach 50 sent_o (map Attr path) s = (Ok (VInt z), s) -> reach n o' (map Attr path) s' = (Ok (VInt z), s')).
  { intros path z w HL HR. destruct (K path _ HL) as (v & v' & B & C & D). rewrite (reach_any n _ _ _ _ Hn HR) in B. injection B as <-. cbn [received] in D. now rewrite D in C. }
  destruct (contents_inv _ _ _ _ _ (proj1 (layout_tidy _ _ entity_state_layout)) (proj2 (layout_tidy _ _ entity_state_layout)) B1) as (l & at_ & fp & -> & N & _).
  split; [cbn [class_name]; now rewrite N|]. split; [rewrite (getattr_reach n _ "pduType" _ _ _ (KI ["pduType"] 1 1%nat eq_refl R1)); reflexivity|].
  split; [rewrite (KI ["entityID"; "entityNumber"] 42 2%nat eq_refl R2); reflexivity|].
  split; unfold read3.
  - rewrite (KD ["entityLocation"; "x"] (fx e) eq_refl R3 (Fe AX)), (KD ["entityLocation"; "y"] (fy e) eq_refl R4 (Fe AY)), (KD ["entityLocation"; "z"] (fz e) eq_refl R5 (Fe AZ)). now destruct e.
  - now rewrite (KS ["entityOrientation"; "psi"] (fx a) c4 eq_refl R6 N4), (KS ["entityOrientation"; "theta"] (fy a) c5 eq_refl R7 N5), (KS ["entityOrientation"; "phi"] (fz a) c6 eq_refl R8 N6).
Qed.

(** ** How attitudes depend on their angles *)
Open Scope R_scope.
Lemma norm_le v w k : 0 <= k -> vdot v v <= k * k * vdot w w -> norm v <= k * norm w.
Proof.
  intros Hk H. unfold norm. rewrite <- (sqrt_square k Hk), <- sqrt_mult_alt by apply Rle_0_sqr. now apply sqrt_le_1_alt.
Qed.
Lemma chord a b : (cos a - cos b) * (cos a - cos b) + (sin a - sin b) * (sin a - sin b) <= (a - b) * (a - b).
Proof.
  assert (E : (cos a - cos b) * (cos a - cos b) + (sin a - sin b) * (sin a - sin b) = 2 - 2 * cos (a - b)).
  { pose proof (sin2_cos2 a) as A. pose proof (sin2_cos2 b) as B. unfold Rsqr in A, B. rewrite cos_minus. transitivity ((sin a * sin a + cos a * cos a) + (sin b * sin b + cos b * cos b) - 2 * (cos a * cos b + sin a * sin b)); [ring|rewrite A, B; ring]. }
  rewrite E. replace (a - b) with (2 * ((a - b) / 2)) by field. rewrite cos_2a_sin. set (d := (a - b) / 2). pose proof (sin_lipschitz d 0) as S. rewrite sin_0, !Rminus_0_r in S.
  assert (sin d * sin d <= d * d); [|nra]. apply Rsqr_le_abs_1 in S. exact S.
Qed.
Lemma aw_refl m : attitudes_within m m 0.
Proof. intros v. replace (vsub (mapply m v) (mapply m v)) with vzero by (unfold vsub, vzero; f_equal; ring). unfold norm, vdot, vzero. cbn. rewrite !Rmult_0_l, !Rplus_0_l, sqrt_0. lra. Qed.
Lemma aw_weak m n d e : attitudes_within m n d -> d <= e -> attitudes_within m n e.
Proof. intros H L v. specialize (H v). assert (0 <= norm v) by apply sqrt_pos. nra. Qed.
Lemma norm_add v w : norm (vadd v w) <= norm v + norm w.
Proof.
  unfold norm. assert (P : forall x, 0 <= vdot x x) by (intros []; unfold vdot; cbn; nra). assert (A := sqrt_sqrt _ (P v)). assert (B := sqrt_sqrt _ (P w)). assert (A0 := sqrt_pos (vdot v v)). assert (B0 := sqrt_pos (vdot w w)).
  assert (C : vdot v w <= sqrt (vdot v v) * sqrt (vdot w w)).
  { rewrite <- sqrt_mult_alt by apply P. eapply Rle_trans; [apply Rle_abs|]. rewrite <- sqrt_Rsqr_abs. apply sqrt_le_1_alt. destruct v as [a b c], w as [x y z]. pose proof (cauchy3 a b c x y z) as K. unfold vdot, Rsqr. cbn [vx vy vz]. nra. }
  assert (E : vdot (vadd v w) (vadd v w) = vdot v v + vdot w w + 2 * vdot v w) by (unfold vdot, vadd; cbn; ring).
  set (a := sqrt (vdot v v)) in *. set (b := sqrt (vdot w w)) in *. rewrite <- (sqrt_square (a + b)) by lra. apply sqrt_le_1_alt. rewrite E, <- A, <- B. nra.
Qed.
Lemma aw_trans m n p d e : attitudes_within m n d -> attitudes_within n p e -> attitudes_within m p (d + e).
Proof.
  intros H K v. specialize (H v). specialize (K v). replace (vsub (mapply m v) (mapply p v)) with (vadd (vsub (mapply m v) (mapply n v)) (vsub (mapply n v) (mapply p v))) by (unfold vadd, vsub; cbn; f_equal; ring).
  eapply Rle_trans; [apply norm_add|]. lra.
Qed.
Lemma aw_sym m n d : attitudes_within m n d -> attitudes_within n m d.
Proof. intros H v. specialize (H v). replace (norm (vsub (mapply n v) (mapply m v))) with (norm (vsub (mapply m v) (mapply n v))); [exact H|]. unfold norm. f_equal. unfold vdot, vsub. cbn. ring. Qed.
Lemma aw_left k m n d : rotation k -> attitudes_within m n d -> attitudes_within (mmul k m) (mmul k n) d.
Proof.
  intros Hk H v. rewrite !mapply_mul. specialize (H v). set (x := mapply m v) in *. set (y := mapply n v) in *. replace (vsub (mapply k x) (mapply k y)) with (mapply k (vsub x y)) by veq.
  unfold norm at 1. rewrite rot_dot by exact Hk. exact H.
Qed.
Lemma aw_right k m n d : rotation k -> attitudes_within m n d -> attitudes_within (mmul m k) (mmul n k) d.
Proof. intros Hk H v. rewrite !mapply_mul. rewrite <- (rot_norm k v Hk). apply H. Qed.
Lemma turns a b : attitudes_within (Rz a) (Rz b) (Rabs (a - b)) /\ attitudes_within (Ry a) (Ry b) (Rabs (a - b)) /\ attitudes_within (Rx a) (Rx b) (Rabs (a - b)).
Proof.
  pose proof (chord a b) as C. assert (S : Rabs (a - b) * Rabs (a - b) = (a - b) * (a - b)) by (symmetry; apply Rsqr_abs). 
  split; [|split]; intros [x y z]; apply norm_le; try apply Rabs_pos; rewrite S; unfold vdot, vsub, mapply, Rz, Ry, Rx; cbn [r1 r2 r3 vx vy vz vdot]; unfold vdot; cbn [vx vy vz].
  - apply Rle_trans with (((cos a - cos b) * (cos a - cos b) + (sin a - sin b) * (sin a - sin b)) * (x * x + y * y)); [right; ring|]. apply Rmult_le_compat; [apply Rplus_le_le_0_compat; apply Rle_0_sqr|apply Rplus_le_le_0_compat; apply Rle_0_sqr|exact C|pose proof (Rle_0_sqr x); pose proof (Rle_0_sqr y); pose proof (Rle_0_sqr z); unfold Rsqr in *; lra].
  - apply Rle_trans with (((cos a - cos b) * (cos a - cos b) + (sin a - sin b) * (sin a - sin b)) * (x * x + z * z)); [right; ring|]. apply Rmult_le_compat; [apply Rplus_le_le_0_compat; apply Rle_0_sqr|apply Rplus_le_le_0_compat; apply Rle_0_sqr|exact C|pose proof (Rle_0_sqr x); pose proof (Rle_0_sqr y); pose proof (Rle_0_sqr z); unfold Rsqr in *; lra].
  - apply Rle_trans with (((cos a - cos b) * (cos a - cos b) + (sin a - sin b) * (sin a - sin b)) * (y * y + z * z)); [right; ring|]. apply Rmult_le_compat; [apply Rplus_le_le_0_compat; apply Rle_0_sqr|apply Rplus_le_le_0_compat; apply Rle_0_sqr|exact C|pose proof (Rle_0_sqr x); pose proof (Rle_0_sqr y); pose proof (Rle_0_sqr z); unfold Rsqr in *; lra].
Qed.
Lemma euler_near a b c a' b' c' : attitudes_within (Real3.euler a b c) (Real3.euler a' b' c') (Rabs (a - a') + Rabs (b - b') + Rabs (c - c')).
Proof.
  unfold Real3.euler. apply aw_trans with (mmul (mmul (Rz a') (Ry b')) (Rx c)).
  - apply aw_right; [apply rot_x|]. apply aw_trans with (mmul (Rz a') (Ry b)); [apply aw_right; [apply rot_y|apply turns]|apply aw_left; [apply rot_z|apply turns]].
  - apply aw_left; [apply rot_mul; [apply rot_z|apply rot_y]|apply turns].
Qed.
Lemma ned_is lat lon : ned_to_ecef lat lon = mmul (Rz lon) (Ry (- lat - PI / 2)).
Proof.
  assert (C : cos (- lat - PI / 2) = - sin lat) by (replace (- lat - PI / 2) with (- (PI / 2 - - lat)) by ring; rewrite cos_neg, cos_shift, sin_neg; reflexivity).
  assert (S : sin (- lat - PI / 2) = - cos lat) by (replace (- lat - PI / 2) with (- (PI / 2 - - lat)) by ring; rewrite sin_neg, sin_shift, cos_neg; reflexivity).
  unfold ned_to_ecef, ecefvec2nedvec, Ry, Rz, mmul, transposed. rewrite C, S. cbn. unfold vdot. cbn. f_equal; f_equal; ring.
Qed.
Lemma ned_near lat lon lat' lon' : attitudes_within (ned_to_ecef lat lon) (ned_to_ecef lat' lon') (Rabs (lat - lat') + Rabs (lon - lon')).
Proof.
  rewrite !ned_is. replace (Rabs (lat - lat') + Rabs (lon - lon')) with (Rabs (lon - lon') + Rabs ((- lat - PI / 2) - (- lat' - PI / 2))).
  - apply aw_trans with (mmul (Rz lon') (Ry (- lat - PI / 2))); [apply aw_right; [apply rot_y|apply turns]|apply aw_left; [apply rot_z|apply turns]].
  - replace (- lat - PI / 2 - (- lat' - PI / 2)) with (- (lat - lat')) by ring. rewrite Rabs_Ropp. ring.
Qed.

(** ** The examples *)
Lemma sin_low x : 0 <= x <= 1 -> x - x * x * x / 6 <= sin x.
Proof. intros H. destruct (pre_sin_bound x 0 ltac:(lra) ltac:(lra)) as [A _]. unfold sin_approx, sin_term in A. cbn in A. lra. Qed.
Lemma cos_low x : Rabs x <= 157078 / 100000 -> 16 / 10 ^ 6 <= cos x.
Proof.
  intros H. pose proof pi_digits as PD. assert (E : cos x = cos (Rabs x)) by (unfold Rabs; destruct (Rcase_abs x); [now rewrite cos_neg|reflexivity]). rewrite E.
  assert (0 <= Rabs x) by apply Rabs_pos. rewrite <- sin_shift. apply Rle_trans with (sin (163 / 10 ^ 7)).
  - eapply Rle_trans; [|apply sin_low; lra]. lra.
  - assert (M : 163 / 10 ^ 7 <= PI / 2 - Rabs x) by lra. destruct M as [M|M]; [left; apply sin_increasing_1; lra|rewrite M; lra].
Qed.
Lemma rad_deg x : deg2rad (rad2deg x) = x. Proof. unfold deg2rad, rad2deg. field. apply PI_neq0. Qed.
Lemma deg_rad x : rad2deg (deg2rad x) = x. Proof. unfold deg2rad, rad2deg. field. apply PI_neq0. Qed.
Lemma deg_err x y d : Rabs (x - rad2deg y) <= d -> Rabs (deg2rad x - y) <= d / 57.
Proof.
  intros H. pose proof pi_digits as PD. rewrite <- (rad_deg y) at 1. unfold deg2rad at 1 2. replace (x * PI / 180 - rad2deg y * PI / 180) with ((x - rad2deg y) * (PI / 180)) by field. rewrite Rabs_mult, (Rabs_pos_eq (PI / 180)) by lra.
  apply Rle_trans with (d * / 57); [|lra]. apply Rmult_le_compat; [apply Rabs_pos|lra|exact H|lra].
Qed.

Lemma position_of T lat lon alt roll pitch yaw e a : llarpy2ecef64 T lat lon alt roll pitch yaw = GRet (e, a) -> lla2ecef64 (t_math T) (FV (rad2deg64 lat) (rad2deg64 lon) alt) = GRet e.
Proof.
  unfold llarpy2ecef64. destruct (lla2ecef64 (t_math T) _) as [x|x]; cbn [gbind]; [|discriminate]. destruct (ecefvec2nedvec64 _ lat lon) as [y|y]; cbn [gbind]; [|discriminate].
  destruct (turn_frame64 _ _ _ _ _ _ _ _) as [[[z1 z2] z3]|z]; cbn [gbind]; [|discriminate]. destruct (frame_angles64 _ _ _ _ _ _ _) as [[[w1 w2] w3]|w]; cbn [gbind]; [|discriminate]. intros H. now injection H as ->.
Qed.
Lemma shown x : fin x -> Rabs (val x) <= 4 -> fin (rad2deg64 x) /\ Rabs (deg2rad (val (rad2deg64 x)) - val x) <= 11 * u.
Proof.
  intros F H. destruct (rad2deg_ap x (val x) 0 (ap_exact _ F) H ltac:(lra)) as [G A]. split; [exact G|]. eapply Rle_trans; [exact (deg_err _ _ _ A)|num].
Qed.
Lemma shown_deg x b : fin x -> Rabs (val x) <= b -> b <= 181 -> let y := deg2rad64 x in fin y /\ Rabs (val y) <= 4 /\ Rabs (val (rad2deg64 y) - val x) <= 1060 * u.
Proof.
  intros F H B y. pose proof pi_digits as PD. destruct (deg2rad_ap x F ltac:(lra)) as [G A]. fold y in G, A. assert (DX : Rabs (val y - deg2rad (val x)) <= 8 * u) by (eapply Rle_trans; [exact A|num]).
  assert (R : Rabs (deg2rad (val x)) <= 318 / 100) by (unfold deg2rad; apply Rabs_le_inv in H; apply Rabs_le; nra). split; [exact G|]. split; [apply Rabs_le_inv in R, DX; apply Rabs_le; num|].
  destruct (rad2deg_ap y (deg2rad (val x)) (8 * u) (conj G DX) ltac:(lra) ltac:(num)) as [_ K]. rewrite deg_rad in K. eapply Rle_trans; [exact K|num].
Qed.

Section Example.
Variable T : attlib.
Hypothesis AT : accurate_att T.

(** What the receiver prints for the datagram of the sender, for every place off the poles and off the antimeridian, every altitude up to 149 km and every attitude *)
Theorem C75_example lat lon alt roll pitch yaw : fin lat -> fin lon -> fin alt -> fin roll -> fin pitch -> fin yaw ->
  Rabs (val lat) <= 157078 / 100000 -> Rabs (val lon) <= 31414 / 10000 -> Rabs (val alt) <= 149000 ->
  exists datagram, length datagram = 144%nat /\ (forall n, (50 <= n)%nat -> send T n lat lon alt roll pitch yaw = Some datagram) /\
  exists Latitude Longitude Altitude a3 a4 a5,
    (forall n k h, (50 <= n)%nat -> (6 <= k)%nat -> recv T n k h datagram = EntityState "EntityStatePdu" (VInt 42) Latitude Longitude Altitude a3 a4 a5) /\
    within Latitude (rad2deg (val lat)) (67 / 10 ^ 5) /\ within Longitude (rad2deg (val lon)) (2 / 10 ^ 12 / cos (val lat)) /\ within Altitude (val alt) 71 /\
    fin a3 /\ fin a4 /\ fin a5 /\
    attitudes_within (mmul (ned_to_ecef (deg2rad (val Latitude)) (deg2rad (val Longitude))) (Real3.euler (deg2rad (val a5)) (deg2rad (val a4)) (deg2rad (val a3))))
                     (mmul (ned_to_ecef (val lat) (val lon)) (Real3.euler (val yaw) (val pitch) (val roll))) (/ 10 ^ 6).
Proof.
  intros F1 F2 F3 F4 F5 F6 H1 H2 H3. pose proof pi_digits as PD. pose proof (at_math T AT) as AM. pose proof (cos_low _ H1) as C0.
  destruct (rad2deg_ap lat (val lat) 0 (ap_exact _ F1) ltac:(lra) ltac:(lra)) as [G1 A1]. destruct (rad2deg_ap lon (val lon) 0 (ap_exact _ F2) ltac:(lra) ltac:(lra)) as [G2 A2].
  assert (RI : forall x k, Rabs x <= k -> Rabs (rad2deg x) <= k * (572957796 / 10000000)).
  { intros x k Hx. unfold rad2deg. replace (x * 180 / PI) with (x * (180 / PI)) by (field; lra). assert (180 / PI <= 572957796 / 10000000) by (apply Rmult_le_reg_r with PI; [lra|]; unfold Rdiv at 1; rewrite Rmult_assoc, Rinv_l by lra; lra). assert (0 <= 180 / PI) by (left; apply Rdiv_lt_0_compat; lra). rewrite Rabs_mult, (Rabs_pos_eq (180 / PI)) by assumption. apply Rmult_le_compat; auto using Rabs_pos. }
  assert (L1 := RI _ _ H1). assert (L2 := RI _ _ H2). assert (D1 := deg_err _ _ _ A1). assert (D2 := deg_err _ _ _ A2).
  set (la := rad2deg64 lat) in *. set (lo := rad2deg64 lon) in *.
  assert (Fv : fin3 (FV la lo alt)) by (intros []; assumption).
  assert (W1 : -90 < val la < 90) by (apply Rabs_le_inv in A1, L1; num). assert (W2 : -17999 / 100 <= val lo <= 17999 / 100) by (apply Rabs_le_inv in A2, L2; num).
  set (c := cos (deg2rad (val la))). assert (CC : Rabs (c - cos (val lat)) <= 11 * u) by (eapply Rle_trans; [apply cos_near; exact D1|num]).
  assert (C1 : 99 / 100 * cos (val lat) <= c) by (apply Rabs_le_inv in CC; num). assert (C2 : / 10 ^ 5 <= c) by lra.
  destruct (C72_round_trip (t_math T) AM (FV la lo alt) Fv W1 W2 H3 C2) as (e & r & E1 & E2 & Fr & B2 & B1 & B3 & _). cbn [fx fy fz] in B1, B2, B3. fold c in B2.
  destruct (there (t_math T) AM (FV la lo alt) Fv W1 W2 H3 C2) as (e' & _ & _ & _ & E1' & Fe & _). rewrite E1 in E1'. injection E1' as <-.
  pose proof (lla2ecef_is (V (rad2deg (val lat)) (rad2deg (val lon)) (val alt))) as EQ. cbv zeta in EQ.
  destruct (C74_llarpy2ecef T AT lat lon alt roll pitch yaw _ F1 F2 F3 F4 F5 F6 ltac:(lra) ltac:(lra) ltac:(lra) EQ) as (e2 & a & S1 & _ & Fa & Ba & Wa).
  pose proof (position_of _ _ _ _ _ _ _ _ _ S1) as E3. fold la lo in E3. rewrite E1 in E3. injection E3 as <-.
  destruct (wire e a Fe Fa ltac:(intros i; specialize (Ba i); lra)) as (bs & a' & LB & Fa' & Sa & WR). exists bs. split; [exact LB|]. split.
  { intros n Hn. unfold send. rewrite S1. destruct (WR n Hn) as [(s & -> & <-) _]. reflexivity. }
  assert (R1 : Rabs (val (fx r)) <= 91) by (apply Rabs_le_inv in B1; apply Rabs_le; lra).
  assert (IC : 0 < / c <= 10 ^ 5) by (split; [apply Rinv_0_lt_compat; lra|rewrite <- (Rinv_inv (10 ^ 5)); apply Rinv_le_contravar; lra]).
  assert (R2 : Rabs (val (fy r)) <= 181) by (apply Rabs_le_inv in B2; unfold Rdiv in B2; apply Rabs_le; lra).
  destruct (shown_deg _ _ (Fr AX) R1 ltac:(lra)) as (P1 & Q1 & T1). destruct (shown_deg _ _ (Fr AY) R2 ltac:(lra)) as (P2 & Q2 & T2). cbn [fc] in P1, Q1, T1, P2, Q2, T2.
  destruct (C74_ecef2llarpy T AT 6 e (fx a') (fy a') (fz a') r (E2 6%nat ltac:(lia)) P1 P2 (Fa' AX) (Fa' AY) (Fa' AZ)) as (roll' & pitch' & yaw' & EE & FR & BR & WB).
  destruct (shown _ P1 Q1) as [X1 Y1]. destruct (shown _ P2 Q2) as [X2 Y2].
  destruct (shown _ (FR AX) ltac:(specialize (BR AX); lra)) as [X3 Y3]. destruct (shown _ (FR AY) ltac:(specialize (BR AY); lra)) as [X4 Y4]. destruct (shown _ (FR AZ) ltac:(specialize (BR AZ); lra)) as [X5 Y5]. cbn [fc fx fy fz] in X3, X4, X5, Y3, Y4, Y5.
  exists (rad2deg64 (deg2rad64 (fx r))), (rad2deg64 (deg2rad64 (fy r))), (fz r), (rad2deg64 roll'), (rad2deg64 pitch'), (rad2deg64 yaw'). split; [|split; [|split; [|split]]].
  - intros n k h Hn Hk. destruct (WR n Hn) as [_ W]. destruct (W h) as (o' & s' & K1 & K2 & K3 & K4 & K5 & K6). unfold recv. rewrite firstn_all2 by (rewrite LB; lia). rewrite K1, K3, K5, K6.
    assert (EK : ecef2llarpy64 T k e (fx a') (fy a') (fz a') = Some (GRet (FV (deg2rad64 (fx r)) (deg2rad64 (fy r)) (fz r), FV roll' pitch' yaw'))) by (rewrite <- EE; unfold ecef2llarpy64; now rewrite (E2 k Hk), (E2 6%nat) by lia).
    rewrite EK, K4, K2. reflexivity.
  - split; [exact X1|]. apply Rabs_le_inv in T1, B1, A1. apply Rabs_le. num.
  - split; [exact X2|]. assert (I1 : / c <= 100 / 99 * / cos (val lat)) by (replace (100 / 99 * / cos (val lat)) with (/ (99 / 100 * cos (val lat))) by (field; lra); apply Rinv_le_contravar; lra).
    assert (I2 : 1 <= / cos (val lat)) by (destruct (COS_bound (val lat)); rewrite <- Rinv_1; apply Rinv_le_contravar; lra). set (K := / cos (val lat)) in *. unfold Rdiv in B2 |- *. fold K. set (J := / c) in *.
    apply Rabs_le_inv in T2, B2, A2. apply Rabs_le. num.
  - split; [exact (Fr AZ)|exact B3].
  - split; [exact X3|]. split; [exact X4|]. split; [exact X5|].
    set (La := deg2rad (val (rad2deg64 (deg2rad64 (fx r))))) in *. set (Lo := deg2rad (val (rad2deg64 (deg2rad64 (fy r))))) in *. set (y3 := deg2rad (val (rad2deg64 roll'))) in *. set (y4 := deg2rad (val (rad2deg64 pitch'))) in *. set (y5 := deg2rad (val (rad2deg64 yaw'))) in *.
    set (p1 := val (deg2rad64 (fx r))) in *. set (p2 := val (deg2rad64 (fy r))) in *.
    assert (Z1 : attitudes_within (mmul (ned_to_ecef La Lo) (Real3.euler y5 y4 y3)) (mmul (ned_to_ecef p1 p2) (Real3.euler (val yaw') (val pitch') (val roll'))) (55 * u)).
    { apply aw_weak with (22 * u + 33 * u); [|num]. apply aw_trans with (mmul (ned_to_ecef p1 p2) (Real3.euler y5 y4 y3)); [apply aw_right; [apply rot_euler|eapply aw_weak; [apply ned_near|lra]]|apply aw_left; [apply ned_frame|eapply aw_weak; [apply euler_near|lra]]]. }
    assert (Z2 : attitudes_within (Real3.euler (val (fx a')) (val (fy a')) (val (fz a'))) (earth_attitude a) (6 / 10 ^ 7)).
    { unfold earth_attitude. eapply aw_weak; [apply euler_near|]. assert (U := u24_val). assert (V := eta32_40). assert (SB : forall i, Rabs (val (fc i a') - val (fc i a)) <= 19 / 10 ^ 8).
      { intros i. eapply Rle_trans; [apply Sa|]. assert (u24 * Rabs (val (fc i a)) <= u24 * (22 / 7)) by (apply Rmult_le_compat_l; [rewrite U; lra|apply Ba]). rewrite U in *. lra. }
      pose proof (SB AX) as S4. pose proof (SB AY) as S5. pose proof (SB AZ) as S6. cbn [fc] in S4, S5, S6. lra. }
    apply aw_weak with (55 * u + (/ 10 ^ 10 + (6 / 10 ^ 7 + / 10 ^ 10))); [|num]. apply (aw_trans _ _ _ _ _ Z1). apply (aw_trans _ _ _ _ _ WB). exact (aw_trans _ _ _ _ _ Z2 Wa).
Qed.
End Example.

(** The Monterey of dis_sender.py: deg2rad(36.6), deg2rad(-121.9), 1 m, facing north *)
Definition monterey_lat : f64 := b64_of_bits 4603928932916926214.
Definition monterey_lon : f64 := b64_of_bits 13835345286665750254.
Definition half : f64 := b64_of_bits 4602678819172646912.
Example C75_case : accurate_att ideal_att /\ bits_of_b64 (deg2rad64 (b64_of_bits 4630347809383304397)) = 4603928932916926214%Z /\ bits_of_b64 (deg2rad64 (b64_of_bits 13861650403706902938)) = 13835345286665750254%Z /\
  fin monterey_lat /\ fin monterey_lon /\ fin f_1 /\ fin f_zero /\ Rabs (val monterey_lat) <= 157078 / 100000 /\ Rabs (val monterey_lon) <= 31414 / 10000 /\ Rabs (val f_1) <= 149000.
Proof.
  split; [exact ideal_att_accurate|]. do 2 (split; [vm_compute; reflexivity|]). do 4 (split; [reflexivity|]). unfold monterey_lat, monterey_lon. rewrite val_1.
  assert (V1 : val (b64_of_bits 4603928932916926214) = 2876856685824899 / 4503599627370496) by (value_of_bits; lra). assert (V2 : val (b64_of_bits 13835345286665750254) = - (2395415505478519 / 1125899906842624)) by (value_of_bits; lra).
  rewrite V1, V2. (split; [|split]); apply Rabs_le; lra.
Qed.

(** ** C76: the other datagrams *)
(** the labels: an entity with roll 0.5 rad and no yaw is shown with the yaw and without the roll; read as labelled, the angles are not its attitude *)
Theorem C76_labels_refuted T : accurate_att T -> exists lat lon alt roll pitch yaw datagram Latitude Longitude Altitude Yaw Pitch Roll,
  fin lat /\ fin lon /\ fin alt /\ fin roll /\ fin pitch /\ fin yaw /\ Rabs (val lat) <= 157078 / 100000 /\ Rabs (val lon) <= 31414 / 10000 /\ Rabs (val alt) <= 149000 /\
  send T 50 lat lon alt roll pitch yaw = Some datagram /\ recv T 50 6 [] datagram = EntityState "EntityStatePdu" (VInt 42) Latitude Longitude Altitude Yaw Pitch Roll /\
  ~ attitudes_within (mmul (ned_to_ecef (deg2rad (val Latitude)) (deg2rad (val Longitude))) (Real3.euler (deg2rad (val Yaw)) (deg2rad (val Pitch)) (deg2rad (val Roll))))
                     (mmul (ned_to_ecef (val lat) (val lon)) (Real3.euler (val yaw) (val pitch) (val roll))) (4 / 10).
Proof.
  intros AT. assert (V0 : val f_zero = 0) by reflexivity. assert (VH : val half = / 2) by (unfold half; value_of_bits; lra).
  destruct (C75_example T AT f_zero f_zero f_1 half f_zero f_zero eq_refl eq_refl eq_refl eq_refl eq_refl eq_refl) as (d & _ & S & La & Lo & Al & a3 & a4 & a5 & R & W1 & W2 & _ & _ & _ & _ & A);
    [rewrite V0, Rabs_R0; lra|rewrite V0, Rabs_R0; lra|rewrite val_1, Rabs_pos_eq; lra|].
  exists f_zero, f_zero, f_1, half, f_zero, f_zero, d, La, Lo, Al, a3, a4, a5. do 6 (split; [reflexivity|]). do 2 (split; [rewrite V0, Rabs_R0; lra|]). split; [rewrite val_1, Rabs_pos_eq; lra|].
  split; [apply S; lia|]. split; [apply R; lia|]. intros B. rewrite V0, VH in *. set (k := ned_to_ecef (deg2rad (val La)) (deg2rad (val Lo))) in *. set (y := deg2rad (val a3)) in *. set (p := deg2rad (val a4)) in *. set (q := deg2rad (val a5)) in *.
  assert (Hk : rotation k) by apply ned_frame.
  assert (N : attitudes_within (ned_to_ecef 0 0) k (2 / 10 ^ 5)).
  { destruct W1 as [_ W1], W2 as [_ W2]. rewrite cos_0 in W2. apply deg_err in W1, W2. eapply aw_weak; [apply aw_sym, ned_near|]. lra. }
  assert (M : forall m d0, attitudes_within (mmul k m) (mmul (ned_to_ecef 0 0) (Real3.euler 0 0 (/ 2))) d0 -> attitudes_within m (Real3.euler 0 0 (/ 2)) (d0 + 2 / 10 ^ 5)).
  { intros m d0 H. pose proof (aw_trans _ _ _ _ _ H (aw_right _ _ _ _ (rot_euler 0 0 (/ 2)) N)) as G. pose proof (aw_left _ _ _ _ (rot_tr _ Hk) G) as G'. rewrite <- !mmul_assoc in G'. destruct Hk as (_ & Hk & _). rewrite Hk, !mmul_1_l in G'. exact G'. }
  apply M in A, B. assert (Z : forall v w, Rabs (vy (vsub v w)) <= norm (vsub v w) /\ Rabs (vz (vsub v w)) <= norm (vsub v w)).
  { intros v w. set (x := vsub v w). unfold norm, vdot. destruct x as [x1 x2 x3]. cbn [vx vy vz]. split; rewrite <- sqrt_Rsqr_abs; apply sqrt_le_1_alt; unfold Rsqr; nra. }
  assert (E1 : forall a b c, vy (mapply (Real3.euler a b c) ex) = cos b * sin a) by (intros; unfold Real3.euler; axes).
  assert (E2 : forall a b c, vz (mapply (Real3.euler a b c) ey) = cos b * sin c) by (intros; unfold Real3.euler; axes).
  assert (NX : norm ex = 1) by (unfold norm, vdot, ex; cbn [vx vy vz]; replace (1 * 1 + 0 * 0 + 0 * 0) with 1 by ring; apply sqrt_1). assert (NY : norm ey = 1) by (unfold norm, vdot, ey; cbn [vx vy vz]; replace (0 * 0 + 1 * 1 + 0 * 0) with 1 by ring; apply sqrt_1).
  pose proof (proj2 (Z (mapply (Real3.euler q p y) ey) (mapply (Real3.euler 0 0 (/ 2)) ey))) as K1. pose proof (proj1 (Z (mapply (Real3.euler y p q) ex) (mapply (Real3.euler 0 0 (/ 2)) ex))) as K2.
  specialize (A ey). specialize (B ex). rewrite NX in B. rewrite NY in A. cbn [vsub vy vz] in K1, K2. rewrite !E2, cos_0 in K1. rewrite !E1, sin_0, cos_0 in K2.
  pose proof (sin_low (/ 2) ltac:(lra)) as SL. assert (K3 : Rabs (cos p * sin y - 1 * sin (/ 2)) <= 1 / 1000) by lra. assert (K4 : Rabs (cos p * sin y - 1 * 0) <= 401 / 1000) by lra. apply Rabs_le_inv in K3, K4. lra.
Qed.
Open Scope Z_scope.

(** another PDU: its class and its size *)
Theorem C76_other T n k h c f s o W bs t : (fuel_ok <= n)%nat -> layout c = Some f -> is_pdu c = true -> contents the_prog (heap s) c f o = Some W ->
  getattr n o "pduType" s = (Ok (VInt t), s) -> zassoc t pdu_types = Some c -> serialize n o s = (Ok VNone, appended s bs) -> (length bs <= 1024)%nat -> t <> 1 ->
  recv T n k h bs = Other c (length bs).
Proof.
  intros Hn L P HW G Hz E LB Ht. pose proof (pdu_type_read n c f s o W t L P HW G) as HT. destruct (C65_created n c f s o W bs t Hn L P HW HT Hz E h []) as (o1 & s1 & V & A1 & B1 & _ & _).
  destruct (C69_attributes n c f s o W bs t Hn L P HW G Hz E h []) as (o' & s' & A & _ & K). rewrite A in A1. injection A1 as <- <-. rewrite app_nil_r in A.
  destruct (pdu_has_type c f L P) as (p & HL). destruct (K _ _ HL) as (v & v' & C & D & R). cbn [map reach] in C. unfold Interp.bind in C. rewrite G in C. cbn [reach] in C. injection C as <-.
  destruct (contents_inv _ _ _ _ _ (proj1 (layout_tidy _ _ L)) (proj2 (layout_tidy _ _ L)) B1) as (l & at_ & fp & -> & N & _).
  unfold recv. rewrite firstn_all2 by lia. rewrite A. rewrite (getattr_reach _ _ _ _ _ _ D). cbn [fst].
  assert (CN : class_name s' (VRef l) = c) by (cbn [class_name]; now rewrite N). rewrite CN.
  assert (NE : v' <> VInt 1) by (destruct p; cbn [received] in R; [congruence|destruct R as (? & ->); discriminate|destruct R as (? & ->); discriminate]).
  destruct v'; try reflexivity. match goal with z : Z |- _ => destruct z as [|[]|]; try reflexivity end. now destruct NE.
Qed.

Lemma fuel_2 n : (fuel_ok <= n)%nat -> (2 <= n)%nat. Proof. unfold fuel_ok, need, G. lia. Qed.
(** a datagram of more than 1024 bytes is cut, and then createPdu raises *)
Theorem C76_cut T n k h c f s o W bs t : (fuel_ok <= n)%nat -> layout c = Some f -> is_pdu c = true -> contents the_prog (heap s) c f o = Some W ->
  getattr n o "pduType" s = (Ok (VInt t), s) -> zassoc t pdu_types = Some c -> serialize n o s = (Ok VNone, appended s bs) -> (1024 < length bs)%nat ->
  recv T n k h bs = Crash.
Proof.
  intros Hn L P HW G Hz E LB. pose proof (pdu_type_read n c f s o W t L P HW G) as HT. pose proof Hz as Hz'. rewrite <- types_ok in Hz'.
  assert (EN : encode f W = (bs, None)).
  { rewrite (ser_layout n c f o s W Hn L HW) in E. destruct (encode f W) as [b1 [e|]] eqn:Ee; cbn [fst snd] in E; [discriminate|]. unfold appended in E. injection E as E. apply app_inv_head in E. now subst b1. }
  destruct (third_byte c f W bs t P (proj1 (layout_inv _ _ L)) EN HT) as (b & N & B).
  set (p := firstn 1024 bs). assert (EQ : bs = p ++ skipn 1024 bs) by (symmetry; apply firstn_skipn). assert (Hq : skipn 1024 bs <> []).
  { intros X. assert (Y := skipn_length 1024 bs). rewrite X in Y. cbn [length] in Y. lia. }
  assert (LP : length p = 1024%nat) by (unfold p; rewrite firstn_length; lia). assert (N' : nth_error p 2 = Some b).
  { rewrite <- N. rewrite EQ. symmetry. apply nth_error_app1. rewrite LP. apply Nat.ltb_lt. reflexivity. }
  destruct (C65_comes_back n c f s o W bs Hn L HW E (mkst h bs bs []) []) as (o' & s' & V & LD & _ & IR & _); [cbn [irest]; now rewrite app_nil_r|].
  destruct (C14_truncated n c f (mkst h bs bs []) o' s' p (skipn 1024 bs) (mkst h p p []) Hn L LD) as (x & s2 & LX & _); [cbn [irest]; rewrite IR, app_nil_r; exact EQ|exact Hq|reflexivity|].
  unfold recv. fold p. assert (FX : factory n h p = (Exc x, s2)).
  { unfold factory, createPdu. rewrite (factory_spec n) by (exact (fuel_2 n Hn)). cbn [ifull heap out]. rewrite N', B. unfold table. rewrite Hz'. exact LX. }
  now rewrite FX.
Qed.

(** fewer than three bytes, or a type without a class: an exception *)
Theorem C76_unknown T n k h datagram : (fuel_ok <= n)%nat ->
  match nth_error datagram 2 with None => True | Some b => zassoc (b2z b) pdu_types = None end -> recv T n k h datagram = Crash.
Proof.
  intros Hn H. assert (N2 : nth_error (firstn 1024 datagram) 2 = nth_error datagram 2) by (destruct datagram as [|a [|a' [|a'' r]]]; reflexivity).
  unfold recv. assert (FX : factory n h (firstn 1024 datagram) = match nth_error datagram 2 with None => (Exc StructError, mkst h [] (firstn 1024 datagram) []) | Some b => (Ok VNone, mkst h (firstn 1024 datagram) (firstn 1024 datagram) []) end).
  { unfold factory, createPdu. rewrite (factory_spec n) by (exact (fuel_2 n Hn)). cbn [ifull heap out]. rewrite N2. destruct (nth_error datagram 2) as [b|]; [|reflexivity]. unfold table. now rewrite types_ok, H. }
  rewrite FX. destruct (nth_error datagram 2) as [b|]; [|reflexivity].
  assert (GX : exists e, fst (getattr n VNone "pduType" (mkst h (firstn 1024 datagram) (firstn 1024 datagram) [])) = Exc e) by (unfold getattr; cbn; eauto). destruct GX as [e ->]. reflexivity.
Qed.

(** an Entity State PDU at the centre of the Earth, such as a new one: an exception *)
Theorem C76_centre T n k h s o W bs x y z : (fuel_ok <= n)%nat -> contents the_prog (heap s) "EntityStatePdu" w_EntityStatePdu o = Some W -> getattr n o "pduType" s = (Ok (VInt 1), s) ->
  reads n s o ["entityLocation"; "x"] x -> reads n s o ["entityLocation"; "y"] y -> reads n s o ["entityLocation"; "z"] z -> (val x = 0)%R -> (val y = 0)%R -> (val z = 0)%R ->
  serialize n o s = (Ok VNone, appended s bs) -> recv T n k h bs = Crash.
Proof.
  intros Hn HW G X Y Z VX VY VZ E.
  destruct (Nat.le_gt_cases (length bs) 1024) as [LB|LB]; [|exact (C76_cut T n k h _ _ s o W bs 1 Hn entity_state_layout eq_refl HW G eq_refl E LB)].
  destruct (C69_attributes n "EntityStatePdu" w_EntityStatePdu s o W bs 1 Hn entity_state_layout eq_refl HW G eq_refl E h []) as (o' & s' & A & _ & K). rewrite app_nil_r in A.
  assert (KD : forall path v, leaf path w_EntityStatePdu = Some PF64 -> reads n s o path v -> read_float n s' o' path = Some v).
  { intros path v HL HR. destruct (K path PF64 HL) as (w & w' & B & C & D). apply read_is. exact (reads_double n s o s' o' path w w' v HR B C D). }
  destruct (K ["pduType"] (PInt 1 false) eq_refl) as (v & v' & C & D & R). cbn [map reach] in C. unfold Interp.bind in C. rewrite G in C. cbn [reach] in C. injection C as <-. cbn [received] in R. subst v'.
  unfold recv. rewrite firstn_all2 by exact LB. rewrite A, (getattr_reach _ _ _ _ _ _ D). cbn [fst]. unfold read3 at 1. rewrite (KD ["entityLocation"; "x"] x eq_refl X), (KD ["entityLocation"; "y"] y eq_refl Y), (KD ["entityLocation"; "z"] z eq_refl Z).
  destruct (read3 n s' o' "entityOrientation" "psi" "theta" "phi") as [a|]; [|reflexivity].
  assert (EE : exists e, ecef2lla64 (t_math T) k (FV x y z) f_nano = Some (GRaise e)).
  { apply reads_fin in X, Y, Z. assert (F0 : fin f_zero) by reflexivity. assert (V0 : val f_zero = 0%R) by reflexivity. unfold ecef2lla64. cbn [fx fy fz]. rewrite (feq_zero x X), (feq_zero y Y). destruct (Req_EM_T (val x) 0) as [_|]; [|contradiction]. destruct (Req_EM_T (val y) 0) as [_|]; [|contradiction]. cbn [andb].
    rewrite (flt_fin _ _ F0 Z), (flt_fin _ _ Z F0), V0. destruct (Rlt_dec 0 (val z)); [lra|]. destruct (Rlt_dec (val z) 0); [lra|]. destruct (gbind _ _) as [q|q]; eauto. }
  destruct EE as [e EE]. unfold ecef2llarpy64. rewrite EE. reflexivity.
Qed.

(** ** Cases *)
(** a new Entity State PDU *)
Definition fresh : st := Eval vm_compute in snd (new the_prog 50 "EntityStatePdu" [] st0).
Definition fresh_o : Interp.val := Eval vm_compute in match fst (new the_prog 50 "EntityStatePdu" [] st0) with Ok o => o | _ => VNone end.
Example C76_centre_case : new the_prog 50 "EntityStatePdu" [] st0 = (Ok fresh_o, fresh) /\ (exists W, contents the_prog (heap fresh) "EntityStatePdu" w_EntityStatePdu fresh_o = Some W) /\
  getattr 50 fresh_o "pduType" fresh = (Ok (VInt 1), fresh) /\ (exists bs, serialize 50 fresh_o fresh = (Ok VNone, appended fresh bs)) /\
  forall a, In a ["x"; "y"; "z"] -> exists x, reads 50 fresh fresh_o ["entityLocation"; a] x /\ (val x = 0)%R.
Proof.
  split; [vm_compute; reflexivity|]. split; [eexists; vm_compute; reflexivity|]. split; [vm_compute; reflexivity|]. split; [eexists; vm_compute; reflexivity|].
  intros a [<-|[<-|[<-|[]]]]; (exists (b64_of_bits 0); split; [exists 0; split; [vm_compute; reflexivity|]; split; [split; [vm_compute; split; [discriminate|reflexivity]|vm_compute; discriminate]|reflexivity]|reflexivity]).
Qed.
(** a Fire PDU, and an Entity State PDU with 60 variable parameters, read from zeros *)
Definition zeros (k : nat) : list byte := repeat x00 k.
Definition fire_bytes : list byte := [x07; x00; x02; x02] ++ zeros 92.
Definition long_bytes : list byte := [x07; x00; x01; x01] ++ zeros 15 ++ [x3c] ++ zeros 1084.
Definition read_back (c : string) (bs : list byte) : bool :=
  match factory 50 [] bs with
  | (Ok o, s) => match layout c with Some f => match contents the_prog (heap s) c f o with Some _ => match serialize 50 o s with (Ok VNone, s') => Nat.eqb (length (out s')) (length bs) | _ => false end | None => false end | None => false end
  | _ => false
  end.
Example C76_case : read_back "FirePdu" fire_bytes = true /\ length fire_bytes = 96%nat /\ zassoc 2 pdu_types = Some "FirePdu" /\ read_back "EntityStatePdu" long_bytes = true /\ Nat.ltb 1024 (length long_bytes) = true /\
  zassoc 200 pdu_types = None.
Proof. vm_compute. repeat split. Qed.

Definition all_PropExample := (C75_example, C76_labels_refuted, C76_other, C76_cut, C76_unknown, C76_centre).
Print Assumptions all_PropExample.
