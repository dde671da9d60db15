(** * The stream methods used by the records, against the primitive wire types *)
From Coq Require Import ZArith String List Bool Lia.
From Coq Require Import Strings.Byte.
From Verif Require Import Lang Bytes Interp ProgBase Spec Codec Codec2 Rep.
Import ListNotations.
Open Scope string_scope. Open Scope Z_scope. Open Scope list_scope.

Definition add_out (b : list byte) (s : st) : st := mkst (heap s) (irest s) (ifull s) (out s ++ b).
Definition set_in (b : list byte) (s : st) : st := mkst (heap s) b (ifull s) (out s).

Lemma add_out_nil s : add_out [] s = s.
Proof. destruct s. unfold add_out. simpl. now rewrite app_nil_r. Qed.

Lemma add_out_add a b s : add_out b (add_out a s) = add_out (a ++ b) s.
Proof. unfold add_out. simpl. now rewrite app_assoc. Qed.

Lemma heap_add_out b s : heap (add_out b s) = heap s.
Proof. reflexivity. Qed.

(** format codes and primitive types *)
Definition fcode_prim (c : fcode) : option prim :=
  match c with
  | F_bool => None
  | F_b => Some i8 | F_B => Some u8 | F_h => Some i16 | F_H => Some u16 | F_i => Some i32 | F_I => Some u32
  | F_q => Some i64 | F_Q => Some u64 | F_f => Some f32 | F_d => Some f64
  end.

Lemma pack_prim h c p v x : fcode_prim c = Some p -> scal v = Some x -> pack h c v = enc_prim p x.
Proof.
  intros Hc Hv. destruct c; simpl in Hc; try discriminate; injection Hc as <-;
    destruct v; simpl in Hv; try discriminate; injection Hv as <-; reflexivity.
Qed.

(** the Python value of a decoded primitive *)
Definition vof (x : wv) : val := match x with WInt z => VInt z | WFloat b => VFloat b | _ => VNone end.

Definition is_num (x : wv) : bool := match x with WInt _ | WFloat _ => true | _ => false end.

Lemma scal_vof x : is_num x = true -> scal (vof x) = Some x.
Proof. destruct x; simpl; intros; try discriminate; reflexivity. Qed.

Lemma dec_val_num p bs x r : dec_val p bs = DOk x r -> is_num x = true.
Proof. intros H. apply dec_val_inv in H as (l & _ & _ & ->). destruct p; reflexivity. Qed.

Lemma dec_val_int n sg bs x r : dec_val (PInt n sg) bs = DOk x r -> exists z, x = WInt z.
Proof. intros H. apply dec_val_inv in H as (l & _ & _ & ->). simpl. eauto. Qed.

Lemma unpack_prim c p r : fcode_prim c = Some p ->
  unpack c (firstn (Z.to_nat (Z.min (Z.of_nat (fwidth c)) (Z.of_nat (length r)))) r) =
  match dec_val p r with DOk x _ => inl (vof x) | DErr e => inr e end.
Proof.
  intros Hc. assert (Hw : width p = fwidth c) by (destruct c; simpl in Hc; try discriminate; injection Hc as <-; reflexivity).
  unfold dec_val, read_prim, unpack. rewrite <- Hw.
  destruct (Nat.leb_spec (width p) (length r)).
  - rewrite Z.min_l, Nat2Z.id by lia. rewrite firstn_length_le by lia. rewrite Nat.eqb_refl.
    destruct c; simpl in Hc; try discriminate; injection Hc as <-; reflexivity.
  - rewrite Z.min_r, Nat2Z.id, firstn_all by lia. destruct (Nat.eqb_spec (length r) (width p)); [lia|reflexivity].
Qed.

Lemma dec_val_rest p r x t : dec_val p r = DOk x t -> t = skipn (width p) r.
Proof. unfold dec_val, read_prim. destruct (_ <=? _)%nat; congruence. Qed.

Local Arguments find_fcode : simpl never.
Local Arguments pack : simpl never.
Local Arguments unpack : simpl never.
Local Arguments codes : simpl never.

Section Stream.
Variable P : prog.
Hypothesis HO : get_cls P "DataOutputStream" = Some c_DataOutputStream.
Hypothesis HI : get_cls P "DataInputStream" = Some c_DataInputStream.

Lemma lookup_out w : lookup P "DataOutputStream" w = assoc w (c_members c_DataOutputStream).
Proof. unfold lookup, mro. rewrite HO. cbn [c_mro c_DataOutputStream lookup_in]. rewrite HO. destruct (assoc _ _); reflexivity. Qed.
Lemma lookup_in_s w : lookup P "DataInputStream" w = assoc w (c_members c_DataInputStream).
Proof. unfold lookup, mro. rewrite HI. cbn [c_mro c_DataInputStream lookup_in]. rewrite HI. destruct (assoc _ _); reflexivity. Qed.

Definition wr_body (f : string) : list stmt :=
  [Expr (Meth (Attr (Loc "self") "stream") "write" [Builtin BPack [Lit (LStr f); Loc "val"]] [])].
Definition wr_meth (f : string) : meth := mkmeth KNormal false [("self", None); ("val", None)] (wr_body f).

Lemma run_wr n f c v s : find_fcode (codes f) fcodes = Some c ->
  run P (S n) (wr_meth f) [VOut; v] [] s =
  match pack (heap s) c v with inl l => (Ok VNone, add_out l s) | inr e => (Exc e, s) end.
Proof.
  intros Hf. unfold wr_meth, wr_body. cbn. unfold bind. cbn. rewrite Hf.
  destruct (pack (heap s) c v); reflexivity.
Qed.

Definition al_meth (w : string) : meth :=
  mkmeth KNormal false [("self", None); ("val", None)] [Expr (Meth (Loc "self") w [Loc "val"] [])].

Lemma run_al n w f v s r : lookup P "DataOutputStream" w = Some (MMeth (wr_meth f)) ->
  run P (S n) (wr_meth f) [VOut; v] [] s = r -> (forall y, fst r = Ok y -> y = VNone) ->
  run P (S (S n)) (al_meth w) [VOut; v] [] s = r.
Proof.
  intros Hl Hr Hn. remember (S n) as k eqn:Ek; clear Ek. unfold al_meth. cbn. unfold bind. cbn. rewrite Hl. cbn. rewrite Hr.
  destruct r as [[y|] s']; [|reflexivity]. now rewrite (Hn y).
Qed.

Definition wtab : list (string * (string * prim)) :=
  [("write_byte", ("b", i8)); ("write_unsigned_byte", ("B", u8)); ("write_short", (">h", i16));
   ("write_unsigned_short", (">H", u16)); ("write_int", (">i", i32)); ("write_unsigned_int", (">I", u32));
   ("write_long", (">q", i64)); ("write_uint64", (">Q", u64)); ("write_float", (">f", f32)); ("write_double", (">d", f64))].

Definition watab : list (string * string) :=
  [("write_float32", "write_float"); ("write_float64", "write_double"); ("write_int8", "write_byte");
   ("write_int16", "write_short"); ("write_int32", "write_int"); ("write_int64", "write_long");
   ("write_uint8", "write_unsigned_byte"); ("write_uint16", "write_unsigned_short"); ("write_uint32", "write_unsigned_int")].

(** the wire type a write method writes *)
Definition wprim (w : string) : option prim :=
  match assoc w wtab with
  | Some (_, p) => Some p
  | None => match assoc w watab with
            | Some w' => match assoc w' wtab with Some (_, p) => Some p | None => None end
            | None => None
            end
  end.

Ltac tab H :=
  cbn [assoc] in H;
  repeat match type of H with
  | (if String.eqb ?w ?k then _ else _) = Some _ =>
      destruct (String.eqb_spec w k) as [->|_]; [injection H; clear H; intros; subst|]
  | None = Some _ => discriminate H
  end.

Lemma wtab_ok w f p : assoc w wtab = Some (f, p) ->
  assoc w (c_members c_DataOutputStream) = Some (MMeth (wr_meth f)) /\
  exists c, find_fcode (codes f) fcodes = Some c /\ fcode_prim c = Some p.
Proof.
  intros H. unfold wtab in H. tab H;
  (split; [reflexivity|]; eexists; split; reflexivity).
Qed.

Lemma watab_ok w w' : assoc w watab = Some w' -> assoc w (c_members c_DataOutputStream) = Some (MMeth (al_meth w')).
Proof. intros H. unfold watab in H. tab H; reflexivity. Qed.

Lemma wr_result p x s : (match enc_prim p x with inl l => (Ok VNone, add_out l s) | inr e => (Exc e, s) end : res val * st) =
  (match snd (enc_val p x) with None => Ok VNone | Some e => Exc e end, add_out (fst (enc_val p x)) s).
Proof. unfold enc_val. destruct (enc_prim p x); simpl; [reflexivity|]. now rewrite add_out_nil. Qed.

Theorem write_ok w p n v x s : wprim w = Some p -> scal v = Some x -> (2 <= n)%nat ->
  exists k, resolve P VOut w s = (Ok (KMeth k [VOut]), s) /\
    run P n k [VOut; v] [] s =
      (match snd (enc_val p x) with None => Ok VNone | Some e => Exc e end, add_out (fst (enc_val p x)) s).
Proof.
  intros Hw Hv Hn. destruct n as [|[|n]]; try lia. unfold wprim in Hw. unfold resolve.
  destruct (assoc w wtab) as [[f q]|] eqn:E.
  - injection Hw as ->. apply wtab_ok in E as (A & c & B & C). exists (wr_meth f).
    rewrite lookup_out, A. split; [reflexivity|]. rewrite (run_wr _ _ _ _ _ B), (pack_prim _ _ _ _ _ C Hv). apply wr_result.
  - destruct (assoc w watab) as [w'|] eqn:E2; [|discriminate].
    destruct (assoc w' wtab) as [[f q]|] eqn:E3; [|discriminate]. injection Hw as ->.
    apply watab_ok in E2. apply wtab_ok in E3 as (A & c & B & C). exists (al_meth w').
    rewrite lookup_out, E2. split; [reflexivity|]. apply run_al with (f := f).
    + now rewrite lookup_out.
    + rewrite (run_wr _ _ _ _ _ B), (pack_prim _ _ _ _ _ C Hv). apply wr_result.
    + simpl. destruct (snd _); congruence.
Qed.

(** ** Reads *)
Definition rd_expr (f : string) (w : Z) : expr :=
  Sub (Builtin BUnpack [Lit (LStr f); Meth (Attr (Loc "self") "stream") "read" [Lit (LInt w)] []]) (Lit (LInt 0)).
Definition rd_meth (f : string) (w : Z) : meth := mkmeth KNormal false [("self", None)] [Return (rd_expr f w)].

Definition rtab : list (string * (string * Z * prim)) :=
  [("read_byte", ("b", 1, i8)); ("read_unsigned_byte", ("B", 1, u8)); ("read_short", (">h", 2, i16));
   ("read_unsigned_short", (">H", 2, u16)); ("read_int", (">i", 4, i32)); ("read_unsigned_int", (">I", 4, u32));
   ("read_long", (">q", 8, i64)); ("read_float", (">f", 4, f32)); ("read_double", (">d", 8, f64))].

Definition ratab : list (string * (builtin * string)) :=
  [("read_float32", (BFloat, "read_float")); ("read_float64", (BFloat, "read_double")); ("read_int8", (BInt, "read_byte"));
   ("read_int16", (BInt, "read_short")); ("read_int32", (BInt, "read_int")); ("read_int64", (BInt, "read_long"));
   ("read_uint8", (BInt, "read_unsigned_byte")); ("read_uint16", (BInt, "read_unsigned_short"));
   ("read_uint32", (BInt, "read_unsigned_int")); ("read_uint64", (BInt, "read_long"))].

Definition kind_ok (b : builtin) (p : prim) : bool :=
  match b, p with BFloat, PF32 | BFloat, PF64 | BInt, PInt _ _ => true | _, _ => false end.

(** the wire type a read method reads *)
Definition rprim (r : string) : option prim :=
  match assoc r rtab with
  | Some (_, p) => Some p
  | None => match assoc r ratab with
            | Some (_, r') => match assoc r' rtab with Some (_, p) => Some p | None => None end
            | None => None
            end
  end.

Definition ra_meth (b : builtin) (r : string) : meth :=
  mkmeth KNormal false [("self", None)] [Return (Builtin b [Meth (Loc "self") r [] []])].

Lemma rtab_ok r f w p : assoc r rtab = Some (f, w, p) ->
  assoc r (c_members c_DataInputStream) = Some (MMeth (rd_meth f w)) /\
  exists c, find_fcode (codes f) fcodes = Some c /\ fcode_prim c = Some p /\ w = Z.of_nat (fwidth c) /\ fwidth c = width p.
Proof. intros H. unfold rtab in H. tab H; (split; [reflexivity|]; eexists; repeat split; reflexivity). Qed.

Lemma ratab_ok r b r' : assoc r ratab = Some (b, r') -> assoc r (c_members c_DataInputStream) = Some (MMeth (ra_meth b r')) /\
  forall fw p, assoc r' rtab = Some (fw, p) -> kind_ok b p = true.
Proof. intros H. unfold ratab in H. tab H; (split; [reflexivity|]; intros fw p E; vm_compute in E; injection E as _ <-; reflexivity). Qed.

Lemma run_rd n f w c p s : find_fcode (codes f) fcodes = Some c -> fcode_prim c = Some p -> w = Z.of_nat (fwidth c) -> fwidth c = width p ->
  run P (S n) (rd_meth f w) [VIn] [] s =
  match dec_val p (irest s) with
  | DOk x t => (Ok (vof x), set_in t s)
  | DErr e => (Exc e, set_in [] s)
  end.
Proof.
  intros Hf Hp Hw Hwp. pose proof (unpack_prim c p (irest s) Hp) as HU. subst w.
  unfold rd_meth, rd_expr. cbn. unfold bind. cbn. rewrite Hf.
  assert (Hneg : Z.of_nat (fwidth c) <? 0 = false) by (apply Z.ltb_ge; lia). rewrite Hneg, HU.
  destruct (dec_val p (irest s)) as [x t|e] eqn:E; cbn.
  - pose proof (dec_val_rest _ _ _ _ E) as ->. unfold set_in. repeat f_equal.
    unfold dec_val, read_prim in E. destruct (Nat.leb_spec (width p) (length (irest s))); [|discriminate].
    rewrite Z.min_l by lia. rewrite Nat2Z.id, Hwp. reflexivity.
  - unfold set_in. repeat f_equal.
    unfold dec_val, read_prim in E. destruct (Nat.leb_spec (width p) (length (irest s))); [discriminate|].
    unfold raise. repeat f_equal. rewrite Z.min_r, Nat2Z.id by lia. apply skipn_all.
Qed.

Theorem read_ok r p n s : rprim r = Some p -> (2 <= n)%nat ->
  exists k, resolve P VIn r s = (Ok (KMeth k [VIn]), s) /\
    run P n k [VIn] [] s =
      match dec_val p (irest s) with
      | DOk x t => (Ok (vof x), set_in t s)
      | DErr e => (Exc e, set_in [] s)
      end.
Proof.
  intros Hw Hn. destruct n as [|[|n]]; try lia. unfold rprim in Hw. unfold resolve.
  destruct (assoc r rtab) as [[[f w] q]|] eqn:E.
  - injection Hw as ->. apply rtab_ok in E as (A & c & B & C & D & F). exists (rd_meth f w).
    rewrite lookup_in_s, A. split; [reflexivity|]. now apply run_rd with (c := c).
  - destruct (assoc r ratab) as [[b r']|] eqn:E2; [|discriminate].
    destruct (assoc r' rtab) as [[[f w] q]|] eqn:E3; [|discriminate]. injection Hw as ->.
    apply ratab_ok in E2 as [E2 K]. specialize (K _ _ E3).
    apply rtab_ok in E3 as (A & c & B & C & D & F). exists (ra_meth b r').
    rewrite lookup_in_s, E2. split; [reflexivity|].
    pose proof (run_rd n f w c p s B C D F) as R. remember (S n) as k eqn:Ek; clear Ek.
    unfold ra_meth. cbn. unfold bind. cbn. rewrite lookup_in_s, A. cbn. rewrite R.
    destruct (dec_val p (irest s)) as [x t|e] eqn:Ed; [|reflexivity].
    apply dec_val_inv in Ed as (l & _ & _ & ->). destruct b, p; try discriminate K; reflexivity.
Qed.

(** ** Raw bytes *)
Lemma write_bytes_ok n b s : (1 <= n)%nat ->
  exists k, resolve P VOut "write_bytes" s = (Ok (KMeth k [VOut]), s) /\
    run P n k [VOut; VBytes b] [] s = (Ok VNone, add_out b s).
Proof.
  intros Hn. destruct n; [lia|]. eexists. unfold resolve. rewrite lookup_out. split; [reflexivity|]. reflexivity.
Qed.

Lemma read_bytes_ok n m s : (1 <= n)%nat ->
  exists k, resolve P VIn "read_bytes" s = (Ok (KMeth k [VIn]), s) /\
    run P n k [VIn; VInt (Z.of_nat m)] [] s = (Ok (VBytes (firstn m (irest s))), set_in (skipn m (irest s)) s).
Proof.
  intros Hn. destruct n; [lia|]. eexists. unfold resolve. rewrite lookup_in_s. split; [reflexivity|].
  cbn. unfold bind. cbn. assert (Hneg : Z.of_nat m <? 0 = false) by (apply Z.ltb_ge; lia). rewrite Hneg.
  unfold set_in. destruct (Nat.leb_spec m (length (irest s))).
  - rewrite Z.min_l, Nat2Z.id by lia. reflexivity.
  - rewrite Z.min_r, Nat2Z.id by lia. rewrite !firstn_all2, !skipn_all2 by lia. reflexivity.
Qed.

End Stream.
