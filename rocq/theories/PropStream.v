(** * Properties C01-C06, C08, C09: the stream primitives (opendis/stream.py)

    [wr n w v s] is outputStream.w(v) and [rd n r s] is inputStream.r(), in state s: see [Api.v]. *)
From Coq Require Import ZArith String List Bool Lia.
From Coq Require Import Strings.Byte.
From Verif Require Import Lang Bytes Interp Prog Spec Codec Codec2 Rep Dec StreamLem Refine Api StreamApi.
Import ListNotations.
Open Scope string_scope. Open Scope Z_scope. Open Scope list_scope.

(** ** C01 *)
Theorem C01_int_round_trip n w r k sg z s : (2 <= n)%nat -> In (w, r) int_pairs -> assoc w int_writers = Some (k, sg) -> in_range k sg z ->
  exists bs, length bs = k /\ wr n w (VInt z) s = (Ok VNone, appended s bs) /\
    forall s' rest, irest s' = bs ++ rest -> rd n r s' = (Ok (VInt z), unread s' rest).
Proof.
  intros Hn Hp Ha Hz. destruct (pair_inv w r Hp k sg Ha) as (Hw & Hr & Hk). exists (be k z). split; [apply be_length|]. split.
  - apply int_write with (sg := sg); auto. apply SerSound.assoc_In in Ha. exact Ha.
  - intros s' rest E. apply int_read with (k := k) (sg := sg) (bs := be k z); auto; [apply be_length|]. now rewrite be_back.
Qed.

Example C01_case : In ("write_int", "read_int") int_pairs /\ assoc "write_int" int_writers = Some (4%nat, true) /\ in_range 4 true (-1000000).
Proof. cbn; repeat split; try lia; auto 20. Qed.
Example C01_run : rd 5 "read_int" (mkst [] [xff; xf0; xbd; xc0; x07] [] []) = (Ok (VInt (-1000000)), mkst [] [x07] [] []).
Proof. vm_compute. reflexivity. Qed.

(** ** C02 *)
(** byte i of the k bytes is the i-th base-256 digit, most significant first; / rounds down, so a negative number
    gives the digits of its two's complement *)
Theorem C02_big_endian n w k sg z s : (2 <= n)%nat -> In (w, (k, sg)) int_writers -> in_range k sg z ->
  exists bs, wr n w (VInt z) s = (Ok VNone, appended s bs) /\ length bs = k /\
    forall i, (i < k)%nat -> b2z (nth i bs x00) = (z / 256 ^ Z.of_nat (k - 1 - i)) mod 256.
Proof.
  intros Hn Hw Hz. exists (be k z). split; [now apply int_write with (sg := sg)|]. split; [apply be_length|]. intros. now apply be_digit.
Qed.

Example C02_run : wr 5 "write_short" (VInt (-2)) (mkst [] [] [] [x01]) = (Ok VNone, mkst [] [] [] [x01; xff; xfe]).
Proof. vm_compute. reflexivity. Qed.

(** ** C03 *)
Theorem C03_out_of_range n w k sg z s : (2 <= n)%nat -> In (w, (k, sg)) int_writers -> ~ in_range k sg z -> wr n w (VInt z) s = (Exc StructError, s).
Proof. exact (int_reject n w k sg z s). Qed.

Example C03_case : In ("write_unsigned_byte", (1%nat, false)) int_writers /\ ~ in_range 1 false 256 /\ ~ in_range 1 false (-1).
Proof. cbn; repeat split; try lia; auto 20. Qed.
Example C03_run : wr 5 "write_unsigned_byte" (VInt 256) (mkst [] [] [] [x01]) = (Exc StructError, mkst [] [] [] [x01]).
Proof. vm_compute. reflexivity. Qed.

(** ** C04 *)
(** The full property, as a user expects it. *)
Definition C04_uint64_inverse : Prop := forall n z s, (2 <= n)%nat -> 0 <= z < 2 ^ 64 ->
  exists bs, wr n "write_uint64" (VInt z) s = (Ok VNone, appended s bs) /\
    forall s' rest, irest s' = bs ++ rest -> rd n "read_uint64" s' = (Ok (VInt z), unread s' rest).

(** What the code does: values from 2^63 on come back negative. *)
Theorem C04_uint64_exact n z s : (2 <= n)%nat -> 0 <= z < 2 ^ 64 ->
  exists bs, length bs = 8%nat /\ wr n "write_uint64" (VInt z) s = (Ok VNone, appended s bs) /\
    forall s' rest, irest s' = bs ++ rest -> rd n "read_uint64" s' = (Ok (VInt (if z <? 2 ^ 63 then z else z - 2 ^ 64)), unread s' rest).
Proof.
  intros Hn Hz. exists (be 8 z). split; [apply be_length|]. split.
  - apply int_write with (k := 8%nat) (sg := false); auto. cbn; auto 20.
  - intros s' rest E. apply int_read with (k := 8%nat) (sg := true) (bs := be 8 z); try lia; try reflexivity; [exact E|].
    rewrite be_val_be. unfold signed. change (256 ^ Z.of_nat 8) with (2 ^ 64). rewrite Z.mod_small by lia. reflexivity.
Qed.

Theorem C04_uint64_inverse_partial n z s : (2 <= n)%nat -> 0 <= z < 2 ^ 63 ->
  exists bs, wr n "write_uint64" (VInt z) s = (Ok VNone, appended s bs) /\
    forall s' rest, irest s' = bs ++ rest -> rd n "read_uint64" s' = (Ok (VInt z), unread s' rest).
Proof.
  intros Hn Hz. destruct (C04_uint64_exact n z s Hn ltac:(lia)) as (bs & _ & A & B). exists bs. split; [exact A|].
  intros s' rest E. rewrite (B s' rest E). assert (E1 : z <? 2 ^ 63 = true) by (apply Z.ltb_lt; lia). now rewrite E1.
Qed.

Theorem C04_uint64_inverse_refuted : ~ C04_uint64_inverse.
Proof.
  intros H. destruct (H 2%nat (2 ^ 63) (mkst [] [] [] []) ltac:(lia) ltac:(lia)) as (bs & A & B).
  vm_compute in A. injection A as <-. specialize (B (mkst [] [x80; x00; x00; x00; x00; x00; x00; x00] [] []) [] eq_refl). vm_compute in B. discriminate.
Qed.

(** ** C05 *)
Theorem C05_char_round_trip n c s : (2 <= n)%nat -> 0 <= c < 65536 ->
  exists bs, wr n "write_char" (VStr [c]) s = (Ok VNone, appended s bs) /\
    forall s' rest, irest s' = bs ++ rest -> rd n "read_char" s' = (Ok (VStr [c]), unread s' rest).
Proof.
  intros Hn Hc. exists (be 2 c). split.
  - rewrite wr_char by lia. unfold enc_prim, u16. cbn [wint]. change (lo 2 false) with 0. change (hi 2 false) with 65536.
    assert (E : (0 <=? c) && (c <? 65536) = true) by (apply andb_true_intro; split; [apply Z.leb_le|apply Z.ltb_lt]; lia). now rewrite E.
  - intros s' rest E. rewrite rd_char by lia. rewrite E, app_length, be_length.
    destruct (Nat.ltb_spec (2 + length rest) 2); [lia|].
    assert (F : firstn 2 (be 2 c ++ rest) = be 2 c) by reflexivity. assert (K : skipn 2 (be 2 c ++ rest) = rest) by reflexivity.
    rewrite F, K, be_val_be. change (256 ^ Z.of_nat 2) with 65536. now rewrite Z.mod_small by lia.
Qed.

(** a character outside the basic multilingual plane is rejected *)
Theorem C05_char_too_large n c s : (2 <= n)%nat -> 65536 <= c -> wr n "write_char" (VStr [c]) s = (Exc StructError, s).
Proof.
  intros Hn Hc. rewrite wr_char by lia. unfold enc_prim, u16. cbn [wint]. change (lo 2 false) with 0. change (hi 2 false) with 65536.
  assert (E : c <? 65536 = false) by (apply Z.ltb_ge; lia). now rewrite E, andb_false_r.
Qed.

Definition C05_char8_inverse : Prop := forall n c s, (2 <= n)%nat -> 0 <= c < 128 ->
  exists bs, wr n "write_char8" (VStr [c]) s = (Ok VNone, appended s bs) /\
    forall s' rest, irest s' = bs ++ rest -> rd n "read_char8" s' = (Ok (VStr [c]), unread s' rest).

(** What the code does: one byte is written; reading takes two, so reading it back alone always fails, and followed by
    another byte b the character read is 256 c + b. *)
Theorem C05_char8_exact n c s : (2 <= n)%nat -> 0 <= c < 128 ->
  exists b, b2z b = c /\ wr n "write_char8" (VStr [c]) s = (Ok VNone, appended s [b]) /\
    (forall s', irest s' = [b] -> rd n "read_char8" s' = (Exc StructError, unread s' [])) /\
    (forall s' b' rest, irest s' = b :: b' :: rest -> rd n "read_char8" s' = (Ok (VStr [c * 256 + b2z b']), unread s' rest)).
Proof.
  intros Hn Hc. exists (z2b c). assert (Eb : b2z (z2b c) = c) by (rewrite b2z_z2b, Z.mod_small; lia). split; [exact Eb|]. split; [|split].
  - rewrite wr_char8 by exact Hn. rewrite (int_write n "write_byte" 1 true c s Hn); [|cbn; auto|unfold in_range; cbn; lia].
    cbn [be]. now rewrite Z.div_1_r.
  - intros s' E. rewrite rd_char8, rd_char, E by lia. reflexivity.
  - intros s' b' rest E. rewrite rd_char8, rd_char, E by lia. cbn [length Nat.ltb Nat.leb firstn skipn be_val]. rewrite Eb.
    change (256 ^ Z.of_nat 1) with 256. change (256 ^ Z.of_nat 0) with 1. do 4 f_equal. lia.
Qed.

Theorem C05_char8_inverse_refuted : ~ C05_char8_inverse.
Proof.
  intros H. destruct (H 2%nat 65 (mkst [] [] [] []) ltac:(lia) ltac:(lia)) as (bs & A & B).
  vm_compute in A. injection A as <-. specialize (B (mkst [] [x41] [] []) [] eq_refl). vm_compute in B. discriminate.
Qed.

(** ** C06 *)
Definition double_pairs : list (string * string) := [("write_double", "read_double"); ("write_float64", "read_float64")].
Definition single_pairs : list (string * string) := [("write_float", "read_float"); ("write_float32", "read_float32")].

(** d is any 64-bit pattern: a Python float is a double *)
Theorem C06_float64 n w r d s : (2 <= n)%nat -> In (w, r) double_pairs -> 0 <= d < 2 ^ 64 ->
  exists bs, length bs = 8%nat /\ wr n w (VFloat d) s = (Ok VNone, appended s bs) /\
    forall s' rest, irest s' = bs ++ rest -> rd n r s' = (Ok (VFloat d), unread s' rest).
Proof.
  intros Hn Hp Hd. exists (be 8 d). split; [apply be_length|].
  assert (wprim w = Some PF64 /\ rprim r = Some PF64) as [Hw Hr] by (destruct Hp as [[= <- <-]|[[= <- <-]|[]]]; split; reflexivity). split.
  - now rewrite (wr_prim w _ n (VFloat d) (WFloat d) s Hw eq_refl Hn).
  - intros s' rest E. rewrite (rd_prim r _ n s' Hr Hn), E, dec_val_app by apply be_length. cbn [dec_prim vof]. rewrite be_val_be.
    change (256 ^ Z.of_nat 8) with (2 ^ 64). now rewrite Z.mod_small by lia.
Qed.

(** c is a single-precision pattern other than a signalling NaN; widen c is the double equal to it ([PropFloat.v]) *)
Definition signalling (c : Z) : Prop := (c / 2 ^ 23) mod 2 ^ 8 = 255 /\ 0 < c mod 2 ^ 23 < 2 ^ 22.

Theorem C06_float32 n w r c s : (2 <= n)%nat -> In (w, r) single_pairs -> 0 <= c < 2 ^ 32 -> ~ signalling c ->
  exists bs, length bs = 4%nat /\ bs = be 4 c /\ wr n w (VFloat (widen c)) s = (Ok VNone, appended s bs) /\
    forall s' rest, irest s' = bs ++ rest -> rd n r s' = (Ok (VFloat (widen c)), unread s' rest).
Proof.
  intros Hn Hp Hc Hs. exists (be 4 c). split; [apply be_length|]. split; [reflexivity|].
  assert (wprim w = Some PF32 /\ rprim r = Some PF32) as [Hw Hr] by (destruct Hp as [[= <- <-]|[[= <- <-]|[]]]; split; reflexivity).
  assert (Q : quiet32 c = c).
  { unfold quiet32, is_nan32. destruct (_ =? 255) eqn:E1; [|reflexivity]. destruct (c mod 2 ^ 23 =? 0) eqn:E2; [reflexivity|]. cbn [negb andb].
    apply Z.eqb_eq in E1. apply Z.eqb_neq in E2. pose proof (Z.mod_pos_bound c (2 ^ 23) ltac:(lia)) as B.
    destruct (Z.ltb_spec (c mod 2 ^ 23) (2 ^ 22)) as [L|L]; [destruct Hs; split; [exact E1|lia]|].
    assert (M : c mod 2 ^ 22 = c mod 2 ^ 23 - 2 ^ 22).
    { pose proof (Z.div_mod c (2 ^ 23) ltac:(lia)) as D. symmetry. apply Z.mod_unique with (q := 2 * (c / 2 ^ 23) + 1); lia. }
    pose proof (Z.div_mod c (2 ^ 23) ltac:(lia)) as D. lia. }
  split.
  - rewrite (wr_prim w _ n (VFloat (widen c)) (WFloat (widen c)) s Hw eq_refl Hn). cbn [enc_prim]. rewrite narrow_widen by exact Hc. now rewrite Q.
  - intros s' rest E. rewrite (rd_prim r _ n s' Hr Hn), E, dec_val_app by apply be_length. cbn [dec_prim vof]. rewrite be_val_be.
    change (256 ^ Z.of_nat 4) with (2 ^ 32). now rewrite Z.mod_small by lia.
Qed.

Example C06_case : In ("write_float32", "read_float32") single_pairs /\ 0 <= 1069547520 < 2 ^ 32 /\ ~ signalling 1069547520.   (* 1.5 *)
Proof. repeat split; try (cbn; auto; lia). intros [H _]. vm_compute in H. discriminate. Qed.

(** ** C08 *)
Theorem C08_utf_round_trip n l s : (1 <= n)%nat -> Z.of_nat (length l) <= 65535 ->
  exists bs, wr n "write_utf" (VBytes l) s = (Ok VNone, appended s bs) /\
    forall s' rest, irest s' = bs ++ rest -> rd n "read_utf" s' = (Ok (VBytes l), unread s' rest).
Proof.
  intros Hn Hl. exists (be 2 (Z.of_nat (length l)) ++ l). split.
  - rewrite wr_utf by exact Hn. assert (E : Z.of_nat (length l) <? 65536 = true) by (apply Z.ltb_lt; lia). now rewrite E.
  - intros s' rest E. rewrite rd_utf by exact Hn. rewrite E, !app_length, be_length. destruct (Nat.ltb_spec (2 + length l + length rest) 2); [lia|].
    rewrite <- app_assoc. remember (Z.of_nat (length l)) as z eqn:Ez.
    assert (F : firstn 2 (be 2 z ++ l ++ rest) = be 2 z) by reflexivity. assert (K : skipn 2 (be 2 z ++ l ++ rest) = l ++ rest) by reflexivity.
    rewrite F, K, be_val_be. change (256 ^ Z.of_nat 2) with 65536. rewrite Z.mod_small by lia. cbv zeta. subst z. rewrite Nat2Z.id.
    rewrite firstn_app, Nat.sub_diag, firstn_all, firstn_O, app_nil_r, skipn_app, Nat.sub_diag, skipn_all. reflexivity.
Qed.

Theorem C08_utf_too_long n l s : (1 <= n)%nat -> 65535 < Z.of_nat (length l) -> wr n "write_utf" (VBytes l) s = (Exc StructError, s).
Proof. intros Hn Hl. rewrite wr_utf by exact Hn. assert (E : Z.of_nat (length l) <? 65536 = false) by (apply Z.ltb_ge; lia). now rewrite E. Qed.

Example C08_run : wr 5 "write_utf" (VBytes [x41; x42]) (mkst [] [] [] []) = (Ok VNone, mkst [] [] [] [x00; x02; x41; x42]).
Proof. vm_compute. reflexivity. Qed.
(** unlike the fixed-width reads (C09), read_utf silently returns fewer bytes than announced *)
Example C08_short : rd 5 "read_utf" (mkst [] [x00; x09; x41; x42] [] []) = (Ok (VBytes [x41; x42]), mkst [] [] [] []).
Proof. vm_compute. reflexivity. Qed.

(** ** C09 *)
(** [value] does not depend on the state: the value read is a function of the k bytes consumed *)
Theorem C09_fixed_reads r k : In (r, k) readers -> exists value : list byte -> val, forall n s, (2 <= n)%nat ->
  rd n r s = if (length (irest s) <? k)%nat then (Exc StructError, unread s [])
             else (Ok (value (firstn k (irest s))), unread s (skipn k (irest s))).
Proof. exact (fixed_reads r k). Qed.

Example C09_run : rd 5 "read_unsigned_int" (mkst [] [x00; x00; x01] [] []) = (Exc StructError, mkst [] [] [] []).
Proof. vm_compute. reflexivity. Qed.
(** the list of readers is complete: every other method of DataInputStream is __init__, read_utf or read_bytes *)
Example C09_complete : forallb (fun m => mem m (map fst readers) || mem m ["__init__"; "read_utf"; "read_bytes"]) (map fst (c_members ProgBase.c_DataInputStream)) = true.
Proof. vm_compute. reflexivity. Qed.

Definition all_PropStream :=
  (C01_int_round_trip,
   C02_big_endian,
   C03_out_of_range,
   C04_uint64_exact,
   C04_uint64_inverse_partial,
   C04_uint64_inverse_refuted,
   C05_char_round_trip,
   C05_char_too_large,
   C05_char8_exact,
   C05_char8_inverse_refuted,
   C06_float64,
   C06_float32,
   C08_utf_round_trip,
   C08_utf_too_long,
   C09_fixed_reads).
Print Assumptions all_PropStream.
