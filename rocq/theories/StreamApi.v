(** * Calls of the stream methods, and the proofs behind [PropStream.v] *)
From Coq Require Import ZArith String List Bool Lia.
From Coq Require Import Strings.Byte.
From Verif Require Import Lang Bytes Interp Prog Spec Codec Codec2 Rep Dec StreamLem Refine Api.
Import ListNotations.
Open Scope string_scope. Open Scope Z_scope. Open Scope list_scope.

Lemma wr_prim w p n v x s : wprim w = Some p -> scal v = Some x -> (2 <= n)%nat ->
  wr n w v s = match enc_prim p x with inl l => (Ok VNone, appended s l) | inr e => (Exc e, s) end.
Proof.
  intros Hp Hv Hn. destruct (write_ok the_prog out_cls w p n v x s Hp Hv Hn) as (k & E1 & E2).
  unfold wr, call_method, bind. rewrite E1. unfold apply. cbn [app]. rewrite E2. symmetry. apply (wr_result p x s).
Qed.

Lemma rd_prim r p n s : rprim r = Some p -> (2 <= n)%nat ->
  rd n r s = match dec_val p (irest s) with DOk x t => (Ok (vof x), unread s t) | DErr e => (Exc e, unread s []) end.
Proof.
  intros Hp Hn. destruct (read_ok the_prog in_cls r p n s Hp Hn) as (k & E1 & E2).
  unfold rd, call_method, bind. rewrite E1. unfold apply. cbn [app]. exact E2.
Qed.

Definition pair_ok (p : string * string) : bool :=
  match assoc (fst p) int_writers, wprim (fst p), rprim (snd p) with
  | Some (k, sg), Some (PInt k1 sg1), Some (PInt k2 sg2) => Nat.eqb k k1 && Nat.eqb k k2 && Bool.eqb sg sg1 && Bool.eqb sg sg2 && (0 <? k)%nat
  | _, _, _ => false
  end.
Lemma pairs_ok : forallb pair_ok int_pairs = true. Proof. reflexivity. Qed.
Definition writer_ok (p : string * (nat * bool)) : bool :=
  match wprim (fst p) with Some (PInt k sg) => Nat.eqb k (fst (snd p)) && Bool.eqb sg (snd (snd p)) && (0 <? k)%nat | _ => false end.
Lemma writers_ok : forallb writer_ok int_writers = true. Proof. reflexivity. Qed.

Lemma writer_inv w k sg : In (w, (k, sg)) int_writers -> wprim w = Some (PInt k sg) /\ (0 < k)%nat.
Proof.
  intros H. pose proof writers_ok as E. rewrite forallb_forall in E. specialize (E _ H). unfold writer_ok in E. cbn [fst snd] in E.
  destruct (wprim w) as [[k' sg'| |]|]; try discriminate. apply andb_prop in E as [E E3]. apply andb_prop in E as [E1 E2].
  apply Nat.eqb_eq in E1. apply eqb_prop in E2. apply Nat.ltb_lt in E3. subst. auto.
Qed.

Lemma pair_inv w r : In (w, r) int_pairs -> forall k sg, assoc w int_writers = Some (k, sg) ->
  wprim w = Some (PInt k sg) /\ rprim r = Some (PInt k sg) /\ (0 < k)%nat.
Proof.
  intros H k sg Ha. pose proof pairs_ok as E. rewrite forallb_forall in E. specialize (E _ H). unfold pair_ok in E. cbn [fst snd] in E. rewrite Ha in E.
  destruct (wprim w) as [[k' sg'| |]|]; try discriminate. destruct (rprim r) as [[k2 sg2| |]|]; try discriminate.
  apply andb_prop in E as [E E5]. apply andb_prop in E as [E E4]. apply andb_prop in E as [E E3]. apply andb_prop in E as [E1 E2].
  apply Nat.eqb_eq in E1, E2. apply eqb_prop in E3, E4. apply Nat.ltb_lt in E5. subst. auto.
Qed.

Lemma in_range_lohi k sg z : in_range k sg z <-> (lo k sg <=? z) && (z <? hi k sg) = true.
Proof. unfold in_range, lo, hi. rewrite andb_true_iff, Z.leb_le, Z.ltb_lt. destruct sg; tauto. Qed.

(** the bytes an integer write appends *)
Lemma int_write n w k sg z s : (2 <= n)%nat -> In (w, (k, sg)) int_writers -> in_range k sg z -> wr n w (VInt z) s = (Ok VNone, appended s (be k z)).
Proof.
  intros Hn Hw Hz. apply writer_inv in Hw as [Hw _]. rewrite (wr_prim w _ n (VInt z) (WInt z) s Hw eq_refl Hn). cbn [enc_prim wint].
  apply in_range_lohi in Hz. now rewrite Hz.
Qed.

Lemma int_reject n w k sg z s : (2 <= n)%nat -> In (w, (k, sg)) int_writers -> ~ in_range k sg z -> wr n w (VInt z) s = (Exc StructError, s).
Proof.
  intros Hn Hw Hz. apply writer_inv in Hw as [Hw _]. rewrite (wr_prim w _ n (VInt z) (WInt z) s Hw eq_refl Hn). cbn [enc_prim wint].
  destruct (_ && _) eqn:E; [|reflexivity]. destruct Hz. now apply in_range_lohi.
Qed.

Lemma int_read n r k sg z bs rest s : (2 <= n)%nat -> rprim r = Some (PInt k sg) -> (0 < k)%nat -> length bs = k -> irest s = bs ++ rest ->
  z = (if sg then signed k (be_val bs) else be_val bs) -> rd n r s = (Ok (VInt z), unread s rest).
Proof. intros Hn Hr Hk Hl Hi ->. rewrite (rd_prim r _ n s Hr Hn), Hi, dec_val_app by exact Hl. reflexivity. Qed.

Lemma be_back k sg z : (0 < k)%nat -> in_range k sg z -> (if sg then signed k (be_val (be k z)) else be_val (be k z)) = z.
Proof.
  intros Hk Hz. apply in_range_lohi in Hz. assert (E : enc_val (PInt k sg) (WInt z) = (be k z, None)).
  { unfold enc_val. cbn [enc_prim wint]. now rewrite Hz. }
  pose proof (norm_int' k sg z _ Hk E) as N. pose proof (dec_enc_val _ _ _ [] E) as D. rewrite N in D. unfold dec_val, read_prim in D.
  rewrite app_nil_r in D. cbn [width] in D. rewrite be_length, Nat.leb_refl in D. rewrite firstn_all2 in D by (rewrite be_length; lia).
  cbn [dec_prim] in D. congruence.
Qed.

Lemma be_digit k z i : (i < k)%nat -> b2z (nth i (be k z) x00) = (z / 256 ^ Z.of_nat (k - 1 - i)) mod 256.
Proof.
  revert i. induction k as [|k IH]; intros i Hi; [lia|]. destruct i as [|i]; cbn [be nth].
  - rewrite b2z_z2b. do 3 f_equal. lia.
  - rewrite IH by lia. do 3 f_equal. lia.
Qed.

(** ** Characters, booleans, byte strings *)
Local Arguments find_fcode : simpl never.
Local Arguments pack : simpl never.
Local Arguments unpack : simpl never.
Local Arguments codes : simpl never.
Local Arguments raw_read : simpl never.
Local Arguments enc_prim : simpl never.

Lemma raw_read_nat k s : raw_read (Z.of_nat k) s = (Ok (VBytes (firstn k (irest s))), unread s (skipn k (irest s))).
Proof.
  unfold raw_read, unread. assert (E : Z.of_nat k <? 0 = false) by (apply Z.ltb_ge; lia). rewrite E. destruct (Nat.leb_spec k (length (irest s))).
  - rewrite Z.min_l, Nat2Z.id by lia. reflexivity.
  - rewrite Z.min_r, Nat2Z.id by lia. rewrite !firstn_all2, !skipn_all2 by lia. reflexivity.
Qed.

Lemma unpack_short c bs : (length bs < fwidth c)%nat -> unpack c bs = inr StructError.
Proof. intros H. unfold unpack. destruct (Nat.eqb_spec (length bs) (fwidth c)); [lia|reflexivity]. Qed.

Lemma rd_boolean n s : (1 <= n)%nat -> rd n "read_boolean" s =
  if (length (irest s) <? 1)%nat then (Exc StructError, unread s []) else (Ok (VBool (Z.odd (be_val (firstn 1 (irest s))))), unread s (skipn 1 (irest s))).
Proof.
  intros Hn. destruct n as [|n]; [lia|]. unfold rd, call_method, bind. unfold resolve. rewrite (lookup_in_s the_prog in_cls). cbn. unfold bind. cbn.
  rewrite (raw_read_nat 1). change (find_fcode (codes "?") fcodes) with (Some F_bool).
  destruct (irest s) as [|b r]; cbn [firstn skipn length Nat.ltb Nat.leb]; reflexivity.
Qed.

Lemma f_H : find_fcode (codes ">H") fcodes = Some F_H. Proof. reflexivity. Qed.
Lemma u_H b c : unpack F_H [b; c] = inl (VInt (be_val [b; c])). Proof. reflexivity. Qed.

Lemma nth0 v s : nth_val [v] 0 s = (Ok v, s). Proof. reflexivity. Qed.

Lemma rd_char n s : (1 <= n)%nat -> rd n "read_char" s =
  if (length (irest s) <? 2)%nat then (Exc StructError, unread s []) else (Ok (VStr [be_val (firstn 2 (irest s))]), unread s (skipn 2 (irest s))).
Proof.
  intros Hn. destruct n as [|n]; [lia|]. unfold rd, call_method, bind. unfold resolve. rewrite (lookup_in_s the_prog in_cls). cbn. unfold bind. cbn.
  rewrite (raw_read_nat 2). cbn -[firstn skipn]. rewrite f_H.
  destruct (irest s) as [|b [|c r]]; [reflexivity|reflexivity|]. cbn [firstn skipn length Nat.ltb Nat.leb].
  pose proof (be_val_range [b; c]) as R. change (256 ^ Z.of_nat (length [b; c])) with 65536 in R. rewrite u_H. remember (be_val [b; c]) as z eqn:Ez. clear Ez.
  cbn -[Z.leb Z.ltb nth_val]. rewrite nth0. cbn -[Z.leb Z.ltb nth_val]. assert (E : (0 <=? z) && (z <? 1114112) = true) by (apply andb_true_intro; split; [apply Z.leb_le|apply Z.ltb_lt]; lia). rewrite E. reflexivity.
Qed.

Lemma rd_char8 n s : (2 <= n)%nat -> rd n "read_char8" s = rd n "read_char" s.
Proof.
  intros Hn. rewrite (rd_char n s) by lia. destruct n as [|n]; [lia|]. unfold rd, call_method, bind. unfold resolve at 1. rewrite (lookup_in_s the_prog in_cls). cbn. unfold bind. cbn.
  pose proof (rd_char n s ltac:(lia)) as R. unfold rd, call_method, bind, resolve in R. rewrite (lookup_in_s the_prog in_cls) in R. cbn -[run] in R. rewrite R.
  destruct (length (irest s) <=? 1)%nat; reflexivity.
Qed.

Lemma wr_char n c s : (1 <= n)%nat -> wr n "write_char" (VStr [c]) s =
  match enc_prim u16 (WInt c) with inl l => (Ok VNone, appended s l) | inr e => (Exc e, s) end.
Proof.
  intros Hn. destruct n as [|n]; [lia|]. unfold wr, call_method, bind. unfold resolve. rewrite (lookup_out the_prog out_cls). cbn. unfold bind. cbn. rewrite f_H.
  change (pack (heap s) F_H (VInt c)) with (enc_prim u16 (WInt c)). destruct (enc_prim u16 (WInt c)); reflexivity.
Qed.

Lemma wr_char8 n c s : (2 <= n)%nat -> wr n "write_char8" (VStr [c]) s = wr n "write_byte" (VInt c) s.
Proof.
  intros Hn. rewrite (wr_prim "write_byte" i8 n (VInt c) (WInt c) s eq_refl eq_refl Hn). destruct n as [|[|n]]; try lia.
  unfold wr, call_method, bind. unfold resolve at 1. rewrite (lookup_out the_prog out_cls). cbn. unfold bind. cbn.
  rewrite ?(lookup_out the_prog out_cls). cbn. unfold bind. cbn.
  assert (F : find_fcode (codes "b") fcodes = Some F_b) by reflexivity. rewrite F. assert (E : pack (heap s) F_b (VInt c) = enc_prim i8 (WInt c)) by reflexivity. rewrite E. destruct (enc_prim i8 (WInt c)); reflexivity.
Qed.

Lemma wr_utf n l s : (1 <= n)%nat -> wr n "write_utf" (VBytes l) s =
  if Z.of_nat (length l) <? 65536 then (Ok VNone, appended s (be 2 (Z.of_nat (length l)) ++ l)) else (Exc StructError, s).
Proof.
  intros Hn. destruct n as [|n]; [lia|]. unfold wr, call_method, bind. unfold resolve. rewrite (lookup_out the_prog out_cls). cbn -[Z.ltb be]. unfold bind. cbn -[Z.ltb be].
  rewrite f_H. change (pack (heap s) F_H (VInt (Z.of_nat (length l)))) with (enc_prim u16 (WInt (Z.of_nat (length l)))).
  unfold enc_prim, u16. cbn [wint]. change (lo 2 false) with 0. change (hi 2 false) with 65536.
  assert (E : 0 <=? Z.of_nat (length l) = true) by (apply Z.leb_le; lia). rewrite E. cbn [andb].
  destruct (Z.of_nat (length l) <? 65536); [|reflexivity]. cbn -[be]. unfold appended, bind, raw_write. cbn -[be]. now rewrite <- app_assoc.
Qed.

Lemma rd_utf n s : (1 <= n)%nat -> rd n "read_utf" s =
  if (length (irest s) <? 2)%nat then (Exc StructError, unread s [])
  else let k := Z.to_nat (be_val (firstn 2 (irest s))) in (Ok (VBytes (firstn k (skipn 2 (irest s)))), unread s (skipn k (skipn 2 (irest s)))).
Proof.
  intros Hn. destruct n as [|n]; [lia|]. unfold rd, call_method, bind. unfold resolve. rewrite (lookup_in_s the_prog in_cls). cbn. unfold bind. cbn.
  rewrite (raw_read_nat 2). cbn -[firstn skipn]. rewrite f_H.
  destruct (irest s) as [|b [|c r]]; [reflexivity|reflexivity|]. cbn [firstn skipn length Nat.ltb Nat.leb]. rewrite u_H.
  pose proof (be_val_range [b; c]) as R. remember (be_val [b; c]) as z eqn:Ez. clear Ez.
  cbn. unfold bind. cbn. unfold bind. cbn. replace z with (Z.of_nat (Z.to_nat z)) at 1 by lia. rewrite raw_read_nat. reflexivity.
Qed.

(** ** Every fixed-width read *)
Definition reader_ok (p : string * nat) : bool :=
  match rprim (fst p) with Some q => Nat.eqb (width q) (snd p) | None => mem (fst p) ["read_boolean"; "read_char"; "read_char8"] end.
Lemma readers_ok : forallb reader_ok readers = true. Proof. reflexivity. Qed.

Lemma fixed_reads r k : In (r, k) readers -> exists value : list byte -> val, forall n s, (2 <= n)%nat ->
  rd n r s = if (length (irest s) <? k)%nat then (Exc StructError, unread s []) else (Ok (value (firstn k (irest s))), unread s (skipn k (irest s))).
Proof.
  intros H. pose proof readers_ok as E. rewrite forallb_forall in E. specialize (E _ H). unfold reader_ok in E. cbn [fst snd] in E.
  destruct (rprim r) as [p|] eqn:Er.
  - apply Nat.eqb_eq in E. subst k. exists (fun l => vof (dec_prim p l)). intros n s Hn. rewrite (rd_prim r p n s Er Hn). unfold dec_val, read_prim.
    destruct (Nat.leb_spec (width p) (length (irest s))); destruct (Nat.ltb_spec (length (irest s)) (width p)); try lia; reflexivity.
  - apply mem_In in E. destruct E as [<-|[<-|[<-|[]]]]; cbn in H;
      repeat (destruct H as [H|H]; [try discriminate; injection H as <-|]); try destruct H.
    + exists (fun l => VBool (Z.odd (be_val l))). intros n s Hn. apply rd_boolean. lia.
    + exists (fun l => VStr [be_val l]). intros n s Hn. apply rd_char. lia.
    + exists (fun l => VStr [be_val l]). intros n s Hn. rewrite rd_char8 by exact Hn. apply rd_char. lia.
Qed.
