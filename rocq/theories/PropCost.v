(** * C86: the work and memory of decoding are linear in the length of the datagram

    Property: whatever counts and lengths a datagram announces, and whether decoding succeeds or ends with an exception, the number of
    steps that createPdu (or a record's parse) takes, and so the number of objects, attributes and list entries it creates, is at most a constant times
    one plus the number of bytes of the datagram (for parse: of the bytes it read).  The constant depends on the code and the bound on nested
    calls, not on the datagram nor on what is already in memory.

    Specification: [createPduT]/[call_methodT] (Cost.v) are the interpreter with a counter of the expressions evaluated, statements executed and loop rounds begun
    (and bytes read, objects, attributes and entries created); [hsize] counts the objects, attributes and entries in memory.
    A range is not a list: as in Python, range(n) takes no time; arithmetic on integers counts as one step whatever their size. *)
From Coq Require Import ZArith String List Bool Lia.
From Coq Require Import Strings.Byte.
From Verif Require Import Lang Ind Bytes Interp Inv Cost CostCheck CostLin ProgBase ProgDis Prog.
Import ListNotations.
Open Scope string_scope. Open Scope list_scope. Open Scope nat_scope.

(** the readers of DataInputStream that always read a fixed number of bytes (opendis/stream.py:27-105) *)
Definition readers : list string := map (append "read_")
  ["boolean"; "byte"; "unsigned_byte"; "char"; "double"; "float"; "short"; "unsigned_short"; "long"; "int"; "unsigned_int"; "char8"; "float32"; "float64";
   "int8"; "int16"; "int32"; "int64"; "uint8"; "uint16"; "uint32"; "uint64"].
(** the other methods that decoding calls *)
Definition called : list string := readers ++ ["parse"; "read_bytes"; "is_positive_int"; "datumPaddingSizeInBits"; "append"; "read"].
(** properties that go through the lists of a record to compute lengths; decoding does not read them *)
Definition lengths : list string := ["recordLength"; "antennaPatternLength"; "modulationParametersLength"; "dataLength"].

Lemma the_check : ok_prog the_prog called lengths readers 4 4 = true.
Proof. vm_compute. reflexivity. Qed.

Section Consequences.
Variable n : nat.
Let K := KK the_prog n.

Lemma called_in m : In m ["parse"; "read_byte"] -> memb m called = true.
Proof. intros [<-|[<-|[]]]; reflexivity. Qed.

Lemma call_lin v m args s : In m ["parse"; "read_byte"] ->
  bd (K + 7) 0 (fun _ _ => True) (call_methodT the_prog n v m args) s.
Proof.
  intros Hm. unfold call_methodT. destruct (bd_run _ _ _ _ _ _ the_check n) as (H0 & H1). fold K in H0, H1.
  eapply bd_seq with (k1 := 1) (u1 := 0) (k2 := K + 5) (u2 := 0); [eapply bd_resolve| |lia|lia].
  intros c s' _ (-> & Hc) _. eapply bd_weak; [eapply (bd_apply _ _ _ _ _ _ the_check _ _ H0)|lia|lia|auto].
  pose proof (called_in _ Hm) as M. destruct c; simpl; auto; try contradiction.
  - destruct Hc as (_ & (cs & L) & _). destruct (named _ _ _ _ _ _ the_check _ _ _ L M). eapply callok_any; eauto.
  - destruct Hc as (-> & -> & _ & _ & B & _). split; [exact M|]. intros l ->. rewrite (B (ex_intro _ l eq_refl)) in Hm. destruct Hm as [Hm|[Hm|[]]]; discriminate.
Qed.
Lemma new_lin c s : bd (K + 5) 0 (fun _ _ => True) (newT the_prog n c []) s.
Proof.
  unfold newT. destruct (bd_run _ _ _ _ _ _ the_check n) as (H0 & H1). fold K in H0, H1.
  eapply bd_weak; [eapply (bd_apply _ _ _ _ _ _ the_check _ _ H0)|lia|lia|auto]. split; [simpl; lia|]. intros m v L. apply (inits _ _ _ _ _ _ the_check _ _ _ L). reflexivity.
Qed.
End Consequences.

(** the bytes that a run from [s] to [s'] reads *)
Definition bytes_read (s s' : st) : nat := length (irest s) - length (irest s').

(** a record of any class (any object, in fact), in any state, parsed from any stream *)
Theorem C86_parse n : exists K, forall v args s,
  match call_methodT the_prog n v "parse" args s with
  | (steps, (r, s')) =>
      call_method the_prog n v "parse" args s = (r, s') /\
      steps <= K * (1 + bytes_read s s') /\ hsize (heap s') <= hsize (heap s) + K * (1 + bytes_read s s')
  end.
Proof.
  exists (KK the_prog n + 7). intros v args s. pose proof (call_lin n v "parse" args s (or_introl eq_refl)) as H.
  assert (E : snd (call_methodT the_prog n v "parse" args s) = call_method the_prog n v "parse" args s).
  { apply er_bind; [apply er_prim|intros c]. apply er_apply. apply run_erase. }
  unfold bd in H. destruct (call_methodT the_prog n v "parse" args s) as [t [r s']]. simpl in E. destruct H as (_ & H1 & H2 & _). unfold rl in *. unfold bytes_read.
  split; [now rewrite E|]. split; lia.
Qed.

(** work within a datagram that may be read again from any position *)
Definition cap {A} (data : list byte) (k : nat) (m : MT A) (s : st) : Prop :=
  ifull s = data -> length (irest s) <= length data ->
  match m s with
  | (t, (_, s')) => ifull s' = data /\ length (irest s') <= length data /\ t <= k * (1 + length data) /\ hsize (heap s') <= hsize (heap s) + t
  end.
Lemma cap_bind {A B} data k1 k2 (m : MT A) (f : A -> MT B) s : cap data k1 m s -> (forall a s', cap data k2 (f a) s') -> cap data (k1 + k2) (bindT m f) s.
Proof.
  intros H F I L. specialize (H I L). unfold bindT. destruct (m s) as [t [[a|e] s1]]; destruct H as (H1 & H2 & H3 & H4).
  - specialize (F a s1 H1 H2). destruct (f a s1) as [t2 [r s2]]. destruct F as (F1 & F2 & F3 & F4). repeat split; auto; [nia|lia].
  - repeat split; auto. nia.
Qed.
Lemma cap_bd {A} data k u ok (m : MT A) s : bd k u ok m s -> cap data k m s.
Proof.
  unfold bd. intros H I L. destruct (m s) as [t [r s']]. destruct H as (E & H1 & H2 & _). pose proof (evolves_rl _ _ E) as R. unfold rl in *. destruct E as (E & _).
  repeat split; [congruence|lia| |exact H2]. etransitivity; [exact H1|]. apply Nat.mul_le_mono_l. lia.
Qed.
Lemma cap_seek data j s : cap data 1 (prim (raw_seek j)) s.
Proof.
  intros I L. unfold prim, raw_seek. cbn [heap irest ifull out]. rewrite I. repeat split; auto; [rewrite skipn_length; lia|lia|lia].
Qed.

(** every datagram *)
Theorem C86_linear n : exists K, forall h data,
  match createPduT the_prog PduTypeDecoders n h data with
  | (steps, (r, s)) =>
      createPdu the_prog PduTypeDecoders n h data = (r, s) /\
      steps <= K * (1 + length data) /\ hsize (heap s) <= hsize h + K * (1 + length data)
  end.
Proof.
  set (K := KK the_prog n). exists (1 + ((K + 7) + (1 + ((K + 5) + ((K + 7) + 1))))). intros h data. pose proof (create_erase the_prog PduTypeDecoders n h data) as E. unfold createPduT in *.
  assert (C : cap data (1 + ((K + 7) + (1 + ((K + 5) + ((K + 7) + 1))))) (getPduT the_prog PduTypeDecoders n) (mkst h data data [])).
  { apply cap_bind; [apply cap_seek|intros ? s1]. apply cap_bind; [eapply cap_bd, call_lin; right; left; reflexivity|intros t s2]. apply cap_bind; [apply cap_seek|intros ? s3].
    assert (Z : forall e, cap data (K + 5 + (K + 7 + 1)) (@prim val (raise e)) s3) by (intros e; eapply cap_bd; apply bd_exc with (u := 0) (ok := fun _ _ => True); lia).
    destruct t; auto. destruct (zassoc z PduTypeDecoders) as [c|]; [|eapply cap_bd; apply bd_ret with (ok := fun _ _ => True); exact Logic.I].
    apply cap_bind; [eapply cap_bd, new_lin|intros p s4]. apply cap_bind; [eapply cap_bd, call_lin; left; reflexivity|intros ? s5]. eapply cap_bd. apply bd_ret with (ok := fun _ _ => True). exact Logic.I. }
  specialize (C eq_refl (le_n _)). destruct (getPduT the_prog PduTypeDecoders n (mkst h data data [])) as [t [r s]]. destruct C as (_ & _ & C1 & C2). simpl in E, C2. split; [now rewrite E|]. split; lia.
Qed.

(** in terms of the interpreter without a counter: the memory that decoding takes, also when it fails *)
Corollary C86_memory n : exists K, forall h data, hsize (heap (snd (createPdu the_prog PduTypeDecoders n h data))) <= hsize h + K * (1 + length data).
Proof.
  destruct (C86_linear n) as (K & H). exists K. intros h data. specialize (H h data). destruct (createPduT the_prog PduTypeDecoders n h data) as [t [r s]]. destruct H as (-> & _ & H). exact H.
Qed.

(** A 40-byte ActionRequest (type 16) that announces 100000 fixed datums and carries none: it ends with struct.error after 742 steps; the same
    header announcing none takes 707, and one with three datums (8 bytes each) takes 953 *)
Definition action (n : Z) (records : list byte) : list byte :=
  [x07; x01; x10; x05] ++ repeat x00 28 ++ map z2b (map (fun k => Z.land (Z.shiftr n k) 255) [24%Z; 16%Z; 8%Z; 0%Z]) ++ repeat x00 4 ++ records.
Definition outcome (data : list byte) : nat * res unit * nat :=
  match createPduT the_prog PduTypeDecoders 50 [] data with (t, (r, s)) => (t, match r with Ok _ => Ok tt | Exc e => Exc e end, hsize (heap s)) end.
Example C86_case : (outcome (action 100000 []), outcome (action 0 []), outcome (action 3 (repeat x00 24))) = ((742, Exc StructError, 36), (707, Ok tt, 33), (953, Ok tt, 45)).
Proof. vm_compute. reflexivity. Qed.

Definition all_PropCost := (@C86_parse, @C86_linear, @C86_memory, C86_case).
Print Assumptions all_PropCost.
