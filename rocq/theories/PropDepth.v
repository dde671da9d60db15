(** * C87: decoding nests calls to a bounded depth

    Property: no datagram, whatever counts, lengths and record types it announces, makes decoding run out of stack.  createPdu (and constructing any PDU or record and parsing into it,
    any number of times) never nests more than 27 calls of the library's functions, far below Python's default limit of 1000: it never ends with RecursionError,
    and a larger limit changes nothing.  So the constant of C86 is one for the code, whatever the limit.

    Specification: [createPdu]/[new]/[call_method] take the bound on nested calls as an argument and end with [RecursionError] when it is exceeded (Interp.v, [run]). *)
From Coq Require Import ZArith String List Bool Lia PeanoNat.
From Coq Require Import Strings.Byte.
From Verif Require Import Lang Ind Bytes Interp Inv Mono Cost CostMono CostCheck CostLin DepthCheck DepthOk PropCost ProgBase ProgDis Prog.
Import ListNotations.
Open Scope string_scope. Open Scope list_scope. Open Scope nat_scope.

(** ** The ranks of the classes: more than those of the classes they construct *)
Fixpoint made (e : expr) : list string :=
  match e with
  | Attr e _ | HasAttr e _ | NotE e => made e
  | Sub a b | OrE a b | AndE a b | Bin _ a b | Cmp _ a b => made a ++ made b
  | CallV f args _ => match f with Glob g => [g] | _ => made f end ++ flat_map made args
  | Meth e _ args _ => made e ++ flat_map made args
  | Super _ _ args _ | Builtin _ args | ListE args | TupleE args => flat_map made args
  | IfE a b c => made a ++ made b ++ made c
  | _ => []
  end.
Fixpoint mades (c : stmt) : list string :=
  match c with
  | Expr e | Assign _ e | Return e | Assert e => made e
  | SetAttr o _ e => made o ++ made e
  | SetSub o i e => made o ++ made i ++ made e
  | If t a b => made t ++ flat_map mades a ++ flat_map mades b
  | For _ e b => made e ++ flat_map mades b
  | _ => []
  end.
Definition made_in (c : string) : list string :=
  match get_cls the_prog c with
  | Some k => flat_map (fun q => match snd q with MMeth m => if memb (fst q) ["parse"; "__init__"] then flat_map mades (m_body m) else [] | _ => [] end) (c_members k)
  | None => []
  end.
Definition made_by : list (string * list string) := Eval vm_compute in map (fun p => (fst p, flat_map made_in (mro the_prog (fst p)))) (p_classes the_prog).
Definition rk (t : list (string * nat)) (x : string) : nat := match assoc x t with Some n => n | None => 0 end.
Definition registered : list string := "UnknownStandardVariableRecord" :: map snd variableRecordClasses.
Definition rank_step (t : list (string * nat)) : list (string * nat) :=
  ("getStandardVariableClass", 0) :: ("parseStandardVariableRecord", S (fold_left Nat.max (map (rk t) registered) 0)) ::
  map (fun p => (fst p, fold_left Nat.max (map (fun g => S (rk t g)) (snd p)) 0)) made_by.
Definition ranks : list (string * nat) := Eval vm_compute in Nat.iter 8 rank_step [].
Definition rank (c : string) : nat := rk ranks c.
Definition frank (g : string) : nat := if memb g ["getStandardVariableClass"; "parseStandardVariableRecord"] then rk ranks "parseStandardVariableRecord" else 0.

(** ** The other functions that decoding calls: which call which *)
Definition prims : list string := map (append "read_")
  ["boolean"; "byte"; "unsigned_byte"; "char"; "double"; "float"; "short"; "unsigned_short"; "long"; "int"; "unsigned_int"; "bytes"; "unsigned_long"].
Definition wraps : list string := map (append "read_") ["char8"; "float32"; "float64"; "int8"; "int16"; "int32"; "int64"; "uint8"; "uint16"; "uint32"; "uint64"].
(** properties that decoding does not read: lengths, and those that forward to another record *)
Definition unread : list string :=
  lengths ++ ["numberOfFixedDatumIDs"; "numberOfVariableDatumIDs"; "fixedDatumIDs"; "variableDatumIDs"; "numberOfFixedDatumRecords"; "numberOfVariableDatumRecords"; "fixedDatumRecords"; "variableDatumRecords"].
Definition is_property (q : string * member) : bool := match snd q with MMeth m => match m_kind m with KProperty => true | _ => false end | _ => false end.
Definition properties_read : list string := Eval vm_compute in
  filter (fun x => negb (memb x unread)) (nodup string_dec (flat_map (fun p => map fst (filter is_property (c_members (snd p)))) (p_classes the_prog))).
Definition lev (x : string) : option nat :=
  if memb x ["append"; "read"; "is_positive_int"; "datumPaddingSizeInBits"] then Some 0
  else if memb x prims || memb x properties_read then Some 1 else if memb x wraps then Some 2 else None.

Lemma depth_check : ok_depth the_prog rank frank 6 3 4 lev unread = true.
Proof. vm_compute. reflexivity. Qed.
Lemma rank_lt c : rank c < 6.
Proof.
  unfold rank, rk. destruct (assoc c ranks) as [n|] eqn:E; [|lia]. apply assoc_in in E. assert (H : forallb (fun p => snd p <? 6) ranks = true) by (vm_compute; reflexivity).
  rewrite forallb_forall in H. specialize (H _ E). now apply Nat.ltb_lt.
Qed.

(** the bound on nested calls *)
Definition limit : nat := 27.

Section Limit.
Variable n : nat.
Hypothesis Hn : limit <= n.
Variable base : nat.
Notation tj := (tj rank 6 base).
Lemma enough c : 3 + 4 * rank c + 4 <= n.
Proof. pose proof (rank_lt c). unfold limit in Hn. lia. Qed.
Lemma tj_seek j s : tj (fun _ _ => True) (raw_seek j) s.
Proof. intros I. simpl. split; [exact I|]. split; [apply kk_refl|auto]. Qed.
Lemma tj_create s : tj (fun _ _ => True) (getPdu the_prog PduTypeDecoders n) s.
Proof.
  eapply tj_bind; [apply tj_seek|]. intros ? s1 _ _. eapply tj_bind; [eapply (t_client_read _ _ _ _ _ _ _ _ base rank_lt depth_check n "read_byte" 1); [reflexivity|unfold limit in Hn; lia]|].
  intros t s2 _ _. eapply tj_bind; [apply tj_seek|]. intros ? s3 _ _. destruct t; try (apply tj_raise; discriminate). destruct (zassoc z PduTypeDecoders) as [c|]; [|apply tj_ret; auto].
  eapply tj_bind; [eapply (t_client_new _ _ _ _ _ _ _ _ base rank_lt depth_check), enough|]. intros p s4 _ Hp.
  eapply tj_bind; [eapply (t_client_parse _ _ _ _ _ _ _ _ base rank_lt depth_check); [apply enough|exact Hp]|]. intros ? s5 _ _. apply tj_ret. auto.
Qed.
End Limit.

(** decoding a datagram, with anything in memory *)
Theorem C87_createPdu n h data : limit <= n -> fst (createPdu the_prog PduTypeDecoders n h data) <> Exc RecursionError.
Proof.
  intros Hn. assert (I : hok rank 6 (length h) h).
  { split; [lia|]. intros l d at_ Hl E. assert (nth_error h l <> None) by congruence. apply nth_error_Some in H. lia. }
  pose proof (tj_create n Hn (length h) (mkst h data data []) I) as H. unfold createPdu. destruct (getPdu the_prog PduTypeDecoders n (mkst h data data [])) as [[v|e] s]; simpl; [discriminate|congruence].
Qed.
(** a larger limit changes nothing *)
Theorem C87_limit n h data : limit <= n -> createPdu the_prog PduTypeDecoders n h data = createPdu the_prog PduTypeDecoders limit h data.
Proof.
  intros Hn. rewrite <- !create_erase. f_equal. apply createT_fuel; [exact Hn|]. rewrite create_erase. apply C87_createPdu. lia.
Qed.

(** constructing an object and parsing into it, from these datagrams and with these other arguments, one after the other *)
Definition feed (data : list byte) : M unit := fun s => (Ok tt, mkst (heap s) data data (out s)).
Fixpoint parses (n : nat) (v : val) (l : list (list byte * list val)) : M unit :=
  match l with
  | [] => ret tt
  | (data, args) :: r => _ <- feed data ;; _ <- call_method the_prog n v "parse" (VIn :: args) ;; parses n v r
  end.
Definition build_and_parse (n : nat) (c : string) (l : list (list byte * list val)) : M unit := v <- new the_prog n c [] ;; parses n v l.
Theorem C87_parse n c l s : limit <= n -> fst (build_and_parse n c l s) <> Exc RecursionError.
Proof.
  intros Hn. set (base := length (heap s)).
  assert (I : hok rank 6 base (heap s)).
  { split; [unfold base; lia|]. intros l' d at_ Hl E. assert (nth_error (heap s) l' <> None) by congruence. apply nth_error_Some in H. unfold base in Hl. lia. }
  assert (H : tj rank 6 base (fun _ _ => True) (build_and_parse n c l) s).
  { eapply tj_bind; [eapply (t_client_new _ _ _ _ _ _ _ _ base rank_lt depth_check); apply (enough n Hn)|]. intros v s1 _ Hv. clear I. revert s1 Hv. induction l as [|[data args] r IH]; intros s1 Hv; cbn [parses]; [apply tj_ret; auto|].
    eapply tj_bind with (ok1 := fun _ s' => heap s' = heap s1); [intros I; simpl; split; [exact I|]; split; [apply kk_refl|reflexivity]|]. intros ? s2 K2 E2.
    assert (Hv2 : own base c v s2) by (eapply own_kk; eauto).
    eapply tj_bind; [eapply (t_client_parse _ _ _ _ _ _ _ _ base rank_lt depth_check); [apply (enough n Hn)|exact Hv2]|]. intros ? s3 K3 _. apply IH. eapply own_kk; eauto. }
  specialize (H I). destruct (build_and_parse n c l s) as [[v|e] s']; simpl; [discriminate|congruence].
Qed.

(** the bound of C86 is the same whatever the limit on nested calls *)
Theorem C87_linear : exists K, forall n h data,
  match createPduT the_prog PduTypeDecoders n h data with
  | (steps, (r, s)) =>
      createPdu the_prog PduTypeDecoders n h data = (r, s) /\
      steps <= K * (1 + length data) /\ hsize (heap s) <= hsize h + K * (1 + length data)
  end.
Proof.
  assert (A : forall N, exists K, forall n h data, n <= N ->
    match createPduT the_prog PduTypeDecoders n h data with
    | (steps, (r, s)) => createPdu the_prog PduTypeDecoders n h data = (r, s) /\ steps <= K * (1 + length data) /\ hsize (heap s) <= hsize h + K * (1 + length data) end).
  { induction N as [|N (K & IH)].
    - destruct (C86_linear 0) as (K & H). exists K. intros n h data Hn. replace n with 0 by lia. apply H.
    - destruct (C86_linear (S N)) as (K' & H). exists (K + K'). intros n h data Hn. destruct (Nat.eq_dec n (S N)) as [->|Ne].
      + specialize (H h data). destruct (createPduT the_prog PduTypeDecoders (S N) h data) as [t [r s]]. destruct H as (H1 & H2 & H3). split; [exact H1|]. split; nia.
      + assert (Hn' : n <= N) by lia. specialize (IH n h data Hn'). destruct (createPduT the_prog PduTypeDecoders n h data) as [t [r s]]. destruct IH as (H1 & H2 & H3). split; [exact H1|]. split; nia. }
  destruct (A limit) as (K & H). exists K. intros n h data. destruct (Nat.le_gt_cases n limit) as [L|L]; [exact (H n h data L)|].
  assert (L' : limit <= n) by (apply Nat.lt_le_incl; exact L).
  rewrite (C87_limit n h data L'). rewrite (createT_fuel the_prog PduTypeDecoders limit n); [apply H, Nat.le_refl|exact L'|]. rewrite create_erase. apply C87_createPdu, Nat.le_refl.
Qed.

(** the limit is not vacuous: this ElectromagneticEmissionPdu needs 7 nested calls and is out of them with 6 *)
Definition emission : list byte := [x07; x01; x17; x06; x01; x01; x01; x01; x01; x01; x01; x01] ++ repeat x01 250.
Definition outcome (n : nat) : res val := fst (createPdu the_prog PduTypeDecoders n [] emission).
Example C87_case_6 : outcome 6 = Exc RecursionError.
Proof. vm_compute. reflexivity. Qed.
Example C87_case_7 : match outcome 7 with Ok (VRef _) => True | _ => False end.
Proof. vm_compute. exact I. Qed.
Example C87_case_limit : outcome 1000 = outcome limit.
Proof. unfold outcome. rewrite (C87_limit 1000); [reflexivity|]. apply Nat.leb_le. reflexivity. Qed.
(** a record parsed twice into the same object, from a full and from an empty datagram *)
Example C87_case_parse : fst (build_and_parse limit "EntityStatePdu" [(repeat x00 144, []); ([], [])] (mkst [] [] [] [])) = Exc StructError.
Proof. vm_compute. reflexivity. Qed.

Definition all_PropDepth := (@C87_createPdu, @C87_limit, @C87_parse, @C87_linear).
Print Assumptions all_PropDepth.
