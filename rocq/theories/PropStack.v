(** * C91: serialising nests calls to a bounded depth

    Property: serialising an object, whatever values its fields hold and however many elements its lists hold, never nests more than 45 calls of the library's functions:
    the loops over lists are loops, not recursion.  It never ends with RecursionError, and a larger limit changes nothing.  The assumption is that the object's records are
    of the expected classes ([contents]), which no cycle satisfies; serialising an object that refers to itself ends with RecursionError whatever the limit.

    Specification: [serialize] takes the bound on nested calls as an argument and ends with [RecursionError] when it is exceeded (Interp.v, [run]). *)
From Coq Require Import ZArith String List Bool Lia PeanoNat.
From Coq Require Import Strings.Byte.
From Verif Require Import Lang Bytes Interp ProgBase ProgDis Prog Spec Rep Refine SerSound Classes Api.
Import ListNotations.
Open Scope string_scope. Open Scope list_scope.

(** ** Encoding along a layout never reports RecursionError *)
Definition fine (x : outcome) : Prop := snd x <> Some RecursionError.
Lemma fine_done : fine done. Proof. discriminate. Qed.
Lemma fine_fail e : e <> RecursionError -> fine (fail e).
Proof. intros H [= E]. auto. Qed.
Lemma fine_oseq x y : fine x -> fine y -> fine (oseq x y).
Proof. unfold fine, oseq. intros Hx Hy. destruct (snd x) eqn:E; [congruence|exact Hy]. Qed.
Lemma fine_prim p x : enc_prim p x <> inr RecursionError.
Proof. unfold enc_prim. repeat match goal with |- context [match ?x with _ => _ end] => destruct x end; discriminate. Qed.
Lemma fine_val p x : fine (enc_val p x).
Proof. unfold enc_val. pose proof (fine_prim p x). destruct (enc_prim p x); [discriminate|]. apply fine_fail. congruence. Qed.
Lemma fine_list {A} (e : A -> outcome) l : (forall x, fine (e x)) -> fine (enc_list e l).
Proof. intros H. induction l; simpl; [apply fine_done|apply fine_oseq; auto]. Qed.
Lemma fine_idx e l n : (forall x, fine (e x)) -> fine (enc_idx e l n).
Proof. intros H. revert l. induction n; intros [|x r]; simpl; [apply fine_done|apply fine_done|now apply fine_fail|apply fine_oseq; auto]. Qed.
Lemma fine_int x : fine (not_int x).
Proof. destruct x; apply fine_fail; discriminate. Qed.
Lemma fine_lit l : fine (l, None). Proof. discriminate. Qed.

Lemma encode_fine f : forall W, fine (encode f W).
Proof.
  induction f; intros W; cbn [encode];
    repeat match goal with
    | |- fine (oseq _ _) => apply fine_oseq
    | |- fine (enc_val _ _) => apply fine_val
    | |- fine (enc_list _ _) => apply fine_list; intro
    | |- fine (enc_idx _ _ _) => apply fine_idx; intro
    | |- fine (not_int _) => apply fine_int
    | |- fine done => apply fine_done
    | |- fine (fail _) => apply fine_fail; discriminate
    | |- fine (_, None) => apply fine_lit
    | H : forall W, fine (encode ?f W) |- fine (encode ?f _) => apply H
    | |- fine (match ?x with _ => _ end) => destruct x
    | |- fine (if ?x then _ else _) => destruct x
    end.
Qed.

(** ** The bound *)
Definition limit : nat := 45.
Lemma limit_ok : (fuel_ok <= limit)%nat.
Proof. vm_compute. repeat constructor. Qed.

Theorem C91_serialize n c f o s W : (limit <= n)%nat -> layout c = Some f -> contents the_prog (heap s) c f o = Some W ->
  fst (serialize n o s) <> Exc RecursionError.
Proof.
  intros Hn L H. rewrite (ser_layout n c f o s W); [|pose proof limit_ok; lia|exact L|exact H]. pose proof (encode_fine f W) as E. unfold fine in E.
  cbn [fst]. destruct (snd (encode f W)); [congruence|discriminate].
Qed.

(** a larger limit changes nothing *)
Theorem C91_limit n c f o s W : (limit <= n)%nat -> layout c = Some f -> contents the_prog (heap s) c f o = Some W ->
  serialize n o s = serialize limit o s.
Proof.
  intros Hn L H. rewrite (ser_layout n c f o s W); [|pose proof limit_ok; lia|exact L|exact H]. rewrite (ser_layout limit c f o s W); [reflexivity|exact limit_ok|exact L|exact H].
Qed.

(** ** A record that refers to itself: an EntityIdentifier whose simulationAddress is itself *)
Definition loop : list hobj := [HInst "EntityIdentifier" [("simulationAddress", VRef 0); ("entityNumber", VInt 1)]].
Definition identifier_serialize : meth := match lookup the_prog "EntityIdentifier" "serialize" with Some (MMeth m) => m | _ => mkmeth KNormal false [] [] end.
Definition env : list (string * val) := [("self", VRef 0); ("outputStream", VOut)].
Definition first : stmt := match m_body identifier_serialize with c :: _ => c | [] => Pass end.
Lemma loop_first rc rest full o : fst (rc identifier_serialize [VRef 0; VOut] [] (mkst loop rest full o)) = Exc RecursionError ->
  fst (exec the_prog rc first env (mkst loop rest full o)) = Exc RecursionError.
Proof.
  intros IH. destruct (rc identifier_serialize [VRef 0; VOut] [] (mkst loop rest full o)) as [r s] eqn:H. cbn [fst] in IH. subst r.
  vm_compute in H |- *. rewrite H. reflexivity.
Qed.
Lemma loop_step n s : heap s = loop -> fst (run the_prog n identifier_serialize [VRef 0; VOut] [] s) = Exc RecursionError.
Proof.
  revert s. induction n as [|n IH]; intros [h rest full o] E; [reflexivity|]. cbn [heap] in E. subst h. specialize (IH (mkst loop rest full o) eq_refl). apply loop_first in IH.
  cbn [run]. change (bind_args (m_params identifier_serialize) [VRef 0; VOut] []) with (Some env). cbv iota.
  change (m_body identifier_serialize) with (first :: tl (m_body identifier_serialize)).
  generalize dependent (exec the_prog (run the_prog n)). intros ex IH. unfold bind at 1. cbn [run_block]. unfold bind at 1.
  destruct (ex first env (mkst loop rest full o)) as [[x|e] s1]; cbn [fst] in IH; [discriminate|]. injection IH as ->. reflexivity.
Qed.
(** whatever the limit *)
Theorem C91_cycle n s : heap s = loop -> fst (serialize n (VRef 0) s) = Exc RecursionError.
Proof.
  intros E. pose proof (loop_step n s E) as H. destruct s as [h rest full o]. cbn [heap] in E. subst h. unfold serialize, call_method. generalize dependent (run the_prog n). intros rc H.
  destruct (rc identifier_serialize [VRef 0; VOut] [] (mkst loop rest full o)) as [r s] eqn:E. cbn [fst] in H. subst r. vm_compute in E |- *. rewrite E. reflexivity.
Qed.

(** the hypotheses can be met: a decoded ElectromagneticEmissionsPdu, whose serialisation needs 7 nested calls *)
Definition emission : list byte := [x07; x01; x17; x06; x01; x01; x01; x01; x01; x01; x01; x01] ++ repeat x01 250.
Definition decoded : res val * st := createPdu the_prog PduTypeDecoders 50 [] emission.
Definition sent (n : nat) : res val * nat := match decoded with (Ok o, s) => let (r, s') := serialize n o s in (r, length (out s')) | (Exc e, _) => (Exc e, 0%nat) end.
Example C91_case_meets :
  match decoded with
  | (Ok o, s) => match layout "ElectromagneticEmissionsPdu" with Some f => contents the_prog (heap s) "ElectromagneticEmissionsPdu" f o <> None | None => False end
  | _ => False
  end.
Proof. vm_compute. discriminate. Qed.
Example C91_case_6 : sent 6 = (Exc RecursionError, 100%nat).
Proof. vm_compute. reflexivity. Qed.
Example C91_case_7 : sent 7 = (Ok VNone, 108%nat).
Proof. vm_compute. reflexivity. Qed.

Definition all_PropStack := (@C91_serialize, @C91_limit, @C91_cycle).
Print Assumptions all_PropStack.
