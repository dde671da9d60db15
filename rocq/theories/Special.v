(** * Parts of methods

    The checkers of [SerSound] and [ParSound] decide whole methods of classes with a fixed layout.
    Here they are used on sequences of statements, for the methods that also contain statements outside
    the layout language (the Transmitter PDU, the standard variable records and the PDUs carrying them). *)
From Coq Require Import ZArith String List Bool Lia.
From Coq Require Import Strings.Byte.
From Verif Require Import Lang Bytes Interp Shift Mono ProgBase ProgDis Prog Spec Codec Codec2 Rep Dec StreamLem SerSound ParSound ParStep ParClass NewSound Layouts Refine.
Import ListNotations.
Open Scope string_scope. Open Scope Z_scope. Open Scope list_scope.

Lemma call_ok_TW c sub : assoc c TW = Some sub -> forall n, (fuel_ok <= n)%nat -> call_ok the_prog n c sub.
Proof.
  intros H n Hn. apply (class_sound the_prog out_cls TW tabS Dp); auto. pose proof nestS as N. unfold nest_ok in N. rewrite forallb_forall in N.
  specialize (N _ (assoc_In _ _ _ H)). now apply Nat.leb_le in N.
Qed.

(** statements that write layout f *)
Lemma ser_part n D ss f : (need 4 Dp <= n)%nat -> chkS the_prog TW 4 D ss f = Some Done -> (nest f <=? Dp)%nat = true ->
  forall s rho l at_ W fp, ctx rho l -> nth_error (heap s) l = Some (HInst D at_) -> rep the_prog (heap s) f (getA the_prog D at_) W fp ->
  deps (heap s) f (getA the_prog D at_) W ->
  exists rho', ctx rho' l /\ run_block (exec the_prog (run the_prog n)) ss rho s = oc (encode f W) (rho', None) s.
Proof.
  intros Hn H Hd s rho l at_ W fp Hc Hl HR HD. apply Nat.leb_le in Hd.
  assert (Ho : forall c sub, assoc c TW = Some sub -> (S (nest sub) <= Dp)%nat -> forall n, (need 0 Dp <= n)%nat -> call_ok the_prog n c sub).
  { intros c sub A B m Hm. apply (class_sound the_prog out_cls TW tabS (Dp - 1)); [exact A|lia|]. unfold need, Dp, G in *. lia. }
  destruct (chkS_sound the_prog out_cls TW tabS Dp Ho 4 n D ss f Done) as (g & E & O).
  - unfold fuel_ok, need, G, Dp in *. lia.
  - exact Hd.
  - exact H.
  - assert (E' : g = f) by (rewrite E; clear; induction g; cbn [fapp]; congruence). subst g. eapply O; eauto.
Qed.

(** statements that read layout f *)
Lemma par_part n D bl ss f cm cm' : (need 4 Dp <= n)%nat -> chkP the_prog TR1 X1 NC 4 D bl ss f cm = Some (Done, cm') -> (nest f <=? Dp)%nat = true ->
  nodupb (names f) && forallb (fun a => negb (mem a X1) && negb (String.eqb a "_struct")) (names f) = true ->
  par_ok the_prog X1 n D bl ss cm f cm'.
Proof.
  intros Hn H Hd Hg. apply Nat.leb_le in Hd.
  assert (Hnw : forall c sub, assoc c TR1 = Some sub -> mem c NC = true -> forall n, (need 0 (S (nest sub)) <= n)%nat -> new_ok the_prog n c sub)
    by (intros c sub A B m Hm; exact (new_ok_NC m c sub (TR1_TR _ _ A) B (need_new _ _ Hm))).
  assert (Gd : good X1 f).
  { apply andb_prop in Hg as [A B]. rewrite forallb_forall in B. split; [now apply nodupb_NoDup|]. split.
    - intros a Ha Hx. specialize (B a Ha). apply andb_prop in B as [B _]. apply mem_In in Hx. rewrite Hx in B. discriminate.
    - intros Ha. specialize (B _ Ha). rewrite String.eqb_refl, andb_false_r in B. discriminate. }
  assert (Ho : forall c sub, assoc c TR1 = Some sub -> (S (nest sub) <= Dp)%nat -> forall n, (need 0 Dp <= n)%nat -> callp_ok the_prog X1 n c sub).
  { intros c sub A B m Hm. apply (class_soundP the_prog in_cls TR1 X1 NC X1_struct tabP1 Hnw (Dp - 1)); [exact A|lia|]. unfold need, Dp, G in *. lia. }
  assert (Hw : forall c sub, assoc c TR1 = Some sub -> mem c NC = true -> (S (nest sub) <= Dp)%nat -> forall n, (need 0 Dp <= n)%nat -> new_ok the_prog n c sub).
  { intros c sub A M B m Hm. apply Hnw; auto. unfold need, G, Dp in *. lia. }
  destruct (chkP_sound the_prog in_cls TR1 X1 NC X1_struct Dp Ho Hw 4 n D bl ss f cm Done cm') as (g & E & O).
  - unfold fuel_ok, need, G, Dp in *. lia.
  - exact Hd.
  - exact Gd.
  - exact H.
  - assert (E' : g = f) by (rewrite E; clear; induction g; cbn [fapp]; congruence). subst g. exact O.
Qed.

(** further classes that can be constructed without arguments *)
Lemma new_ok_at n c f : newb the_prog new_fuel_ c f = true -> new_pure the_prog new_fuel_ c -> (new_fuel_ <= n)%nat -> new_ok the_prog n c f.
Proof. intros A B Hn. eapply (new_at_ok the_prog no_shared); [exact Hn|]. now apply (newb_at the_prog no_shared). Qed.

(** the class of any object of the heap, and whether a layout's fields are there *)
Definition instance (h : list hobj) (o : val) (c : string) : Prop := exists l at_, o = VRef l /\ nth_error h l = Some (HInst c at_).

Lemma contents_inv h c f o W : subs_nodup f = true -> nodupb (names f) = true -> contents the_prog h c f o = Some W ->
  exists l at_ fp, o = VRef l /\ nth_error h l = Some (HInst c at_) /\ rep the_prog h f (getA the_prog c at_) W fp.
Proof.
  intros S1 S2 H. unfold contents in H. destruct o as [ | | | | | |l| | | | | | | | | | | ]; try discriminate.
  destruct (nth_error h l) as [[d at_|]|] eqn:E; try discriminate. destruct (String.eqb_spec c d) as [->|]; [|discriminate].
  destruct (read_rep the_prog f S1 S2 _ _ _ H) as (fp & HR). exists l, at_, fp. split; [reflexivity|]. split; [exact E|]. now apply HR.
Qed.
