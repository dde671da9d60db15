(** * C88: users that share no objects do not influence each other

    Property: several users of the library (receivers, senders, simulations in one process) that pass no objects to each other work as if each were alone: whatever statements they execute, and in
    whatever order these are interleaved, each of them gets the same values, the same exceptions and the same bytes as when the others do nothing.  In particular decoding a datagram does not depend
    on what was decoded or built before.

    Specification: [together] runs the actions of all users, in the order given, on one heap; [alone] runs the actions of one user on a heap of its own; [view d] is what a value looks like when
    its objects are followed to depth d.  An action is any statement of the language (with the user's own variables, input and output), a new input to read from, or a call of createPdu.
    SIMPL: actions are not interrupted half-way (calls of the library are atomic); the variables assigned by a compound statement that ends with an exception are as before it. *)
From Coq Require Import ZArith String List Bool Lia PeanoNat.
From Coq Require Import Strings.Byte.
From Verif Require Import Lang Ind Bytes Interp Shift Ren ProgBase ProgDis Prog.
Import ListNotations.
Open Scope string_scope. Open Scope list_scope. Open Scope nat_scope.

(** ** Users *)
Record user := mkuser { u_env : env; u_in : list byte; u_full : list byte; u_out : list byte; u_log : list (option exn) }.
Inductive action := Do (c : stmt) | Feed (data : list byte) | Decode (x : string) (data : list byte).
Definition new_user : user := mkuser [("inputStream", VIn); ("outputStream", VOut)] [] [] [] [].

Section World.
Variable P : prog.
Definition act (n : nat) (a : action) (u : user) (h : list hobj) : user * list hobj :=
  match a with
  | Do c =>
      match exec P (run P n) c (u_env u) (mkst h (u_in u) (u_full u) (u_out u)) with
      | (Ok p, s) => (mkuser (fst p) (irest s) (ifull s) (out s) (u_log u ++ [None]), heap s)
      | (Exc e, s) => (mkuser (u_env u) (irest s) (ifull s) (out s) (u_log u ++ [Some e]), heap s)
      end
  | Feed data => (mkuser (u_env u) data data (u_out u) (u_log u), h)
  | Decode x data =>
      match createPdu P PduTypeDecoders n h data with
      | (Ok v, s) => (mkuser (upd x v (u_env u)) (u_in u) (u_full u) (u_out u) (u_log u ++ [None]), heap s)
      | (Exc e, s) => (mkuser (u_env u) (u_in u) (u_full u) (u_out u) (u_log u ++ [Some e]), heap s)
      end
  end.
Definition put {A} (i : nat) (x : A) (f : nat -> A) : nat -> A := fun k => if Nat.eqb k i then x else f k.
Fixpoint together (n : nat) (us : nat -> user) (h : list hobj) (sched : list (nat * action)) : (nat -> user) * list hobj :=
  match sched with
  | [] => (us, h)
  | (i, a) :: r => let '(u, h') := act n a (us i) h in together n (put i u us) h' r
  end.
Fixpoint alone (n : nat) (u : user) (h : list hobj) (acts : list action) : user * list hobj :=
  match acts with
  | [] => (u, h)
  | a :: r => let '(u', h') := act n a u h in alone n u' h' r
  end.
End World.
Definition mine (i : nat) (sched : list (nat * action)) : list action := map snd (filter (fun p => Nat.eqb (fst p) i) sched).

(** ** What a user can see of a value *)
Inductive tree := TVal (v : val) | TTuple (l : list tree) | TList (l : list tree) | TInst (c : string) (l : list (string * tree)) | TDeep | TNothing.
Fixpoint view (d : nat) (h : list hobj) (v : val) : tree :=
  match d with
  | O => TDeep
  | S d =>
      match v with
      | VRef l =>
          match nth_error h l with
          | Some (HInst c at_) => TInst c (map (fun p => (fst p, view d h (snd p))) at_)
          | Some (HList vs) => TList (map (view d h) vs)
          | None => TNothing
          end
      | VTuple vs => TTuple (map (view d h) vs)
      | _ => TVal v
      end
  end.
Definition variables (d : nat) (h : list hobj) (u : user) : list (string * tree) := map (fun p => (fst p, view d h (snd p))) (u_env u).

(** ** Proof *)
Lemma view_vr b s t d : sim b s t -> forall v w, vr b v w -> view d (heap s) v = view d (heap t) w.
Proof.
  intros S. induction d as [|d IH]; intros v w H; [reflexivity|]. assert (L : forall vs ws, vrs b vs ws -> map (view d (heap s)) vs = map (view d (heap t)) ws) by (induction 1; simpl; f_equal; auto).
  destruct H as [i j E|vs ws H|x Hx]; cbn [view].
  - destruct (sim_obj _ _ _ S i j E) as (o & o' & E1 & E2 & Ho). rewrite E1, E2. clear E1 E2. destruct Ho as [c a1 a2 Ho|vs ws Ho]; [|now rewrite (L _ _ Ho)]. f_equal. induction Ho as [|p q l l' [H1 H2] _ IHo]; [reflexivity|]. simpl. rewrite H1, (IH _ _ H2), IHo. reflexivity.
  - now rewrite (L _ _ H).
  - destruct x; reflexivity || discriminate.
Qed.
Lemma view_er b s t d r q : sim b s t -> er b r q -> map (fun p => (fst p, view d (heap s) (snd p))) r = map (fun p => (fst p, view d (heap t) (snd p))) q.
Proof. intros S. induction 1 as [|x y l l' [H1 H2] _ IH]; [reflexivity|]. simpl. now rewrite H1, (view_vr b s t d S _ _ H2), IH. Qed.
Lemma sim_with b s t r f o : sim b s t -> sim b (mkst (heap s) r f o) (mkst (heap t) r f o).
Proof. intros [A B C D E F]. split; auto. Qed.

Section Two.
Variable P : prog.
Hypothesis HP : no_shared_defaults P = true.
Variable n : nat.
Definition state (u : user) (h : list hobj) : st := mkst h (u_in u) (u_full u) (u_out u).
(** user [u] on heap [h], alone, is [w] on the common heap [g], at the places [b] *)
Definition same (b : list nat) (u : user) (h : list hobj) (w : user) (g : list hobj) : Prop := sim b (state u h) (state w g) /\ er b (u_env u) (u_env w) /\ u_log u = u_log w.
Definition grown (b : list nat) (g : list hobj) (b' : list nat) (g' : list hobj) : Prop :=
  exists k, b' = b ++ seq (length g) k /\ length g' = length g + k /\ forall j, j < length g -> ~ In j b -> nth_error g' j = nth_error g j.

Lemma act_same a b u h w g : same b u h w g ->
  exists b', same b' (fst (act P n a u h)) (snd (act P n a u h)) (fst (act P n a w g)) (snd (act P n a w g)) /\ grown b g b' (snd (act P n a w g)).
Proof.
  intros (S & E & L). destruct a as [c|data|x data]; cbn [act].
  - destruct (sj_exec P HP (run P n) (sj_run P HP n) c b _ _ E _ _ S) as (b' & F & S' & Q). unfold state in *.
    destruct (exec P (run P n) c (u_env u) _) as [[p|e] s], (exec P (run P n) c (u_env w) _) as [[q|e'] t]; cbn [fst snd] in *; try contradiction; exists b'; (split; [|exact F]).
    + destruct Q as [Q _]. split; [|split; [exact Q|now rewrite L]]. pose proof S' as [A1 A2 A3 A4 A5 A6]. unfold state. cbn [u_in u_full u_out]. split; auto.
    + subst e'. split; [|split; [eapply er_ext; [eapply fr_ext; exact F|exact E]|now rewrite L]]. pose proof S' as [A1 A2 A3 A4 A5 A6]. unfold state. cbn [u_in u_full u_out]. split; auto.
  - exists b. cbn [fst snd]. split; [|exists 0; rewrite app_nil_r; repeat split; auto with arith]. split; [|split; auto]. pose proof S as [A1 A2 A3 A4 A5 A6]. unfold state in *. cbn [heap irest ifull out u_in u_full u_out] in *. split; auto.
  - assert (S0 : sim b (mkst h data data []) (mkst g data data [])) by exact (sim_with b _ _ data data [] S). unfold createPdu.
    destruct (sj_getPdu P HP PduTypeDecoders n b _ _ S0) as (b' & F & S' & Q).
    destruct (getPdu P PduTypeDecoders n (mkst h data data [])) as [[p|e] s], (getPdu P PduTypeDecoders n (mkst g data data [])) as [[q|e'] t]; cbn [fst snd] in *; try contradiction; exists b'; (split; [|exact F]);
      pose proof S as [A1 A2 A3 A4 A5 A6]; unfold state in *; cbn [heap irest ifull out u_in u_full u_out] in A4, A5, A6.
    + split; [|split; [apply er_upd; [eapply er_ext; [eapply fr_ext; exact F|exact E]|exact Q]|cbn; now rewrite L]]. unfold state. cbn [u_in u_full u_out]. rewrite A4, A5, A6. now apply sim_with.
    + subst e'. split; [|split; [eapply er_ext; [eapply fr_ext; exact F|exact E]|cbn; now rewrite L]]. unfold state. cbn [u_in u_full u_out]. rewrite A4, A5, A6. now apply sim_with.
Qed.

Definition inv (bs : nat -> list nat) (us : nat -> user) (g : list hobj) (ss : nat -> user) (hs : nat -> list hobj) : Prop :=
  (forall i, same (bs i) (ss i) (hs i) (us i) g) /\ forall i k j, i <> k -> In j (bs i) -> In j (bs k) -> False.
Lemma inv_act bs us g ss hs i a : inv bs us g ss hs ->
  exists bs', inv bs' (put i (fst (act P n a (us i) g)) us) (snd (act P n a (us i) g)) (put i (fst (act P n a (ss i) (hs i))) ss) (put i (snd (act P n a (ss i) (hs i))) hs).
Proof.
  intros [H D]. destruct (act_same a _ _ _ _ _ (H i)) as (b' & S & k & Eb & Lg & F). destruct (act P n a (us i) g) as [w g'], (act P n a (ss i) (hs i)) as [u h]. cbn [fst snd] in *.
  assert (LT : forall q j, In j (bs q) -> j < length g) by (intros q j Hj; destruct (H q) as (S0 & _); exact (sim_lt _ _ _ _ S0 Hj)).
  exists (put i b' bs). split.
  - intros q. unfold put. destruct (Nat.eqb_spec q i) as [->|Ne]; [exact S|]. destruct (H q) as (S0 & E0 & L0). split; [|split; assumption]. destruct S0 as [A1 A2 A3 A4 A5 A6]. split; auto.
    intros x j Hxj. destruct (A3 x j Hxj) as (o & o' & E1 & E2 & Ho). exists o, o'. split; [exact E1|]. split; [|exact Ho]. cbn [state heap] in *. assert (Hj : In j (bs q)) by (eapply nth_error_In; eauto).
    rewrite F; [exact E2|eapply LT; exact Hj|]. intros Hi. exact (D q i j Ne Hj Hi).
  - assert (N : forall q j, q <> i -> In j b' -> In j (bs q) -> False).
    { intros q j Hq Hb Hj. rewrite Eb in Hb. apply in_app_or in Hb as [Hb|Hb]; [exact (D q i j Hq Hj Hb)|]. apply in_seq in Hb. apply LT in Hj. lia. }
    intros q r j Hqr. unfold put. destruct (Nat.eqb_spec q i) as [->|N1], (Nat.eqb_spec r i) as [->|N2]; [congruence| | |].
    + intros A B. exact (N r j N2 A B).
    + intros A B. exact (N q j N1 B A).
    + apply D. exact Hqr.
Qed.
Lemma inv_run sched : forall bs us g ss hs, inv bs us g ss hs ->
  exists bs', inv bs' (fst (together P n us g sched)) (snd (together P n us g sched)) (fun i => fst (alone P n (ss i) (hs i) (mine i sched))) (fun i => snd (alone P n (ss i) (hs i) (mine i sched))).
Proof.
  induction sched as [|[i a] r IH]; intros bs us g ss hs H; [exists bs; exact H|]. destruct (inv_act bs us g ss hs i a H) as (b1 & H1). cbn [together]. destruct (act P n a (us i) g) as [w g'] eqn:Ew. cbn [fst snd] in H1.
  destruct (IH _ _ _ _ _ H1) as (b2 & [H2 D2]). exists b2. split; [|exact D2]. intros q. specialize (H2 q). unfold mine in *. cbn [filter fst]. unfold put in H2 at 1 2 3 4. rewrite (Nat.eqb_sym i q).
  destruct (Nat.eqb_spec q i) as [Eq|Ne]; [subst q|exact H2]. cbn [map snd alone]. destruct (act P n a (ss i) (hs i)) as [u h]. exact H2.
Qed.
End Two.

Lemma no_shared : no_shared_defaults the_prog = true.
Proof. vm_compute. reflexivity. Qed.
Lemma inv_new : inv (fun _ => []) (fun _ => new_user) [] (fun _ => new_user) (fun _ => []).
Proof.
  split; [|intros i k j _ []]. intros i. split; [|split; [|reflexivity]].
  - split; try reflexivity; [constructor|]. intros x j Hx. destruct x; discriminate.
  - repeat constructor; cbn; auto.
Qed.

(** ** The theorems *)
Theorem C88_users n sched i :
  let '(us, g) := together the_prog n (fun _ => new_user) [] sched in
  let '(u, h) := alone the_prog n new_user [] (mine i sched) in
  u_out (us i) = u_out u /\ u_log (us i) = u_log u /\ u_in (us i) = u_in u /\ forall d, variables d g (us i) = variables d h u.
Proof.
  destruct (inv_run the_prog no_shared n sched _ _ _ _ _ inv_new) as (bs & H & _). specialize (H i). destruct (together the_prog n (fun _ => new_user) [] sched) as [us g]. cbn [fst snd] in H.
  destruct (alone the_prog n new_user [] (mine i sched)) as [u h]. cbn [fst snd] in H. destruct H as (S & E & L). split; [symmetry; exact (sim_out _ _ _ S)|]. split; [now symmetry|]. split; [symmetry; exact (sim_rest _ _ _ S)|].
  intros d. unfold variables. symmetry. exact (view_er _ _ _ d _ _ S E).
Qed.
(** what the others do does not matter *)
Theorem C88_others n sched sched' i : mine i sched = mine i sched' ->
  let '(us, g) := together the_prog n (fun _ => new_user) [] sched in
  let '(us', g') := together the_prog n (fun _ => new_user) [] sched' in
  u_out (us i) = u_out (us' i) /\ u_log (us i) = u_log (us' i) /\ u_in (us i) = u_in (us' i) /\ forall d, variables d g (us i) = variables d g' (us' i).
Proof.
  intros E. pose proof (C88_users n sched i) as H. pose proof (C88_users n sched' i) as H'. rewrite E in H.
  destruct (together the_prog n (fun _ => new_user) [] sched) as [us g], (together the_prog n (fun _ => new_user) [] sched') as [us' g'], (alone the_prog n new_user [] (mine i sched')) as [u h].
  destruct H as (A1 & A2 & A3 & A4), H' as (B1 & B2 & B3 & B4). split; [congruence|]. split; [congruence|]. split; [congruence|]. intros d. now rewrite A4, B4.
Qed.
(** decoding depends on the datagram alone, whatever is in memory (built in any way, or by no program at all) *)
Theorem C88_decode n h data :
  let '(r, s) := createPdu the_prog PduTypeDecoders n h data in
  let '(r0, s0) := createPdu the_prog PduTypeDecoders n [] data in
  irest s = irest s0 /\
  match r, r0 with
  | Ok v, Ok v0 => forall d, view d (heap s) v = view d (heap s0) v0
  | Exc e, Exc e0 => e = e0
  | _, _ => False
  end.
Proof.
  assert (S : sim [] (mkst [] data data []) (mkst h data data [])) by (split; try reflexivity; [constructor|]; intros x j Hx; destruct x; discriminate).
  destruct (sj_getPdu the_prog no_shared PduTypeDecoders n [] _ _ S) as (b & _ & S' & Q). unfold createPdu.
  destruct (getPdu the_prog PduTypeDecoders n (mkst [] data data [])) as [[v0|e0] s0], (getPdu the_prog PduTypeDecoders n (mkst h data data [])) as [[v|e] s]; cbn [fst snd] in *; try contradiction; (split; [symmetry; apply S'|]).
  - intros d. symmetry. exact (view_vr _ _ _ d S' _ _ Q).
  - now symmetry.
Qed.

(** two users decode the same datagram (an EntityStatePdu); one changes its PDU, sends it and fails to read an attribute while the other sends its own *)
Definition datagram : list byte := [x07; x00; x01; x01] ++ repeat x00 140.
Definition send : action := Do (Expr (Meth (Loc "p") "serialize" [Loc "outputStream"] [])).
Definition one : list action := [Decode "p" datagram; Do (SetAttr (Attr (Loc "p") "entityID") "entityNumber" (Lit (LInt 7))); send; Do (Assign "x" (Attr (Loc "p") "colour"))].
Definition two : list action := [Decode "p" datagram; send; Do (Assign "x" (Attr (Attr (Loc "p") "entityID") "entityNumber"))].
Definition mixed : list (nat * action) :=
  match one, two with
  | [a; b; c; d], [e; f; g] => [(0, a); (1, e); (0, b); (1, f); (0, c); (1, g); (0, d)]
  | _, _ => []
  end.
Example C88_case_mine : mine 0 mixed = one /\ mine 1 mixed = two.
Proof. split; reflexivity. Qed.
Definition show (i : nat) : list byte * list (option exn) * option tree :=
  let '(us, g) := together the_prog 50 (fun _ => new_user) [] mixed in (skipn 12 (firstn 18 (u_out (us i))), u_log (us i), assoc "x" (variables 1 g (us i))).
Example C88_case : show 0 = ([x00; x00; x00; x00; x00; x07], [None; None; None; Some AttributeError], None) /\
  show 1 = ([x00; x00; x00; x00; x00; x00], [None; None; None], Some (TVal (VInt 0))).
Proof. split; vm_compute; reflexivity. Qed.

(** the theorem is about the code: with a list as the default of a parameter, users do influence each other *)
Definition shared_default : prog :=
  mkprog [("Box", mkcls "Box" ["Box"] [("__init__", MMeth (mkmeth KNormal false [("self", None); ("items", Some (DCell 0))] [SetAttr (Loc "self") "items" (Loc "items")]))])] [].
Definition first_ : list (nat * action) := [(0, Do (Assign "p" (CallV (Glob "Box") [] []))); (0, Do (Expr (Meth (Attr (Loc "p") "items") "append" [Lit (LInt 7)] [])))].
Definition second_ : list (nat * action) := [(1, Do (Assign "p" (CallV (Glob "Box") [] []))); (1, Do (Assign "x" (Builtin BLen [Attr (Loc "p") "items"])))].
Definition length_seen (sched : list (nat * action)) : option tree := let '(us, g) := together shared_default 9 (fun _ => new_user) [HList []] sched in assoc "x" (variables 1 g (us 1)).
Example C88_shared_default : mine 1 (first_ ++ second_) = mine 1 second_ /\ length_seen second_ = Some (TVal (VInt 0)) /\ length_seen (first_ ++ second_) = Some (TVal (VInt 1)).
Proof. repeat split; vm_compute; reflexivity. Qed.

Definition all_PropUsers := (@C88_users, @C88_others, @C88_decode).
Print Assumptions all_PropUsers.
