(** * Constructing objects

    Calling a class without arguments gives a new object all of whose lists and embedded records
    are new and that its parse method can fill.  Decided by running the constructor on an empty
    heap; [sim_new] and [new_fuel] carry the result to every heap, output and larger fuel. *)
From Coq Require Import ZArith String List Bool Lia.
From Coq Require Import Strings.Byte Logic.FinFun.
From Verif Require Import Lang Bytes Interp Shift Mono Spec Codec2 Rep SerSound ParSound.
Import ListNotations.
Open Scope string_scope. Open Scope Z_scope. Open Scope list_scope.

Section New.
Variable P : prog.

(** is the object ready for layout f, all its lists empty?  The locations of its parts. *)
Fixpoint readyb (h : list hobj) (f : fmt) (D : string) (at_ : env) : option (list nat) :=
  match f with
  | Done => Some []
  | Prim _ _ k | Mask _ _ k | Cnt _ _ _ k | Zero _ k | Pad _ k | Derive _ _ _ k | Arr _ _ _ k => readyb h k D at_
  | Obj a c sub k =>
      match getA P D at_ a with
      | Some (VRef l) =>
          match nth_error h l with
          | Some (HInst c' at') =>
              if String.eqb c' c then
                match readyb h sub c at', readyb h k D at_ with
                | Some fp1, Some fp2 => Some (l :: fp1 ++ fp2)
                | _, _ => None
                end
              else None
          | _ => None
          end
      | _ => None
      end
  | PList a _ k | VList a _ _ _ k | OList a _ _ k | NullL a k =>
      match getA P D at_ a with
      | Some (VRef l) =>
          match nth_error h l with
          | Some (HList []) => match readyb h k D at_ with Some fp => Some (l :: fp) | None => None end
          | _ => None
          end
      | _ => None
      end
  | Bits _ k => match assoc "_struct" at_ with None => readyb h k D at_ | Some _ => None end
  end.

Lemma assoc_shift k a e : assoc a (shift_env k e) = option_map (shift k) (assoc a e).
Proof. induction e as [|[b v] e IH]; cbn [shift_env map assoc fst snd]; [reflexivity|]. destruct (String.eqb a b); [reflexivity|exact IH]. Qed.

Lemma getA_shift k D at_ a : getA P D (shift_env k at_) a = option_map (shift k) (getA P D at_ a).
Proof.
  unfold getA. rewrite assoc_shift. destruct (lookup P D a) as [[|l]|]; [reflexivity| |reflexivity].
  destruct (assoc a at_); [reflexivity|]. destruct l; reflexivity.
Qed.

Lemma nth_shift h0 h l o : nth_error h l = Some o -> nth_error (h0 ++ map (shift_obj (length h0)) h) (length h0 + l) = Some (shift_obj (length h0) o).
Proof. intros H. rewrite nth_error_app2 by lia. replace (length h0 + l - length h0)%nat with l by lia. now apply map_nth_error. Qed.

Lemma readyb_ready h0 h f : forall D at_ fp, readyb h f D at_ = Some fp ->
  ready P (h0 ++ map (shift_obj (length h0)) h) f D (shift_env (length h0) at_) [] (map (fun l => length h0 + l)%nat fp).
Proof.
  induction f; intros D at_ fp H; cbn [readyb ready] in *; try (now apply IHf).
  - injection H as <-. reflexivity.
  - destruct (getA P D at_ a) as [v|] eqn:Eg; [|discriminate]. destruct v as [ | | | | | |l| | | | | | | | | | | ]; try discriminate.
    destruct (nth_error h l) as [[c' at'|]|] eqn:El; try discriminate. destruct (String.eqb_spec c' c) as [->|]; [|discriminate].
    destruct (readyb h f1 c at') as [fp1|] eqn:E1; [|discriminate]. destruct (readyb h f2 D at_) as [fp2|] eqn:E2; [|discriminate]. injection H as <-.
    exists (length h0 + l)%nat, (shift_env (length h0) at'), (map (fun l => length h0 + l)%nat fp1), (map (fun l => length h0 + l)%nat fp2).
    rewrite getA_shift, Eg. split; [reflexivity|]. split; [now apply nth_shift with (o := HInst c at')|]. split; [now apply IHf1|]. split; [now apply IHf2|].
    cbn [map]. now rewrite map_app.
  - destruct (getA P D at_ a) as [v|] eqn:Eg; [|discriminate]. destruct v as [ | | | | | |l| | | | | | | | | | | ]; try discriminate.
    destruct (nth_error h l) as [[|[|]]|] eqn:El; try discriminate. destruct (readyb h f D at_) as [fp2|] eqn:E2; [|discriminate]. injection H as <-.
    exists (length h0 + l)%nat, [], (map (fun l => length h0 + l)%nat fp2). rewrite getA_shift, Eg. split; [reflexivity|].
    split; [now apply nth_shift with (o := HList [])|]. split; [constructor|]. split; [now apply IHf|reflexivity].
  - destruct (getA P D at_ a) as [v|] eqn:Eg; [|discriminate]. destruct v as [ | | | | | |l| | | | | | | | | | | ]; try discriminate.
    destruct (nth_error h l) as [[|[|]]|] eqn:El; try discriminate. destruct (readyb h f2 D at_) as [fp2|] eqn:E2; [|discriminate]. injection H as <-.
    exists (length h0 + l)%nat, [], [], (map (fun l => length h0 + l)%nat fp2). rewrite getA_shift, Eg. split; [reflexivity|].
    split; [now apply nth_shift with (o := HList [])|]. split; [constructor|]. split; [now apply IHf2|reflexivity].
  - destruct (getA P D at_ a) as [v|] eqn:Eg; [|discriminate]. destruct v as [ | | | | | |l| | | | | | | | | | | ]; try discriminate.
    destruct (nth_error h l) as [[|[|]]|] eqn:El; try discriminate. destruct (readyb h f D at_) as [fp2|] eqn:E2; [|discriminate]. injection H as <-.
    exists (length h0 + l)%nat, [], (map (fun l => length h0 + l)%nat fp2). rewrite getA_shift, Eg. split; [reflexivity|].
    split; [now apply nth_shift with (o := HList [])|]. split; [constructor|]. split; [now apply IHf|reflexivity].
  - destruct (assoc "_struct" at_) eqn:Ea; [discriminate|]. rewrite assoc_shift, Ea. split; [reflexivity|now apply IHf].
  - destruct (getA P D at_ a) as [v|] eqn:Eg; [|discriminate]. destruct v as [ | | | | | |l| | | | | | | | | | | ]; try discriminate.
    destruct (nth_error h l) as [[|[|]]|] eqn:El; try discriminate. destruct (readyb h f D at_) as [fp2|] eqn:E2; [|discriminate]. injection H as <-.
    exists (length h0 + l)%nat, (map (fun l => length h0 + l)%nat fp2). rewrite getA_shift, Eg. split; [reflexivity|].
    split; [now apply nth_shift with (o := HList [])|]. split; [now apply IHf|reflexivity].
Qed.

Fixpoint nodupn (l : list nat) : bool := match l with [] => true | x :: r => negb (existsb (Nat.eqb x) r) && nodupn r end.
Lemma nodupn_NoDup l : nodupn l = true -> NoDup l.
Proof.
  induction l as [|x r IH]; cbn [nodupn]; intros H; [constructor|]. apply andb_prop in H as [A B]. constructor; [|auto].
  intros Hx. apply negb_true_iff in A. assert (E : existsb (Nat.eqb x) r = true) by (apply existsb_exists; exists x; split; [exact Hx|apply Nat.eqb_refl]). congruence.
Qed.

(** what C() gives on an empty heap: the heap and the object *)
Definition new_res (n : nat) (c : string) : option (list hobj * nat) :=
  match new P n c [] (mkst [] [] [] []) with (Ok (VRef l), s) => Some (heap s, l) | _ => None end.

Definition newb (n : nat) (c : string) (f : fmt) : bool :=
  match new_res n c with
  | Some (h, l) =>
      match nth_error h l with
      | Some (HInst c' at_) =>
          String.eqb c' c && match readyb h f c at_ with Some fp => nodupn (l :: fp) | None => false end
      | _ => false
      end
  | None => false
  end.

(** the constructor neither reads the input nor writes output *)
Definition new_pure (n : nat) (c : string) : Prop := forall i fu,
  new P n c [] (mkst [] i fu []) = match new_res n c with Some (h, l) => (Ok (VRef l), mkst h i fu []) | None => (Exc Unsupported, mkst [] i fu []) end.

Hypothesis HP : no_shared_defaults P = true.

(** C() on any heap *)
Definition new_at (n : nat) (c : string) (f : fmt) : Prop := forall s, exists h l at_ fp,
    new P n c [] s = (Ok (VRef (length (heap s) + l)), mkst (heap s ++ map (shift_obj (length (heap s))) h) (irest s) (ifull s) (out s)) /\
    new_res n c = Some (h, l) /\ nth_error h l = Some (HInst c at_) /\ readyb h f c at_ = Some fp /\ NoDup (l :: fp).

Lemma newb_at n c f : newb n c f = true -> new_pure n c -> new_at n c f.
Proof.
  intros Hb Hp s. pose proof (sim_new (heap s) (out s) P HP n c [] (mkst [] (irest s) (ifull s) [])) as S.
  specialize (Hp (irest s) (ifull s)). unfold newb in Hb. destruct (new_res n c) as [[h l]|] eqn:Er; [|discriminate].
  destruct (nth_error h l) as [[c' at_|]|] eqn:El; try discriminate. apply andb_prop in Hb as [Hc Hb]. apply String.eqb_eq in Hc. subst c'.
  destruct (readyb h f c at_) as [fp|] eqn:Ef; [|discriminate]. apply nodupn_NoDup in Hb.
  exists h, l, at_, fp. split; [|auto]. rewrite Hp in S. cbn [fst snd map_res shift map] in S. unfold lift in S. cbn [heap irest ifull out map] in S.
  rewrite !app_nil_r in S. destruct s as [h0 i fu o]. cbn [heap irest ifull out] in *. exact S.
Qed.

Lemma new_at_ok n m c f : (n <= m)%nat -> new_at n c f -> new_ok P m c f.
Proof.
  intros Hm H s. destruct (H s) as (h & l & at_ & fp & E & _ & El & Ef & HN).
  exists (mkst (heap s ++ map (shift_obj (length (heap s))) h) (irest s) (ifull s) (out s)), (length (heap s) + l)%nat, (shift_env (length (heap s)) at_),
    (map (fun l => length (heap s) + l)%nat fp).
  split; [eapply (new_fuel P n m c []); [exact Hm|exact E|discriminate]|]. cbn [heap irest ifull out].
  split; [now apply nth_shift with (o := HInst c at_)|]. split; [now apply readyb_ready|]. split.
  - change (NoDup (map (fun l => length (heap s) + l)%nat (l :: fp))). apply FinFun.Injective_map_NoDup; [|exact HN]. intros x y Hxy. lia.
  - split; [|split; [apply fr_app|auto]]. intros x Hx. change (In x (map (fun l => length (heap s) + l)%nat (l :: fp))) in Hx.
    apply in_map_iff in Hx as (y & <- & _). lia.
Qed.
End New.
