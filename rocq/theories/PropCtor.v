(** * Property C61: constructors keep their arguments

    C(...) with any positional and keyword arguments gives a new object whose attributes hold
    them.  The parameters of a constructor are those of the method __init__ of the class
    (opendis/dis7.py, opendis/record/); see [lost] for those that are not kept. *)
From Coq Require Import ZArith String List Bool Lia.
From Verif Require Import Lang Ind Bytes Interp ProgBase ProgDis Prog Spec Declared PropDeclared CtorRun.
Import ListNotations.
Open Scope string_scope. Open Scope list_scope.

(** ** Specification *)
(** C(p1, ..., pn, k1=v1, ..., km=vm) as client code does it *)
Definition construct (n : nat) (c : string) (pos : list val) (kw : list (string * val)) : M val :=
  apply the_prog (run the_prog n) (KNew c []) (pos ++ map snd kw) (map fst kw).
(** o.a as client code does it *)
Definition getattr (n : nat) (o : val) (a : string) : M val := get_attr the_prog (run the_prog n) o a.

(** the parameters of the constructor of class c, without self *)
Definition parameters (c : string) : list (string * option dflt) :=
  match lookup the_prog c "__init__" with Some (MMeth m) => tl (m_params m) | _ => [] end.

Fixpoint position (p : string) (l : list string) : option nat :=
  match l with [] => None | q :: r => if String.eqb p q then Some O else option_map S (position p r) end.

(** the value that a call gives to parameter p: the positional argument at its place, or else
    the keyword argument of its name, or else its default *)
Definition given (ps : list (string * option dflt)) (pos : list val) (kw : list (string * val)) (p : string) : option val :=
  match position p (map fst ps) with
  | None => None
  | Some i =>
      match nth_error pos i with
      | Some v => Some v
      | None =>
          match assoc p kw with
          | Some v => Some v
          | None => match assoc p ps with Some (Some d) => Some (dflt_val d) | _ => None end
          end
      end
  end.

(** a call that Python accepts: not too many positional arguments, keyword arguments that are
    different parameters not given by position, and nothing without a default left out *)
Definition legal (ps : list (string * option dflt)) (pos : list val) (kw : list (string * val)) : Prop :=
  (length pos <= length ps)%nat /\ NoDup (map fst kw) /\
  (forall x, In x (map fst kw) -> In x (map fst (skipn (length pos) ps))) /\
  (forall x, In x (map fst ps) -> exists v, given ps pos kw x = Some v).

(** a reference the client holds is to an object that exists *)
Definition exists_in (h : list hobj) (v : val) : Prop := match v with VRef l => (l < length h)%nat | _ => True end.

(** the classes whose constructor is not covered: abstract classes, classes without a constructor
    of their own, classes of the hierarchy that are not PDU types (no pduType), BeamStatus and TransmitterPdu
    (they convert an argument: see C61_beam and C61_transmitter), LinearObjectStatePdu and AttributePdu (their constructors raise) *)
Definition uncovered : list string :=
  ["Record"; "VariableRecord"; "StandardVariableRecord"; "AntennaPatternRecord"; "ModulationParametersRecord";
   "VariableTransmitterParametersRecord"; "DamageDescriptionRecord"; "GenericRadio"; "SimpleIntercomRadio";
   "PduSuperclass"; "LiveEntityPdu"; "Pdu"; "EntityInformationFamilyPdu"; "LogisticsFamilyPdu"; "SyntheticEnvironmentFamilyPdu";
   "SimulationManagementFamilyPdu"; "RadioCommunicationsFamilyPdu"; "WarfareFamilyPdu"; "DistributedEmissionsFamilyPdu";
   "SimulationManagementWithReliabilityFamilyPdu"; "EntityManagementFamilyPdu"; "MinefieldFamilyPdu";
   "BeamStatus"; "TransmitterPdu"; "LinearObjectStatePdu"; "AttributePdu"].

(** the parameters whose argument is not found under their name *)
Definition lost : list (string * string) :=
  [("UAFundamentalParameter", "azimuthBeamwidthHorizontal"); ("IOCommunicationsNode", "communicationsNodeType");
   ("EngineFuel", "fuelQuantity"); ("EngineFuel", "fuelMeasurementUnits"); ("EngineFuel", "fuelType"); ("EngineFuel", "fuelLocation");
   ("AngularVelocityVector", "x"); ("AngularVelocityVector", "y"); ("AngularVelocityVector", "z");
   ("AggregateMarking", "characters"); ("EngineFuelReload", "fuelMeasurementUnits");
   ("DataQueryPdu", "requestID"); ("DataQueryPdu", "timeInterval");
   ("EventReportPdu", "fixedDatumRecords"); ("EventReportPdu", "variableDatumRecords");
   ("ArealObjectStatePdu", "forceId"); ("FirePdu", "range_");
   ("SeesPdu", "originatingEntityID"); ("StopFreezeReliablePdu", "requiredReliabilityService"); ("IsPartOfPdu", "originatingEntityID")].

(** ** Binding *)
Lemma assoc_filter_ne {A} x y (l : list (string * A)) : String.eqb x y = false -> assoc x (filter (fun p => negb (String.eqb y (fst p))) l) = assoc x l.
Proof.
  intros E. induction l as [|[z v] r IH]; cbn [filter fst assoc]; [reflexivity|]. destruct (String.eqb y z) eqn:F; cbn [negb assoc].
  - apply String.eqb_eq in F. subst z. now rewrite E.
  - destruct (String.eqb x z); auto.
Qed.

Lemma bind_rest_kw ps : forall kw, NoDup (map fst ps) -> (forall x, In x (map fst kw) -> In x (map fst ps)) ->
  (forall x, In x (map fst ps) -> assoc x kw <> None \/ exists d, assoc x ps = Some (Some d)) ->
  exists e, bind_rest ps kw = Some e /\ map fst e = map fst ps /\
    forall x, In x (map fst ps) -> assoc x e = match assoc x kw with Some v => Some v | None => match assoc x ps with Some (Some d) => Some (dflt_val d) | _ => None end end.
Proof.
  induction ps as [|[x d] ps IH]; cbn [map fst bind_rest]; intros kw N K D.
  - exists []. split; [|split; [reflexivity|intros x []]]. destruct kw as [|[y v] r]; [reflexivity|]. destruct (K y). now left.
  - inversion N as [|? ? Nx Nr]; subst.
    assert (T : forall y, In y (map fst ps) -> String.eqb y x = false) by (intros y Hy; apply String.eqb_neq; intros ->; auto).
    destruct (assoc x kw) as [v|] eqn:Ex.
    + destruct (IH (filter (fun p => negb (String.eqb x (fst p))) kw) Nr) as (e & E & F & G).
      * intros y Hy. apply in_map_iff in Hy as ([z w] & Ez & Hy). cbn [fst] in Ez. subst z. apply filter_In in Hy as [Hy Hn]. cbn [fst] in Hn. apply negb_true_iff, String.eqb_neq in Hn.
        destruct (K y) as [->|]; [apply in_map_iff; now exists (y, w)|easy|assumption].
      * intros y Hy. pose proof (T y Hy) as Ty. rewrite assoc_filter_ne by exact Ty. specialize (D y (or_intror Hy)). cbn [assoc] in D. now rewrite Ty in D.
      * rewrite E. eexists. split; [reflexivity|]. cbn [map fst]. rewrite F. split; [reflexivity|]. intros y Hy. cbn [assoc]. destruct (String.eqb y x) eqn:Ey.
        { apply String.eqb_eq in Ey. subst y. now rewrite Ex. }
        { destruct Hy as [->|Hy]; [now rewrite String.eqb_refl in Ey|]. rewrite (G y Hy). now rewrite assoc_filter_ne. }
    + destruct (D x (or_introl eq_refl)) as [|[dv Ed]]; [congruence|]. cbn [assoc] in Ed. rewrite String.eqb_refl in Ed. injection Ed as ->.
      destruct (IH kw Nr) as (e & E & F & G).
      * intros y Hy. destruct (K y Hy) as [<-|]; [|assumption]. exfalso. clear -Hy Ex. induction kw as [|[z w] r IHk]; [easy|]. cbn [map fst assoc] in *.
        destruct (String.eqb_spec x z); [congruence|]. destruct Hy; [congruence|auto].
      * intros y Hy. specialize (D y (or_intror Hy)). cbn [assoc] in D. now rewrite (T y Hy) in D.
      * rewrite E. eexists. split; [reflexivity|]. cbn [map fst]. rewrite F. split; [reflexivity|]. intros y Hy. cbn [assoc]. destruct (String.eqb y x) eqn:Ey.
        { apply String.eqb_eq in Ey. subst y. now rewrite Ex. }
        { destruct Hy as [->|Hy]; [now rewrite String.eqb_refl in Ey|]. exact (G y Hy). }
Qed.

Lemma nth_position x : forall l i, position x l = Some i -> nth_error l i = Some x.
Proof.
  induction l as [|y l IH]; cbn [position]; intros i H; [discriminate|]. destruct (String.eqb_spec x y) as [->|]; [injection H as <-; reflexivity|].
  destruct (position x l) as [j|]; [|discriminate]. injection H as <-. now apply IH.
Qed.
Lemma position_None x l : position x l = None -> ~ In x l.
Proof.
  induction l as [|y l IH]; cbn [position]; intros H I; [easy|]. destruct (String.eqb_spec x y) as [->|]; [discriminate|].
  destruct (position x l); [discriminate|]. destruct I; [congruence|]. now apply IH.
Qed.
Lemma position_In x l : In x l -> exists i, position x l = Some i /\ (i < length l)%nat.
Proof.
  induction l as [|y l IH]; cbn [position length]; intros I; [easy|]. destruct (String.eqb_spec x y) as [->|]; [exists O; split; [reflexivity|lia]|].
  destruct I; [congruence|]. destruct (IH H) as (i & -> & L). exists (S i). split; [reflexivity|lia].
Qed.
Lemma assoc_combine x : forall (l : list string) (vs : list val), (length vs <= length l)%nat ->
  assoc x (combine l vs) = match position x l with Some i => nth_error vs i | None => None end.
Proof.
  induction l as [|y l IH]; intros [|v vs] H; cbn [combine assoc position length] in *; try reflexivity.
  - destruct (String.eqb x y); [reflexivity|]. destruct (position x l) as [[]|]; reflexivity.
  - destruct (String.eqb x y); [reflexivity|]. rewrite IH by lia. destruct (position x l); reflexivity.
Qed.

Definition nodup_names (l : list string) : bool := (fix go l := match l with [] => true | x :: r => negb (memb x r) && go r end) l.
Lemma nodup_names_ok l : nodup_names l = true -> NoDup l.
Proof.
  induction l as [|x r IH]; cbn; intros H; [constructor|]. apply andb_prop in H as [A B]. constructor; [|auto]. intros I. apply memb_In in I. now rewrite I in A.
Qed.

Lemma position_skip x l k : (forall i, position x l = Some i -> (k <= i)%nat) -> In x l -> In x (skipn k l).
Proof.
  revert l. induction k as [|k IH]; intros l H I; [exact I|]. destruct l as [|y l]; [easy|]. cbn [skipn]. cbn [position] in H.
  destruct (String.eqb_spec x y) as [->|E]; [specialize (H O eq_refl); lia|]. destruct I; [congruence|]. apply IH; [|assumption]. intros i Hi. rewrite Hi in H. specialize (H (S i) eq_refl). lia.
Qed.

Lemma In_skipn {A} k (l : list A) x : In x (skipn k l) -> In x l.
Proof. intros H. rewrite <- (firstn_skipn k l). apply in_or_app. now right. Qed.
Lemma NoDup_skipn {A} k (l : list A) : NoDup l -> NoDup (skipn k l).
Proof. revert l. induction k as [|k IH]; intros l H; [exact H|]. destruct H; [constructor|]. cbn [skipn]. now apply IH. Qed.
Lemma assoc_skipn {A} k x : forall l : list (string * A), NoDup (map fst l) -> In x (map fst (skipn k l)) -> assoc x (skipn k l) = assoc x l.
Proof.
  induction k as [|k IH]; intros l N I; [reflexivity|]. destruct l as [|[y v] l]; [easy|]. cbn [skipn map fst assoc] in *. inversion N; subst.
  rewrite IH by assumption. destruct (String.eqb_spec x y) as [->|]; [|reflexivity]. exfalso. rewrite <- skipn_map in I. now apply In_skipn in I.
Qed.

Lemma bind_legal self ps pos kw : NoDup ("self" :: map fst ps) -> legal ps pos kw ->
  exists rho, bind_args (("self", None) :: ps) (self :: pos ++ map snd kw) (map fst kw) = Some rho /\
    assoc "self" rho = Some self /\ forall x, In x (map fst ps) -> assoc x rho = given ps pos kw x.
Proof.
  intros N (L & NK & K & G). inversion N as [|? ? Ns Np]; subst. unfold bind_args.
  replace (length (self :: pos ++ map snd kw) - length (map fst kw))%nat with (length (self :: pos)) by (cbn [length]; rewrite app_length, !map_length; lia).
  change (self :: pos ++ map snd kw) with ((self :: pos) ++ map snd kw). rewrite firstn_app, firstn_all, Nat.sub_diag. cbn [firstn]. rewrite app_nil_r.
  rewrite skipn_app, skipn_all, Nat.sub_diag. cbn [skipn app]. rewrite bind_pos_ok by (cbn [length]; lia). cbn [length skipn map fst].
  assert (Ek : combine (map fst kw) (map snd kw) = kw) by (clear; induction kw as [|[x v] r IH]; cbn [map fst snd combine]; [reflexivity|now rewrite IH]). rewrite Ek.
  assert (Gs : forall x, In x (map fst (skipn (length pos) ps)) -> given ps pos kw x = match assoc x kw with Some v => Some v | None => match assoc x ps with Some (Some d) => Some (dflt_val d) | _ => None end end).
  { intros x Hx. unfold given. destruct (position x (map fst ps)) as [i|] eqn:Ei.
    - destruct (nth_error pos i) eqn:En; [|reflexivity]. exfalso. apply nth_position in Ei. assert (Hi : (i < length pos)%nat) by (apply nth_error_Some; congruence).
      rewrite <- skipn_map in Hx. rewrite <- (firstn_skipn (length pos) (map fst ps)) in Np, Ei. rewrite nth_error_app1 in Ei by (rewrite firstn_length, map_length; lia).
      apply nth_error_In in Ei. clear -Np Ei Hx. induction (firstn (length pos) (map fst ps)) as [|y r IH]; [easy|]. cbn [app] in Np. inversion Np; subst. destruct Ei as [->|]; [|auto]. apply H1, in_or_app. now right.
    - apply position_None in Ei. exfalso. apply Ei. rewrite <- skipn_map in Hx. now apply In_skipn in Hx. }
  destruct (bind_rest_kw (skipn (length pos) ps) kw) as (e & E & F & H).
  - rewrite <- skipn_map. now apply NoDup_skipn.
  - exact K.
  - intros x Hx. pose proof Hx as Hx'. rewrite <- skipn_map in Hx'. apply In_skipn in Hx'. destruct (G x Hx') as [v Gv]. rewrite Gs in Gv by exact Hx.
    rewrite assoc_skipn by assumption. destruct (assoc x kw); [left; discriminate|right]. destruct (assoc x ps) as [[d|]|]; try discriminate. eauto.
  - rewrite E. eexists. split; [reflexivity|]. split; [reflexivity|]. intros x Hx. cbn [combine app assoc].
    assert (Es : String.eqb x "self" = false) by (apply String.eqb_neq; intros ->; auto). rewrite Es.
    rewrite assoc_app_, assoc_combine by (rewrite map_length; lia). destruct (position_In x _ Hx) as (i & Ei & Li). rewrite Ei.
    destruct (nth_error pos i) as [v|] eqn:En; [unfold given; now rewrite Ei, En|].
    assert (Hs : In x (map fst (skipn (length pos) ps))).
    { rewrite <- skipn_map. apply position_skip; [|exact Hx]. intros j Hj. rewrite Hj in Ei. injection Ei as ->. now apply nth_error_None. }
    rewrite H by exact Hs. rewrite Gs by exact Hs. now rewrite assoc_skipn.
Qed.

(** ** Which attribute keeps a parameter *)
(** the last assignment to self.a in a body *)
Fixpoint last_set (a : string) (b : list stmt) : option (list stmt * expr * list stmt) :=
  match b with
  | [] => None
  | st :: r =>
      match last_set a r with
      | Some (b1, e, b2) => Some (st :: b1, e, b2)
      | None =>
          match st with
          | SetAttr (Loc x) a' e => if String.eqb x "self" && String.eqb a a' && negb (existsb (sets a) r) then Some ([], e, r) else None
          | _ => None
          end
      end
  end.
Lemma last_set_ok a b b1 e b2 : last_set a b = Some (b1, e, b2) -> b = b1 ++ SetAttr (Loc "self") a e :: b2 /\ existsb (sets a) b2 = false.
Proof.
  revert b1 e b2. induction b as [|st r IH]; cbn [last_set]; intros b1 e b2 H; [discriminate|].
  destruct (last_set a r) as [[[c1 f] c2]|]; [injection H as <- <- <-; destruct (IH _ _ _ eq_refl) as [-> E]; auto|].
  destruct st; try discriminate. destruct o; try discriminate. destruct (String.eqb_spec x "self"); [|discriminate]. destruct (String.eqb_spec a a0); [|discriminate]. subst.
  destruct (existsb (sets a0) r) eqn:E; [discriminate|]. injection H as <- <- <-. auto.
Qed.

(** makes a new object *)
Definition allocates (e : expr) : bool := match e with ListE _ | Bin OMul _ _ | CallV _ _ _ => true | _ => false end.

Definition init_of (c : string) : option meth := match lookup the_prog c "__init__" with Some (MMeth m) => Some m | _ => None end.

(** self.p = p, or self.p = p or <new object>; [strict]: the latter is not allowed *)
Definition keeps_as (p a : string) (b : list stmt) (strict : bool) : bool :=
  match last_set a b with
  | Some (_, Loc x, _) => String.eqb x p
  | Some (_, OrE (Loc x) d, _) => String.eqb x p && allocates d && negb strict
  | _ => false
  end.

Definition plain_param (c p : string) : bool := match declared_type c p with Some _ => true | None => false end.

Definition keeps (c p : string) : bool :=
  match init_of c with Some m => settable the_prog c p && keeps_as p p (m_body m) (plain_param c p) | None => false end.

Definition two_lists (e : expr) : option (string * string * string) :=
  match e with CallV (Glob D) [OrE (Loc x) (ListE []); OrE (Loc y) (ListE [])] [] => Some (D, x, y) | _ => None end.
Lemma two_lists_ok e D x y : two_lists e = Some (D, x, y) -> e = CallV (Glob D) [OrE (Loc x) (ListE []); OrE (Loc y) (ListE [])] [].
Proof.
  unfold two_lists. intros H. destruct e as [| | | | |f args kws| | | | | | | | | | | |]; try discriminate. destruct f; try discriminate.
  destruct args as [|[| | | | | | | | | | | |oa ob| | | | |] l1]; try discriminate. destruct oa as [|x1| | | | | | | | | | | | | | | |]; try discriminate.
  destruct ob as [| | | | | | | | | |es| | | | | | |]; try discriminate. destruct es; [|discriminate].
  destruct l1 as [|[| | | | | | | | | | | |oa ob| | | | |] l2]; try discriminate. destruct oa as [|x2| | | | | | | | | | | | | | | |]; try discriminate.
  destruct ob as [| | | | | | | | | |es| | | | | | |]; try discriminate. destruct es; [|discriminate].
  destruct l2; [|discriminate]. destruct kws; [|discriminate]. injection H as <- <- <-. reflexivity.
Qed.
Definition inner_path (b : list stmt) : option (string * string) :=
  match b with [Return (Attr (Attr (Loc x) d) a)] => if String.eqb x "self" then Some (d, a) else None | _ => None end.
Lemma inner_path_ok b d a : inner_path b = Some (d, a) -> b = [Return (Attr (Attr (Loc "self") d) a)].
Proof.
  unfold inner_path. intros H. destruct b as [|[| | | | | |r| | |] l]; try discriminate. destruct r as [| | |r a1| | | | | | | | | | | | | |]; try discriminate.
  destruct r as [| | |r a2| | | | | | | | | | | | | |]; try discriminate. destruct r as [|x| | | | | | | | | | | | | | | |]; try discriminate. destruct l; [|discriminate].
  destruct (String.eqb_spec x "self") as [->|]; [|discriminate]. injection H as -> ->. reflexivity.
Qed.

(** p is a property that gives self.d.a, where self.d = D(..., p or [], ...) and D keeps it as a *)
Definition keeps_in (c p : string) : bool :=
  match init_of c, lookup the_prog c p with
  | Some m, Some (MMeth q) =>
      match m_kind q, m_params q, inner_path (m_body q) with
      | KProperty, [(s1, None)], Some (d, a) =>
          String.eqb s1 "self" && settable the_prog c d && negb (plain_param c p) &&
          match last_set d (m_body m) with
          | Some (_, e, _) =>
              match two_lists e with
              | Some (D, x, y) =>
                  match parameters D with
                  | [(x', _); (y', _)] =>
                      (String.eqb x p && String.eqb a x' || String.eqb y p && String.eqb a y') && negb (String.eqb y' x') &&
                      keeps D a && negb (memb D uncovered)
                  | _ => false
                  end
              | None => false
              end
          | None => false
          end
      | _, _, _ => false
      end
  | _, _ => false
  end.

Definition depth : nat := 7.
Definition class_ok (c : string) : bool :=
  memb c uncovered ||
  match init_of c with
  | Some m =>
      match m_params m with
      | (x, None) :: ps =>
          String.eqb x "self" && negb (is_abstract the_prog c) && nodup_names ("self" :: map fst ps) &&
          forallb (stm the_prog (ctor the_prog depth) (init the_prog depth c) c ("self" :: map fst ps) []) (m_body m) &&
          forallb (fun p => existsb (fun q => String.eqb (fst q) c && String.eqb (snd q) p) lost || keeps c p || keeps_in c p) (map fst ps)
      | _ => false
      end
  | None => false
  end.
Lemma classes_ok : forallb class_ok (map fst (p_classes the_prog)) = true.
Proof. vm_compute. reflexivity. Qed.

(** ** Proof *)
(** attribute value x for argument v: v itself or, if v counts as false, a new object *)
Definition held (h : list hobj) (v x : val) : Prop :=
  x = v \/ truth h v = false /\ exists l, x = VRef l /\ (length h < l)%nat.

Lemma get_settable call c a l at_ v s : nth_error (heap s) l = Some (HInst c at_) -> settable the_prog c a = true -> assoc a at_ = Some v ->
  get_attr the_prog call (VRef l) a s = (Ok v, s).
Proof.
  intros E S A. unfold get_attr, hget, bind. rewrite E. unfold settable in S.
  destruct (lookup the_prog c a) as [[m|]|]; [destruct (m_kind m); [|discriminate|]| |]; now rewrite A.
Qed.

Lemma truth_app h t v : exists_in h v -> truth (h ++ t) v = truth h v.
Proof. destruct v; try reflexivity. cbn [exists_in truth]. intros L. now rewrite nth_error_app1. Qed.

Lemma eval_or i fu o call x d rho w h ck loc ints :
  good_ck the_prog i fu o call ck -> env_ok loc ints rho -> assoc x rho = Some w -> rhs the_prog ck loc ints d = true -> allocates d = true ->
  exists v t, eval the_prog call (OrE (Loc x) d) rho (mkst h i fu o) = (Ok v, mkst (h ++ t) i fu o) /\
    (v = w /\ t = [] /\ truth h w = true \/ truth h w = false /\ exists l, v = VRef l /\ (length h <= l)%nat).
Proof.
  intros HC HE A Hr Hd. cbn [eval]. rewrite A. unfold bind at 1, ret at 1. cbn [heap]. destruct (truth h w) eqn:T.
  - exists w, []. rewrite app_nil_r. auto.
  - destruct (rhs_ok the_prog i fu o call ck loc ints rho HC HE d Hr h) as (v & t & E & Sh). rewrite E. exists v, t. split; [reflexivity|]. right. split; [reflexivity|].
    destruct d; try discriminate; try exact Sh. destruct o0; try discriminate. exact Sh.
Qed.

Lemma given_Some_env ps pos kw rho : legal ps pos kw -> (forall x, In x (map fst ps) -> assoc x rho = given ps pos kw x) ->
  forall x, memb x (map fst ps) = true -> exists v, assoc x rho = Some v.
Proof. intros (_ & _ & _ & G) H x Hx. apply memb_In in Hx. destruct (G x Hx) as [v E]. exists v. now rewrite H. Qed.

Lemma class_facts c : In c (map fst (p_classes the_prog)) -> ~ In c uncovered -> exists m ps, init_of c = Some m /\ m_params m = ("self", None) :: ps /\
  parameters c = ps /\ is_abstract the_prog c = false /\ NoDup ("self" :: map fst ps) /\
  forallb (stm the_prog (ctor the_prog depth) (init the_prog depth c) c ("self" :: map fst ps) []) (m_body m) = true /\
  forall p, In p (map fst ps) -> ~ In (c, p) lost -> keeps c p = true \/ keeps_in c p = true.
Proof.
  intros Hc Hu. pose proof classes_ok as K. rewrite forallb_forall in K. specialize (K c Hc). unfold class_ok in K. apply orb_prop in K as [K|K]; [apply memb_In in K; easy|].
  destruct (init_of c) as [m|] eqn:Em; [|discriminate]. exists m. destruct (m_params m) as [|[x [|]] ps] eqn:Ep; try discriminate.
  apply andb_prop in K as [K K4]. apply andb_prop in K as [K K3]. apply andb_prop in K as [K K2]. apply andb_prop in K as [K0 K1]. apply negb_true_iff in K1.
  apply String.eqb_eq in K0. subst x.
  exists ps. split; [reflexivity|]. split; [reflexivity|]. split.
  { unfold parameters, init_of in *. destruct (lookup the_prog c "__init__") as [[m'|]|]; try discriminate. injection Em as ->. now rewrite Ep. }
  split; [exact K1|]. split; [now apply nodup_names_ok|]. split; [exact K3|]. intros p Hp Hl. rewrite forallb_forall in K4. specialize (K4 p Hp).
  apply orb_prop in K4 as [K4|]; [|now right]. apply orb_prop in K4 as [K4|]; [|now left]. exfalso. apply Hl. apply existsb_exists in K4 as ([u w] & Hi & E). cbn [fst snd] in E.
  apply andb_prop in E as [E1 E2]. apply String.eqb_eq in E1, E2. now subst.
Qed.

Lemma app_inst_inj (h : list hobj) c a1 a2 t1 t2 : h ++ HInst c a1 :: t1 = h ++ HInst c a2 :: t2 -> a1 = a2 /\ t1 = t2.
Proof. intros H. apply app_inv_head in H. now injection H. Qed.

(** the run of a covered constructor: the new object, and the state in which each attribute was assigned *)
Lemma construct_run n c pos kw h i fu o :
  (S depth <= n)%nat -> In c (map fst (p_classes the_prog)) -> ~ In c uncovered -> legal (parameters c) pos kw ->
  exists m rho at_ t, init_of c = Some m /\ env_ok ("self" :: map fst (parameters c)) [] rho /\ assoc "self" rho = Some (VRef (length h)) /\
    (forall x, In x (map fst (parameters c)) -> assoc x rho = given (parameters c) pos kw x) /\
    construct n c pos kw (mkst h i fu o) = (Ok (VRef (length h)), mkst (h ++ HInst c at_ :: t) i fu o) /\
    forall a b1 e b2, last_set a (m_body m) = Some (b1, e, b2) ->
      rhs the_prog (ctor the_prog depth) ("self" :: map fst (parameters c)) [] e = true /\
      exists at1 t1 v t2 t3, eval the_prog (run the_prog (pred n)) e rho (mkst (h ++ HInst c at1 :: t1) i fu o) = (Ok v, mkst (h ++ HInst c at1 :: t1 ++ t2) i fu o) /\
        shape e rho (h ++ HInst c at1 :: t1) v /\ t = (t1 ++ t2) ++ t3 /\ assoc a at_ = Some v.
Proof.
  intros Hn Hc Hu Hl. destruct (class_facts c Hc Hu) as (m & ps & Em & Ep & Eps & Ea & N & B & _). rewrite Eps in *.
  destruct n as [|n]; [inversion Hn|]. apply le_S_n in Hn.
  destruct (bind_legal (VRef (length h)) ps pos kw N Hl) as (rho & Er & Es & Eg).
  assert (HE : env_ok ("self" :: map fst ps) [] rho).
  { split; [|discriminate]. intros x Hx. unfold memb in Hx. cbn [existsb] in Hx. destruct (String.eqb x "self") eqn:Ex; [apply String.eqb_eq in Ex; rewrite Ex; eauto|]. now apply (given_Some_env ps pos kw). }
  pose proof (ctor_sound the_prog i fu o depth n Hn) as HC. pose proof (ini_sound the_prog i fu o depth n h c Hn) as HI.
  destruct (exec_body the_prog i fu o (run the_prog n) h c _ _ _ _ rho (m_body m) HC HI HE Es B [] []) as (at_ & t & E & _). cbn [app] in E.
  exists m, rho, at_, t. split; [exact Em|]. split; [exact HE|]. split; [exact Es|]. split; [exact Eg|]. split.
  - unfold construct. cbn [apply]. rewrite Ea. unfold halloc, bind. cbn [heap irest ifull out]. unfold init_of in Em. destruct (lookup the_prog c "__init__") as [[m'|]|]; try discriminate. injection Em as ->.
    cbn [run]. rewrite Ep, Er. unfold bind. rewrite E. reflexivity.
  - intros a b1 e b2 La. destruct (last_set_ok _ _ _ _ _ La) as [Eb Hb]. rewrite Eb in B.
    split.
    { rewrite forallb_app in B. apply andb_prop in B as [_ B]. cbn [forallb] in B. apply andb_prop in B as [B _]. cbn [stm] in B. now apply andb_prop in B as [_ B]. }
    destruct (exec_last the_prog i fu o (run the_prog n) h c _ _ _ _ rho b1 a e b2 [] [] HC HI HE Es B Hb) as (at1 & t1 & v & t2 & at' & t' & E1 & Sh & E2 & E3).
    cbn [app] in *. rewrite <- Eb, E in E2. injection E2 as E2. apply app_inst_inj in E2 as [<- ->]. exists at1, t1, v, t2, t'. cbn [pred]. auto.
Qed.

Lemma In_param c p pos kw v : given (parameters c) pos kw p = Some v -> In p (map fst (parameters c)).
Proof.
  unfold given. destruct (position p (map fst (parameters c))) as [k|] eqn:E; [|discriminate]. intros _. apply nth_position in E. now apply nth_error_In in E.
Qed.

Lemma kept_own n c pos kw h i fu o p v :
  (S depth <= n)%nat -> In c (map fst (p_classes the_prog)) -> ~ In c uncovered -> legal (parameters c) pos kw ->
  given (parameters c) pos kw p = Some v -> exists_in h v -> keeps c p = true ->
  exists at_ t x, construct n c pos kw (mkst h i fu o) = (Ok (VRef (length h)), mkst (h ++ HInst c at_ :: t) i fu o) /\
    assoc p at_ = Some x /\ settable the_prog c p = true /\ (x = v \/ declared_type c p = None /\ held h v x).
Proof.
  intros Hn Hc Hu Hl G Hv K. destruct (construct_run n c pos kw h i fu o Hn Hc Hu Hl) as (m & rho & at_ & t & Em & HE & Es & Eg & E & F).
  unfold keeps in K. rewrite Em in K. apply andb_prop in K as [Ks K]. unfold keeps_as in K. destruct (last_set p (m_body m)) as [[[b1 e] b2]|] eqn:La; [|discriminate].
  destruct (F p b1 e b2 La) as (Hr & at1 & t1 & x & t2 & t3 & E1 & Sh & _ & Ax). exists at_, t, x. split; [exact E|]. split; [exact Ax|]. split; [exact Ks|].
  assert (Ep : assoc p rho = Some v) by (rewrite Eg; [exact G|eapply In_param; exact G]).
  destruct e; try discriminate.
  - apply String.eqb_eq in K. subst x0. cbn [shape] in Sh. left. congruence.
  - destruct e1; try discriminate. apply andb_prop in K as [K Kd]. apply andb_prop in K as [K Ka]. apply String.eqb_eq in K. subst x0.
    cbn [rhs] in Hr. apply andb_prop in Hr as [_ Hr].
    assert (Hn' : (depth <= pred n)%nat) by lia. pose proof (ctor_sound the_prog i fu o depth (pred n) Hn') as HC.
    destruct (eval_or i fu o (run the_prog (pred n)) p e2 rho v (h ++ HInst c at1 :: t1) _ _ _ HC HE Ep Hr Ka) as (y & t4 & E4 & D).
    rewrite E1 in E4. injection E4 as <- _. rewrite truth_app in D by exact Hv.
    destruct D as [(-> & _)|(T & l & -> & L)]; [now left|]. right. split.
    + unfold plain_param in Kd. destruct (declared_type c p); [discriminate|reflexivity].
    + right. split; [exact T|]. exists l. split; [reflexivity|]. rewrite app_length in L. cbn [length] in L. lia.
Qed.

Lemma legal_two c x y dx dy a1 a2 : parameters c = [(x, dx); (y, dy)] -> String.eqb y x = false -> legal (parameters c) [a1; a2] [].
Proof.
  intros -> N. unfold legal. cbn [length map fst skipn]. split; [lia|]. split; [constructor|]. split; [intros z []|].
  intros z [<-|[<-|[]]]; unfold given; cbn [map fst position]; rewrite ?String.eqb_refl; [exists a1; reflexivity|]. rewrite N. exists a2. reflexivity.
Qed.

Lemma held_trans h h2 v a x : (exists t, h2 = h ++ t) -> exists_in h v -> (a = v \/ truth h v = false /\ exists l, a = VRef l /\ (length h < l)%nat) -> held h2 a x -> held h v x.
Proof.
  intros [t ->] Hv Ha [->|(T & l & -> & L)]; [exact Ha|]. right. split.
  - destruct Ha as [->|[Ha _]]; [now rewrite truth_app in T|exact Ha].
  - exists l. split; [reflexivity|]. rewrite app_length in L. lia.
Qed.

Lemma eval_or_list i fu o call x rho w h : assoc x rho = Some w ->
  exists v t, eval the_prog call (OrE (Loc x) (ListE [])) rho (mkst h i fu o) = (Ok v, mkst (h ++ t) i fu o) /\
    (v = w /\ t = [] \/ truth h w = false /\ v = VRef (length h) /\ t = [HList []]).
Proof.
  intros A. cbn [eval]. rewrite A. unfold bind at 1, ret at 1. cbn [heap]. destruct (truth h w) eqn:T.
  - exists w, []. rewrite app_nil_r. auto.
  - exists (VRef (length h)), [HList []]. split; [reflexivity|auto].
Qed.

Lemma nth_other {A} (h : list A) (a b : A) t k : k <> length h -> nth_error (h ++ a :: t) k = nth_error (h ++ b :: t) k.
Proof.
  intros H. destruct (Nat.lt_ge_cases k (length h)) as [L|L]; [now rewrite !nth_error_app1|]. rewrite !nth_error_app2 by lia.
  destruct (k - length h)%nat eqn:E; [lia|reflexivity].
Qed.

Lemma kept_inner n c pos kw h i fu o p v :
  (S (S depth) <= n)%nat -> In c (map fst (p_classes the_prog)) -> ~ In c uncovered -> legal (parameters c) pos kw ->
  given (parameters c) pos kw p = Some v -> exists_in h v -> keeps_in c p = true ->
  exists at_ t x, let s' := mkst (h ++ HInst c at_ :: t) i fu o in
    construct n c pos kw (mkst h i fu o) = (Ok (VRef (length h)), s') /\
    getattr n (VRef (length h)) p s' = (Ok x, s') /\ declared_type c p = None /\ held h v x.
Proof.
  intros Hn Hc Hu Hl G Hv K. destruct (construct_run n c pos kw h i fu o ltac:(lia) Hc Hu Hl) as (m & rho & at_ & t & Em & HE & Es & Eg & E & F).
  unfold keeps_in in K. rewrite Em in K. destruct (lookup the_prog c p) as [[q|]|] eqn:Eq; try discriminate.
  destruct (m_kind q) eqn:Ek; try discriminate. destruct (m_params q) as [|[s1 [|]] [|]] eqn:Epq; try discriminate.
  destruct (inner_path (m_body q)) as [[d a]|] eqn:Ebq; [|discriminate]. apply inner_path_ok in Ebq.
  apply andb_prop in K as [K KD]. apply andb_prop in K as [K Kp]. apply andb_prop in K as [K1 Kd]. apply String.eqb_eq in K1. subst s1.
  destruct (last_set d (m_body m)) as [[[b1 e] b2]|] eqn:La; [|discriminate]. destruct (F d b1 e b2 La) as (Hr & at1 & t1 & y & t2 & t3 & E1 & _ & Et & Ay).
  destruct (two_lists e) as [[[D x1] x2]|] eqn:Ee; [|discriminate]. apply two_lists_ok in Ee. subst e.
  destruct (parameters D) as [|[q1 d1] [|[q2 d2] [|]]] eqn:EpD; try discriminate.
  apply andb_prop in KD as [KD KU]. apply andb_prop in KD as [KD KK]. apply andb_prop in KD as [KD KN]. apply negb_true_iff in KU, KN.
  assert (HuD : ~ In D uncovered) by (intros HD; apply memb_In in HD; congruence).
  cbn [rhs] in Hr. destruct (get_cls the_prog D) as [kD|] eqn:Ec; [|discriminate]. apply andb_prop in Hr as [_ Hr]. cbn [forallb rhs] in Hr. rewrite !andb_true_r in Hr. apply andb_prop in Hr as [Hx1 Hx2].
  assert (HcD : In D (map fst (p_classes the_prog))).
  { unfold get_cls in Ec. clear -Ec. induction (p_classes the_prog) as [|[z w] r IH]; [discriminate|]. cbn [assoc map fst] in *. destruct (String.eqb_spec D z); [left; congruence|right; auto]. }
  destruct HE as [HL HI]. destruct (HL _ Hx1) as [w1 Ew1]. destruct (HL _ Hx2) as [w2 Ew2].
  set (h1 := h ++ HInst c at1 :: t1) in *.
  destruct (eval_or_list i fu o (run the_prog (pred n)) x1 rho w1 h1 Ew1) as (a1 & u1 & V1 & D1).
  destruct (eval_or_list i fu o (run the_prog (pred n)) x2 rho w2 (h1 ++ u1) Ew2) as (a2 & u2 & V2 & D2).
  set (h2 := (h1 ++ u1) ++ u2) in *.
  assert (EvC : eval the_prog (run the_prog (pred n)) (CallV (Glob D) [OrE (Loc x1) (ListE []); OrE (Loc x2) (ListE [])] []) rho (mkst h1 i fu o) =
     construct (pred n) D [a1; a2] [] (mkst h2 i fu o)).
  { change (eval the_prog (run the_prog (pred n)) (CallV (Glob D) [OrE (Loc x1) (ListE []); OrE (Loc x2) (ListE [])] []) rho) with
      (bind (glob the_prog D) (fun v => bind (callee_of the_prog v) (fun k => bind (bind (eval the_prog (run the_prog (pred n)) (OrE (Loc x1) (ListE [])) rho) (fun v1 =>
        bind (bind (eval the_prog (run the_prog (pred n)) (OrE (Loc x2) (ListE [])) rho) (fun v2 => bind (ret []) (fun vs => ret (v2 :: vs)))) (fun vs => ret (v1 :: vs))))
        (fun vs => apply the_prog (run the_prog (pred n)) k vs [])))).
    unfold bind at 1. unfold glob. rewrite Ec. unfold ret at 1. unfold bind at 1. cbn [callee_of]. unfold ret at 1. unfold bind at 1. unfold bind at 1. rewrite V1.
    unfold bind at 1. unfold bind at 1. rewrite V2. reflexivity. }
  assert (Lh : (length h < length h2)%nat) by (clear -h1 h2; unfold h2, h1; rewrite !app_length; cbn [length]; lia).
  assert (Hh2 : exists u, h2 = h ++ u) by (clear -h1 h2; exists (((HInst c at1 :: t1) ++ u1) ++ u2); unfold h2, h1; rewrite <- !app_assoc; reflexivity).
  (* the argument of D that carries p *)
  assert (P0 : exists aw, given (parameters D) [a1; a2] [] a = Some aw /\ exists_in h2 aw /\ (aw = v \/ truth h v = false /\ exists l, aw = VRef l /\ (length h < l)%nat)).
  { rewrite EpD. assert (W : forall x, String.eqb x p = true -> assoc x rho = Some v) by (intros x Hx; apply String.eqb_eq in Hx; subst x; rewrite Eg; [exact G|eapply In_param; exact G]).
    assert (X : exists_in h2 v) by (clear -Hv Lh; destruct v; try exact I; cbn [exists_in] in *; exact (Nat.lt_trans _ _ _ Hv Lh)).
    apply orb_prop in KD as [KD|KD]; apply andb_prop in KD as [Ka Kb].
    - exists a1. apply String.eqb_eq in Kb. subst q1. split; [unfold given; cbn [map fst position]; rewrite String.eqb_refl; reflexivity|]. rewrite (W _ Ka) in Ew1. injection Ew1 as <-.
      destruct D1 as [[-> ->]|(T & -> & ->)]; [auto|]. split; [clear; unfold h2; cbn [exists_in]; rewrite !app_length; cbn [length]; lia|]. right. split.
      + unfold h1 in T. rewrite truth_app in T by exact Hv. exact T.
      + exists (length h1). split; [reflexivity|]. clear. unfold h1. rewrite app_length. cbn [length]. lia.
    - exists a2. apply String.eqb_eq in Kb. subst q2. split; [unfold given; cbn [map fst position]; rewrite String.eqb_refl, KN; reflexivity|]. rewrite (W _ Ka) in Ew2. injection Ew2 as <-.
      destruct D2 as [[-> ->]|(T & -> & ->)]; [auto|]. split; [clear; unfold h2; cbn [exists_in]; rewrite !app_length; cbn [length]; lia|]. right. split.
      + unfold h1 in T. rewrite <- app_assoc in T. rewrite truth_app in T by exact Hv. exact T.
      + exists (length (h1 ++ u1)). split; [reflexivity|]. clear. unfold h1. rewrite !app_length. cbn [length]. lia. }
  assert (Hn1 : (S depth <= pred n)%nat) by (clear -Hn; lia). destruct P0 as (aw & Gw & Xw & Hw).
  destruct (kept_own (pred n) D [a1; a2] [] h2 i fu o a aw Hn1 HcD HuD (legal_two D q1 q2 d1 d2 a1 a2 EpD KN) Gw Xw KK) as (atD & tD & x & EC & Ax & Sx & Hx).
  rewrite EvC, EC in E1. injection E1 as <- Eh.
  exists at_, t, x. cbn zeta. split; [exact E|]. split; [|split].
  - unfold getattr, get_attr, hget, bind. cbn [heap]. rewrite nth_self, Eq, Ek. destruct n as [|n]; [inversion Hn|]. cbn [run]. rewrite Epq, Ebq. cbn [bind_args length Nat.sub firstn bind_pos skipn combine bind_rest app].
    cbn [run_block exec eval assoc]. rewrite String.eqb_refl. unfold bind, ret.
    rewrite (get_settable (run the_prog n) c d (length h) at_ (VRef (length h2))); [|cbn [heap]; apply nth_self|exact Kd|exact Ay].
    rewrite (get_settable (run the_prog n) D a (length h2) atD x); [reflexivity| |exact Sx|exact Ax].
    cbn [heap]. rewrite (nth_other h _ (HInst c at1)) by (clear -Lh; lia). rewrite Et. rewrite app_comm_cons, app_assoc, <- Eh, <- app_assoc. apply nth_self.
  - unfold plain_param in Kp. destruct (declared_type c p); [discriminate|reflexivity].
  - apply (held_trans h h2 v aw x Hh2 Hv Hw). destruct Hx as [->|[_ Hx]]; [now left|exact Hx].
Qed.

(** ** C61 *)
(** Every class but those of [uncovered], any arguments that Python accepts, any state: the call
    gives a new object, leaves all existing objects and both streams as they were, and every
    argument [v] is found under the name of its parameter [p] (but for those of [lost]): [o.p] is [v] itself,
    or [v] counts as false in Python (None, an empty list, 0, ...), the parameter is not declared as a
    number or character, and [o.p] is an object made by this call. *)
Theorem C61_arguments_partial n c pos kw h i fu o :
  (9 <= n)%nat -> In c (map fst (p_classes the_prog)) -> ~ In c uncovered -> legal (parameters c) pos kw ->
  exists at_ t, let s' := mkst (h ++ HInst c at_ :: t) i fu o in
    construct n c pos kw (mkst h i fu o) = (Ok (VRef (length h)), s') /\
    forall p v, given (parameters c) pos kw p = Some v -> exists_in h v -> ~ In (c, p) lost ->
      exists x, getattr n (VRef (length h)) p s' = (Ok x, s') /\
        (x = v \/ truth h v = false /\ declared_type c p = None /\ exists l, x = VRef l /\ (length h < l)%nat).
Proof.
  intros Hn Hc Hu Hl. change 9%nat with (S (S depth)) in Hn. assert (Hn' : (S depth <= n)%nat) by (clear -Hn; lia).
  destruct (construct_run n c pos kw h i fu o Hn' Hc Hu Hl) as (m & rho & at_ & t & _ & _ & _ & _ & E & _). exists at_, t. cbn zeta. split; [exact E|].
  intros p v G Hv NL. destruct (class_facts c Hc Hu) as (m' & ps & _ & _ & Eps & _ & _ & _ & K).
  assert (Hp : In p (map fst ps)) by (rewrite <- Eps; eapply In_param; exact G).
  destruct (K p Hp NL) as [Kp|Kp].
  - destruct (kept_own n c pos kw h i fu o p v Hn' Hc Hu Hl G Hv Kp) as (at' & t' & x & E' & Ax & Sx & Hx). rewrite E in E'. injection E' as E'. apply app_inst_inj in E' as [<- <-].
    exists x. split; [apply (get_settable _ c p (length h) at_ x); [apply nth_self|exact Sx|exact Ax]|]. destruct Hx as [->|[D [->|[T X]]]]; auto.
  - destruct (kept_inner n c pos kw h i fu o p v Hn Hc Hu Hl G Hv Kp) as (at' & t' & x & E' & Ax & D & Hx). rewrite E in E'. injection E' as E'. apply app_inst_inj in E' as [<- <-].
    exists x. split; [exact Ax|]. destruct Hx as [->|[T X]]; auto.
Qed.

(** *** BeamStatus and TransmitterPdu *)
(** BeamStatus(z) keeps the last bit of z, so it keeps 0 and 1 *)
Theorem C61_beam n z h i fu o : (1 <= n)%nat ->
  exists at_ t, let s' := mkst (h ++ HInst "BeamStatus" at_ :: t) i fu o in
    construct n "BeamStatus" [VInt z] [] (mkst h i fu o) = (Ok (VRef (length h)), s') /\
    construct n "BeamStatus" [] [("beamState", VInt z)] (mkst h i fu o) = (Ok (VRef (length h)), s') /\
    getattr n (VRef (length h)) "beamState" s' = (Ok (VInt (z mod 2)), s').
Proof.
  intros Hn. destruct n as [|n]; [inversion Hn|]. exists [("beamState", VInt (Z.land z 1))], []. cbn zeta.
  pose (m := mkmeth KNormal false [("self", None); ("beamState", Some (DLit (LInt 0)))] [SetAttr (Loc "self") "beamState" (Bin OBitAnd (Loc "beamState") (Lit (LInt 1)))]).
  assert (Em : lookup the_prog "BeamStatus" "__init__" = Some (MMeth m)) by (vm_compute; reflexivity).
  assert (K : forall rho, assoc "self" rho = Some (VRef (length h)) -> assoc "beamState" rho = Some (VInt z) ->
    run_block (exec the_prog (run the_prog n)) (m_body m) rho (mkst (h ++ [HInst "BeamStatus" []]) i fu o) = (Ok (rho, None), mkst (h ++ [HInst "BeamStatus" [("beamState", VInt (Z.land z 1))]]) i fu o)).
  { intros rho E1 E2. unfold m. cbn [m_body run_block exec eval]. rewrite E1, E2. unfold bind, ret. cbn [lit_val binop_val as_int]. unfold ret.
    rewrite (set_attr_self the_prog i fu o h "BeamStatus" "beamState" (VInt (Z.land z 1)) [] []) by reflexivity. reflexivity. }
  assert (A : is_abstract the_prog "BeamStatus" = false) by (vm_compute; reflexivity).
  split; [|split].
  - unfold construct. cbn [apply map snd fst app]. rewrite A. unfold halloc, bind. cbn [heap irest ifull out]. rewrite Em. cbn [run].
    change (bind_args (m_params m) [VRef (length h); VInt z] []) with (Some [("self", VRef (length h)); ("beamState", VInt z)]). cbn beta iota. unfold bind. now rewrite K.
  - unfold construct. cbn [apply map snd fst app]. rewrite A. unfold halloc, bind. cbn [heap irest ifull out]. rewrite Em. cbn [run].
    change (bind_args (m_params m) [VRef (length h); VInt z] ["beamState"]) with (Some [("self", VRef (length h)); ("beamState", VInt z)]). cbn beta iota. unfold bind. now rewrite K.
  - unfold getattr. rewrite (get_settable _ "BeamStatus" "beamState" (length h) [("beamState", VInt (Z.land z 1))] (VInt (Z.land z 1))); [|apply nth_self|vm_compute; reflexivity|reflexivity].
    change (Z.land z 1) with (Z.land z (Z.ones 1)). now rewrite Z.land_ones by lia.
Qed.

(** TransmitterPdu keeps its arguments like the other classes, but for variableTransmitterParameters: if the argument counts as false
    (None, an empty list) the PDU gets a new empty list, and if it is a list, a new list of the same records. Something else that counts as true is
    not considered. *)
Definition vtp : string := "variableTransmitterParameters".
Theorem C61_transmitter n pos kw h i fu o w :
  (9 <= n)%nat -> legal (parameters "TransmitterPdu") pos kw -> given (parameters "TransmitterPdu") pos kw vtp = Some w -> exists_in h w ->
  (truth h w = false \/ exists l vs, w = VRef l /\ nth_error h l = Some (HList vs)) ->
  exists at_ t, let s' := mkst (h ++ HInst "TransmitterPdu" at_ :: t) i fu o in
    construct n "TransmitterPdu" pos kw (mkst h i fu o) = (Ok (VRef (length h)), s') /\
    (forall p v, given (parameters "TransmitterPdu") pos kw p = Some v -> exists_in h v -> p <> vtp ->
      exists x, getattr n (VRef (length h)) p s' = (Ok x, s') /\
        (x = v \/ truth h v = false /\ declared_type "TransmitterPdu" p = None /\ exists l, x = VRef l /\ (length h < l)%nat)) /\
    exists l vs, getattr n (VRef (length h)) vtp s' = (Ok (VRef l), s') /\ (length h < l)%nat /\ nth_error (heap s') l = Some (HList vs) /\
      (truth h w = false /\ vs = [] \/ exists l', w = VRef l' /\ nth_error h l' = Some (HList vs)).
Proof.
  intros Hn Hl Gw Hw Dw. set (c := "TransmitterPdu") in *.
  pose (m := match init_of c with Some m => m | None => mkmeth KNormal false [] [] end). pose (b := removelast (m_body m)).
  pose (e := IfE (Loc vtp) (Builtin BList [Loc vtp]) (ListE [])).
  assert (Em : lookup the_prog c "__init__" = Some (MMeth m)) by (vm_compute; reflexivity).
  assert (Ep : m_params m = ("self", None) :: parameters c) by (vm_compute; reflexivity).
  assert (Eb : m_body m = b ++ [SetAttr (Loc "self") vtp e]) by (vm_compute; reflexivity).
  assert (Ea : is_abstract the_prog c = false) by (vm_compute; reflexivity).
  assert (N : NoDup ("self" :: map fst (parameters c))) by (apply nodup_names_ok; vm_compute; reflexivity).
  assert (B : forallb (stm the_prog (ctor the_prog depth) (init the_prog depth c) c ("self" :: map fst (parameters c)) []) b = true) by (vm_compute; reflexivity).
  assert (KK : forallb (fun p => String.eqb p vtp || settable the_prog c p && keeps_as p p b (plain_param c p)) (map fst (parameters c)) = true) by (vm_compute; reflexivity).
  assert (Sv : settable the_prog c vtp = true) by (vm_compute; reflexivity).
  assert (In vtp (map fst (parameters c))) as Hvtp by (eapply In_param; exact Gw).
  destruct n as [|n]; [inversion Hn|]. assert (Hn' : (depth <= n)%nat) by (clear -Hn; unfold depth; lia).
  destruct (bind_legal (VRef (length h)) (parameters c) pos kw N Hl) as (rho & Er & Es & Eg).
  assert (HE : env_ok ("self" :: map fst (parameters c)) [] rho).
  { split; [|discriminate]. intros x Hx. unfold memb in Hx. cbn [existsb] in Hx. destruct (String.eqb x "self") eqn:Ex; [apply String.eqb_eq in Ex; rewrite Ex; eauto|]. now apply (given_Some_env (parameters c) pos kw). }
  pose proof (ctor_sound the_prog i fu o depth n Hn') as HC. pose proof (ini_sound the_prog i fu o depth n h c Hn') as HI.
  destruct (exec_body the_prog i fu o (run the_prog n) h c _ _ _ _ rho b HC HI HE Es B [] []) as (at1 & t1 & E & _). cbn [app] in E.
  assert (Ew : assoc vtp rho = Some w) by (rewrite Eg; assumption).
  assert (V : exists vs, eval the_prog (run the_prog n) e rho (mkst (h ++ HInst c at1 :: t1) i fu o) = (Ok (VRef (length (h ++ HInst c at1 :: t1))), mkst (h ++ HInst c at1 :: t1 ++ [HList vs]) i fu o) /\
    (truth h w = false /\ vs = [] \/ exists l', w = VRef l' /\ nth_error h l' = Some (HList vs))).
  { assert (T : truth (h ++ HInst c at1 :: t1) w = truth h w) by (now apply truth_app).
    unfold e. cbn [eval]. rewrite Ew. unfold bind at 1, ret at 1. cbn [heap]. rewrite T. destruct (truth h w) eqn:Tw.
    - destruct Dw as [Dw|(l & vs & -> & El)]; [discriminate Dw|]. exists vs. split; [|right; eauto]. cbn [eval_list eval]. rewrite Ew. unfold bind, ret. cbn [builtin_val iter_vals]. unfold hget, bind, ret. cbn [heap].
      assert (l < length h)%nat by (apply nth_error_Some; congruence). rewrite nth_error_app1, El by assumption. unfold halloc. cbn [heap irest ifull out]. now rewrite app_obj.
    - exists []. split; [|left; split; reflexivity]. cbn [eval_list]. unfold bind, ret, halloc. cbn [heap irest ifull out]. now rewrite app_obj. }
  destruct V as (vs & Ev & Dv). set (r := length (h ++ HInst c at1 :: t1)) in *.
  exists (upd vtp (VRef r) at1), (t1 ++ [HList vs]). cbn zeta.
  assert (X : run_block (exec the_prog (run the_prog n)) (m_body m) rho (mkst (h ++ [HInst c []]) i fu o) = (Ok (rho, None), mkst (h ++ HInst c (upd vtp (VRef r) at1) :: t1 ++ [HList vs]) i fu o)).
  { rewrite Eb, CtorRun.run_block_app, E. cbn [run_block exec]. unfold bind at 1. unfold bind at 1. rewrite Ev. cbn [eval]. rewrite Es. unfold bind, ret.
    rewrite (set_attr_self the_prog i fu o h c vtp (VRef r) at1 (t1 ++ [HList vs]) Sv). reflexivity. }
  split; [|split].
  - unfold construct. cbn [apply]. rewrite Ea. unfold halloc, bind. cbn [heap irest ifull out]. rewrite Em. cbn [run]. rewrite Ep, Er. unfold bind. rewrite X. reflexivity.
  - intros p v G Hv Np. assert (Hp : In p (map fst (parameters c))) by (eapply In_param; exact G). rewrite forallb_forall in KK. specialize (KK p Hp).
    apply orb_prop in KK as [KK|KK]; [apply String.eqb_eq in KK; elim Np; exact KK|]. apply andb_prop in KK as [Sp KK].
    assert (Evp : assoc p rho = Some v) by (rewrite Eg; assumption).
    assert (Y : exists x, assoc p at1 = Some x /\ (x = v \/ declared_type c p = None /\ held h v x)).
    { unfold keeps_as in KK. destruct (last_set p b) as [[[b1 f] b2]|] eqn:La; [|discriminate KK]. destruct (last_set_ok _ _ _ _ _ La) as [Ebb Hb]. rewrite Ebb in B.
      assert (Hr : rhs the_prog (ctor the_prog depth) ("self" :: map fst (parameters c)) [] f = true).
      { rewrite forallb_app in B. apply andb_prop in B as [_ B]. cbn [forallb] in B. apply andb_prop in B as [B _]. cbn [stm] in B. now apply andb_prop in B as [_ B]. }
      destruct (exec_last the_prog i fu o (run the_prog n) h c _ _ _ _ rho b1 p f b2 [] [] HC HI HE Es B Hb) as (at2 & t2 & x & t3 & at' & t' & E1 & Sh & E2 & E3).
      cbn [app] in *. rewrite <- Ebb, E in E2. injection E2 as E2. apply app_inst_inj in E2 as [<- ->]. exists x. split; [exact E3|].
      destruct f; try discriminate KK.
      - apply String.eqb_eq in KK. subst x0. cbn [shape] in Sh. left. congruence.
      - destruct f1; try discriminate KK. apply andb_prop in KK as [KK Kd]. apply andb_prop in KK as [KK Ka]. apply String.eqb_eq in KK. subst x0.
        cbn [rhs] in Hr. apply andb_prop in Hr as [_ Hr].
        destruct (eval_or i fu o (run the_prog n) p f2 rho v (h ++ HInst c at2 :: t2) _ _ _ HC HE Evp Hr Ka) as (y & t4 & E4 & D).
        rewrite E1 in E4. injection E4 as <- _. rewrite truth_app in D by exact Hv.
        destruct D as [(-> & _)|(T & l & -> & L)]; [now left|]. right. split.
        + unfold plain_param in Kd. destruct (declared_type c p); [discriminate Kd|reflexivity].
        + right. split; [exact T|]. exists l. split; [reflexivity|]. rewrite app_length in L. cbn [length] in L. clear -L. lia. }
    destruct Y as (x & Ax & Hx). exists x. split.
    + apply (get_settable _ c p (length h) (upd vtp (VRef r) at1) x); [apply nth_self|exact Sp|]. rewrite assoc_upd_ne; [exact Ax|]. now apply String.eqb_neq.
    + destruct Hx as [->|[D [->|[T Y]]]]; auto.
  - exists r, vs. split; [apply (get_settable _ c vtp (length h) (upd vtp (VRef r) at1) (VRef r)); [apply nth_self|exact Sv|apply assoc_upd_eq]|].
    unfold r. rewrite app_length. cbn [length]. split; [clear; lia|]. cbn [heap]. split; [|exact Dv]. rewrite app_comm_cons, app_assoc, nth_error_app2 by (rewrite app_length; cbn [length]; clear; lia).
    rewrite app_length. cbn [length]. now rewrite Nat.sub_diag.
Qed.

(** the arguments given for the parameters of [lost] are dropped or kept under another name *)
Theorem C61_lost_refuted c p : In (c, p) lost -> exists s l s',
  construct 9 c [] [(p, VInt 5)] s = (Ok (VRef l), s') /\ fst (getattr 9 (VRef l) p s') <> Ok (VInt 5).
Proof.
  intros H. exists (mkst [] [] [] []).
  assert (A : forallb (fun q => match construct 9 (fst q) [] [(snd q, VInt 5)] (mkst [] [] [] []) with
                         | (Ok (VRef l), s') => match fst (getattr 9 (VRef l) (snd q) s') with Ok (VInt z) => negb (Z.eqb z 5) | _ => true end
                         | _ => false end) lost = true) by (vm_compute; reflexivity).
  rewrite forallb_forall in A. specialize (A (c, p) H). cbn [fst snd] in A. destruct (construct 9 c [] [(p, VInt 5)] (mkst [] [] [] [])) as [[v|] s']; [|discriminate].
  destruct v; try discriminate. exists l, s'. split; [reflexivity|]. intros E. rewrite E in A. discriminate.
Qed.

(** how many constructors and parameters the theorem speaks of *)
Example C61_extent : length (filter (fun c => negb (memb c uncovered)) (map fst (p_classes the_prog))) = 175%nat /\
  length (flat_map (fun c => map fst (parameters c)) (filter (fun c => negb (memb c uncovered)) (map fst (p_classes the_prog)))) = 780%nat.
Proof. vm_compute. auto. Qed.

(** EntityStatePdu(id, 2, marking=mk, capabilities=7) on a heap that holds the two records *)
Example C61_case : let h := [HInst "EntityIdentifier" [("entityNumber", VInt 9)]; HInst "EntityMarking" []; HList []] in
  let pos := [VRef 0; VInt 2] in let kw := [("marking", VRef 1); ("variableParameters", VRef 2); ("capabilities", VInt 7)] in
  In "EntityStatePdu" (map fst (p_classes the_prog)) /\ ~ In "EntityStatePdu" uncovered /\ legal (parameters "EntityStatePdu") pos kw /\
  (forall p, In p ["entityID"; "forceId"; "marking"; "variableParameters"; "capabilities"; "entityAppearance"] -> exists v, given (parameters "EntityStatePdu") pos kw p = Some v /\ exists_in h v) /\
  match construct 9 "EntityStatePdu" pos kw (mkst h [] [] []) with
  | (Ok o, s) => map (fun p => fst (getattr 9 o p s)) ["entityID"; "forceId"; "marking"; "capabilities"; "entityAppearance"] = map Ok [VRef 0; VInt 2; VRef 1; VInt 7; VInt 0]
  | _ => False
  end.
Proof.
  cbn zeta. split; [|split; [|split; [|split]]].
  - apply memb_In. vm_compute. reflexivity.
  - intros H. apply memb_In in H. vm_compute in H. discriminate.
  - split; [vm_compute; lia|]. split; [apply nodup_names_ok; reflexivity|]. split.
    + intros x H. apply memb_In. cbn [map fst In] in H. destruct H as [<-|[<-|[<-|[]]]]; vm_compute; reflexivity.
    + intros x H. change (map fst (parameters "EntityStatePdu")) with ["entityID"; "forceId"; "entityType"; "alternativeEntityType"; "entityLinearVelocity"; "entityLocation"; "entityOrientation"; "entityAppearance"; "deadReckoningParameters"; "marking"; "capabilities"; "variableParameters"] in H.
      cbn [In] in H. repeat (destruct H as [<-|H]; [eexists; vm_compute; reflexivity|]). easy.
  - intros p H. cbn [In] in H. repeat (destruct H as [<-|H]; [eexists; split; [vm_compute; reflexivity|vm_compute; auto; lia]|]). easy.
  - vm_compute. reflexivity.
Qed.

(** an example of each kind of exception: EngineFuel(5) holds 0; EngineFuelReload(fuelMeasurementUnits=5) has no such attribute *)
Example C61_lost_case :
  match construct 9 "EngineFuel" [VInt 5] [] (mkst [] [] [] []) with (Ok o, s) => fst (getattr 9 o "fuelQuantity" s) = Ok (VInt 0) | _ => False end /\
  match construct 9 "EngineFuelReload" [] [("fuelMeasurementUnits", VInt 5)] (mkst [] [] [] []) with
  | (Ok o, s) => fst (getattr 9 o "fuelMeasurementUnits" s) = Exc AttributeError /\ fst (getattr 9 o "fuelMeasurmentUnits" s) = Ok (VInt 5) | _ => False end.
Proof. vm_compute. auto. Qed.

(** TransmitterPdu(None, 3, power=..., variableTransmitterParameters=l) with a list of one record *)
Example C61_transmitter_case : let h := [HInst "EntityIdentifier" []; HList [VRef 0]] in let pos := [VNone; VInt 3] in let kw := [("inputSource", VInt 4); (vtp, VRef 1)] in
  legal (parameters "TransmitterPdu") pos kw /\ given (parameters "TransmitterPdu") pos kw vtp = Some (VRef 1) /\ exists_in h (VRef 1) /\
  (exists l vs, VRef 1 = VRef l /\ nth_error h l = Some (HList vs)) /\
  match construct 9 "TransmitterPdu" pos kw (mkst h [] [] []) with
  | (Ok p, s) => map (fun a => fst (getattr 9 p a s)) ["radioNumber"; "inputSource"] = [Ok (VInt 3); Ok (VInt 4)] /\
      match fst (getattr 9 p vtp s) with Ok (VRef l) => l <> 1%nat /\ nth_error (heap s) l = Some (HList [VRef 0]) | _ => False end
  | _ => False
  end.
Proof.
  cbn zeta. split; [|split; [vm_compute; reflexivity|split; [cbn; lia|split; [exists 1%nat, [VRef 0]; split; reflexivity|]]]].
  - split; [vm_compute; lia|]. split; [apply nodup_names_ok; reflexivity|]. split.
    + intros x H. apply memb_In. cbn [map fst In] in H. destruct H as [<-|[<-|[]]]; vm_compute; reflexivity.
    + intros x H. assert (A : forallb (fun x => match given (parameters "TransmitterPdu") [VNone; VInt 3] [("inputSource", VInt 4); (vtp, VRef 1)] x with Some _ => true | None => false end) (map fst (parameters "TransmitterPdu")) = true) by (vm_compute; reflexivity).
      rewrite forallb_forall in A. specialize (A x H). destruct (given _ _ _ x); [eauto|discriminate A].
  - vm_compute. split; [reflexivity|]. split; [discriminate|reflexivity].
Qed.
Example C61_beam_case : match construct 1 "BeamStatus" [VInt 5] [] (mkst [] [] [] []) with (Ok o, s) => fst (getattr 1 o "beamState" s) = Ok (VInt 1) | _ => False end.
Proof. vm_compute. reflexivity. Qed.

Definition all_PropCtor := (C61_arguments_partial, C61_beam, C61_transmitter, C61_lost_refuted).
Print Assumptions all_PropCtor.
