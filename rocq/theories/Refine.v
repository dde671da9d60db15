(** * The program meets its layouts

    [serialize_spec]: serialize writes exactly what [encode] says of the object's contents, or stops with
    the same exception after the same bytes.  [load_spec]: constructing an object and parsing into it
    gives what [decode] says of the input.  Both for every class of the tables of [Layouts.v], every
    state, and every interpreter fuel from [fuel_ok] on. *)
From Coq Require Import ZArith String List Bool Lia.
From Coq Require Import Strings.Byte.
From Verif Require Import Lang Bytes Interp Shift Mono ProgBase ProgDis Prog Spec Codec Codec2 Rep Dec StreamLem SerSound ParSound ParStep ParClass NewSound Layouts.
Import ListNotations.
Open Scope string_scope. Open Scope Z_scope. Open Scope list_scope.

(** ** Decoded values have the layout's shape *)
Lemma shaped_ext f : forall W W', (forall a, In a (names f) -> field a W' = field a W) -> shaped f W -> shaped f W'.
Proof.
  induction f; intros W W' E H; cbn [shaped names] in *; try exact I; try (eapply IHf; [|exact H]; intros; apply E; auto; try (right; assumption); apply in_or_app; auto; fail).
  - destruct H as [(w & A & B) H]. split; [exists w; rewrite E by (left; reflexivity); auto|]. eapply IHf2; [|exact H]. intros; apply E; right; assumption.
  - destruct H as [(w & A & B) H]. split; [exists w; rewrite E by (left; reflexivity); auto|]. eapply IHf2; [|exact H]. intros; apply E; right; assumption.
Qed.

Fixpoint oldshaped (f : fmt) (W0 : flds) : Prop :=
  match f with
  | Done => True
  | Obj a _ sub k => oldshaped sub (old_obj a W0) /\ oldshaped k W0
  | OList a _ sub k => Forall (fun x => exists w, x = WObj w /\ map fst w = names sub /\ shaped sub w) (old_list a W0) /\ oldshaped k W0
  | Prim _ _ k | Mask _ _ k | Cnt _ _ _ k | Zero _ k | Pad _ k | Derive _ _ _ k | PList _ _ k | Arr _ _ _ k
  | VList _ _ _ _ k | Bits _ k | NullL _ k => oldshaped k W0
  end.

Lemma oldshaped_nil f : oldshaped f [].
Proof. induction f; cbn [oldshaped]; auto. split; auto. constructor. Qed.

Lemma shaped_old f : forall W, shaped f W -> oldshaped f W.
Proof.
  induction f; intros W H; cbn [shaped oldshaped] in *; auto.
  - destruct H as [(w & A & _ & B) H]. split; [|auto]. unfold old_obj. rewrite A. auto.
  - destruct H as [(l & A & B) H]. split; [|auto]. unfold old_list. rewrite A. exact B.
Qed.

Lemma dec_list_Forall {A} (d : list byte -> dres A) (Q : A -> Prop) n : (forall bs a r, d bs = DOk a r -> Q a) ->
  forall bs l r, dec_list d n bs = DOk l r -> Forall Q l.
Proof.
  intros Hd. induction n as [|n IH]; intros bs l r; cbn [dec_list].
  - intros [= <- <-]. constructor.
  - destruct (d bs) as [a t|] eqn:E; cbn [dbind]; [|discriminate]. destruct (dec_list d n t) as [l' t'|] eqn:E2; cbn [dmap]; [|discriminate].
    intros [= <- <-]. constructor; eauto.
Qed.

Lemma decode_names f W0 C bs W r : decode f W0 C bs = DOk W r -> map fst W = names f.
Proof.
  rewrite dec2_decode. destruct (dec2 f W0 C bs) as [[W' C'] r'|] eqn:E; cbn [dmap]; [|discriminate]. intros [= <- <-]. eapply dec2_names; eauto.
Qed.

Lemma decode_shaped f : subs_nodup f = true -> nodupb (names f) = true -> forall W0 C bs W r, oldshaped f W0 -> decode f W0 C bs = DOk W r -> shaped f W.
Proof.
  assert (Skip : forall a (k : fmt) x (W : flds), negb (mem a (names k)) = true -> shaped k W -> shaped k ((a, x) :: W)).
  { intros a k x W Hm. apply shaped_ext. intros b Hb. apply field_skip. intros ->. apply mem_In in Hb. rewrite Hb in Hm. discriminate. }
  induction f; intros HS HN W0 C bs W r HO E; cbn [subs_nodup names nodupb oldshaped shaped decode] in *.
  - exact I.
  - apply andb_prop in HN as [N1 N2]. destruct (dec_val p bs) as [x t|]; cbn [dbind] in E; [|discriminate].
    destruct (decode f W0 _ t) as [W' t'|] eqn:E2; cbn [dmap] in E; [|discriminate]. injection E as <- <-. apply Skip; eauto.
  - apply andb_prop in HN as [N1 N2]. apply andb_prop in HS as [HS S3]. apply andb_prop in HS as [S1 S2]. destruct HO as [O1 O2].
    destruct (decode f1 _ [] bs) as [x t|] eqn:E1; cbn [dbind] in E; [|discriminate].
    destruct (decode f2 W0 _ t) as [W' t'|] eqn:E2; cbn [dmap] in E; [|discriminate]. injection E as <- <-. split; [|apply Skip; eauto].
    exists x. cbn [field]. rewrite String.eqb_refl. split; [reflexivity|]. split; [eapply decode_names; eauto|eapply IHf1; eauto].
  - destruct (dec_val p bs) as [x t|]; cbn [dbind] in E; [|discriminate]. destruct (wint x); [|discriminate]. eauto.
  - apply andb_prop in HN as [N1 N2]. destruct (count _ C); [|discriminate]. destruct (dec_list _ _ bs) as [x t|]; cbn [dbind] in E; [|discriminate].
    destruct (decode f W0 _ t) as [W' t'|] eqn:E2; cbn [dmap] in E; [|discriminate]. injection E as <- <-. apply Skip; eauto.
  - apply andb_prop in HN as [N1 N2]. apply andb_prop in HS as [HS S3]. apply andb_prop in HS as [S1 S2]. destruct HO as [O1 O2].
    destruct (count _ C); [|discriminate]. destruct (dec_list _ _ bs) as [x t|] eqn:E1; cbn [dbind] in E; [|discriminate].
    destruct (decode f2 W0 _ t) as [W' t'|] eqn:E2; cbn [dmap] in E; [|discriminate]. injection E as <- <-. split; [|apply Skip; eauto].
    eexists. cbn [field]. rewrite String.eqb_refl. split; [reflexivity|]. apply Forall_app. split; [exact O1|].
    eapply dec_list_Forall with (Q := fun w => map fst w = names f1 /\ shaped f1 w) in E1.
    + clear -E1. induction E1; constructor; auto. eexists. split; [reflexivity|]. auto.
    + intros. split; [eapply decode_names; eauto|]. eapply IHf1; eauto. apply oldshaped_nil.
  - apply andb_prop in HN as [N1 N2]. destruct (dec_list _ _ bs) as [x t|]; cbn [dbind] in E; [|discriminate].
    destruct (decode f W0 _ t) as [W' t'|] eqn:E2; cbn [dmap] in E; [|discriminate]. injection E as <- <-. apply Skip; eauto.
  - destruct (dec_val p bs) as [x t|]; cbn [dbind] in E; [|discriminate]. eauto.
  - apply andb_prop in HN as [N1 N2]. destruct (dec_val _ bs) as [x t|]; cbn [dbind] in E; [|discriminate]. destruct (wint x); [|discriminate].
    destruct (decode f W0 _ t) as [W' t'|] eqn:E2; cbn [dmap] in E; [|discriminate]. injection E as <- <-. apply Skip; eauto.
  - apply andb_prop in HN as [N1 N2]. destruct (count _ C); [|discriminate]. destruct (dec_list _ _ bs) as [x t|]; cbn [dbind] in E; [|discriminate].
    destruct (decode f W0 _ t) as [W' t'|] eqn:E2; cbn [dmap] in E; [|discriminate]. injection E as <- <-. apply Skip; eauto.
  - destruct (count _ C); [|discriminate]. destruct (dec_list _ _ bs) as [x t|]; cbn [dbind] in E; [|discriminate]. eauto.
  - destruct (count _ C); [|discriminate]. eauto.
  - destruct (_ <=? _)%nat; [|discriminate]. destruct (decode f W0 _ _) as [W' t'|] eqn:E2; cbn [dmap] in E; [|discriminate]. injection E as <- <-.
    apply nodupb_NoDup, NoDup_app_inv in HN as (N1 & N2 & N3).
    eapply shaped_ext; [|eapply IHf; eauto].
    + intros b Hb. apply field_cat2. rewrite dec_bits_names. intros Hi. apply (N3 _ Hi Hb).
    + clear -N2. induction (names f) as [|a l IH]; [reflexivity|]. inversion N2; subst. cbn [nodupb]. rewrite IH by assumption. rewrite andb_true_r.
      destruct (mem a l) eqn:Em; [|reflexivity]. apply mem_In in Em. contradiction.
  - apply andb_prop in HN as [N1 N2]. destruct (count _ C); [|discriminate]. destruct (_ <=? 0); [|discriminate].
    destruct (decode f W0 _ _) as [W' t'|] eqn:E2; cbn [dmap] in E; [|discriminate]. injection E as <- <-. apply Skip; eauto.
Qed.

(** ** Objects holding a value *)
(** o is an object of class c holding W in fields laid out by f, at the heap locations l :: fp, all distinct
    (no part of the object is shared with another part of it) *)
Definition holds_at (P : prog) (h : list hobj) (c : string) (f : fmt) (o : val) (W : flds) (l : nat) (fp : list nat) : Prop :=
  exists at_, o = VRef l /\ nth_error h l = Some (HInst c at_) /\ rep P h f (getA P c at_) W fp /\ NoDup (l :: fp).
Definition holds (P : prog) (h : list hobj) (c : string) (f : fmt) (o : val) (W : flds) : Prop := exists l fp, holds_at P h c f o W l fp.

Lemma holds_contents P h c f o W : subs_nodup f = true -> nodupb (names f) = true -> holds P h c f o W -> shaped f W -> map fst W = names f ->
  contents P h c f o = Some W.
Proof.
  intros HS HN (l & fp & at_ & -> & E & HR & _) Sh Hm. cbn [contents]. rewrite E, String.eqb_refl. erewrite rep_read by eauto.
  f_equal. rewrite <- Hm. apply proj_id. rewrite Hm. now apply nodupb_NoDup.
Qed.

(** an object that holds a value can be parsed into again *)
Lemma rep_ready P f : forall h D at_ W fp, has_bits f = false -> rep P h f (getA P D at_) W fp ->
  exists fp', ready P h f D at_ W fp' /\ (forall x, In x fp' -> In x fp) /\ (NoDup fp -> NoDup fp').
Proof.
  induction f; intros h D at_ W fp HB H; cbn [rep ready has_bits] in *.
  all: try (apply orb_false_iff in HB as [HB1 HB2]).
  all: try (match type of H with _ /\ _ => destruct H as [_ H] end); try (apply IHf with (W := W) (1 := HB) in H; exact H).
  - subst. exists []. repeat split; auto.
  - destruct H as (l & at' & w & fp1 & fp2 & A & B & C & R1 & R2 & ->).
    destruct (IHf1 _ _ _ _ _ HB1 R1) as (q1 & Q1 & I1 & N1). destruct (IHf2 _ _ _ _ _ HB2 R2) as (q2 & Q2 & I2 & N2).
    exists (l :: q1 ++ q2). split; [|split].
    + exists l, at', q1, q2. unfold old_obj. rewrite C. auto.
    + intros x [<-|Hx]; [now left|]. right. apply in_app_or in Hx as [Hx|Hx]; apply in_or_app; auto.
    + intros HN. inversion HN as [|? ? X1 X2]; subst. apply NoDup_app_inv in X2 as (Y1 & Y2 & Y3). constructor.
      * intros Hx. apply X1. apply in_app_or in Hx as [Hx|Hx]; apply in_or_app; auto.
      * apply NoDup_app; auto. intros x Hx Hy. eapply Y3; eauto.
  - destruct H as (l & vs & ws & fp2 & A & B & C & D' & R & ->). destruct (IHf _ _ _ _ _ HB R) as (q & Q & I1 & N1).
    exists (l :: q). split; [|split].
    + exists l, vs, q. unfold old_list. rewrite C. auto.
    + intros x [<-|Hx]; [now left|right; auto].
    + intros HN. inversion HN; subst. constructor; auto.
  - destruct H as (l & vs & ws & fps & fp2 & A & B & C & D' & R & ->). destruct (IHf2 _ _ _ _ _ HB2 R) as (q & Q & I1 & N1).
    exists (l :: concat fps ++ q). split; [|split].
    + exists l, vs, fps, q. unfold old_list. rewrite C. auto.
    + intros x [<-|Hx]; [now left|]. right. apply in_app_or in Hx as [Hx|Hx]; apply in_or_app; auto.
    + intros HN. inversion HN as [|? ? X1 X2]; subst. apply NoDup_app_inv in X2 as (Y1 & Y2 & Y3). constructor.
      * intros Hx. apply X1. apply in_app_or in Hx as [Hx|Hx]; apply in_or_app; auto.
      * apply NoDup_app; auto. intros x Hx Hy. eapply Y3; eauto.
  - destruct H as (l & vs & ws & fp2 & A & B & C & D' & R & ->). destruct (IHf _ _ _ _ _ HB R) as (q & Q & I1 & N1).
    exists q. split; [exact Q|]. split; [right; auto|]. intros HN. inversion HN; subst. auto.
  - destruct H as (l & vs & ws & fp2 & A & B & C & D' & R & ->). destruct (IHf _ _ _ _ _ HB R) as (q & Q & I1 & N1).
    exists (l :: q). split; [|split].
    + exists l, vs, q. unfold old_list. rewrite C. auto.
    + intros x [<-|Hx]; [now left|right; auto].
    + intros HN. inversion HN; subst. constructor; auto.
  - discriminate.
  - destruct H as (l & fp2 & A & B & C & R & ->). destruct (IHf _ _ _ _ _ HB R) as (q & Q & I1 & N1).
    exists (l :: q). split; [|split].
    + exists l, q. auto.
    + intros x [<-|Hx]; [now left|right; auto].
    + intros HN. inversion HN; subst. constructor; auto.
Qed.

(** ** The tables hold for the program *)
Definition new_fuel_ : nat := 10.
(** the classes that can be constructed without arguments *)
Definition NC : list string := Eval vm_compute in map fst (filter (fun p => newb the_prog new_fuel_ (fst p) (snd p)) TR).

(** Attributes that parse stores besides the fields of the layout: FastEntityStatePdu.numberOfVariableParameters,
    GridAxisDescriptorVariable.numberOfPointsOnXiAxis.  The latter is a field of another class, hence the two tables. *)
Definition X1 : list string := ["numberOfVariableParameters"].
Definition X2 : list string := ["numberOfPointsOnXiAxis"].
Definition TR1 : list (string * fmt) := filter (fun p => negb (String.eqb (fst p) "GridAxisDescriptorVariable")) TR.
Definition TR2 : list (string * fmt) := [("GridAxisDescriptorVariable", w_GridAxisDescriptorVariable)].

Lemma out_cls : get_cls the_prog "DataOutputStream" = Some c_DataOutputStream. Proof. vm_compute. reflexivity. Qed.
Lemma in_cls : get_cls the_prog "DataInputStream" = Some c_DataInputStream. Proof. vm_compute. reflexivity. Qed.
Lemma X1_struct : ~ In "_struct" X1. Proof. intros [H|[]]; discriminate. Qed.
Lemma X2_struct : ~ In "_struct" X2. Proof. intros [H|[]]; discriminate. Qed.
Lemma no_shared : no_shared_defaults the_prog = true. Proof. vm_compute. reflexivity. Qed.

Lemma tabS : tab_okS the_prog TW = true. Proof. vm_compute. reflexivity. Qed.
Lemma nestS : nest_ok TW = true. Proof. vm_compute. reflexivity. Qed.
Lemma tabP1 : tab_okP the_prog TR1 X1 NC = true. Proof. vm_compute. reflexivity. Qed.
Lemma tabP2 : tab_okP the_prog TR2 X2 NC = true. Proof. vm_compute. reflexivity. Qed.
Lemma nestP1 : nest_ok TR1 = true. Proof. vm_compute. reflexivity. Qed.
Lemma nestP2 : nest_ok TR2 = true. Proof. vm_compute. reflexivity. Qed.
Definition tidy (T : list (string * fmt)) : bool := forallb (fun p => subs_nodup (snd p) && nodupb (names (snd p))) T.
Lemma tidyS : tidy TW = true. Proof. vm_compute. reflexivity. Qed.
Lemma tidyP : tidy TR = true. Proof. vm_compute. reflexivity. Qed.

Lemma tidy_inv T c f : tidy T = true -> assoc c T = Some f -> subs_nodup f = true /\ nodupb (names f) = true.
Proof.
  intros H E. apply assoc_In in E. unfold tidy in H. rewrite forallb_forall in H. specialize (H _ E). cbn [snd] in H. now apply andb_prop in H.
Qed.

Lemma new_all i fu : map (fun c => new the_prog new_fuel_ c [] (mkst [] i fu [])) NC =
  map (fun c => match new_res the_prog new_fuel_ c with Some (h, l) => (Ok (VRef l), mkst h i fu []) | None => (Exc Unsupported, mkst [] i fu []) end) NC.
Proof. vm_compute. reflexivity. Qed.

Lemma newb_all : forallb (fun p => negb (mem (fst p) NC) || newb the_prog new_fuel_ (fst p) (snd p)) TR = true.
Proof. vm_compute. reflexivity. Qed.

Lemma map_In_eq {A B} (f g : A -> B) l x : map f l = map g l -> In x l -> f x = g x.
Proof. induction l as [|a r IH]; cbn [map In]; [tauto|]. intros [= E1 E2] [<-|H]; auto. Qed.

Lemma new_pure_NC c : mem c NC = true -> new_pure the_prog new_fuel_ c.
Proof. intros H i fu. apply mem_In in H. exact (map_In_eq _ _ _ _ (new_all i fu) H). Qed.

Lemma new_at_NC c f : assoc c TR = Some f -> mem c NC = true -> new_at the_prog new_fuel_ c f.
Proof.
  intros A H. apply (newb_at the_prog no_shared); [|now apply new_pure_NC]. pose proof newb_all as E. rewrite forallb_forall in E.
  specialize (E _ (assoc_In _ _ _ A)). cbn [fst snd] in E. now rewrite H in E.
Qed.

Lemma new_ok_NC n c f : assoc c TR = Some f -> mem c NC = true -> (new_fuel_ <= n)%nat -> new_ok the_prog n c f.
Proof. intros A H Hn. eapply (new_at_ok the_prog no_shared); [exact Hn|]. now apply new_at_NC. Qed.

Lemma assoc_filter {A} (q : string -> bool) (T : list (string * A)) c : assoc c (filter (fun p => q (fst p)) T) = if q c then assoc c T else None.
Proof.
  induction T as [|[d f] T IH]; cbn [filter assoc]; [now destruct (q c)|]. cbn [fst]. destruct (q d) eqn:Q; cbn [assoc].
  - destruct (String.eqb_spec c d) as [->|]; [now rewrite Q|exact IH].
  - rewrite IH. destruct (String.eqb_spec c d) as [->|]; [now rewrite Q|reflexivity].
Qed.

Lemma TR1_TR c f : assoc c TR1 = Some f -> assoc c TR = Some f.
Proof. unfold TR1. rewrite (assoc_filter (fun x => negb (String.eqb x "GridAxisDescriptorVariable"))). now destruct (negb _). Qed.
Lemma TR2_TR c f : assoc c TR2 = Some f -> assoc c TR = Some f.
Proof.
  cbn [assoc TR2]. destruct (String.eqb_spec c "GridAxisDescriptorVariable") as [->|]; [|discriminate]. intros [= <-]. vm_compute. reflexivity.
Qed.
Lemma TR_split c f : assoc c TR = Some f -> assoc c TR1 = Some f \/ assoc c TR2 = Some f.
Proof.
  intros H. destruct (String.eqb_spec c "GridAxisDescriptorVariable") as [->|N].
  - right. rewrite <- H. vm_compute. reflexivity.
  - left. unfold TR1. rewrite (assoc_filter (fun x => negb (String.eqb x "GridAxisDescriptorVariable"))).
    destruct (String.eqb_spec c "GridAxisDescriptorVariable"); [contradiction|exact H].
Qed.

Lemma need_new n sub : (need 0 (S (nest sub)) <= n)%nat -> (new_fuel_ <= n)%nat.
Proof. unfold need, G, new_fuel_. lia. Qed.

(** ** serialize *)
Theorem serialize_spec n c f o s W : (fuel_ok <= n)%nat -> assoc c TW = Some f -> contents the_prog (heap s) c f o = Some W ->
  call_method the_prog n o "serialize" [VOut] s = oc (encode f W) VNone s.
Proof.
  intros Hn A H. destruct (tidy_inv _ _ _ tidyS A) as [S1 S2]. unfold contents in H.
  destruct o as [ | | | | | |l| | | | | | | | | | | ]; try discriminate. destruct (nth_error (heap s) l) as [[d at_|]|] eqn:E; try discriminate.
  destruct (String.eqb_spec c d) as [->|]; [|discriminate]. destruct (read_rep the_prog f S1 S2 _ _ _ H) as (fp & HR). specialize (HR W (fun _ _ => eq_refl)).
  eapply (ser_sound the_prog); eauto using out_cls, tabS, nestS.
Qed.

Lemma serialize_holds n c f o s W : (fuel_ok <= n)%nat -> assoc c TW = Some f -> holds the_prog (heap s) c f o W ->
  call_method the_prog n o "serialize" [VOut] s = oc (encode f W) VNone s.
Proof. intros Hn A (l & fp & at_ & -> & E & HR & _). eapply (ser_sound the_prog); eauto using out_cls, tabS, nestS. Qed.

(** ** parse *)
Definition par_result (n : nat) (c : string) (f : fmt) (o : val) (s : st) (l : nat) (fp : list nat) (d : dres flds) : Prop :=
  match d with
  | DOk W r => exists s' fp', call_method the_prog n o "parse" [VIn] s = (Ok VNone, s') /\
      holds_at the_prog (heap s') c f o W l fp' /\ (forall x, In x fp' -> In x fp \/ (length (heap s) <= x)%nat) /\
      fr (fun x => x = l \/ In x fp) (heap s) (heap s') /\ irest s' = r /\ ifull s' = ifull s /\ out s' = out s
  | DErr e => exists s', call_method the_prog n o "parse" [VIn] s = (Exc e, s')
  end.

Lemma parse_ready n c f s W0 fp l at_ : (fuel_ok <= n)%nat -> assoc c TR = Some f -> nth_error (heap s) l = Some (HInst c at_) ->
  ready the_prog (heap s) f c at_ W0 fp -> NoDup (l :: fp) -> par_result n c f (VRef l) s l fp (decode f W0 [] (irest s)).
Proof.
  intros Hn A E HR HN. unfold par_result.
  assert (Q : match decode f W0 [] (irest s) with
              | DOk W r => exists X s' at' fp', call_method the_prog n (VRef l) "parse" [VIn] s = (Ok VNone, s') /\ post the_prog X s l c at_ fp f W r s' at' fp'
              | DErr e => exists s', call_method the_prog n (VRef l) "parse" [VIn] s = (Exc e, s') end).
  { destruct (TR_split _ _ A) as [A1|A1].
    - assert (Q := par_sound the_prog in_cls TR1 X1 NC X1_struct tabP1
        (fun c sub H1 H2 n Hn => new_ok_NC n c sub (TR1_TR _ _ H1) H2 (need_new _ _ Hn)) n c f (VRef l) s W0 fp nestP1 Hn A1 l at_ eq_refl E HR HN).
      destruct (decode f W0 [] (irest s)); [|exact Q]. exists X1. exact Q.
    - assert (Q := par_sound the_prog in_cls TR2 X2 NC X2_struct tabP2
        (fun c sub H1 H2 n Hn => new_ok_NC n c sub (TR2_TR _ _ H1) H2 (need_new _ _ Hn)) n c f (VRef l) s W0 fp nestP2 Hn A1 l at_ eq_refl E HR HN).
      destruct (decode f W0 [] (irest s)); [|exact Q]. exists X2. exact Q. }
  destruct (decode f W0 [] (irest s)); [|exact Q]. destruct Q as (X & s' & at' & fp' & E1 & Po). exists s', fp'. split; [exact E1|].
  destruct Po. split; [|auto]. exists at'. auto.
Qed.

(** parse into an object that already holds W0 (its lists keep their elements: [old_list]) *)
Theorem reparse_spec n c f s o W0 l fp : (fuel_ok <= n)%nat -> assoc c TR = Some f -> has_bits f = false ->
  holds_at the_prog (heap s) c f o W0 l fp -> par_result n c f o s l fp (decode f W0 [] (irest s)).
Proof.
  intros Hn A HB (at_ & -> & E & HR & HN). destruct (rep_ready _ _ _ _ _ _ _ HB HR) as (fp' & Q & I1 & N1). inversion HN as [|? ? Y1 Y2]; subst.
  assert (R := parse_ready n c f s W0 fp' l at_ Hn A E Q). specialize (R ltac:(constructor; auto)). unfold par_result in *.
  destruct (decode f W0 [] (irest s)) as [W r|]; [|exact R]. destruct R as (s' & fq & E1 & H1 & H2 & H3 & H4). exists s', fq.
  split; [exact E1|]. split; [exact H1|]. split; [intros x Hx; destruct (H2 x Hx); auto|]. split; [|exact H4].
  destruct H3 as [L1 L2]. split; [exact L1|]. intros x Hx Hk. apply L2; [exact Hx|]. intros [->|Hi]; apply Hk; auto.
Qed.

(** ** construct and parse *)
Definition load (P : prog) (n : nat) (c : string) : M val :=
  bind (new P n c []) (fun o => bind (call_method P n o "parse" [VIn]) (fun _ => ret o)).

Theorem load_spec n c f s : (fuel_ok <= n)%nat -> assoc c TR = Some f -> mem c NC = true ->
  match decode f [] [] (irest s) with
  | DOk W r => exists o s' l fp, load the_prog n c s = (Ok o, s') /\ holds_at the_prog (heap s') c f o W l fp /\
      contents the_prog (heap s') c f o = Some W /\ (forall x, In x (l :: fp) -> (length (heap s) <= x)%nat) /\
      fr (fun _ => False) (heap s) (heap s') /\ irest s' = r /\ ifull s' = ifull s /\ out s' = out s
  | DErr e => exists s', load the_prog n c s = (Exc e, s')
  end.
Proof.
  intros Hn A HC. destruct (tidy_inv _ _ _ tidyP A) as [S1 S2].
  assert (Hf : (new_fuel_ <= n)%nat) by (unfold fuel_ok, need, G, Dp, new_fuel_ in *; lia).
  destruct (new_ok_NC n c f A HC Hf s) as (s1 & l & at_ & fp & E1 & E2 & E3 & E4 & E5 & E6 & E7 & E8 & E9).
  assert (R := parse_ready n c f s1 [] fp l at_ Hn A E2 E3 E4). rewrite E7 in R. unfold par_result in R. unfold load, bind, ret, new. rewrite E1.
  destruct (decode f [] [] (irest s)) as [W r|e] eqn:ED.
  - destruct R as (s' & fp' & R1 & R2 & R3 & R4 & R5 & R6 & R7). exists (VRef l), s', l, fp'. rewrite R1. split; [reflexivity|]. split; [exact R2|].
    split; [apply holds_contents; auto; [now exists l, fp'|eapply decode_shaped; eauto using oldshaped_nil|eapply decode_names; eauto]|].
    destruct E6 as [L1 L2]. split; [|split].
    + intros x [<-|Hx]; [apply E5; now left|]. destruct (R3 x Hx); [apply E5; now right|lia].
    + destruct R4 as [L3 L4]. split; [lia|]. intros x Hx _. rewrite L4; [apply L2; auto|lia|].
      intros [->|Hi]; [specialize (E5 l (or_introl eq_refl))|specialize (E5 x (or_intror Hi))]; lia.
    + repeat split; congruence.
  - destruct R as (s' & R1). exists s'. now rewrite R1.
Qed.

(** ** The factory *)
Definition table := PduTypeDecoders.

Lemma zassoc_out {A} z (T : list (Z * A)) (q : Z -> bool) : forallb (fun p => q (fst p)) T = true -> q z = false -> zassoc z T = None.
Proof.
  induction T as [|[y a] T IH]; cbn [forallb zassoc]; [reflexivity|]. intros H Hq. apply andb_prop in H as [H1 H2]. cbn [fst] in H1.
  destruct (Z.eqb_spec z y) as [->|]; [congruence|auto].
Qed.

(** read as a signed byte, but no code of the table is above 127 *)
Lemma signed_code b : zassoc (signed 1 (b2z b)) table = zassoc (b2z b) table.
Proof.
  unfold signed. assert (R := b2z_range b). change (2 ^ (8 * Z.of_nat 1 - 1)) with 128. change (2 ^ (8 * Z.of_nat 1)) with 256.
  destruct (b2z b <? 128) eqn:E; [reflexivity|]. apply Z.ltb_ge in E.
  rewrite !(zassoc_out _ table (fun z => (0 <=? z) && (z <? 128))); try reflexivity; apply andb_false_iff; [right; apply Z.ltb_ge|left; apply Z.leb_gt]; lia.
Qed.

(** the type code is the third byte of the input *)
Theorem factory_spec n s : (2 <= n)%nat ->
  getPdu the_prog table n s =
  match nth_error (ifull s) 2 with
  | None => (Exc StructError, mkst (heap s) [] (ifull s) (out s))
  | Some b => let s0 := mkst (heap s) (ifull s) (ifull s) (out s) in
      match zassoc (b2z b) table with
      | Some c => load the_prog n c s0
      | None => (Ok VNone, s0)
      end
  end.
Proof.
  intros Hn. unfold getPdu, bind, raw_seek. cbn [heap ifull irest out].
  set (s1 := mkst (heap s) (skipn 2 (ifull s)) (ifull s) (out s)).
  destruct (read_ok the_prog in_cls "read_byte" i8 n s1 eq_refl Hn) as (k & E1 & E2).
  unfold call_method at 1, bind. rewrite E1. unfold apply at 1. cbn [app]. rewrite E2. subst s1. cbn [irest].
  unfold dec_val, read_prim. change (width i8) with 1%nat.
  destruct (ifull s) as [|b0 [|b1 [|b2 r]]] eqn:Ei; cbn [skipn length Nat.leb nth_error firstn]; try reflexivity.
  unfold dec_prim, i8, vof, set_in. cbn [be_val length heap ifull out]. replace (b2z b2 * 256 ^ Z.of_nat 0 + 0) with (b2z b2) by (cbn; lia).
  rewrite signed_code. destruct (zassoc (b2z b2) table); reflexivity.
Qed.
