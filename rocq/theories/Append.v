(** * Appending an element to a list of an object, and what becomes of the bytes it serializes to: lemmas for PropAppend.v *)
From Coq Require Import ZArith String List Bool Lia Permutation.
From Coq Require Import Strings.Byte.
From Verif Require Import Lang Bytes Interp Shift Mono ProgBase ProgDis Prog Spec Codec Codec2 Rep Dec StreamLem SerSound ParSound ParStep ParClass NewSound Layouts Refine Api StreamApi Classes PropCodec CtorRun PropFactory PropOffsets Assign PropAssign.
Import ListNotations.
Open Scope string_scope. Open Scope Z_scope. Open Scope list_scope.

(** ** Lists with a count *)
Fixpoint cut_count (a : string) (f : fmt) : option (fmt * prim * Z * fmt) :=
  let back g r := match r with Some (f1, p, m, f2) => Some (g f1, p, m, f2) | None => None end in
  match f with
  | Done => None
  | Cnt b p m k => if String.eqb a b then Some (Done, p, m, k) else back (Cnt b p m) (cut_count a k)
  | Prim b p k => back (Prim b p) (cut_count a k)
  | Obj b c sub k => back (Obj b c sub) (cut_count a k)
  | OList b c sub k => back (OList b c sub) (cut_count a k)
  | Arr b p n k => back (Arr b p n) (cut_count a k)
  | PList b p k => back (PList b p) (cut_count a k)
  | Zero p k => back (Zero p) (cut_count a k)
  | Mask b n k => back (Mask b n) (cut_count a k)
  | VList b p d dv k => back (VList b p d dv) (cut_count a k)
  | Pad b k => back (Pad b) (cut_count a k)
  | Derive b d z k => back (Derive b d z) (cut_count a k)
  | Bits bf k => back (Bits bf) (cut_count a k)
  | NullL b k => back (NullL b) (cut_count a k)
  end.
Lemma cut_count_split a f : forall f1 p m f2, cut_count a f = Some (f1, p, m, f2) -> f = fapp f1 (Cnt a p m f2).
Proof.
  induction f; intros h1 p0 m0 h2 H; cbn [cut_count] in H; try discriminate;
    try (destruct (String.eqb_spec a a0) as [->|]; [injection H as <- <- <- <-; reflexivity|]);
    match type of H with match cut_count a ?k with _ => _ end = _ => destruct (cut_count a k) as [[[[g1 q] z0] g2]|] eqn:E; [|discriminate] end;
    injection H as <- <- <- <-; cbn [fapp]; f_equal; eauto.
Qed.

(** the list a of f when its number of elements is written once, ahead of it: what comes before the count, the count, what is in between, the list and what follows *)
Definition find_list (a : string) (f : fmt) : option (fmt * prim * Z * fmt * spot * fmt) :=
  match cut a f with
  | Some (f1, j, f2) =>
      match j with
      | SRecords _ _ | SItems _ =>
          match cut_count a f1 with
          | Some (g1, p, m, g2) => if uses true a g1 || uses true a g2 || uses true a f2 || uses false a f1 then None else Some (g1, p, m, g2, j, f2)
          | None => None
          end
      | _ => None
      end
  | None => None
  end.
Lemma find_list_inv a f g1 p m g2 j f2 : find_list a f = Some (g1, p, m, g2, j, f2) ->
  f = fapp (fapp g1 (Cnt a p m g2)) (put_spot a j f2) /\ match j with SRecords _ _ | SItems _ => True | _ => False end /\
  uses true a g1 = false /\ uses true a g2 = false /\ uses true a f2 = false /\ uses false a (fapp g1 (Cnt a p m g2)) = false.
Proof.
  unfold find_list. destruct (cut a f) as [[[f1 i] h2]|] eqn:E; [|discriminate]. apply cut_split in E.
  destruct i; try discriminate; destruct (cut_count a f1) as [[[[h1 q] z] h3]|] eqn:E1; try discriminate; apply cut_count_split in E1;
    destruct (uses true a h1 || _ || _ || _) eqn:U; try discriminate; intros [= <- <- <- <- <- <-]; apply orb_false_iff in U as [U U4]; apply orb_false_iff in U as [U U3]; apply orb_false_iff in U as [U1 U2]; subst; auto 8.
Qed.

(** the list a path leads to: the type of its count, how much one element counts, what its elements are; and, where they do not depend on the values, the offset of the count
    and the number of bytes between the count and the list *)
Record counted_list := mk_counted { cl_type : prim; cl_unit : Z; cl_elem : spot; cl_off : option nat; cl_gap : option nat }.
Fixpoint list_at (f : fmt) (path : list step) (a : string) : option counted_list :=
  match path with
  | [] => match find_list a f with Some (g1, p, m, g2, j, _) => Some (mk_counted p m j (fixed g1) (fixed g2)) | None => None end
  | Attr b :: r =>
      match find_spot b f with
      | Some (f1, SObj _ sub, _) => match list_at sub r a with Some (mk_counted p m j off gap) => Some (mk_counted p m j (oadd (fixed f1) off) gap) | None => None end
      | _ => None
      end
  | Elem b i :: r =>
      match find_spot b f with
      | Some (f1, SRecords _ sub, _) =>
          match list_at sub r a with Some (mk_counted p m j off gap) => Some (mk_counted p m j (oadd (oadd (fixed f1) (option_map (Nat.mul i) (fixed sub))) off) gap) | None => None end
      | _ => None
      end
  end.

(** the list o.path.a *)
Definition list_of (n : nat) (o : val) (path : list step) (a : string) : M val := bind (reach n o path) (fun u => getattr n u a).
(** o.path.a.append(v) *)
Definition append (n : nat) (o : val) (path : list step) (a : string) (v : val) : M val :=
  bind (list_of n o path a) (fun l => call_method the_prog n l "append" [v]).

Definition enc_item (j : spot) (w : wv) : outcome := match j with SRecords _ sub => encode sub (as_obj w) | SItems q => enc_val q w | _ => done end.
(** v is an element for the list j, of contents w, made of the objects fx *)
Definition item (h : list hobj) (j : spot) (v : val) (w : wv) (fx : list nat) : Prop :=
  match j with SRecords d sub => elem_rep the_prog h d sub v w fx | SItems _ => scal v = Some w /\ fx = [] | _ => False end.

Definition grown (h : list hobj) (f : fmt) (W W' : flds) (d : counted_list) (vs : list val) (w : wv) : Prop :=
  exists A G ws B, let count k := enc_val (cl_type d) (WInt (Z.of_nat k * cl_unit d)) in
    encode f W = oseq A (oseq (count (length vs)) (oseq G (oseq (enc_list (enc_item (cl_elem d)) ws) B))) /\
    encode f W' = oseq A (oseq (count (S (length vs))) (oseq G (oseq (enc_list (enc_item (cl_elem d)) ws) (oseq (enc_item (cl_elem d) w) B)))) /\
    Forall2 (fun u x => exists q, item h (cl_elem d) u x q /\ NoDup q) vs ws /\
    (forall k bs, cl_off d = Some k -> A = (bs, None) -> length bs = k) /\ (forall k bs, cl_gap d = Some k -> G = (bs, None) -> length bs = k).

Lemma Forall3_items h d sub vs ws fps : Forall3 (elem_rep the_prog h d sub) vs ws fps -> NoDup (concat fps) -> Forall2 (fun u x => exists q, item h (SRecords d sub) u x q /\ NoDup q) vs ws.
Proof.
  induction 1 as [|u x q vs ws fps H _ IH]; intros N; [constructor|]. cbn [concat] in N. apply NoDup_app_parts in N as (N1 & N2 & _). constructor; [exists q; auto|auto].
Qed.
Lemma elem_rep_set h ll ob d sub v w fx : elem_rep the_prog h d sub v w fx -> ~ In ll fx -> elem_rep the_prog (set_nth ll ob h) d sub v w fx.
Proof.
  intros (l1 & a2 & w1 & p1 & -> & Hl1 & -> & Re & ->) Hn. exists l1, a2, w1, p1. split; [reflexivity|].
  split; [rewrite set_nth_ne; [exact Hl1|intros ->; apply Hn; now left]|]. split; [reflexivity|]. split; [|reflexivity].
  eapply rep_ext; eauto. intros z Hz. apply set_nth_ne. intros ->. apply Hn. now right.
Qed.
Lemma elems_rep_set h ll ob d sub vs ws fps : Forall3 (elem_rep the_prog h d sub) vs ws fps -> ~ In ll (concat fps) -> Forall3 (elem_rep the_prog (set_nth ll ob h) d sub) vs ws fps.
Proof.
  intros F Hn. eapply Forall3_impl; [|exact F]. intros x y z Hz E. eapply elem_rep_set; eauto. intros Hi. apply Hn. apply in_concat. eauto.
Qed.
Lemma rep_set h ll ob cnt a f ga W y fp : uses cnt a f = false -> rep the_prog h f ga W fp -> ~ In ll fp -> rep the_prog (set_nth ll ob h) f ga (put a y W) fp.
Proof. intros U R Hn. eapply rep_part; eauto. intros x Hx. apply set_nth_ne. intros ->. contradiction. Qed.

Lemma Forall3_len {A B C} (R : A -> B -> C -> Prop) l m n : Forall3 R l m n -> length l = length m.
Proof. induction 1; cbn [length]; congruence. Qed.

Lemma append_here f a g1 p m g2 j f2 v w fx s l c at_ W fp ll vs : find_list a f = Some (g1, p, m, g2, j, f2) ->
  rep the_prog (heap s) f (getA the_prog c at_) W fp -> NoDup ((l :: fp) ++ fx) -> item (heap s) j v w fx ->
  getA the_prog c at_ a = Some (VRef ll) -> nth_error (heap s) ll = Some (HList vs) ->
  In ll fp /\ exists W' fp', grown (heap s) f W W' (mk_counted p m j (fixed g1) (fixed g2)) vs w /\ Permutation fp' (fp ++ fx) /\ rep the_prog (set_nth ll (HList (vs ++ [v])) (heap s)) f (getA the_prog c at_) W' fp'.
Proof.
  intros HF HR HN HI G Hll. apply find_list_inv in HF as (-> & Hj & U1 & U2 & U3 & U4).
  apply rep_fapp in HR as (q1 & q2 & R1 & R2 & ->).
  assert (Hv : forall ws w0 W0, field a W = Some (WList ws) -> length vs = length ws -> W0 = put a (WList (ws ++ [w0])) W ->
            encode (put_spot a j f2) W = oseq (enc_list (enc_item j) ws) (encode f2 W) -> encode (put_spot a j f2) W0 = oseq (enc_list (enc_item j) (ws ++ [w0])) (encode f2 W0) -> w0 = w -> Forall2 (fun u x => exists q, item (heap s) j u x q /\ NoDup q) vs ws ->
            grown (heap s) (fapp (fapp g1 (Cnt a p m g2)) (put_spot a j f2)) W W0 (mk_counted p m j (fixed g1) (fixed g2)) vs w).
  { intros ws w0 W0 Fd Hlen -> E1 E2 -> HF. exists (encode g1 W), (encode g2 W), ws, (encode f2 W). cbn [cl_type cl_unit cl_elem cl_off cl_gap]. split; [|split; [|split; [exact HF|split; intros; eapply fixed_out; eauto]]].
    - rewrite !encode_fapp. cbn [encode]. rewrite Fd, E1, Hlen. now rewrite !oseq_assoc.
    - rewrite !encode_fapp. cbn [encode]. rewrite (field_put _ _ _ _ Fd), E2, !(encode_part true) by (assumption || discriminate). rewrite enc_list_app. cbn [enc_list]. rewrite app_length. cbn [length].
      replace (length ws + 1)%nat with (S (length vs)) by lia. now rewrite !oseq_assoc. }
  destruct j as [|?|d sub|?|q]; try contradiction; cbn [put_spot rep item] in *.
  - destruct R2 as (ll' & vs' & ws & fps & r2 & G' & Hll' & Fd & F3 & R2 & ->). rewrite G in G'. injection G' as <-. rewrite Hll in Hll'. injection Hll' as <-. fold (elem_rep the_prog (heap s) d sub) in F3.
    cbn [app] in HN. inversion HN as [|? ? _ N]; subst. rewrite <- app_assoc in N. cbn [app] in N. rewrite <- app_assoc in N.
    assert (NF : NoDup (concat fps)) by (apply NoDup_app_parts in N as (_ & N & _); inversion N as [|? ? _ N']; subst; now apply NoDup_app_parts in N' as (N' & _)).
    apply NoDup_remove_2 in N. rewrite !in_app_iff in N.
    split; [apply in_or_app; right; now left|]. exists (put a (WList (ws ++ [w])) W), (q1 ++ ll :: concat (fps ++ [fx]) ++ r2). split; [|split].
    + apply (Hv ws w _ Fd (Forall3_len _ _ _ _ F3) eq_refl); [cbn [put_spot encode]; now rewrite Fd|cbn [put_spot encode]; now rewrite (field_put _ _ _ _ Fd)|reflexivity|]. eapply Forall3_items; [exact F3|exact NF].
    + rewrite concat_app. cbn [concat]. rewrite app_nil_r, <- !app_assoc. apply Permutation_app_head. cbn [app]. apply perm_skip. rewrite <- !app_assoc. apply Permutation_app_head. apply Permutation_app_comm.
    + apply rep_fapp. exists q1, (ll :: concat (fps ++ [fx]) ++ r2). split; [eapply rep_set; eauto; tauto|]. split; [|reflexivity]. cbn [put_spot rep].
      exists ll, (vs ++ [v]), (ws ++ [w]), (fps ++ [fx]), r2. split; [exact G|]. split; [apply set_nth_eq; eapply lt_of; eauto|]. split; [eapply field_put; eauto|]. split; [|split; [|reflexivity]].
      * apply Forall3_app; [apply elems_rep_set; [exact F3|tauto]|]. constructor; [|constructor]. apply elem_rep_set; [exact HI|tauto].
      * eapply rep_set; eauto; tauto.
  - destruct HI as [Hw ->]. destruct R2 as (ll' & vs' & ws & r2 & G' & Hll' & Fd & F2 & R2 & ->). rewrite G in G'. injection G' as <-. rewrite Hll in Hll'. injection Hll' as <-.
    rewrite app_nil_r in *. inversion HN as [|? ? _ N]; subst. apply NoDup_remove_2 in N. rewrite !in_app_iff in N.
    split; [apply in_or_app; right; now left|]. exists (put a (WList (ws ++ [w])) W), (q1 ++ ll :: r2). split; [|split].
    + apply (Hv ws w _ Fd (Forall2_length _ _ _ F2) eq_refl); [cbn [put_spot encode]; now rewrite Fd|cbn [put_spot encode]; now rewrite (field_put _ _ _ _ Fd)|reflexivity|]. clear -F2. induction F2; constructor; [exists []; split; [split; auto|constructor]|auto].
    + apply Permutation_refl.
    + apply rep_fapp. exists q1, (ll :: r2). split; [eapply rep_set; eauto; tauto|]. split; [|reflexivity]. cbn [put_spot rep].
      exists ll, (vs ++ [v]), (ws ++ [w]), r2. split; [exact G|]. split; [apply set_nth_eq; eapply lt_of; eauto|]. split; [eapply field_put; eauto|]. split; [|split; [|reflexivity]].
      * apply Forall2_app; [exact F2|]. constructor; [exact Hw|constructor].
      * eapply rep_set; eauto; tauto.
Qed.

Lemma append_ind n a v w fx : forall path f d s l c at_ W fp lv s', list_at f path a = Some d -> nth_error (heap s) l = Some (HInst c at_) ->
  rep the_prog (heap s) f (getA the_prog c at_) W fp -> NoDup ((l :: fp) ++ fx) -> item (heap s) (cl_elem d) v w fx -> list_of n (VRef l) path a s = (Ok lv, s') ->
  s' = s /\ exists ll vs, lv = VRef ll /\ nth_error (heap s) ll = Some (HList vs) /\ In ll fp /\
    exists W' fp', grown (heap s) f W W' d vs w /\ Permutation fp' (fp ++ fx) /\ rep the_prog (set_nth ll (HList (vs ++ [v])) (heap s)) f (getA the_prog c at_) W' fp'.
Proof.
  induction path as [|st path IH]; intros f d s l c at_ W fp lv s' HT Hl HR HN HI HA.
  - unfold list_of in HA. cbn [reach] in HA. change (bind (ret (VRef l)) ?k s) with (k (VRef l) s) in HA. cbn beta in HA. cbn [list_at] in HT.
    destruct (find_list a f) as [[[[[[g1 q] z] g2] i] f2]|] eqn:HF; [|discriminate]. injection HT as <-. cbn [cl_elem] in HI. rename i into j.
    assert (exists ll vs, getA the_prog c at_ a = Some (VRef ll) /\ nth_error (heap s) ll = Some (HList vs)) as (ll & vs & G & Hll).
    { pose proof (find_list_inv _ _ _ _ _ _ _ _ HF) as (-> & Hj & _). apply rep_fapp in HR as (q1 & q2 & _ & R2 & _).
      destruct j; try contradiction; cbn [put_spot rep] in R2; destruct R2 as (l1 & v1 & R2); exists l1, v1; destruct R2 as (w1 & R2).
      - destruct R2 as (? & ? & ? & ? & _). auto.
      - destruct R2 as (? & ? & ? & _). auto. }
    rewrite (getattr_ok n _ _ _ _ _ _ Hl G) in HA. injection HA as <- <-. split; [reflexivity|]. exists ll, vs. split; [reflexivity|]. split; [exact Hll|]. eapply append_here; eauto.
  - destruct st as [b|b i]; cbn [list_at] in HT; destruct (find_spot b f) as [[[f1 k] f2]|] eqn:HF; try discriminate; destruct k as [|dc sub|dc sub| |]; try discriminate;
      destruct (list_at sub path a) as [[p m j off gap]|] eqn:HT'; try discriminate; injection HT as <-; cbn [cl_elem] in HI;
      apply find_spot_inv in HF as (-> & U1 & U2); cbn [counted put_spot] in *; apply rep_fapp in HR as (q1 & q2 & R1 & R2 & ->); cbn [rep] in R2.
    + destruct R2 as (l' & at' & w1 & r1 & r2 & G & Hl' & Fd & Rs & R2 & ->).
      assert (HA' : list_of n (VRef l') path a s = (Ok lv, s')).
      { unfold list_of in *. cbn [reach] in HA. unfold bind in *. rewrite (getattr_ok n _ _ _ _ _ _ Hl G) in HA. exact HA. }
      assert (HP : Permutation ((l :: q1 ++ l' :: r1 ++ r2) ++ fx) ((l' :: r1) ++ (l :: q1 ++ r2) ++ fx)).
      { rewrite app_assoc. apply Permutation_app_tail. change (l :: q1 ++ l' :: r1 ++ r2) with ((l :: q1) ++ (l' :: r1) ++ r2). change (l :: q1 ++ r2) with ((l :: q1) ++ r2). apply Permutation_app_swap_app. }
      assert (D : NoDup ((l' :: r1) ++ (l :: q1 ++ r2) ++ fx)) by (eapply Permutation_NoDup; eauto).
      assert (D4 : NoDup ((l' :: r1) ++ fx)).
      { apply Permutation_NoDup with (l' := (l :: q1 ++ r2) ++ (l' :: r1) ++ fx) in D; [|apply Permutation_app_swap_app]. now apply NoDup_app_parts in D as (_ & D & _). }
      destruct (IH _ _ _ _ _ _ _ _ _ _ HT' Hl' Rs D4 HI HA') as (-> & ll & vs & -> & Hll & Hin & w' & fp' & (A & M & ww & B & HC1 & HC2 & HC3 & HC4 & HC5) & HPf & HW).
      split; [reflexivity|]. exists ll, vs. split; [reflexivity|]. split; [exact Hll|].
      apply NoDup_app_parts in D as (D1 & D2 & D3). pose proof (D3 ll (or_intror Hin)) as N. rewrite in_app_iff in N. cbn [In] in N. rewrite in_app_iff in N.
      assert (Nl : l' <> ll) by (intros ->; inversion D1; contradiction).
      split; [apply in_or_app; right; right; apply in_or_app; now left|]. exists (put b (WObj w') W), (q1 ++ l' :: fp' ++ r2). split; [|split].
      * cbn [cl_type cl_unit cl_elem cl_off cl_gap] in *. exists (oseq (encode f1 W) A), M, ww, (oseq B (encode f2 W)). cbn [cl_type cl_unit cl_elem cl_off cl_gap]. split; [|split; [|split; [exact HC3|split; [|exact HC5]]]]; try (rewrite encode_fapp; cbn [encode]).
        -- rewrite Fd, HC1. now rewrite !oseq_assoc.
        -- rewrite (field_put _ _ _ _ Fd), HC2, !(encode_part true) by (assumption || discriminate). now rewrite !oseq_assoc.
        -- intros k bs Hk Hb. apply oadd_inv in Hk as (y & z & E2 & E3 & ->). apply oseq_ok in Hb as (b1 & b2 & E4 & E5 & ->).
           now rewrite app_length, (fixed_out _ _ _ _ E2 E4), (HC4 _ _ E3 E5).
      * rewrite <- app_assoc. apply Permutation_app_head. cbn [app]. apply perm_skip. rewrite <- app_assoc. transitivity ((r1 ++ fx) ++ r2); [now apply Permutation_app_tail|].
        rewrite <- app_assoc. apply Permutation_app_head. apply Permutation_app_comm.
      * apply rep_fapp. exists q1, (l' :: fp' ++ r2). split; [eapply rep_set; eauto; tauto|]. split; [|reflexivity]. cbn [rep]. exists l', at', w', fp', r2.
        split; [exact G|]. split; [rewrite set_nth_ne by congruence; exact Hl'|]. split; [eapply field_put; eauto|]. split; [exact HW|]. split; [|reflexivity]. eapply rep_set; eauto; tauto.
    + destruct R2 as (lx & vx & ws & fps & r2 & G & Hlx & Fd & F3 & R2 & ->).
      unfold list_of in HA. cbn [reach] in HA. unfold bind in HA. rewrite (getattr_ok n _ _ _ _ _ _ Hl G) in HA.
      destruct (sub_val (VRef lx) (VInt (Z.of_nat i)) s) as [[u|] s0] eqn:HS; [|discriminate]. destruct (sub_list _ _ _ _ _ _ Hlx HS) as [-> Hi].
      destruct (Forall3_split _ _ _ _ _ _ F3 Hi) as (vs1 & vs2 & y & ws1 & ws2 & q & fps1 & fps2 & -> & -> & -> & L1 & L2 & (l' & at' & w1 & r1 & -> & Hl' & -> & Rs & ->) & F1 & F2).
      assert (HA' : list_of n (VRef l') path a s = (Ok lv, s')) by exact HA. clear HA.
      set (X := concat fps1) in *. set (Y := concat fps2) in *.
      assert (EC : concat (fps1 ++ (l' :: r1) :: fps2) = X ++ (l' :: r1) ++ Y) by (rewrite concat_app; reflexivity). rewrite EC in *.
      assert (HP : Permutation ((l :: q1 ++ lx :: (X ++ (l' :: r1) ++ Y) ++ r2) ++ fx) ((l' :: r1) ++ (l :: q1 ++ lx :: X ++ Y ++ r2) ++ fx)).
      { rewrite (app_assoc (l' :: r1)). apply Permutation_app_tail. change (l :: q1 ++ lx :: (X ++ (l' :: r1) ++ Y) ++ r2) with ((l :: q1) ++ (lx :: X ++ (l' :: r1) ++ Y) ++ r2).
        replace ((l :: q1) ++ (lx :: X ++ (l' :: r1) ++ Y) ++ r2) with (((l :: q1) ++ lx :: X) ++ (l' :: r1) ++ (Y ++ r2)) by (cbn [app]; rewrite <- !app_assoc; cbn [app]; now rewrite <- !app_assoc).
        replace (l :: q1 ++ lx :: X ++ Y ++ r2) with (((l :: q1) ++ lx :: X) ++ (Y ++ r2)) by (cbn [app]; rewrite <- !app_assoc; reflexivity). apply Permutation_app_swap_app. }
      assert (D : NoDup ((l' :: r1) ++ (l :: q1 ++ lx :: X ++ Y ++ r2) ++ fx)) by (eapply Permutation_NoDup; eauto).
      assert (D4 : NoDup ((l' :: r1) ++ fx)).
      { apply Permutation_NoDup with (l' := (l :: q1 ++ lx :: X ++ Y ++ r2) ++ (l' :: r1) ++ fx) in D; [|apply Permutation_app_swap_app]. now apply NoDup_app_parts in D as (_ & D & _). }
      destruct (IH _ _ _ _ _ _ _ _ _ _ HT' Hl' Rs D4 HI HA') as (-> & ll & vs & -> & Hll & Hin & w' & fp' & (A & M & ww & B & HC1 & HC2 & HC3 & HC4 & HC5) & HPf & HW).
      split; [reflexivity|]. exists ll, vs. split; [reflexivity|]. split; [exact Hll|].
      apply NoDup_app_parts in D as (D1 & D2 & D3). pose proof (D3 ll (or_intror Hin)) as N. rewrite in_app_iff in N. cbn [In] in N. rewrite in_app_iff in N. cbn [In] in N. rewrite !in_app_iff in N.
      assert (Nl : l' <> ll) by (intros ->; inversion D1; contradiction).
      split; [apply in_or_app; right; right; apply in_or_app; left; apply in_or_app; right; right; apply in_or_app; now left|].
      exists (put b (WList (ws1 ++ WObj w' :: ws2)) W), (q1 ++ lx :: (X ++ (l' :: fp') ++ Y) ++ r2). 
      assert (C : false = false -> same_len (field b W) (field b (put b (WList (ws1 ++ WObj w' :: ws2)) W))).
      { intros _. eapply same_len_put; eauto. rewrite !app_length. reflexivity. }
      split; [|split].
      * exists (oseq (encode f1 W) (oseq (enc_list (fun x => encode sub (as_obj x)) ws1) A)), M, ww, (oseq B (oseq (enc_list (fun x => encode sub (as_obj x)) ws2) (encode f2 W))). cbn [cl_type cl_unit cl_elem cl_off cl_gap] in *. split; [|split; [|split; [exact HC3|split; [|exact HC5]]]]; try (rewrite encode_fapp; cbn [encode]).
        -- rewrite Fd, enc_list_app. cbn [enc_list as_obj]. rewrite HC1. now rewrite !oseq_assoc.
        -- rewrite (field_put _ _ _ _ Fd), !(encode_part false) by auto. rewrite enc_list_app. cbn [enc_list as_obj]. rewrite HC2. now rewrite !oseq_assoc.
        -- intros k bs Hk Hb. apply oadd_inv in Hk as (y & z & E2 & E3 & ->). apply oadd_inv in E2 as (y1 & y2 & E4 & E5 & ->). destruct (fixed sub) as [mm|] eqn:Hm; [|discriminate]. injection E5 as <-.
           apply oseq_ok in Hb as (b1 & b2 & E6 & E7 & ->). apply oseq_ok in E7 as (b3 & b4 & E8 & E9 & ->).
           rewrite !app_length, (fixed_out _ _ _ _ E4 E6), (HC4 _ _ E3 E9), (fixed_list_length _ _ Hm _ _ E8). lia.
      * assert (E : forall z, q1 ++ lx :: (X ++ (l' :: z) ++ Y) ++ r2 = (q1 ++ lx :: X ++ [l']) ++ z ++ (Y ++ r2)) by (intros z; rewrite <- !app_assoc; cbn [app]; rewrite <- !app_assoc; reflexivity).
        rewrite !E. clear E. generalize (q1 ++ lx :: X ++ [l']). intros z. rewrite <- (app_assoc z). apply Permutation_app_head. transitivity ((r1 ++ fx) ++ Y ++ r2); [apply Permutation_app_tail; exact HPf|]. rewrite <- !(app_assoc r1). apply Permutation_app_head. apply Permutation_app_comm.
      * apply rep_fapp. exists q1, (lx :: (X ++ (l' :: fp') ++ Y) ++ r2). split; [eapply rep_set; eauto; tauto|]. split; [|reflexivity]. cbn [rep].
        exists lx, (vs1 ++ VRef l' :: vs2), (ws1 ++ WObj w' :: ws2), (fps1 ++ (l' :: fp') :: fps2), r2.
        split; [exact G|]. split; [rewrite set_nth_ne by (intros E; subst; tauto); exact Hlx|]. split; [eapply field_put; eauto|]. split; [|split; [|now rewrite concat_app]].
        -- apply Forall3_app; [apply elems_rep_set; [exact F1|fold X; tauto]|]. constructor; [|apply elems_rep_set; [exact F2|fold Y; tauto]].
           exists l', at', w', fp'. split; [reflexivity|]. split; [rewrite set_nth_ne by congruence; exact Hl'|]. auto.
        -- eapply rep_set; eauto; tauto.
Qed.

Lemma call_append n s ll vs v : nth_error (heap s) ll = Some (HList vs) ->
  call_method the_prog n (VRef ll) "append" [v] s = (Ok VNone, mkst (set_nth ll (HList (vs ++ [v])) (heap s)) (irest s) (ifull s) (out s)).
Proof.
  intros H. unfold call_method, bind. unfold resolve, bind, hget. rewrite H. cbn [String.eqb Ascii.eqb Bool.eqb]. unfold ret. cbn [apply]. unfold native, bind, hget. rewrite H. reflexivity.
Qed.

(** the objects an object is made of exist *)
Lemma rep_alive f : forall h ga W fp, rep the_prog h f ga W fp -> forall x, In x fp -> exists ob, nth_error h x = Some ob.
Proof.
  induction f as [|a p k IH|a c sub IHs k IH|a p m k IH|a p k IH|a c sub IHs k IH|a p n k IH|p k IH|a n k IH
                 |a p b dv k IH|b k IH|a b d k IH|bf k IH|a k IH]; intros h ga W fp HR x Hx; cbn [rep] in HR; try (eapply IH; eauto; fail); try (destruct HR as [_ HR]; eapply IH; eauto; fail).
  - subst. contradiction.
  - destruct HR as (l & at_ & w & q1 & q2 & _ & Hl & _ & R1 & R2 & ->). destruct Hx as [<-|Hx]; [eauto|]. apply in_app_or in Hx as [Hx|Hx]; eauto.
  - destruct HR as (l & vs & ws & q2 & _ & Hl & _ & _ & R2 & ->). destruct Hx as [<-|Hx]; eauto.
  - destruct HR as (l & vs & ws & fps & q2 & _ & Hl & _ & F3 & R2 & ->). destruct Hx as [<-|Hx]; [eauto|]. apply in_app_or in Hx as [Hx|Hx]; [|eauto].
    clear -F3 Hx IHs. induction F3 as [|u y q us ys qs (l & at_ & w & r & -> & Hl & -> & R & ->) F IH]; [contradiction|]. cbn [concat] in Hx. destruct Hx as [<-|Hx]; [eauto|]. apply in_app_or in Hx as [Hx|Hx]; eauto.
  - destruct HR as (l & vs & ws & q2 & _ & Hl & _ & _ & R2 & ->). destruct Hx as [<-|Hx]; eauto.
  - destruct HR as (l & vs & ws & q2 & _ & Hl & _ & _ & R2 & ->). destruct Hx as [<-|Hx]; eauto.
  - destruct HR as (l & q2 & _ & Hl & _ & R2 & ->). destruct Hx as [<-|Hx]; eauto.
Qed.
