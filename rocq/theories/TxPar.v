(** * How a Transmitter PDU is read (C38): opendis/dis7.py:5052-5116 *)
From Coq Require Import ZArith String List Bool Lia.
From Coq Require Import Strings.Byte.
From Verif Require Import Lang Bytes Interp Shift Mono ProgBase ProgDis Prog Spec Codec Codec2 Rep Dec StreamLem SerSound ParSound ParStep ParClass NewSound Layouts Refine Api StreamApi Classes PropCodec Special PropSize SvRun PropSV SvList TxRun.
Import ListNotations.
Open Scope string_scope. Open Scope Z_scope. Open Scope list_scope.

(** ** Records of raw bytes *)
(** how many of the bytes left read_bytes(z) takes: all, for a negative z *)
Definition amount (z : Z) (bs : list byte) : nat := if z <? 0 then length bs else Nat.min (Z.to_nat z) (length bs).

Lemma read_bytes_z n z s : (1 <= n)%nat -> exists k, resolve the_prog VIn "read_bytes" s = (Ok (KMeth k [VIn]), s) /\
  run the_prog n k [VIn; VInt z] [] s = (Ok (VBytes (firstn (amount z (irest s)) (irest s))), set_in (skipn (amount z (irest s)) (irest s)) s).
Proof.
  intros Hn. unfold amount. destruct (Z.ltb_spec z 0) as [H|H].
  - destruct n as [|n]; [lia|]. eexists. unfold resolve. rewrite (lookup_in_s the_prog in_cls). split; [reflexivity|]. cbn. unfold bind. cbn.
    rewrite (proj2 (Z.ltb_lt z 0) H). unfold set_in. rewrite ?Z.min_r, ?Nat2Z.id by lia. reflexivity.
  - destruct (read_bytes_ok the_prog in_cls n (Z.to_nat z) s Hn) as (k & A & B). exists k. split; [exact A|]. rewrite Z2Nat.id in B by lia. rewrite B.
    destruct (Nat.le_gt_cases (length (irest s)) (Z.to_nat z)); [rewrite Nat.min_r by lia; rewrite !firstn_all2, !skipn_all2 by lia; reflexivity|rewrite Nat.min_l by lia; reflexivity].
Qed.

Definition raw_shape (c : string) (rest : list stmt) : bool :=
  match lookup the_prog c "parse", super_par c c, lookup the_prog c "is_positive_int", lookup the_prog c "__init__" with
  | Some (MMeth m), Some m1, Some (MMeth p), Some (MMeth i) =>
      match is_par m with Some (true, _) => is (list_eq_dec stmt_dec) (m_body m) (sup_parse c :: rest) | _ => false end &&
      pbody_is true m1 [If (AndE (Cmp CIsNot (Loc "bytelength") (Lit LNone)) (NotE (Meth (Loc "self") "is_positive_int" [Loc "bytelength"] []))) [Raise ValueError] []] &&
      is mkind_dec (m_kind p) KStatic && is (list_eq_dec (pair_dec string_dec (opt_dec dflt_dec))) (m_params p) [("value", None)] && is (list_eq_dec stmt_dec) (m_body p) is_nonneg &&
      is (list_eq_dec (pair_dec string_dec (opt_dec dflt_dec))) (m_params i) [("self", None); ("data", Some (DLit (LBytes [])))] &&
      is (list_eq_dec stmt_dec) (m_body i) [SetAttr (Loc "self") "data" (Loc "data")] && negb (is_abstract the_prog c) && plain_attr the_prog c "data"
  | _, _, _, _ => false
  end.
Definition raw_rest (c : string) : list stmt :=
  if String.eqb c "UnknownRadio"
  then [Assert (Builtin BIsInt [Loc "bytelength"]); SetAttr (Loc "self") "data" (Meth (Loc "inputStream") "read_bytes" [Loc "bytelength"] [])]
  else [SetAttr (Loc "self") "data" (Meth (Loc "inputStream") "read_bytes" [Bin OSub (Loc "bytelength") (Lit (LInt 6))] [])].
Lemma raw_shapes c : In c raw_classes -> raw_shape c (raw_rest c) = true.
Proof. intros [<-|[<-|[]]]; vm_compute; reflexivity. Qed.

(** an UnknownRadio announced as z bytes long reads z bytes, an UnknownAntennaPattern z - 6 *)
Definition raw_amount (c : string) (z : Z) (bs : list byte) : nat := amount (if String.eqb c "UnknownRadio" then z else z - 6) bs.

Lemma raw_new n c s : In c raw_classes -> (1 <= n)%nat ->
  new the_prog n c [] s = (Ok (VRef (length (heap s))), mkst (heap s ++ [HInst c [("data", VBytes [])]]) (irest s) (ifull s) (out s)).
Proof.
  intros Hc Hn. pose proof (raw_shapes c Hc) as SH. unfold raw_shape in SH.
  destruct (lookup the_prog c "parse") as [[m0|]|] eqn:L0; try discriminate. destruct (super_par c c) as [m1|] eqn:L1; try discriminate.
  destruct (lookup the_prog c "is_positive_int") as [[p|]|] eqn:Lp; try discriminate. destruct (lookup the_prog c "__init__") as [[i|]|] eqn:Li; try discriminate.
  apply andb_prop in SH as [SH PA]. apply andb_prop in SH as [SH AB]. apply andb_prop in SH as [SH I2]. apply andb_prop in SH as [SH I1]. apply is_eq in I1, I2. clear SH.
  unfold new. cbn [apply]. destruct (is_abstract the_prog c); [discriminate|]. unfold bind at 1, halloc. rewrite Li. destruct n as [|n]; [lia|]. cbn [run]. rewrite I1, I2.
  cbn [bind_args bind_pos bind_rest length Nat.sub firstn skipn combine app run_block exec eval assoc String.eqb Ascii.eqb Bool.eqb dflt_val lit_val]. unfold bind, ret.
  assert (Hset : forall (h : list hobj) a b, set_nth (length h) b (h ++ [a]) = h ++ [b]) by (induction h; intros; cbn; congruence).
  assert (Hs : set_attr the_prog (VRef (length (heap s))) "data" (VBytes []) {| heap := heap s ++ [HInst c []]; irest := irest s; ifull := ifull s; out := out s |}
              = (Ok tt, {| heap := heap s ++ [HInst c [("data", VBytes [])]]; irest := irest s; ifull := ifull s; out := out s |})).
  { rewrite (set_attr_ok the_prog c "data" _ []); [|exact PA|cbn [heap]; rewrite nth_error_app2, Nat.sub_diag by lia; reflexivity].
    unfold obj_set. cbn [heap irest ifull out upd String.eqb Ascii.eqb Bool.eqb]. now rewrite Hset. }
  rewrite Hs. reflexivity.
Qed.

(** o.parse(inputStream, bytelength=z) *)
Definition parse_len (n : nat) (o : val) (z : Z) : M val := bind (resolve the_prog o "parse") (fun k => apply the_prog (run the_prog n) k [VIn; VInt z] ["bytelength"]).

Lemma raw_parse n c l at_ z s : In c raw_classes -> (4 <= n)%nat -> 0 <= z -> nth_error (heap s) l = Some (HInst c at_) ->
  let k := raw_amount c z (irest s) in
  parse_len n (VRef l) z s = (Ok VNone, obj_set l (HInst c (upd "data" (VBytes (firstn k (irest s))) at_)) (skipn k (irest s)) s).
Proof.
  intros Hc Hn Hz Hl k. pose proof (raw_shapes c Hc) as SH. unfold raw_shape in SH.
  destruct (lookup the_prog c "parse") as [[m0|]|] eqn:L0; try discriminate. destruct (super_par c c) as [m1|] eqn:L1; try discriminate.
  destruct (lookup the_prog c "is_positive_int") as [[p|]|] eqn:Lp; try discriminate. destruct (lookup the_prog c "__init__") as [[i|]|] eqn:Li; try discriminate.
  apply andb_prop in SH as [SH PA]. apply andb_prop in SH as [SH _]. apply andb_prop in SH as [SH _]. apply andb_prop in SH as [SH _].
  apply andb_prop in SH as [SH P3]. apply andb_prop in SH as [SH P2]. apply andb_prop in SH as [SH P1]. apply andb_prop in SH as [SH B1].
  apply is_eq in P1, P2, P3. apply pbody_inv in B1 as [I1 B1]. destruct (is_par m0) as [[[] opt]|] eqn:I0; try discriminate. apply is_eq in SH.
  do 4 (destruct n as [|n]; [lia|]).
  assert (E2 : exec the_prog (run the_prog (S (S (S n)))) (sup_parse c) (par_env l (Some (VInt z))) s = (Ok (par_env l (Some (VInt z)), None), s)).
  { rewrite (sup_par _ _ _ _ _ _ _ _ _ Hl L1 I1). unfold run_env at 1. rewrite B1.
    assert (E3 : eval the_prog (run the_prog (S (S n))) (Meth (Loc "self") "is_positive_int" [Loc "bytelength"] []) (par_env l (Some (VInt z))) s = (Ok (VBool true), s)).
    { cbn [eval par_env app assoc String.eqb Ascii.eqb Bool.eqb]. unfold bind at 1, ret at 1. unfold bind at 1. unfold resolve, bind at 1, hget. rewrite Hl, Lp, P1. unfold ret at 1.
      cbn [eval_list eval assoc String.eqb Ascii.eqb Bool.eqb]. unfold bind at 1, bind at 1, ret at 1. unfold bind at 1, ret at 1. unfold ret at 1. cbn [apply app run]. rewrite P2, P3.
      unfold is_nonneg. cbn. unfold bind, ret. cbn. rewrite (proj2 (Z.leb_le 0 z) Hz). reflexivity. }
    remember (Meth (Loc "self") "is_positive_int" [Loc "bytelength"] []) as e. unfold bind at 1. unfold bind at 1. cbn [run_block exec eval par_env app assoc String.eqb Ascii.eqb Bool.eqb lit_val cmp_val].
    unfold bind, ret. cbn [cmp_val truth]. unfold par_env in E3. cbn [app] in E3. rewrite E3. reflexivity. }
  assert (E0 : parse_len (S (S (S (S n)))) (VRef l) z s = run_env the_prog (S (S (S n))) m0 (par_env l (Some (VInt z))) s).
  { unfold parse_len, bind at 1, resolve, bind at 1, hget. rewrite Hl, L0, (proj1 (is_par_inv _ _ _ I0)). unfold ret at 1. cbn [apply app].
    apply is_par_inv in I0 as (K & [(H & _)|[(_ & -> & Q)|(_ & -> & l0 & Q & L)]]); [discriminate| |]; cbn [run]; rewrite Q; reflexivity. }
  rewrite E0. unfold run_env. rewrite SH. unfold bind at 1. cbn [run_block]. unfold bind at 1. rewrite E2. cbn [snd fst].
  fold (run_block (exec the_prog (run the_prog (S (S (S n)))))).
  unfold raw_rest, raw_amount in *. destruct (String.eqb c "UnknownRadio").
  - destruct (read_bytes_z (S (S (S n))) z s ltac:(lia)) as (q & Q1 & Q2). fold k in Q2.
    assert (E : eval the_prog (run the_prog (S (S (S n)))) (Meth (Loc "inputStream") "read_bytes" [Loc "bytelength"] []) (par_env l (Some (VInt z))) s = (Ok (VBytes (firstn k (irest s))), set_in (skipn k (irest s)) s)).
    { cbn [eval par_env app assoc String.eqb Ascii.eqb Bool.eqb]. unfold bind at 1, ret at 1. unfold bind at 1. rewrite Q1. cbn [eval_list eval assoc String.eqb Ascii.eqb Bool.eqb].
      unfold bind at 1, bind at 1, ret at 1. unfold bind at 1, ret at 1. unfold ret at 1. cbn [apply app]. exact Q2. }
    remember (Meth (Loc "inputStream") "read_bytes" [Loc "bytelength"] []) as e. unfold par_env in *. cbn [app] in *.
    cbn [run_block exec eval eval_list assoc String.eqb Ascii.eqb Bool.eqb]. unfold bind, ret. cbn [builtin_val truth as_int snd fst]. unfold ret. cbn [truth as_int snd fst assoc String.eqb Ascii.eqb Bool.eqb]. rewrite E.
    rewrite (set_attr_ok the_prog c "data" l at_); [|exact PA|exact Hl]. reflexivity.
  - destruct (read_bytes_z (S (S (S n))) (z - 6) s ltac:(lia)) as (q & Q1 & Q2). fold k in Q2.
    assert (E : eval the_prog (run the_prog (S (S (S n)))) (Meth (Loc "inputStream") "read_bytes" [Bin OSub (Loc "bytelength") (Lit (LInt 6))] []) (par_env l (Some (VInt z))) s = (Ok (VBytes (firstn k (irest s))), set_in (skipn k (irest s)) s)).
    { cbn [eval par_env app assoc String.eqb Ascii.eqb Bool.eqb]. unfold bind at 1, ret at 1. unfold bind at 1. rewrite Q1. cbn [eval_list eval assoc String.eqb Ascii.eqb Bool.eqb lit_val].
      unfold bind, ret. cbn [binop_val as_int apply app]. unfold ret. exact Q2. }
    remember (Meth (Loc "inputStream") "read_bytes" [Bin OSub (Loc "bytelength") (Lit (LInt 6))] []) as e. unfold par_env in *. cbn [app] in *.
    cbn [run_block exec eval eval_list assoc String.eqb Ascii.eqb Bool.eqb]. unfold bind, ret. cbn [snd fst]. rewrite E.
    rewrite (set_attr_ok the_prog c "data" l at_); [|exact PA|exact Hl]. reflexivity.
Qed.

(** ** Reading the optional parts *)
(** the part p, in the heap locations K *)
Definition part_fp (h : list hobj) (v : val) (p : tpart) (K : list nat) : Prop :=
  match p with
  | PNone => v = VNone /\ K = []
  | PRec c W => exists k f l fp, In (c, k) part_sizes /\ layout c = Some f /\ holds_at the_prog h c f v W l fp /\ shaped f W /\ map fst W = names f /\ K = l :: fp
  | PRaw c d => In c raw_classes /\ exists l at_, v = VRef l /\ nth_error h l = Some (HInst c at_) /\ assoc "data" at_ = Some (VBytes d) /\ K = [l]
  end.

Lemma part_fp_at h v p K : part_fp h v p K -> part_at h v p.
Proof.
  destruct p as [|c W|c d]; cbn [part_fp part_at].
  - tauto.
  - intros (k & f & l & fp & Hi & L & H & Sh & Hm & _). exists k, f. split; [exact Hi|]. split; [exact L|]. pose proof (layout_inv _ _ L) as (L' & _). destruct (tidy_inv _ _ _ tidyS L') as [S1 S2].
    apply holds_contents; auto. now exists l, fp.
  - intros (Hi & l & at_ & -> & H & Hd & _). split; [exact Hi|]. exists l, at_. auto.
Qed.

Lemma part_fp_valid h v p K x : part_fp h v p K -> In x K -> (x < length h)%nat.
Proof.
  destruct p as [|c W|c d]; cbn [part_fp].
  - intros [_ ->] [].
  - intros (k & f & l & fp & _ & _ & (at_ & -> & Hl & HR & _) & _ & _ & ->) [<-|Hx]; [apply nth_error_Some; congruence|eapply rep_valid; eauto].
  - intros (_ & l & at_ & -> & H & _ & ->) [<-|[]]. apply nth_error_Some. congruence.
Qed.

Lemma part_fp_frame h h' v p K : part_fp h v p K -> (forall x, In x K -> nth_error h' x = nth_error h x) -> part_fp h' v p K.
Proof.
  destruct p as [|c W|c d]; cbn [part_fp].
  - tauto.
  - intros (k & f & l & fp & Hi & L & (at_ & -> & Hl & HR & HN) & Sh & Hm & ->) Hh. exists k, f, l, fp. repeat (split; [assumption|]). split; [|auto].
    exists at_. split; [reflexivity|]. split; [rewrite Hh by (left; reflexivity); exact Hl|]. split; [|exact HN]. eapply rep_ext; eauto. intros x Hx. apply Hh. now right.
  - intros (Hi & l & at_ & -> & H & Hd & ->) Hh. split; [exact Hi|]. exists l, at_. repeat split; auto. rewrite Hh by (left; reflexivity). exact H.
Qed.

(** r is the outcome of reading a part, whose result should be d: a new object that holds it *)
Definition got (s : st) (r : res val * st) (d : dres tpart) : Prop :=
  match d with
  | DOk p bs => exists v s' K, r = (Ok v, s') /\ part_fp (heap s') v p K /\ (forall x, In x K -> (length (heap s) <= x)%nat) /\ fr (fun _ => False) (heap s) (heap s') /\
      irest s' = bs /\ ifull s' = ifull s /\ out s' = out s
  | DErr e => exists s', r = (Exc e, s')
  end.

Lemma sizes_nc c k : In (c, k) part_sizes -> mem c NC = true.
Proof. unfold part_sizes. cbn [In]. intros H. repeat match goal with H : _ \/ _ |- _ => destruct H as [H|H] end; try contradiction; injection H as <- <-; vm_compute; reflexivity. Qed.

Lemma got_rec n c k f s : (fuel_ok <= n)%nat -> In (c, k) part_sizes -> layout c = Some f -> got s (load the_prog n c s) (dmap (PRec c) (decode f [] [] (irest s))).
Proof.
  intros Hn Hi L. pose proof (layout_inv _ _ L) as (_ & L' & _). pose proof (load_spec n c f s Hn L' (sizes_nc _ _ Hi)) as H.
  destruct (decode f [] [] (irest s)) as [W r|e] eqn:ED; cbn [dmap got].
  - destruct H as (o & s' & l & fp & A & B & _ & D & E & F1 & F2 & F3). exists o, s', (l :: fp). split; [exact A|]. split; [|auto]. destruct (tidy_inv _ _ _ tidyP L') as [S1 S2].
    exists k, f, l, fp. repeat (split; [assumption|]). split; [eapply decode_shaped; eauto using oldshaped_nil|]. split; [eapply decode_names; eauto|reflexivity].
  - exact H.
Qed.

Definition load_len (n : nat) (c : string) (z : Z) : M val := bind (new the_prog n c []) (fun o => bind (parse_len n o z) (fun _ => ret o)).
Definition dec_raw (c : string) (z : Z) (bs : list byte) : dres tpart := DOk (PRaw c (firstn (raw_amount c z bs) bs)) (skipn (raw_amount c z bs) bs).

Lemma set_nth_last {A} (h : list A) a b : set_nth (length h) b (h ++ [a]) = h ++ [b].
Proof. induction h; cbn; congruence. Qed.

Lemma got_raw n c z s : (4 <= n)%nat -> In c raw_classes -> 0 <= z -> got s (load_len n c z s) (dec_raw c z (irest s)).
Proof.
  intros Hn Hc Hz. unfold load_len, bind. rewrite (raw_new n c s Hc) by lia.
  set (s1 := mkst (heap s ++ [HInst c [("data", VBytes [])]]) (irest s) (ifull s) (out s)).
  assert (Hl : nth_error (heap s1) (length (heap s)) = Some (HInst c [("data", VBytes [])])) by (cbn [s1 heap]; rewrite nth_error_app2, Nat.sub_diag by lia; reflexivity).
  pose proof (raw_parse n c _ _ z s1 Hc Hn Hz Hl) as E. cbn zeta in E. rewrite E. cbn [s1 irest] in *. cbn [ret got dec_raw].
  eexists; eexists; exists [length (heap s)]. split; [reflexivity|]. unfold obj_set. cbn [heap irest ifull out s1 upd String.eqb Ascii.eqb Bool.eqb]. rewrite set_nth_last.
  split; [|split; [|split; [|auto]]].
  - split; [exact Hc|]. eexists; eexists. split; [reflexivity|]. split; [rewrite nth_error_app2, Nat.sub_diag by lia; reflexivity|]. split; reflexivity.
  - intros x [<-|[]]. lia.
  - split; [rewrite app_length; lia|]. intros x Hx _. now apply nth_error_app1.
Qed.

(** *** The modulation parameters *)
(** opendis/dis7.py:5082-5100: the class of the modulation parameters, from the radio system and the major modulation; None for UnknownRadio *)
Definition mod_class (sys major : Z) : option (string * fmt) :=
  if sys =? 1 then Some (if major =? 0 then ("SimpleIntercomRadio", w_SimpleIntercomRadio) else ("GenericRadio", w_GenericRadio))
  else if (sys =? 2) || (sys =? 3) || (sys =? 4) then Some ("BasicHaveQuickMP", w_BasicHaveQuickMP)
  else if sys =? 6 then Some ("CCTTSincgarsMP", w_CCTTSincgarsMP)
  else None.
Definition dec_mod (sys major z : Z) (bs : list byte) : dres tpart :=
  if z <=? 0 then DOk PNone bs
  else match mod_class sys major with
       | Some (c, f) => dmap (PRec c) (decode f [] [] bs)
       | None => dec_raw "UnknownRadio" z bs
       end.
(** opendis/dis7.py:5102-5110 *)
Definition dec_pat (type z : Z) (bs : list byte) : dres tpart :=
  if z <=? 0 then DOk PNone bs
  else if type =? 1 then dmap (PRec "BeamAntennaPattern") (decode w_BeamAntennaPattern [] [] bs)
  else dec_raw "UnknownAntennaPattern" z bs.

Definition get_mod (n : nat) (sys major z : Z) : M val :=
  match mod_class sys major with Some (c, _) => load the_prog n c | None => load_len n "UnknownRadio" z end.

Lemma mod_sizes sys major c f : mod_class sys major = Some (c, f) -> layout c = Some f /\ exists k, In (c, k) part_sizes.
Proof.
  unfold mod_class, part_sizes. destruct (sys =? 1); [destruct (major =? 0); intros [= <- <-]; split; [reflexivity|eexists; cbn; tauto|reflexivity|eexists; cbn; tauto]|].
  destruct (_ || _); [intros [= <- <-]; split; [reflexivity|eexists; cbn; tauto]|]. destruct (sys =? 6); [intros [= <- <-]; split; [reflexivity|eexists; cbn; tauto]|discriminate].
Qed.

Lemma got_mod n sys major z s : (fuel_ok <= n)%nat -> 0 < z -> got s (get_mod n sys major z s) (dec_mod sys major z (irest s)).
Proof.
  intros Hn Hz. unfold get_mod, dec_mod. rewrite (proj2 (Z.leb_gt z 0) Hz). destruct (mod_class sys major) as [[c f]|] eqn:E.
  - destruct (mod_sizes _ _ _ _ E) as [L (k & Hk)]. eapply got_rec; eauto.
  - apply got_raw; [unfold fuel_ok, need in Hn; lia|cbn; tauto|lia].
Qed.

Definition known (c : string) : bool := match get_cls the_prog c with Some _ => true | None => false end.
Lemma ev_glob n c rho s : known c = true -> eval the_prog (run the_prog n) (Glob c) rho s = (Ok (VClass c), s).
Proof. unfold known. intros H. cbn [eval]. unfold glob. destruct (get_cls the_prog c); [reflexivity|discriminate]. Qed.
Lemma ev_new n c rho s : known c = true -> eval the_prog (run the_prog n) (CallV (Glob c) [] []) rho s = new the_prog n c [] s.
Proof. intros H. remember (Glob c) as g. cbn [eval eval_list]. subst g. unfold bind at 1. rewrite ev_glob by assumption. reflexivity. Qed.

Lemma ev_parse n e rho s s0 v : assoc "inputStream" rho = Some VIn -> eval the_prog (run the_prog n) e rho s = (Ok v, s0) ->
  eval the_prog (run the_prog n) (Meth e "parse" [Loc "inputStream"] []) rho s = call_method the_prog n v "parse" [VIn] s0.
Proof.
  intros Ho He. cbn [eval]. unfold bind at 1. rewrite He. unfold call_method. unfold bind at 1 3.
  destruct (resolve the_prog v "parse" s0) as [[k|e0] s1]; [|reflexivity]. cbn [eval_list eval]. rewrite Ho. reflexivity.
Qed.
Lemma ev_parse_len n e x rho s s0 v z : assoc "inputStream" rho = Some VIn -> assoc x rho = Some (VInt z) -> eval the_prog (run the_prog n) e rho s = (Ok v, s0) ->
  eval the_prog (run the_prog n) (Meth e "parse" [Loc "inputStream"; Loc x] ["bytelength"]) rho s = parse_len n v z s0.
Proof.
  intros Ho Hx He. cbn [eval]. unfold bind at 1. rewrite He. unfold parse_len. unfold bind at 1 3.
  destruct (resolve the_prog v "parse" s0) as [[k|e0] s1]; [|reflexivity]. cbn [eval_list eval]. rewrite Ho, Hx. reflexivity.
Qed.

Definition then_radio (r : res val * st) (rho : env) : res R * st :=
  match r with (Ok o, s') => (Ok (upd "radio" o rho, None), s') | (Exc e, s') => (Exc e, s') end.
Definition new_radio (c : string) : stmt := Assign "radio" (CallV (Glob c) [] []).
Definition parse_radio : stmt := Expr (Meth (Loc "radio") "parse" [Loc "inputStream"] []).
Definition parse_radio_len : stmt := Expr (Meth (Loc "radio") "parse" [Loc "inputStream"; Loc "modulationParametersLength"] ["bytelength"]).

Lemma ex_radio n c rho s : known c = true -> assoc "inputStream" rho = Some VIn ->
  run_block (exec the_prog (run the_prog n)) [new_radio c; parse_radio] rho s = then_radio (load the_prog n c s) rho.
Proof.
  intros Hk Hi. unfold load, bind. pose proof (ev_new n c rho s Hk) as E. unfold new_radio, parse_radio. remember (CallV (Glob c) [] []) as e. remember (Meth (Loc "radio") "parse" [Loc "inputStream"] []) as e2.
  cbn [run_block exec]. unfold bind. rewrite E. destruct (new the_prog n c [] s) as [[o|x] s1]; [|reflexivity]. cbn [ret snd fst]. subst e2.
  rewrite (ev_parse n (Loc "radio") (upd "radio" o rho) s1 s1 o) by (try (cbn [eval]; rewrite assoc_upd_eq; reflexivity); rewrite assoc_upd_ne by discriminate; exact Hi).
  destruct (call_method the_prog n o "parse" [VIn] s1) as [[v|x] s2]; reflexivity.
Qed.
Lemma ex_radio_len n c rho s z : known c = true -> assoc "inputStream" rho = Some VIn -> assoc "modulationParametersLength" rho = Some (VInt z) ->
  run_block (exec the_prog (run the_prog n)) [new_radio c; parse_radio_len] rho s = then_radio (load_len n c z s) rho.
Proof.
  intros Hk Hi Hz. unfold load_len, bind. pose proof (ev_new n c rho s Hk) as E. unfold new_radio, parse_radio_len. remember (CallV (Glob c) [] []) as e. remember (Meth (Loc "radio") "parse" [Loc "inputStream"; Loc "modulationParametersLength"] ["bytelength"]) as e2.
  cbn [run_block exec]. unfold bind. rewrite E. destruct (new the_prog n c [] s) as [[o|x] s1]; [|reflexivity]. cbn [ret snd fst]. subst e2.
  rewrite (ev_parse_len n (Loc "radio") "modulationParametersLength" (upd "radio" o rho) s1 s1 o z) by (try (cbn [eval]; rewrite assoc_upd_eq; reflexivity); rewrite assoc_upd_ne by discriminate; assumption).
  destruct (parse_len n o z s1) as [[v|x] s2]; reflexivity.
Qed.

Lemma ex_if n e a b rho s v : eval the_prog (run the_prog n) e rho s = (Ok v, s) ->
  exec the_prog (run the_prog n) (If e a b) rho s = run_block (exec the_prog (run the_prog n)) (if truth (heap s) v then a else b) rho s.
Proof. intros E. cbn [exec]. unfold bind at 1. rewrite E. destruct (truth (heap s) v); reflexivity. Qed.
Lemma block_if n e a b rest rho s v : eval the_prog (run the_prog n) e rho s = (Ok v, s) ->
  run_block (exec the_prog (run the_prog n)) (If e a b :: rest) rho s = run_block (exec the_prog (run the_prog n)) ((if truth (heap s) v then a else b) ++ rest) rho s.
Proof.
  intros E. rewrite run_block_app. cbn [run_block]. unfold bind. rewrite (ex_if _ _ _ _ _ _ _ E).
  destruct (run_block _ (if truth (heap s) v then a else b) rho s) as [[[rho1 [w|]]|] s1]; reflexivity.
Qed.
Lemma ev_eq n e k rho s z : eval the_prog (run the_prog n) e rho s = (Ok (VInt z), s) -> eval the_prog (run the_prog n) (Cmp CEq e (Lit (LInt k))) rho s = (Ok (VBool (z =? k)), s).
Proof. intros E. cbn [eval lit_val]. unfold bind. rewrite E. reflexivity. Qed.
Lemma ev_gt n e k rho s z : eval the_prog (run the_prog n) e rho s = (Ok (VInt z), s) -> eval the_prog (run the_prog n) (Cmp CGt e (Lit (LInt k))) rho s = (Ok (VBool (k <? z)), s).
Proof. intros E. cbn [eval lit_val]. unfold bind. rewrite E. unfold ret. cbn [cmp_val as_int]. reflexivity. Qed.
Lemma ev_in n e j k m rho s z : eval the_prog (run the_prog n) e rho s = (Ok (VInt z), s) ->
  eval the_prog (run the_prog n) (Cmp CIn e (TupleE [Lit (LInt j); Lit (LInt k); Lit (LInt m)])) rho s = (Ok (VBool ((z =? j) || (z =? k) || (z =? m))), s).
Proof. intros E. cbn [eval eval_list lit_val]. unfold bind. rewrite E. unfold ret. unfold cmp_val, val_in, val_eqb. cbn [as_int]. destruct (z =? j), (z =? k), (z =? m); reflexivity. Qed.

Definition mt_ (a : string) := Attr (self_ "modulationType") a.
Definition dispatch : list stmt :=
  [If (Cmp CEq (mt_ "radioSystem") (Lit (LInt 1)))
     [If (Cmp CEq (mt_ "majorModulation") (Lit (LInt 0))) [new_radio "SimpleIntercomRadio"] [new_radio "GenericRadio"]; parse_radio]
     [If (Cmp CIn (mt_ "radioSystem") (TupleE [Lit (LInt 2); Lit (LInt 3); Lit (LInt 4)])) [new_radio "BasicHaveQuickMP"; parse_radio]
        [If (Cmp CEq (mt_ "radioSystem") (Lit (LInt 6))) [new_radio "CCTTSincgarsMP"; parse_radio] [new_radio "UnknownRadio"; parse_radio_len]]]].
Lemma pMod_is : pMod = [If (Cmp CGt (Loc "modulationParametersLength") (Lit (LInt 0)))
  (dispatch ++ [SetAttr (Loc "self") "modulationParameters" (Loc "radio")]) [SetAttr (Loc "self") "modulationParameters" (Lit LNone)]].
Proof. reflexivity. Qed.

Lemma ex_dispatch n rho s sys major z : 
  assoc "inputStream" rho = Some VIn -> assoc "modulationParametersLength" rho = Some (VInt z) ->
  eval the_prog (run the_prog n) (mt_ "radioSystem") rho s = (Ok (VInt sys), s) -> eval the_prog (run the_prog n) (mt_ "majorModulation") rho s = (Ok (VInt major), s) ->
  run_block (exec the_prog (run the_prog n)) dispatch rho s = then_radio (get_mod n sys major z s) rho.
Proof.
  intros Hi Hz Es Em. unfold dispatch, get_mod, mod_class.
  rewrite (block_if _ _ _ _ _ _ _ _ (ev_eq _ _ 1 _ _ _ Es)). cbn [truth]. destruct (sys =? 1); rewrite app_nil_r.
  - rewrite (block_if _ _ _ _ _ _ _ _ (ev_eq _ _ 0 _ _ _ Em)). cbn [truth]. destruct (major =? 0); cbn [app]; apply ex_radio; auto; vm_compute; reflexivity.
  - rewrite (block_if _ _ _ _ _ _ _ _ (ev_in _ _ 2 3 4 _ _ _ Es)). cbn [truth]. destruct (_ || _); rewrite app_nil_r; [apply ex_radio; auto; vm_compute; reflexivity|].
    rewrite (block_if _ _ _ _ _ _ _ _ (ev_eq _ _ 6 _ _ _ Es)). cbn [truth]. destruct (sys =? 6); rewrite app_nil_r; [apply ex_radio; auto; vm_compute; reflexivity|].
    apply ex_radio_len; auto.
Qed.

(** a statement that reads a part into attribute a of the Transmitter PDU at l *)
Definition filled (a : string) (s : st) (l : nat) (at_ rho : env) (r : res R * st) (d : dres tpart) : Prop :=
  match d with
  | DOk p bs => exists rho' v s' K, r = (Ok (rho', None), s') /\ (forall x, x <> "radio" -> assoc x rho' = assoc x rho) /\
      nth_error (heap s') l = Some (HInst "TransmitterPdu" (upd a v at_)) /\ part_fp (heap s') v p K /\ (forall x, In x K -> (length (heap s) <= x)%nat) /\
      fr (fun x => x = l) (heap s) (heap s') /\ irest s' = bs /\ ifull s' = ifull s /\ out s' = out s
  | DErr e => exists s', r = (Exc e, s')
  end.

Lemma tx_plain : plain_attr the_prog "TransmitterPdu" "modulationParameters" = true /\ plain_attr the_prog "TransmitterPdu" "antennaPattern" = true.
Proof. split; vm_compute; reflexivity. Qed.

Lemma ex_set n a e rho s s0 l at_ v : plain_attr the_prog "TransmitterPdu" a = true -> assoc "self" rho = Some (VRef l) -> nth_error (heap s0) l = Some (HInst "TransmitterPdu" at_) ->
  eval the_prog (run the_prog n) e rho s = (Ok v, s0) ->
  exec the_prog (run the_prog n) (SetAttr (Loc "self") a e) rho s = (Ok (rho, None), obj_set l (HInst "TransmitterPdu" (upd a v at_)) (irest s0) s0).
Proof.
  intros Hp Hs Hl He. cbn [exec]. unfold bind at 1. rewrite He. cbn [eval]. rewrite Hs. unfold bind, ret. rewrite (set_attr_ok the_prog "TransmitterPdu" a l at_ v s0 Hp Hl). reflexivity.
Qed.

Lemma set_fr l x h : (l < length h)%nat -> fr (fun y => y = l) h (set_nth l x h).
Proof. intros Hl. split; [rewrite set_nth_length; lia|]. intros y Hy Hn. apply set_nth_ne; congruence. Qed.

Lemma filled_set n a e rho s l at_ v p K s0 : plain_attr the_prog "TransmitterPdu" a = true -> assoc "self" rho = Some (VRef l) -> nth_error (heap s) l = Some (HInst "TransmitterPdu" at_) ->
  eval the_prog (run the_prog n) e rho s0 = (Ok v, s0) -> part_fp (heap s0) v p K -> (forall x, In x K -> (length (heap s) <= x)%nat) -> fr (fun _ => False) (heap s) (heap s0) -> ifull s0 = ifull s -> out s0 = out s ->
  exists s', run_block (exec the_prog (run the_prog n)) [SetAttr (Loc "self") a e] rho s0 = (Ok (rho, None), s') /\
    nth_error (heap s') l = Some (HInst "TransmitterPdu" (upd a v at_)) /\ part_fp (heap s') v p K /\ fr (fun x => x = l) (heap s) (heap s') /\ irest s' = irest s0 /\ ifull s' = ifull s /\ out s' = out s.
Proof.
  intros Hp Hs Hl He HP HK HF H1 H2. assert (Ll : (l < length (heap s))%nat) by (apply nth_error_Some; congruence).
  assert (Hl0 : nth_error (heap s0) l = Some (HInst "TransmitterPdu" at_)) by (destruct HF as [_ HF]; rewrite HF by auto; exact Hl).
  assert (Ll0 : (l < length (heap s0))%nat) by (apply nth_error_Some; congruence).
  eexists. split; [cbn [run_block]; unfold bind; rewrite (ex_set n a e rho s0 s0 l at_ v Hp Hs Hl0 He); reflexivity|]. unfold obj_set. cbn [heap irest ifull out].
  split; [now apply set_nth_eq|]. split; [eapply part_fp_frame; [exact HP|]; intros x Hx; apply set_nth_ne; specialize (HK x Hx); lia|].
  split; [|auto]. apply (fr_trans (fun x => x = l) (fun x => x = l) _ (heap s0)); [apply (fr_weak _ _ _ _ HF); tauto|now apply set_fr|auto].
Qed.

Lemma filled_mod n rho s l at_ sys major z : (fuel_ok <= n)%nat -> assoc "self" rho = Some (VRef l) -> assoc "inputStream" rho = Some VIn -> assoc "modulationParametersLength" rho = Some (VInt z) ->
  nth_error (heap s) l = Some (HInst "TransmitterPdu" at_) ->
  eval the_prog (run the_prog n) (mt_ "radioSystem") rho s = (Ok (VInt sys), s) -> eval the_prog (run the_prog n) (mt_ "majorModulation") rho s = (Ok (VInt major), s) ->
  filled "modulationParameters" s l at_ rho (run_block (exec the_prog (run the_prog n)) pMod rho s) (dec_mod sys major z (irest s)).
Proof.
  intros Hn Hs Hi Hz Hl Es Em. rewrite pMod_is. rewrite (block_if n _ _ _ [] rho s (VBool (0 <? z))) by (apply ev_gt; cbn [eval]; rewrite Hz; reflexivity).
  rewrite app_nil_r. cbn [truth]. destruct (Z.ltb_spec 0 z) as [Lz|Lz].
  - pose proof (got_mod n sys major z s Hn Lz) as HG. rewrite run_block_app, (ex_dispatch n rho s sys major z Hi Hz Es Em). unfold got in HG. unfold filled.
    destruct (dec_mod sys major z (irest s)) as [p bs|e].
    + destruct HG as (v & s0 & K & E & HP & HK & HF & H1 & H2 & H3). rewrite E. cbn [then_radio].
      destruct (filled_set n "modulationParameters" (Loc "radio") (upd "radio" v rho) s l at_ v p K s0) as (s' & E' & A & B & C & D1 & D2 & D3); auto.
      * rewrite assoc_upd_ne by discriminate. exact Hs.
      * cbn [eval]. rewrite assoc_upd_eq. reflexivity.
      * exists (upd "radio" v rho), v, s', K. split; [exact E'|]. split; [intros x Hx; now apply assoc_upd_ne|]. repeat (split; [assumption|]). rewrite D1; auto.
    + destruct HG as (s' & E). exists s'. rewrite E. reflexivity.
  - unfold dec_mod. rewrite (proj2 (Z.leb_le z 0)) by lia. cbn [filled].
    destruct (filled_set n "modulationParameters" (Lit LNone) rho s l at_ VNone PNone [] s) as (s' & E' & A & B & C & D1 & D2 & D3); auto.
    + cbn; auto.
    + intros x [].
    + apply fr_refl.
    + exists rho, VNone, s', []. split; [exact E'|]. split; [auto|]. repeat (split; [assumption|]). split; [intros x []|]. auto.
Qed.

(** *** The antenna pattern *)
Lemma pPat_is : pPat = [If (Cmp CGt (Loc "antennaPatternLength") (Lit (LInt 0)))
  [If (Cmp CEq (self_ "antennaPatternType") (Lit (LInt 1)))
     [SetAttr (Loc "self") "antennaPattern" (CallV (Glob "BeamAntennaPattern") [] []); Expr (Meth (self_ "antennaPattern") "parse" [Loc "inputStream"] [])]
     [SetAttr (Loc "self") "antennaPattern" (CallV (Glob "UnknownAntennaPattern") [] []); Expr (Meth (self_ "antennaPattern") "parse" [Loc "inputStream"; Loc "antennaPatternLength"] ["bytelength"])]]
  [SetAttr (Loc "self") "antennaPattern" (Lit LNone)]].
Proof. reflexivity. Qed.

Lemma filled_pat n rho s l at_ type z : (fuel_ok <= n)%nat -> assoc "self" rho = Some (VRef l) -> assoc "inputStream" rho = Some VIn -> assoc "antennaPatternLength" rho = Some (VInt z) ->
  nth_error (heap s) l = Some (HInst "TransmitterPdu" at_) -> getA the_prog "TransmitterPdu" at_ "antennaPatternType" = Some (VInt type) ->
  filled "antennaPattern" s l at_ rho (run_block (exec the_prog (run the_prog n)) pPat rho s) (dec_pat type z (irest s)).
Proof.
  intros Hn Hs Hi Hz Hl Ht. rewrite pPat_is. rewrite (block_if n _ _ _ [] rho s (VBool (0 <? z))) by (apply ev_gt; cbn [eval]; rewrite Hz; reflexivity).
  rewrite app_nil_r. cbn [truth]. unfold dec_pat. assert (Ll : (l < length (heap s))%nat) by (apply nth_error_Some; congruence).
  destruct (Z.ltb_spec 0 z) as [Lz|Lz].
  - rewrite (proj2 (Z.leb_gt z 0) Lz). rewrite (block_if _ _ _ _ _ _ _ _ (ev_eq n _ 1 _ _ _ (ev_attr n rho l _ at_ _ _ s Hs Hl Ht))). cbn [truth]. rewrite app_nil_r.
    destruct (type =? 1).
    + assert (A : assoc "BeamAntennaPattern" TR = Some w_BeamAntennaPattern) by (vm_compute; reflexivity). destruct (tidy_inv _ _ _ tidyP A) as [S1 S2].
      assert (Hf : (new_fuel_ <= n)%nat) by (unfold fuel_ok, need, G, Dp, new_fuel_ in *; lia).
      destruct (new_ok_NC n _ _ A ltac:(vm_compute; reflexivity) Hf s) as (s1 & l1 & at1 & fp & E1 & E2 & E3 & E4 & E5 & E6 & E7 & E8 & E9).
      assert (Hl1 : nth_error (heap s1) l = Some (HInst "TransmitterPdu" at_)) by (destruct E6 as [_ E6]; rewrite E6 by auto; exact Hl).
      assert (Ll1 : (l < length (heap s1))%nat) by (apply nth_error_Some; congruence).
      set (s2 := obj_set l (HInst "TransmitterPdu" (upd "antennaPattern" (VRef l1) at_)) (irest s1) s1).
      assert (Nl : forall x, In x (l1 :: fp) -> nth_error (heap s2) x = nth_error (heap s1) x) by (intros x Hx; unfold s2, obj_set; cbn [heap]; apply set_nth_ne; specialize (E5 x Hx); lia).
      assert (Hl2 : nth_error (heap s2) l = Some (HInst "TransmitterPdu" (upd "antennaPattern" (VRef l1) at_))) by (unfold s2, obj_set; cbn [heap]; now apply set_nth_eq).
      assert (R := parse_ready n "BeamAntennaPattern" w_BeamAntennaPattern s2 [] fp l1 at1 Hn A). rewrite Nl in R by (left; reflexivity). specialize (R E2).
      assert (RR : ready the_prog (heap s2) w_BeamAntennaPattern "BeamAntennaPattern" at1 [] fp) by (eapply ready_ext; eauto; intros; apply Nl; now right).
      specialize (R RR E4). unfold par_result in R. change (irest s2) with (irest s1) in R. rewrite E7 in R.
      assert (X : run_block (exec the_prog (run the_prog n)) [SetAttr (Loc "self") "antennaPattern" (CallV (Glob "BeamAntennaPattern") [] []); Expr (Meth (self_ "antennaPattern") "parse" [Loc "inputStream"] [])] rho s =
        match call_method the_prog n (VRef l1) "parse" [VIn] s2 with (Ok _, s') => (Ok (rho, None), s') | (Exc e, s') => (Exc e, s') end).
      { assert (EN : eval the_prog (run the_prog n) (CallV (Glob "BeamAntennaPattern") [] []) rho s = (Ok (VRef l1), s1)) by (rewrite ev_new by (vm_compute; reflexivity); exact E1).
        assert (EP : eval the_prog (run the_prog n) (Meth (self_ "antennaPattern") "parse" [Loc "inputStream"] []) rho s2 = call_method the_prog n (VRef l1) "parse" [VIn] s2).
        { apply ev_parse; [exact Hi|]. eapply ev_attr; [exact Hs|exact Hl2|]. apply getA_upd_eq. apply tx_plain. }
        pose proof (ex_set n "antennaPattern" (CallV (Glob "BeamAntennaPattern") [] []) rho s s1 l at_ (VRef l1) (proj2 tx_plain) Hs Hl1 EN) as ES. fold s2 in ES.
        remember (SetAttr (Loc "self") "antennaPattern" (CallV (Glob "BeamAntennaPattern") [] [])) as c1. remember (Meth (self_ "antennaPattern") "parse" [Loc "inputStream"] []) as e2.
        cbn [run_block]. unfold bind at 1. rewrite ES. cbn [snd fst exec]. unfold bind. rewrite EP. destruct (call_method the_prog n (VRef l1) "parse" [VIn] s2) as [[v|x] s3]; reflexivity. }
      rewrite X. unfold filled. destruct (decode w_BeamAntennaPattern [] [] (irest s)) as [W r|e] eqn:ED; cbn [dmap].
      * destruct R as (s' & fp' & R1 & (at2 & Q1 & Q2 & Q3 & Q4) & R3 & R4 & R5 & R6 & R7). rewrite R1. exists rho, (VRef l1), s', (l1 :: fp'). split; [reflexivity|]. split; [auto|].
        split. { destruct R4 as [_ R4]. rewrite R4; [exact Hl2| |]. { unfold s2, obj_set. cbn [heap]. rewrite set_nth_length. exact Ll1. } intros [->|Hx]; [specialize (E5 l1 (or_introl eq_refl))|specialize (E5 l (or_intror Hx))]; lia. }
        split. { exists 40, w_BeamAntennaPattern, l1, fp'. split; [cbn; tauto|]. split; [vm_compute; reflexivity|]. split; [exists at2; auto|].
          split; [eapply decode_shaped; eauto using oldshaped_nil|]. split; [eapply decode_names; eauto|reflexivity]. }
        split. { destruct E6 as [L1 _]. intros x [<-|Hx]; [apply E5; now left|]. destruct (R3 x Hx) as [H|H]; [apply E5; now right|]. unfold s2, obj_set in H. cbn [heap] in H. rewrite set_nth_length in H. lia. }
        split. { assert (F2 : fr (fun x => x = l) (heap s) (heap s2)) by (apply (fr_trans (fun x => x = l) (fun x => x = l) _ (heap s1)); [apply (fr_weak _ _ _ _ E6); tauto|now apply set_fr|auto]).
          apply (fr_trans _ _ _ _ _ F2 R4).
          intros x Hx [->|Hi']; [specialize (E5 l1 (or_introl eq_refl))|specialize (E5 x (or_intror Hi'))]; lia. }
        split; [exact R5|]. split; [rewrite R6; exact E8|rewrite R7; exact E9].
      * destruct R as (s' & R1). exists s'. now rewrite R1.
    + set (c := "UnknownAntennaPattern"). assert (Hc : In c raw_classes) by (cbn; tauto).
      pose proof (raw_new n c s Hc ltac:(unfold fuel_ok in Hn; lia)) as E1. set (s1 := mkst (heap s ++ [HInst c [("data", VBytes [])]]) (irest s) (ifull s) (out s)) in *.
      assert (Hl1 : nth_error (heap s1) l = Some (HInst "TransmitterPdu" at_)) by (unfold s1; cbn [heap]; rewrite nth_error_app1 by lia; exact Hl).
      assert (Ll1 : (l < length (heap s1))%nat) by (apply nth_error_Some; congruence).
      set (s2 := obj_set l (HInst "TransmitterPdu" (upd "antennaPattern" (VRef (length (heap s))) at_)) (irest s1) s1).
      assert (Hr2 : nth_error (heap s2) (length (heap s)) = Some (HInst c [("data", VBytes [])])).
      { unfold s2, obj_set. cbn [heap]. rewrite set_nth_ne by lia. unfold s1. cbn [heap]. rewrite nth_error_app2, Nat.sub_diag by lia. reflexivity. }
      assert (Hl2 : nth_error (heap s2) l = Some (HInst "TransmitterPdu" (upd "antennaPattern" (VRef (length (heap s))) at_))) by (unfold s2, obj_set; cbn [heap]; now apply set_nth_eq).
      pose proof (raw_parse n c _ _ z s2 Hc ltac:(unfold fuel_ok, need in Hn; lia) ltac:(lia) Hr2) as R. cbn zeta in R. change (irest s2) with (irest s) in R.
      assert (EN : eval the_prog (run the_prog n) (CallV (Glob c) [] []) rho s = (Ok (VRef (length (heap s))), s1)) by (rewrite ev_new by (vm_compute; reflexivity); exact E1).
      assert (EP : eval the_prog (run the_prog n) (Meth (self_ "antennaPattern") "parse" [Loc "inputStream"; Loc "antennaPatternLength"] ["bytelength"]) rho s2 = parse_len n (VRef (length (heap s))) z s2).
      { apply ev_parse_len; [exact Hi|exact Hz|]. eapply ev_attr; [exact Hs|exact Hl2|]. apply getA_upd_eq. apply tx_plain. }
      pose proof (ex_set n "antennaPattern" (CallV (Glob c) [] []) rho s s1 l at_ _ (proj2 tx_plain) Hs Hl1 EN) as ES. fold s2 in ES.
      remember (SetAttr (Loc "self") "antennaPattern" (CallV (Glob c) [] [])) as c1. remember (Meth (self_ "antennaPattern") "parse" [Loc "inputStream"; Loc "antennaPatternLength"] ["bytelength"]) as e2.
      cbn [run_block]. unfold bind at 1. rewrite ES. cbn [snd fst exec]. unfold bind. rewrite EP, R. cbn [ret snd fst dec_raw filled]. fold c.
      set (k := raw_amount c z (irest s)) in *.
      assert (Lr : (length (heap s) < length (heap s2))%nat) by (apply nth_error_Some; congruence).
      exists rho, (VRef (length (heap s))); eexists; exists [length (heap s)]. split; [reflexivity|]. split; [auto|]. unfold obj_set at 1 2 3 4 5 6. cbn [heap irest ifull out].
      split; [rewrite set_nth_ne by lia; exact Hl2|].
      split. { split; [exact Hc|]. eexists; eexists. split; [reflexivity|]. split; [apply set_nth_eq; exact Lr|]. split; reflexivity. }
      split; [intros x [<-|[]]; lia|].
      split. { assert (F2 : fr (fun x => x = l) (heap s) (heap s2)) by (apply (fr_trans (fun x => x = l) (fun x => x = l) _ (heap s1)); [|now apply set_fr|auto];
          split; [unfold s1; cbn [heap]; rewrite app_length; lia|]; intros x Hx _; unfold s1; cbn [heap]; now apply nth_error_app1).
        refine (fr_trans _ _ _ _ _ F2 (set_fr _ _ _ Lr) _).
        intros x Hx ->. lia. }
      repeat split; reflexivity.
  - rewrite (proj2 (Z.leb_le z 0)) by lia. cbn [filled].
    destruct (filled_set n "antennaPattern" (Lit LNone) rho s l at_ VNone PNone [] s) as (s' & E' & A & B & C & D1 & D2 & D3); auto.
    + cbn; auto.
    + intros x [].
    + apply fr_refl.
    + exists rho, VNone, s', []. split; [exact E'|]. split; [auto|]. repeat (split; [assumption|]). split; [intros x []|]. auto.
Qed.

(** ** The whole PDU *)
Fixpoint find_obj (a : string) (f : fmt) : option (string * fmt) :=
  match f with
  | Done => None
  | Obj b c sub k => if String.eqb a b then Some (c, sub) else find_obj a k
  | Prim _ _ k | Cnt _ _ _ k | VList _ _ _ _ k | Pad _ k | PList _ _ k | OList _ _ _ k | Arr _ _ _ k | Zero _ k | Mask _ _ k
  | Derive _ _ _ k | Bits _ k | NullL _ k => find_obj a k
  end.
Lemma rep_obj f : forall h ga W fp a c sub, rep the_prog h f ga W fp -> find_obj a f = Some (c, sub) ->
  exists l at_ w fp1, ga a = Some (VRef l) /\ nth_error h l = Some (HInst c at_) /\ field a W = Some (WObj w) /\ rep the_prog h sub (getA the_prog c at_) w fp1.
Proof.
  induction f as [|b p k IH|b d sub IHs k IH|b p m k IH|b p k IH|b d sub IHs k IH|b p n k IH|p k IH|b n k IH|b p e dv k IH|e k IH|b e d k IH|bf k IH|b k IH];
    intros h ga W fp a c sub0 HR Ha; cbn [rep find_obj] in *; try (eapply IH; eauto; fail).
  - discriminate.
  - eapply IH; [apply HR|exact Ha].
  - destruct HR as (l & at_ & w & fp1 & fp2 & A & B & C & D & E & ->). destruct (String.eqb_spec a b) as [->|]; [|eauto]. injection Ha as <- <-. exists l, at_, w, fp1. auto.
  - destruct HR as (l & vs & ws & fp2 & A & B & C & D & E & ->). eauto.
  - destruct HR as (l & vs & ws & fps & fp2 & A & B & C & D & E & ->). eauto.
  - destruct HR as (l & vs & ws & fp2 & A & B & C & D & E & ->). eauto.
  - eapply IH; [apply HR|exact Ha].
  - destruct HR as (l & vs & ws & fp2 & A & B & C & D & E & ->). eauto.
  - eapply IH; [apply HR|exact Ha].
  - destruct HR as (l & fp2 & A & B & C & E & ->). eauto.
Qed.

Definition tx_new : fmt := fapp tx_in (PList "variableTransmitterParameters" u8 Done).
Lemma tx_newb : newb the_prog new_fuel_ "TransmitterPdu" tx_new = true.
Proof. vm_compute. reflexivity. Qed.
Lemma tx_newpure : new_pure the_prog new_fuel_ "TransmitterPdu".
Proof. intros i fu. vm_compute. reflexivity. Qed.

(** the parts of a PDU that has been read: modulation parameters, antenna pattern, variable transmitter parameters *)
Definition tx_parts (h : list hobj) (o : val) (pm pp : tpart) (vs : list val) : Prop :=
  exists l at_ vm vp lv, o = VRef l /\ nth_error h l = Some (HInst "TransmitterPdu" at_) /\
    assoc "modulationParameters" at_ = Some vm /\ part_at h vm pm /\ assoc "antennaPattern" at_ = Some vp /\ part_at h vp pp /\
    assoc "variableTransmitterParameters" at_ = Some (VRef lv) /\ nth_error h lv = Some (HList vs).

(** the numbers that decide what follows the fixed fields *)
Record tx_nums := { n_sys : Z; n_major : Z; n_type : Z; n_mod : Z; n_pat : Z; n_vtp : Z }.
Definition nums_of (W : flds) (C : counts) (k : tx_nums) : Prop :=
  (exists w, field "modulationType" W = Some (WObj w) /\ field "radioSystem" w = Some (WInt (n_sys k)) /\ field "majorModulation" w = Some (WInt (n_major k))) /\
  field "antennaPatternType" W = Some (WInt (n_type k)) /\
  count (CLen "modulationParameters") C = Some (n_mod k) /\ count (CLen "antennaPattern") C = Some (n_pat k) /\ count (CLen "variableTransmitterParameters") C = Some (n_vtp k).

Definition dec_parts (k : tx_nums) (bs : list byte) : dres (tpart * tpart) :=
  dbind (dec_mod (n_sys k) (n_major k) (n_mod k) bs) (fun pm r => dmap (pair pm) (dec_pat (n_type k) (n_pat k) r)).

Lemma tx_par : exists m, lookup the_prog "TransmitterPdu" "parse" = Some (MMeth m) /\ is_par m = Some (false, true) /\ m_body m = pPre ++ pMod ++ pPat ++ pVtp.
Proof. pose proof tx_par_is as E. unfold tx_body in E. destruct (lookup the_prog "TransmitterPdu" "parse") as [[m|]|] eqn:L; try (exfalso; discriminate E).
  exists m. split; [reflexivity|]. split; [|exact E]. assert (Q : match lookup the_prog "TransmitterPdu" "parse" with Some (MMeth m) => is_par m | _ => None end = Some (false, true)) by (vm_compute; reflexivity). now rewrite L in Q. Qed.

Lemma tx_in_ok : (nest tx_in <=? Dp)%nat = true /\ nodupb (names tx_in) && forallb (fun a => negb (mem a X1) && negb (String.eqb a "_struct")) (names tx_in) = true.
Proof. split; vm_compute; reflexivity. Qed.

Lemma field_prim f h ga W fp a z : rep the_prog h f ga W fp -> In a (prims f) -> field a W = Some (WInt z) -> ga a = Some (VInt z).
Proof.
  intros HR Ha Hf. destruct (rep_prim the_prog f h ga W fp a HR Ha) as (v & x & A & B & C). rewrite Hf in C. injection C as <-. rewrite A. destruct v; try discriminate B. now injection B as ->.
Qed.

Lemma pVtp_is : pVtp = [sv_loop "_" "variableTransmitterParameterCount" "vtp" "VariableTransmitterParametersRecord" "variableTransmitterParameters"].
Proof. reflexivity. Qed.

Theorem tx_load n s : (S fuel_ok < n)%nat ->
  match dec2 tx_in [] [] (irest s) with
  | DOk (W, C) r => forall k, nums_of W C k ->
      match dec_parts k r with
      | DOk (pm, pp) r' =>
          match dec_list (sv_get "VariableTransmitterParametersRecord") (Z.to_nat (n_vtp k)) r' with
          | DOk ps r'' => exists o s' vs, load the_prog n "TransmitterPdu" s = (Ok o, s') /\ contents the_prog (heap s') "TransmitterPdu" tx_r o = Some W /\
              tx_parts (heap s') o pm pp vs /\ Forall2 (sv_is (heap s')) vs ps /\ irest s' = r'' /\ ifull s' = ifull s /\ out s' = out s
          | DErr e => exists s', load the_prog n "TransmitterPdu" s = (Exc e, s')
          end
      | DErr e => exists s', load the_prog n "TransmitterPdu" s = (Exc e, s')
      end
  | DErr e => exists s', load the_prog n "TransmitterPdu" s = (Exc e, s')
  end.
Proof.
  intros Hn. assert (Hf : (new_fuel_ <= n)%nat) by (unfold fuel_ok, need, G, Dp, new_fuel_ in *; lia).
  destruct (new_ok_at n _ _ tx_newb tx_newpure Hf s) as (s1 & l & at_ & fp & E1 & E2 & E3 & E4 & E5 & E6 & E7 & E8 & E9).
  unfold tx_new in E3. apply ready_fapp in E3 as (fp1 & fp2 & R1 & R2 & ->). cbn [ready] in R2. destruct R2 as (lv & vs & fp3 & A1 & A2 & A3 & -> & ->).
  assert (vs = []) by (inversion A3; reflexivity). subst vs.
  destruct tx_par as (m & L & Ip & Bp). destruct n as [|n]; [lia|]. apply le_S_n in Hn. assert (Hn5 := Hn). assert (Hn4 : (need 4 Dp <= n)%nat) by (clear -Hn; unfold fuel_ok, need, G, Dp in *; lia). apply Nat.lt_le_incl in Hn.
  destruct (run_par the_prog n m false l s1 Ip) as (bv & HB & RP).
  assert (EL : load the_prog (S n) "TransmitterPdu" s = match run_env the_prog n m (par_env l bv) s1 with (Ok _, s') => (Ok (VRef l), s') | (Exc e, s') => (Exc e, s') end).
  { unfold load, bind at 1. unfold new. rewrite E1. unfold bind, ret. unfold call_method, bind at 1, resolve, bind at 1, hget. rewrite E2, L, (proj1 (is_par_inv _ _ _ Ip)). unfold ret. cbn [apply app]. rewrite RP.
    destruct (run_env the_prog n m (par_env l bv) s1) as [[|] ?]; reflexivity. }
  rewrite EL. clear EL RP. unfold run_env. rewrite Bp. unfold bind. rewrite run_block_app.
  assert (NDl : NoDup (l :: fp1) /\ ~ In lv (l :: fp1)).
  { inversion E4 as [|? ? N1 N2]; subst. rewrite in_app_iff in N1. apply NoDup_remove in N2 as [N2 N3]. rewrite app_nil_r in *. split; [constructor; tauto|]. cbn in N1. cbn. intuition congruence. }
  destruct NDl as [ND1 NDv].
  assert (PO := par_part n "TransmitterPdu" false pPre tx_in [] cm_pre Hn4 tx_pre (proj1 tx_in_ok) (proj2 tx_in_ok) s1 (par_env l bv) l at_ [] [] fp1 (pctx_env l false bv HB) E2 R1 ND1 ltac:(constructor)).
  rewrite E7 in PO. destruct (dec2 tx_in [] [] (irest s)) as [[W C] r|e] eqn:ED; [|destruct PO as (s' & PO); rewrite PO; eauto].
  destruct PO as (rho & s2 & at2 & fp4 & PE & (PC1 & PC2 & _) & PI & PP). rewrite PE. clear PE. intros k ((w & K1 & K2 & K3) & K4 & K5 & K6 & K7).
  destruct PP as [P1 P2 P3 P4 P5 P6 P7 P8 P9].
  assert (Em : exists z, assoc "modulationParametersLength" rho = Some (VInt z) /\ z = n_mod k).
  { destruct (has_ok (EL "modulationParameters" "modulationParametersLength" 1) cm_pre rho (getA the_prog "TransmitterPdu" at2) C ltac:(vm_compute; reflexivity) PI) as (z & Z1 & Z2). exists z. split; [exact Z1|]. rewrite K5, Z.div_1_r in Z2. congruence. }
  assert (Ep : exists z, assoc "antennaPatternLength" rho = Some (VInt z) /\ z = n_pat k).
  { destruct (has_ok (EL "antennaPattern" "antennaPatternLength" 1) cm_pre rho (getA the_prog "TransmitterPdu" at2) C ltac:(vm_compute; reflexivity) PI) as (z & Z1 & Z2). exists z. split; [exact Z1|]. rewrite K6, Z.div_1_r in Z2. congruence. }
  assert (Ev : exists z, assoc "variableTransmitterParameterCount" rho = Some (VInt z) /\ z = n_vtp k).
  { destruct (has_ok (EL "variableTransmitterParameters" "variableTransmitterParameterCount" 1) cm_pre rho (getA the_prog "TransmitterPdu" at2) C ltac:(vm_compute; reflexivity) PI) as (z & Z1 & Z2). exists z. split; [exact Z1|]. rewrite K7, Z.div_1_r in Z2. congruence. }
  destruct Em as (zm & Em & ->), Ep as (zp & Ep & ->), Ev as (zv & Ev & ->).
  assert (MT : exists lm atm, getA the_prog "TransmitterPdu" at2 "modulationType" = Some (VRef lm) /\ nth_error (heap s2) lm = Some (HInst "ModulationType" atm) /\
    getA the_prog "ModulationType" atm "radioSystem" = Some (VInt (n_sys k)) /\ getA the_prog "ModulationType" atm "majorModulation" = Some (VInt (n_major k))).
  { destruct (rep_obj _ _ _ _ _ "modulationType" "ModulationType" r_ModulationType P2 ltac:(vm_compute; reflexivity)) as (lm & atm & w' & fpm & Q1 & Q2 & Q3 & Q4).
    rewrite K1 in Q3. injection Q3 as <-. exists lm, atm. split; [exact Q1|]. split; [exact Q2|].
    split; (eapply field_prim; [exact Q4|vm_compute; tauto|assumption]). }
  destruct MT as (lm & atm & M1 & M2 & M3 & M4).
  assert (Hty : getA the_prog "TransmitterPdu" at2 "antennaPatternType" = Some (VInt (n_type k))) by (eapply field_prim; [exact P2|vm_compute; tauto|exact K4]).
  assert (Es : forall a v, getA the_prog "ModulationType" atm a = Some v -> eval the_prog (run the_prog n) (mt_ a) rho s2 = (Ok v, s2)).
  { intros a v Ha. assert (Q : forall e0, eval the_prog (run the_prog n) e0 rho s2 = (Ok (VRef lm), s2) -> eval the_prog (run the_prog n) (Attr e0 a) rho s2 = (Ok v, s2)).
    { intros e0 Q. cbn [eval]. unfold bind. rewrite Q. eapply get_attr_ga; eauto. }
    apply Q. exact (ev_attr n rho l _ at2 _ _ s2 PC1 P1 M1). }
  rewrite run_block_app. pose proof (filled_mod n rho s2 l at2 _ _ _ Hn PC1 PC2 Em P1 (Es _ _ M3) (Es _ _ M4)) as FM. rewrite P7 in FM. unfold dec_parts.
  unfold filled in FM. destruct (dec_mod (n_sys k) (n_major k) (n_mod k) r) as [pm r1|e]; cbn [dbind]; [|destruct FM as (s' & FM); rewrite FM; eauto].
  destruct FM as (rho3 & vm & s3 & Km & F1 & F2 & F3 & F4 & F5 & F6 & F7 & F8 & F9). rewrite F1. clear F1.
  rewrite run_block_app.
  assert (Hty3 : getA the_prog "TransmitterPdu" (upd "modulationParameters" vm at2) "antennaPatternType" = Some (VInt (n_type k))) by (rewrite getA_upd_ne by discriminate; exact Hty).
  assert (S3 : assoc "self" rho3 = Some (VRef l)) by (rewrite F2 by discriminate; exact PC1). assert (I3 : assoc "inputStream" rho3 = Some VIn) by (rewrite F2 by discriminate; exact PC2).
  assert (L3 : assoc "antennaPatternLength" rho3 = Some (VInt (n_pat k))) by (rewrite F2 by discriminate; exact Ep).
  pose proof (filled_pat n rho3 s3 l _ _ _ Hn S3 I3 L3 F3 Hty3) as FP. rewrite F7 in FP. unfold filled in FP.
  destruct (dec_pat (n_type k) (n_pat k) r1) as [pp r2|e]; cbn [dmap]; [|destruct FP as (s' & FP); rewrite FP; eauto].
  destruct FP as (rho4 & vp & s4 & Kp & G1 & G2 & G3 & G4 & G5 & G6 & G7 & G8 & G9). rewrite G1. clear G1.
  set (at4 := upd "antennaPattern" vp (upd "modulationParameters" vm at2)) in *.
  (* the heap after the prefix *)
  assert (V4 : forall x, In x (l :: fp4) -> (x < length (heap s2))%nat).
  { intros x [<-|Hx]; [apply nth_error_Some; congruence|]. eapply rep_valid; eauto. }
  assert (K4' : forall x, x <> l -> (x < length (heap s2))%nat -> nth_error (heap s4) x = nth_error (heap s2) x).
  { intros x N Hx. destruct F6 as [F6 F6'], G6 as [G6 G6']. rewrite G6' by (auto; lia). apply F6'; auto. }
  assert (Llv : (lv < length (heap s1))%nat) by (apply nth_error_Some; congruence).
  assert (NDl : lv <> l) by (intros ->; apply NDv; left; reflexivity).
  assert (Hlv : nth_error (heap s4) lv = Some (HList [])).
  { destruct P5 as [P5 P5']. rewrite K4' by (auto; lia). rewrite P5'; [exact A2|exact Llv|]. intros [Q|Q]; [congruence|]. apply NDv. now right. }
  assert (N4 : ~ In lv fp4).
  { intros Q. destruct (P4 _ Q) as [Q'|Q']; [apply NDv; now right|]. clear -Llv Q'. lia. }
  assert (Av : assoc "variableTransmitterParameters" at4 = Some (VRef lv)).
  { unfold at4. rewrite !assoc_upd_ne by discriminate. rewrite P6 by (vm_compute; intuition discriminate).
    assert (PL : plain_attr the_prog "TransmitterPdu" "variableTransmitterParameters" = true) by (vm_compute; reflexivity).
    unfold getA in A1. unfold plain_attr in PL. destruct (lookup the_prog "TransmitterPdu" "variableTransmitterParameters") as [[q|li]|]; [discriminate| |exact A1].
    destruct (assoc "variableTransmitterParameters" at_); [exact A1|]. injection A1 as A1. destruct li; discriminate A1. }
  assert (Gv : getA the_prog "TransmitterPdu" at4 "variableTransmitterParameters" = Some (VRef lv)) by (apply getA_plain; [vm_compute; reflexivity|exact Av]).
  assert (S4 : assoc "self" rho4 = Some (VRef l)) by (rewrite G2 by discriminate; exact S3). assert (I4 : assoc "inputStream" rho4 = Some VIn) by (rewrite G2 by discriminate; exact I3).
  assert (C4 : assoc "variableTransmitterParameterCount" rho4 = Some (VInt (n_vtp k))) by (rewrite G2, F2 by discriminate; exact Ev).
  pose proof (sv_for n "TransmitterPdu" "_" "variableTransmitterParameterCount" "vtp" "VariableTransmitterParametersRecord" "variableTransmitterParameters" (n_vtp k) rho4 s4 l at4 lv
    Hn5 ltac:(cbn; tauto) ltac:(cbn; intuition discriminate) ltac:(cbn; intuition discriminate) S4 I4 C4 G3 Gv Hlv) as FV. rewrite G7, <- pVtp_is in FV.
  destruct (dec_list (sv_get "VariableTransmitterParametersRecord") (Z.to_nat (n_vtp k)) r2) as [ps r3|e]; [|destruct FV as (s' & FV); rewrite FV; eauto].
  destruct FV as (rho5 & s5 & vs & Ks & H1 & H2 & H3 & H4 & H5 & H6 & H7 & H8). rewrite H1. cbn [ret snd]. clear H1.
  assert (L4 : forall x, (x < length (heap s2))%nat -> (x < length (heap s4))%nat) by (intros x; destruct F6 as [F6 _], G6 as [G6 _]; clear -F6 G6; lia).
  assert (KV : forall x, x <> lv -> (x < length (heap s4))%nat -> nth_error (heap s5) x = nth_error (heap s4) x) by (intros x N Hx; destruct H5 as [_ H5]; apply H5; auto).
  assert (G3' : nth_error (heap s5) l = Some (HInst "TransmitterPdu" at4)) by (rewrite KV; [exact G3|congruence|apply L4, V4; now left]).
  assert (Nv : (lv < length (heap s2))%nat) by (destruct P5 as [P5 _]; clear -P5 Llv; lia).
  exists (VRef l), s5, vs. split; [reflexivity|]. split; [|split; [|split]].
  - apply holds_contents; try (vm_compute; reflexivity).
    + exists l, fp4, at4. split; [reflexivity|]. split; [exact G3'|]. split; [|exact P3].
      change (rep the_prog (heap s5) tx_in (getA the_prog "TransmitterPdu" at4) W fp4).
      eapply rep_ext; [exact P2| | |reflexivity].
      * intros x Hx. rewrite KV; [apply K4'; [intros ->; inversion P3; subst; contradiction|apply V4; now right]|intros ->; contradiction|apply L4, V4; now right].
      * intros a Ha. unfold at4. rewrite !getA_upd_ne; [reflexivity| |]; intros ->; vm_compute in Ha; intuition discriminate.
    + change (shaped tx_in W). assert (DD : decode tx_in [] [] (irest s) = DOk W r) by (rewrite dec2_decode, ED; reflexivity). eapply decode_shaped; [vm_compute; reflexivity|eauto using oldshaped_nil..].
    + change (map fst W = names tx_in). eapply dec2_names; eauto.
  - exists l, at4, vm, vp, lv. split; [reflexivity|]. split; [exact G3'|].
    split; [unfold at4; rewrite assoc_upd_ne, assoc_upd_eq by discriminate; reflexivity|].
    assert (V3 : (length (heap s2) <= length (heap s3))%nat) by apply F6. assert (V5 : (length (heap s3) <= length (heap s4))%nat) by apply G6.
    split. { eapply part_fp_at, part_fp_frame; [exact F4|]. intros x Hx. assert (X1 : (x < length (heap s3))%nat) by (eapply part_fp_valid; eauto). apply F5 in Hx.
      rewrite KV by (clear -X1 Hx Nv V5; lia). destruct G6 as [_ G6]. apply G6; [exact X1|]. specialize (V4 l (or_introl eq_refl)). clear -V4 Hx. lia. }
    split; [apply assoc_upd_eq|]. split; [|split; [exact Av|exact H2]].
    eapply part_fp_at, part_fp_frame; [exact G4|]. intros x Hx. assert (X1 : (x < length (heap s4))%nat) by (eapply part_fp_valid; eauto). apply G5 in Hx. apply KV; [clear -X1 Hx Nv V3; lia|exact X1].
  - eapply F3_F2; [exact H3|]. intros v p K. apply sv_elem_is.
  - split; [exact H6|]. split; congruence.
Qed.
