(** * C90: threads may share objects that none of them changes

    Property: a PDU that nobody changes may be serialised, measured and read by any number of threads at the same time, while these threads also decode datagrams and build objects of their own:
    each of them gets the same values, exceptions and bytes as when it runs alone, and the shared objects stay as they are.

    Specification: the memory h0 holds the objects that exist when the threads start, and the variables of each thread refer to them as one likes; the threads run as in C89, interrupted anywhere.
    [C90_readers] is for any threads that, run alone, never change an object of h0; [C90_harmless] shows that threads are such if they decode, take new input and execute statements
    without assignments to attributes or list elements and without calls except of serialize, marshalledSize and the functions these call ([harmless]). *)
From Coq Require Import ZArith String List Bool Lia PeanoNat.
From Coq Require Import Strings.Byte.
From Verif Require Import Lang Ind Bytes Interp Pure Shift Threads Ren ThreadRel Calm ProgBase ProgDis Prog Spec Api PropUsers PropThreads.
Import ListNotations.
Open Scope string_scope. Open Scope list_scope. Open Scope nat_scope.

(** ** The threads and what they share *)
(** only references to the first k objects *)
Fixpoint below (k : nat) (v : val) : bool := match v with VRef l => l <? k | VTuple vs => forallb (below k) vs | _ => true end.
Definition obj_below (k : nat) (o : hobj) : bool := match o with HInst _ a => forallb (fun p => below k (snd p)) a | HList vs => forallb (below k) vs end.
Definition no_dangling (h : list hobj) : bool := forallb (obj_below (length h)) h.
Definition knows (h : list hobj) (rho : env) : bool := forallb (fun p => below (length h) (snd p)) rho.
Definition with_ (rho : env) : user := mkuser rho [] [] [] [].
Definition start_with (n : nat) (rho : env) (acts : list action) : thread := mkthread (job the_prog n acts rho []) [] [] [].
(** run alone, the thread leaves the objects of h alone, at every moment *)
Definition only_reads (h : list hobj) (t : thread) : Prop := forall k j, j < length h -> nth_error (snd (solo k t h)) j = nth_error h j.

(** ** Proof *)
Section Id.
Variable k : nat.
Variable b : list nat.
Hypothesis Hb : forall j, j < k -> nth_error b j = Some j.
Fixpoint vr_id v w (H : vr b v w) {struct H} : below k v = true -> w = v.
Proof.
  destruct H as [i j E|vs ws H|x Hx]; intros B.
  - cbn in B. apply Nat.ltb_lt in B. rewrite (Hb i B) in E. congruence.
  - f_equal. cbn [below] in B. revert B. induction H as [|x y l l' Hx Hl IH]; intros B; [reflexivity|]. cbn [forallb] in B. apply andb_prop in B as [B1 B2]. f_equal; [exact (vr_id x y Hx B1)|exact (IH B2)].
  - reflexivity.
Qed.
Lemma vrs_id vs ws : vrs b vs ws -> forallb (below k) vs = true -> ws = vs.
Proof. induction 1 as [|x y l l' Hx Hl IH]; intros B; [reflexivity|]. cbn [forallb] in B. apply andb_prop in B as [B1 B2]. f_equal; [exact (vr_id x y Hx B1)|exact (IH B2)]. Qed.
Lemma er_id r q : er b r q -> forallb (fun p => below k (snd p)) r = true -> q = r.
Proof. induction 1 as [|[x v] [y w] l l' [Hx Hv] Hl IH]; intros B; [reflexivity|]. cbn in Hx, Hv. subst y. cbn [forallb snd] in B. apply andb_prop in B as [B1 B2]. f_equal; [f_equal; exact (vr_id v w Hv B1)|exact (IH B2)]. Qed.
Lemma orel_id o o' : orel b o o' -> obj_below k o = true -> o' = o.
Proof. intros [c a1 a2 H|vs ws H] B; f_equal; [exact (er_id _ _ H B)|exact (vrs_id _ _ H B)]. Qed.
Fixpoint vr_refl v : below k v = true -> vr b v v.
Proof.
  destruct v; intros B; try (apply vr_atom; reflexivity).
  - cbn in B. apply Nat.ltb_lt in B. apply vr_ref. now apply Hb.
  - apply vr_tuple. cbn [below] in B. revert B. induction vs as [|x r IH]; intros B; [constructor|]. cbn [forallb] in B. apply andb_prop in B as [B1 B2]. constructor; [exact (vr_refl x B1)|exact (IH B2)].
Qed.
Lemma vrs_refl vs : forallb (below k) vs = true -> vrs b vs vs.
Proof. induction vs as [|x r IH]; intros B; [constructor|]. cbn [forallb] in B. apply andb_prop in B as [B1 B2]. constructor; [exact (vr_refl x B1)|exact (IH B2)]. Qed.
Lemma er_refl r : forallb (fun p => below k (snd p)) r = true -> er b r r.
Proof. induction r as [|x r IH]; intros B; [constructor|]. cbn [forallb] in B. apply andb_prop in B as [B1 B2]. constructor; [split; [reflexivity|exact (vr_refl _ B1)]|exact (IH B2)]. Qed.
Lemma orel_refl o : obj_below k o = true -> orel b o o.
Proof. destruct o; intros B; constructor; [exact (er_refl _ B)|exact (vrs_refl _ B)]. Qed.
End Id.

Lemma seq_nth0 k l j : j < k -> nth_error (seq 0 k ++ l) j = Some j.
Proof.
  intros H. rewrite nth_error_app1 by (rewrite seq_length; exact H). rewrite (nth_error_nth' (seq 0 k) 0) by (rewrite seq_length; exact H). now rewrite seq_nth.
Qed.

Section Shared.
Variable h0 : list hobj.
Hypothesis closed0 : no_dangling h0 = true.
Let k0 := length h0.
Definition places (own : list nat) : list nat := seq 0 (length h0) ++ own.
Record invS (own : nat -> list nat) (ts : nat -> thread) (g : list hobj) (ss : nat -> thread) (hs : nat -> list hobj) : Prop := mkinvS {
  is_same : forall i, sameT (places (own i)) (ss i) (hs i) (ts i) g;
  is_own : forall i j, In j (own i) -> k0 <= j;
  is_disj : forall i k j, i <> k -> In j (own i) -> In j (own k) -> False;
  is_shared : forall j, j < k0 -> nth_error g j = nth_error h0 j;
  is_reads : forall i k j, j < k0 -> nth_error (snd (solo k (ss i) (hs i))) j = nth_error h0 j
}.
Lemma shared_len g : (forall j, j < k0 -> nth_error g j = nth_error h0 j) -> k0 <= length g.
Proof. intros H. eapply fixes_len; [exact H|]. reflexivity. Qed.
Lemma in_places j own : In j (places own) -> j < k0 \/ In j own.
Proof. intros H. apply in_app_or in H as [H|H]; [left; apply in_seq in H; subst k0; lia|now right]. Qed.

Lemma invS_step own ts g ss hs i : invS own ts g ss hs ->
  exists own', invS own' (put i (fst (step (ts i) g)) ts) (snd (step (ts i) g)) (put i (fst (step (ss i) (hs i))) ss) (put i (snd (step (ss i) (hs i))) hs).
Proof.
  intros [H O D G Q]. destruct (step_same _ _ _ _ _ (H i)) as (b' & S & k & Eb & Lg & F). pose proof (fun k => Q i (Datatypes.S k)) as Qi. cbn [solo] in Qi.
  destruct (step (ts i) g) as [w g'], (step (ss i) (hs i)) as [u h]. cbn [fst snd] in *. pose proof (shared_len g G) as LG.
  assert (LT : forall q j, In j (own q) -> j < length g) by (intros q j Hj; destruct (H q) as (S0 & _); apply (sim_lt _ _ _ _ S0); apply in_or_app; now right).
  assert (Eb' : b' = places (own i ++ seq (length g) k)) by (rewrite Eb; unfold places; now rewrite app_assoc).
  assert (G' : forall j, j < k0 -> nth_error g' j = nth_error h0 j).
  { intros j Hj. destruct S as [S _]. assert (Hbj : nth_error b' j = Some j) by (rewrite Eb'; apply seq_nth0; exact Hj). destruct (sim_obj _ _ _ S j j Hbj) as (o & o' & E1 & E2 & Ho). cbn [stateT heap] in E1, E2.
    rewrite E2. pose proof (Qi 0 j Hj) as Eh. cbn [solo snd] in Eh. rewrite <- Eh, E1. f_equal. apply (orel_id k0 b') in Ho; [exact Ho|intros x Hx; rewrite Eb'; now apply seq_nth0|].
    rewrite E1 in Eh. symmetry in Eh. apply nth_error_In in Eh. unfold no_dangling in closed0. rewrite forallb_forall in closed0. exact (closed0 _ Eh). }
  exists (put i (own i ++ seq (length g) k) own). split.
  - intros q. unfold put. destruct (Nat.eqb_spec q i) as [Eq|Ne]; [subst q; rewrite <- Eb'; exact S|]. destruct (H q) as (S0 & E0). split; [|exact E0]. destruct S0 as [A1 A2 A3 A4 A5 A6]. split; auto.
    intros x j Hxj. destruct (A3 x j Hxj) as (o & o' & E1 & E2 & Ho). exists o, o'. split; [exact E1|]. split; [|exact Ho]. cbn [stateT heap] in *. assert (Hj : In j (places (own q))) by (eapply nth_error_In; eauto).
    apply in_places in Hj as [Hj|Hj]; [rewrite (G' j Hj), <- (G j Hj); exact E2|]. rewrite F; [exact E2|exact (LT q j Hj)|]. intros Hi. apply in_places in Hi as [Hi|Hi]; [apply O in Hj; lia|]. exact (D q i j Ne Hj Hi).
  - intros q j. unfold put. destruct (Nat.eqb_spec q i) as [Eq|Ne]; [|apply O]. intros Hj. apply in_app_or in Hj as [Hj|Hj]; [exact (O i j Hj)|]. apply in_seq in Hj. lia.
  - assert (N : forall q j, q <> i -> In j (own i ++ seq (length g) k) -> In j (own q) -> False).
    { intros q j Hq Hb Hj. apply in_app_or in Hb as [Hb|Hb]; [exact (D q i j Hq Hj Hb)|]. apply in_seq in Hb. apply LT in Hj. lia. }
    intros q r j Hqr. unfold put. destruct (Nat.eqb_spec q i) as [->|N1], (Nat.eqb_spec r i) as [->|N2]; [congruence| | |].
    + intros A B. exact (N r j N2 A B).
    + intros A B. exact (N q j N1 B A).
    + apply D. exact Hqr.
  - exact G'.
  - intros q m j Hj. unfold put. destruct (Nat.eqb_spec q i) as [Eq|Ne]; [exact (Qi m j Hj)|exact (Q q m j Hj)].
Qed.
Lemma invS_run sched : forall own ts g ss hs, invS own ts g ss hs ->
  exists own', invS own' (fst (threads ts g sched)) (snd (threads ts g sched)) (fun i => fst (solo (steps_of i sched) (ss i) (hs i))) (fun i => snd (solo (steps_of i sched) (ss i) (hs i))).
Proof.
  induction sched as [|i r IH]; intros own ts g ss hs H; [exists own; exact H|]. destruct (invS_step own ts g ss hs i H) as (o1 & H1). cbn [threads]. destruct (step (ts i) g) as [w g'] eqn:Ew. cbn [fst snd] in H1.
  destruct (IH _ _ _ _ _ H1) as (o2 & [H2 O2 D2 G2 Q2]). exists o2.
  assert (E : forall q, solo (steps_of q r) (put i (fst (step (ss i) (hs i))) ss q) (put i (snd (step (ss i) (hs i))) hs q) = solo (steps_of q (i :: r)) (ss q) (hs q)).
  { intros q. unfold steps_of. cbn [count_occ]. unfold put. destruct (Nat.eqb_spec q i) as [Eq|Ne]; [subst q|].
    - destruct (Nat.eq_dec i i) as [_|Ne]; [|congruence]. cbn [solo]. destruct (step (ss i) (hs i)) as [u h]. reflexivity.
    - destruct (Nat.eq_dec i q) as [Eq|_]; [congruence|]. reflexivity. }
  split; auto.
  - intros q. specialize (H2 q). cbv beta in H2. rewrite E in H2. exact H2.
  - intros q m j Hj. specialize (Q2 q m j Hj). cbv beta in Q2. rewrite E in Q2. exact Q2.
Qed.

Variable n : nat.
Variable rhos : nat -> env.
Variable jobs : nat -> list action.
Hypothesis known : forall k, knows h0 (rhos k) = true.
Hypothesis reads : forall k, only_reads h0 (start_with n (rhos k) (jobs k)).
Lemma invS_start : invS (fun _ => []) (fun k => start_with n (rhos k) (jobs k)) h0 (fun k => start_with n (rhos k) (jobs k)) (fun _ => h0).
Proof.
  split; [|intros i j []|intros i k j _ []|reflexivity|intros i k j Hj; exact (reads i k j Hj)]. intros i. unfold places. rewrite app_nil_r. assert (I : forall j, j < length h0 -> nth_error (seq 0 (length h0)) j = Some j) by (intros j Hj; pose proof (seq_nth0 (length h0) [] j Hj) as E; now rewrite app_nil_r in E).
  split; [|apply (tj_job the_prog no_shared); apply (er_refl (length h0)); [exact I|exact (known i)]].
  split; try reflexivity; [now rewrite seq_length|apply seq_NoDup|]. intros x j Hx. cbn [stateT heap]. assert (Lx : x < length h0) by (assert (Hs : x < length (seq 0 (length h0))) by (apply nth_error_Some; congruence); now rewrite seq_length in Hs). rewrite (I x Lx) in Hx. injection Hx as <-.
  destruct (nth_error h0 x) as [o|] eqn:E; [|apply nth_error_None in E; lia]. exists o, o. split; [reflexivity|]. split; [reflexivity|]. apply (orel_refl (length h0)); [exact I|]. unfold no_dangling in closed0. rewrite forallb_forall in closed0. eapply closed0, nth_error_In; eauto.
Qed.

Lemma readers sched i u : finished (fst (threads (fun k => start_with n (rhos k) (jobs k)) h0 sched) i) = Some u ->
  u_out u = u_out (fst (alone the_prog n (with_ (rhos i)) h0 (jobs i))) /\ u_log u = u_log (fst (alone the_prog n (with_ (rhos i)) h0 (jobs i))) /\ u_in u = u_in (fst (alone the_prog n (with_ (rhos i)) h0 (jobs i))) /\
  forall d, variables d (snd (threads (fun k => start_with n (rhos k) (jobs k)) h0 sched)) u = variables d (snd (alone the_prog n (with_ (rhos i)) h0 (jobs i))) (fst (alone the_prog n (with_ (rhos i)) h0 (jobs i))).
Proof.
  destruct (invS_run sched _ _ _ _ _ invS_start) as (own & [H _ _ _ _]). specialize (H i). destruct (threads (fun k => start_with n (rhos k) (jobs k)) h0 sched) as [ts g]. cbn [fst snd] in *. intros Hf.
  pose proof (solo_itp (steps_of i sched) (start_with n (rhos i) (jobs i)) h0) as I1. destruct (solo (steps_of i sched) (start_with n (rhos i) (jobs i)) h0) as [t1 h1]. cbn [fst snd] in *.
  destruct (job_alone the_prog n (jobs i) (with_ (rhos i)) h0) as (s & J). destruct (alone the_prog n (with_ (rhos i)) h0 (jobs i)) as [w h]. destruct J as (J & ->). cbn [fst snd].
  change (itp (t_todo (start_with n (rhos i) (jobs i))) (stateT (start_with n (rhos i) (jobs i)) h0)) with (itp (job the_prog n (jobs i) (u_env (with_ (rhos i))) (u_log (with_ (rhos i)))) (state (with_ (rhos i)) h0)) in I1. rewrite J in I1.
  destruct H as [S R]. unfold finished in Hf. destruct (ts i) as [todo wi wf wo]. destruct t1 as [todo0 ui uf uo]. cbn [t_todo t_in t_full t_out] in *. set (b := places (own i)) in *. clearbody b.
  destruct R as [b a c HR|b e|b X Y m m' Q k k' HR K]; try discriminate. destruct c as [rho l]. injection Hf as <-. destruct HR as [HR1 HR2]. cbn [fst snd] in HR1, HR2. cbn [itp] in I1. unfold stateT, state in *. cbn [t_in t_full t_out] in *.
  injection I1 as -> -> -> -> ->. cbn [fst snd] in *. cbn [u_out u_log u_in]. split; [symmetry; exact (sim_out _ _ _ S)|]. split; [now symmetry|]. split; [symmetry; exact (sim_rest _ _ _ S)|].
  intros d. unfold variables. symmetry. exact (view_er _ _ _ d _ _ S HR1).
Qed.
Lemma finishes i : exists N, forall sched, N <= steps_of i sched -> exists u, finished (fst (threads (fun k => start_with n (rhos k) (jobs k)) h0 sched) i) = Some u.
Proof.
  destruct (solo_ends (t_todo (start_with n (rhos i) (jobs i))) [] [] [] h0) as (N & HN). exists N. intros sched HS. destruct (invS_run sched _ _ _ _ _ invS_start) as (own & [H _ _ _ _]). specialize (H i). destruct H as [_ R].
  pose proof (solo_itp (steps_of i sched) (start_with n (rhos i) (jobs i)) h0) as I1. assert (E : ended (t_todo (fst (solo (steps_of i sched) (start_with n (rhos i) (jobs i)) h0))) = true).
  { replace (steps_of i sched) with (N + (steps_of i sched - N)) by lia. rewrite solo_add, solo_stays; exact HN. }
  destruct (job_alone the_prog n (jobs i) (with_ (rhos i)) h0) as (s & J). destruct (alone the_prog n (with_ (rhos i)) h0 (jobs i)) as [w h]. destruct J as (J & _).
  change (itp (t_todo (start_with n (rhos i) (jobs i))) (stateT (start_with n (rhos i) (jobs i)) h0)) with (itp (job the_prog n (jobs i) (u_env (with_ (rhos i))) (u_log (with_ (rhos i)))) (state (with_ (rhos i)) h0)) in I1. rewrite J in I1.
  unfold finished. set (b := places (own i)) in *. clearbody b. destruct R as [b a c HR|b e|b X Y m m' Q k k' HR K]; [destruct c as [rho l]; eauto|discriminate|discriminate].
Qed.
Lemma unchanged sched j : j < length h0 -> nth_error (snd (threads (fun k => start_with n (rhos k) (jobs k)) h0 sched)) j = nth_error h0 j.
Proof. intros Hj. destruct (invS_run sched _ _ _ _ _ invS_start) as (own & H). exact (is_shared _ _ _ _ _ H j Hj). Qed.
End Shared.

(** ** Statements that change nothing *)
(** the methods called, directly or not, by serialize, by marshalledSize and by properties (C25) *)
Definition reading : list string :=
  ["write"; "write_float64"; "_struct"; "write_bytes"; "datumPaddingSizeInBits"; "write_long"; "marshalledSize"; "write_uint64"; "write_short"; "write_double"; "write_int";
   "write_float32"; "write_uint8"; "write_uint32"; "write_uint16"; "write_float"; "write_byte"; "write_unsigned_byte"; "write_unsigned_short"; "write_unsigned_int"; "serialize"].
Lemma reading_pure : pure_prog reading the_prog = true. Proof. vm_compute. reflexivity. Qed.
Definition harmless (a : action) : bool := match a with Do c => pure_stmt reading c | _ => true end.

Lemma keep_try k {A} (t : T A) : forall s, keep k t s -> keep k (tryY t) s.
Proof. induction t as [a|e|X m f IH]; intros s H; [exact I..|]. destruct H as [H1 H2]. cbn [tryY keep]. unfold tried. destruct (m s) as [[x|e] s']; (split; [exact H1|]); [now apply IH|exact I]. Qed.
Lemma keep_job k n acts : forallb harmless acts = true -> forall rho l s, k <= length (heap s) -> keep k (job the_prog n acts rho l) s.
Proof.
  induction acts as [|a r IH]; intros Ha rho l s L; cbn [job]; [exact I|]. cbn [forallb] in Ha. apply andb_prop in Ha as [Ha Hr]. specialize (IH Hr). destruct a as [c|data|x data].
  - assert (K : keep k (tryY (execY the_prog (runY the_prog n) c rho)) s) by (apply keep_try, keep_calm; apply (calm_exec reading the_prog reading_pure); [apply (calm_run reading the_prog reading_pure)|exact Ha]).
    apply keep_bind; [exact K|]. intros y s' E. pose proof (keep_itp k _ _ K) as F. rewrite E in F. cbn [snd] in F. apply fixes_len in F; [|exact L]. destruct y; now apply IH.
  - apply keep_bind; [split; [apply fixes_refl|exact I]|]. intros y s' E. rewrite Calm.itp_prim in E. unfold feed in E. injection E as <- <-. now apply IH.
  - apply keep_bind; [split; [apply fixes_refl|exact I]|]. intros old s1 E1. rewrite Calm.itp_prim in E1. unfold open_ in E1. injection E1 as <- <-.
    assert (K : keep k (tryY (getPduY the_prog PduTypeDecoders n)) (mkst (heap s) data data [])).
    { apply keep_try. eapply (keep_rel k vr []); [apply (tj_getPdu the_prog no_shared)| |intros j []|exact L]. instantiate (1 := mkst [] data data []). split; try reflexivity; [constructor|]. intros i j H. destruct i; discriminate. }
    apply keep_bind; [exact K|]. intros y s2 E2. pose proof (keep_itp k _ _ K) as F. rewrite E2 in F. cbn [snd heap] in F. apply fixes_len in F; [|exact L].
    apply keep_bind; [split; [apply fixes_refl|]; exact I|]. intros z s3 E3. rewrite Calm.itp_prim in E3. unfold close_ in E3. injection E3 as <- <-. destruct y; now apply IH.
Qed.
Lemma keep_step k t h : keep k (t_todo t) (stateT t h) -> keep k (t_todo (fst (step t h))) (stateT (fst (step t h)) (snd (step t h))) /\ fixes k h (snd (step t h)).
Proof.
  unfold step, stateT. destruct t as [[a|e|X m f] i fu o]; cbn [t_todo t_in t_full t_out]; try (intros _; split; [exact I|apply fixes_refl]). intros [H1 H2]. destruct (m (mkst h i fu o)) as [[x|e] s]; cbn [fst snd t_todo t_in t_full t_out heap] in *; (split; [|exact H1]); [destruct s; exact H2|exact I].
Qed.
Lemma keep_solo k q : forall t h, keep k (t_todo t) (stateT t h) -> fixes k h (snd (solo q t h)).
Proof. induction q as [|q IH]; intros t h H; [apply fixes_refl|]. cbn [solo]. destruct (keep_step k t h H) as [H1 H2]. destruct (step t h) as [t' h']. cbn [fst snd] in *. eapply fixes_trans; [exact H2|now apply IH]. Qed.

(** ** The theorems *)
(** threads that, run alone, never change a shared object do not influence each other, however they are interrupted *)
Theorem C90_readers h0 n rhos jobs sched i u : no_dangling h0 = true -> (forall k, knows h0 (rhos k) = true) -> (forall k, only_reads h0 (start_with n (rhos k) (jobs k))) ->
  let '(ts, g) := threads (fun k => start_with n (rhos k) (jobs k)) h0 sched in
  finished (ts i) = Some u ->
  let '(w, h) := alone the_prog n (with_ (rhos i)) h0 (jobs i) in
  u_out u = u_out w /\ u_log u = u_log w /\ u_in u = u_in w /\ forall d, variables d g u = variables d h w.
Proof.
  intros H1 H2 H3. pose proof (readers h0 H1 n rhos jobs H2 H3 sched i u) as H. destruct (threads (fun k => start_with n (rhos k) (jobs k)) h0 sched) as [ts g]. cbn [fst snd] in H. intros F. specialize (H F). destruct (alone the_prog n (with_ (rhos i)) h0 (jobs i)) as [w h]. exact H.
Qed.
(** each of them ends, and the shared objects stay as they are *)
Theorem C90_finishes h0 n rhos jobs i : no_dangling h0 = true -> (forall k, knows h0 (rhos k) = true) -> (forall k, only_reads h0 (start_with n (rhos k) (jobs k))) ->
  exists N, forall sched, N <= steps_of i sched -> exists u, finished (fst (threads (fun k => start_with n (rhos k) (jobs k)) h0 sched) i) = Some u.
Proof. intros H1 H2 H3. exact (finishes h0 H1 n rhos jobs H2 H3 i). Qed.
Theorem C90_unchanged h0 n rhos jobs sched j : no_dangling h0 = true -> (forall k, knows h0 (rhos k) = true) -> (forall k, only_reads h0 (start_with n (rhos k) (jobs k))) ->
  j < length h0 -> nth_error (snd (threads (fun k => start_with n (rhos k) (jobs k)) h0 sched)) j = nth_error h0 j.
Proof. intros H1 H2 H3. exact (unchanged h0 H1 n rhos jobs H2 H3 sched j). Qed.
(** decoding, and statements that only read, serialise and compute sizes, are such *)
Theorem C90_harmless h0 n rho acts : forallb harmless acts = true -> only_reads h0 (start_with n rho acts).
Proof. intros Ha k j Hj. apply (keep_solo (length h0) k (start_with n rho acts) h0); [|exact Hj]. apply (keep_job _ n acts Ha). reflexivity. Qed.
(** any number of threads may send one and the same object: each sends the bytes it sends alone *)
Definition send_ (x : string) : action := Do (Expr (Meth (Loc x) "serialize" [Loc "outputStream"] [])).
Theorem C90_send h0 n rhos jobs sched i v bs r u : no_dangling h0 = true -> (forall k, knows h0 (rhos k) = true) -> (forall k, forallb harmless (jobs k) = true) ->
  assoc "p" (rhos i) = Some v -> assoc "outputStream" (rhos i) = Some VOut -> jobs i = [send_ "p"] ->
  serialize n v (mkst h0 [] [] []) = (r, mkst h0 [] [] bs) ->
  finished (fst (threads (fun k => start_with n (rhos k) (jobs k)) h0 sched) i) = Some u ->
  u_out u = bs /\ u_log u = [match r with Ok _ => None | Exc e => Some e end].
Proof.
  intros H1 H2 H3 Ep Eo Ej Es F. pose proof (readers h0 H1 n rhos jobs H2 (fun k => C90_harmless h0 n _ _ (H3 k)) sched i u F) as (A & B & _). rewrite Ej in A, B. cbn [alone act send_ with_ u_env u_in u_full u_out u_log] in A, B.
  assert (X : exec the_prog (run the_prog n) (Expr (Meth (Loc "p") "serialize" [Loc "outputStream"] [])) (rhos i) (mkst h0 [] [] []) = (match r with Ok _ => Ok (rhos i, None) | Exc e => Exc e end, mkst h0 [] [] bs)).
  { cbn [exec eval eval_list]. rewrite Ep, Eo. unfold serialize, call_method in Es. unfold bind, ret in *. destruct (resolve the_prog v "serialize" (mkst h0 [] [] [])) as [[c|e] s]; [|now injection Es as <- ->]. destruct (apply the_prog (run the_prog n) c [VOut] [] s) as [[y|e] s2]; injection Es as <- ->; reflexivity. }
  rewrite X in A, B. destruct r as [y|e]; cbn in A, B; split; assumption.
Qed.

(** an EntityStatePdu has been decoded; thread 0 sends it, thread 1 sends it, decodes a datagram into a PDU of its own and sends that too, thread 2 reads an attribute of it *)
Definition memory : val * list hobj := match createPdu the_prog PduTypeDecoders 50 [] datagram with (Ok v, s) => (v, heap s) | _ => (VNone, []) end.
Definition names (i : nat) : env := [("p", fst memory); ("inputStream", VIn); ("outputStream", VOut)].
Definition three (i : nat) : list action :=
  match i with
  | 0 => [send_ "p"]
  | 1 => [send_ "p"; Decode "q" datagram; send_ "q"]
  | 2 => [Do (Assign "x" (Attr (Attr (Loc "p") "entityID") "entityNumber"))]
  | _ => []
  end.
Example C90_case_meets : length (snd memory) = 21 /\ no_dangling (snd memory) = true /\ knows (snd memory) (names 0) = true /\ forallb harmless (three 0) = true /\ forallb harmless (three 1) = true /\ forallb harmless (three 2) = true.
Proof. repeat split; vm_compute; reflexivity. Qed.
Example C90_case : let '(ts, g) := threads (fun i => start_with 50 (names i) (three i)) (snd memory) (flat_map (fun _ => [2; 0; 1]) (seq 0 2000)) in
  map (fun i => match finished (ts i) with Some u => Some (length (u_out u), u_log u, assoc "x" (variables 1 g u)) | None => None end) [0; 1; 2] =
    [Some (144, [None], None); Some (288, [None; None; None], None); Some (0, [None], Some (TVal (VInt 0)))] /\
  firstn (length (snd memory)) g = snd memory.
Proof. vm_compute. split; reflexivity. Qed.

(** what happens when a thread does change the PDU: thread 1 sets the three parts of the entity's identifier to 1 while thread 0 sends it, and a datagram with the identifier 0.1.1,
    that of no entity, goes out *)
Definition change : list action :=
  [Do (SetAttr (Attr (Attr (Loc "p") "entityID") "simulationAddress") "site" (Lit (LInt 1))); Do (SetAttr (Attr (Attr (Loc "p") "entityID") "simulationAddress") "application" (Lit (LInt 1)));
   Do (SetAttr (Attr (Loc "p") "entityID") "entityNumber" (Lit (LInt 1)))].
Definition identifier_sent (k : nat) : option (list byte) :=
  let '(ts, g) := threads (fun i => start_with 50 (names i) (match i with 0 => [send_ "p"] | _ => change end)) (snd memory) (repeat 0 k ++ repeat 1 100 ++ repeat 0 3000) in
  match finished (ts 0) with Some u => Some (firstn 6 (skipn 12 (u_out u))) | None => None end.
Example C90_torn : identifier_sent 0 = Some [x00; x01; x00; x01; x00; x01] /\ identifier_sent 3000 = Some [x00; x00; x00; x00; x00; x00] /\ identifier_sent 50 = Some [x00; x00; x00; x01; x00; x01] /\ forallb harmless change = false.
Proof. repeat split; vm_compute; reflexivity. Qed.

Definition all_PropShare := (@C90_readers, @C90_finishes, @C90_unchanged, @C90_harmless, @C90_send).
Print Assumptions all_PropShare.
