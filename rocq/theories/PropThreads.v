(** * C89: threads that share no objects do not influence each other

    Property: the library can be used from several threads without locks as long as the threads pass no objects to each other.  The threads may be interrupted anywhere, also in the middle of
    the library's constructors, parse and serialize: each of them gets the same values, the same exceptions and the same bytes as when it runs alone, and it ends as soon as it has
    been given enough steps, whatever the others do (no thread waits for another).

    Specification: a thread executes a list of actions (those of C88) on the heap common to all threads, with its own variables, input and output; [threads] lets them run in the order of a schedule,
    one operation at a time; [alone] (PropUsers.v) is the uninterrupted execution, by Interp.v, on a heap of its own.
    SIMPL: an operation is one that CPython executes without switching threads (see Threads.v): access to one attribute, creation of one object, one call of a builtin or of a C function.
    A for loop over a list takes the elements when it starts. *)
From Coq Require Import ZArith String List Bool Lia PeanoNat.
From Coq Require Import Strings.Byte.
From Verif Require Import Lang Ind Bytes Interp Shift Threads Ren ThreadRel ProgBase ProgDis Prog PropUsers.
Import ListNotations.
Open Scope string_scope. Open Scope list_scope. Open Scope nat_scope.

(** ** What a thread does *)
(** the exception, if any, as a result (the thread goes on with its next action) *)
Definition tried {X : Set} (m : M X) : M (res X) := fun s => let '(r, s') := m s in (Ok r, s').
Fixpoint tryY {A} (t : T A) : T (res A) :=
  match t with
  | TRet a => TRet (Ok a)
  | TExc e => TRet (Exc e)
  | TOp m k => TOp (tried m) (fun r => match r with Ok x => tryY (k x) | Exc e => TRet (Exc e) end)
  end.
Definition log := list (option exn).
Definition feed (data : list byte) : M unit := fun s => (Ok tt, mkst (heap s) data data (out s)).
Definition open_ (data : list byte) : M (list byte * list byte * list byte) := fun s => (Ok (irest s, ifull s, out s), mkst (heap s) data data []).
Definition close_ (old : list byte * list byte * list byte) : M unit := fun s => let '(r, f, o) := old in (Ok tt, mkst (heap s) r f o).
Section Job.
Variable P : prog.
Variable n : nat.
Fixpoint job (acts : list action) (rho : env) (l : log) : T (env * log) :=
  match acts with
  | [] => TRet (rho, l)
  | Do c :: rest =>
      x <~ tryY (execY P (runY P n) c rho) ;;
      match x with Ok p => job rest (fst p) (l ++ [None]) | Exc e => job rest rho (l ++ [Some e]) end
  | Feed data :: rest => _ <~ prim (feed data) ;; job rest rho l
  | Decode x data :: rest =>
      old <~ prim (open_ data) ;;
      y <~ tryY (getPduY P PduTypeDecoders n) ;;
      _ <~ prim (close_ old) ;;
      match y with Ok v => job rest (upd x v rho) (l ++ [None]) | Exc e => job rest rho (l ++ [Some e]) end
  end.
End Job.

(** ** Threads *)
Record thread := mkthread { t_todo : T (env * log); t_in : list byte; t_full : list byte; t_out : list byte }.
Definition start (P : prog) (n : nat) (acts : list action) : thread := mkthread (job P n acts (u_env new_user) []) [] [] [].
Definition step (t : thread) (h : list hobj) : thread * list hobj :=
  match t_todo t with
  | TOp m k =>
      match m (mkst h (t_in t) (t_full t) (t_out t)) with
      | (Ok x, s) => (mkthread (k x) (irest s) (ifull s) (out s), heap s)
      | (Exc e, s) => (mkthread (TExc e) (irest s) (ifull s) (out s), heap s)
      end
  | _ => (t, h)
  end.
Fixpoint threads (ts : nat -> thread) (h : list hobj) (sched : list nat) : (nat -> thread) * list hobj :=
  match sched with
  | [] => (ts, h)
  | i :: r => let '(t, h') := step (ts i) h in threads (put i t ts) h' r
  end.
Definition finished (t : thread) : option user :=
  match t_todo t with TRet (rho, l) => Some (mkuser rho (t_in t) (t_full t) (t_out t) l) | _ => None end.
Definition steps_of (i : nat) (sched : list nat) : nat := count_occ Nat.eq_dec sched i.

(** ** Uninterrupted, a thread is a user *)
Lemma itp_bind {A B} (t : T A) (k : A -> T B) s : itp (bindY t k) s = match itp t s with (Ok a, s') => itp (k a) s' | (Exc e, s') => (Exc e, s') end.
Proof. revert s. induction t as [a|e|X m k0 IH]; intros s; [reflexivity..|]. change (itp (TOp m (fun x => bindY (k0 x) k)) s = match itp (TOp m k0) s with (Ok a, s') => itp (k a) s' | (Exc e, s') => (Exc e, s') end). cbn [itp]. destruct (m s) as [[x|e] s']; [apply IH|reflexivity]. Qed.
Lemma itp_prim {A : Set} (m : M A) s : itp (prim m) s = m s.
Proof. apply Threads.er_prim. Qed.
Lemma itp_try {A} (t : T A) s : itp (tryY t) s = let '(r, s') := itp t s in (Ok r, s').
Proof. revert s. induction t as [a|e|X m k0 IH]; intros s; cbn [tryY itp]; [reflexivity..|]. unfold tried. destruct (m s) as [[x|e] s']; [apply IH|reflexivity]. Qed.

Lemma job_alone P n acts : forall u h, exists s,
  let '(w, g) := alone P n u h acts in
  itp (job P n acts (u_env u) (u_log u)) (state u h) = (Ok (u_env w, u_log w), s) /\ s = state w g.
Proof.
  induction acts as [|a r IH]; intros u h; cbn [alone job]; [exists (state u h); split; reflexivity|]. destruct a as [c|data|x data]; cbn [act].
  - rewrite itp_bind, itp_try, (er_exec P (runY P n) (run P n) (run_same P n) c (u_env u) (state u h)). unfold state in *. destruct (exec P (run P n) c (u_env u) _) as [[p|e] s].
    + specialize (IH (mkuser (fst p) (irest s) (ifull s) (out s) (u_log u ++ [None])) (heap s)). cbn in IH. destruct s. exact IH.
    + specialize (IH (mkuser (u_env u) (irest s) (ifull s) (out s) (u_log u ++ [Some e])) (heap s)). cbn in IH. destruct s. exact IH.
  - rewrite itp_bind, itp_prim. unfold feed, state in *. cbn [heap out]. specialize (IH (mkuser (u_env u) data data (u_out u) (u_log u)) h). exact IH.
  - rewrite itp_bind, itp_prim. unfold open_ at 1. unfold state in *. cbn [heap irest ifull out]. rewrite itp_bind, itp_try, (getPdu_same P PduTypeDecoders n). unfold createPdu.
    destruct (getPdu P PduTypeDecoders n (mkst h data data [])) as [[v|e] s]; rewrite itp_bind, itp_prim; unfold close_ at 1.
    + exact (IH (mkuser (upd x v (u_env u)) (u_in u) (u_full u) (u_out u) (u_log u ++ [None])) (heap s)).
    + exact (IH (mkuser (u_env u) (u_in u) (u_full u) (u_out u) (u_log u ++ [Some e])) (heap s)).
Qed.

(** ** The same steps elsewhere in memory *)
Definition rres {A B} (R : list nat -> A -> B -> Prop) (b : list nat) (x : res A) (y : res B) : Prop :=
  match x, y with Ok a, Ok c => R b a c | Exc e, Exc e' => e = e' | _, _ => False end.
Lemma tj_try {A B} b (R : list nat -> A -> B -> Prop) t t' : trel R b t t' -> trel (rres R) b (tryY t) (tryY t').
Proof.
  induction 1 as [b a c H|b e|b X Y m m' Q k k' H _ IH]; cbn [tryY]; [now apply tr_ret|now apply tr_ret|].
  apply tr_op with (Q := rres Q).
  - intros s t0 S. destruct (H s t0 S) as (b1 & F & S1 & H1). unfold tried. destruct (m s) as [r s1], (m' t0) as [r' t1]. exists b1. auto.
  - intros b' [x|e] [y|e'] E Hxy; try contradiction; [now apply IH|]. now apply tr_ret.
Qed.
Definition ur (b : list nat) (p q : env * log) : Prop := er b (fst p) (fst q) /\ snd p = snd q.

Section Rel.
Variable P : prog.
Hypothesis HP : no_shared_defaults P = true.
Variable n : nat.
Lemma tj_job acts : forall b r q l, er b r q -> trel ur b (job P n acts r l) (job P n acts q l).
Proof.
  induction acts as [|a rest IH]; intros b r q l HE; cbn [job]; [apply tr_ret; split; [exact HE|reflexivity]|]. destruct a as [c|data|x data].
  - eapply tj_bind; [apply tj_try, (tj_exec P HP (runY P n) (tj_run P HP n) c); exact HE|]. intros b1 [p|e] [p'|e'] E1 Hp; try contradiction.
    + apply IH. apply Hp.
    + cbn in Hp. subst e'. apply IH. eapply er_ext; eauto.
  - eapply (tj_bind b un); [apply tj_prim|intros b1 x1 y1 E1 _; apply IH; eapply er_ext; eauto]. intros s t [A1 A2 A3 A4 A5 A6]. exists b. split; [exists 0; cbn [snd feed heap]; rewrite app_nil_r; repeat split; auto with arith|]. split; [split; auto|exact I].
  - eapply (tj_bind b (fun _ p q => p = q)).
    + apply tj_prim. intros s t [A1 A2 A3 A4 A5 A6]. exists b. split; [exists 0; cbn [snd open_ heap]; rewrite app_nil_r; repeat split; auto with arith|]. split; [split; auto|]. cbn. congruence.
    + intros b1 old old' E1 ->. eapply tj_bind; [apply tj_try, (tj_getPdu P HP)|]. intros b2 y y' E2 Hy. eapply (tj_bind b2 un).
      * apply tj_prim. intros s t [A1 A2 A3 A4 A5 A6]. exists b2. unfold close_. destruct old' as [[i f] o]. split; [exists 0; cbn [snd heap]; rewrite app_nil_r; repeat split; auto with arith|]. split; [split; auto|exact I].
      * intros b3 x3 y3 E3 _. assert (HE3 : er b3 r q) by (eapply er_ext; [|exact HE]; eauto using ext_trans). destruct y as [v|e], y' as [w|e']; try contradiction.
        -- apply IH, er_upd; [exact HE3|]. eapply vr_ext; eauto.
        -- cbn in Hy. subst e'. now apply IH.
Qed.
End Rel.

Definition stateT (t : thread) (h : list hobj) : st := mkst h (t_in t) (t_full t) (t_out t).
Definition sameT (b : list nat) (u : thread) (h : list hobj) (w : thread) (g : list hobj) : Prop := sim b (stateT u h) (stateT w g) /\ trel ur b (t_todo u) (t_todo w).
Lemma step_same b u h w g : sameT b u h w g ->
  exists b', sameT b' (fst (step u h)) (snd (step u h)) (fst (step w g)) (snd (step w g)) /\ grown b g b' (snd (step w g)).
Proof.
  intros [S H]. unfold step. destruct u as [ut ui uf uo], w as [wt wi wf wo]. cbn [t_todo t_in t_full t_out] in *. unfold stateT in S. cbn [t_in t_full t_out] in S. destruct H as [b a c H|b e|b X Y m m' Q k k' H K].
  - exists b. cbn [fst snd]. split; [split; [exact S|now constructor]|]. exists 0. rewrite app_nil_r. repeat split; auto with arith.
  - exists b. cbn [fst snd]. split; [split; [exact S|now constructor]|]. exists 0. rewrite app_nil_r. repeat split; auto with arith.
  - destruct (H _ _ S) as (b' & F & S' & Q1). destruct (m _) as [[x|e] s], (m' _) as [[y|e'] t]; cbn [fst snd] in *; try contradiction; exists b'; (split; [|exact F]).
    + split; [destruct s, t; exact S'|]. apply K; [eapply fr_ext; exact F|exact Q1].
    + subst e'. split; [destruct s, t; exact S'|]. constructor.
Qed.

(** ** One thread on its own *)
Fixpoint solo (k : nat) (t : thread) (h : list hobj) : thread * list hobj :=
  match k with O => (t, h) | S k => let '(t', h') := step t h in solo k t' h' end.
Lemma step_itp t h : itp (t_todo (fst (step t h))) (stateT (fst (step t h)) (snd (step t h))) = itp (t_todo t) (stateT t h).
Proof. unfold step, stateT. destruct t as [[a|e|X m k] i f o]; cbn [t_todo t_in t_full t_out fst snd itp]; [reflexivity..|]. destruct (m (mkst h i f o)) as [[x|e] s]; destruct s; reflexivity. Qed.
Lemma solo_itp k : forall t h, itp (t_todo (fst (solo k t h))) (stateT (fst (solo k t h)) (snd (solo k t h))) = itp (t_todo t) (stateT t h).
Proof. induction k as [|k IH]; intros t h; [reflexivity|]. cbn [solo]. rewrite <- (step_itp t h). destruct (step t h) as [t' h']. apply IH. Qed.
Definition ended {A} (t : T A) : bool := match t with TOp _ _ => false | _ => true end.
Lemma solo_stays k : forall t h, ended (t_todo t) = true -> solo k t h = (t, h).
Proof. induction k as [|k IH]; intros t h H; [reflexivity|]. cbn [solo]. unfold step. destruct (t_todo t) eqn:E; try discriminate; apply IH; now rewrite E. Qed.
Lemma solo_add j k : forall t h, solo (j + k) t h = solo k (fst (solo j t h)) (snd (solo j t h)).
Proof. induction j as [|j IH]; intros t h; [reflexivity|]. cbn [plus solo]. destruct (step t h) as [t' h']. apply IH. Qed.
Lemma solo_ends c : forall i f o h, exists k, ended (t_todo (fst (solo k (mkthread c i f o) h))) = true.
Proof.
  induction c as [a|e|X m k IH]; intros i f o h; [exists 0; reflexivity..|]. destruct (m (mkst h i f o)) as [[x|e] s] eqn:E.
  - destruct (IH x (irest s) (ifull s) (out s) (heap s)) as (j & Hj). exists (S j). cbn [solo]. unfold step. cbn [t_todo t_in t_full t_out]. now rewrite E.
  - exists 1. cbn [solo]. unfold step. cbn [t_todo t_in t_full t_out]. rewrite E. reflexivity.
Qed.

(** ** All threads *)
Definition invT (bs : nat -> list nat) (ts : nat -> thread) (g : list hobj) (ss : nat -> thread) (hs : nat -> list hobj) : Prop :=
  (forall i, sameT (bs i) (ss i) (hs i) (ts i) g) /\ forall i k j, i <> k -> In j (bs i) -> In j (bs k) -> False.
Lemma invT_step bs ts g ss hs i : invT bs ts g ss hs ->
  exists bs', invT bs' (put i (fst (step (ts i) g)) ts) (snd (step (ts i) g)) (put i (fst (step (ss i) (hs i))) ss) (put i (snd (step (ss i) (hs i))) hs).
Proof.
  intros [H D]. destruct (step_same _ _ _ _ _ (H i)) as (b' & S & k & Eb & Lg & F). destruct (step (ts i) g) as [w g'], (step (ss i) (hs i)) as [u h]. cbn [fst snd] in *.
  assert (LT : forall q j, In j (bs q) -> j < length g) by (intros q j Hj; destruct (H q) as (S0 & _); exact (sim_lt _ _ _ _ S0 Hj)).
  exists (put i b' bs). split.
  - intros q. unfold put. destruct (Nat.eqb_spec q i) as [->|Ne]; [exact S|]. destruct (H q) as (S0 & E0). split; [|exact E0]. destruct S0 as [A1 A2 A3 A4 A5 A6]. split; auto.
    intros x j Hxj. destruct (A3 x j Hxj) as (o & o' & E1 & E2 & Ho). exists o, o'. split; [exact E1|]. split; [|exact Ho]. cbn [stateT heap] in *. assert (Hj : In j (bs q)) by (eapply nth_error_In; eauto).
    rewrite F; [exact E2|eapply LT; exact Hj|]. intros Hi. exact (D q i j Ne Hj Hi).
  - assert (N : forall q j, q <> i -> In j b' -> In j (bs q) -> False).
    { intros q j Hq Hb Hj. rewrite Eb in Hb. apply in_app_or in Hb as [Hb|Hb]; [exact (D q i j Hq Hj Hb)|]. apply in_seq in Hb. apply LT in Hj. lia. }
    intros q r j Hqr. unfold put. destruct (Nat.eqb_spec q i) as [->|N1], (Nat.eqb_spec r i) as [->|N2]; [congruence| | |].
    + intros A B. exact (N r j N2 A B).
    + intros A B. exact (N q j N1 B A).
    + apply D. exact Hqr.
Qed.
Lemma invT_run sched : forall bs ts g ss hs, invT bs ts g ss hs ->
  exists bs', invT bs' (fst (threads ts g sched)) (snd (threads ts g sched)) (fun i => fst (solo (steps_of i sched) (ss i) (hs i))) (fun i => snd (solo (steps_of i sched) (ss i) (hs i))).
Proof.
  induction sched as [|i r IH]; intros bs ts g ss hs H; [exists bs; exact H|]. destruct (invT_step bs ts g ss hs i H) as (b1 & H1). cbn [threads]. destruct (step (ts i) g) as [w g'] eqn:Ew. cbn [fst snd] in H1.
  destruct (IH _ _ _ _ _ H1) as (b2 & [H2 D2]). exists b2. split; [|exact D2]. intros q. specialize (H2 q). unfold steps_of in *. cbn [count_occ]. unfold put in H2 at 1 2 3 4.
  destruct (Nat.eqb_spec q i) as [Eq|Ne]; [subst q|].
  - destruct (Nat.eq_dec i i) as [_|Ne]; [|congruence]. cbn [solo]. destruct (step (ss i) (hs i)) as [u h]. exact H2.
  - destruct (Nat.eq_dec i q) as [Eq|_]; [congruence|]. exact H2.
Qed.
Lemma invT_start n (jobs : nat -> list action) : invT (fun _ => []) (fun i => start the_prog n (jobs i)) [] (fun i => start the_prog n (jobs i)) (fun _ => []).
Proof.
  split; [|intros i k j _ []]. intros i. split.
  - split; try reflexivity; [constructor|]. intros x j Hx. destruct x; discriminate.
  - apply (tj_job the_prog no_shared). repeat constructor; cbn; auto.
Qed.

(** ** The theorems *)
(** a thread that has finished did what it does alone, however it was interrupted *)
Theorem C89_threads n (jobs : nat -> list action) sched i u :
  let '(ts, g) := threads (fun k => start the_prog n (jobs k)) [] sched in
  finished (ts i) = Some u ->
  let '(w, h) := alone the_prog n new_user [] (jobs i) in
  u_out u = u_out w /\ u_log u = u_log w /\ u_in u = u_in w /\ forall d, variables d g u = variables d h w.
Proof.
  destruct (invT_run sched _ _ _ _ _ (invT_start n jobs)) as (bs & H & _). specialize (H i). destruct (threads (fun k => start the_prog n (jobs k)) [] sched) as [ts g]. cbn [fst snd] in H. intros Hf.
  pose proof (solo_itp (steps_of i sched) (start the_prog n (jobs i)) []) as I1. destruct (solo (steps_of i sched) (start the_prog n (jobs i)) []) as [t0 h0]. cbn [fst snd] in *.
  destruct (job_alone the_prog n (jobs i) new_user []) as (s & J). destruct (alone the_prog n new_user [] (jobs i)) as [w h]. destruct J as (J & ->).
  change (itp (t_todo (start the_prog n (jobs i))) (stateT (start the_prog n (jobs i)) [])) with (itp (job the_prog n (jobs i) (u_env new_user) (u_log new_user)) (state new_user [])) in I1. rewrite J in I1.
  destruct H as [S R]. unfold finished in Hf. destruct (ts i) as [todo wi wf wo]. destruct t0 as [todo0 ui uf uo]. cbn [t_todo t_in t_full t_out] in *.
  destruct R as [b a c HR|b e|b X Y m m' Q k k' HR K]; try discriminate. destruct c as [rho l]. injection Hf as <-. destruct HR as [HR1 HR2]. cbn [fst snd] in HR1, HR2. cbn [itp] in I1. unfold stateT, state in *. cbn [t_in t_full t_out] in *.
  injection I1 as -> -> -> -> ->. cbn [fst snd] in *. cbn [u_out u_log u_in]. split; [symmetry; exact (sim_out _ _ _ S)|]. split; [now symmetry|]. split; [symmetry; exact (sim_rest _ _ _ S)|].
  intros d. unfold variables. symmetry. exact (view_er _ _ _ d _ _ S HR1).
Qed.
(** given enough steps of its own a thread finishes, whatever the others do and whenever it is interrupted *)
Theorem C89_finishes n (jobs : nat -> list action) i : exists N, forall sched, N <= steps_of i sched ->
  exists u, finished (fst (threads (fun k => start the_prog n (jobs k)) [] sched) i) = Some u.
Proof.
  destruct (solo_ends (t_todo (start the_prog n (jobs i))) [] [] [] []) as (N & HN). exists N. intros sched HS. destruct (invT_run sched _ _ _ _ _ (invT_start n jobs)) as (bs & H & _). specialize (H i). destruct H as [_ R].
  pose proof (solo_itp (steps_of i sched) (start the_prog n (jobs i)) []) as I1. assert (E : ended (t_todo (fst (solo (steps_of i sched) (start the_prog n (jobs i)) []))) = true).
  { replace (steps_of i sched) with (N + (steps_of i sched - N)) by lia. rewrite solo_add, solo_stays; exact HN. }
  destruct (job_alone the_prog n (jobs i) new_user []) as (s & J). destruct (alone the_prog n new_user [] (jobs i)) as [w h]. destruct J as (J & _).
  change (itp (t_todo (start the_prog n (jobs i))) (stateT (start the_prog n (jobs i)) [])) with (itp (job the_prog n (jobs i) (u_env new_user) (u_log new_user)) (state new_user [])) in I1. rewrite J in I1.
  unfold finished. destruct R as [b a c HR|b e|b X Y m m' Q k k' HR K]; [destruct c as [rho l]; eauto|discriminate|discriminate].
Qed.
(** the schedule does not matter *)
Theorem C89_schedules n (jobs jobs' : nat -> list action) sched sched' i u u' : jobs i = jobs' i ->
  let '(ts, g) := threads (fun k => start the_prog n (jobs k)) [] sched in
  let '(ts', g') := threads (fun k => start the_prog n (jobs' k)) [] sched' in
  finished (ts i) = Some u -> finished (ts' i) = Some u' ->
  u_out u = u_out u' /\ u_log u = u_log u' /\ u_in u = u_in u' /\ forall d, variables d g u = variables d g' u'.
Proof.
  intros E. pose proof (C89_threads n jobs sched i u) as H. pose proof (C89_threads n jobs' sched' i u') as H'. rewrite E in H.
  destruct (threads (fun k => start the_prog n (jobs k)) [] sched) as [ts g], (threads (fun k => start the_prog n (jobs' k)) [] sched') as [ts' g']. intros F F'. specialize (H F). specialize (H' F').
  destruct (alone the_prog n new_user [] (jobs' i)) as [w h]. destruct H as (A1 & A2 & A3 & A4), H' as (B1 & B2 & B3 & B4). split; [congruence|]. split; [congruence|]. split; [congruence|]. intros d. now rewrite A4, B4.
Qed.

(** the two users of C88 as threads: two decodings of an EntityStatePdu, a change and two serialisations, interrupted after every operation *)
Definition two_jobs (i : nat) : list action := match i with 0 => one | 1 => two | _ => [] end.
Definition turns (k : nat) : list nat := flat_map (fun _ => [0; 1]) (seq 0 k).
Definition seen (sched : list nat) (i : nat) : option (list byte * list (option exn) * option tree) :=
  let '(ts, g) := threads (fun k => start the_prog 50 (two_jobs k)) [] sched in
  match finished (ts i) with Some u => Some (skipn 12 (firstn 18 (u_out u)), u_log u, assoc "x" (variables 1 g u)) | None => None end.
Example C89_case : seen (turns 3000) 0 = Some ([x00; x00; x00; x00; x00; x07], [None; None; None; Some AttributeError], None) /\
  seen (turns 3000) 1 = Some ([x00; x00; x00; x00; x00; x00], [None; None; None], Some (TVal (VInt 0))).
Proof. split; vm_compute; reflexivity. Qed.
(** after 500 operations each both are in the middle of their work: there are interruptions within the library's calls *)
Example C89_case_middle : seen (turns 500) 0 = None /\ seen (turns 500) 1 = None /\
  (let '(ts, _) := threads (fun k => start the_prog 50 (two_jobs k)) [] (turns 500) in map (fun i => length (t_in (ts i))) [0; 1]) = [41; 41].
Proof. repeat split; vm_compute; reflexivity. Qed.

(** with a list as the default of a parameter the schedule does matter *)
Definition racing (i : nat) : list action :=
  match i with
  | 0 => [Do (Assign "p" (CallV (Glob "Box") [] [])); Do (Expr (Meth (Attr (Loc "p") "items") "append" [Lit (LInt 7)] []))]
  | _ => [Do (Assign "p" (CallV (Glob "Box") [] [])); Do (Assign "x" (Builtin BLen [Attr (Loc "p") "items"]))]
  end.
Definition raced (sched : list nat) : option tree :=
  let '(ts, g) := threads (fun k => start shared_default 9 (racing k)) [HList []] sched in match finished (ts 1) with Some u => assoc "x" (variables 1 g u) | None => None end.
Example C89_race : raced (repeat 1 30) = Some (TVal (VInt 0)) /\ raced (repeat 0 30 ++ repeat 1 30) = Some (TVal (VInt 1)).
Proof. split; vm_compute; reflexivity. Qed.

Definition all_PropThreads := (@C89_threads, @C89_finishes, @C89_schedules).
Print Assumptions all_PropThreads.
