(** * The interpreter with a step counter

    Interp.v once more, with the same cases, but every computation also returns how much work it did: one step for every
    expression evaluated and every statement executed (so one for every round of a loop), and for every primitive operation one more plus
    what it adds to the heap and what it reads from the input; a copy or scan of a list also counts the entries.
    [run_erase] and [create_erase]: without the counter this is the interpreter of Interp.v. *)
From Coq Require Import ZArith String List Bool Lia.
From Coq Require Import Strings.Byte.
From Verif Require Import Lang Ind Bytes Interp.
Import ListNotations.
Open Scope string_scope. Open Scope list_scope.

(** the size of the heap: objects, their attributes and the entries of lists *)
Definition osize (o : hobj) : nat := match o with HInst _ at_ => S (length at_) | HList vs => S (length vs) end.
Definition hsize (h : list hobj) : nat := list_sum (map osize h).

Definition MT (A : Type) := st -> nat * (res A * st).
Definition retT {A} (a : A) : MT A := fun s => (0, (Ok a, s))%nat.
Definition bindT {A B} (m : MT A) (k : A -> MT B) : MT B := fun s =>
  match m s with
  | (t, (Ok a, s')) => match k a s' with (t', r) => ((t + t')%nat, r) end
  | (t, (Exc e, s')) => (t, (Exc e, s'))
  end.
Definition tick {A} (n : nat) (m : MT A) : MT A := fun s => match m s with (t, r) => ((n + t)%nat, r) end.
(** a primitive operation *)
Definition prim {A} (m : M A) : MT A := fun s =>
  match m s with (r, s') => ((1 + (hsize (heap s') - hsize (heap s)) + (length (irest s) - length (irest s')))%nat, (r, s')) end.
Notation "x <~ m ;; k" := (bindT m (fun x => k)) (at level 61, m at next level, right associativity).

(** entries that a builtin copies or scans (list(), bytes(), filter()) *)
Definition scanned (v : val) (s : st) : nat := match iter_vals v s with (Ok vs, _) => length vs | _ => 0%nat end.
Definition builtin_scan (b : builtin) (args : list val) (s : st) : nat :=
  match b, args with
  | (BList | BBytes | BFilterNone), [VRange _ _] => 0%nat
  | (BList | BBytes | BFilterNone), [a] => scanned a s
  | _, _ => 0%nat
  end.
Definition builtinT (b : builtin) (args : list val) : MT val := fun s => tick (builtin_scan b args s) (prim (builtin_val b args)) s.
(** x in (a, b, ...) looks at the entries *)
Definition cmpT (o : cmpop) (a b : val) : MT val := tick match o, b with CIn, VTuple vs => length vs | _, _ => 0%nat end (prim (cmp_val o a b)).

Section WithProg.
Variable P : prog.
Section WithCall.
Variable call : meth -> list val -> list string -> MT val.

Definition get_attrT (v : val) (a : string) : MT val :=
  match v with
  | VRef l =>
      ob <~ prim (hget l) ;;
      match ob with
      | Some (HInst c attrs) =>
          match lookup P c a with
          | Some (MMeth m) =>
              match m_kind m with
              | KProperty => call m [v] []
              | _ => match assoc a attrs with Some x => retT x | None => prim (raise Unsupported) end
              end
          | Some (MAttr l) => match assoc a attrs with Some x => retT x | None => retT (lit_val l) end
          | None => match assoc a attrs with Some x => retT x | None => prim (raise AttributeError) end
          end
      | _ => prim (raise AttributeError)
      end
  | VIn => if String.eqb a "stream" then retT VRawIn else prim (raise AttributeError)
  | VOut => if String.eqb a "stream" then retT VRawOut else prim (raise AttributeError)
  | VBitInst fs vs => match bits_field a fs vs with Some z => retT (VInt z) | None => prim (raise AttributeError) end
  | VClass c => match lookup P c a with Some (MAttr l) => retT (lit_val l) | Some _ => prim (raise Unsupported) | None => prim (raise AttributeError) end
  | _ => prim (raise AttributeError)
  end.

Definition nativeT (v : val) (m : string) (args : list val) : MT val :=
  match v, args with
  | VBitCls fs, [i] =>
      if String.eqb m "parse" then
        c <~ prim (resolve P i "read_bytes") ;;
        match c with
        | KMeth k pre =>
            r <~ call k (pre ++ [VInt (Z.of_nat (bits_size fs))]) [] ;;
            match r with
            | VBytes l =>
                if (length l <? bits_size fs)%nat then prim (raise ValueError)
                else retT (VBitInst fs (bits_unpack fs (be_val (firstn (bits_size fs) l))))
            | _ => prim (raise TypeError)
            end
        | _ => prim (raise Unsupported)
        end
      else prim (raise TypeError)
  | VBitInst fs vs, [o] =>
      if String.eqb m "serialize" then
        c <~ prim (resolve P o "write_bytes") ;;
        match c with
        | KMeth k pre => _ <~ call k (pre ++ [VBytes (be (bits_size fs) (bits_pack fs vs))]) [] ;; retT VNone
        | _ => prim (raise Unsupported)
        end
      else prim (raise TypeError)
  | VBytes l, [VStr _] => tick (length l) (prim (match utf8_decode l with Some cs => ret (VStr cs) | None => raise UnicodeDecodeError end))
  | _, _ => prim (native P (fun _ _ _ => raise Unsupported) v m args)      (* these do not call *)
  end.

Definition applyT (c : callee) (args : list val) (kws : list string) : MT val :=
  match c with
  | KMeth m pre => call m (pre ++ args) kws
  | KNew cn attrs =>
      if is_abstract P cn then prim (raise TypeError)
      else
        o <~ prim (halloc (HInst cn attrs)) ;;
        match lookup P cn "__init__" with
        | Some (MMeth m) => _ <~ call m (o :: args) kws ;; retT o
        | Some _ => prim (raise TypeError)
        | None => match args with [] => retT o | _ => prim (raise TypeError) end
        end
  | KNewBits fs =>
      match kws with
      | [] =>
          match as_ints args with
          | Some vs =>
              if (length fs <? length vs)%nat then prim (raise TypeError)
              else retT (VBitInst fs (bits_unpack fs (bits_pack fs vs)))
          | None => prim (raise TypeError)
          end
      | _ => prim (raise Unsupported)
      end
  | KNative v m => match kws with [] => nativeT v m args | _ => prim (raise TypeError) end
  | KGetSV => prim (apply P (fun _ _ _ => raise Unsupported) KGetSV args kws)   (* does not call *)
  end.

Definition eval_listT (ev : expr -> env -> MT val) : list expr -> env -> MT (list val) :=
  fix go l rho :=
    match l with
    | [] => retT []
    | e :: r => v <~ ev e rho ;; vs <~ go r rho ;; retT (v :: vs)
    end.

Fixpoint evalT (e : expr) (rho : env) {struct e} : MT val :=
  tick 1
  match e with
  | Lit l => retT (lit_val l)
  | Loc x => match assoc x rho with Some v => retT v | None => prim (raise NameError) end
  | Glob x => prim (glob P x)
  | Attr e a => v <~ evalT e rho ;; get_attrT v a
  | Sub e i => v <~ evalT e rho ;; j <~ evalT i rho ;; prim (sub_val v j)
  | CallV f args kws =>
      v <~ evalT f rho ;; c <~ prim (callee_of P v) ;; vs <~ eval_listT evalT args rho ;; applyT c vs kws
  | Meth e m args kws =>
      v <~ evalT e rho ;; c <~ prim (resolve P v m) ;; vs <~ eval_listT evalT args rho ;; applyT c vs kws
  | Super cn m args kws =>
      match assoc "self" rho with
      | Some self =>
          c <~ prim (resolve_super P self cn m) ;;
          vs <~ eval_listT evalT args rho ;;
          match c with
          | Some k => applyT k vs kws
          | None => match vs with [] => retT VNone | _ => prim (raise TypeError) end
          end
      | None => prim (raise NameError)
      end
  | Builtin b args => vs <~ eval_listT evalT args rho ;; builtinT b vs
  | HasAttr e a => v <~ evalT e rho ;; prim (has_attr P v a)
  | ListE es => vs <~ eval_listT evalT es rho ;; prim (halloc (HList vs))
  | TupleE es => vs <~ eval_listT evalT es rho ;; retT (VTuple vs)
  | OrE a b => v <~ evalT a rho ;; (fun s => if truth (heap s) v then (0%nat, (Ok v, s)) else evalT b rho s)
  | AndE a b => v <~ evalT a rho ;; (fun s => if truth (heap s) v then evalT b rho s else (0%nat, (Ok v, s)))
  | NotE a => v <~ evalT a rho ;; (fun s => (0%nat, (Ok (VBool (negb (truth (heap s) v))), s)))
  | Bin o a b => x <~ evalT a rho ;; y <~ evalT b rho ;; prim (binop_val o x y)
  | Cmp o a b => x <~ evalT a rho ;; y <~ evalT b rho ;; cmpT o x y
  | IfE c a b => v <~ evalT c rho ;; (fun s => if truth (heap s) v then evalT a rho s else evalT b rho s)
  end.

Definition run_blockT (ex : stmt -> env -> MT R) : list stmt -> env -> MT R :=
  fix go l rho :=
    match l with
    | [] => retT (rho, None)
    | s :: r =>
        p <~ ex s rho ;;
        match snd p with Some _ => retT p | None => go r (fst p) end
    end.

Definition for_loopT (bd : env -> MT R) (x : string) : list val -> env -> MT R :=
  fix go vs rho :=
    match vs with
    | [] => retT (rho, None)
    | v :: r =>
        p <~ tick 1 (bd (upd x v rho)) ;;
        match snd p with Some _ => retT p | None => go r (fst p) end
    end.

Fixpoint execT (c : stmt) (rho : env) {struct c} : MT R :=
  tick 1
  match c with
  | Expr e => _ <~ evalT e rho ;; retT (rho, None)
  | Assign x e => v <~ evalT e rho ;; retT (upd x v rho, None)
  | SetAttr o a e => v <~ evalT e rho ;; ov <~ evalT o rho ;; _ <~ prim (set_attr P ov a v) ;; retT (rho, None)
  | SetSub o i e => v <~ evalT e rho ;; ov <~ evalT o rho ;; iv <~ evalT i rho ;; _ <~ prim (set_sub ov iv v) ;; retT (rho, None)
  | If c a b =>
      v <~ evalT c rho ;;
      (fun s => if truth (heap s) v then run_blockT execT a rho s else run_blockT execT b rho s)
  | For x e body =>
      v <~ evalT e rho ;; vs <~ prim (iter_vals v) ;;
      for_loopT (run_blockT execT body) x vs rho
  | Return e => v <~ evalT e rho ;; retT (rho, Some v)
  | Raise x => prim (raise x)
  | Assert e => v <~ evalT e rho ;; (fun s => if truth (heap s) v then (0%nat, (Ok (rho, None), s)) else (0%nat, (Exc AssertionError, s)))
  | Pass => retT (rho, None)
  end.
End WithCall.

Fixpoint runT (fuel : nat) (m : meth) (args : list val) (kws : list string) {struct fuel} : MT val :=
  tick 1
  match fuel with
  | O => prim (raise RecursionError)
  | S n =>
      match bind_args (m_params m) args kws with
      | None => prim (raise TypeError)
      | Some rho =>
          p <~ run_blockT (execT (runT n)) (m_body m) rho ;;
          retT match snd p with Some v => v | None => VNone end
      end
  end.

Definition call_methodT (fuel : nat) (v : val) (m : string) (args : list val) : MT val :=
  c <~ prim (resolve P v m) ;; applyT (runT fuel) c args [].
Definition newT (fuel : nat) (c : string) (args : list val) : MT val := applyT (runT fuel) (KNew c []) args [].

(** opendis/PduFactory.py:65-91, as in Interp.v *)
Definition getPduT (table : list (Z * string)) (fuel : nat) : MT val :=
  _ <~ prim (raw_seek 2) ;;
  t <~ call_methodT fuel VIn "read_byte" [] ;;
  _ <~ prim (raw_seek 0) ;;
  match t with
  | VInt z =>
      match zassoc z table with
      | Some c => p <~ newT fuel c [] ;; _ <~ call_methodT fuel p "parse" [VIn] ;; retT p
      | None => retT VNone
      end
  | _ => prim (raise Unsupported)
  end.
Definition createPduT (table : list (Z * string)) (fuel : nat) (h : list hobj) (data : list byte) : nat * (res val * st) :=
  getPduT table fuel (mkst h data data []).

(** ** Without the counter *)
Definition er {A} (mt : MT A) (m : M A) : Prop := forall s, snd (mt s) = m s.

Lemma er_ret {A} (a : A) : er (retT a) (ret a). Proof. now intros s. Qed.
Lemma er_prim {A} (m : M A) : er (prim m) m. Proof. intros s. unfold prim. now destruct (m s). Qed.
Lemma er_tick {A} n (mt : MT A) m : er mt m -> er (tick n mt) m. Proof. intros H s. unfold tick. specialize (H s). now destruct (mt s). Qed.
Lemma er_bind {A B} (mt : MT A) m (kt : A -> MT B) k : er mt m -> (forall a, er (kt a) (k a)) -> er (bindT mt kt) (bind m k).
Proof.
  intros H K s. unfold bindT, bind. specialize (H s). destruct (mt s) as [t [[a|e] s']]; simpl in H; rewrite <- H; [|reflexivity].
  specialize (K a s'). now destruct (kt a s').
Qed.
Lemma er_if {A} (c : st -> bool) (a b : MT A) a' b' : er a a' -> er b b' -> er (fun s => if c s then a s else b s) (fun s => if c s then a' s else b' s).
Proof. intros HA HB s. destruct (c s); auto. Qed.

Ltac erc := repeat first [ apply er_ret | apply er_prim
  | match goal with |- er (match ?x with _ => _ end) _ => destruct x end
  | match goal with |- er (if ?x then _ else _) _ => destruct x end ].

Section Erase.
Variable callt : meth -> list val -> list string -> MT val.
Variable call : meth -> list val -> list string -> M val.
Hypothesis EC : forall m args kws, er (callt m args kws) (call m args kws).

Lemma er_get_attr v a : er (get_attrT callt v a) (get_attr P call v a).
Proof.
  destruct v; simpl; erc. apply er_bind; [apply er_prim|]. intros [[c at_|vs]|]; erc. apply EC.
Qed.
Lemma er_native v m args : er (nativeT callt v m args) (native P call v m args).
Proof.
  destruct v; try (destruct args as [|x [|y r]]; exact (er_prim _)); destruct args as [|x [|y r]]; try exact (er_prim _);
    try (destruct x; exact (er_prim _)).
  - destruct x; try exact (er_prim _). apply er_tick. erc.
  - simpl. destruct (String.eqb m "parse"); [|erc]. apply er_bind; [apply er_prim|]. intros c. destruct c; try exact (er_prim _).
    apply er_bind; [apply EC|]. intros a. erc.
  - simpl. destruct (String.eqb m "serialize"); [|erc]. apply er_bind; [apply er_prim|]. intros c. destruct c; try exact (er_prim _).
    apply er_bind; [apply EC|]. intros a. erc.
Qed.
Lemma er_apply c args kws : er (applyT callt c args kws) (apply P call c args kws).
Proof.
  destruct c; simpl.
  - apply EC.
  - destruct (is_abstract P c); [erc|]. apply er_bind; [apply er_prim|]. intros o. destruct (lookup P c "__init__") as [[k|]|]; erc. apply er_bind; [apply EC|]. intros. erc.
  - erc.
  - destruct kws; [apply er_native|erc].
  - exact (er_prim _).
Qed.
Lemma er_list es rho : Forall (fun e => forall rho, er (evalT callt e rho) (eval P call e rho)) es -> er (eval_listT (evalT callt) es rho) (eval_list (eval P call) es rho).
Proof. induction 1 as [|e r He Hr IH]; simpl; [erc|]. apply er_bind; [apply He|intros v]. apply er_bind; [apply IH|intros; erc]. Qed.
Lemma er_builtin b vs : er (builtinT b vs) (builtin_val b vs).
Proof. intros s. unfold builtinT. apply er_tick, er_prim. Qed.
Lemma er_eval e : forall rho, er (evalT callt e rho) (eval P call e rho).
Proof.
  induction e using expr_ind'; intros rho; cbn [evalT eval]; apply er_tick.
  - erc.
  - erc.
  - erc.
  - apply er_bind; [auto|intros; apply er_get_attr].
  - apply er_bind; [apply IHe1|intros]. apply er_bind; [apply IHe2|intros; erc].
  - apply er_bind; [apply IHe|intros v]. apply er_bind; [erc|intros c]. apply er_bind; [now apply er_list|intros; apply er_apply].
  - apply er_bind; [auto|intros v]. apply er_bind; [erc|intros c]. apply er_bind; [now apply er_list|intros; apply er_apply].
  - destruct (assoc "self" rho) as [v|]; [|erc]. apply er_bind; [erc|]. intros o. apply er_bind; [now apply er_list|intros vs]. destruct o; [apply er_apply|erc].
  - apply er_bind; [now apply er_list|intros; apply er_builtin].
  - apply er_bind; [auto|intros; erc].
  - apply er_bind; [now apply er_list|intros; erc].
  - apply er_bind; [now apply er_list|intros; erc].
  - apply er_bind; [apply IHe1|intros]. apply (er_if (fun s => truth (heap s) a) (retT a) _ (ret a)); [erc|apply IHe2].
  - apply er_bind; [apply IHe1|intros]. apply (er_if (fun s => truth (heap s) a) _ (retT a) _ (ret a)); [apply IHe2|erc].
  - apply er_bind; [auto|intros a s; reflexivity].
  - apply er_bind; [apply IHe1|intros]. apply er_bind; [apply IHe2|intros; erc].
  - apply er_bind; [apply IHe1|intros]. apply er_bind; [apply IHe2|intros; apply er_tick, er_prim].
  - apply er_bind; [apply IHe1|intros]. apply er_if; [apply IHe2|apply IHe3].
Qed.
Lemma er_block b : Forall (fun c => forall rho, er (execT callt c rho) (exec P call c rho)) b -> forall rho, er (run_blockT (execT callt) b rho) (run_block (exec P call) b rho).
Proof. induction 1 as [|c r Hc Hr IH]; simpl; intros rho; [erc|]. apply er_bind; [now apply Hc|]. intros [rho' o]. simpl. destruct o; [erc|apply IH]. Qed.
Lemma er_for bt b x : (forall rho, er (bt rho) (b rho)) -> forall vs rho, er (for_loopT bt x vs rho) (for_loop b x vs rho).
Proof. intros H. induction vs as [|v r IH]; intros rho; simpl; [erc|]. apply er_bind; [apply er_tick, H|]. intros [rho' o]. simpl. destruct o; [erc|apply IH]. Qed.
Lemma er_exec c : forall rho, er (execT callt c rho) (exec P call c rho).
Proof.
  induction c using stmt_ind'; intros rho; cbn [execT exec]; apply er_tick.
  - apply er_bind; [apply er_eval|intros; erc].
  - apply er_bind; [apply er_eval|intros; erc].
  - apply er_bind; [apply er_eval|intros]. apply er_bind; [apply er_eval|intros]. apply er_bind; [erc|intros; erc].
  - apply er_bind; [apply er_eval|intros]. apply er_bind; [apply er_eval|intros]. apply er_bind; [apply er_eval|intros]. apply er_bind; [erc|intros; erc].
  - apply er_bind; [apply er_eval|intros v]. apply er_if; now apply er_block.
  - apply er_bind; [apply er_eval|intros v]. apply er_bind; [erc|intros vs]. apply er_for. intros rho'. now apply er_block.
  - apply er_bind; [apply er_eval|intros; erc].
  - erc.
  - apply er_bind; [apply er_eval|intros v s]. now destruct (truth (heap s) v).
  - erc.
Qed.
End Erase.

Theorem run_erase fuel : forall m args kws, er (runT fuel m args kws) (run P fuel m args kws).
Proof.
  induction fuel as [|n IH]; intros m args kws; cbn [runT run]; apply er_tick; [erc|]. destruct (bind_args (m_params m) args kws) as [rho|]; [|erc].
  apply er_bind; [|intros; erc]. apply er_block. apply Forall_forall. intros c _ rho'. now apply er_exec.
Qed.
Theorem create_erase table fuel h data : snd (createPduT table fuel h data) = createPdu P table fuel h data.
Proof.
  assert (C : forall v m args, er (call_methodT fuel v m args) (call_method P fuel v m args)).
  { intros. apply er_bind; [apply er_prim|intros c]. apply er_apply. apply run_erase. }
  unfold createPduT, createPdu. generalize (mkst h data data []). apply er_bind; [apply er_prim|intros ?]. apply er_bind; [apply C|intros t]. apply er_bind; [apply er_prim|intros ?].
  destruct t; erc. apply er_bind; [apply er_apply, run_erase|intros p]. apply er_bind; [apply C|intros; erc].
Qed.
End WithProg.
