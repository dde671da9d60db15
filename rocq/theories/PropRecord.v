(** * Properties C35, C36, C37 and C39: particular records

    Variable datums, signal payloads, entity markings, IFF data. *)
From Coq Require Import ZArith String List Bool Lia.
From Coq Require Import Strings.Byte.
From Verif Require Import Lang Bytes Interp ProgBase ProgDis Prog Spec Codec Codec2 Rep Dec StreamLem SerSound ParSound NewSound Layouts Refine Api StreamApi Classes PropCodec PropFactory.
Import ListNotations.
Open Scope string_scope. Open Scope Z_scope. Open Scope list_scope.

(** ** Specification *)
(** a list of bytes as the list of integers a client stores in an attribute *)
Definition octets (d : list byte) : wv := WList (map (fun b => WInt (b2z b)) d).
(** the number of bytes up to the next 64-bit boundary after k bytes *)
Definition fill (k : nat) : nat := (8 * ((k + 7) / 8) - k)%nat.

(** ** Lemmas on byte lists *)
Local Arguments be : simpl never.
Local Arguments be_val : simpl never.

Lemma enc_byte b : enc_val u8 (WInt (b2z b)) = ([b], None).
Proof.
  unfold enc_val, enc_prim, u8. cbn [wint]. pose proof (b2z_range b) as R. change (lo 1 false) with 0. change (hi 1 false) with 256.
  rewrite (proj2 (Z.leb_le _ _)), (proj2 (Z.ltb_lt _ _)) by lia. cbn [andb]. unfold be. change (256 ^ Z.of_nat 0) with 1. rewrite Z.div_1_r, z2b_b2z. reflexivity.
Qed.

Lemma enc_bytes d : enc_list (enc_val u8) (map (fun b => WInt (b2z b)) d) = (d, None).
Proof. induction d as [|b d IH]; [reflexivity|]. cbn [map enc_list]. rewrite enc_byte, IH. reflexivity. Qed.

Lemma enc_bytes_idx d : enc_idx (enc_val u8) (map (fun b => WInt (b2z b)) d) (length d) = (d, None).
Proof. induction d as [|b d IH]; [reflexivity|]. cbn [map enc_idx length]. rewrite enc_byte, IH. reflexivity. Qed.

Lemma dec_byte b r : dec_val u8 (b :: r) = DOk (WInt (b2z b)) r.
Proof. change (b :: r) with ([b] ++ r). rewrite dec_val_app by reflexivity. destruct b; reflexivity. Qed.

Lemma dec_bytes d r : dec_list (dec_val u8) (length d) (d ++ r) = DOk (map (fun b => WInt (b2z b)) d) r.
Proof. induction d as [|b d IH]; [reflexivity|]. cbn [length dec_list app map]. rewrite dec_byte. cbn [dbind]. rewrite IH. reflexivity. Qed.

Lemma dec_bytes_n k bs : dec_list (dec_val u8) k bs = if (k <=? length bs)%nat then DOk (map (fun b => WInt (b2z b)) (firstn k bs)) (skipn k bs) else DErr StructError.
Proof.
  revert bs. induction k as [|k IH]; intros bs; [reflexivity|]. cbn [dec_list]. destruct bs as [|b r]; [reflexivity|].
  rewrite dec_byte. cbn [dbind length firstn skipn map]. rewrite IH. cbn [Nat.leb]. destruct (k <=? length r)%nat; reflexivity.
Qed.

Lemma skipn_add {A} a : forall b (l : list A), skipn a (skipn b l) = skipn (b + a) l.
Proof. induction b as [|b IH]; intros [|x l]; cbn [skipn Nat.add]; auto. now destruct a. Qed.

Lemma enc_u32 z : in_range 4 false z -> enc_val u32 (WInt z) = (be 4 z, None).
Proof. intros H. unfold enc_val, enc_prim, u32. cbn [wint]. apply in_range_lohi in H. now rewrite H. Qed.

Lemma dec_u32 z r : in_range 4 false z -> dec_val u32 (be 4 z ++ r) = DOk (WInt z) r.
Proof. intros H. rewrite dec_val_app by apply be_length. cbn [dec_prim u32]. now rewrite (be_back 4 false z ltac:(lia) H). Qed.

(** ** C35 *)
Lemma w_VD : layout "VariableDatum" = Some w_VariableDatum. Proof. vm_compute. reflexivity. Qed.

Lemma pad_fill k : pad_bytes (8 * Z.of_nat k) = fill k.
Proof.
  unfold pad_bytes, pad_bits, fill.
  assert (E : (8 * Z.of_nat k) mod 64 = 8 * (Z.of_nat k mod 8)) by (change 64 with (8 * 8); rewrite Z.mul_mod_distr_l by lia; reflexivity).
  rewrite E. assert (D := Nat.div_mod (k + 7) 8 ltac:(lia)). pose proof (Nat.mod_upper_bound (k + 7) 8 ltac:(lia)).
  pose proof (Z.div_mod (Z.of_nat k) 8 ltac:(lia)). pose proof (Z.mod_pos_bound (Z.of_nat k) 8 ltac:(lia)).
  remember (Z.of_nat k mod 8) as m eqn:Em. remember (Z.of_nat k / 8) as q eqn:Eq. clear Em Eq.
  destruct (Z.eqb_spec (8 * m) 0) as [Z0|NZ].
  - change (Z.to_nat (0 / 8)) with 0%nat. lia.
  - replace (64 - 8 * m) with ((8 - m) * 8) by lia. rewrite Z.div_mul by lia. lia.
Qed.

Lemma dec_VD bs W0 : decode w_VariableDatum W0 [] bs =
  dbind (dec_val u32 bs) (fun x r => dbind (dec_val u32 r) (fun y r =>
    match wint y with
    | Some z => dbind (dec_list (dec_val u8) (Z.to_nat (z / 8)) r) (fun l r => dbind (dec_list (dec_val u8) (pad_bytes z) r) (fun _ r =>
        DOk [("variableDatumID", x); ("variableDatumLength", y); ("variableData", WList (old_list "variableData" W0 ++ l))] r))
    | None => DErr Unsupported
    end)).
Proof.
  unfold w_VariableDatum, lay, fold_right. cbn [decode]. unfold u32, u8. destruct (dec_val _ bs) as [x r|e] eqn:E; [|reflexivity]. cbn [dbind].
  destruct (dec_val _ r) as [y t|e] eqn:E2; [|reflexivity]. cbn [dbind]. unfold cadd. destruct (wint y) as [z|] eqn:Ey; destruct (wint x); cbn [count key_eqb String.eqb Ascii.eqb Bool.eqb]; try reflexivity.
  all: try (destruct (dec_list _ _ t) as [l u|e]; [|reflexivity]; cbn [dbind]; destruct (dec_list _ _ u); reflexivity).
Qed.

(** n data bytes, announced as 8 n bits: header, data, zeros up to the 64-bit boundary; and back *)
Theorem C35_round_trip n s o id d : (fuel_ok <= n)%nat -> in_range 4 false id -> in_range 4 false (8 * Z.of_nat (length d)) ->
  contents the_prog (heap s) "VariableDatum" w_VariableDatum o =
    Some [("variableDatumID", WInt id); ("variableDatumLength", WInt (8 * Z.of_nat (length d))); ("variableData", octets d)] ->
  exists bs, serialize n o s = (Ok VNone, appended s bs) /\
    bs = be 4 id ++ be 4 (8 * Z.of_nat (length d)) ++ d ++ repeat x00 (fill (length d)) /\
    length bs = (8 + 8 * ((length d + 7) / 8))%nat /\
    forall s' rest, irest s' = bs ++ rest -> exists o' s'', load the_prog n "VariableDatum" s' = (Ok o', s'') /\ irest s'' = rest /\
      contents the_prog (heap s'') "VariableDatum" w_VariableDatum o' =
        Some [("variableDatumID", WInt id); ("variableDatumLength", WInt (8 * Z.of_nat (length d))); ("variableData", octets d)].
Proof.
  intros Hn Hi Hd HW.
  assert (Q : 8 * Z.of_nat (length d) / 8 = Z.of_nat (length d)) by (rewrite Z.mul_comm; apply Z.div_mul; lia).
  eexists. split; [|split; [reflexivity|split]].
  - rewrite (ser_layout n _ _ o s _ Hn w_VD HW).
    match goal with |- context [encode w_VariableDatum ?W] => assert (E : encode w_VariableDatum W = (be 4 id ++ be 4 (8 * Z.of_nat (length d)) ++ d ++ repeat x00 (fill (length d)), None)) end.
    { unfold w_VariableDatum, lay, fold_right, octets. cbn -[be enc_val Z.mul Z.div Z.of_nat pad_bytes enc_idx repeat]. rewrite Q, Nat2Z.id, enc_bytes_idx, pad_fill, !enc_u32 by assumption.
      unfold oseq, done. cbn [fst snd]. rewrite app_nil_r. reflexivity. }
    rewrite E. reflexivity.
  - rewrite !app_length, !be_length, repeat_length. unfold fill. pose proof (Nat.div_mod (length d + 7) 8 ltac:(lia)). pose proof (Nat.mod_upper_bound (length d + 7) 8 ltac:(lia)). lia.
  - intros s' rest Hr. pose proof (load_layout n "VariableDatum" _ s' Hn w_VD) as H. rewrite Hr in H.
    match type of H with context [decode _ [] [] ?bs] => assert (E : decode w_VariableDatum [] [] bs = DOk [("variableDatumID", WInt id); ("variableDatumLength", WInt (8 * Z.of_nat (length d))); ("variableData", octets d)] rest) end.
    { rewrite dec_VD, <- !app_assoc, dec_u32 by assumption. cbn [dbind]. rewrite dec_u32 by assumption. cbn [dbind wint]. rewrite Q, Nat2Z.id, dec_bytes, pad_fill. cbn [dbind].
      rewrite <- (repeat_length x00 (fill (length d))) at 1. rewrite dec_bytes. reflexivity. }
    rewrite E in H. destruct H as (o' & s'' & A & B & _ & C & _). eauto.
Qed.

(** parse on any input: it fails with struct.error exactly when the input is too short for what the length field announces;
    otherwise it takes the announced bytes and the padding, which together fill whole 64-bit words if the length is a multiple of 8 *)
Theorem C35_parse n s id len r : (fuel_ok <= n)%nat -> in_range 4 false id -> in_range 4 false len -> irest s = be 4 id ++ be 4 len ++ r ->
  let used := (Z.to_nat (len / 8) + pad_bytes len)%nat in
  (len mod 8 = 0 -> used = (8 * ((Z.to_nat (len / 8) + 7) / 8))%nat) /\
  if (used <=? length r)%nat
  then exists o s', load the_prog n "VariableDatum" s = (Ok o, s') /\ irest s' = skipn used r /\
    contents the_prog (heap s') "VariableDatum" w_VariableDatum o =
      Some [("variableDatumID", WInt id); ("variableDatumLength", WInt len); ("variableData", octets (firstn (Z.to_nat (len / 8)) r))]
  else exists s', load the_prog n "VariableDatum" s = (Exc StructError, s').
Proof.
  intros Hn Hi Hl Hr used. split.
  - intros H0. unfold used. assert (len = 8 * Z.of_nat (Z.to_nat (len / 8))).
    { rewrite Z2Nat.id by (apply Z.div_pos; [destruct Hl|]; lia). pose proof (Z.div_mod len 8 ltac:(lia)). lia. }
    rewrite H at 2. rewrite pad_fill. unfold fill. remember (Z.to_nat (len / 8)) as k.
    pose proof (Nat.div_mod (k + 7) 8 ltac:(lia)). pose proof (Nat.mod_upper_bound (k + 7) 8 ltac:(lia)). lia.
  - pose proof (load_layout n "VariableDatum" _ s Hn w_VD) as H. rewrite Hr in H.
    rewrite dec_VD, dec_u32 in H by assumption. cbn [dbind] in H. rewrite dec_u32 in H by assumption. cbn [dbind wint] in H.
    rewrite dec_bytes_n in H. unfold used. destruct (Nat.leb_spec (Z.to_nat (len / 8)) (length r)).
    + cbn [dbind] in H. rewrite dec_bytes_n, skipn_length in H.
      destruct (Nat.leb_spec (pad_bytes len) (length r - Z.to_nat (len / 8))); destruct (Nat.leb_spec (Z.to_nat (len / 8) + pad_bytes len) (length r)); try lia.
      * cbn [dbind] in H. destruct H as (o' & s'' & A & B & _ & C & _). exists o', s''. split; [exact A|]. split; [|exact B].
        rewrite C, skipn_add. reflexivity.
      * cbn [dbind] in H. destruct H as (s' & A). eauto.
    + destruct (Nat.leb_spec (Z.to_nat (len / 8) + pad_bytes len) (length r)); [lia|]. cbn [dbind] in H. destruct H as (s' & A). eauto.
Qed.

(** a datum of 11 bytes *)
Example C35_case : exists o s, bind (halloc (HList (map VInt [1; 2; 3; 4; 5; 6; 7; 8; 9; 10; 255]))) (fun l => new the_prog 20 "VariableDatum" [VInt 7; VInt 88; l]) st0 = (Ok o, s) /\
  contents the_prog (heap s) "VariableDatum" w_VariableDatum o =
    Some [("variableDatumID", WInt 7); ("variableDatumLength", WInt 88); ("variableData", octets [x01; x02; x03; x04; x05; x06; x07; x08; x09; x0a; xff])].
Proof. do 2 eexists. split; [vm_compute; reflexivity|]. vm_compute. reflexivity. Qed.

(** ** C36 *)
Lemma w_SP : layout "SignalPdu" = Some w_SignalPdu. Proof. vm_compute. reflexivity. Qed.

(** everything in a signal PDU but the payload *)
Definition signal_front : fmt := lay [
  fapp w_RadioCommunicationsFamilyPdu;
  Obj "entityID" "EntityIdentifier" w_EntityIdentifier;
  Prim "radioID" u16;
  Prim "encodingScheme" u16;
  Prim "tdlType" u16;
  Prim "sampleRate" u32].
Lemma signal_split : w_SignalPdu = fapp signal_front (Cnt "data" u16 8 (Prim "samples" u16 (PList "data" u8 Done))).
Proof. reflexivity. Qed.

Lemma field_data (W : flds) x : ~ In "data" (map fst W) -> field "data" (W ++ [("data", x)]) = Some x.
Proof.
  intros H. rewrite field_app. destruct (field "data" W) eqn:E; [|reflexivity]. destruct H. apply field_In. eauto.
Qed.

Lemma signal_names (W : flds) x : map fst (W ++ [("data", x)]) = names w_SignalPdu -> map fst W = names signal_front ++ ["samples"].
Proof.
  rewrite map_app. change (names w_SignalPdu) with ((names signal_front ++ ["samples"]) ++ ["data"]). intros H. apply app_inj_tail in H. apply H.
Qed.

Lemma no_data (W : flds) x : map fst (W ++ [("data", x)]) = names w_SignalPdu -> ~ In "data" (map fst W).
Proof. intros H. apply signal_names in H. rewrite H. cbn. intuition discriminate. Qed.

(** replacing the payload leaves the other fields as they are *)
Lemma typed_front f : forall W x y, mem "data" (names f) = false -> lists f = [] -> forallb (fun a => negb (String.eqb a "data")) (names f) = true ->
  (fix simple f := match f with Prim _ _ k | Obj _ _ _ k => simple k | Done => True | _ => False end) f ->
  typed f (W ++ [("data", x)]) -> typed f (W ++ [("data", y)]).
Proof.
  assert (F : forall W x y a, a <> "data" -> field a (W ++ [("data", x)]) = field a (W ++ [("data", y)])).
  { intros W x y a Ha. rewrite !field_app. destruct (field a W); [reflexivity|]. cbn. destruct (String.eqb_spec a "data"); [contradiction|reflexivity]. }
  induction f; intros W x y M L N S0; cbn [typed names lists forallb mem existsb] in *; try contradiction; auto.
  all: apply orb_false_elim in M as [M1 M2]; apply andb_prop in N as [N1 N2]; apply negb_true_iff in N1; apply String.eqb_neq in N1.
  all: intros [(z & A & B) C]; split; [exists z; split; [rewrite <- A; now apply F|exact B]|eauto].
Qed.

Lemma typed_fapp f g W : typed (fapp f g) W <-> typed f W /\ typed g W.
Proof. induction f; cbn [fapp typed]; try tauto. Qed.

Lemma signal_value W d : Z.of_nat (length d) <= 8191 -> value_of w_SignalPdu (W ++ [("data", WList [])]) -> value_of w_SignalPdu (W ++ [("data", octets d)]).
Proof.
  intros Hd [N T]. pose proof (no_data _ _ N) as ND. split.
  - rewrite map_app in *. exact N.
  - rewrite signal_split in *. apply typed_fapp in T as [T1 T2]. apply typed_fapp. split.
    + exact (typed_front signal_front W (WList []) (octets d) eq_refl eq_refl eq_refl I T1).
    + cbn [typed] in *. destruct T2 as (_ & (x & T3 & T4) & _ & _). unfold octets. rewrite !field_data by exact ND. split; [|split; [|split]].
      * eexists. split; [reflexivity|]. rewrite map_length. unfold fits, u16. change (lo 2 false) with 0. change (hi 2 false) with 65536. lia.
      * exists x. split; [|exact T4]. rewrite field_app in *. destruct (field "samples" W); [exact T3|discriminate].
      * eexists. split; [reflexivity|]. apply Forall_forall. intros y Hy. apply in_map_iff in Hy as (b & <- & _). unfold fits, u8. pose proof (b2z_range b). change (lo 1 false) with 0. change (hi 1 false) with 256. lia.
      * exact I.
Qed.

(** W: the attributes of the PDU other than the payload, which are in range; d: the payload *)
Theorem C36_round_trip n s o W d : (fuel_ok <= n)%nat -> Z.of_nat (length d) <= 8191 ->
  contents the_prog (heap s) "SignalPdu" w_SignalPdu o = Some (W ++ [("data", octets d)]) ->
  value_of w_SignalPdu (W ++ [("data", WList [])]) -> field "pduType" W = Some (WInt 26) ->
  exists bs, serialize n o s = (Ok VNone, appended s bs) /\
    forall h rest, exists o' s', factory n h (bs ++ rest) = (Ok o', s') /\ irest s' = rest /\
      contents the_prog (heap s') "SignalPdu" w_SignalPdu o' = Some (W ++ [("data", octets d)]).
Proof.
  intros Hn Hd HW HV HT. destruct (C11_factory_round_trip n "SignalPdu" _ s o _ 26 Hn w_SP eq_refl HW (signal_value W d Hd HV)) as (bs & E & R).
  - rewrite field_app, HT. reflexivity.
  - reflexivity.
  - exists bs. split; [exact E|]. intros h rest. destruct (R h rest) as (o' & s' & A & B & C). eauto.
Qed.

Theorem C36_too_long n s o W d : (fuel_ok <= n)%nat -> 8191 < Z.of_nat (length d) ->
  contents the_prog (heap s) "SignalPdu" w_SignalPdu o = Some (W ++ [("data", octets d)]) ->
  value_of w_SignalPdu (W ++ [("data", WList [])]) -> fst (serialize n o s) = Exc StructError.
Proof.
  intros Hn Hd HW [N T]. pose proof (no_data _ _ N) as ND. rewrite (ser_layout n _ _ o s _ Hn w_SP HW). rewrite signal_split, encode_fapp.
  rewrite signal_split in T. apply typed_fapp in T as [T1 _].
  apply (typed_front signal_front W (WList []) (octets d) eq_refl eq_refl eq_refl I) in T1.
  destruct (typed_ok signal_front [] [] _ eq_refl T1) as ((bs & E) & _). rewrite E. cbn [encode]. unfold octets at 1. rewrite field_data by exact ND.
  replace (enc_val u16 (WInt (Z.of_nat (length (map (fun b : byte => WInt (b2z b)) d)) * 8))) with (fail StructError); [reflexivity|].
  unfold enc_val, enc_prim, u16. cbn [wint]. rewrite map_length. change (lo 2 false) with 0. change (hi 2 false) with 65536.
  rewrite (proj2 (Z.ltb_ge (Z.of_nat (length d) * 8) 65536)) by lia. rewrite andb_false_r. reflexivity.
Qed.

(** a PDU with a payload of three bytes *)
Definition ex_signal : res val * st :=
  bind (new the_prog 20 "SignalPdu" []) (fun o => bind (halloc (HList (map VInt [1; 2; 255]))) (fun l => bind (set_attr the_prog o "data" l) (fun _ => ret o))) st0.
Example C36_case : exists o s W, ex_signal = (Ok o, s) /\ contents the_prog (heap s) "SignalPdu" w_SignalPdu o = Some (W ++ [("data", octets [x01; x02; xff])]) /\
  value_of w_SignalPdu (W ++ [("data", WList [])]) /\ field "pduType" W = Some (WInt 26).
Proof.
  destruct ex_signal as [[o|] s] eqn:E; [|vm_compute in E; discriminate]. assert (H := E). vm_compute in H. injection H as <- <-.
  match goal with |- context [@pair (res val) st _ ?s0] => set (s := s0) in * end.
  exists (VRef 0), s.
  exists [("protocolVersion", WInt 7); ("exerciseID", WInt 0); ("pduType", WInt 26); ("protocolFamily", WInt 4); ("timestamp", WInt 0); ("length", WInt 0);
          ("pduStatus", WInt 0); ("padding", WInt 0); ("entityID", WObj [("simulationAddress", WObj [("site", WInt 0); ("application", WInt 0)]); ("entityNumber", WInt 0)]);
          ("radioID", WInt 0); ("encodingScheme", WInt 0); ("tdlType", WInt 0); ("sampleRate", WInt 0); ("samples", WInt 0)].
  split; [reflexivity|]. split; [vm_compute; reflexivity|]. split; [|reflexivity].
  apply (value_by_decoding "SignalPdu" _ ([x07; x00; x1a; x04] ++ repeat x00 28) _ w_SP). vm_compute. reflexivity.
Qed.

(** ** C39 *)
Lemma enc_u16 z : in_range 2 false z -> enc_val u16 (WInt z) = (be 2 z, None).
Proof. intros H. unfold enc_val, enc_prim, u16. cbn [wint]. apply in_range_lohi in H. now rewrite H. Qed.
Lemma dec_u16 z r : in_range 2 false z -> dec_val u16 (be 2 z ++ r) = DOk (WInt z) r.
Proof. intros H. rewrite dec_val_app by apply be_length. cbn [dec_prim u16]. now rewrite (be_back 2 false z ltac:(lia) H). Qed.

Lemma w_IF : assoc "IFFData" TW = Some w_IFFData. Proof. vm_compute. reflexivity. Qed.
Lemma r_IF : assoc "IFFData" TR = Some r_IFFData. Proof. vm_compute. reflexivity. Qed.
Lemma nc_IF : mem "IFFData" NC = true. Proof. vm_compute. reflexivity. Qed.

Lemma dec_IF t z r : in_range 4 false t -> in_range 2 false z -> decode r_IFFData [] [] (be 4 t ++ be 2 z ++ r) =
  dbind (dec_list (dec_val u8) (Z.to_nat (z - 6)) r) (fun l r => DOk [("recordType", WInt t); ("recordLength", WInt z); ("iffData", WList l)] r).
Proof.
  intros Ht Hz. unfold r_IFFData, lay, fold_right. cbn [decode]. rewrite dec_u32 by exact Ht. cbn [dbind]. rewrite dec_u16 by exact Hz. cbn [dbind cadd wint count key_eqb String.eqb Ascii.eqb Bool.eqb].
  destruct (dec_list _ _ r); reflexivity.
Qed.

(** what a record of the bytes d reads back as: the bytes but the last six, which are left in the stream *)
Theorem C39_exact n s o t d : (fuel_ok <= n)%nat -> in_range 4 false t -> in_range 2 false (Z.of_nat (length d)) ->
  contents the_prog (heap s) "IFFData" w_IFFData o = Some [("recordType", WInt t); ("iffData", octets d)] ->
  exists bs, serialize n o s = (Ok VNone, appended s bs) /\ length bs = (6 + length d)%nat /\
    forall s' rest, irest s' = bs ++ rest -> exists o' s'', load the_prog n "IFFData" s' = (Ok o', s'') /\
      irest s'' = skipn (length d - 6) d ++ rest /\
      contents the_prog (heap s'') "IFFData" r_IFFData o' =
        Some [("recordType", WInt t); ("recordLength", WInt (Z.of_nat (length d))); ("iffData", octets (firstn (length d - 6) d))].
Proof.
  intros Hn Ht Hd HW. exists (be 4 t ++ be 2 (Z.of_nat (length d)) ++ d).
  split; [|split].
  - unfold serialize. rewrite (serialize_spec n _ _ o s _ Hn w_IF HW).
    replace (encode w_IFFData _) with ((be 4 t ++ be 2 (Z.of_nat (length d)) ++ d, None) : outcome); [reflexivity|].
    unfold w_IFFData, lay, fold_right, octets. cbn -[be enc_val enc_list Z.of_nat Z.mul]. rewrite map_length, Z.mul_1_r, enc_bytes, enc_u32, enc_u16 by assumption. unfold oseq, done. cbn. now rewrite app_nil_r.
  - rewrite !app_length, !be_length. lia.
  - intros s' rest Hi. pose proof (load_spec n "IFFData" _ s' Hn r_IF nc_IF) as L. rewrite Hi, <- !app_assoc, dec_IF in L by assumption.
    replace (Z.to_nat (Z.of_nat (length d) - 6)) with (length d - 6)%nat in L by lia. rewrite dec_bytes_n, app_length in L.
    rewrite (proj2 (Nat.leb_le _ _)) in L by lia. cbn [dbind] in L. rewrite firstn_app, skipn_app in L.
    replace (length d - 6 - length d)%nat with 0%nat in L by lia. cbn [firstn skipn] in L. rewrite app_nil_r in L.
    destruct L as (o' & s'' & l & fp & L1 & _ & L2 & _ & _ & L3 & _). eauto.
Qed.

(** so no record but the empty one survives *)
Theorem C39_round_trip_refuted n s o t d : (fuel_ok <= n)%nat -> in_range 4 false t -> in_range 2 false (Z.of_nat (length d)) -> d <> [] ->
  contents the_prog (heap s) "IFFData" w_IFFData o = Some [("recordType", WInt t); ("iffData", octets d)] ->
  exists bs, serialize n o s = (Ok VNone, appended s bs) /\
    forall s' rest, irest s' = bs ++ rest -> exists o' s'' W, load the_prog n "IFFData" s' = (Ok o', s'') /\
      contents the_prog (heap s'') "IFFData" r_IFFData o' = Some W /\ field "iffData" W <> Some (octets d) /\ irest s'' <> rest.
Proof.
  intros Hn Ht Hd Hne HW. destruct (C39_exact n s o t d Hn Ht Hd HW) as (bs & E & _ & R). exists bs. split; [exact E|].
  intros s' rest Hi. destruct (R s' rest Hi) as (o' & s'' & A & B & C). exists o', s''. eexists. split; [exact A|]. split; [exact C|].
  assert (length d <> 0)%nat by (destruct d; [contradiction|discriminate]).
  assert (L1 : (length (firstn (length d - 6) d) < length d)%nat) by (rewrite firstn_length; lia).
  split.
  - cbn. unfold octets. intros [= H0]. apply (f_equal (@length wv)) in H0. rewrite !map_length in H0. lia.
  - rewrite B. intros H0. apply (f_equal (@length byte)) in H0. rewrite app_length, skipn_length in H0. lia.
Qed.

(** the empty record does *)
Theorem C39_round_trip_partial n s o t : (fuel_ok <= n)%nat -> in_range 4 false t ->
  contents the_prog (heap s) "IFFData" w_IFFData o = Some [("recordType", WInt t); ("iffData", WList [])] ->
  exists bs, serialize n o s = (Ok VNone, appended s bs) /\
    forall s' rest, irest s' = bs ++ rest -> exists o' s'', load the_prog n "IFFData" s' = (Ok o', s'') /\ irest s'' = rest /\
      contents the_prog (heap s'') "IFFData" r_IFFData o' = Some [("recordType", WInt t); ("recordLength", WInt 0); ("iffData", WList [])].
Proof.
  intros Hn Ht HW. destruct (C39_exact n s o t [] Hn Ht ltac:(unfold in_range; cbn; lia) HW) as (bs & E & _ & R). exists bs. split; [exact E|].
  intros s' rest Hi. destruct (R s' rest Hi) as (o' & s'' & A & B & C). eauto.
Qed.

Example C39_case : exists o s, bind (halloc (HList (map VInt [1; 2; 3; 4; 5; 6; 7; 8]))) (fun l => new the_prog 20 "IFFData" [VInt 9; VInt 14; l]) st0 = (Ok o, s) /\
  contents the_prog (heap s) "IFFData" w_IFFData o = Some [("recordType", WInt 9); ("iffData", octets [x01; x02; x03; x04; x05; x06; x07; x08])].
Proof. do 2 eexists. split; [vm_compute; reflexivity|]. vm_compute. reflexivity. Qed.

(** ** C37 *)
Lemma w_EM : layout "EntityMarking" = Some w_EntityMarking. Proof. vm_compute. reflexivity. Qed.

(** the eleven characters stored for the string with the code points cs *)
Definition marking (cs : list Z) : list Z := firstn 11 (cs ++ repeat 0 11).
(** o.setString(str), o.charactersString() *)
Definition setString (n : nat) (o : val) (cs : list Z) : M val := call_method the_prog n o "setString" [VStr cs].
Definition charactersString (n : nat) (o : val) : M val := call_method the_prog n o "charactersString" [].
(** a marking with the given attribute values *)
Definition is_marking (h : list hobj) (o : val) (x : wv) (ws : list wv) : Prop :=
  contents the_prog h "EntityMarking" w_EntityMarking o = Some [("characterSet", x); ("characters", WList ws)].

Definition set_body := [If (Cmp CLt (Loc "idx") (Builtin BLen [(Loc "new_str")])) [SetSub (Attr (Loc "self") "characters") (Loc "idx") (Builtin BOrd [(Sub (Loc "new_str") (Loc "idx"))])] [SetSub (Attr (Loc "self") "characters") (Loc "idx") (Lit (LInt 0))]].
Lemma lk_set : lookup the_prog "EntityMarking" "setString" =
  Some (MMeth (mkmeth KNormal false [("self", None); ("new_str", None)] [For "idx" (Builtin BRange [(Lit (LInt 0)); (Lit (LInt 11))]) set_body])).
Proof. vm_compute. reflexivity. Qed.
Lemma lk_chars : lookup the_prog "EntityMarking" "charactersString" =
  Some (MMeth (mkmeth KNormal false [("self", None)] [Return (Meth (Builtin BBytes [(Builtin BFilterNone [(Attr (Loc "self") "characters")])]) "decode" [(Lit (LStr "utf-8"))] [])])).
Proof. vm_compute. reflexivity. Qed.
Lemma lk_c1 : lookup the_prog "EntityMarking" "characterSet" = None. Proof. vm_compute. reflexivity. Qed.
Lemma lk_c2 : lookup the_prog "EntityMarking" "characters" = None. Proof. vm_compute. reflexivity. Qed.

Lemma marking_iff h o x ws : is_marking h o x ws <->
  exists l at_ lc vs v, o = VRef l /\ nth_error h l = Some (HInst "EntityMarking" at_) /\ assoc "characterSet" at_ = Some v /\ scal v = Some x /\
    assoc "characters" at_ = Some (VRef lc) /\ nth_error h lc = Some (HList vs) /\ scals vs = Some ws.
Proof.
  unfold is_marking, contents. split.
  - intros H. destruct o; try discriminate. destruct (nth_error h l) as [[d at_|]|] eqn:El; try discriminate.
    destruct (String.eqb_spec "EntityMarking" d); [subst d|discriminate]. exists l, at_.
    unfold w_EntityMarking, lay, fold_right in H. cbn [read] in H. unfold getA in H. rewrite lk_c1, lk_c2 in H.
    destruct (assoc "characterSet" at_) as [v|]; [|discriminate]. unfold cons_opt in H. destruct (scal v) as [y|] eqn:Ey; [|discriminate].
    destruct (get_list h (assoc "characters" at_)) as [vs|] eqn:G; [|discriminate]. destruct (scals vs) as [q|] eqn:Es; [|discriminate]. cbn in H. injection H as -> ->.
    unfold get_list in G. destruct (assoc "characters" at_) as [[]|]; try discriminate. destruct (nth_error h l0) as [[]|] eqn:E0; try discriminate. injection G as ->.
    exists l0, vs, v. auto 10.
  - intros (l & at_ & lc & vs & v & -> & -> & A & B & C & D & E). rewrite String.eqb_refl. unfold w_EntityMarking, lay, fold_right. cbn [read]. unfold getA. rewrite lk_c1, lk_c2, A, C.
    unfold get_list. rewrite D, E, B. reflexivity.
Qed.

Definition upd_list (s : st) (lc : nat) (vs : list val) : st := mkst (set_nth lc (HList vs) (heap s)) (irest s) (ifull s) (out s).

Lemma set_one call cs l lc at_ s rho k vs : nth_error (heap s) l = Some (HInst "EntityMarking" at_) -> assoc "characters" at_ = Some (VRef lc) ->
  nth_error (heap s) lc = Some (HList vs) -> (k < length vs)%nat ->
  assoc "self" rho = Some (VRef l) -> assoc "new_str" rho = Some (VStr cs) -> assoc "idx" rho = Some (VInt (Z.of_nat k)) ->
  run_block (exec the_prog call) set_body rho s = (Ok (rho, None), upd_list s lc (set_nth k (VInt (nth k cs 0)) vs)).
Proof.
  intros Hl Hc Hv Hk R1 R2 R3.
  assert (GA : forall s, nth_error (heap s) l = Some (HInst "EntityMarking" at_) -> get_attr the_prog call (VRef l) "characters" s = (Ok (VRef lc), s)).
  { intros s0 H0. unfold get_attr, bind, hget. rewrite H0, lk_c2, Hc. reflexivity. }
  assert (SS : forall v, set_sub (VRef lc) (VInt (Z.of_nat k)) v s = (Ok tt, upd_list s lc (set_nth k v vs))).
  { intros v. unfold set_sub, bind, hget. rewrite Hv. cbn [as_int]. unfold py_index. rewrite (proj2 (Z.leb_le 0 (Z.of_nat k))), (proj2 (Z.ltb_lt (Z.of_nat k) _)) by lia. cbn [andb]. rewrite Nat2Z.id. reflexivity. }
  assert (SB : (k < length cs)%nat -> sub_val (VStr cs) (VInt (Z.of_nat k)) s = (Ok (VStr [nth k cs 0]), s)).
  { intros Hs. cbn [sub_val as_int]. unfold nth_val, py_index. rewrite map_length, (proj2 (Z.leb_le 0 (Z.of_nat k))), (proj2 (Z.ltb_lt (Z.of_nat k) _)) by lia. cbn [andb]. rewrite Nat2Z.id, nth_error_map.
    rewrite (nth_error_nth' cs 0) by exact Hs. reflexivity. }
  unfold set_body. cbn [run_block exec eval eval_list]. rewrite R1, R2, R3. unfold bind, ret. cbn [builtin_val]. unfold ret.
  cbn -[Z.of_nat Z.ltb get_attr set_sub sub_val run_block exec].
  destruct (Z.ltb_spec (Z.of_nat k) (Z.of_nat (length cs))).
  - rewrite SB by lia. rewrite GA by exact Hl. rewrite SS. reflexivity.
  - rewrite GA by exact Hl. rewrite SS. rewrite nth_overflow by lia. reflexivity.
Qed.

Lemma set_nth_nth {A} k (x : A) l i : nth_error (set_nth k x l) i = if Nat.eqb i k then match nth_error l k with Some _ => Some x | None => None end else nth_error l i.
Proof.
  revert k i. induction l as [|y l IH]; intros [|k] [|i]; cbn [set_nth nth_error Nat.eqb]; try reflexivity.
  - destruct (Nat.eqb i k); reflexivity.
  - rewrite IH. reflexivity.
Qed.

Lemma set_loop call cs l lc at_ m : forall k s rho vs, nth_error (heap s) l = Some (HInst "EntityMarking" at_) -> assoc "characters" at_ = Some (VRef lc) ->
  nth_error (heap s) lc = Some (HList vs) -> (k + m <= length vs)%nat -> l <> lc ->
  assoc "self" rho = Some (VRef l) -> assoc "new_str" rho = Some (VStr cs) ->
  exists rho' us, for_loop (run_block (exec the_prog call) set_body) "idx" (map VInt (zseq (Z.of_nat k) m)) rho s = (Ok (rho', None), upd_list s lc us) /\
    length us = length vs /\ forall i, nth_error us i = if ((k <=? i) && (i <? k + m))%nat then Some (VInt (nth i cs 0)) else nth_error vs i.
Proof.
  induction m as [|m IH]; intros k s rho vs Hl Hc Hv Hk Hne R1 R2; cbn [zseq map for_loop].
  - exists rho, vs. split; [|split; [reflexivity|]].
    + unfold ret, upd_list. f_equal. destruct s as [h i f o]. cbn [heap irest ifull out] in *. f_equal. clear -Hv. revert lc Hv. induction h as [|x h IH]; intros [|lc] Hv; cbn in *; [discriminate..|congruence|]. f_equal. auto.
    + intros i. destruct (Nat.leb_spec k i), (Nat.ltb_spec i (k + 0)); try reflexivity; lia.
  - unfold bind at 1. rewrite (set_one call cs l lc at_ s (upd "idx" (VInt (Z.of_nat k)) rho) k vs Hl Hc Hv ltac:(lia)) by (rewrite ?assoc_upd_ne by discriminate; auto; apply assoc_upd_eq).
    cbn [snd fst]. assert (HL : nth_error (heap s) lc <> None) by congruence. apply nth_error_Some in HL.
    replace (Z.of_nat k + 1) with (Z.of_nat (S k)) by lia.
    destruct (IH (S k) (upd_list s lc (set_nth k (VInt (nth k cs 0)) vs)) (upd "idx" (VInt (Z.of_nat k)) rho) (set_nth k (VInt (nth k cs 0)) vs)) as (rho' & us & E & L & N).
    + cbn [heap upd_list]. rewrite set_nth_ne; auto.
    + exact Hc.
    + cbn [heap upd_list]. now rewrite set_nth_eq.
    + rewrite set_nth_length. lia.
    + exact Hne.
    + rewrite assoc_upd_ne by discriminate. exact R1.
    + rewrite assoc_upd_ne by discriminate. exact R2.
    + exists rho', us. split; [|split].
      * rewrite E. f_equal. unfold upd_list. cbn [heap irest ifull out]. f_equal. clear. revert lc. induction (heap s) as [|x h IH]; intros [|lc]; cbn; congruence.
      * rewrite L. apply set_nth_length.
      * intros i. rewrite N, set_nth_nth. destruct (Nat.leb_spec (S k) i), (Nat.ltb_spec i (S k + m)), (Nat.leb_spec k i), (Nat.ltb_spec i (k + S m)), (Nat.eqb_spec i k); cbn [andb]; try reflexivity; try lia.
        subst i. destruct (nth_error vs k) eqn:E1; [reflexivity|]. apply nth_error_None in E1. lia.
Qed.

Lemma scals_length vs : forall ws, scals vs = Some ws -> length ws = length vs.
Proof. induction vs as [|v vs IH]; intros ws; cbn; [intros [= <-]; reflexivity|]. destruct (scal v); [|discriminate]. destruct (scals vs); [|discriminate]. intros [= <-]. cbn. now rewrite (IH l). Qed.

Lemma scals_ints zs : scals (map VInt zs) = Some (map WInt zs).
Proof. induction zs as [|z zs IH]; [reflexivity|]. cbn. now rewrite IH. Qed.

Lemma marking_nth cs i : (i < 11)%nat -> nth_error (marking cs) i = Some (nth i cs 0).
Proof.
  intros Hi. unfold marking. assert (L : (11 <= length (cs ++ repeat 0%Z 11))%nat) by (rewrite app_length, repeat_length; lia).
  rewrite (nth_error_nth' _ 0) by (rewrite firstn_length; lia). f_equal.
  transitivity (nth i (cs ++ repeat 0%Z 11) 0%Z).
  - rewrite <- (firstn_skipn 11 (cs ++ repeat 0 11)) at 2. rewrite app_nth1; [reflexivity|]. rewrite firstn_length. lia.
  - destruct (Nat.ltb_spec i (length cs)); [now rewrite app_nth1|]. rewrite app_nth2 by lia. rewrite (nth_overflow cs) by lia. apply nth_repeat.
Qed.

Lemma marking_length cs : length (marking cs) = 11%nat.
Proof. unfold marking. rewrite firstn_length, app_length, repeat_length. lia. Qed.

Lemma list_ext {A} (l : list A) : forall m, (forall i, nth_error l i = nth_error m i) -> l = m.
Proof.
  induction l as [|x l IH]; intros [|y m] H; [reflexivity|discriminate (H 0%nat)|discriminate (H 0%nat)|].
  f_equal; [specialize (H 0%nat); cbn in H; congruence|]. apply IH. intros i. exact (H (S i)).
Qed.

(** setString stores the first eleven characters, padded with zeros, and changes nothing else *)
Theorem C37_setString n s o x ws cs : (1 <= n)%nat -> is_marking (heap s) o x ws -> length ws = 11%nat ->
  exists s', setString n o cs s = (Ok VNone, s') /\ is_marking (heap s') o x (map WInt (marking cs)) /\ irest s' = irest s /\ out s' = out s /\
    exists lc us, heap s' = set_nth lc (HList us) (heap s).
Proof.
  intros Hn HM HL. apply marking_iff in HM as (l & at_ & lc & vs & v & -> & Hl & Hx & Hsc & Hc & Hv & Hs).
  pose proof (scals_length _ _ Hs) as HLv. rewrite HL in HLv. assert (Hne : l <> lc) by congruence.
  destruct n as [|n]; [lia|].
  destruct (set_loop (run the_prog n) cs l lc at_ 11 0 s [("self", VRef l); ("new_str", VStr cs)] vs Hl Hc Hv ltac:(lia) Hne eq_refl eq_refl) as (rho' & us & E & L & N).
  exists (upd_list s lc us). split; [|split; [|split; [reflexivity|split; [reflexivity|eexists; eexists; reflexivity]]]].
  - unfold setString, call_method, bind at 1. unfold resolve, bind at 1, hget. rewrite Hl, lk_set. unfold ret at 1. cbn [m_kind apply app]. cbn [run m_params m_body]. cbn [bind_args bind_pos bind_rest firstn length Nat.sub combine skipn app].
    cbn [run_block]. unfold bind at 1. unfold bind at 1. cbn [exec eval eval_list lit_val]. unfold bind, ret. cbn [builtin_val as_int iter_vals]. unfold ret. unfold ret. change (iter_vals (VRange 0 11) s) with (@Ok (list val) (map VInt (zseq 0 11)), s). change (Z.of_nat 0) with 0 in E. cbv iota beta. rewrite E. reflexivity.
  - apply marking_iff. exists l, at_, lc, us, v. assert (HL2 : nth_error (heap s) lc <> None) by congruence. apply nth_error_Some in HL2.
    repeat split; auto.
    + cbn [heap upd_list]. rewrite set_nth_ne; auto.
    + cbn [heap upd_list]. now rewrite set_nth_eq.
    + replace us with (map VInt (marking cs)); [apply scals_ints|]. apply list_ext. intros i. rewrite N. cbn [Nat.leb andb]. destruct (Nat.ltb_spec i (0 + 11)).
      * rewrite nth_error_map, marking_nth by exact H. reflexivity.
      * transitivity (@None val); [apply nth_error_None; rewrite map_length, marking_length; lia|]. symmetry. apply nth_error_None. lia.
Qed.

(** ASCII, without NUL *)
Definition ascii (cs : list Z) : Prop := Forall (fun c => 1 <= c <= 127) cs.

Lemma utf8_ascii cs : ascii cs -> utf8_decode (map z2b cs) = Some cs.
Proof.
  induction 1 as [|c cs Hc _ IH]; [reflexivity|]. cbn [map utf8_decode]. rewrite b2z_z2b, Z.mod_small by lia. rewrite (proj2 (Z.ltb_lt _ _)) by lia. now rewrite IH.
Qed.

Lemma bytes_ascii cs : ascii cs -> bytes_of (map VInt cs) = inl (map z2b cs).
Proof.
  unfold bytes_of. induction 1 as [|c cs Hc _ IH]; [reflexivity|]. cbn [map fold_right as_int]. rewrite (proj2 (Z.leb_le _ _)), (proj2 (Z.ltb_lt _ _)) by lia. cbn [andb]. now rewrite IH.
Qed.

Lemma filter_ascii h cs k : ascii cs -> filter (truth h) (map VInt (cs ++ repeat 0 k)) = map VInt cs.
Proof.
  induction 1 as [|c cs Hc _ IH]; cbn [app map filter].
  - induction k as [|k IHk]; [reflexivity|exact IHk].
  - assert (T : truth h (VInt c) = true) by (cbn; destruct (Z.eqb_spec c 0); [lia|reflexivity]). rewrite T. now f_equal.
Qed.

Lemma scals_int_inv vs : forall zs, scals vs = Some (map WInt zs) -> vs = map VInt zs.
Proof.
  induction vs as [|v vs IH]; intros [|z zs]; cbn; try (destruct (scal v); [destruct (scals vs)|]; discriminate); [reflexivity|discriminate|].
  destruct (scal v) as [w|] eqn:E; [|discriminate]. destruct (scals vs) eqn:E2; [|discriminate]. intros [= -> ->]. f_equal; [destruct v; try discriminate; cbn in E; congruence|auto].
Qed.

(** on a marking that holds an ASCII string followed by zeros, charactersString returns the string and changes nothing *)
Theorem C37_charactersString n s o x cs k : (1 <= n)%nat -> ascii cs -> is_marking (heap s) o x (map WInt (cs ++ repeat 0 k)) ->
  charactersString n o s = (Ok (VStr cs), s).
Proof.
  intros Hn Ha HM. apply marking_iff in HM as (l & at_ & lc & vs & v & -> & Hl & Hx & Hsc & Hc & Hv & Hs). apply scals_int_inv in Hs as ->.
  destruct n as [|n]; [lia|]. unfold charactersString, call_method, bind at 1. unfold resolve, bind at 1, hget. rewrite Hl, lk_chars. unfold ret at 1. cbn [m_kind apply app]. cbn [run m_params m_body]. cbn [bind_args bind_pos bind_rest firstn length Nat.sub combine skipn app].
  assert (GA : get_attr the_prog (run the_prog n) (VRef l) "characters" s = (Ok (VRef lc), s)) by (unfold get_attr, bind, hget; rewrite Hl, lk_c2, Hc; reflexivity).
  cbn [run_block exec eval eval_list assoc String.eqb Ascii.eqb Bool.eqb]. unfold bind, ret. rewrite GA. cbn [builtin_val iter_vals]. unfold bind, hget, ret. rewrite Hv.
  rewrite filter_ascii by exact Ha. cbn [iter_vals]. unfold ret. rewrite bytes_ascii by exact Ha. cbn [resolve String.eqb Ascii.eqb Bool.eqb]. unfold ret. cbn [apply native lit_val]. rewrite utf8_ascii by exact Ha. reflexivity.
Qed.

Lemma firstn_repeat {A} (x : A) m : forall k, (k <= m)%nat -> firstn k (repeat x m) = repeat x k.
Proof. induction m as [|m IH]; intros [|k] H; cbn; try reflexivity; try lia. f_equal. apply IH. lia. Qed.

Lemma marking_split cs : marking cs = firstn 11 cs ++ repeat 0 (11 - length cs).
Proof. unfold marking. rewrite firstn_app. f_equal. apply firstn_repeat. lia. Qed.

Lemma value_marking z zs : 0 <= z <= 255 -> length zs = 11%nat -> Forall (fun c => -128 <= c <= 127) zs ->
  value_of w_EntityMarking [("characterSet", WInt z); ("characters", WList (map WInt zs))].
Proof.
  intros Hz HL HF. split; [reflexivity|]. unfold w_EntityMarking, lay, fold_right. cbn [typed field assoc String.eqb Ascii.eqb Bool.eqb].
  split; [|split; [|exact I]].
  - eexists. split; [reflexivity|]. unfold fits, u8. change (lo 1 false) with 0. change (hi 1 false) with 256. lia.
  - eexists. split; [reflexivity|]. rewrite map_length. split; [exact HL|]. apply Forall_map. eapply Forall_impl; [|exact HF]. cbv beta. intros c Hc. unfold fits, i8. change (lo 1 true) with (-128). change (hi 1 true) with 128. lia.
Qed.

(** any string whose first eleven characters are ASCII: it is returned, also after serialising and parsing *)
Theorem C37_round_trip n s o z ws cs : (fuel_ok <= n)%nat -> is_marking (heap s) o (WInt z) ws -> length ws = 11%nat -> 0 <= z <= 255 -> ascii (firstn 11 cs) ->
  exists s1, setString n o cs s = (Ok VNone, s1) /\ charactersString n o s1 = (Ok (VStr (firstn 11 cs)), s1) /\
    exists bs, serialize n o s1 = (Ok VNone, appended s1 bs) /\ length bs = 12%nat /\
      forall s' rest, irest s' = bs ++ rest -> exists o' s'', load the_prog n "EntityMarking" s' = (Ok o', s'') /\ irest s'' = rest /\
        is_marking (heap s'') o' (WInt z) (map WInt (marking cs)) /\ charactersString n o' s'' = (Ok (VStr (firstn 11 cs)), s'').
Proof.
  intros Hn HM HL Hz Ha. assert (Hn1 : (1 <= n)%nat) by (unfold fuel_ok in Hn; lia).
  destruct (C37_setString n s o (WInt z) ws cs Hn1 HM HL) as (s1 & E & M1 & _). exists s1. split; [exact E|]. split.
  { eapply C37_charactersString; [exact Hn1|exact Ha|]. rewrite marking_split in M1. exact M1. }
  assert (HV : value_of w_EntityMarking [("characterSet", WInt z); ("characters", WList (map WInt (marking cs)))]).
  { apply value_marking; [exact Hz|apply marking_length|]. rewrite marking_split. apply Forall_app. split; [eapply Forall_impl; [|exact Ha]; cbv beta; intros c0 Hc0; lia|]. apply Forall_forall. intros y Hy. apply repeat_spec in Hy. rewrite Hy. lia. }
  destruct (C10_round_trip n "EntityMarking" _ s1 o _ Hn w_EM M1 HV) as (bs & S1 & R). exists bs. split; [exact S1|]. split.
  - rewrite (C17_size n "EntityMarking" _ s1 o _ bs Hn w_EM M1 S1). reflexivity.
  - intros s' rest Hi. destruct (R s' rest Hi) as (o' & s'' & A & B & C). exists o', s''. split; [exact A|]. split; [exact C|]. split; [exact B|].
    eapply C37_charactersString; [exact Hn1|exact Ha|]. rewrite marking_split in B. exact B.
Qed.

Lemma enc_idx_bad l : forall k, (exists i c, (i < k)%nat /\ nth_error l i = Some (WInt c) /\ 127 < c) -> length l = k -> (forall x, In x l -> exists c, x = WInt c) ->
  exists b, enc_idx (enc_val i8) l k = (b, Some StructError).
Proof.
  induction l as [|x l IH]; intros [|k] (i & c & Hi & Hc & H1) HL HI; try lia; [discriminate|]. cbn [enc_idx].
  destruct (HI x (or_introl eq_refl)) as (c0 & ->). unfold enc_val at 1, enc_prim, i8. cbn [wint]. change (lo 1 true) with (-128). change (hi 1 true) with 128.
  destruct ((-128 <=? c0) && (c0 <? 128)) eqn:R; [|eexists; reflexivity].
  destruct i as [|i]; [cbn in Hc; injection Hc as ->; apply andb_prop in R as [_ R]; apply Z.ltb_lt in R; lia|].
  destruct (IH k) as (b & E); [exists i, c; cbn in Hc; repeat split; [lia|exact Hc|exact H1]|cbn in HL; lia|intros; apply HI; now right|]. change (PInt 1 true) with i8. rewrite E. eexists. reflexivity.
Qed.

(** a character above 127 among the first eleven: serialize raises struct.error *)
Theorem C37_not_ascii n s o z ws cs : (fuel_ok <= n)%nat -> is_marking (heap s) o (WInt z) ws -> length ws = 11%nat -> 0 <= z <= 255 ->
  (exists c, In c (firstn 11 cs) /\ 127 < c) ->
  exists s1, setString n o cs s = (Ok VNone, s1) /\ fst (serialize n o s1) = Exc StructError.
Proof.
  intros Hn HM HL Hz (c & Hc & H1). assert (Hn1 : (1 <= n)%nat) by (unfold fuel_ok in Hn; lia).
  destruct (C37_setString n s o (WInt z) ws cs Hn1 HM HL) as (s1 & E & M1 & _). exists s1. split; [exact E|].
  rewrite (ser_layout n _ _ o s1 _ Hn w_EM M1).
  destruct (enc_idx_bad (map WInt (marking cs)) 11) as (b & B).
  - apply (In_nth _ _ 0) in Hc as (i & Hi & Hi2). exists i, c. rewrite firstn_length in Hi. split; [lia|]. split; [|exact H1].
    rewrite nth_error_map, marking_split, nth_error_app1 by (rewrite firstn_length; lia). rewrite (nth_error_nth' _ 0) by (rewrite firstn_length; lia). now rewrite Hi2.
  - rewrite map_length. apply marking_length.
  - intros x Hx. apply in_map_iff in Hx as (y & <- & _). eauto.
  - unfold w_EntityMarking, lay, fold_right. cbn [encode field assoc String.eqb Ascii.eqb Bool.eqb]. rewrite B.
    unfold enc_val, enc_prim, u8. cbn [wint]. change (lo 1 false) with 0. change (hi 1 false) with 256. rewrite (proj2 (Z.leb_le _ _)), (proj2 (Z.ltb_lt _ _)) by lia. reflexivity.
Qed.

Example C37_case : exists o s, new the_prog 20 "EntityMarking" [] st0 = (Ok o, s) /\ is_marking (heap s) o (WInt 0) (map WInt (repeat 0 11)) /\
  ascii (firstn 11 (codes "Eye of the storm")) /\ In 233 (firstn 11 [67; 97; 102; 233]).
Proof. do 2 eexists. split; [vm_compute; reflexivity|]. split; [vm_compute; reflexivity|]. split; [cbn; repeat constructor; lia|cbn; auto]. Qed.

Definition all_PropRecord := (C35_round_trip, C35_parse, C36_round_trip, C36_too_long, C37_setString, C37_charactersString, C37_round_trip, C37_not_ascii,
  C39_exact, C39_round_trip_refuted, C39_round_trip_partial).
Print Assumptions all_PropRecord.
