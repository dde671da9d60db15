(** * The captured datagrams of /repo/tests, decoded by the model

    Generated by tools/validate.py from the .raw files and the assertions of the test methods.  These are tests of the
    model (examples on literals), not theorems about the code: they show that the interpreter reads the library the way
    Python does on the inputs that its authors checked. *)
From Coq Require Import ZArith String List Bool.
From Coq Require Import Strings.Byte.
From Verif Require Import Lang Interp Prog Api.
Import ListNotations.
Open Scope string_scope. Open Scope Z_scope. Open Scope list_scope.

(** what an assertion expects: a number (Python's 0 == 0.0), a value, or a float between two others (assertAlmostEqual; from 0: of either sign) *)
Inductive want := Num (z bits : Z) | Is (v : val) | Between (lo hi : Z).
Definition meets (w : want) (v : val) : bool :=
  match w, v with
  | Num z _, VInt z' => z =? z'
  | Num _ b, VFloat b' => (b =? b') || ((b =? 0) && (b' =? 2 ^ 63))
  | Is (VStr a), VStr b => if list_eq_dec Z.eq_dec a b then true else false
  | Is (VBytes a), VBytes b => if list_eq_dec Byte.byte_eq_dec a b then true else false
  | Between lo hi, VFloat b => (lo <=? b) && (b <=? hi) || (lo =? 0) && (2 ^ 63 <=? b) && (b <=? 2 ^ 63 + hi)
  | _, _ => false
  end.
(** e evaluated in the test method, where pdu is bound; n bounds the call depth *)
Definition value (n : nat) (e : expr) (rho : env) : M val := eval the_prog (run the_prog n) e rho.
Definition holds_in (rho : env) (s : st) (c : expr * want) : bool :=
  match fst (value 40 (fst c) rho s) with Ok v => meets (snd c) v | Exc _ => false end.
(** createPdu(data) returns an object of which all the assertions hold *)
Definition passes (data : list byte) (lets : list (string * expr)) (cs : list (expr * want)) : bool :=
  match factory 50 [] data with
  | (Ok pdu, s) =>
      let rho := fold_left (fun r d => match fst (value 40 (snd d) r s) with Ok v => (fst d, v) :: r | Exc _ => r end) lets [("pdu", pdu)] in
      forallb (holds_in rho s) cs
  | _ => false
  end.
(** createPdu(data).serialize writes data again *)
Definition rewrites (data : list byte) : bool :=
  match factory 50 [] data with
  | (Ok pdu, s) => match serialize 50 pdu s with (Ok _, s') => if list_eq_dec Byte.byte_eq_dec (out s') data then true else false | _ => false end
  | _ => false
  end.

(** tests/test_ElectromageneticEmissionPdu.py:16-62 test_parse with tests/ElectromagneticEmissionPdu-single-system.raw *)
Definition raw_ElectromagneticEmissionPdu_single_system : list byte :=
  [x06; x01; x17; x06; xf2; x12; xea; x15; x00; x6c; x00; x00; x00; x17; x00; x01; x00; x02; x00; x17; x00; x01; x00; x08; x00; x01; x00; x00; x14; x01; x01; xf4;
   x6f; xf9; x02; x01; x00; x00; x00; x00; x00; x00; x00; x00; x80; x00; x00; x00; x0f; x01; x00; x00; x50; x06; x1c; x46; x00; x00; x00; x00; x47; x88; xb8; x00;
   x00; x00; x00; x00; x00; x00; x00; x00; x00; x00; x00; x00; x40; x49; x0f; xdb; x3f; x3d; xe4; x4e; x3f; x54; x3b; x67; x3f; x80; x00; x00; x04; x01; x00; x00;
   x00; x00; x00; x00; x00; x17; x00; x01; x00; x01; x00; x00].
Example test_ElectromagneticEmissionPdu_single_system : passes raw_ElectromagneticEmissionPdu_single_system []
  [((Attr (Loc "pdu") "protocolVersion"), Num 6 4618441417868443648);
   ((Attr (Loc "pdu") "exerciseID"), Num 1 4607182418800017408);
   ((Attr (Loc "pdu") "pduType"), Num 23 4627167142146473984);
   ((Attr (Loc "pdu") "protocolFamily"), Num 6 4618441417868443648);
   ((Attr (Loc "pdu") "length"), Num 108 4637300241308057600);
   ((Attr (Attr (Attr (Loc "pdu") "emittingEntityID") "simulationAddress") "site"), Num 23 4627167142146473984);
   ((Attr (Attr (Attr (Loc "pdu") "emittingEntityID") "simulationAddress") "application"), Num 1 4607182418800017408);
   ((Attr (Attr (Loc "pdu") "emittingEntityID") "entityNumber"), Num 2 4611686018427387904);
   ((Attr (Attr (Attr (Loc "pdu") "eventID") "simulationAddress") "site"), Num 23 4627167142146473984);
   ((Attr (Attr (Attr (Loc "pdu") "eventID") "simulationAddress") "application"), Num 1 4607182418800017408);
   ((Attr (Attr (Loc "pdu") "eventID") "eventNumber"), Num 8 4620693217682128896);
   ((Attr (Loc "pdu") "stateUpdateIndicator"), Num 0 0);
   ((Attr (Loc "pdu") "numberOfSystems"), Num 1 4607182418800017408);
   ((Attr (Loc "pdu") "paddingForEmissionsPdu"), Num 0 0);
   ((Attr (Sub (Attr (Loc "pdu") "systems") (Lit (LInt 0))) "numberOfBeams"), Num 1 4607182418800017408);
   ((Attr (Attr (Sub (Attr (Loc "pdu") "systems") (Lit (LInt 0))) "location") "x"), Num 0 0);
   ((Attr (Attr (Sub (Attr (Loc "pdu") "systems") (Lit (LInt 0))) "location") "y"), Num 0 0);
   ((Attr (Attr (Sub (Attr (Loc "pdu") "systems") (Lit (LInt 0))) "location") "z"), Num 0 0);
   ((Attr (Sub (Attr (Sub (Attr (Loc "pdu") "systems") (Lit (LInt 0))) "beamRecords") (Lit (LInt 0))) "beamDataLength"), Num 15 4624633867356078080);
   ((Attr (Sub (Attr (Sub (Attr (Loc "pdu") "systems") (Lit (LInt 0))) "beamRecords") (Lit (LInt 0))) "beamIDNumber"), Num 1 4607182418800017408);
   ((Attr (Sub (Attr (Sub (Attr (Loc "pdu") "systems") (Lit (LInt 0))) "beamRecords") (Lit (LInt 0))) "beamParameterIndex"), Num 0 0);
   ((Attr (Attr (Sub (Attr (Sub (Attr (Loc "pdu") "systems") (Lit (LInt 0))) "beamRecords") (Lit (LInt 0))) "fundamentalParameterData") "frequencyRange"), Num 0 0);
   ((Attr (Attr (Sub (Attr (Sub (Attr (Loc "pdu") "systems") (Lit (LInt 0))) "beamRecords") (Lit (LInt 0))) "fundamentalParameterData") "effectiveRadiatedPower"), Num 70000 4679546776582094848);
   ((Attr (Attr (Sub (Attr (Sub (Attr (Loc "pdu") "systems") (Lit (LInt 0))) "beamRecords") (Lit (LInt 0))) "fundamentalParameterData") "pulseRepetitionFrequency"), Num 0 0);
   ((Attr (Attr (Sub (Attr (Sub (Attr (Loc "pdu") "systems") (Lit (LInt 0))) "beamRecords") (Lit (LInt 0))) "fundamentalParameterData") "pulseWidth"), Num 0 0);
   ((Attr (Attr (Sub (Attr (Sub (Attr (Loc "pdu") "systems") (Lit (LInt 0))) "beamRecords") (Lit (LInt 0))) "fundamentalParameterData") "beamAzimuthCenter"), Num 0 0);
   ((Attr (Attr (Sub (Attr (Sub (Attr (Loc "pdu") "systems") (Lit (LInt 0))) "beamRecords") (Lit (LInt 0))) "fundamentalParameterData") "beamSweepSync"), Num 1 4607182418800017408);
   ((Attr (Sub (Attr (Sub (Attr (Loc "pdu") "systems") (Lit (LInt 0))) "beamRecords") (Lit (LInt 0))) "beamFunction"), Num 4 4616189618054758400);
   ((Attr (Sub (Attr (Sub (Attr (Loc "pdu") "systems") (Lit (LInt 0))) "beamRecords") (Lit (LInt 0))) "numberOfTargetsInTrackJam"), Num 1 4607182418800017408);
   ((Attr (Sub (Attr (Sub (Attr (Loc "pdu") "systems") (Lit (LInt 0))) "beamRecords") (Lit (LInt 0))) "highDensityTrackJam"), Num 0 0);
   ((Attr (Sub (Attr (Sub (Attr (Loc "pdu") "systems") (Lit (LInt 0))) "beamRecords") (Lit (LInt 0))) "jammingModeSequence"), Num 0 0);
   ((Attr (Attr (Attr (Sub (Attr (Sub (Attr (Sub (Attr (Loc "pdu") "systems") (Lit (LInt 0))) "beamRecords") (Lit (LInt 0))) "trackJamRecords") (Lit (LInt 0))) "entityID") "simulationAddress") "site"), Num 23 4627167142146473984);
   ((Attr (Attr (Attr (Sub (Attr (Sub (Attr (Sub (Attr (Loc "pdu") "systems") (Lit (LInt 0))) "beamRecords") (Lit (LInt 0))) "trackJamRecords") (Lit (LInt 0))) "entityID") "simulationAddress") "application"), Num 1 4607182418800017408);
   ((Attr (Attr (Sub (Attr (Sub (Attr (Sub (Attr (Loc "pdu") "systems") (Lit (LInt 0))) "beamRecords") (Lit (LInt 0))) "trackJamRecords") (Lit (LInt 0))) "entityID") "entityNumber"), Num 1 4607182418800017408);
   ((Attr (Sub (Attr (Sub (Attr (Sub (Attr (Loc "pdu") "systems") (Lit (LInt 0))) "beamRecords") (Lit (LInt 0))) "trackJamRecords") (Lit (LInt 0))) "emitterNumber"), Num 0 0);
   ((Attr (Sub (Attr (Sub (Attr (Sub (Attr (Loc "pdu") "systems") (Lit (LInt 0))) "beamRecords") (Lit (LInt 0))) "trackJamRecords") (Lit (LInt 0))) "beamNumber"), Num 0 0)] = true.
Proof. vm_compute. reflexivity. Qed.

(** tests/test_EntityStatePdu.py:16-79 test_parse with tests/EntityStatePdu-26.raw *)
Definition raw_EntityStatePdu_26 : list byte :=
  [x06; x07; x01; x01; x00; x1e; x91; xe2; x00; x90; x00; x00; x00; x2a; x00; x04; x00; x1a; x01; x00; x01; x01; x00; x27; x07; x02; x01; x00; x01; x01; x00; x27;
   x07; x02; x01; x00; x00; x00; x00; x00; x00; x00; x00; x00; x00; x00; x00; x00; x41; x50; xaf; x90; xb3; x82; xc2; x4a; x41; x39; x72; x5f; xf5; x11; xae; xdc;
   x41; x50; x79; x13; x17; x9c; x1a; x08; x3f; xf7; xaf; xa1; x80; x00; x00; x00; xc0; x14; x6e; x60; x00; x20; x00; x00; x02; x00; x00; x00; x00; x00; x00; x00;
   x00; x00; x00; x00; x00; x00; x00; x00; x00; x00; x00; x00; x00; x00; x00; x00; x00; x00; x00; x00; x00; x00; x00; x00; x00; x00; x00; x00; x00; x00; x00; x00;
   x01; x32; x36; x00; x00; x00; x00; x00; x00; x00; x00; x00; x00; x00; x00; x00].
Example test_EntityStatePdu_26 : passes raw_EntityStatePdu_26 []
  [((Attr (Loc "pdu") "protocolVersion"), Num 6 4618441417868443648);
   ((Attr (Loc "pdu") "exerciseID"), Num 7 4619567317775286272);
   ((Attr (Loc "pdu") "pduType"), Num 1 4607182418800017408);
   ((Attr (Loc "pdu") "protocolFamily"), Num 1 4607182418800017408);
   ((Attr (Loc "pdu") "length"), Num 144 4639270566145032192);
   ((Attr (Loc "pdu") "padding"), Num 0 0);
   ((Attr (Attr (Attr (Loc "pdu") "entityID") "simulationAddress") "site"), Num 42 4631107791820423168);
   ((Attr (Attr (Attr (Loc "pdu") "entityID") "simulationAddress") "application"), Num 4 4616189618054758400);
   ((Attr (Attr (Loc "pdu") "entityID") "entityNumber"), Num 26 4628011567076605952);
   ((Attr (Loc "pdu") "forceId"), Num 1 4607182418800017408);
   ((Attr (Loc "pdu") "numberOfVariableParameters"), Num 0 0);
   ((Attr (Attr (Loc "pdu") "entityType") "entityKind"), Num 1 4607182418800017408);
   ((Attr (Attr (Loc "pdu") "entityType") "domain"), Num 1 4607182418800017408);
   ((Attr (Attr (Loc "pdu") "entityType") "country"), Num 39 4630685579355357184);
   ((Attr (Attr (Loc "pdu") "entityType") "category"), Num 7 4619567317775286272);
   ((Attr (Attr (Loc "pdu") "entityType") "subcategory"), Num 2 4611686018427387904);
   ((Attr (Attr (Loc "pdu") "entityType") "specific"), Num 1 4607182418800017408);
   ((Attr (Attr (Loc "pdu") "entityType") "extra"), Num 0 0);
   ((Attr (Attr (Loc "pdu") "alternativeEntityType") "entityKind"), Num 1 4607182418800017408);
   ((Attr (Attr (Loc "pdu") "alternativeEntityType") "domain"), Num 1 4607182418800017408);
   ((Attr (Attr (Loc "pdu") "alternativeEntityType") "country"), Num 39 4630685579355357184);
   ((Attr (Attr (Loc "pdu") "alternativeEntityType") "category"), Num 7 4619567317775286272);
   ((Attr (Attr (Loc "pdu") "alternativeEntityType") "subcategory"), Num 2 4611686018427387904);
   ((Attr (Attr (Loc "pdu") "alternativeEntityType") "specific"), Num 1 4607182418800017408);
   ((Attr (Attr (Loc "pdu") "alternativeEntityType") "extra"), Num 0 0);
   ((Attr (Attr (Loc "pdu") "entityLinearVelocity") "x"), Num 0 0);
   ((Attr (Attr (Loc "pdu") "entityLinearVelocity") "y"), Num 0 0);
   ((Attr (Attr (Loc "pdu") "entityLinearVelocity") "z"), Num 0 0);
   ((Attr (Attr (Loc "pdu") "entityLocation") "x"), Between 4706454646624010769 4706454646624010877);
   ((Attr (Attr (Loc "pdu") "entityLocation") "y"), Between 4699913442596859389 4699913442596859819);
   ((Attr (Attr (Loc "pdu") "entityLocation") "z"), Between 4706394733509614033 4706394733509614141);
   ((Attr (Attr (Loc "pdu") "entityOrientation") "psi"), Between 4611393487113592053 4611393532149588327);
   ((Attr (Attr (Loc "pdu") "entityOrientation") "theta"), Between 0 4497644614860975944);
   ((Attr (Attr (Loc "pdu") "entityOrientation") "phi"), Between 13835776908595685523 13835776931113683659);
   ((Meth (Attr (Loc "pdu") "marking") "charactersString" [] []), Is (VStr [50; 54]))] = true.
Proof. vm_compute. reflexivity. Qed.

(** tests/test_SetDataPdu.py:16-33 test_parse with tests/SetDataPdu-vbs-script-cmd.raw *)
Definition raw_SetDataPdu_vbs_script_cmd : list byte :=
  [x06; x01; x13; x05; x00; x00; x00; x00; x00; x38; x00; x00; x00; x00; x00; x00; x00; x00; x00; x00; x00; x00; x00; x00; x00; x00; x00; x09; x00; x00; x00; x00;
   x00; x00; x00; x00; x00; x00; x00; x01; x00; x00; x00; x01; x00; x00; x00; x40; x61; x6c; x6c; x75; x6e; x69; x74; x73].
Example test_SetDataPdu_vbs_script_cmd : passes raw_SetDataPdu_vbs_script_cmd [("datum", (Sub (Attr (Loc "pdu") "variableDatumRecords") (Lit (LInt 0))))]
  [((Attr (Loc "pdu") "protocolVersion"), Num 6 4618441417868443648);
   ((Attr (Loc "pdu") "exerciseID"), Num 1 4607182418800017408);
   ((Attr (Loc "pdu") "pduType"), Num 19 4626041242239631360);
   ((Attr (Loc "pdu") "protocolFamily"), Num 5 4617315517961601024);
   ((Attr (Loc "pdu") "timestamp"), Num 0 0);
   ((Attr (Loc "pdu") "length"), Num 56 4633078116657397760);
   ((Attr (Loc "pdu") "numberOfFixedDatumRecords"), Num 0 0);
   ((Attr (Loc "pdu") "numberOfVariableDatumRecords"), Num 1 4607182418800017408);
   ((Builtin BLen [(Attr (Loc "pdu") "fixedDatumRecords")]), Num 0 0);
   ((Builtin BLen [(Attr (Loc "pdu") "variableDatumRecords")]), Num 1 4607182418800017408);
   ((Attr (Loc "datum") "variableDatumID"), Num 1 4607182418800017408);
   ((Attr (Loc "datum") "variableDatumLength"), Num 64 4634204016564240384);
   ((Builtin BBytes [(Attr (Loc "datum") "variableData")]), Is (VBytes [x61; x6c; x6c; x75; x6e; x69; x74; x73]))] = true.
Proof. vm_compute. reflexivity. Qed.

(** tests/test_SetDataPdu.py:35-40 test_parse_multi_variable_datums with tests/SetDataPdu-multi-variable-datums.raw *)
Definition raw_SetDataPdu_multi_variable_datums : list byte :=
  [x06; x01; x13; x05; x00; x00; x00; x00; x00; x70; x00; x00; x00; x00; x00; x00; x00; x00; x00; x00; x00; x00; x00; x00; x00; x00; x00; x01; x00; x00; x00; x00;
   x00; x00; x00; x00; x00; x00; x00; x03; x00; x00; x00; x01; x00; x00; x00; x68; x76; x65; x72; x73; x69; x6f; x6e; x4e; x75; x6d; x62; x65; x72; x00; x00; x00;
   x00; x00; x00; x01; x00; x00; x00; x68; x76; x65; x72; x73; x69; x6f; x6e; x4e; x75; x6d; x62; x65; x72; x00; x00; x00; x00; x00; x00; x01; x00; x00; x00; x68;
   x76; x65; x72; x73; x69; x6f; x6e; x4e; x75; x6d; x62; x65; x72; x00; x00; x00].
Example test_SetDataPdu_multi_variable_datums : passes raw_SetDataPdu_multi_variable_datums []
  [((Attr (Loc "pdu") "length"), Num 112 4637581716284768256);
   ((Attr (Loc "pdu") "numberOfVariableDatumRecords"), Num 3 4613937818241073152);
   ((Builtin BLen [(Attr (Loc "pdu") "variableDatumRecords")]), Num 3 4613937818241073152)] = true.
Proof. vm_compute. reflexivity. Qed.

(** tests/test_SignalPdu.py:17-43 test_parse_and_serialize with tests/SignalPdu.raw *)
Definition raw_SignalPdu : list byte :=
  [x06; x01; x1a; x04; x1c; x30; xee; xfc; x04; x20; x00; x00; x06; x8d; x06; x8e; x00; xa9; x00; x01; x00; x04; x00; x00; x00; x00; x56; x22; x20; x00; x02; x00;
   x45; x80; x44; x00; x43; x00; x42; x80; x42; x00; x40; x80; x3f; x80; x40; x00; x3f; x80; x3f; x00; x3f; x80; x41; x00; x41; x80; x44; x00; x45; x00; x45; x80;
   x45; x80; x44; x80; x45; x00; x43; x80; x41; x80; x40; x00; x3f; x00; x3e; x80; x3e; x00; x3e; x00; x3f; x00; x3e; x80; x3f; x80; x3f; x80; x3f; x80; x40; x80;
   x40; x00; x40; x80; x40; x80; x3e; x80; x3c; x00; x3b; x00; x38; x80; x36; x80; x36; x80; x36; x00; x36; x00; x37; x00; x39; x80; x3a; x00; x3a; x80; x3c; x80;
   x3e; x00; x3e; x80; x3e; x00; x3f; x00; x3f; x80; x3f; x80; x3e; x80; x3e; x00; x3d; x00; x3c; x00; x3c; x80; x3d; x80; x3f; x00; x40; x00; x41; x80; x43; x00;
   x45; x00; x45; x80; x44; x00; x43; x80; x43; x00; x42; x80; x41; x00; x3f; x00; x3e; x80; x3e; x00; x3e; x80; x3d; x00; x3c; x80; x3d; x80; x3e; x80; x3f; x00;
   x3f; x80; x3f; x00; x3d; x00; x3c; x00; x3b; x00; x39; x00; x36; x00; x34; x80; x35; x80; x37; x00; x37; x80; x39; x00; x39; x80; x3a; x00; x3a; x80; x3b; x80;
   x3c; x80; x3d; x00; x3c; x80; x3b; x80; x3b; x00; x39; x00; x39; x00; x3b; x00; x3b; x80; x3b; x80; x3b; x80; x3c; x80; x3d; x80; x40; x00; x41; x80; x42; x00;
   x41; x80; x3f; x80; x3e; x00; x40; x00; x42; x00; x42; x00; x41; x80; x40; x80; x40; x00; x41; x80; x43; x00; x44; x00; x44; x00; x43; x80; x44; x80; x43; x80;
   x42; x00; x42; x80; x45; x80; x46; x80; x46; x80; x43; x80; x41; x80; x44; x00; x48; x80; x4b; x80; x4a; x00; x46; x00; x44; x80; x45; x80; x49; x80; x4b; x00;
   x4b; x00; x4a; x80; x49; x80; x48; x80; x46; x80; x48; x00; x4a; x00; x4d; x00; x4c; x80; x48; x00; x45; x00; x45; x00; x47; x00; x49; x00; x49; x00; x47; x00;
   x44; x00; x42; x80; x44; x00; x45; x80; x46; x00; x44; x00; x42; x80; x41; x00; x40; x80; x41; x80; x43; x00; x43; x00; x41; x80; x3f; x80; x3e; x00; x3e; x00;
   x40; x00; x41; x80; x41; x80; x3f; x00; x3c; x00; x3c; x00; x3c; x80; x3d; x80; x3e; x00; x3c; x00; x3a; x00; x39; x80; x3a; x80; x3c; x80; x3d; x00; x3e; x00;
   x3e; x80; x3e; x00; x3e; x00; x3e; x80; x40; x00; x41; x00; x42; x00; x41; x80; x3f; x80; x3e; x80; x3e; x80; x3f; x80; x41; x80; x41; x80; x41; x00; x40; x80;
   x41; x80; x42; x00; x43; x80; x44; x00; x44; x00; x44; x00; x44; x00; x43; x00; x43; x00; x43; x00; x43; x80; x43; x80; x43; x00; x42; x80; x41; x80; x41; x80;
   x42; x00; x43; x00; x43; x80; x43; x00; x41; x80; x41; x00; x40; x00; x3f; x80; x3e; x00; x3e; x80; x3f; x00; x3e; x00; x3e; x00; x3d; x00; x3c; x00; x3d; x00;
   x3d; x80; x3d; x00; x3d; x00; x3b; x80; x3b; x00; x3b; x00; x3c; x00; x3c; x00; x3b; x80; x3b; x80; x3b; x80; x3b; x80; x3c; x00; x3d; x00; x3e; x00; x3e; x00;
   x3e; x80; x3e; x80; x3e; x80; x3f; x80; x3f; x80; x3f; x80; x3f; x00; x40; x00; x3f; x00; x3f; x80; x3f; x80; x40; x00; x40; x00; x3f; x80; x3f; x00; x3e; x80;
   x3d; x80; x3e; x00; x3c; x00; x3b; x80; x3d; x00; x3e; x00; x3e; x80; x3e; x00; x3e; x80; x3e; x80; x3e; x00; x3d; x80; x3e; x80; x3f; x00; x3f; x80; x3e; x80;
   x3e; x80; x3e; x80; x40; x00; x40; x00; x40; x80; x41; x80; x42; x80; x43; x80; x44; x00; x45; x80; x46; x00; x46; x00; x45; x80; x45; x80; x46; x00; x46; x00;
   x46; x80; x46; x80; x46; x00; x46; x00; x47; x80; x47; x80; x47; x00; x46; x80; x47; x80; x47; x80; x46; x00; x45; x00; x45; x00; x46; x00; x44; x80; x42; x00;
   x40; x80; x41; x00; x42; x00; x42; x00; x40; x80; x3f; x80; x3f; x80; x40; x00; x40; x00; x3f; x00; x3e; x80; x3e; x80; x3e; x80; x3d; x80; x3c; x00; x3c; x00;
   x3c; x80; x3c; x80; x3b; x00; x3b; x80; x3c; x00; x3c; x00; x3e; x80; x3d; x80; x3c; x80; x3b; x00; x3c; x00; x3d; x80; x3d; x00; x3c; x00; x3c; x00; x3c; x00;
   x3b; x80; x3b; x00; x3d; x80; x3f; x80; x40; x80; x3e; x80; x3d; x00; x3f; x80; x42; x80; x42; x80; x41; x00; x3e; x80; x40; x00; x42; x80; x43; x00; x40; x00;
   x3e; x00; x40; x00; x43; x80; x43; x80; x40; x80; x3e; x00; x3e; x80; x42; x80; x44; x80; x41; x80; x3e; x80; x3e; x80; x41; x00; x42; x80; x40; x80; x3e; x80;
   x40; x80; x42; x80; x42; x80; x40; x80; x41; x00; x42; x80; x43; x00; x43; x00; x41; x80; x41; x80; x41; x00; x43; x00; x44; x00; x42; x80; x3f; x80; x40; x00;
   x42; x80; x44; x00; x44; x80; x43; x80; x42; x80; x42; x00; x42; x00; x42; x80; x42; x80; x43; x00; x42; x80; x42; x00; x40; x00; x3d; x80; x3f; x00; x42; x00;
   x44; x00; x43; x80; x41; x00; x40; x00; x40; x00; x41; x00; x42; x80; x43; x00; x42; x00; x41; x00; x40; x80; x40; x00; x40; x80; x41; x80; x42; x00; x42; x00;
   x41; x80; x41; x00; x40; x00; x42; x00; x43; x00; x42; x00; x41; x00; x3f; x80; x3f; x00; x40; x00; x41; x00; x41; x00; x3e; x80; x3d; x80; x3e; x00; x3e; x80;
   x3e; x80; x3e; x80; x3e; x00; x3d; x80; x3d; x80; x3d; x00; x3d; x00; x3c; x80; x3d; x00; x3d; x80; x3d; x80; x3c; x00; x3b; x00; x3c; x80; x3d; x80; x3e; x00;
   x3c; x80; x3c; x00; x3c; x00; x3c; x00; x3b; x80; x3a; x80; x3a; x00; x3a; x00; x39; x00; x39; x00; x39; x80; x38; x80; x39; x80; x3a; x00; x39; x80; x38; x80;
   x38; x80; x38; x80; x38; x80; x38; x00; x37; x80; x37; x80; x37; x00; x38; x00; x38; x80; x39; x00; x38; x80; x38; x80; x3a; x00; x3b; x00; x3b; x80; x3a; x00;
   x39; x80; x3b; x80; x3b; x80; x3a; x00; x39; x80; x3a; x00; x3c; x00; x3c; x80; x3c; x00; x3b; x80; x3b; x80; x3d; x80; x40; x00; x42; x00; x41; x00; x3f; x80].
Example test_SignalPdu : passes raw_SignalPdu []
  [((Attr (Loc "pdu") "protocolVersion"), Num 6 4618441417868443648);
   ((Attr (Loc "pdu") "exerciseID"), Num 1 4607182418800017408);
   ((Attr (Loc "pdu") "pduType"), Num 26 4628011567076605952);
   ((Attr (Loc "pdu") "protocolFamily"), Num 4 4616189618054758400);
   ((Attr (Loc "pdu") "length"), Num 1056 4652359152562077696);
   ((Attr (Attr (Attr (Loc "pdu") "entityID") "simulationAddress") "site"), Num 1677 4655090339445473280);
   ((Attr (Attr (Attr (Loc "pdu") "entityID") "simulationAddress") "application"), Num 1678 4655094737491984384);
   ((Attr (Attr (Loc "pdu") "entityID") "entityNumber"), Num 169 4640150175447252992);
   ((Attr (Loc "pdu") "radioID"), Num 1 4607182418800017408);
   ((Attr (Loc "pdu") "encodingScheme"), Num 4 4616189618054758400);
   ((Attr (Loc "pdu") "tdlType"), Num 0 0);
   ((Attr (Loc "pdu") "sampleRate"), Num 22050 4671790271803949056);
   ((Attr (Loc "pdu") "dataLength"), Num 8192 4665729213955833856);
   ((Attr (Loc "pdu") "samples"), Num 512 4647714815446351872);
   ((Builtin BLen [(Attr (Loc "pdu") "data")]), Num 1024 4652218415073722368)] = true.
Proof. vm_compute. reflexivity. Qed.
Example test_again_SignalPdu : rewrites raw_SignalPdu = true.
Proof. vm_compute. reflexivity. Qed.

(** tests/test_TransmitterPdu.py:16-32 test_parse with tests/TransmitterPdu.raw *)
Definition raw_TransmitterPdu : list byte :=
  [x06; x01; x19; x04; x1b; xe3; xb1; x2c; x00; x68; x00; x00; x06; x8d; x06; x8e; x00; xa9; x00; x01; x07; x00; x00; x00; x01; x00; x00; x00; x02; x00; x00; x00;
   x00; x00; x00; x00; x00; x00; x00; x00; x00; x00; x00; x00; x00; x00; x00; x00; x00; x00; x00; x00; x00; x00; x00; x00; x00; x00; x00; x00; x00; x00; x00; x00;
   x00; x00; x00; x00; x00; x00; x00; x00; x00; x00; x00; x02; x54; x0b; xe4; x00; x46; x9c; x40; x00; x42; x0c; x00; x00; x00; x00; x00; x00; x00; x00; x00; x00;
   x00; x00; x00; x00; x00; x00; x00; x00].
Example test_TransmitterPdu : passes raw_TransmitterPdu []
  [((Attr (Loc "pdu") "protocolVersion"), Num 6 4618441417868443648);
   ((Attr (Loc "pdu") "exerciseID"), Num 1 4607182418800017408);
   ((Attr (Loc "pdu") "pduType"), Num 25 4627730092099895296);
   ((Attr (Loc "pdu") "protocolFamily"), Num 4 4616189618054758400);
   ((Attr (Loc "pdu") "length"), Num 104 4637018766331346944);
   ((Attr (Attr (Attr (Loc "pdu") "radioReferenceID") "simulationAddress") "site"), Num 1677 4655090339445473280);
   ((Attr (Attr (Attr (Loc "pdu") "radioReferenceID") "simulationAddress") "application"), Num 1678 4655094737491984384);
   ((Attr (Attr (Loc "pdu") "radioReferenceID") "entityNumber"), Num 169 4640150175447252992);
   ((Attr (Loc "pdu") "radioNumber"), Num 1 4607182418800017408);
   ((Attr (Loc "pdu") "transmitState"), Num 2 4611686018427387904);
   ((Attr (Loc "pdu") "frequency"), Num 10000000000 4756540486875873280);
   ((Attr (Loc "pdu") "transmitFrequencyBandwidth"), Num 20000 4671226772094713856);
   ((Attr (Loc "pdu") "power"), Num 35 4630122629401935872)] = true.
Proof. vm_compute. reflexivity. Qed.
