(* GENERATED by tools/gen.py from the text of /repo; do not edit. *)
From Coq Require Import ZArith String List.
From Verif Require Import Lang.
Import ListNotations.
Open Scope string_scope. Open Scope Z_scope. Open Scope list_scope.

(* opendis/stream.py:27-104  class DataInputStream() *)
Definition c_DataInputStream : cls := mkcls "DataInputStream" ["DataInputStream"]
  [
    (* opendis/stream.py:28-29 *)
    ("__init__", MMeth (mkmeth KNormal false [("self", None); ("stream", None)]
       [SetAttr (Loc "self") "stream" (Loc "stream")]));
    (* opendis/stream.py:31-32 *)
    ("read_boolean", MMeth (mkmeth KNormal false [("self", None)]
       [Return (Sub (Builtin BUnpack [(Lit (LStr "?")); (Meth (Attr (Loc "self") "stream") "read" [(Lit (LInt 1))] [])]) (Lit (LInt 0)))]));
    (* opendis/stream.py:34-35 *)
    ("read_byte", MMeth (mkmeth KNormal false [("self", None)]
       [Return (Sub (Builtin BUnpack [(Lit (LStr "b")); (Meth (Attr (Loc "self") "stream") "read" [(Lit (LInt 1))] [])]) (Lit (LInt 0)))]));
    (* opendis/stream.py:37-38 *)
    ("read_unsigned_byte", MMeth (mkmeth KNormal false [("self", None)]
       [Return (Sub (Builtin BUnpack [(Lit (LStr "B")); (Meth (Attr (Loc "self") "stream") "read" [(Lit (LInt 1))] [])]) (Lit (LInt 0)))]));
    (* opendis/stream.py:40-41 *)
    ("read_char", MMeth (mkmeth KNormal false [("self", None)]
       [Return (Builtin BChr [(Sub (Builtin BUnpack [(Lit (LStr ">H")); (Meth (Attr (Loc "self") "stream") "read" [(Lit (LInt 2))] [])]) (Lit (LInt 0)))])]));
    (* opendis/stream.py:43-44 *)
    ("read_double", MMeth (mkmeth KNormal false [("self", None)]
       [Return (Sub (Builtin BUnpack [(Lit (LStr ">d")); (Meth (Attr (Loc "self") "stream") "read" [(Lit (LInt 8))] [])]) (Lit (LInt 0)))]));
    (* opendis/stream.py:46-47 *)
    ("read_float", MMeth (mkmeth KNormal false [("self", None)]
       [Return (Sub (Builtin BUnpack [(Lit (LStr ">f")); (Meth (Attr (Loc "self") "stream") "read" [(Lit (LInt 4))] [])]) (Lit (LInt 0)))]));
    (* opendis/stream.py:49-50 *)
    ("read_short", MMeth (mkmeth KNormal false [("self", None)]
       [Return (Sub (Builtin BUnpack [(Lit (LStr ">h")); (Meth (Attr (Loc "self") "stream") "read" [(Lit (LInt 2))] [])]) (Lit (LInt 0)))]));
    (* opendis/stream.py:52-53 *)
    ("read_unsigned_short", MMeth (mkmeth KNormal false [("self", None)]
       [Return (Sub (Builtin BUnpack [(Lit (LStr ">H")); (Meth (Attr (Loc "self") "stream") "read" [(Lit (LInt 2))] [])]) (Lit (LInt 0)))]));
    (* opendis/stream.py:55-56 *)
    ("read_long", MMeth (mkmeth KNormal false [("self", None)]
       [Return (Sub (Builtin BUnpack [(Lit (LStr ">q")); (Meth (Attr (Loc "self") "stream") "read" [(Lit (LInt 8))] [])]) (Lit (LInt 0)))]));
    (* opendis/stream.py:58-60 *)
    ("read_utf", MMeth (mkmeth KNormal false [("self", None)]
       [Assign "utf_length" (Sub (Builtin BUnpack [(Lit (LStr ">H")); (Meth (Attr (Loc "self") "stream") "read" [(Lit (LInt 2))] [])]) (Lit (LInt 0)));
       Return (Meth (Attr (Loc "self") "stream") "read" [(Loc "utf_length")] [])]));
    (* opendis/stream.py:62-63 *)
    ("read_int", MMeth (mkmeth KNormal false [("self", None)]
       [Return (Sub (Builtin BUnpack [(Lit (LStr ">i")); (Meth (Attr (Loc "self") "stream") "read" [(Lit (LInt 4))] [])]) (Lit (LInt 0)))]));
    (* opendis/stream.py:65-66 *)
    ("read_unsigned_int", MMeth (mkmeth KNormal false [("self", None)]
       [Return (Sub (Builtin BUnpack [(Lit (LStr ">I")); (Meth (Attr (Loc "self") "stream") "read" [(Lit (LInt 4))] [])]) (Lit (LInt 0)))]));
    (* opendis/stream.py:68-70 *)
    ("read_bytes", MMeth (mkmeth KNormal false [("self", None); ("n", None)]
       [Return (Meth (Attr (Loc "self") "stream") "read" [(Loc "n")] [])]));
    (* opendis/stream.py:73-74 *)
    ("read_char8", MMeth (mkmeth KNormal false [("self", None)]
       [Return (Builtin BStr [(Meth (Loc "self") "read_char" [] [])])]));
    (* opendis/stream.py:76-77 *)
    ("read_float32", MMeth (mkmeth KNormal false [("self", None)]
       [Return (Builtin BFloat [(Meth (Loc "self") "read_float" [] [])])]));
    (* opendis/stream.py:79-80 *)
    ("read_float64", MMeth (mkmeth KNormal false [("self", None)]
       [Return (Builtin BFloat [(Meth (Loc "self") "read_double" [] [])])]));
    (* opendis/stream.py:82-83 *)
    ("read_int8", MMeth (mkmeth KNormal false [("self", None)]
       [Return (Builtin BInt [(Meth (Loc "self") "read_byte" [] [])])]));
    (* opendis/stream.py:85-86 *)
    ("read_int16", MMeth (mkmeth KNormal false [("self", None)]
       [Return (Builtin BInt [(Meth (Loc "self") "read_short" [] [])])]));
    (* opendis/stream.py:88-89 *)
    ("read_int32", MMeth (mkmeth KNormal false [("self", None)]
       [Return (Builtin BInt [(Meth (Loc "self") "read_int" [] [])])]));
    (* opendis/stream.py:91-92 *)
    ("read_int64", MMeth (mkmeth KNormal false [("self", None)]
       [Return (Builtin BInt [(Meth (Loc "self") "read_long" [] [])])]));
    (* opendis/stream.py:94-95 *)
    ("read_uint8", MMeth (mkmeth KNormal false [("self", None)]
       [Return (Builtin BInt [(Meth (Loc "self") "read_unsigned_byte" [] [])])]));
    (* opendis/stream.py:97-98 *)
    ("read_uint16", MMeth (mkmeth KNormal false [("self", None)]
       [Return (Builtin BInt [(Meth (Loc "self") "read_unsigned_short" [] [])])]));
    (* opendis/stream.py:100-101 *)
    ("read_uint32", MMeth (mkmeth KNormal false [("self", None)]
       [Return (Builtin BInt [(Meth (Loc "self") "read_unsigned_int" [] [])])]));
    (* opendis/stream.py:103-104 *)
    ("read_uint64", MMeth (mkmeth KNormal false [("self", None)]
       [Return (Builtin BInt [(Meth (Loc "self") "read_long" [] [])])]))
  ].

(* opendis/stream.py:107-184  class DataOutputStream() *)
Definition c_DataOutputStream : cls := mkcls "DataOutputStream" ["DataOutputStream"]
  [
    (* opendis/stream.py:108-109 *)
    ("__init__", MMeth (mkmeth KNormal false [("self", None); ("stream", None)]
       [SetAttr (Loc "self") "stream" (Loc "stream")]));
    (* opendis/stream.py:111-112 *)
    ("write_boolean", MMeth (mkmeth KNormal false [("self", None); ("boolean", None)]
       [Expr (Meth (Attr (Loc "self") "stream") "write" [(Builtin BPack [(Lit (LStr "?")); (Loc "boolean")])] [])]));
    (* opendis/stream.py:114-115 *)
    ("write_byte", MMeth (mkmeth KNormal false [("self", None); ("val", None)]
       [Expr (Meth (Attr (Loc "self") "stream") "write" [(Builtin BPack [(Lit (LStr "b")); (Loc "val")])] [])]));
    (* opendis/stream.py:117-118 *)
    ("write_unsigned_byte", MMeth (mkmeth KNormal false [("self", None); ("val", None)]
       [Expr (Meth (Attr (Loc "self") "stream") "write" [(Builtin BPack [(Lit (LStr "B")); (Loc "val")])] [])]));
    (* opendis/stream.py:120-121 *)
    ("write_char", MMeth (mkmeth KNormal false [("self", None); ("val", None)]
       [Expr (Meth (Attr (Loc "self") "stream") "write" [(Builtin BPack [(Lit (LStr ">H")); (Builtin BOrd [(Loc "val")])])] [])]));
    (* opendis/stream.py:123-124 *)
    ("write_double", MMeth (mkmeth KNormal false [("self", None); ("val", None)]
       [Expr (Meth (Attr (Loc "self") "stream") "write" [(Builtin BPack [(Lit (LStr ">d")); (Loc "val")])] [])]));
    (* opendis/stream.py:126-127 *)
    ("write_float", MMeth (mkmeth KNormal false [("self", None); ("val", None)]
       [Expr (Meth (Attr (Loc "self") "stream") "write" [(Builtin BPack [(Lit (LStr ">f")); (Loc "val")])] [])]));
    (* opendis/stream.py:129-130 *)
    ("write_short", MMeth (mkmeth KNormal false [("self", None); ("val", None)]
       [Expr (Meth (Attr (Loc "self") "stream") "write" [(Builtin BPack [(Lit (LStr ">h")); (Loc "val")])] [])]));
    (* opendis/stream.py:132-133 *)
    ("write_unsigned_short", MMeth (mkmeth KNormal false [("self", None); ("val", None)]
       [Expr (Meth (Attr (Loc "self") "stream") "write" [(Builtin BPack [(Lit (LStr ">H")); (Loc "val")])] [])]));
    (* opendis/stream.py:135-136 *)
    ("write_long", MMeth (mkmeth KNormal false [("self", None); ("val", None)]
       [Expr (Meth (Attr (Loc "self") "stream") "write" [(Builtin BPack [(Lit (LStr ">q")); (Loc "val")])] [])]));
    (* opendis/stream.py:138-140 *)
    ("write_utf", MMeth (mkmeth KNormal false [("self", None); ("string", None)]
       [Expr (Meth (Attr (Loc "self") "stream") "write" [(Builtin BPack [(Lit (LStr ">H")); (Builtin BLen [(Loc "string")])])] []);
       Expr (Meth (Attr (Loc "self") "stream") "write" [(Loc "string")] [])]));
    (* opendis/stream.py:142-143 *)
    ("write_int", MMeth (mkmeth KNormal false [("self", None); ("val", None)]
       [Expr (Meth (Attr (Loc "self") "stream") "write" [(Builtin BPack [(Lit (LStr ">i")); (Loc "val")])] [])]));
    (* opendis/stream.py:145-146 *)
    ("write_unsigned_int", MMeth (mkmeth KNormal false [("self", None); ("val", None)]
       [Expr (Meth (Attr (Loc "self") "stream") "write" [(Builtin BPack [(Lit (LStr ">I")); (Loc "val")])] [])]));
    (* opendis/stream.py:148-150 *)
    ("write_bytes", MMeth (mkmeth KNormal false [("self", None); ("val", None)]
       [Expr (Meth (Attr (Loc "self") "stream") "write" [(Loc "val")] [])]));
    (* opendis/stream.py:153-154 *)
    ("write_char8", MMeth (mkmeth KNormal false [("self", None); ("val", None)]
       [Expr (Meth (Loc "self") "write_byte" [(Builtin BOrd [(Loc "val")])] [])]));
    (* opendis/stream.py:156-157 *)
    ("write_float32", MMeth (mkmeth KNormal false [("self", None); ("val", None)]
       [Expr (Meth (Loc "self") "write_float" [(Loc "val")] [])]));
    (* opendis/stream.py:159-160 *)
    ("write_float64", MMeth (mkmeth KNormal false [("self", None); ("val", None)]
       [Expr (Meth (Loc "self") "write_double" [(Loc "val")] [])]));
    (* opendis/stream.py:162-163 *)
    ("write_int8", MMeth (mkmeth KNormal false [("self", None); ("val", None)]
       [Expr (Meth (Loc "self") "write_byte" [(Loc "val")] [])]));
    (* opendis/stream.py:165-166 *)
    ("write_int16", MMeth (mkmeth KNormal false [("self", None); ("val", None)]
       [Expr (Meth (Loc "self") "write_short" [(Loc "val")] [])]));
    (* opendis/stream.py:168-169 *)
    ("write_int32", MMeth (mkmeth KNormal false [("self", None); ("val", None)]
       [Expr (Meth (Loc "self") "write_int" [(Loc "val")] [])]));
    (* opendis/stream.py:171-172 *)
    ("write_int64", MMeth (mkmeth KNormal false [("self", None); ("val", None)]
       [Expr (Meth (Loc "self") "write_long" [(Loc "val")] [])]));
    (* opendis/stream.py:174-175 *)
    ("write_uint8", MMeth (mkmeth KNormal false [("self", None); ("val", None)]
       [Expr (Meth (Loc "self") "write_unsigned_byte" [(Loc "val")] [])]));
    (* opendis/stream.py:177-178 *)
    ("write_uint16", MMeth (mkmeth KNormal false [("self", None); ("val", None)]
       [Expr (Meth (Loc "self") "write_unsigned_short" [(Loc "val")] [])]));
    (* opendis/stream.py:180-181 *)
    ("write_uint32", MMeth (mkmeth KNormal false [("self", None); ("val", None)]
       [Expr (Meth (Loc "self") "write_unsigned_int" [(Loc "val")] [])]));
    (* opendis/stream.py:183-184 *)
    ("write_uint64", MMeth (mkmeth KNormal false [("self", None); ("val", None)]
       [Expr (Meth (Attr (Loc "self") "stream") "write" [(Builtin BPack [(Lit (LStr ">Q")); (Loc "val")])] [])]))
  ].

(* opendis/record/base.py:13-26  class Record() *)
Definition c_Record : cls := mkcls "Record" ["Record"]
  [
    (* opendis/record/base.py:17-18 *)
    ("marshalledSize", MMeth (mkmeth KNormal true [("self", None)]
       []));
    (* opendis/record/base.py:21-22 *)
    ("serialize", MMeth (mkmeth KNormal true [("self", None); ("outputStream", None)]
       []));
    (* opendis/record/base.py:25-26 *)
    ("parse", MMeth (mkmeth KNormal true [("self", None); ("inputStream", None)]
       []))
  ].

(* opendis/record/base.py:30-57  class VariableRecord() *)
Definition c_VariableRecord : cls := mkcls "VariableRecord" ["VariableRecord"]
  [
    (* opendis/record/base.py:34-36 *)
    ("is_positive_int", MMeth (mkmeth KStatic false [("value", None)]
       [Return (AndE (Builtin BIsInt [(Loc "value")]) (Cmp CGe (Loc "value") (Lit (LInt 0))))]));
    (* opendis/record/base.py:39-40 *)
    ("marshalledSize", MMeth (mkmeth KNormal true [("self", None)]
       []));
    (* opendis/record/base.py:43-44 *)
    ("serialize", MMeth (mkmeth KNormal true [("self", None); ("outputStream", None)]
       []));
    (* opendis/record/base.py:47-57 *)
    ("parse", MMeth (mkmeth KNormal true [("self", None); ("inputStream", None); ("bytelength", Some (DLit (LNone)))]
       [If (AndE (Cmp CIsNot (Loc "bytelength") (Lit (LNone))) (NotE (Meth (Loc "self") "is_positive_int" [(Loc "bytelength")] []))) [Raise ValueError] []]))
  ].

(* opendis/record/base.py:61-106  class StandardVariableRecord(VariableRecord) *)
Definition c_StandardVariableRecord : cls := mkcls "StandardVariableRecord" ["StandardVariableRecord"; "VariableRecord"]
  [
    (* opendis/record/base.py:75-77 *)
    ("is_positive_int", MMeth (mkmeth KStatic false [("value", None)]
       [Return (AndE (Builtin BIsInt [(Loc "value")]) (Cmp CGe (Loc "value") (Lit (LInt 0))))]));
    (* opendis/record/base.py:80-81 *)
    ("recordLength", MMeth (mkmeth KProperty false [("self", None)]
       [Return (Meth (Loc "self") "marshalledSize" [] [])]));
    (* opendis/record/base.py:84-88 *)
    ("serialize", MMeth (mkmeth KNormal true [("self", None); ("outputStream", None)]
       [Expr (Super "StandardVariableRecord" "serialize" [(Loc "outputStream")] []);
       Expr (Meth (Loc "outputStream") "write_uint32" [(Attr (Loc "self") "recordType")] []);
       Expr (Meth (Loc "outputStream") "write_uint32" [(Attr (Loc "self") "recordLength")] [])]));
    (* opendis/record/base.py:91-106 *)
    ("parse", MMeth (mkmeth KNormal true [("self", None); ("inputStream", None); ("bytelength", None)]
       [Expr (Super "StandardVariableRecord" "parse" [(Loc "inputStream"); (Loc "bytelength")] []);
       If (NotE (Cmp CEq (Bin OMod (Loc "bytelength") (Lit (LInt 8))) (Lit (LInt 0)))) [Raise ValueError] []]))
  ].

(* opendis/record/common.py:32-54  class EntityIdentifier(Record) *)
Definition c_EntityIdentifier : cls := mkcls "EntityIdentifier" ["EntityIdentifier"; "Record"]
  [
    (* opendis/record/common.py:39-43 *)
    ("__init__", MMeth (mkmeth KNormal false [("self", None); ("simulationAddress", Some (DLit (LNone))); ("entityNumber", Some (DLit (LInt 0)))]
       [SetAttr (Loc "self") "simulationAddress" (OrE (Loc "simulationAddress") (CallV (Glob "SimulationAddress") [] []));
       SetAttr (Loc "self") "entityNumber" (Loc "entityNumber")]));
    (* opendis/record/common.py:45-46 *)
    ("marshalledSize", MMeth (mkmeth KNormal false [("self", None)]
       [Return (Bin OAdd (Meth (Attr (Loc "self") "simulationAddress") "marshalledSize" [] []) (Lit (LInt 2)))]));
    (* opendis/record/common.py:48-50 *)
    ("serialize", MMeth (mkmeth KNormal false [("self", None); ("outputStream", None)]
       [Expr (Meth (Attr (Loc "self") "simulationAddress") "serialize" [(Loc "outputStream")] []);
       Expr (Meth (Loc "outputStream") "write_uint16" [(Attr (Loc "self") "entityNumber")] [])]));
    (* opendis/record/common.py:52-54 *)
    ("parse", MMeth (mkmeth KNormal false [("self", None); ("inputStream", None)]
       [Expr (Meth (Attr (Loc "self") "simulationAddress") "parse" [(Loc "inputStream")] []);
       SetAttr (Loc "self") "entityNumber" (Meth (Loc "inputStream") "read_uint16" [] [])]))
  ].

(* opendis/record/common.py:57-85  class EulerAngles(Record) *)
Definition c_EulerAngles : cls := mkcls "EulerAngles" ["EulerAngles"; "Record"]
  [
    (* opendis/record/common.py:66-72 *)
    ("__init__", MMeth (mkmeth KNormal false [("self", None); ("psi", Some (DLit (LFloat 0))); ("theta", Some (DLit (LFloat 0))); ("phi", Some (DLit (LFloat 0)))]
       [SetAttr (Loc "self") "psi" (Loc "psi");
       SetAttr (Loc "self") "theta" (Loc "theta");
       SetAttr (Loc "self") "phi" (Loc "phi")]));
    (* opendis/record/common.py:74-75 *)
    ("marshalledSize", MMeth (mkmeth KNormal false [("self", None)]
       [Return (Lit (LInt 12))]));
    (* opendis/record/common.py:77-80 *)
    ("serialize", MMeth (mkmeth KNormal false [("self", None); ("outputStream", None)]
       [Expr (Meth (Loc "outputStream") "write_float32" [(Attr (Loc "self") "psi")] []);
       Expr (Meth (Loc "outputStream") "write_float32" [(Attr (Loc "self") "theta")] []);
       Expr (Meth (Loc "outputStream") "write_float32" [(Attr (Loc "self") "phi")] [])]));
    (* opendis/record/common.py:82-85 *)
    ("parse", MMeth (mkmeth KNormal false [("self", None); ("inputStream", None)]
       [SetAttr (Loc "self") "psi" (Meth (Loc "inputStream") "read_float32" [] []);
       SetAttr (Loc "self") "theta" (Meth (Loc "inputStream") "read_float32" [] []);
       SetAttr (Loc "self") "phi" (Meth (Loc "inputStream") "read_float32" [] [])]))
  ].

(* opendis/record/common.py:88-112  class EventIdentifier(Record) *)
Definition c_EventIdentifier : cls := mkcls "EventIdentifier" ["EventIdentifier"; "Record"]
  [
    (* opendis/record/common.py:96-101 *)
    ("__init__", MMeth (mkmeth KNormal false [("self", None); ("simulationAddress", Some (DLit (LNone))); ("eventNumber", Some (DLit (LInt 0)))]
       [SetAttr (Loc "self") "simulationAddress" (OrE (Loc "simulationAddress") (CallV (Glob "SimulationAddress") [] []));
       SetAttr (Loc "self") "eventNumber" (Loc "eventNumber")]));
    (* opendis/record/common.py:103-104 *)
    ("marshalledSize", MMeth (mkmeth KNormal false [("self", None)]
       [Return (Bin OAdd (Meth (Attr (Loc "self") "simulationAddress") "marshalledSize" [] []) (Lit (LInt 2)))]));
    (* opendis/record/common.py:106-108 *)
    ("serialize", MMeth (mkmeth KNormal false [("self", None); ("outputStream", None)]
       [Expr (Meth (Attr (Loc "self") "simulationAddress") "serialize" [(Loc "outputStream")] []);
       Expr (Meth (Loc "outputStream") "write_unsigned_short" [(Attr (Loc "self") "eventNumber")] [])]));
    (* opendis/record/common.py:110-112 *)
    ("parse", MMeth (mkmeth KNormal false [("self", None); ("inputStream", None)]
       [Expr (Meth (Attr (Loc "self") "simulationAddress") "parse" [(Loc "inputStream")] []);
       SetAttr (Loc "self") "eventNumber" (Meth (Loc "inputStream") "read_unsigned_short" [] [])]))
  ].

(* opendis/record/common.py:115-139  class SimulationAddress(Record) *)
Definition c_SimulationAddress : cls := mkcls "SimulationAddress" ["SimulationAddress"; "Record"]
  [
    (* opendis/record/common.py:122-128 *)
    ("__init__", MMeth (mkmeth KNormal false [("self", None); ("site", Some (DLit (LInt 0))); ("application", Some (DLit (LInt 0)))]
       [SetAttr (Loc "self") "site" (Loc "site");
       SetAttr (Loc "self") "application" (Loc "application")]));
    (* opendis/record/common.py:130-131 *)
    ("marshalledSize", MMeth (mkmeth KNormal false [("self", None)]
       [Return (Lit (LInt 4))]));
    (* opendis/record/common.py:133-135 *)
    ("serialize", MMeth (mkmeth KNormal false [("self", None); ("outputStream", None)]
       [Expr (Meth (Loc "outputStream") "write_unsigned_short" [(Attr (Loc "self") "site")] []);
       Expr (Meth (Loc "outputStream") "write_unsigned_short" [(Attr (Loc "self") "application")] [])]));
    (* opendis/record/common.py:137-139 *)
    ("parse", MMeth (mkmeth KNormal false [("self", None); ("inputStream", None)]
       [SetAttr (Loc "self") "site" (Meth (Loc "inputStream") "read_unsigned_short" [] []);
       SetAttr (Loc "self") "application" (Meth (Loc "inputStream") "read_unsigned_short" [] [])]))
  ].

(* opendis/record/common.py:142-168  class Vector3Float(Record) *)
Definition c_Vector3Float : cls := mkcls "Vector3Float" ["Vector3Float"; "Record"]
  [
    (* opendis/record/common.py:152-155 *)
    ("__init__", MMeth (mkmeth KNormal false [("self", None); ("x", Some (DLit (LFloat 0))); ("y", Some (DLit (LFloat 0))); ("z", Some (DLit (LFloat 0)))]
       [SetAttr (Loc "self") "x" (Loc "x");
       SetAttr (Loc "self") "y" (Loc "y");
       SetAttr (Loc "self") "z" (Loc "z")]));
    (* opendis/record/common.py:157-158 *)
    ("marshalledSize", MMeth (mkmeth KNormal false [("self", None)]
       [Return (Lit (LInt 12))]));
    (* opendis/record/common.py:160-163 *)
    ("serialize", MMeth (mkmeth KNormal false [("self", None); ("outputStream", None)]
       [Expr (Meth (Loc "outputStream") "write_float" [(Attr (Loc "self") "x")] []);
       Expr (Meth (Loc "outputStream") "write_float" [(Attr (Loc "self") "y")] []);
       Expr (Meth (Loc "outputStream") "write_float" [(Attr (Loc "self") "z")] [])]));
    (* opendis/record/common.py:165-168 *)
    ("parse", MMeth (mkmeth KNormal false [("self", None); ("inputStream", None)]
       [SetAttr (Loc "self") "x" (Meth (Loc "inputStream") "read_float" [] []);
       SetAttr (Loc "self") "y" (Meth (Loc "inputStream") "read_float" [] []);
       SetAttr (Loc "self") "z" (Meth (Loc "inputStream") "read_float" [] [])]))
  ].

(* opendis/record/common.py:171-196  class WorldCoordinates(Record) *)
Definition c_WorldCoordinates : cls := mkcls "WorldCoordinates" ["WorldCoordinates"; "Record"]
  [
    (* opendis/record/common.py:180-183 *)
    ("__init__", MMeth (mkmeth KNormal false [("self", None); ("x", Some (DLit (LFloat 0))); ("y", Some (DLit (LFloat 0))); ("z", Some (DLit (LFloat 0)))]
       [SetAttr (Loc "self") "x" (Loc "x");
       SetAttr (Loc "self") "y" (Loc "y");
       SetAttr (Loc "self") "z" (Loc "z")]));
    (* opendis/record/common.py:185-186 *)
    ("marshalledSize", MMeth (mkmeth KNormal false [("self", None)]
       [Return (Lit (LInt 24))]));
    (* opendis/record/common.py:188-191 *)
    ("serialize", MMeth (mkmeth KNormal false [("self", None); ("outputStream", None)]
       [Expr (Meth (Loc "outputStream") "write_float64" [(Attr (Loc "self") "x")] []);
       Expr (Meth (Loc "outputStream") "write_float64" [(Attr (Loc "self") "y")] []);
       Expr (Meth (Loc "outputStream") "write_float64" [(Attr (Loc "self") "z")] [])]));
    (* opendis/record/common.py:193-196 *)
    ("parse", MMeth (mkmeth KNormal false [("self", None); ("inputStream", None)]
       [SetAttr (Loc "self") "x" (Meth (Loc "inputStream") "read_float64" [] []);
       SetAttr (Loc "self") "y" (Meth (Loc "inputStream") "read_float64" [] []);
       SetAttr (Loc "self") "z" (Meth (Loc "inputStream") "read_float64" [] [])]))
  ].

(* opendis/record/radio/__init__.py:41-45  class AntennaPatternRecord(VariableRecord) *)
Definition c_AntennaPatternRecord : cls := mkcls "AntennaPatternRecord" ["AntennaPatternRecord"; "VariableRecord"]
  [

  ].

(* opendis/record/radio/__init__.py:48-53  class ModulationParametersRecord(VariableRecord) *)
Definition c_ModulationParametersRecord : cls := mkcls "ModulationParametersRecord" ["ModulationParametersRecord"; "VariableRecord"]
  [

  ].

(* opendis/record/radio/__init__.py:58-77  class UnknownRadio(ModulationParametersRecord) *)
Definition c_UnknownRadio : cls := mkcls "UnknownRadio" ["UnknownRadio"; "ModulationParametersRecord"; "VariableRecord"]
  [
    (* opendis/record/radio/__init__.py:61-62 *)
    ("__init__", MMeth (mkmeth KNormal false [("self", None); ("data", Some (DLit (LBytes [])))]
       [SetAttr (Loc "self") "data" (Loc "data")]));
    (* opendis/record/radio/__init__.py:64-65 *)
    ("marshalledSize", MMeth (mkmeth KNormal false [("self", None)]
       [Return (Builtin BLen [(Attr (Loc "self") "data")])]));
    (* opendis/record/radio/__init__.py:67-69 *)
    ("serialize", MMeth (mkmeth KNormal false [("self", None); ("outputStream", None)]
       [Expr (Super "UnknownRadio" "serialize" [(Loc "outputStream")] []);
       Expr (Meth (Loc "outputStream") "write_bytes" [(Attr (Loc "self") "data")] [])]));
    (* opendis/record/radio/__init__.py:71-77 *)
    ("parse", MMeth (mkmeth KNormal false [("self", None); ("inputStream", None); ("bytelength", Some (DLit (LNone)))]
       [Expr (Super "UnknownRadio" "parse" [(Loc "inputStream"); (Loc "bytelength")] []);
       Assert (Builtin BIsInt [(Loc "bytelength")]);
       SetAttr (Loc "self") "data" (Meth (Loc "inputStream") "read_bytes" [(Loc "bytelength")] [])]))
  ].

(* opendis/record/radio/__init__.py:80-99  class UnknownAntennaPattern(AntennaPatternRecord) *)
Definition c_UnknownAntennaPattern : cls := mkcls "UnknownAntennaPattern" ["UnknownAntennaPattern"; "AntennaPatternRecord"; "VariableRecord"]
  [
    (* opendis/record/radio/__init__.py:83-84 *)
    ("__init__", MMeth (mkmeth KNormal false [("self", None); ("data", Some (DLit (LBytes [])))]
       [SetAttr (Loc "self") "data" (Loc "data")]));
    (* opendis/record/radio/__init__.py:86-87 *)
    ("marshalledSize", MMeth (mkmeth KNormal false [("self", None)]
       [Return (Builtin BLen [(Attr (Loc "self") "data")])]));
    (* opendis/record/radio/__init__.py:89-91 *)
    ("serialize", MMeth (mkmeth KNormal false [("self", None); ("outputStream", None)]
       [Expr (Super "UnknownAntennaPattern" "serialize" [(Loc "outputStream")] []);
       Expr (Meth (Loc "outputStream") "write_bytes" [(Attr (Loc "self") "data")] [])]));
    (* opendis/record/radio/__init__.py:93-99 *)
    ("parse", MMeth (mkmeth KNormal false [("self", None); ("inputStream", None); ("bytelength", None)]
       [Expr (Super "UnknownAntennaPattern" "parse" [(Loc "inputStream"); (Loc "bytelength")] []);
       SetAttr (Loc "self") "data" (Meth (Loc "inputStream") "read_bytes" [(Bin OSub (Loc "bytelength") (Lit (LInt 6)))] [])]))
  ].

(* opendis/record/radio/__init__.py:104-164  class BeamAntennaPattern(AntennaPatternRecord) *)
Definition c_BeamAntennaPattern : cls := mkcls "BeamAntennaPattern" ["BeamAntennaPattern"; "AntennaPatternRecord"; "VariableRecord"]
  [
    (* opendis/record/radio/__init__.py:111-132 *)
    ("__init__", MMeth (mkmeth KNormal false [("self", None); ("beamDirection", Some (DLit (LNone))); ("azimuthBeamwidth", Some (DLit (LFloat 0))); ("elevationBeamwidth", Some (DLit (LFloat 0))); ("referenceSystem", Some (DLit (LInt 0))); ("ez", Some (DLit (LFloat 0))); ("ex", Some (DLit (LFloat 0))); ("phase", Some (DLit (LFloat 0)))]
       [SetAttr (Loc "self") "beamDirection" (OrE (Loc "beamDirection") (CallV (Glob "EulerAngles") [] []));
       SetAttr (Loc "self") "azimuthBeamwidth" (Loc "azimuthBeamwidth");
       SetAttr (Loc "self") "elevationBeamwidth" (Loc "elevationBeamwidth");
       SetAttr (Loc "self") "referenceSystem" (Loc "referenceSystem");
       SetAttr (Loc "self") "padding1" (Lit (LInt 0));
       SetAttr (Loc "self") "padding2" (Lit (LInt 0));
       SetAttr (Loc "self") "ez" (Loc "ez");
       SetAttr (Loc "self") "ex" (Loc "ex");
       SetAttr (Loc "self") "phase" (Loc "phase");
       SetAttr (Loc "self") "padding3" (Lit (LInt 0))]));
    (* opendis/record/radio/__init__.py:134-135 *)
    ("marshalledSize", MMeth (mkmeth KNormal false [("self", None)]
       [Return (Lit (LInt 40))]));
    (* opendis/record/radio/__init__.py:137-148 *)
    ("serialize", MMeth (mkmeth KNormal false [("self", None); ("outputStream", None)]
       [Expr (Super "BeamAntennaPattern" "serialize" [(Loc "outputStream")] []);
       Expr (Meth (Attr (Loc "self") "beamDirection") "serialize" [(Loc "outputStream")] []);
       Expr (Meth (Loc "outputStream") "write_float32" [(Attr (Loc "self") "azimuthBeamwidth")] []);
       Expr (Meth (Loc "outputStream") "write_float32" [(Attr (Loc "self") "elevationBeamwidth")] []);
       Expr (Meth (Loc "outputStream") "write_uint8" [(Attr (Loc "self") "referenceSystem")] []);
       Expr (Meth (Loc "outputStream") "write_uint8" [(Attr (Loc "self") "padding1")] []);
       Expr (Meth (Loc "outputStream") "write_uint16" [(Attr (Loc "self") "padding2")] []);
       Expr (Meth (Loc "outputStream") "write_float32" [(Attr (Loc "self") "ez")] []);
       Expr (Meth (Loc "outputStream") "write_float32" [(Attr (Loc "self") "ex")] []);
       Expr (Meth (Loc "outputStream") "write_float32" [(Attr (Loc "self") "phase")] []);
       Expr (Meth (Loc "outputStream") "write_uint32" [(Attr (Loc "self") "padding3")] [])]));
    (* opendis/record/radio/__init__.py:150-164 *)
    ("parse", MMeth (mkmeth KNormal false [("self", None); ("inputStream", None); ("bytelength", Some (DLit (LInt 40)))]
       [Expr (Super "BeamAntennaPattern" "parse" [(Loc "inputStream"); (Loc "bytelength")] []);
       Expr (Meth (Attr (Loc "self") "beamDirection") "parse" [(Loc "inputStream")] []);
       SetAttr (Loc "self") "azimuthBeamwidth" (Meth (Loc "inputStream") "read_float32" [] []);
       SetAttr (Loc "self") "elevationBeamwidth" (Meth (Loc "inputStream") "read_float32" [] []);
       SetAttr (Loc "self") "referenceSystem" (Meth (Loc "inputStream") "read_uint8" [] []);
       SetAttr (Loc "self") "padding1" (Meth (Loc "inputStream") "read_uint8" [] []);
       SetAttr (Loc "self") "padding2" (Meth (Loc "inputStream") "read_uint16" [] []);
       SetAttr (Loc "self") "ez" (Meth (Loc "inputStream") "read_float32" [] []);
       SetAttr (Loc "self") "ex" (Meth (Loc "inputStream") "read_float32" [] []);
       SetAttr (Loc "self") "phase" (Meth (Loc "inputStream") "read_float32" [] []);
       SetAttr (Loc "self") "padding3" (Meth (Loc "inputStream") "read_uint32" [] [])]))
  ].

(* opendis/record/radio/__init__.py:167-215  class SpreadSpectrum(Record) *)
Definition c_SpreadSpectrum : cls := mkcls "SpreadSpectrum" ["SpreadSpectrum"; "Record"]
  [
    (* opendis/record/radio/__init__.py:182-187 *)
    ("_struct", MAttr (LBits [("frequencyHopping", 1); ("pseudoNoise", 1); ("timeHopping", 1); ("padding", 13)]));
    (* opendis/record/radio/__init__.py:189-197 *)
    ("__init__", MMeth (mkmeth KNormal false [("self", None); ("frequencyHopping", Some (DLit (LBool false))); ("pseudoNoise", Some (DLit (LBool false))); ("timeHopping", Some (DLit (LBool false))); ("padding", Some (DLit (LInt 0)))]
       [SetAttr (Loc "self") "frequencyHopping" (Loc "frequencyHopping");
       SetAttr (Loc "self") "pseudoNoise" (Loc "pseudoNoise");
       SetAttr (Loc "self") "timeHopping" (Loc "timeHopping");
       SetAttr (Loc "self") "padding" (Loc "padding")]));
    (* opendis/record/radio/__init__.py:199-200 *)
    ("marshalledSize", MMeth (mkmeth KNormal false [("self", None)]
       [Return (Meth (Attr (Loc "self") "_struct") "marshalledSize" [] [])]));
    (* opendis/record/radio/__init__.py:202-209 *)
    ("serialize", MMeth (mkmeth KNormal false [("self", None); ("outputStream", None)]
       [Expr (Meth (Meth (Loc "self") "_struct" [(Builtin BInt [(Attr (Loc "self") "frequencyHopping")]); (Builtin BInt [(Attr (Loc "self") "pseudoNoise")]); (Builtin BInt [(Attr (Loc "self") "timeHopping")]); (Attr (Loc "self") "padding")] []) "serialize" [(Loc "outputStream")] [])]));
    (* opendis/record/radio/__init__.py:211-215 *)
    ("parse", MMeth (mkmeth KNormal false [("self", None); ("inputStream", None)]
       [Assign "record_bitfield" (Meth (Attr (Loc "self") "_struct") "parse" [(Loc "inputStream")] []);
       SetAttr (Loc "self") "frequencyHopping" (Builtin BBool [(Attr (Loc "record_bitfield") "frequencyHopping")]);
       SetAttr (Loc "self") "pseudoNoise" (Builtin BBool [(Attr (Loc "record_bitfield") "pseudoNoise")]);
       SetAttr (Loc "self") "timeHopping" (Builtin BBool [(Attr (Loc "record_bitfield") "timeHopping")])]))
  ].

(* opendis/record/radio/__init__.py:218-253  class ModulationType(Record) *)
Definition c_ModulationType : cls := mkcls "ModulationType" ["ModulationType"; "Record"]
  [
    (* opendis/record/radio/__init__.py:224-233 *)
    ("__init__", MMeth (mkmeth KNormal false [("self", None); ("spreadSpectrum", Some (DLit (LNone))); ("majorModulation", Some (DLit (LInt 0))); ("detail", Some (DLit (LInt 0))); ("radioSystem", Some (DLit (LInt 0)))]
       [SetAttr (Loc "self") "spreadSpectrum" (OrE (Loc "spreadSpectrum") (CallV (Glob "SpreadSpectrum") [] []));
       SetAttr (Loc "self") "majorModulation" (Loc "majorModulation");
       SetAttr (Loc "self") "detail" (Loc "detail");
       SetAttr (Loc "self") "radioSystem" (Loc "radioSystem")]));
    (* opendis/record/radio/__init__.py:235-241 *)
    ("marshalledSize", MMeth (mkmeth KNormal false [("self", None)]
       [Assign "size" (Lit (LInt 0));
       Assign "size" (Bin OAdd (Loc "size") (Meth (Attr (Loc "self") "spreadSpectrum") "marshalledSize" [] []));
       Assign "size" (Bin OAdd (Loc "size") (Lit (LInt 2)));
       Assign "size" (Bin OAdd (Loc "size") (Lit (LInt 2)));
       Assign "size" (Bin OAdd (Loc "size") (Lit (LInt 2)));
       Return (Loc "size")]));
    (* opendis/record/radio/__init__.py:243-247 *)
    ("serialize", MMeth (mkmeth KNormal false [("self", None); ("outputStream", None)]
       [Expr (Meth (Attr (Loc "self") "spreadSpectrum") "serialize" [(Loc "outputStream")] []);
       Expr (Meth (Loc "outputStream") "write_uint16" [(Attr (Loc "self") "majorModulation")] []);
       Expr (Meth (Loc "outputStream") "write_uint16" [(Attr (Loc "self") "detail")] []);
       Expr (Meth (Loc "outputStream") "write_uint16" [(Attr (Loc "self") "radioSystem")] [])]));
    (* opendis/record/radio/__init__.py:249-253 *)
    ("parse", MMeth (mkmeth KNormal false [("self", None); ("inputStream", None)]
       [Expr (Meth (Attr (Loc "self") "spreadSpectrum") "parse" [(Loc "inputStream")] []);
       SetAttr (Loc "self") "majorModulation" (Meth (Loc "inputStream") "read_uint16" [] []);
       SetAttr (Loc "self") "detail" (Meth (Loc "inputStream") "read_uint16" [] []);
       SetAttr (Loc "self") "radioSystem" (Meth (Loc "inputStream") "read_uint16" [] [])]))
  ].

(* opendis/record/radio/__init__.py:256-264  class VariableTransmitterParametersRecord(StandardVariableRecord) *)
Definition c_VariableTransmitterParametersRecord : cls := mkcls "VariableTransmitterParametersRecord" ["VariableTransmitterParametersRecord"; "StandardVariableRecord"; "VariableRecord"]
  [

  ].

(* opendis/record/radio/__init__.py:267-310  class NetId(Record) *)
Definition c_NetId : cls := mkcls "NetId" ["NetId"; "Record"]
  [
    (* opendis/record/radio/__init__.py:276-281 *)
    ("_struct", MAttr (LBits [("netNumber", 10); ("frequencyTable", 2); ("mode", 2); ("padding", 2)]));
    (* opendis/record/radio/__init__.py:283-292 *)
    ("__init__", MMeth (mkmeth KNormal false [("self", None); ("netNumber", Some (DLit (LInt 0))); ("frequencyTable", Some (DLit (LInt 0))); ("mode", Some (DLit (LInt 0))); ("padding", Some (DLit (LInt 0)))]
       [SetAttr (Loc "self") "netNumber" (Loc "netNumber");
       SetAttr (Loc "self") "frequencyTable" (Loc "frequencyTable");
       SetAttr (Loc "self") "mode" (Loc "mode");
       SetAttr (Loc "self") "padding" (Loc "padding")]));
    (* opendis/record/radio/__init__.py:294-295 *)
    ("marshalledSize", MMeth (mkmeth KNormal false [("self", None)]
       [Return (Meth (Attr (Loc "self") "_struct") "marshalledSize" [] [])]));
    (* opendis/record/radio/__init__.py:297-303 *)
    ("serialize", MMeth (mkmeth KNormal false [("self", None); ("outputStream", None)]
       [Expr (Meth (Meth (Loc "self") "_struct" [(Attr (Loc "self") "netNumber"); (Attr (Loc "self") "frequencyTable"); (Attr (Loc "self") "mode"); (Attr (Loc "self") "padding")] []) "serialize" [(Loc "outputStream")] [])]));
    (* opendis/record/radio/__init__.py:305-310 *)
    ("parse", MMeth (mkmeth KNormal false [("self", None); ("inputStream", None)]
       [Assign "record_bitfield" (Meth (Attr (Loc "self") "_struct") "parse" [(Loc "inputStream")] []);
       SetAttr (Loc "self") "netNumber" (Attr (Loc "record_bitfield") "netNumber");
       SetAttr (Loc "self") "frequencyTable" (Attr (Loc "record_bitfield") "frequencyTable");
       SetAttr (Loc "self") "mode" (Attr (Loc "record_bitfield") "mode");
       SetAttr (Loc "self") "padding" (Attr (Loc "record_bitfield") "padding")]))
  ].

(* opendis/record/radio/__init__.py:313-329  class GenericRadio(ModulationParametersRecord) *)
Definition c_GenericRadio : cls := mkcls "GenericRadio" ["GenericRadio"; "ModulationParametersRecord"; "VariableRecord"]
  [
    (* opendis/record/radio/__init__.py:320-321 *)
    ("marshalledSize", MMeth (mkmeth KNormal false [("self", None)]
       [Return (Lit (LInt 0))]));
    (* opendis/record/radio/__init__.py:323-324 *)
    ("serialize", MMeth (mkmeth KNormal false [("self", None); ("outputStream", None)]
       [Pass]));
    (* opendis/record/radio/__init__.py:326-329 *)
    ("parse", MMeth (mkmeth KNormal false [("self", None); ("inputStream", None); ("bytelength", Some (DLit (LNone)))]
       [Pass]))
  ].

(* opendis/record/radio/__init__.py:332-352  class SimpleIntercomRadio(ModulationParametersRecord) *)
Definition c_SimpleIntercomRadio : cls := mkcls "SimpleIntercomRadio" ["SimpleIntercomRadio"; "ModulationParametersRecord"; "VariableRecord"]
  [
    (* opendis/record/radio/__init__.py:343-344 *)
    ("marshalledSize", MMeth (mkmeth KNormal false [("self", None)]
       [Return (Lit (LInt 0))]));
    (* opendis/record/radio/__init__.py:346-347 *)
    ("serialize", MMeth (mkmeth KNormal false [("self", None); ("outputStream", None)]
       [Pass]));
    (* opendis/record/radio/__init__.py:349-352 *)
    ("parse", MMeth (mkmeth KNormal false [("self", None); ("inputStream", None); ("bytelength", Some (DLit (LNone)))]
       [Pass]))
  ].

(* opendis/record/radio/__init__.py:357-400  class BasicHaveQuickMP(ModulationParametersRecord) *)
Definition c_BasicHaveQuickMP : cls := mkcls "BasicHaveQuickMP" ["BasicHaveQuickMP"; "ModulationParametersRecord"; "VariableRecord"]
  [
    (* opendis/record/radio/__init__.py:360-374 *)
    ("__init__", MMeth (mkmeth KNormal false [("self", None); ("net_id", Some (DLit (LNone))); ("mwod_index", Some (DLit (LInt 1))); ("reserved16", Some (DLit (LInt 0))); ("reserved8_1", Some (DLit (LInt 0))); ("reserved8_2", Some (DLit (LInt 0))); ("time_of_day", Some (DLit (LInt 0))); ("padding", Some (DLit (LInt 0)))]
       [SetAttr (Loc "self") "net_id" (OrE (Loc "net_id") (CallV (Glob "NetId") [] []));
       SetAttr (Loc "self") "mwod_index" (Loc "mwod_index");
       SetAttr (Loc "self") "reserved16" (Loc "reserved16");
       SetAttr (Loc "self") "reserved8_1" (Loc "reserved8_1");
       SetAttr (Loc "self") "reserved8_2" (Loc "reserved8_2");
       SetAttr (Loc "self") "time_of_day" (Loc "time_of_day");
       SetAttr (Loc "self") "padding" (Loc "padding")]));
    (* opendis/record/radio/__init__.py:376-377 *)
    ("marshalledSize", MMeth (mkmeth KNormal false [("self", None)]
       [Return (Lit (LInt 16))]));
    (* opendis/record/radio/__init__.py:379-387 *)
    ("serialize", MMeth (mkmeth KNormal false [("self", None); ("outputStream", None)]
       [Expr (Super "BasicHaveQuickMP" "serialize" [(Loc "outputStream")] []);
       Expr (Meth (Attr (Loc "self") "net_id") "serialize" [(Loc "outputStream")] []);
       Expr (Meth (Loc "outputStream") "write_uint16" [(Attr (Loc "self") "mwod_index")] []);
       Expr (Meth (Loc "outputStream") "write_uint16" [(Attr (Loc "self") "reserved16")] []);
       Expr (Meth (Loc "outputStream") "write_uint8" [(Attr (Loc "self") "reserved8_1")] []);
       Expr (Meth (Loc "outputStream") "write_uint8" [(Attr (Loc "self") "reserved8_2")] []);
       Expr (Meth (Loc "outputStream") "write_uint32" [(Attr (Loc "self") "time_of_day")] []);
       Expr (Meth (Loc "outputStream") "write_uint32" [(Attr (Loc "self") "padding")] [])]));
    (* opendis/record/radio/__init__.py:389-400 *)
    ("parse", MMeth (mkmeth KNormal false [("self", None); ("inputStream", None); ("bytelength", Some (DLit (LNone)))]
       [Expr (Super "BasicHaveQuickMP" "parse" [(Loc "inputStream"); (Loc "bytelength")] []);
       Expr (Meth (Attr (Loc "self") "net_id") "parse" [(Loc "inputStream")] []);
       SetAttr (Loc "self") "mwod_index" (Meth (Loc "inputStream") "read_uint16" [] []);
       SetAttr (Loc "self") "reserved16" (Meth (Loc "inputStream") "read_uint16" [] []);
       SetAttr (Loc "self") "reserved8_1" (Meth (Loc "inputStream") "read_uint8" [] []);
       SetAttr (Loc "self") "reserved8_2" (Meth (Loc "inputStream") "read_uint8" [] []);
       SetAttr (Loc "self") "time_of_day" (Meth (Loc "inputStream") "read_uint32" [] []);
       SetAttr (Loc "self") "padding" (Meth (Loc "inputStream") "read_uint32" [] [])]))
  ].

(* opendis/record/radio/__init__.py:403-449  class CCTTSincgarsMP(ModulationParametersRecord) *)
Definition c_CCTTSincgarsMP : cls := mkcls "CCTTSincgarsMP" ["CCTTSincgarsMP"; "ModulationParametersRecord"; "VariableRecord"]
  [
    (* opendis/record/radio/__init__.py:406-421 *)
    ("__init__", MMeth (mkmeth KNormal false [("self", None); ("fh_net_id", Some (DLit (LInt 0))); ("hop_set_id", Some (DLit (LInt 0))); ("lockout_set_id", Some (DLit (LInt 0))); ("start_of_message", Some (DLit (LInt 0))); ("clear_channel", Some (DLit (LInt 0))); ("fh_sync_time_offset", Some (DLit (LInt 0))); ("transmission_security_key", Some (DLit (LInt 0)))]
       [SetAttr (Loc "self") "fh_net_id" (Loc "fh_net_id");
       SetAttr (Loc "self") "hop_set_id" (Loc "hop_set_id");
       SetAttr (Loc "self") "lockout_set_id" (Loc "lockout_set_id");
       SetAttr (Loc "self") "start_of_message" (Loc "start_of_message");
       SetAttr (Loc "self") "clear_channel" (Loc "clear_channel");
       SetAttr (Loc "self") "fh_sync_time_offset" (Loc "fh_sync_time_offset");
       SetAttr (Loc "self") "transmission_security_key" (Loc "transmission_security_key");
       SetAttr (Loc "self") "padding" (Lit (LInt 0))]));
    (* opendis/record/radio/__init__.py:423-424 *)
    ("marshalledSize", MMeth (mkmeth KNormal false [("self", None)]
       [Return (Lit (LInt 16))]));
    (* opendis/record/radio/__init__.py:426-435 *)
    ("serialize", MMeth (mkmeth KNormal false [("self", None); ("outputStream", None)]
       [Expr (Super "CCTTSincgarsMP" "serialize" [(Loc "outputStream")] []);
       Expr (Meth (Loc "outputStream") "write_uint16" [(Attr (Loc "self") "fh_net_id")] []);
       Expr (Meth (Loc "outputStream") "write_uint16" [(Attr (Loc "self") "hop_set_id")] []);
       Expr (Meth (Loc "outputStream") "write_uint16" [(Attr (Loc "self") "lockout_set_id")] []);
       Expr (Meth (Loc "outputStream") "write_uint8" [(Attr (Loc "self") "start_of_message")] []);
       Expr (Meth (Loc "outputStream") "write_uint8" [(Attr (Loc "self") "clear_channel")] []);
       Expr (Meth (Loc "outputStream") "write_uint32" [(Attr (Loc "self") "fh_sync_time_offset")] []);
       Expr (Meth (Loc "outputStream") "write_uint16" [(Attr (Loc "self") "transmission_security_key")] []);
       Expr (Meth (Loc "outputStream") "write_uint16" [(Attr (Loc "self") "padding")] [])]));
    (* opendis/record/radio/__init__.py:437-449 *)
    ("parse", MMeth (mkmeth KNormal false [("self", None); ("inputStream", None); ("bytelength", Some (DLit (LNone)))]
       [Expr (Super "CCTTSincgarsMP" "parse" [(Loc "inputStream"); (Loc "bytelength")] []);
       SetAttr (Loc "self") "fh_net_id" (Meth (Loc "inputStream") "read_uint16" [] []);
       SetAttr (Loc "self") "hop_set_id" (Meth (Loc "inputStream") "read_uint16" [] []);
       SetAttr (Loc "self") "lockout_set_id" (Meth (Loc "inputStream") "read_uint16" [] []);
       SetAttr (Loc "self") "start_of_message" (Meth (Loc "inputStream") "read_uint8" [] []);
       SetAttr (Loc "self") "clear_channel" (Meth (Loc "inputStream") "read_uint8" [] []);
       SetAttr (Loc "self") "fh_sync_time_offset" (Meth (Loc "inputStream") "read_uint32" [] []);
       SetAttr (Loc "self") "transmission_security_key" (Meth (Loc "inputStream") "read_uint16" [] []);
       SetAttr (Loc "self") "padding" (Meth (Loc "inputStream") "read_uint16" [] [])]))
  ].

(* opendis/record/radio/__init__.py:452-510  class HighFidelityHAVEQUICKRadio(VariableTransmitterParametersRecord) *)
Definition c_HighFidelityHAVEQUICKRadio : cls := mkcls "HighFidelityHAVEQUICKRadio" ["HighFidelityHAVEQUICKRadio"; "VariableTransmitterParametersRecord"; "StandardVariableRecord"; "VariableRecord"]
  [
    (* opendis/record/radio/__init__.py:454 *)
    ("recordType", MAttr (LInt 3000));
    (* opendis/record/radio/__init__.py:456-476 *)
    ("__init__", MMeth (mkmeth KNormal false [("self", None); ("netId", Some (DLit (LNone))); ("todTransmitIndicator", Some (DLit (LInt 0))); ("todDelta", Some (DLit (LInt 0))); ("wod1", Some (DLit (LInt 0))); ("wod2", Some (DLit (LInt 0))); ("wod3", Some (DLit (LInt 0))); ("wod4", Some (DLit (LInt 0))); ("wod5", Some (DLit (LInt 0))); ("wod6", Some (DLit (LInt 0)))]
       [SetAttr (Loc "self") "padding1" (Lit (LInt 0));
       SetAttr (Loc "self") "netId" (OrE (Loc "netId") (CallV (Glob "NetId") [] []));
       SetAttr (Loc "self") "todTransmitIndicator" (Loc "todTransmitIndicator");
       SetAttr (Loc "self") "padding2" (Lit (LInt 0));
       SetAttr (Loc "self") "todDelta" (Loc "todDelta");
       SetAttr (Loc "self") "wod1" (Loc "wod1");
       SetAttr (Loc "self") "wod2" (Loc "wod2");
       SetAttr (Loc "self") "wod3" (Loc "wod3");
       SetAttr (Loc "self") "wod4" (Loc "wod4");
       SetAttr (Loc "self") "wod5" (Loc "wod5");
       SetAttr (Loc "self") "wod6" (Loc "wod6")]));
    (* opendis/record/radio/__init__.py:478-479 *)
    ("marshalledSize", MMeth (mkmeth KNormal false [("self", None)]
       [Return (Lit (LInt 40))]));
    (* opendis/record/radio/__init__.py:481-493 *)
    ("serialize", MMeth (mkmeth KNormal false [("self", None); ("outputStream", None)]
       [Expr (Super "HighFidelityHAVEQUICKRadio" "serialize" [(Loc "outputStream")] []);
       Expr (Meth (Loc "outputStream") "write_uint16" [(Attr (Loc "self") "padding1")] []);
       Expr (Meth (Attr (Loc "self") "netId") "serialize" [(Loc "outputStream")] []);
       Expr (Meth (Loc "outputStream") "write_uint8" [(Attr (Loc "self") "todTransmitIndicator")] []);
       Expr (Meth (Loc "outputStream") "write_uint8" [(Attr (Loc "self") "padding2")] []);
       Expr (Meth (Loc "outputStream") "write_uint32" [(Attr (Loc "self") "todDelta")] []);
       Expr (Meth (Loc "outputStream") "write_uint32" [(Attr (Loc "self") "wod1")] []);
       Expr (Meth (Loc "outputStream") "write_uint32" [(Attr (Loc "self") "wod2")] []);
       Expr (Meth (Loc "outputStream") "write_uint32" [(Attr (Loc "self") "wod3")] []);
       Expr (Meth (Loc "outputStream") "write_uint32" [(Attr (Loc "self") "wod4")] []);
       Expr (Meth (Loc "outputStream") "write_uint32" [(Attr (Loc "self") "wod5")] []);
       Expr (Meth (Loc "outputStream") "write_uint32" [(Attr (Loc "self") "wod6")] [])]));
    (* opendis/record/radio/__init__.py:495-510 *)
    ("parse", MMeth (mkmeth KNormal false [("self", None); ("inputStream", None); ("bytelength", None)]
       [Expr (Super "HighFidelityHAVEQUICKRadio" "parse" [(Loc "inputStream"); (Loc "bytelength")] []);
       SetAttr (Loc "self") "padding1" (Meth (Loc "inputStream") "read_uint16" [] []);
       Expr (Meth (Attr (Loc "self") "netId") "parse" [(Loc "inputStream")] []);
       SetAttr (Loc "self") "todTransmitIndicator" (Meth (Loc "inputStream") "read_uint8" [] []);
       SetAttr (Loc "self") "padding2" (Meth (Loc "inputStream") "read_uint8" [] []);
       SetAttr (Loc "self") "todDelta" (Meth (Loc "inputStream") "read_uint32" [] []);
       SetAttr (Loc "self") "wod1" (Meth (Loc "inputStream") "read_uint32" [] []);
       SetAttr (Loc "self") "wod2" (Meth (Loc "inputStream") "read_uint32" [] []);
       SetAttr (Loc "self") "wod3" (Meth (Loc "inputStream") "read_uint32" [] []);
       SetAttr (Loc "self") "wod4" (Meth (Loc "inputStream") "read_uint32" [] []);
       SetAttr (Loc "self") "wod5" (Meth (Loc "inputStream") "read_uint32" [] []);
       SetAttr (Loc "self") "wod6" (Meth (Loc "inputStream") "read_uint32" [] [])]))
  ].

(* opendis/record/warfare/enums.py:8-38  class DEFireFlags(Record) *)
Definition c_DEFireFlags : cls := mkcls "DEFireFlags" ["DEFireFlags"; "Record"]
  [
    (* opendis/record/warfare/enums.py:11-15 *)
    ("_struct", MAttr (LBits [("weaponOn", 1); ("stateUpdateFlag", 1); ("padding", 14)]));
    (* opendis/record/warfare/enums.py:17-23 *)
    ("__init__", MMeth (mkmeth KNormal false [("self", None); ("weaponOn", Some (DLit (LBool false))); ("stateUpdateFlag", Some (DLit (LInt 0)))]
       [SetAttr (Loc "self") "weaponOn" (Loc "weaponOn");
       SetAttr (Loc "self") "stateUpdateFlag" (Loc "stateUpdateFlag");
       SetAttr (Loc "self") "padding" (Lit (LInt 0))]));
    (* opendis/record/warfare/enums.py:25-26 *)
    ("marshalledSize", MMeth (mkmeth KNormal false [("self", None)]
       [Return (Meth (Attr (Loc "self") "_struct") "marshalledSize" [] [])]));
    (* opendis/record/warfare/enums.py:28-32 *)
    ("serialize", MMeth (mkmeth KNormal false [("self", None); ("outputStream", None)]
       [Expr (Meth (Meth (Loc "self") "_struct" [(Attr (Loc "self") "weaponOn"); (Attr (Loc "self") "stateUpdateFlag")] []) "serialize" [(Loc "outputStream")] [])]));
    (* opendis/record/warfare/enums.py:34-38 *)
    ("parse", MMeth (mkmeth KNormal false [("self", None); ("inputStream", None)]
       [Assign "record_bitfield" (Meth (Attr (Loc "self") "_struct") "parse" [(Loc "inputStream")] []);
       SetAttr (Loc "self") "weaponOn" (Attr (Loc "record_bitfield") "weaponOn");
       SetAttr (Loc "self") "stateUpdateFlag" (Attr (Loc "record_bitfield") "stateUpdateFlag");
       SetAttr (Loc "self") "padding" (Attr (Loc "record_bitfield") "padding")]))
  ].

(* opendis/record/warfare/__init__.py:34-40  class DamageDescriptionRecord(StandardVariableRecord) *)
Definition c_DamageDescriptionRecord : cls := mkcls "DamageDescriptionRecord" ["DamageDescriptionRecord"; "StandardVariableRecord"; "VariableRecord"]
  [

  ].

(* opendis/record/warfare/__init__.py:43-104  class DirectedEnergyDamage(DamageDescriptionRecord) *)
Definition c_DirectedEnergyDamage : cls := mkcls "DirectedEnergyDamage" ["DirectedEnergyDamage"; "DamageDescriptionRecord"; "StandardVariableRecord"; "VariableRecord"]
  [
    (* opendis/record/warfare/__init__.py:49 *)
    ("recordType", MAttr (LInt 4500));
    (* opendis/record/warfare/__init__.py:51-70 *)
    ("__init__", MMeth (mkmeth KNormal false [("self", None); ("damageLocation", Some (DLit (LNone))); ("damageDiameter", Some (DLit (LFloat 0))); ("temperature", Some (DLit (LFloat 13866884958664418918))); ("componentIdentification", Some (DLit (LInt 0))); ("componentDamageStatus", Some (DLit (LInt 0))); ("componentVisualDamageStatus", Some (DLit (LInt 0))); ("componentVisualSmokeColor", Some (DLit (LInt 0))); ("fireEventID", Some (DLit (LNone)))]
       [SetAttr (Loc "self") "padding" (Lit (LInt 0));
       SetAttr (Loc "self") "damageLocation" (OrE (Loc "damageLocation") (CallV (Glob "Vector3Float") [] []));
       SetAttr (Loc "self") "damageDiameter" (Loc "damageDiameter");
       SetAttr (Loc "self") "temperature" (Loc "temperature");
       SetAttr (Loc "self") "componentIdentification" (Loc "componentIdentification");
       SetAttr (Loc "self") "componentDamageStatus" (Loc "componentDamageStatus");
       SetAttr (Loc "self") "componentVisualDamageStatus" (Loc "componentVisualDamageStatus");
       SetAttr (Loc "self") "componentVisualSmokeColor" (Loc "componentVisualSmokeColor");
       SetAttr (Loc "self") "fireEventID" (OrE (Loc "fireEventID") (CallV (Glob "EventIdentifier") [] []));
       SetAttr (Loc "self") "padding2" (Lit (LInt 0))]));
    (* opendis/record/warfare/__init__.py:72-73 *)
    ("marshalledSize", MMeth (mkmeth KNormal false [("self", None)]
       [Return (Lit (LInt 40))]));
    (* opendis/record/warfare/__init__.py:75-88 *)
    ("serialize", MMeth (mkmeth KNormal false [("self", None); ("outputStream", None)]
       [Expr (Super "DirectedEnergyDamage" "serialize" [(Loc "outputStream")] []);
       Expr (Meth (Loc "outputStream") "write_uint32" [(Attr (Loc "self") "recordType")] []);
       Expr (Meth (Loc "outputStream") "write_uint16" [(Attr (Loc "self") "recordLength")] []);
       Expr (Meth (Loc "outputStream") "write_uint16" [(Attr (Loc "self") "padding")] []);
       Expr (Meth (Attr (Loc "self") "damageLocation") "serialize" [(Loc "outputStream")] []);
       Expr (Meth (Loc "outputStream") "write_float32" [(Attr (Loc "self") "damageDiameter")] []);
       Expr (Meth (Loc "outputStream") "write_float32" [(Attr (Loc "self") "temperature")] []);
       Expr (Meth (Loc "outputStream") "write_uint8" [(Attr (Loc "self") "componentIdentification")] []);
       Expr (Meth (Loc "outputStream") "write_uint8" [(Attr (Loc "self") "componentDamageStatus")] []);
       Expr (Meth (Loc "outputStream") "write_uint8" [(Attr (Loc "self") "componentVisualDamageStatus")] []);
       Expr (Meth (Loc "outputStream") "write_uint8" [(Attr (Loc "self") "componentVisualSmokeColor")] []);
       Expr (Meth (Attr (Loc "self") "fireEventID") "serialize" [(Loc "outputStream")] []);
       Expr (Meth (Loc "outputStream") "write_uint16" [(Attr (Loc "self") "padding2")] [])]));
    (* opendis/record/warfare/__init__.py:90-104 *)
    ("parse", MMeth (mkmeth KNormal false [("self", None); ("inputStream", None); ("bytelength", None)]
       [Expr (Super "DirectedEnergyDamage" "parse" [(Loc "inputStream"); (Loc "bytelength")] []);
       SetAttr (Loc "self") "padding" (Meth (Loc "inputStream") "read_unsigned_short" [] []);
       Expr (Meth (Attr (Loc "self") "damageLocation") "parse" [(Loc "inputStream")] []);
       SetAttr (Loc "self") "damageDiameter" (Meth (Loc "inputStream") "read_float32" [] []);
       SetAttr (Loc "self") "temperature" (Meth (Loc "inputStream") "read_float32" [] []);
       SetAttr (Loc "self") "componentIdentification" (Meth (Loc "inputStream") "read_uint8" [] []);
       SetAttr (Loc "self") "componentDamageStatus" (Meth (Loc "inputStream") "read_uint8" [] []);
       SetAttr (Loc "self") "componentVisualDamageStatus" (Meth (Loc "inputStream") "read_uint8" [] []);
       SetAttr (Loc "self") "componentVisualSmokeColor" (Meth (Loc "inputStream") "read_uint8" [] []);
       Expr (Meth (Attr (Loc "self") "fireEventID") "parse" [(Loc "inputStream")] []);
       SetAttr (Loc "self") "padding2" (Meth (Loc "inputStream") "read_uint16" [] [])]))
  ].

(* opendis/record/warfare/__init__.py:107-169  class DirectedEnergyAreaAimpoint(DamageDescriptionRecord) *)
Definition c_DirectedEnergyAreaAimpoint : cls := mkcls "DirectedEnergyAreaAimpoint" ["DirectedEnergyAreaAimpoint"; "DamageDescriptionRecord"; "StandardVariableRecord"; "VariableRecord"]
  [
    (* opendis/record/warfare/__init__.py:114 *)
    ("recordType", MAttr (LInt 4001));
    (* opendis/record/warfare/__init__.py:116-121 *)
    ("__init__", MMeth (mkmeth KNormal false [("self", None); ("beamAntennaPatterns", Some (DLit (LNone))); ("directedEnergyTargetEnergyDepositions", Some (DLit (LNone)))]
       [SetAttr (Loc "self") "padding" (Lit (LInt 0));
       SetAttr (Loc "self") "beamAntennaPatterns" (OrE (Loc "beamAntennaPatterns") (ListE []));
       SetAttr (Loc "self") "directedEnergyTargetEnergyDepositions" (OrE (Loc "directedEnergyTargetEnergyDepositions") (ListE []))]));
    (* opendis/record/warfare/__init__.py:124-125 *)
    ("beamAntennaPatternCount", MMeth (mkmeth KProperty false [("self", None)]
       [Return (Builtin BLen [(Attr (Loc "self") "beamAntennaPatterns")])]));
    (* opendis/record/warfare/__init__.py:128-129 *)
    ("directedEnergyTargetEnergyDepositionCount", MMeth (mkmeth KProperty false [("self", None)]
       [Return (Builtin BLen [(Attr (Loc "self") "directedEnergyTargetEnergyDepositions")])]));
    (* opendis/record/warfare/__init__.py:131-137 *)
    ("marshalledSize", MMeth (mkmeth KNormal false [("self", None)]
       [Assign "size" (Lit (LInt 8));
       For "record" (Attr (Loc "self") "beamAntennaPatterns") [Assign "size" (Bin OAdd (Loc "size") (Meth (Loc "record") "marshalledSize" [] []))];
       For "record" (Attr (Loc "self") "directedEnergyTargetEnergyDepositions") [Assign "size" (Bin OAdd (Loc "size") (Meth (Loc "record") "marshalledSize" [] []))];
       Return (Loc "size")]));
    (* opendis/record/warfare/__init__.py:139-152 *)
    ("serialize", MMeth (mkmeth KNormal false [("self", None); ("outputStream", None)]
       [Expr (Super "DirectedEnergyAreaAimpoint" "serialize" [(Loc "outputStream")] []);
       Expr (Meth (Loc "outputStream") "write_uint32" [(Attr (Loc "self") "recordType")] []);
       Expr (Meth (Loc "outputStream") "write_uint16" [(Attr (Loc "self") "recordLength")] []);
       Expr (Meth (Loc "outputStream") "write_uint16" [(Attr (Loc "self") "padding")] []);
       Expr (Meth (Loc "outputStream") "write_uint16" [(Attr (Loc "self") "beamAntennaPatternCount")] []);
       Expr (Meth (Loc "outputStream") "write_uint16" [(Attr (Loc "self") "directedEnergyTargetEnergyDepositionCount")] []);
       For "record" (Attr (Loc "self") "beamAntennaPatterns") [Expr (Meth (Loc "record") "serialize" [(Loc "outputStream")] [])];
       For "record" (Attr (Loc "self") "directedEnergyTargetEnergyDepositions") [Expr (Meth (Loc "record") "serialize" [(Loc "outputStream")] [])]]));
    (* opendis/record/warfare/__init__.py:154-169 *)
    ("parse", MMeth (mkmeth KNormal false [("self", None); ("inputStream", None); ("bytelength", None)]
       [Expr (Super "DirectedEnergyAreaAimpoint" "parse" [(Loc "inputStream"); (Loc "bytelength")] []);
       SetAttr (Loc "self") "padding" (Meth (Loc "inputStream") "read_uint16" [] []);
       Assign "beamAntennaPatternCount" (Meth (Loc "inputStream") "read_uint16" [] []);
       Assign "directedEnergyTargetEnergyDepositionCount" (Meth (Loc "inputStream") "read_uint16" [] []);
       For "_" (Builtin BRange [(Lit (LInt 0)); (Loc "beamAntennaPatternCount")]) [Assign "record" (CallV (Glob "BeamAntennaPattern") [] []); Expr (Meth (Loc "record") "parse" [(Loc "inputStream")] []); Expr (Meth (Attr (Loc "self") "beamAntennaPatterns") "append" [(Loc "record")] [])];
       For "_" (Builtin BRange [(Lit (LInt 0)); (Loc "directedEnergyTargetEnergyDepositionCount")]) [Assign "record" (CallV (Glob "DirectedEnergyTargetEnergyDeposition") [] []); Expr (Meth (Loc "record") "parse" [(Loc "inputStream")] []); Expr (Meth (Attr (Loc "self") "directedEnergyTargetEnergyDepositions") "append" [(Loc "record")] [])]]))
  ].

(* opendis/record/warfare/__init__.py:172-248  class DirectedEnergyPrecisionAimpoint(DamageDescriptionRecord) *)
Definition c_DirectedEnergyPrecisionAimpoint : cls := mkcls "DirectedEnergyPrecisionAimpoint" ["DirectedEnergyPrecisionAimpoint"; "DamageDescriptionRecord"; "StandardVariableRecord"; "VariableRecord"]
  [
    (* opendis/record/warfare/__init__.py:179 *)
    ("recordType", MAttr (LInt 4000));
    (* opendis/record/warfare/__init__.py:181-205 *)
    ("__init__", MMeth (mkmeth KNormal false [("self", None); ("targetSpotLocation", Some (DLit (LNone))); ("targetSpotEntityLocation", Some (DLit (LNone))); ("targetSpotVelocity", Some (DLit (LNone))); ("targetSpotAcceleration", Some (DLit (LNone))); ("targetEntityID", Some (DLit (LNone))); ("targetComponentID", Some (DLit (LInt 0))); ("beamSpotType", Some (DLit (LInt 0))); ("beamSpotCrossSectionSemiMajorAxis", Some (DLit (LFloat 0))); ("beamSpotCrossSectionSemiMinorAxis", Some (DLit (LFloat 0))); ("beamSpotCrossSectionOrientationAngle", Some (DLit (LFloat 0))); ("peakIrradiance", Some (DLit (LFloat 0)))]
       [SetAttr (Loc "self") "padding" (Lit (LInt 0));
       SetAttr (Loc "self") "targetSpotLocation" (OrE (Loc "targetSpotLocation") (CallV (Glob "WorldCoordinates") [] []));
       SetAttr (Loc "self") "targetSpotEntityLocation" (OrE (Loc "targetSpotEntityLocation") (CallV (Glob "Vector3Float") [] []));
       SetAttr (Loc "self") "targetSpotVelocity" (OrE (Loc "targetSpotVelocity") (CallV (Glob "Vector3Float") [] []));
       SetAttr (Loc "self") "targetSpotAcceleration" (OrE (Loc "targetSpotAcceleration") (CallV (Glob "Vector3Float") [] []));
       SetAttr (Loc "self") "targetEntityID" (OrE (Loc "targetEntityID") (CallV (Glob "EntityIdentifier") [] []));
       SetAttr (Loc "self") "targetComponentID" (Loc "targetComponentID");
       SetAttr (Loc "self") "beamSpotType" (Loc "beamSpotType");
       SetAttr (Loc "self") "beamSpotCrossSectionSemiMajorAxis" (Loc "beamSpotCrossSectionSemiMajorAxis");
       SetAttr (Loc "self") "beamSpotCrossSectionSemiMinorAxis" (Loc "beamSpotCrossSectionSemiMinorAxis");
       SetAttr (Loc "self") "beamSpotCrossSectionOrientationAngle" (Loc "beamSpotCrossSectionOrientationAngle");
       SetAttr (Loc "self") "peakIrradiance" (Loc "peakIrradiance");
       SetAttr (Loc "self") "padding2" (Lit (LInt 0))]));
    (* opendis/record/warfare/__init__.py:207-208 *)
    ("marshalledSize", MMeth (mkmeth KNormal false [("self", None)]
       [Return (Lit (LInt 96))]));
    (* opendis/record/warfare/__init__.py:210-226 *)
    ("serialize", MMeth (mkmeth KNormal false [("self", None); ("outputStream", None)]
       [Expr (Super "DirectedEnergyPrecisionAimpoint" "serialize" [(Loc "outputStream")] []);
       Expr (Meth (Loc "outputStream") "write_uint32" [(Attr (Loc "self") "recordType")] []);
       Expr (Meth (Loc "outputStream") "write_uint16" [(Attr (Loc "self") "recordLength")] []);
       Expr (Meth (Loc "outputStream") "write_uint16" [(Attr (Loc "self") "padding")] []);
       Expr (Meth (Attr (Loc "self") "targetSpotLocation") "serialize" [(Loc "outputStream")] []);
       Expr (Meth (Attr (Loc "self") "targetSpotEntityLocation") "serialize" [(Loc "outputStream")] []);
       Expr (Meth (Attr (Loc "self") "targetSpotVelocity") "serialize" [(Loc "outputStream")] []);
       Expr (Meth (Attr (Loc "self") "targetSpotAcceleration") "serialize" [(Loc "outputStream")] []);
       Expr (Meth (Attr (Loc "self") "targetEntityID") "serialize" [(Loc "outputStream")] []);
       Expr (Meth (Loc "outputStream") "write_uint8" [(Attr (Loc "self") "targetComponentID")] []);
       Expr (Meth (Loc "outputStream") "write_uint8" [(Attr (Loc "self") "beamSpotType")] []);
       Expr (Meth (Loc "outputStream") "write_float32" [(Attr (Loc "self") "beamSpotCrossSectionSemiMajorAxis")] []);
       Expr (Meth (Loc "outputStream") "write_float32" [(Attr (Loc "self") "beamSpotCrossSectionSemiMinorAxis")] []);
       Expr (Meth (Loc "outputStream") "write_float32" [(Attr (Loc "self") "beamSpotCrossSectionOrientationAngle")] []);
       Expr (Meth (Loc "outputStream") "write_float32" [(Attr (Loc "self") "peakIrradiance")] []);
       Expr (Meth (Loc "outputStream") "write_uint32" [(Attr (Loc "self") "padding2")] [])]));
    (* opendis/record/warfare/__init__.py:228-248 *)
    ("parse", MMeth (mkmeth KNormal false [("self", None); ("inputStream", None); ("bytelength", None)]
       [Expr (Super "DirectedEnergyPrecisionAimpoint" "parse" [(Loc "inputStream"); (Loc "bytelength")] []);
       SetAttr (Loc "self") "padding" (Meth (Loc "inputStream") "read_uint16" [] []);
       Expr (Meth (Attr (Loc "self") "targetSpotLocation") "parse" [(Loc "inputStream")] []);
       Expr (Meth (Attr (Loc "self") "targetSpotEntityLocation") "parse" [(Loc "inputStream")] []);
       Expr (Meth (Attr (Loc "self") "targetSpotVelocity") "parse" [(Loc "inputStream")] []);
       Expr (Meth (Attr (Loc "self") "targetSpotAcceleration") "parse" [(Loc "inputStream")] []);
       Expr (Meth (Attr (Loc "self") "targetEntityID") "parse" [(Loc "inputStream")] []);
       SetAttr (Loc "self") "targetComponentID" (Meth (Loc "inputStream") "read_uint8" [] []);
       SetAttr (Loc "self") "beamSpotType" (Meth (Loc "inputStream") "read_uint8" [] []);
       SetAttr (Loc "self") "beamSpotCrossSectionSemiMajorAxis" (Meth (Loc "inputStream") "read_float32" [] []);
       SetAttr (Loc "self") "beamSpotCrossSectionSemiMinorAxis" (Meth (Loc "inputStream") "read_float32" [] []);
       SetAttr (Loc "self") "beamSpotCrossSectionOrientationAngle" (Meth (Loc "inputStream") "read_float32" [] []);
       SetAttr (Loc "self") "peakIrradiance" (Meth (Loc "inputStream") "read_float32" [] []);
       SetAttr (Loc "self") "padding2" (Meth (Loc "inputStream") "read_uint32" [] [])]))
  ].

(* opendis/record/warfare/__init__.py:251-280  class DirectedEnergyTargetEnergyDeposition(Record) *)
Definition c_DirectedEnergyTargetEnergyDeposition : cls := mkcls "DirectedEnergyTargetEnergyDeposition" ["DirectedEnergyTargetEnergyDeposition"; "Record"]
  [
    (* opendis/record/warfare/__init__.py:260-265 *)
    ("__init__", MMeth (mkmeth KNormal false [("self", None); ("targetEntityID", Some (DLit (LNone))); ("peakIrradiance", Some (DLit (LFloat 0)))]
       [SetAttr (Loc "self") "targetEntityID" (OrE (Loc "targetEntityID") (CallV (Glob "EntityIdentifier") [] []));
       SetAttr (Loc "self") "padding" (Lit (LInt 0));
       SetAttr (Loc "self") "peakIrradiance" (Loc "peakIrradiance")]));
    (* opendis/record/warfare/__init__.py:267-268 *)
    ("marshalledSize", MMeth (mkmeth KNormal false [("self", None)]
       [Return (Bin OAdd (Meth (Attr (Loc "self") "targetEntityID") "marshalledSize" [] []) (Lit (LInt 6)))]));
    (* opendis/record/warfare/__init__.py:270-274 *)
    ("serialize", MMeth (mkmeth KNormal false [("self", None); ("outputStream", None)]
       [Expr (Super "DirectedEnergyTargetEnergyDeposition" "serialize" [(Loc "outputStream")] []);
       Expr (Meth (Attr (Loc "self") "targetEntityID") "serialize" [(Loc "outputStream")] []);
       Expr (Meth (Loc "outputStream") "write_uint16" [(Attr (Loc "self") "padding")] []);
       Expr (Meth (Loc "outputStream") "write_float32" [(Attr (Loc "self") "peakIrradiance")] [])]));
    (* opendis/record/warfare/__init__.py:276-280 *)
    ("parse", MMeth (mkmeth KNormal false [("self", None); ("inputStream", None)]
       [Expr (Super "DirectedEnergyTargetEnergyDeposition" "parse" [(Loc "inputStream")] []);
       Expr (Meth (Attr (Loc "self") "targetEntityID") "parse" [(Loc "inputStream")] []);
       SetAttr (Loc "self") "padding" (Meth (Loc "inputStream") "read_uint16" [] []);
       SetAttr (Loc "self") "peakIrradiance" (Meth (Loc "inputStream") "read_float32" [] [])]))
  ].

(* opendis/record/__init__.py:48-69  class UnknownStandardVariableRecord(StandardVariableRecord) *)
Definition c_UnknownStandardVariableRecord : cls := mkcls "UnknownStandardVariableRecord" ["UnknownStandardVariableRecord"; "StandardVariableRecord"; "VariableRecord"]
  [
    (* opendis/record/__init__.py:52-53 *)
    ("__init__", MMeth (mkmeth KNormal false [("self", None); ("data", Some (DLit (LBytes [])))]
       [SetAttr (Loc "self") "data" (Loc "data")]));
    (* opendis/record/__init__.py:55-56 *)
    ("marshalledSize", MMeth (mkmeth KNormal false [("self", None)]
       [Return (Bin OAdd (Lit (LInt 6)) (Builtin BLen [(Attr (Loc "self") "data")]))]));
    (* opendis/record/__init__.py:58-62 *)
    ("serialize", MMeth (mkmeth KNormal false [("self", None); ("outputStream", None)]
       [Expr (Super "UnknownStandardVariableRecord" "serialize" [(Loc "outputStream")] []);
       Expr (Meth (Loc "outputStream") "write_uint32" [(Attr (Loc "self") "recordType")] []);
       Expr (Meth (Loc "outputStream") "write_uint16" [(Attr (Loc "self") "recordLength")] []);
       Expr (Meth (Loc "outputStream") "write_bytes" [(Attr (Loc "self") "data")] [])]));
    (* opendis/record/__init__.py:64-69 *)
    ("parse", MMeth (mkmeth KNormal false [("self", None); ("inputStream", None); ("bytelength", None)]
       [Expr (Super "UnknownStandardVariableRecord" "parse" [(Loc "inputStream"); (Loc "bytelength")] []);
       SetAttr (Loc "self") "data" (Meth (Loc "inputStream") "read_bytes" [(Bin OSub (Loc "bytelength") (Lit (LInt 6)))] [])]))
  ].

Definition ProgBase_classes : list (string * cls) :=
  [("DataInputStream", c_DataInputStream);
   ("DataOutputStream", c_DataOutputStream);
   ("Record", c_Record);
   ("VariableRecord", c_VariableRecord);
   ("StandardVariableRecord", c_StandardVariableRecord);
   ("EntityIdentifier", c_EntityIdentifier);
   ("EulerAngles", c_EulerAngles);
   ("EventIdentifier", c_EventIdentifier);
   ("SimulationAddress", c_SimulationAddress);
   ("Vector3Float", c_Vector3Float);
   ("WorldCoordinates", c_WorldCoordinates);
   ("AntennaPatternRecord", c_AntennaPatternRecord);
   ("ModulationParametersRecord", c_ModulationParametersRecord);
   ("UnknownRadio", c_UnknownRadio);
   ("UnknownAntennaPattern", c_UnknownAntennaPattern);
   ("BeamAntennaPattern", c_BeamAntennaPattern);
   ("SpreadSpectrum", c_SpreadSpectrum);
   ("ModulationType", c_ModulationType);
   ("VariableTransmitterParametersRecord", c_VariableTransmitterParametersRecord);
   ("NetId", c_NetId);
   ("GenericRadio", c_GenericRadio);
   ("SimpleIntercomRadio", c_SimpleIntercomRadio);
   ("BasicHaveQuickMP", c_BasicHaveQuickMP);
   ("CCTTSincgarsMP", c_CCTTSincgarsMP);
   ("HighFidelityHAVEQUICKRadio", c_HighFidelityHAVEQUICKRadio);
   ("DEFireFlags", c_DEFireFlags);
   ("DamageDescriptionRecord", c_DamageDescriptionRecord);
   ("DirectedEnergyDamage", c_DirectedEnergyDamage);
   ("DirectedEnergyAreaAimpoint", c_DirectedEnergyAreaAimpoint);
   ("DirectedEnergyPrecisionAimpoint", c_DirectedEnergyPrecisionAimpoint);
   ("DirectedEnergyTargetEnergyDeposition", c_DirectedEnergyTargetEnergyDeposition);
   ("UnknownStandardVariableRecord", c_UnknownStandardVariableRecord)].
