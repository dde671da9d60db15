(* GENERATED by tools/gen.py from the text of /repo; do not edit. *)
From Coq Require Import ZArith String List.
From Verif Require Import Lang.
Import ListNotations.
Open Scope string_scope. Open Scope Z_scope. Open Scope list_scope.

(* opendis/dis7.py:71-112  class DataQueryDatumSpecification() *)
Definition c_DataQueryDatumSpecification : cls := mkcls "DataQueryDatumSpecification" ["DataQueryDatumSpecification"]
  [
    (* opendis/dis7.py:77-83 *)
    ("__init__", MMeth (mkmeth KNormal false [("self", None); ("fixedDatumIDs", Some (DLit (LNone))); ("variableDatumIDs", Some (DLit (LNone)))]
       [SetAttr (Loc "self") "fixedDatumIDs" (OrE (Loc "fixedDatumIDs") (ListE []));
       SetAttr (Loc "self") "variableDatumIDs" (OrE (Loc "variableDatumIDs") (ListE []))]));
    (* opendis/dis7.py:86-87 *)
    ("numberOfFixedDatumIDs", MMeth (mkmeth KProperty false [("self", None)]
       [Return (Builtin BLen [(Attr (Loc "self") "fixedDatumIDs")])]));
    (* opendis/dis7.py:90-91 *)
    ("numberOfVariableDatumIDs", MMeth (mkmeth KProperty false [("self", None)]
       [Return (Builtin BLen [(Attr (Loc "self") "variableDatumIDs")])]));
    (* opendis/dis7.py:93-101 *)
    ("serialize", MMeth (mkmeth KNormal false [("self", None); ("outputStream", None)]
       [Expr (Meth (Loc "outputStream") "write_unsigned_int" [(Attr (Loc "self") "numberOfFixedDatumIDs")] []);
       Expr (Meth (Loc "outputStream") "write_unsigned_int" [(Attr (Loc "self") "numberOfVariableDatumIDs")] []);
       For "datumID" (Attr (Loc "self") "fixedDatumIDs") [Expr (Meth (Loc "outputStream") "write_unsigned_int" [(Loc "datumID")] [])];
       For "datumID" (Attr (Loc "self") "variableDatumIDs") [Expr (Meth (Loc "outputStream") "write_unsigned_int" [(Loc "datumID")] [])]]));
    (* opendis/dis7.py:103-112 *)
    ("parse", MMeth (mkmeth KNormal false [("self", None); ("inputStream", None)]
       [Assign "numberOfFixedDatumIDs" (Meth (Loc "inputStream") "read_unsigned_int" [] []);
       Assign "numberOfVariableDatumIDs" (Meth (Loc "inputStream") "read_unsigned_int" [] []);
       For "idx" (Builtin BRange [(Lit (LInt 0)); (Loc "numberOfFixedDatumIDs")]) [Assign "datumID" (Meth (Loc "inputStream") "read_unsigned_int" [] []); Expr (Meth (Attr (Loc "self") "fixedDatumIDs") "append" [(Loc "datumID")] [])];
       For "idx" (Builtin BRange [(Lit (LInt 0)); (Loc "numberOfVariableDatumIDs")]) [Assign "datumID" (Meth (Loc "inputStream") "read_unsigned_int" [] []); Expr (Meth (Attr (Loc "self") "variableDatumIDs") "append" [(Loc "datumID")] [])]]))
  ].

(* opendis/dis7.py:115-144  class RadioIdentifier() *)
Definition c_RadioIdentifier : cls := mkcls "RadioIdentifier" ["RadioIdentifier"]
  [
    (* opendis/dis7.py:122-130 *)
    ("__init__", MMeth (mkmeth KNormal false [("self", None); ("siteNumber", Some (DLit (LInt 0))); ("applicationNumber", Some (DLit (LInt 0))); ("referenceNumber", Some (DLit (LInt 0))); ("radioNumber", Some (DLit (LInt 0)))]
       [SetAttr (Loc "self") "siteNumber" (Loc "siteNumber");
       SetAttr (Loc "self") "applicationNumber" (Loc "applicationNumber");
       SetAttr (Loc "self") "referenceNumber" (Loc "referenceNumber");
       SetAttr (Loc "self") "radioNumber" (Loc "radioNumber")]));
    (* opendis/dis7.py:132-137 *)
    ("serialize", MMeth (mkmeth KNormal false [("self", None); ("outputStream", None)]
       [Expr (Meth (Loc "outputStream") "write_unsigned_short" [(Attr (Loc "self") "siteNumber")] []);
       Expr (Meth (Loc "outputStream") "write_unsigned_short" [(Attr (Loc "self") "applicationNumber")] []);
       Expr (Meth (Loc "outputStream") "write_unsigned_short" [(Attr (Loc "self") "referenceNumber")] []);
       Expr (Meth (Loc "outputStream") "write_unsigned_short" [(Attr (Loc "self") "radioNumber")] [])]));
    (* opendis/dis7.py:139-144 *)
    ("parse", MMeth (mkmeth KNormal false [("self", None); ("inputStream", None)]
       [SetAttr (Loc "self") "siteNumber" (Meth (Loc "inputStream") "read_unsigned_short" [] []);
       SetAttr (Loc "self") "applicationNumber" (Meth (Loc "inputStream") "read_unsigned_short" [] []);
       SetAttr (Loc "self") "referenceNumber" (Meth (Loc "inputStream") "read_unsigned_short" [] []);
       SetAttr (Loc "self") "radioNumber" (Meth (Loc "inputStream") "read_unsigned_short" [] [])]))
  ].

(* opendis/dis7.py:147-164  class RequestID() *)
Definition c_RequestID : cls := mkcls "RequestID" ["RequestID"]
  [
    (* opendis/dis7.py:154-156 *)
    ("__init__", MMeth (mkmeth KNormal false [("self", None); ("requestID", Some (DLit (LInt 0)))]
       [SetAttr (Loc "self") "requestID" (Loc "requestID")]));
    (* opendis/dis7.py:158-160 *)
    ("serialize", MMeth (mkmeth KNormal false [("self", None); ("outputStream", None)]
       [Expr (Meth (Loc "outputStream") "write_unsigned_int" [(Attr (Loc "self") "requestID")] [])]));
    (* opendis/dis7.py:162-164 *)
    ("parse", MMeth (mkmeth KNormal false [("self", None); ("inputStream", None)]
       [SetAttr (Loc "self") "requestID" (Meth (Loc "inputStream") "read_unsigned_int" [] [])]))
  ].

(* opendis/dis7.py:167-201  class IFFData() *)
Definition c_IFFData : cls := mkcls "IFFData" ["IFFData"]
  [
    (* opendis/dis7.py:173-182 *)
    ("__init__", MMeth (mkmeth KNormal false [("self", None); ("recordType", Some (DLit (LInt 0))); ("recordLength", Some (DLit (LInt 0))); ("iffData", Some (DLit (LNone)))]
       [SetAttr (Loc "self") "recordType" (Loc "recordType");
       SetAttr (Loc "self") "recordLength" (Loc "recordLength");
       SetAttr (Loc "self") "iffData" (OrE (Loc "iffData") (ListE []))]));
    (* opendis/dis7.py:184-190 *)
    ("serialize", MMeth (mkmeth KNormal false [("self", None); ("outputStream", None)]
       [Expr (Meth (Loc "outputStream") "write_unsigned_int" [(Attr (Loc "self") "recordType")] []);
       Expr (Meth (Loc "outputStream") "write_unsigned_short" [(Builtin BLen [(Attr (Loc "self") "iffData")])] []);
       For "anObj" (Attr (Loc "self") "iffData") [Expr (Meth (Loc "outputStream") "write_unsigned_byte" [(Loc "anObj")] [])]]));
    (* opendis/dis7.py:192-201 *)
    ("parse", MMeth (mkmeth KNormal false [("self", None); ("inputStream", None)]
       [SetAttr (Loc "self") "recordType" (Meth (Loc "inputStream") "read_unsigned_int" [] []);
       SetAttr (Loc "self") "recordLength" (Meth (Loc "inputStream") "read_unsigned_short" [] []);
       For "idx" (Builtin BRange [(Lit (LInt 0)); (Bin OSub (Attr (Loc "self") "recordLength") (Lit (LInt 6)))]) [Assign "val" (Meth (Loc "inputStream") "read_unsigned_byte" [] []); Expr (Meth (Attr (Loc "self") "iffData") "append" [(Loc "val")] [])]]))
  ].

(* opendis/dis7.py:204-243  class MunitionDescriptor() *)
Definition c_MunitionDescriptor : cls := mkcls "MunitionDescriptor" ["MunitionDescriptor"]
  [
    (* opendis/dis7.py:210-227 *)
    ("__init__", MMeth (mkmeth KNormal false [("self", None); ("munitionType", Some (DLit (LNone))); ("warhead", Some (DLit (LInt 0))); ("fuse", Some (DLit (LInt 0))); ("quantity", Some (DLit (LInt 0))); ("rate", Some (DLit (LInt 0)))]
       [SetAttr (Loc "self") "munitionType" (OrE (Loc "munitionType") (CallV (Glob "EntityType") [] []));
       SetAttr (Loc "self") "warhead" (Loc "warhead");
       SetAttr (Loc "self") "fuse" (Loc "fuse");
       SetAttr (Loc "self") "quantity" (Loc "quantity");
       SetAttr (Loc "self") "rate" (Loc "rate")]));
    (* opendis/dis7.py:229-235 *)
    ("serialize", MMeth (mkmeth KNormal false [("self", None); ("outputStream", None)]
       [Expr (Meth (Attr (Loc "self") "munitionType") "serialize" [(Loc "outputStream")] []);
       Expr (Meth (Loc "outputStream") "write_unsigned_short" [(Attr (Loc "self") "warhead")] []);
       Expr (Meth (Loc "outputStream") "write_unsigned_short" [(Attr (Loc "self") "fuse")] []);
       Expr (Meth (Loc "outputStream") "write_unsigned_short" [(Attr (Loc "self") "quantity")] []);
       Expr (Meth (Loc "outputStream") "write_unsigned_short" [(Attr (Loc "self") "rate")] [])]));
    (* opendis/dis7.py:237-243 *)
    ("parse", MMeth (mkmeth KNormal false [("self", None); ("inputStream", None)]
       [Expr (Meth (Attr (Loc "self") "munitionType") "parse" [(Loc "inputStream")] []);
       SetAttr (Loc "self") "warhead" (Meth (Loc "inputStream") "read_unsigned_short" [] []);
       SetAttr (Loc "self") "fuse" (Meth (Loc "inputStream") "read_unsigned_short" [] []);
       SetAttr (Loc "self") "quantity" (Meth (Loc "inputStream") "read_unsigned_short" [] []);
       SetAttr (Loc "self") "rate" (Meth (Loc "inputStream") "read_unsigned_short" [] [])]))
  ].

(* opendis/dis7.py:246-263  class MinefieldSensorType() *)
Definition c_MinefieldSensorType : cls := mkcls "MinefieldSensorType" ["MinefieldSensorType"]
  [
    (* opendis/dis7.py:252-254 *)
    ("__init__", MMeth (mkmeth KNormal false [("self", None); ("sensorType", Some (DLit (LInt 0)))]
       [SetAttr (Loc "self") "sensorType" (Loc "sensorType")]));
    (* opendis/dis7.py:257-259 *)
    ("serialize", MMeth (mkmeth KNormal false [("self", None); ("outputStream", None)]
       [Expr (Meth (Loc "outputStream") "write_unsigned_short" [(Attr (Loc "self") "sensorType")] [])]));
    (* opendis/dis7.py:261-263 *)
    ("parse", MMeth (mkmeth KNormal false [("self", None); ("inputStream", None)]
       [SetAttr (Loc "self") "sensorType" (Meth (Loc "inputStream") "read_unsigned_short" [] [])]))
  ].

(* opendis/dis7.py:266-289  class GroupID() *)
Definition c_GroupID : cls := mkcls "GroupID" ["GroupID"]
  [
    (* opendis/dis7.py:273-279 *)
    ("__init__", MMeth (mkmeth KNormal false [("self", None); ("simulationAddress", Some (DLit (LNone))); ("groupNumber", Some (DLit (LInt 0)))]
       [SetAttr (Loc "self") "simulationAddress" (OrE (Loc "simulationAddress") (CallV (Glob "SimulationAddress") [] []));
       SetAttr (Loc "self") "groupNumber" (Loc "groupNumber")]));
    (* opendis/dis7.py:281-284 *)
    ("serialize", MMeth (mkmeth KNormal false [("self", None); ("outputStream", None)]
       [Expr (Meth (Attr (Loc "self") "simulationAddress") "serialize" [(Loc "outputStream")] []);
       Expr (Meth (Loc "outputStream") "write_unsigned_short" [(Attr (Loc "self") "groupNumber")] [])]));
    (* opendis/dis7.py:286-289 *)
    ("parse", MMeth (mkmeth KNormal false [("self", None); ("inputStream", None)]
       [Expr (Meth (Attr (Loc "self") "simulationAddress") "parse" [(Loc "inputStream")] []);
       SetAttr (Loc "self") "groupNumber" (Meth (Loc "inputStream") "read_unsigned_short" [] [])]))
  ].

(* opendis/dis7.py:292-319  class LayerHeader() *)
Definition c_LayerHeader : cls := mkcls "LayerHeader" ["LayerHeader"]
  [
    (* opendis/dis7.py:299-307 *)
    ("__init__", MMeth (mkmeth KNormal false [("self", None); ("layerNumber", Some (DLit (LInt 0))); ("layerSpecificInformation", Some (DLit (LInt 0))); ("length", Some (DLit (LInt 0)))]
       [SetAttr (Loc "self") "layerNumber" (Loc "layerNumber");
       SetAttr (Loc "self") "layerSpecificInformation" (Loc "layerSpecificInformation");
       SetAttr (Loc "self") "length" (Loc "length")]));
    (* opendis/dis7.py:309-313 *)
    ("serialize", MMeth (mkmeth KNormal false [("self", None); ("outputStream", None)]
       [Expr (Meth (Loc "outputStream") "write_unsigned_byte" [(Attr (Loc "self") "layerNumber")] []);
       Expr (Meth (Loc "outputStream") "write_unsigned_byte" [(Attr (Loc "self") "layerSpecificInformation")] []);
       Expr (Meth (Loc "outputStream") "write_unsigned_short" [(Attr (Loc "self") "length")] [])]));
    (* opendis/dis7.py:315-319 *)
    ("parse", MMeth (mkmeth KNormal false [("self", None); ("inputStream", None)]
       [SetAttr (Loc "self") "layerNumber" (Meth (Loc "inputStream") "read_unsigned_byte" [] []);
       SetAttr (Loc "self") "layerSpecificInformation" (Meth (Loc "inputStream") "read_unsigned_byte" [] []);
       SetAttr (Loc "self") "length" (Meth (Loc "inputStream") "read_unsigned_short" [] [])]))
  ].

(* opendis/dis7.py:322-335  class UnsignedDISInteger() *)
Definition c_UnsignedDISInteger : cls := mkcls "UnsignedDISInteger" ["UnsignedDISInteger"]
  [
    (* opendis/dis7.py:325-327 *)
    ("__init__", MMeth (mkmeth KNormal false [("self", None); ("val", Some (DLit (LInt 0)))]
       [SetAttr (Loc "self") "val" (Loc "val")]));
    (* opendis/dis7.py:329-331 *)
    ("serialize", MMeth (mkmeth KNormal false [("self", None); ("outputStream", None)]
       [Expr (Meth (Loc "outputStream") "write_unsigned_int" [(Attr (Loc "self") "val")] [])]));
    (* opendis/dis7.py:333-335 *)
    ("parse", MMeth (mkmeth KNormal false [("self", None); ("inputStream", None)]
       [SetAttr (Loc "self") "val" (Meth (Loc "inputStream") "read_unsigned_int" [] [])]))
  ].

(* opendis/dis7.py:338-375  class DeadReckoningParameters() *)
Definition c_DeadReckoningParameters : cls := mkcls "DeadReckoningParameters" ["DeadReckoningParameters"]
  [
    (* opendis/dis7.py:341-354 *)
    ("__init__", MMeth (mkmeth KNormal false [("self", None); ("deadReckoningAlgorithm", Some (DLit (LInt 0))); ("parameters", Some (DLit (LNone))); ("entityLinearAcceleration", Some (DLit (LNone))); ("entityAngularVelocity", Some (DLit (LNone)))]
       [SetAttr (Loc "self") "deadReckoningAlgorithm" (Loc "deadReckoningAlgorithm");
       SetAttr (Loc "self") "parameters" (OrE (Loc "parameters") (Bin OMul (ListE [(Lit (LInt 0))]) (Lit (LInt 15))));
       SetAttr (Loc "self") "entityLinearAcceleration" (OrE (Loc "entityLinearAcceleration") (CallV (Glob "Vector3Float") [] []));
       SetAttr (Loc "self") "entityAngularVelocity" (OrE (Loc "entityAngularVelocity") (CallV (Glob "Vector3Float") [] []))]));
    (* opendis/dis7.py:356-363 *)
    ("serialize", MMeth (mkmeth KNormal false [("self", None); ("outputStream", None)]
       [Expr (Meth (Loc "outputStream") "write_unsigned_byte" [(Attr (Loc "self") "deadReckoningAlgorithm")] []);
       For "idx" (Builtin BRange [(Lit (LInt 0)); (Lit (LInt 15))]) [Expr (Meth (Loc "outputStream") "write_unsigned_byte" [(Sub (Attr (Loc "self") "parameters") (Loc "idx"))] [])];
       Expr (Meth (Attr (Loc "self") "entityLinearAcceleration") "serialize" [(Loc "outputStream")] []);
       Expr (Meth (Attr (Loc "self") "entityAngularVelocity") "serialize" [(Loc "outputStream")] [])]));
    (* opendis/dis7.py:365-375 *)
    ("parse", MMeth (mkmeth KNormal false [("self", None); ("inputStream", None)]
       [SetAttr (Loc "self") "deadReckoningAlgorithm" (Meth (Loc "inputStream") "read_unsigned_byte" [] []);
       SetAttr (Loc "self") "parameters" (Bin OMul (ListE [(Lit (LInt 0))]) (Lit (LInt 15)));
       For "idx" (Builtin BRange [(Lit (LInt 0)); (Lit (LInt 15))]) [Assign "val" (Meth (Loc "inputStream") "read_unsigned_byte" [] []); SetSub (Attr (Loc "self") "parameters") (Loc "idx") (Loc "val")];
       Expr (Meth (Attr (Loc "self") "entityLinearAcceleration") "parse" [(Loc "inputStream")] []);
       Expr (Meth (Attr (Loc "self") "entityAngularVelocity") "parse" [(Loc "inputStream")] [])]))
  ].

(* opendis/dis7.py:378-394  class ProtocolMode() *)
Definition c_ProtocolMode : cls := mkcls "ProtocolMode" ["ProtocolMode"]
  [
    (* opendis/dis7.py:384-386 *)
    ("__init__", MMeth (mkmeth KNormal false [("self", None); ("protocolMode", Some (DLit (LInt 0)))]
       [SetAttr (Loc "self") "protocolMode" (Loc "protocolMode")]));
    (* opendis/dis7.py:388-390 *)
    ("serialize", MMeth (mkmeth KNormal false [("self", None); ("outputStream", None)]
       [Expr (Meth (Loc "outputStream") "write_unsigned_short" [(Attr (Loc "self") "protocolMode")] [])]));
    (* opendis/dis7.py:392-394 *)
    ("parse", MMeth (mkmeth KNormal false [("self", None); ("inputStream", None)]
       [SetAttr (Loc "self") "protocolMode" (Meth (Loc "inputStream") "read_unsigned_short" [] [])]))
  ].

(* opendis/dis7.py:397-472  class AngleDeception() *)
Definition c_AngleDeception : cls := mkcls "AngleDeception" ["AngleDeception"]
  [
    (* opendis/dis7.py:406 *)
    ("recordType", MAttr (LInt 3501));
    (* opendis/dis7.py:407 *)
    ("recordLength", MAttr (LInt 48));
    (* opendis/dis7.py:409-434 *)
    ("__init__", MMeth (mkmeth KNormal false [("self", None); ("emitterNumber", Some (DLit (LInt 0))); ("beamNumber", Some (DLit (LInt 0))); ("stateIndicator", Some (DLit (LInt 0))); ("azimuthOffset", Some (DLit (LFloat 0))); ("azimuthWidth", Some (DLit (LFloat 0))); ("azimuthPullRate", Some (DLit (LFloat 0))); ("azimuthPullAcceleration", Some (DLit (LFloat 0))); ("elevationOffset", Some (DLit (LFloat 0))); ("elevationWidth", Some (DLit (LFloat 0))); ("elevationPullRate", Some (DLit (LFloat 0))); ("elevationPullAcceleration", Some (DLit (LFloat 0)))]
       [SetAttr (Loc "self") "padding" (Lit (LInt 0));
       SetAttr (Loc "self") "emitterNumber" (Loc "emitterNumber");
       SetAttr (Loc "self") "beamNumber" (Loc "beamNumber");
       SetAttr (Loc "self") "stateIndicator" (Loc "stateIndicator");
       SetAttr (Loc "self") "padding2" (Lit (LInt 0));
       SetAttr (Loc "self") "azimuthOffset" (Loc "azimuthOffset");
       SetAttr (Loc "self") "azimuthWidth" (Loc "azimuthWidth");
       SetAttr (Loc "self") "azimuthPullRate" (Loc "azimuthPullRate");
       SetAttr (Loc "self") "azimuthPullAcceleration" (Loc "azimuthPullAcceleration");
       SetAttr (Loc "self") "elevationOffset" (Loc "elevationOffset");
       SetAttr (Loc "self") "elevationWidth" (Loc "elevationWidth");
       SetAttr (Loc "self") "elevationPullRate" (Loc "elevationPullRate");
       SetAttr (Loc "self") "elevationPullAcceleration" (Loc "elevationPullAcceleration");
       SetAttr (Loc "self") "padding3" (Lit (LInt 0))]));
    (* opendis/dis7.py:436-453 *)
    ("serialize", MMeth (mkmeth KNormal false [("self", None); ("outputStream", None)]
       [Expr (Meth (Loc "outputStream") "write_unsigned_int" [(Attr (Loc "self") "recordType")] []);
       Expr (Meth (Loc "outputStream") "write_unsigned_short" [(Attr (Loc "self") "recordLength")] []);
       Expr (Meth (Loc "outputStream") "write_unsigned_short" [(Attr (Loc "self") "padding")] []);
       Expr (Meth (Loc "outputStream") "write_unsigned_byte" [(Attr (Loc "self") "emitterNumber")] []);
       Expr (Meth (Loc "outputStream") "write_unsigned_byte" [(Attr (Loc "self") "beamNumber")] []);
       Expr (Meth (Loc "outputStream") "write_unsigned_byte" [(Attr (Loc "self") "stateIndicator")] []);
       Expr (Meth (Loc "outputStream") "write_unsigned_byte" [(Attr (Loc "self") "padding2")] []);
       Expr (Meth (Loc "outputStream") "write_float" [(Attr (Loc "self") "azimuthOffset")] []);
       Expr (Meth (Loc "outputStream") "write_float" [(Attr (Loc "self") "azimuthWidth")] []);
       Expr (Meth (Loc "outputStream") "write_float" [(Attr (Loc "self") "azimuthPullRate")] []);
       Expr (Meth (Loc "outputStream") "write_float" [(Attr (Loc "self") "azimuthPullAcceleration")] []);
       Expr (Meth (Loc "outputStream") "write_float" [(Attr (Loc "self") "elevationOffset")] []);
       Expr (Meth (Loc "outputStream") "write_float" [(Attr (Loc "self") "elevationWidth")] []);
       Expr (Meth (Loc "outputStream") "write_float" [(Attr (Loc "self") "elevationPullRate")] []);
       Expr (Meth (Loc "outputStream") "write_float" [(Attr (Loc "self") "elevationPullAcceleration")] []);
       Expr (Meth (Loc "outputStream") "write_unsigned_int" [(Attr (Loc "self") "padding3")] [])]));
    (* opendis/dis7.py:455-472 *)
    ("parse", MMeth (mkmeth KNormal false [("self", None); ("inputStream", None)]
       [SetAttr (Loc "self") "recordType" (Meth (Loc "inputStream") "read_unsigned_int" [] []);
       SetAttr (Loc "self") "recordLength" (Meth (Loc "inputStream") "read_unsigned_short" [] []);
       SetAttr (Loc "self") "padding" (Meth (Loc "inputStream") "read_unsigned_short" [] []);
       SetAttr (Loc "self") "emitterNumber" (Meth (Loc "inputStream") "read_unsigned_byte" [] []);
       SetAttr (Loc "self") "beamNumber" (Meth (Loc "inputStream") "read_unsigned_byte" [] []);
       SetAttr (Loc "self") "stateIndicator" (Meth (Loc "inputStream") "read_unsigned_byte" [] []);
       SetAttr (Loc "self") "padding2" (Meth (Loc "inputStream") "read_unsigned_byte" [] []);
       SetAttr (Loc "self") "azimuthOffset" (Meth (Loc "inputStream") "read_float" [] []);
       SetAttr (Loc "self") "azimuthWidth" (Meth (Loc "inputStream") "read_float" [] []);
       SetAttr (Loc "self") "azimuthPullRate" (Meth (Loc "inputStream") "read_float" [] []);
       SetAttr (Loc "self") "azimuthPullAcceleration" (Meth (Loc "inputStream") "read_float" [] []);
       SetAttr (Loc "self") "elevationOffset" (Meth (Loc "inputStream") "read_float" [] []);
       SetAttr (Loc "self") "elevationWidth" (Meth (Loc "inputStream") "read_float" [] []);
       SetAttr (Loc "self") "elevationPullRate" (Meth (Loc "inputStream") "read_float" [] []);
       SetAttr (Loc "self") "elevationPullAcceleration" (Meth (Loc "inputStream") "read_float" [] []);
       SetAttr (Loc "self") "padding3" (Meth (Loc "inputStream") "read_unsigned_int" [] [])]))
  ].

(* opendis/dis7.py:475-530  class EntityAssociation() *)
Definition c_EntityAssociation : cls := mkcls "EntityAssociation" ["EntityAssociation"]
  [
    (* opendis/dis7.py:480 *)
    ("recordType", MAttr (LInt 4));
    (* opendis/dis7.py:482-506 *)
    ("__init__", MMeth (mkmeth KNormal false [("self", None); ("changeIndicator", Some (DLit (LInt 0))); ("associationStatus", Some (DLit (LInt 0))); ("associationType", Some (DLit (LInt 0))); ("entityID", Some (DLit (LNone))); ("ownStationLocation", Some (DLit (LInt 0))); ("physicalConnectionType", Some (DLit (LInt 0))); ("groupMemberType", Some (DLit (LInt 0))); ("groupNumber", Some (DLit (LInt 0)))]
       [SetAttr (Loc "self") "changeIndicator" (Loc "changeIndicator");
       SetAttr (Loc "self") "associationStatus" (Loc "associationStatus");
       SetAttr (Loc "self") "associationType" (Loc "associationType");
       SetAttr (Loc "self") "entityID" (OrE (Loc "entityID") (CallV (Glob "EntityIdentifier") [] []));
       SetAttr (Loc "self") "ownStationLocation" (Loc "ownStationLocation");
       SetAttr (Loc "self") "physicalConnectionType" (Loc "physicalConnectionType");
       SetAttr (Loc "self") "groupMemberType" (Loc "groupMemberType");
       SetAttr (Loc "self") "groupNumber" (Loc "groupNumber")]));
    (* opendis/dis7.py:508-518 *)
    ("serialize", MMeth (mkmeth KNormal false [("self", None); ("outputStream", None)]
       [Expr (Meth (Loc "outputStream") "write_unsigned_byte" [(Attr (Loc "self") "recordType")] []);
       Expr (Meth (Loc "outputStream") "write_unsigned_byte" [(Attr (Loc "self") "changeIndicator")] []);
       Expr (Meth (Loc "outputStream") "write_unsigned_byte" [(Attr (Loc "self") "associationStatus")] []);
       Expr (Meth (Loc "outputStream") "write_unsigned_byte" [(Attr (Loc "self") "associationType")] []);
       Expr (Meth (Attr (Loc "self") "entityID") "serialize" [(Loc "outputStream")] []);
       Expr (Meth (Loc "outputStream") "write_unsigned_short" [(Attr (Loc "self") "ownStationLocation")] []);
       Expr (Meth (Loc "outputStream") "write_unsigned_byte" [(Attr (Loc "self") "physicalConnectionType")] []);
       Expr (Meth (Loc "outputStream") "write_unsigned_byte" [(Attr (Loc "self") "groupMemberType")] []);
       Expr (Meth (Loc "outputStream") "write_unsigned_short" [(Attr (Loc "self") "groupNumber")] [])]));
    (* opendis/dis7.py:520-530 *)
    ("parse", MMeth (mkmeth KNormal false [("self", None); ("inputStream", None)]
       [SetAttr (Loc "self") "recordType" (Meth (Loc "inputStream") "read_unsigned_byte" [] []);
       SetAttr (Loc "self") "changeIndicator" (Meth (Loc "inputStream") "read_unsigned_byte" [] []);
       SetAttr (Loc "self") "associationStatus" (Meth (Loc "inputStream") "read_unsigned_byte" [] []);
       SetAttr (Loc "self") "associationType" (Meth (Loc "inputStream") "read_unsigned_byte" [] []);
       Expr (Meth (Attr (Loc "self") "entityID") "parse" [(Loc "inputStream")] []);
       SetAttr (Loc "self") "ownStationLocation" (Meth (Loc "inputStream") "read_unsigned_short" [] []);
       SetAttr (Loc "self") "physicalConnectionType" (Meth (Loc "inputStream") "read_unsigned_byte" [] []);
       SetAttr (Loc "self") "groupMemberType" (Meth (Loc "inputStream") "read_unsigned_byte" [] []);
       SetAttr (Loc "self") "groupNumber" (Meth (Loc "inputStream") "read_unsigned_short" [] [])]))
  ].

(* opendis/dis7.py:533-553  class VectoringNozzleSystem() *)
Definition c_VectoringNozzleSystem : cls := mkcls "VectoringNozzleSystem" ["VectoringNozzleSystem"]
  [
    (* opendis/dis7.py:539-543 *)
    ("__init__", MMeth (mkmeth KNormal false [("self", None); ("horizontalDeflectionAngle", Some (DLit (LFloat 0))); ("verticalDeflectionAngle", Some (DLit (LFloat 0)))]
       [SetAttr (Loc "self") "horizontalDeflectionAngle" (Loc "horizontalDeflectionAngle");
       SetAttr (Loc "self") "verticalDeflectionAngle" (Loc "verticalDeflectionAngle")]));
    (* opendis/dis7.py:545-548 *)
    ("serialize", MMeth (mkmeth KNormal false [("self", None); ("outputStream", None)]
       [Expr (Meth (Loc "outputStream") "write_float" [(Attr (Loc "self") "horizontalDeflectionAngle")] []);
       Expr (Meth (Loc "outputStream") "write_float" [(Attr (Loc "self") "verticalDeflectionAngle")] [])]));
    (* opendis/dis7.py:550-553 *)
    ("parse", MMeth (mkmeth KNormal false [("self", None); ("inputStream", None)]
       [SetAttr (Loc "self") "horizontalDeflectionAngle" (Meth (Loc "inputStream") "read_float" [] []);
       SetAttr (Loc "self") "verticalDeflectionAngle" (Meth (Loc "inputStream") "read_float" [] [])]))
  ].

(* opendis/dis7.py:556-621  class FalseTargetsAttribute() *)
Definition c_FalseTargetsAttribute : cls := mkcls "FalseTargetsAttribute" ["FalseTargetsAttribute"]
  [
    (* opendis/dis7.py:566 *)
    ("recordType", MAttr (LInt 3502));
    (* opendis/dis7.py:567 *)
    ("recordLength", MAttr (LInt 48));
    (* opendis/dis7.py:569-589 *)
    ("__init__", MMeth (mkmeth KNormal false [("self", None); ("emitterNumber", Some (DLit (LInt 0))); ("beamNumber", Some (DLit (LInt 0))); ("stateIndicator", Some (DLit (LInt 0))); ("falseTargetCount", Some (DLit (LInt 0))); ("walkSpeed", Some (DLit (LFloat 0))); ("walkAcceleration", Some (DLit (LFloat 0))); ("maximumWalkDistance", Some (DLit (LFloat 0))); ("keepTime", Some (DLit (LFloat 0))); ("echoSpacing", Some (DLit (LFloat 0)))]
       [SetAttr (Loc "self") "padding" (Lit (LInt 0));
       SetAttr (Loc "self") "emitterNumber" (Loc "emitterNumber");
       SetAttr (Loc "self") "beamNumber" (Loc "beamNumber");
       SetAttr (Loc "self") "stateIndicator" (Loc "stateIndicator");
       SetAttr (Loc "self") "padding2" (Lit (LInt 0));
       SetAttr (Loc "self") "falseTargetCount" (Loc "falseTargetCount");
       SetAttr (Loc "self") "walkSpeed" (Loc "walkSpeed");
       SetAttr (Loc "self") "walkAcceleration" (Loc "walkAcceleration");
       SetAttr (Loc "self") "maximumWalkDistance" (Loc "maximumWalkDistance");
       SetAttr (Loc "self") "keepTime" (Loc "keepTime");
       SetAttr (Loc "self") "echoSpacing" (Loc "echoSpacing")]));
    (* opendis/dis7.py:591-605 *)
    ("serialize", MMeth (mkmeth KNormal false [("self", None); ("outputStream", None)]
       [Expr (Meth (Loc "outputStream") "write_unsigned_int" [(Attr (Loc "self") "recordType")] []);
       Expr (Meth (Loc "outputStream") "write_unsigned_short" [(Attr (Loc "self") "recordLength")] []);
       Expr (Meth (Loc "outputStream") "write_unsigned_short" [(Attr (Loc "self") "padding")] []);
       Expr (Meth (Loc "outputStream") "write_unsigned_byte" [(Attr (Loc "self") "emitterNumber")] []);
       Expr (Meth (Loc "outputStream") "write_unsigned_byte" [(Attr (Loc "self") "beamNumber")] []);
       Expr (Meth (Loc "outputStream") "write_unsigned_byte" [(Attr (Loc "self") "stateIndicator")] []);
       Expr (Meth (Loc "outputStream") "write_unsigned_byte" [(Attr (Loc "self") "padding2")] []);
       Expr (Meth (Loc "outputStream") "write_unsigned_short" [(Attr (Loc "self") "falseTargetCount")] []);
       Expr (Meth (Loc "outputStream") "write_float" [(Attr (Loc "self") "walkSpeed")] []);
       Expr (Meth (Loc "outputStream") "write_float" [(Attr (Loc "self") "walkAcceleration")] []);
       Expr (Meth (Loc "outputStream") "write_float" [(Attr (Loc "self") "maximumWalkDistance")] []);
       Expr (Meth (Loc "outputStream") "write_float" [(Attr (Loc "self") "keepTime")] []);
       Expr (Meth (Loc "outputStream") "write_float" [(Attr (Loc "self") "echoSpacing")] [])]));
    (* opendis/dis7.py:607-621 *)
    ("parse", MMeth (mkmeth KNormal false [("self", None); ("inputStream", None)]
       [SetAttr (Loc "self") "recordType" (Meth (Loc "inputStream") "read_unsigned_int" [] []);
       SetAttr (Loc "self") "recordLength" (Meth (Loc "inputStream") "read_unsigned_short" [] []);
       SetAttr (Loc "self") "padding" (Meth (Loc "inputStream") "read_unsigned_short" [] []);
       SetAttr (Loc "self") "emitterNumber" (Meth (Loc "inputStream") "read_unsigned_byte" [] []);
       SetAttr (Loc "self") "beamNumber" (Meth (Loc "inputStream") "read_unsigned_byte" [] []);
       SetAttr (Loc "self") "stateIndicator" (Meth (Loc "inputStream") "read_unsigned_byte" [] []);
       SetAttr (Loc "self") "padding2" (Meth (Loc "inputStream") "read_unsigned_byte" [] []);
       SetAttr (Loc "self") "falseTargetCount" (Meth (Loc "inputStream") "read_unsigned_short" [] []);
       SetAttr (Loc "self") "walkSpeed" (Meth (Loc "inputStream") "read_float" [] []);
       SetAttr (Loc "self") "walkAcceleration" (Meth (Loc "inputStream") "read_float" [] []);
       SetAttr (Loc "self") "maximumWalkDistance" (Meth (Loc "inputStream") "read_float" [] []);
       SetAttr (Loc "self") "keepTime" (Meth (Loc "inputStream") "read_float" [] []);
       SetAttr (Loc "self") "echoSpacing" (Meth (Loc "inputStream") "read_float" [] [])]))
  ].

(* opendis/dis7.py:624-644  class MinefieldIdentifier() *)
Definition c_MinefieldIdentifier : cls := mkcls "MinefieldIdentifier" ["MinefieldIdentifier"]
  [
    (* opendis/dis7.py:630-634 *)
    ("__init__", MMeth (mkmeth KNormal false [("self", None); ("simulationAddress", Some (DLit (LNone))); ("minefieldNumber", Some (DLit (LInt 0)))]
       [SetAttr (Loc "self") "simulationAddress" (OrE (Loc "simulationAddress") (CallV (Glob "SimulationAddress") [] []));
       SetAttr (Loc "self") "minefieldNumber" (Loc "minefieldNumber")]));
    (* opendis/dis7.py:636-639 *)
    ("serialize", MMeth (mkmeth KNormal false [("self", None); ("outputStream", None)]
       [Expr (Meth (Attr (Loc "self") "simulationAddress") "serialize" [(Loc "outputStream")] []);
       Expr (Meth (Loc "outputStream") "write_unsigned_short" [(Attr (Loc "self") "minefieldNumber")] [])]));
    (* opendis/dis7.py:641-644 *)
    ("parse", MMeth (mkmeth KNormal false [("self", None); ("inputStream", None)]
       [Expr (Meth (Attr (Loc "self") "simulationAddress") "parse" [(Loc "inputStream")] []);
       SetAttr (Loc "self") "minefieldNumber" (Meth (Loc "inputStream") "read_unsigned_short" [] [])]))
  ].

(* opendis/dis7.py:647-690  class RadioType() *)
Definition c_RadioType : cls := mkcls "RadioType" ["RadioType"]
  [
    (* opendis/dis7.py:652 *)
    ("entityKind", MAttr (LInt 7));
    (* opendis/dis7.py:654-670 *)
    ("__init__", MMeth (mkmeth KNormal false [("self", None); ("domain", Some (DLit (LInt 0))); ("country", Some (DLit (LInt 0))); ("category", Some (DLit (LInt 0))); ("subcategory", Some (DLit (LInt 0))); ("specific", Some (DLit (LInt 0))); ("extra", Some (DLit (LInt 0)))]
       [SetAttr (Loc "self") "domain" (Loc "domain");
       SetAttr (Loc "self") "country" (Loc "country");
       SetAttr (Loc "self") "category" (Loc "category");
       SetAttr (Loc "self") "subcategory" (Loc "subcategory");
       SetAttr (Loc "self") "specific" (Loc "specific");
       SetAttr (Loc "self") "extra" (Loc "extra")]));
    (* opendis/dis7.py:672-680 *)
    ("serialize", MMeth (mkmeth KNormal false [("self", None); ("outputStream", None)]
       [Expr (Meth (Loc "outputStream") "write_unsigned_byte" [(Attr (Loc "self") "entityKind")] []);
       Expr (Meth (Loc "outputStream") "write_unsigned_byte" [(Attr (Loc "self") "domain")] []);
       Expr (Meth (Loc "outputStream") "write_unsigned_short" [(Attr (Loc "self") "country")] []);
       Expr (Meth (Loc "outputStream") "write_unsigned_byte" [(Attr (Loc "self") "category")] []);
       Expr (Meth (Loc "outputStream") "write_unsigned_byte" [(Attr (Loc "self") "subcategory")] []);
       Expr (Meth (Loc "outputStream") "write_unsigned_byte" [(Attr (Loc "self") "specific")] []);
       Expr (Meth (Loc "outputStream") "write_unsigned_byte" [(Attr (Loc "self") "extra")] [])]));
    (* opendis/dis7.py:682-690 *)
    ("parse", MMeth (mkmeth KNormal false [("self", None); ("inputStream", None)]
       [SetAttr (Loc "self") "entityKind" (Meth (Loc "inputStream") "read_unsigned_byte" [] []);
       SetAttr (Loc "self") "domain" (Meth (Loc "inputStream") "read_unsigned_byte" [] []);
       SetAttr (Loc "self") "country" (Meth (Loc "inputStream") "read_unsigned_short" [] []);
       SetAttr (Loc "self") "category" (Meth (Loc "inputStream") "read_unsigned_byte" [] []);
       SetAttr (Loc "self") "subcategory" (Meth (Loc "inputStream") "read_unsigned_byte" [] []);
       SetAttr (Loc "self") "specific" (Meth (Loc "inputStream") "read_unsigned_byte" [] []);
       SetAttr (Loc "self") "extra" (Meth (Loc "inputStream") "read_unsigned_byte" [] [])]))
  ].

(* opendis/dis7.py:693-717  class NamedLocationIdentification() *)
Definition c_NamedLocationIdentification : cls := mkcls "NamedLocationIdentification" ["NamedLocationIdentification"]
  [
    (* opendis/dis7.py:700-707 *)
    ("__init__", MMeth (mkmeth KNormal false [("self", None); ("stationName", Some (DLit (LInt 0))); ("stationNumber", Some (DLit (LInt 0)))]
       [SetAttr (Loc "self") "stationName" (Loc "stationName");
       SetAttr (Loc "self") "stationNumber" (Loc "stationNumber")]));
    (* opendis/dis7.py:709-712 *)
    ("serialize", MMeth (mkmeth KNormal false [("self", None); ("outputStream", None)]
       [Expr (Meth (Loc "outputStream") "write_unsigned_short" [(Attr (Loc "self") "stationName")] []);
       Expr (Meth (Loc "outputStream") "write_unsigned_short" [(Attr (Loc "self") "stationNumber")] [])]));
    (* opendis/dis7.py:714-717 *)
    ("parse", MMeth (mkmeth KNormal false [("self", None); ("inputStream", None)]
       [SetAttr (Loc "self") "stationName" (Meth (Loc "inputStream") "read_unsigned_short" [] []);
       SetAttr (Loc "self") "stationNumber" (Meth (Loc "inputStream") "read_unsigned_short" [] [])]))
  ].

(* opendis/dis7.py:720-745  class IFFDataSpecification() *)
Definition c_IFFDataSpecification : cls := mkcls "IFFDataSpecification" ["IFFDataSpecification"]
  [
    (* opendis/dis7.py:726-727 *)
    ("__init__", MMeth (mkmeth KNormal false [("self", None); ("iffDataRecords", Some (DLit (LNone)))]
       [SetAttr (Loc "self") "iffDataRecords" (OrE (Loc "iffDataRecords") (ListE []))]));
    (* opendis/dis7.py:730-731 *)
    ("numberOfIFFDataRecords", MMeth (mkmeth KProperty false [("self", None)]
       [Return (Builtin BLen [(Attr (Loc "self") "iffDataRecords")])]));
    (* opendis/dis7.py:733-737 *)
    ("serialize", MMeth (mkmeth KNormal false [("self", None); ("outputStream", None)]
       [Expr (Meth (Loc "outputStream") "write_unsigned_short" [(Attr (Loc "self") "numberOfIFFDataRecords")] []);
       For "anObj" (Attr (Loc "self") "iffDataRecords") [Expr (Meth (Loc "anObj") "serialize" [(Loc "outputStream")] [])]]));
    (* opendis/dis7.py:739-745 *)
    ("parse", MMeth (mkmeth KNormal false [("self", None); ("inputStream", None)]
       [Assign "numberOfIFFDataRecords" (Meth (Loc "inputStream") "read_unsigned_short" [] []);
       For "idx" (Builtin BRange [(Lit (LInt 0)); (Loc "numberOfIFFDataRecords")]) [Assign "element" (CallV (Glob "IFFData") [] []); Expr (Meth (Loc "element") "parse" [(Loc "inputStream")] []); Expr (Meth (Attr (Loc "self") "iffDataRecords") "append" [(Loc "element")] [])]]))
  ].

(* opendis/dis7.py:748-773  class OwnershipStatus() *)
Definition c_OwnershipStatus : cls := mkcls "OwnershipStatus" ["OwnershipStatus"]
  [
    (* opendis/dis7.py:754-761 *)
    ("__init__", MMeth (mkmeth KNormal false [("self", None); ("entityId", Some (DLit (LNone))); ("ownershipStatus", Some (DLit (LInt 0)))]
       [SetAttr (Loc "self") "entityId" (OrE (Loc "entityId") (CallV (Glob "EntityIdentifier") [] []));
       SetAttr (Loc "self") "ownershipStatus" (Loc "ownershipStatus");
       SetAttr (Loc "self") "padding" (Lit (LInt 0))]));
    (* opendis/dis7.py:763-767 *)
    ("serialize", MMeth (mkmeth KNormal false [("self", None); ("outputStream", None)]
       [Expr (Meth (Attr (Loc "self") "entityId") "serialize" [(Loc "outputStream")] []);
       Expr (Meth (Loc "outputStream") "write_unsigned_byte" [(Attr (Loc "self") "ownershipStatus")] []);
       Expr (Meth (Loc "outputStream") "write_unsigned_byte" [(Attr (Loc "self") "padding")] [])]));
    (* opendis/dis7.py:769-773 *)
    ("parse", MMeth (mkmeth KNormal false [("self", None); ("inputStream", None)]
       [Expr (Meth (Attr (Loc "self") "entityId") "parse" [(Loc "inputStream")] []);
       SetAttr (Loc "self") "ownershipStatus" (Meth (Loc "inputStream") "read_unsigned_byte" [] []);
       SetAttr (Loc "self") "padding" (Meth (Loc "inputStream") "read_unsigned_byte" [] [])]))
  ].

(* opendis/dis7.py:776-811  class AttachedParts() *)
Definition c_AttachedParts : cls := mkcls "AttachedParts" ["AttachedParts"]
  [
    (* opendis/dis7.py:781 *)
    ("recordType", MAttr (LInt 1));
    (* opendis/dis7.py:783-795 *)
    ("__init__", MMeth (mkmeth KNormal false [("self", None); ("detachedIndicator", Some (DLit (LInt 0))); ("partAttachedTo", Some (DLit (LInt 0))); ("parameterType", Some (DLit (LInt 0))); ("attachedPartType", Some (DLit (LNone)))]
       [SetAttr (Loc "self") "detachedIndicator" (Loc "detachedIndicator");
       SetAttr (Loc "self") "partAttachedTo" (Loc "partAttachedTo");
       SetAttr (Loc "self") "parameterType" (Loc "parameterType");
       SetAttr (Loc "self") "attachedPartType" (OrE (Loc "attachedPartType") (CallV (Glob "EntityType") [] []))]));
    (* opendis/dis7.py:797-803 *)
    ("serialize", MMeth (mkmeth KNormal false [("self", None); ("outputStream", None)]
       [Expr (Meth (Loc "outputStream") "write_unsigned_byte" [(Attr (Loc "self") "recordType")] []);
       Expr (Meth (Loc "outputStream") "write_unsigned_byte" [(Attr (Loc "self") "detachedIndicator")] []);
       Expr (Meth (Loc "outputStream") "write_unsigned_short" [(Attr (Loc "self") "partAttachedTo")] []);
       Expr (Meth (Loc "outputStream") "write_unsigned_int" [(Attr (Loc "self") "parameterType")] []);
       Expr (Meth (Loc "outputStream") "write_long" [(Attr (Loc "self") "parameterValue")] [])]));
    (* opendis/dis7.py:805-811 *)
    ("parse", MMeth (mkmeth KNormal false [("self", None); ("inputStream", None)]
       [SetAttr (Loc "self") "recordType" (Meth (Loc "inputStream") "read_unsigned_byte" [] []);
       SetAttr (Loc "self") "detachedIndicator" (Meth (Loc "inputStream") "read_unsigned_byte" [] []);
       SetAttr (Loc "self") "partAttachedTo" (Meth (Loc "inputStream") "read_unsigned_short" [] []);
       SetAttr (Loc "self") "parameterType" (Meth (Loc "inputStream") "read_unsigned_int" [] []);
       SetAttr (Loc "self") "parameterValue" (Meth (Loc "inputStream") "read_long" [] [])]))
  ].

(* opendis/dis7.py:814-839  class Attribute() *)
Definition c_Attribute : cls := mkcls "Attribute" ["Attribute"]
  [
    (* opendis/dis7.py:821-827 *)
    ("__init__", MMeth (mkmeth KNormal false [("self", None); ("recordType", Some (DLit (LInt 0))); ("recordLength", Some (DLit (LInt 0))); ("recordSpecificFields", Some (DLit (LInt 0)))]
       [SetAttr (Loc "self") "recordType" (Loc "recordType");
       SetAttr (Loc "self") "recordLength" (Loc "recordLength");
       SetAttr (Loc "self") "recordSpecificFields" (Loc "recordSpecificFields")]));
    (* opendis/dis7.py:829-833 *)
    ("serialize", MMeth (mkmeth KNormal false [("self", None); ("outputStream", None)]
       [Expr (Meth (Loc "outputStream") "write_unsigned_int" [(Attr (Loc "self") "recordType")] []);
       Expr (Meth (Loc "outputStream") "write_unsigned_short" [(Attr (Loc "self") "recordLength")] []);
       Expr (Meth (Loc "outputStream") "write_long" [(Attr (Loc "self") "recordSpecificFields")] [])]));
    (* opendis/dis7.py:835-839 *)
    ("parse", MMeth (mkmeth KNormal false [("self", None); ("inputStream", None)]
       [SetAttr (Loc "self") "recordType" (Meth (Loc "inputStream") "read_unsigned_int" [] []);
       SetAttr (Loc "self") "recordLength" (Meth (Loc "inputStream") "read_unsigned_short" [] []);
       SetAttr (Loc "self") "recordSpecificFields" (Meth (Loc "inputStream") "read_long" [] [])]))
  ].

(* opendis/dis7.py:842-868  class RecordQuerySpecification() *)
Definition c_RecordQuerySpecification : cls := mkcls "RecordQuerySpecification" ["RecordQuerySpecification"]
  [
    (* opendis/dis7.py:848-851 *)
    ("__init__", MMeth (mkmeth KNormal false [("self", None); ("recordIDs", Some (DLit (LNone)))]
       [SetAttr (Loc "self") "recordIDs" (OrE (Loc "recordIDs") (ListE []))]));
    (* opendis/dis7.py:854-855 *)
    ("numberOfRecords", MMeth (mkmeth KProperty false [("self", None)]
       [Return (Builtin BLen [(Attr (Loc "self") "recordIDs")])]));
    (* opendis/dis7.py:857-861 *)
    ("serialize", MMeth (mkmeth KNormal false [("self", None); ("outputStream", None)]
       [Expr (Meth (Loc "outputStream") "write_unsigned_int" [(Attr (Loc "self") "numberOfRecords")] []);
       For "anObj" (Attr (Loc "self") "recordIDs") [Expr (Meth (Loc "outputStream") "write_unsigned_int" [(Loc "anObj")] [])]]));
    (* opendis/dis7.py:863-868 *)
    ("parse", MMeth (mkmeth KNormal false [("self", None); ("inputStream", None)]
       [Assign "numberOfRecords" (Meth (Loc "inputStream") "read_unsigned_int" [] []);
       For "idx" (Builtin BRange [(Lit (LInt 0)); (Loc "numberOfRecords")]) [Assign "val" (Meth (Loc "inputStream") "read_unsigned_int" [] []); Expr (Meth (Attr (Loc "self") "recordIDs") "append" [(Loc "val")] [])]]))
  ].

(* opendis/dis7.py:871-907  class ArticulatedParts() *)
Definition c_ArticulatedParts : cls := mkcls "ArticulatedParts" ["ArticulatedParts"]
  [
    (* opendis/dis7.py:877 *)
    ("recordType", MAttr (LInt 0));
    (* opendis/dis7.py:879-891 *)
    ("__init__", MMeth (mkmeth KNormal false [("self", None); ("changeIndicator", Some (DLit (LInt 0))); ("partAttachedTo", Some (DLit (LInt 0))); ("parameterType", Some (DLit (LInt 0))); ("parameterValue", Some (DLit (LInt 0)))]
       [SetAttr (Loc "self") "changeIndicator" (Loc "changeIndicator");
       SetAttr (Loc "self") "partAttachedTo" (Loc "partAttachedTo");
       SetAttr (Loc "self") "parameterType" (Loc "parameterType");
       SetAttr (Loc "self") "parameterValue" (Loc "parameterValue")]));
    (* opendis/dis7.py:893-899 *)
    ("serialize", MMeth (mkmeth KNormal false [("self", None); ("outputStream", None)]
       [Expr (Meth (Loc "outputStream") "write_unsigned_byte" [(Attr (Loc "self") "recordType")] []);
       Expr (Meth (Loc "outputStream") "write_unsigned_byte" [(Attr (Loc "self") "changeIndicator")] []);
       Expr (Meth (Loc "outputStream") "write_unsigned_short" [(Attr (Loc "self") "partAttachedTo")] []);
       Expr (Meth (Loc "outputStream") "write_unsigned_int" [(Attr (Loc "self") "parameterType")] []);
       Expr (Meth (Loc "outputStream") "write_long" [(Attr (Loc "self") "parameterValue")] [])]));
    (* opendis/dis7.py:901-907 *)
    ("parse", MMeth (mkmeth KNormal false [("self", None); ("inputStream", None)]
       [SetAttr (Loc "self") "recordType" (Meth (Loc "inputStream") "read_unsigned_byte" [] []);
       SetAttr (Loc "self") "changeIndicator" (Meth (Loc "inputStream") "read_unsigned_byte" [] []);
       SetAttr (Loc "self") "partAttachedTo" (Meth (Loc "inputStream") "read_unsigned_short" [] []);
       SetAttr (Loc "self") "parameterType" (Meth (Loc "inputStream") "read_unsigned_int" [] []);
       SetAttr (Loc "self") "parameterValue" (Meth (Loc "inputStream") "read_long" [] [])]))
  ].

(* opendis/dis7.py:910-942  class ObjectType() *)
Definition c_ObjectType : cls := mkcls "ObjectType" ["ObjectType"]
  [
    (* opendis/dis7.py:916-928 *)
    ("__init__", MMeth (mkmeth KNormal false [("self", None); ("domain", Some (DLit (LInt 0))); ("objectKind", Some (DLit (LInt 0))); ("category", Some (DLit (LInt 0))); ("subcategory", Some (DLit (LInt 0)))]
       [SetAttr (Loc "self") "domain" (Loc "domain");
       SetAttr (Loc "self") "objectKind" (Loc "objectKind");
       SetAttr (Loc "self") "category" (Loc "category");
       SetAttr (Loc "self") "subcategory" (Loc "subcategory")]));
    (* opendis/dis7.py:930-935 *)
    ("serialize", MMeth (mkmeth KNormal false [("self", None); ("outputStream", None)]
       [Expr (Meth (Loc "outputStream") "write_unsigned_byte" [(Attr (Loc "self") "domain")] []);
       Expr (Meth (Loc "outputStream") "write_unsigned_byte" [(Attr (Loc "self") "objectKind")] []);
       Expr (Meth (Loc "outputStream") "write_unsigned_byte" [(Attr (Loc "self") "category")] []);
       Expr (Meth (Loc "outputStream") "write_unsigned_byte" [(Attr (Loc "self") "subcategory")] [])]));
    (* opendis/dis7.py:937-942 *)
    ("parse", MMeth (mkmeth KNormal false [("self", None); ("inputStream", None)]
       [SetAttr (Loc "self") "domain" (Meth (Loc "inputStream") "read_unsigned_byte" [] []);
       SetAttr (Loc "self") "objectKind" (Meth (Loc "inputStream") "read_unsigned_byte" [] []);
       SetAttr (Loc "self") "category" (Meth (Loc "inputStream") "read_unsigned_byte" [] []);
       SetAttr (Loc "self") "subcategory" (Meth (Loc "inputStream") "read_unsigned_byte" [] [])]))
  ].

(* opendis/dis7.py:945-979  class Association() *)
Definition c_Association : cls := mkcls "Association" ["Association"]
  [
    (* opendis/dis7.py:956-965 *)
    ("__init__", MMeth (mkmeth KNormal false [("self", None); ("associationType", Some (DLit (LInt 0))); ("associatedEntityID", Some (DLit (LNone))); ("associatedLocation", Some (DLit (LNone)))]
       [SetAttr (Loc "self") "associationType" (Loc "associationType");
       SetAttr (Loc "self") "padding4" (Lit (LInt 0));
       SetAttr (Loc "self") "associatedEntityID" (OrE (Loc "associatedEntityID") (CallV (Glob "EntityIdentifier") [] []));
       SetAttr (Loc "self") "associatedLocation" (OrE (Loc "associatedLocation") (CallV (Glob "WorldCoordinates") [] []))]));
    (* opendis/dis7.py:967-972 *)
    ("serialize", MMeth (mkmeth KNormal false [("self", None); ("outputStream", None)]
       [Expr (Meth (Loc "outputStream") "write_unsigned_byte" [(Attr (Loc "self") "associationType")] []);
       Expr (Meth (Loc "outputStream") "write_unsigned_byte" [(Attr (Loc "self") "padding4")] []);
       Expr (Meth (Attr (Loc "self") "associatedEntityID") "serialize" [(Loc "outputStream")] []);
       Expr (Meth (Attr (Loc "self") "associatedLocation") "serialize" [(Loc "outputStream")] [])]));
    (* opendis/dis7.py:974-979 *)
    ("parse", MMeth (mkmeth KNormal false [("self", None); ("inputStream", None)]
       [SetAttr (Loc "self") "associationType" (Meth (Loc "inputStream") "read_unsigned_byte" [] []);
       SetAttr (Loc "self") "padding4" (Meth (Loc "inputStream") "read_unsigned_byte" [] []);
       Expr (Meth (Attr (Loc "self") "associatedEntityID") "parse" [(Loc "inputStream")] []);
       Expr (Meth (Attr (Loc "self") "associatedLocation") "parse" [(Loc "inputStream")] [])]))
  ].

(* opendis/dis7.py:982-1022  class RecordSpecificationElement() *)
Definition c_RecordSpecificationElement : cls := mkcls "RecordSpecificationElement" ["RecordSpecificationElement"]
  [
    (* opendis/dis7.py:987-1004 *)
    ("__init__", MMeth (mkmeth KNormal false [("self", None); ("recordID", Some (DLit (LInt 0))); ("recordSetSerialNumber", Some (DLit (LInt 0))); ("recordLength", Some (DLit (LInt 0))); ("recordCount", Some (DLit (LInt 0))); ("recordValues", Some (DLit (LInt 0)))]
       [SetAttr (Loc "self") "recordID" (Loc "recordID");
       SetAttr (Loc "self") "recordSetSerialNumber" (Loc "recordSetSerialNumber");
       SetAttr (Loc "self") "recordLength" (Loc "recordLength");
       SetAttr (Loc "self") "recordCount" (Loc "recordCount");
       SetAttr (Loc "self") "recordValues" (Loc "recordValues");
       SetAttr (Loc "self") "pad4" (Lit (LInt 0))]));
    (* opendis/dis7.py:1006-1013 *)
    ("serialize", MMeth (mkmeth KNormal false [("self", None); ("outputStream", None)]
       [Expr (Meth (Loc "outputStream") "write_unsigned_int" [(Attr (Loc "self") "recordID")] []);
       Expr (Meth (Loc "outputStream") "write_unsigned_int" [(Attr (Loc "self") "recordSetSerialNumber")] []);
       Expr (Meth (Loc "outputStream") "write_unsigned_short" [(Attr (Loc "self") "recordLength")] []);
       Expr (Meth (Loc "outputStream") "write_unsigned_short" [(Attr (Loc "self") "recordCount")] []);
       Expr (Meth (Loc "outputStream") "write_unsigned_short" [(Attr (Loc "self") "recordValues")] []);
       Expr (Meth (Loc "outputStream") "write_unsigned_byte" [(Attr (Loc "self") "pad4")] [])]));
    (* opendis/dis7.py:1015-1022 *)
    ("parse", MMeth (mkmeth KNormal false [("self", None); ("inputStream", None)]
       [SetAttr (Loc "self") "recordID" (Meth (Loc "inputStream") "read_unsigned_int" [] []);
       SetAttr (Loc "self") "recordSetSerialNumber" (Meth (Loc "inputStream") "read_unsigned_int" [] []);
       SetAttr (Loc "self") "recordLength" (Meth (Loc "inputStream") "read_unsigned_short" [] []);
       SetAttr (Loc "self") "recordCount" (Meth (Loc "inputStream") "read_unsigned_short" [] []);
       SetAttr (Loc "self") "recordValues" (Meth (Loc "inputStream") "read_unsigned_short" [] []);
       SetAttr (Loc "self") "pad4" (Meth (Loc "inputStream") "read_unsigned_byte" [] [])]))
  ].

(* opendis/dis7.py:1025-1048  class AntennaLocation() *)
Definition c_AntennaLocation : cls := mkcls "AntennaLocation" ["AntennaLocation"]
  [
    (* opendis/dis7.py:1031-1038 *)
    ("__init__", MMeth (mkmeth KNormal false [("self", None); ("antennaLocation", Some (DLit (LNone))); ("relativeAntennaLocation", Some (DLit (LNone)))]
       [SetAttr (Loc "self") "antennaLocation" (OrE (Loc "antennaLocation") (CallV (Glob "WorldCoordinates") [] []));
       SetAttr (Loc "self") "relativeAntennaLocation" (OrE (Loc "relativeAntennaLocation") (CallV (Glob "Vector3Float") [] []))]));
    (* opendis/dis7.py:1040-1043 *)
    ("serialize", MMeth (mkmeth KNormal false [("self", None); ("outputStream", None)]
       [Expr (Meth (Attr (Loc "self") "antennaLocation") "serialize" [(Loc "outputStream")] []);
       Expr (Meth (Attr (Loc "self") "relativeAntennaLocation") "serialize" [(Loc "outputStream")] [])]));
    (* opendis/dis7.py:1045-1048 *)
    ("parse", MMeth (mkmeth KNormal false [("self", None); ("inputStream", None)]
       [Expr (Meth (Attr (Loc "self") "antennaLocation") "parse" [(Loc "inputStream")] []);
       Expr (Meth (Attr (Loc "self") "relativeAntennaLocation") "parse" [(Loc "inputStream")] [])]))
  ].

(* opendis/dis7.py:1051-1073  class ObjectIdentifier() *)
Definition c_ObjectIdentifier : cls := mkcls "ObjectIdentifier" ["ObjectIdentifier"]
  [
    (* opendis/dis7.py:1057-1063 *)
    ("__init__", MMeth (mkmeth KNormal false [("self", None); ("simulationAddress", Some (DLit (LNone))); ("objectNumber", Some (DLit (LInt 0)))]
       [SetAttr (Loc "self") "simulationAddress" (OrE (Loc "simulationAddress") (CallV (Glob "SimulationAddress") [] []));
       SetAttr (Loc "self") "objectNumber" (Loc "objectNumber")]));
    (* opendis/dis7.py:1065-1068 *)
    ("serialize", MMeth (mkmeth KNormal false [("self", None); ("outputStream", None)]
       [Expr (Meth (Attr (Loc "self") "simulationAddress") "serialize" [(Loc "outputStream")] []);
       Expr (Meth (Loc "outputStream") "write_unsigned_short" [(Attr (Loc "self") "objectNumber")] [])]));
    (* opendis/dis7.py:1070-1073 *)
    ("parse", MMeth (mkmeth KNormal false [("self", None); ("inputStream", None)]
       [Expr (Meth (Attr (Loc "self") "simulationAddress") "parse" [(Loc "inputStream")] []);
       SetAttr (Loc "self") "objectNumber" (Meth (Loc "inputStream") "read_unsigned_short" [] [])]))
  ].

(* opendis/dis7.py:1076-1097  class AggregateIdentifier() *)
Definition c_AggregateIdentifier : cls := mkcls "AggregateIdentifier" ["AggregateIdentifier"]
  [
    (* opendis/dis7.py:1082-1087 *)
    ("__init__", MMeth (mkmeth KNormal false [("self", None); ("simulationAddress", Some (DLit (LNone))); ("aggregateID", Some (DLit (LInt 0)))]
       [SetAttr (Loc "self") "simulationAddress" (OrE (Loc "simulationAddress") (CallV (Glob "SimulationAddress") [] []));
       SetAttr (Loc "self") "aggregateID" (Loc "aggregateID")]));
    (* opendis/dis7.py:1089-1092 *)
    ("serialize", MMeth (mkmeth KNormal false [("self", None); ("outputStream", None)]
       [Expr (Meth (Attr (Loc "self") "simulationAddress") "serialize" [(Loc "outputStream")] []);
       Expr (Meth (Loc "outputStream") "write_unsigned_short" [(Attr (Loc "self") "aggregateID")] [])]));
    (* opendis/dis7.py:1094-1097 *)
    ("parse", MMeth (mkmeth KNormal false [("self", None); ("inputStream", None)]
       [Expr (Meth (Attr (Loc "self") "simulationAddress") "parse" [(Loc "inputStream")] []);
       SetAttr (Loc "self") "aggregateID" (Meth (Loc "inputStream") "read_unsigned_short" [] [])]))
  ].

(* opendis/dis7.py:1100-1122  class FixedDatum() *)
Definition c_FixedDatum : cls := mkcls "FixedDatum" ["FixedDatum"]
  [
    (* opendis/dis7.py:1106-1112 *)
    ("__init__", MMeth (mkmeth KNormal false [("self", None); ("fixedDatumID", Some (DLit (LInt 0))); ("fixedDatumValue", Some (DLit (LInt 0)))]
       [SetAttr (Loc "self") "fixedDatumID" (Loc "fixedDatumID");
       SetAttr (Loc "self") "fixedDatumValue" (Loc "fixedDatumValue")]));
    (* opendis/dis7.py:1114-1117 *)
    ("serialize", MMeth (mkmeth KNormal false [("self", None); ("outputStream", None)]
       [Expr (Meth (Loc "outputStream") "write_unsigned_int" [(Attr (Loc "self") "fixedDatumID")] []);
       Expr (Meth (Loc "outputStream") "write_unsigned_int" [(Attr (Loc "self") "fixedDatumValue")] [])]));
    (* opendis/dis7.py:1119-1122 *)
    ("parse", MMeth (mkmeth KNormal false [("self", None); ("inputStream", None)]
       [SetAttr (Loc "self") "fixedDatumID" (Meth (Loc "inputStream") "read_unsigned_int" [] []);
       SetAttr (Loc "self") "fixedDatumValue" (Meth (Loc "inputStream") "read_unsigned_int" [] [])]))
  ].

(* opendis/dis7.py:1125-1163  class VariableParameter() *)
Definition c_VariableParameter : cls := mkcls "VariableParameter" ["VariableParameter"]
  [
    (* opendis/dis7.py:1132-1147 *)
    ("__init__", MMeth (mkmeth KNormal false [("self", None); ("recordType", Some (DLit (LInt 0))); ("variableParameterFields1", Some (DLit (LInt 0))); ("variableParameterFields2", Some (DLit (LInt 0))); ("variableParameterFields3", Some (DLit (LInt 0))); ("variableParameterFields4", Some (DLit (LInt 0)))]
       [SetAttr (Loc "self") "recordType" (Loc "recordType");
       SetAttr (Loc "self") "variableParameterFields1" (Loc "variableParameterFields1");
       SetAttr (Loc "self") "variableParameterFields2" (Loc "variableParameterFields2");
       SetAttr (Loc "self") "variableParameterFields3" (Loc "variableParameterFields3");
       SetAttr (Loc "self") "variableParameterFields4" (Loc "variableParameterFields4")]));
    (* opendis/dis7.py:1149-1155 *)
    ("serialize", MMeth (mkmeth KNormal false [("self", None); ("outputStream", None)]
       [Expr (Meth (Loc "outputStream") "write_unsigned_byte" [(Attr (Loc "self") "recordType")] []);
       Expr (Meth (Loc "outputStream") "write_double" [(Attr (Loc "self") "variableParameterFields1")] []);
       Expr (Meth (Loc "outputStream") "write_unsigned_int" [(Attr (Loc "self") "variableParameterFields2")] []);
       Expr (Meth (Loc "outputStream") "write_unsigned_short" [(Attr (Loc "self") "variableParameterFields3")] []);
       Expr (Meth (Loc "outputStream") "write_unsigned_byte" [(Attr (Loc "self") "variableParameterFields4")] [])]));
    (* opendis/dis7.py:1157-1163 *)
    ("parse", MMeth (mkmeth KNormal false [("self", None); ("inputStream", None)]
       [SetAttr (Loc "self") "recordType" (Meth (Loc "inputStream") "read_unsigned_byte" [] []);
       SetAttr (Loc "self") "variableParameterFields1" (Meth (Loc "inputStream") "read_double" [] []);
       SetAttr (Loc "self") "variableParameterFields2" (Meth (Loc "inputStream") "read_unsigned_int" [] []);
       SetAttr (Loc "self") "variableParameterFields3" (Meth (Loc "inputStream") "read_unsigned_short" [] []);
       SetAttr (Loc "self") "variableParameterFields4" (Meth (Loc "inputStream") "read_unsigned_byte" [] [])]))
  ].

(* opendis/dis7.py:1166-1179  class ChangeOptions() *)
Definition c_ChangeOptions : cls := mkcls "ChangeOptions" ["ChangeOptions"]
  [
    (* opendis/dis7.py:1169-1171 *)
    ("__init__", MMeth (mkmeth KNormal false [("self", None)]
       [Pass]));
    (* opendis/dis7.py:1173-1175 *)
    ("serialize", MMeth (mkmeth KNormal false [("self", None); ("outputStream", None)]
       [Pass]));
    (* opendis/dis7.py:1177-1179 *)
    ("parse", MMeth (mkmeth KNormal false [("self", None); ("inputStream", None)]
       [Pass]))
  ].

(* opendis/dis7.py:1182-1205  class LiveSimulationAddress() *)
Definition c_LiveSimulationAddress : cls := mkcls "LiveSimulationAddress" ["LiveSimulationAddress"]
  [
    (* opendis/dis7.py:1189-1195 *)
    ("__init__", MMeth (mkmeth KNormal false [("self", None); ("liveSiteNumber", Some (DLit (LInt 0))); ("liveApplicationNumber", Some (DLit (LInt 0)))]
       [SetAttr (Loc "self") "liveSiteNumber" (Loc "liveSiteNumber");
       SetAttr (Loc "self") "liveApplicationNumber" (Loc "liveApplicationNumber")]));
    (* opendis/dis7.py:1197-1200 *)
    ("serialize", MMeth (mkmeth KNormal false [("self", None); ("outputStream", None)]
       [Expr (Meth (Loc "outputStream") "write_unsigned_byte" [(Attr (Loc "self") "liveSiteNumber")] []);
       Expr (Meth (Loc "outputStream") "write_unsigned_byte" [(Attr (Loc "self") "liveApplicationNumber")] [])]));
    (* opendis/dis7.py:1202-1205 *)
    ("parse", MMeth (mkmeth KNormal false [("self", None); ("inputStream", None)]
       [SetAttr (Loc "self") "liveSiteNumber" (Meth (Loc "inputStream") "read_unsigned_byte" [] []);
       SetAttr (Loc "self") "liveApplicationNumber" (Meth (Loc "inputStream") "read_unsigned_byte" [] [])]))
  ].

(* opendis/dis7.py:1208-1245  class EntityMarking() *)
Definition c_EntityMarking : cls := mkcls "EntityMarking" ["EntityMarking"]
  [
    (* opendis/dis7.py:1214-1220 *)
    ("__init__", MMeth (mkmeth KNormal false [("self", None); ("characterSet", Some (DLit (LInt 0))); ("characters", Some (DLit (LNone)))]
       [SetAttr (Loc "self") "characterSet" (Loc "characterSet");
       SetAttr (Loc "self") "characters" (OrE (Loc "characters") (Bin OMul (ListE [(Lit (LInt 0))]) (Lit (LInt 11))))]));
    (* opendis/dis7.py:1222-1227 *)
    ("setString", MMeth (mkmeth KNormal false [("self", None); ("new_str", None)]
       [For "idx" (Builtin BRange [(Lit (LInt 0)); (Lit (LInt 11))]) [If (Cmp CLt (Loc "idx") (Builtin BLen [(Loc "new_str")])) [SetSub (Attr (Loc "self") "characters") (Loc "idx") (Builtin BOrd [(Sub (Loc "new_str") (Loc "idx"))])] [SetSub (Attr (Loc "self") "characters") (Loc "idx") (Lit (LInt 0))]]]));
    (* opendis/dis7.py:1230-1231 *)
    ("charactersString", MMeth (mkmeth KNormal false [("self", None)]
       [Return (Meth (Builtin BBytes [(Builtin BFilterNone [(Attr (Loc "self") "characters")])]) "decode" [(Lit (LStr "utf-8"))] [])]));
    (* opendis/dis7.py:1233-1237 *)
    ("serialize", MMeth (mkmeth KNormal false [("self", None); ("outputStream", None)]
       [Expr (Meth (Loc "outputStream") "write_unsigned_byte" [(Attr (Loc "self") "characterSet")] []);
       For "idx" (Builtin BRange [(Lit (LInt 0)); (Lit (LInt 11))]) [Expr (Meth (Loc "outputStream") "write_byte" [(Sub (Attr (Loc "self") "characters") (Loc "idx"))] [])]]));
    (* opendis/dis7.py:1239-1245 *)
    ("parse", MMeth (mkmeth KNormal false [("self", None); ("inputStream", None)]
       [SetAttr (Loc "self") "characterSet" (Meth (Loc "inputStream") "read_unsigned_byte" [] []);
       SetAttr (Loc "self") "characters" (Bin OMul (ListE [(Lit (LInt 0))]) (Lit (LInt 11)));
       For "idx" (Builtin BRange [(Lit (LInt 0)); (Lit (LInt 11))]) [Assign "val" (Meth (Loc "inputStream") "read_byte" [] []); SetSub (Attr (Loc "self") "characters") (Loc "idx") (Loc "val")]]))
  ].

(* opendis/dis7.py:1248-1291  class UAFundamentalParameter() *)
Definition c_UAFundamentalParameter : cls := mkcls "UAFundamentalParameter" ["UAFundamentalParameter"]
  [
    (* opendis/dis7.py:1255-1273 *)
    ("__init__", MMeth (mkmeth KNormal false [("self", None); ("activeEmissionParameterIndex", Some (DLit (LInt 0))); ("scanPattern", Some (DLit (LInt 0))); ("beamCenterAzimuthHorizontal", Some (DLit (LFloat 0))); ("azimuthBeamwidthHorizontal", Some (DLit (LFloat 0))); ("beamCenterDepressionElevation", Some (DLit (LFloat 0))); ("beamwidthDownElevation", Some (DLit (LFloat 0)))]
       [SetAttr (Loc "self") "activeEmissionParameterIndex" (Loc "activeEmissionParameterIndex");
       SetAttr (Loc "self") "scanPattern" (Loc "scanPattern");
       SetAttr (Loc "self") "beamCenterAzimuthHorizontal" (Loc "beamCenterAzimuthHorizontal");
       SetAttr (Loc "self") "azimuthalBeamwidthHorizontal" (Loc "azimuthBeamwidthHorizontal");
       SetAttr (Loc "self") "beamCenterDepressionElevation" (Loc "beamCenterDepressionElevation");
       SetAttr (Loc "self") "beamwidthDownElevation" (Loc "beamwidthDownElevation")]));
    (* opendis/dis7.py:1275-1282 *)
    ("serialize", MMeth (mkmeth KNormal false [("self", None); ("outputStream", None)]
       [Expr (Meth (Loc "outputStream") "write_unsigned_short" [(Attr (Loc "self") "activeEmissionParameterIndex")] []);
       Expr (Meth (Loc "outputStream") "write_unsigned_short" [(Attr (Loc "self") "scanPattern")] []);
       Expr (Meth (Loc "outputStream") "write_float" [(Attr (Loc "self") "beamCenterAzimuthHorizontal")] []);
       Expr (Meth (Loc "outputStream") "write_float" [(Attr (Loc "self") "azimuthalBeamwidthHorizontal")] []);
       Expr (Meth (Loc "outputStream") "write_float" [(Attr (Loc "self") "beamCenterDepressionElevation")] []);
       Expr (Meth (Loc "outputStream") "write_float" [(Attr (Loc "self") "beamwidthDownElevation")] [])]));
    (* opendis/dis7.py:1284-1291 *)
    ("parse", MMeth (mkmeth KNormal false [("self", None); ("inputStream", None)]
       [SetAttr (Loc "self") "activeEmissionParameterIndex" (Meth (Loc "inputStream") "read_unsigned_short" [] []);
       SetAttr (Loc "self") "scanPattern" (Meth (Loc "inputStream") "read_unsigned_short" [] []);
       SetAttr (Loc "self") "beamCenterAzimuthHorizontal" (Meth (Loc "inputStream") "read_float" [] []);
       SetAttr (Loc "self") "azimuthalBeamwidthHorizontal" (Meth (Loc "inputStream") "read_float" [] []);
       SetAttr (Loc "self") "beamCenterDepressionElevation" (Meth (Loc "inputStream") "read_float" [] []);
       SetAttr (Loc "self") "beamwidthDownElevation" (Meth (Loc "inputStream") "read_float" [] [])]))
  ].

(* opendis/dis7.py:1294-1324  class ExplosionDescriptor() *)
Definition c_ExplosionDescriptor : cls := mkcls "ExplosionDescriptor" ["ExplosionDescriptor"]
  [
    (* opendis/dis7.py:1300-1310 *)
    ("__init__", MMeth (mkmeth KNormal false [("self", None); ("explodingObject", Some (DLit (LNone))); ("explosiveMaterial", Some (DLit (LInt 0))); ("explosiveForce", Some (DLit (LFloat 0)))]
       [SetAttr (Loc "self") "explodingObject" (OrE (Loc "explodingObject") (CallV (Glob "EntityType") [] []));
       SetAttr (Loc "self") "explosiveMaterial" (Loc "explosiveMaterial");
       SetAttr (Loc "self") "padding" (Lit (LInt 0));
       SetAttr (Loc "self") "explosiveForce" (Loc "explosiveForce")]));
    (* opendis/dis7.py:1312-1317 *)
    ("serialize", MMeth (mkmeth KNormal false [("self", None); ("outputStream", None)]
       [Expr (Meth (Attr (Loc "self") "explodingObject") "serialize" [(Loc "outputStream")] []);
       Expr (Meth (Loc "outputStream") "write_unsigned_short" [(Attr (Loc "self") "explosiveMaterial")] []);
       Expr (Meth (Loc "outputStream") "write_unsigned_short" [(Attr (Loc "self") "padding")] []);
       Expr (Meth (Loc "outputStream") "write_float" [(Attr (Loc "self") "explosiveForce")] [])]));
    (* opendis/dis7.py:1319-1324 *)
    ("parse", MMeth (mkmeth KNormal false [("self", None); ("inputStream", None)]
       [Expr (Meth (Attr (Loc "self") "explodingObject") "parse" [(Loc "inputStream")] []);
       SetAttr (Loc "self") "explosiveMaterial" (Meth (Loc "inputStream") "read_unsigned_short" [] []);
       SetAttr (Loc "self") "padding" (Meth (Loc "inputStream") "read_unsigned_short" [] []);
       SetAttr (Loc "self") "explosiveForce" (Meth (Loc "inputStream") "read_float" [] [])]))
  ].

(* opendis/dis7.py:1327-1352  class ClockTime() *)
Definition c_ClockTime : cls := mkcls "ClockTime" ["ClockTime"]
  [
    (* opendis/dis7.py:1336-1342 *)
    ("__init__", MMeth (mkmeth KNormal false [("self", None); ("hour", Some (DLit (LInt 0))); ("timePastHour", Some (DLit (LInt 0)))]
       [SetAttr (Loc "self") "hour" (Loc "hour");
       SetAttr (Loc "self") "timePastHour" (Loc "timePastHour")]));
    (* opendis/dis7.py:1344-1347 *)
    ("serialize", MMeth (mkmeth KNormal false [("self", None); ("outputStream", None)]
       [Expr (Meth (Loc "outputStream") "write_unsigned_int" [(Attr (Loc "self") "hour")] []);
       Expr (Meth (Loc "outputStream") "write_unsigned_int" [(Attr (Loc "self") "timePastHour")] [])]));
    (* opendis/dis7.py:1349-1352 *)
    ("parse", MMeth (mkmeth KNormal false [("self", None); ("inputStream", None)]
       [SetAttr (Loc "self") "hour" (Meth (Loc "inputStream") "read_unsigned_int" [] []);
       SetAttr (Loc "self") "timePastHour" (Meth (Loc "inputStream") "read_unsigned_int" [] [])]))
  ].

(* opendis/dis7.py:1355-1386  class SecondaryOperationalData() *)
Definition c_SecondaryOperationalData : cls := mkcls "SecondaryOperationalData" ["SecondaryOperationalData"]
  [
    (* opendis/dis7.py:1363-1372 *)
    ("__init__", MMeth (mkmeth KNormal false [("self", None); ("operationalData1", Some (DLit (LInt 0))); ("operationalData2", Some (DLit (LInt 0))); ("numberOfIFFFundamentalParameterRecords", Some (DLit (LInt 0)))]
       [SetAttr (Loc "self") "operationalData1" (Loc "operationalData1");
       SetAttr (Loc "self") "operationalData2" (Loc "operationalData2");
       SetAttr (Loc "self") "numberOfIFFFundamentalParameterRecords" (Loc "numberOfIFFFundamentalParameterRecords")]));
    (* opendis/dis7.py:1374-1380 *)
    ("serialize", MMeth (mkmeth KNormal false [("self", None); ("outputStream", None)]
       [Expr (Meth (Loc "outputStream") "write_unsigned_byte" [(Attr (Loc "self") "operationalData1")] []);
       Expr (Meth (Loc "outputStream") "write_unsigned_byte" [(Attr (Loc "self") "operationalData2")] []);
       Expr (Meth (Loc "outputStream") "write_unsigned_short" [(Attr (Loc "self") "numberOfIFFFundamentalParameterRecords")] [])]));
    (* opendis/dis7.py:1382-1386 *)
    ("parse", MMeth (mkmeth KNormal false [("self", None); ("inputStream", None)]
       [SetAttr (Loc "self") "operationalData1" (Meth (Loc "inputStream") "read_unsigned_byte" [] []);
       SetAttr (Loc "self") "operationalData2" (Meth (Loc "inputStream") "read_unsigned_byte" [] []);
       SetAttr (Loc "self") "numberOfIFFFundamentalParameterRecords" (Meth (Loc "inputStream") "read_unsigned_short" [] [])]))
  ].

(* opendis/dis7.py:1389-1433  class EnvironmentType() *)
Definition c_EnvironmentType : cls := mkcls "EnvironmentType" ["EnvironmentType"]
  [
    (* opendis/dis7.py:1392-1412 *)
    ("__init__", MMeth (mkmeth KNormal false [("self", None); ("entityKind", Some (DLit (LInt 0))); ("domain", Some (DLit (LInt 0))); ("entityClass", Some (DLit (LInt 0))); ("category", Some (DLit (LInt 0))); ("subcategory", Some (DLit (LInt 0))); ("specific", Some (DLit (LInt 0))); ("extra", Some (DLit (LInt 0)))]
       [SetAttr (Loc "self") "entityKind" (Loc "entityKind");
       SetAttr (Loc "self") "domain" (Loc "domain");
       SetAttr (Loc "self") "entityClass" (Loc "entityClass");
       SetAttr (Loc "self") "category" (Loc "category");
       SetAttr (Loc "self") "subcategory" (Loc "subcategory");
       SetAttr (Loc "self") "specific" (Loc "specific");
       SetAttr (Loc "self") "extra" (Loc "extra")]));
    (* opendis/dis7.py:1414-1422 *)
    ("serialize", MMeth (mkmeth KNormal false [("self", None); ("outputStream", None)]
       [Expr (Meth (Loc "outputStream") "write_unsigned_byte" [(Attr (Loc "self") "entityKind")] []);
       Expr (Meth (Loc "outputStream") "write_unsigned_byte" [(Attr (Loc "self") "domain")] []);
       Expr (Meth (Loc "outputStream") "write_unsigned_short" [(Attr (Loc "self") "entityClass")] []);
       Expr (Meth (Loc "outputStream") "write_unsigned_byte" [(Attr (Loc "self") "category")] []);
       Expr (Meth (Loc "outputStream") "write_unsigned_byte" [(Attr (Loc "self") "subcategory")] []);
       Expr (Meth (Loc "outputStream") "write_unsigned_byte" [(Attr (Loc "self") "specific")] []);
       Expr (Meth (Loc "outputStream") "write_unsigned_byte" [(Attr (Loc "self") "extra")] [])]));
    (* opendis/dis7.py:1424-1433 *)
    ("parse", MMeth (mkmeth KNormal false [("self", None); ("inputStream", None)]
       [SetAttr (Loc "self") "entityKind" (Meth (Loc "inputStream") "read_unsigned_byte" [] []);
       SetAttr (Loc "self") "domain" (Meth (Loc "inputStream") "read_unsigned_byte" [] []);
       SetAttr (Loc "self") "entityClass" (Meth (Loc "inputStream") "read_unsigned_short" [] []);
       SetAttr (Loc "self") "category" (Meth (Loc "inputStream") "read_unsigned_byte" [] []);
       SetAttr (Loc "self") "subcategory" (Meth (Loc "inputStream") "read_unsigned_byte" [] []);
       SetAttr (Loc "self") "specific" (Meth (Loc "inputStream") "read_unsigned_byte" [] []);
       SetAttr (Loc "self") "extra" (Meth (Loc "inputStream") "read_unsigned_byte" [] [])]))
  ].

(* opendis/dis7.py:1436-1453  class TotalRecordSets() *)
Definition c_TotalRecordSets : cls := mkcls "TotalRecordSets" ["TotalRecordSets"]
  [
    (* opendis/dis7.py:1439-1442 *)
    ("__init__", MMeth (mkmeth KNormal false [("self", None); ("totalRecordSets", Some (DLit (LInt 0)))]
       [SetAttr (Loc "self") "totalRecordSets" (Loc "totalRecordSets");
       SetAttr (Loc "self") "padding" (Lit (LInt 0))]));
    (* opendis/dis7.py:1444-1447 *)
    ("serialize", MMeth (mkmeth KNormal false [("self", None); ("outputStream", None)]
       [Expr (Meth (Loc "outputStream") "write_unsigned_short" [(Attr (Loc "self") "totalRecordSets")] []);
       Expr (Meth (Loc "outputStream") "write_unsigned_short" [(Attr (Loc "self") "padding")] [])]));
    (* opendis/dis7.py:1449-1453 *)
    ("parse", MMeth (mkmeth KNormal false [("self", None); ("inputStream", None)]
       [SetAttr (Loc "self") "totalRecordSets" (Meth (Loc "inputStream") "read_unsigned_short" [] []);
       SetAttr (Loc "self") "padding" (Meth (Loc "inputStream") "read_unsigned_short" [] [])]))
  ].

(* opendis/dis7.py:1456-1477  class MineEntityIdentifier() *)
Definition c_MineEntityIdentifier : cls := mkcls "MineEntityIdentifier" ["MineEntityIdentifier"]
  [
    (* opendis/dis7.py:1463-1467 *)
    ("__init__", MMeth (mkmeth KNormal false [("self", None); ("simulationAddress", Some (DLit (LNone))); ("mineEntityNumber", Some (DLit (LInt 0)))]
       [SetAttr (Loc "self") "simulationAddress" (OrE (Loc "simulationAddress") (CallV (Glob "SimulationAddress") [] []));
       SetAttr (Loc "self") "mineEntityNumber" (Loc "mineEntityNumber")]));
    (* opendis/dis7.py:1469-1472 *)
    ("serialize", MMeth (mkmeth KNormal false [("self", None); ("outputStream", None)]
       [Expr (Meth (Attr (Loc "self") "simulationAddress") "serialize" [(Loc "outputStream")] []);
       Expr (Meth (Loc "outputStream") "write_unsigned_short" [(Attr (Loc "self") "mineEntityNumber")] [])]));
    (* opendis/dis7.py:1474-1477 *)
    ("parse", MMeth (mkmeth KNormal false [("self", None); ("inputStream", None)]
       [Expr (Meth (Attr (Loc "self") "simulationAddress") "parse" [(Loc "inputStream")] []);
       SetAttr (Loc "self") "mineEntityNumber" (Meth (Loc "inputStream") "read_unsigned_short" [] [])]))
  ].

(* opendis/dis7.py:1480-1502  class Relationship() *)
Definition c_Relationship : cls := mkcls "Relationship" ["Relationship"]
  [
    (* opendis/dis7.py:1486-1492 *)
    ("__init__", MMeth (mkmeth KNormal false [("self", None); ("nature", Some (DLit (LInt 0))); ("position", Some (DLit (LInt 0)))]
       [SetAttr (Loc "self") "nature" (Loc "nature");
       SetAttr (Loc "self") "position" (Loc "position")]));
    (* opendis/dis7.py:1494-1497 *)
    ("serialize", MMeth (mkmeth KNormal false [("self", None); ("outputStream", None)]
       [Expr (Meth (Loc "outputStream") "write_unsigned_short" [(Attr (Loc "self") "nature")] []);
       Expr (Meth (Loc "outputStream") "write_unsigned_short" [(Attr (Loc "self") "position")] [])]));
    (* opendis/dis7.py:1499-1502 *)
    ("parse", MMeth (mkmeth KNormal false [("self", None); ("inputStream", None)]
       [SetAttr (Loc "self") "nature" (Meth (Loc "inputStream") "read_unsigned_short" [] []);
       SetAttr (Loc "self") "position" (Meth (Loc "inputStream") "read_unsigned_short" [] [])]))
  ].

(* opendis/dis7.py:1505-1563  class EEFundamentalParameterData() *)
Definition c_EEFundamentalParameterData : cls := mkcls "EEFundamentalParameterData" ["EEFundamentalParameterData"]
  [
    (* opendis/dis7.py:1512-1537 *)
    ("__init__", MMeth (mkmeth KNormal false [("self", None); ("frequency", Some (DLit (LFloat 0))); ("frequencyRange", Some (DLit (LInt 0))); ("effectiveRadiatedPower", Some (DLit (LInt 0))); ("pulseRepetitionFrequency", Some (DLit (LFloat 0))); ("pulseWidth", Some (DLit (LFloat 0))); ("beamAzimuthCenter", Some (DLit (LFloat 0))); ("beamAzimuthSweep", Some (DLit (LFloat 0))); ("beamElevationCenter", Some (DLit (LFloat 0))); ("beamElevationSweep", Some (DLit (LFloat 0))); ("beamSweepSync", Some (DLit (LFloat 0)))]
       [SetAttr (Loc "self") "frequency" (Loc "frequency");
       SetAttr (Loc "self") "frequencyRange" (Loc "frequencyRange");
       SetAttr (Loc "self") "effectiveRadiatedPower" (Loc "effectiveRadiatedPower");
       SetAttr (Loc "self") "pulseRepetitionFrequency" (Loc "pulseRepetitionFrequency");
       SetAttr (Loc "self") "pulseWidth" (Loc "pulseWidth");
       SetAttr (Loc "self") "beamAzimuthCenter" (Loc "beamAzimuthCenter");
       SetAttr (Loc "self") "beamAzimuthSweep" (Loc "beamAzimuthSweep");
       SetAttr (Loc "self") "beamElevationCenter" (Loc "beamElevationCenter");
       SetAttr (Loc "self") "beamElevationSweep" (Loc "beamElevationSweep");
       SetAttr (Loc "self") "beamSweepSync" (Loc "beamSweepSync")]));
    (* opendis/dis7.py:1539-1550 *)
    ("serialize", MMeth (mkmeth KNormal false [("self", None); ("outputStream", None)]
       [Expr (Meth (Loc "outputStream") "write_float" [(Attr (Loc "self") "frequency")] []);
       Expr (Meth (Loc "outputStream") "write_float" [(Attr (Loc "self") "frequencyRange")] []);
       Expr (Meth (Loc "outputStream") "write_float" [(Attr (Loc "self") "effectiveRadiatedPower")] []);
       Expr (Meth (Loc "outputStream") "write_float" [(Attr (Loc "self") "pulseRepetitionFrequency")] []);
       Expr (Meth (Loc "outputStream") "write_float" [(Attr (Loc "self") "pulseWidth")] []);
       Expr (Meth (Loc "outputStream") "write_float" [(Attr (Loc "self") "beamAzimuthCenter")] []);
       Expr (Meth (Loc "outputStream") "write_float" [(Attr (Loc "self") "beamAzimuthSweep")] []);
       Expr (Meth (Loc "outputStream") "write_float" [(Attr (Loc "self") "beamElevationCenter")] []);
       Expr (Meth (Loc "outputStream") "write_float" [(Attr (Loc "self") "beamElevationSweep")] []);
       Expr (Meth (Loc "outputStream") "write_float" [(Attr (Loc "self") "beamSweepSync")] [])]));
    (* opendis/dis7.py:1552-1563 *)
    ("parse", MMeth (mkmeth KNormal false [("self", None); ("inputStream", None)]
       [SetAttr (Loc "self") "frequency" (Meth (Loc "inputStream") "read_float" [] []);
       SetAttr (Loc "self") "frequencyRange" (Meth (Loc "inputStream") "read_float" [] []);
       SetAttr (Loc "self") "effectiveRadiatedPower" (Meth (Loc "inputStream") "read_float" [] []);
       SetAttr (Loc "self") "pulseRepetitionFrequency" (Meth (Loc "inputStream") "read_float" [] []);
       SetAttr (Loc "self") "pulseWidth" (Meth (Loc "inputStream") "read_float" [] []);
       SetAttr (Loc "self") "beamAzimuthCenter" (Meth (Loc "inputStream") "read_float" [] []);
       SetAttr (Loc "self") "beamAzimuthSweep" (Meth (Loc "inputStream") "read_float" [] []);
       SetAttr (Loc "self") "beamElevationCenter" (Meth (Loc "inputStream") "read_float" [] []);
       SetAttr (Loc "self") "beamElevationSweep" (Meth (Loc "inputStream") "read_float" [] []);
       SetAttr (Loc "self") "beamSweepSync" (Meth (Loc "inputStream") "read_float" [] [])]))
  ].

(* opendis/dis7.py:1566-1590  class JammingTechnique() *)
Definition c_JammingTechnique : cls := mkcls "JammingTechnique" ["JammingTechnique"]
  [
    (* opendis/dis7.py:1572-1576 *)
    ("__init__", MMeth (mkmeth KNormal false [("self", None); ("kind", Some (DLit (LInt 0))); ("category", Some (DLit (LInt 0))); ("subcategory", Some (DLit (LInt 0))); ("specific", Some (DLit (LInt 0)))]
       [SetAttr (Loc "self") "kind" (Loc "kind");
       SetAttr (Loc "self") "category" (Loc "category");
       SetAttr (Loc "self") "subcategory" (Loc "subcategory");
       SetAttr (Loc "self") "specific" (Loc "specific")]));
    (* opendis/dis7.py:1578-1583 *)
    ("serialize", MMeth (mkmeth KNormal false [("self", None); ("outputStream", None)]
       [Expr (Meth (Loc "outputStream") "write_unsigned_byte" [(Attr (Loc "self") "kind")] []);
       Expr (Meth (Loc "outputStream") "write_unsigned_byte" [(Attr (Loc "self") "category")] []);
       Expr (Meth (Loc "outputStream") "write_unsigned_byte" [(Attr (Loc "self") "subcategory")] []);
       Expr (Meth (Loc "outputStream") "write_unsigned_byte" [(Attr (Loc "self") "specific")] [])]));
    (* opendis/dis7.py:1585-1590 *)
    ("parse", MMeth (mkmeth KNormal false [("self", None); ("inputStream", None)]
       [SetAttr (Loc "self") "kind" (Meth (Loc "inputStream") "read_unsigned_byte" [] []);
       SetAttr (Loc "self") "category" (Meth (Loc "inputStream") "read_unsigned_byte" [] []);
       SetAttr (Loc "self") "subcategory" (Meth (Loc "inputStream") "read_unsigned_byte" [] []);
       SetAttr (Loc "self") "specific" (Meth (Loc "inputStream") "read_unsigned_byte" [] [])]))
  ].

(* opendis/dis7.py:1593-1637  class DatumSpecification() *)
Definition c_DatumSpecification : cls := mkcls "DatumSpecification" ["DatumSpecification"]
  [
    (* opendis/dis7.py:1599-1605 *)
    ("__init__", MMeth (mkmeth KNormal false [("self", None); ("fixedDatumRecords", Some (DLit (LNone))); ("variableDatumRecords", Some (DLit (LNone)))]
       [SetAttr (Loc "self") "fixedDatumRecords" (OrE (Loc "fixedDatumRecords") (ListE []));
       SetAttr (Loc "self") "variableDatumRecords" (OrE (Loc "variableDatumRecords") (ListE []))]));
    (* opendis/dis7.py:1608-1609 *)
    ("numberOfFixedDatumRecords", MMeth (mkmeth KProperty false [("self", None)]
       [Return (Builtin BLen [(Attr (Loc "self") "fixedDatumRecords")])]));
    (* opendis/dis7.py:1612-1613 *)
    ("numberOfVariableDatumRecords", MMeth (mkmeth KProperty false [("self", None)]
       [Return (Builtin BLen [(Attr (Loc "self") "variableDatumRecords")])]));
    (* opendis/dis7.py:1615-1623 *)
    ("serialize", MMeth (mkmeth KNormal false [("self", None); ("outputStream", None)]
       [Expr (Meth (Loc "outputStream") "write_unsigned_int" [(Attr (Loc "self") "numberOfFixedDatumRecords")] []);
       Expr (Meth (Loc "outputStream") "write_unsigned_int" [(Attr (Loc "self") "numberOfVariableDatumRecords")] []);
       For "anObj" (Attr (Loc "self") "fixedDatumRecords") [Expr (Meth (Loc "anObj") "serialize" [(Loc "outputStream")] [])];
       For "anObj" (Attr (Loc "self") "variableDatumRecords") [Expr (Meth (Loc "anObj") "serialize" [(Loc "outputStream")] [])]]));
    (* opendis/dis7.py:1625-1637 *)
    ("parse", MMeth (mkmeth KNormal false [("self", None); ("inputStream", None)]
       [Assign "numberOfFixedDatumRecords" (Meth (Loc "inputStream") "read_unsigned_int" [] []);
       Assign "numberOfVariableDatumRecords" (Meth (Loc "inputStream") "read_unsigned_int" [] []);
       For "idx" (Builtin BRange [(Lit (LInt 0)); (Loc "numberOfFixedDatumRecords")]) [Assign "element" (CallV (Glob "FixedDatum") [] []); Expr (Meth (Loc "element") "parse" [(Loc "inputStream")] []); Expr (Meth (Attr (Loc "self") "fixedDatumRecords") "append" [(Loc "element")] [])];
       For "idx" (Builtin BRange [(Lit (LInt 0)); (Loc "numberOfVariableDatumRecords")]) [Assign "element" (CallV (Glob "VariableDatum") [] []); Expr (Meth (Loc "element") "parse" [(Loc "inputStream")] []); Expr (Meth (Attr (Loc "self") "variableDatumRecords") "append" [(Loc "element")] [])]]))
  ].

(* opendis/dis7.py:1640-1672  class Expendable() *)
Definition c_Expendable : cls := mkcls "Expendable" ["Expendable"]
  [
    (* opendis/dis7.py:1646-1656 *)
    ("__init__", MMeth (mkmeth KNormal false [("self", None); ("expendable", Some (DLit (LNone))); ("station", Some (DLit (LInt 0))); ("quantity", Some (DLit (LInt 0))); ("expendableStatus", Some (DLit (LInt 0)))]
       [SetAttr (Loc "self") "expendable" (OrE (Loc "expendable") (CallV (Glob "EntityType") [] []));
       SetAttr (Loc "self") "station" (Loc "station");
       SetAttr (Loc "self") "quantity" (Loc "quantity");
       SetAttr (Loc "self") "expendableStatus" (Loc "expendableStatus");
       SetAttr (Loc "self") "padding" (Lit (LInt 0))]));
    (* opendis/dis7.py:1658-1664 *)
    ("serialize", MMeth (mkmeth KNormal false [("self", None); ("outputStream", None)]
       [Expr (Meth (Attr (Loc "self") "expendable") "serialize" [(Loc "outputStream")] []);
       Expr (Meth (Loc "outputStream") "write_unsigned_int" [(Attr (Loc "self") "station")] []);
       Expr (Meth (Loc "outputStream") "write_unsigned_short" [(Attr (Loc "self") "quantity")] []);
       Expr (Meth (Loc "outputStream") "write_unsigned_byte" [(Attr (Loc "self") "expendableStatus")] []);
       Expr (Meth (Loc "outputStream") "write_unsigned_byte" [(Attr (Loc "self") "padding")] [])]));
    (* opendis/dis7.py:1666-1672 *)
    ("parse", MMeth (mkmeth KNormal false [("self", None); ("inputStream", None)]
       [Expr (Meth (Attr (Loc "self") "expendable") "parse" [(Loc "inputStream")] []);
       SetAttr (Loc "self") "station" (Meth (Loc "inputStream") "read_unsigned_int" [] []);
       SetAttr (Loc "self") "quantity" (Meth (Loc "inputStream") "read_unsigned_short" [] []);
       SetAttr (Loc "self") "expendableStatus" (Meth (Loc "inputStream") "read_unsigned_byte" [] []);
       SetAttr (Loc "self") "padding" (Meth (Loc "inputStream") "read_unsigned_byte" [] [])]))
  ].

(* opendis/dis7.py:1675-1705  class IOCommunicationsNode() *)
Definition c_IOCommunicationsNode : cls := mkcls "IOCommunicationsNode" ["IOCommunicationsNode"]
  [
    (* opendis/dis7.py:1680 *)
    ("recordType", MAttr (LInt 5501));
    (* opendis/dis7.py:1681 *)
    ("recordLength", MAttr (LInt 16));
    (* opendis/dis7.py:1683-1689 *)
    ("__init__", MMeth (mkmeth KNormal false [("self", None); ("communicationsNodeType", Some (DLit (LInt 0))); ("communicationsNodeID", Some (DLit (LNone)))]
       [SetAttr (Loc "self") "communcationsNodeType" (Loc "communicationsNodeType");
       SetAttr (Loc "self") "padding" (Lit (LInt 0));
       SetAttr (Loc "self") "communicationsNodeID" (OrE (Loc "communicationsNodeID") (CallV (Glob "CommunicationsNodeID") [] []))]));
    (* opendis/dis7.py:1691-1697 *)
    ("serialize", MMeth (mkmeth KNormal false [("self", None); ("outputStream", None)]
       [Expr (Meth (Loc "outputStream") "write_unsigned_int" [(Attr (Loc "self") "recordType")] []);
       Expr (Meth (Loc "outputStream") "write_unsigned_short" [(Attr (Loc "self") "recordLength")] []);
       Expr (Meth (Loc "outputStream") "write_unsigned_byte" [(Attr (Loc "self") "communcationsNodeType")] []);
       Expr (Meth (Loc "outputStream") "write_unsigned_byte" [(Attr (Loc "self") "padding")] []);
       Expr (Meth (Attr (Loc "self") "communicationsNodeID") "serialize" [(Loc "outputStream")] [])]));
    (* opendis/dis7.py:1699-1705 *)
    ("parse", MMeth (mkmeth KNormal false [("self", None); ("inputStream", None)]
       [SetAttr (Loc "self") "recordType" (Meth (Loc "inputStream") "read_unsigned_int" [] []);
       SetAttr (Loc "self") "recordLength" (Meth (Loc "inputStream") "read_unsigned_short" [] []);
       SetAttr (Loc "self") "communcationsNodeType" (Meth (Loc "inputStream") "read_unsigned_byte" [] []);
       SetAttr (Loc "self") "padding" (Meth (Loc "inputStream") "read_unsigned_byte" [] []);
       Expr (Meth (Attr (Loc "self") "communicationsNodeID") "parse" [(Loc "inputStream")] [])]))
  ].

(* opendis/dis7.py:1708-1774  class LinearSegmentParameter() *)
Definition c_LinearSegmentParameter : cls := mkcls "LinearSegmentParameter" ["LinearSegmentParameter"]
  [
    (* opendis/dis7.py:1715-1746 *)
    ("__init__", MMeth (mkmeth KNormal false [("self", None); ("segmentNumber", Some (DLit (LInt 0))); ("segmentModification", Some (DLit (LInt 0))); ("generalSegmentAppearance", Some (DLit (LInt 0))); ("specificSegmentAppearance", Some (DLit (LInt 0))); ("segmentLocation", Some (DLit (LNone))); ("segmentOrientation", Some (DLit (LNone))); ("segmentLength", Some (DLit (LFloat 0))); ("segmentWidth", Some (DLit (LFloat 0))); ("segmentHeight", Some (DLit (LFloat 0))); ("segmentDepth", Some (DLit (LFloat 0)))]
       [SetAttr (Loc "self") "segmentNumber" (Loc "segmentNumber");
       SetAttr (Loc "self") "segmentModification" (Loc "segmentModification");
       SetAttr (Loc "self") "generalSegmentAppearance" (Loc "generalSegmentAppearance");
       SetAttr (Loc "self") "specificSegmentAppearance" (Loc "specificSegmentAppearance");
       SetAttr (Loc "self") "segmentLocation" (OrE (Loc "segmentLocation") (CallV (Glob "WorldCoordinates") [] []));
       SetAttr (Loc "self") "segmentOrientation" (OrE (Loc "segmentOrientation") (CallV (Glob "EulerAngles") [] []));
       SetAttr (Loc "self") "segmentLength" (Loc "segmentLength");
       SetAttr (Loc "self") "segmentWidth" (Loc "segmentWidth");
       SetAttr (Loc "self") "segmentHeight" (Loc "segmentHeight");
       SetAttr (Loc "self") "segmentDepth" (Loc "segmentDepth");
       SetAttr (Loc "self") "padding" (Lit (LInt 0))]));
    (* opendis/dis7.py:1748-1760 *)
    ("serialize", MMeth (mkmeth KNormal false [("self", None); ("outputStream", None)]
       [Expr (Meth (Loc "outputStream") "write_unsigned_byte" [(Attr (Loc "self") "segmentNumber")] []);
       Expr (Meth (Loc "outputStream") "write_unsigned_byte" [(Attr (Loc "self") "segmentModification")] []);
       Expr (Meth (Loc "outputStream") "write_unsigned_short" [(Attr (Loc "self") "generalSegmentAppearance")] []);
       Expr (Meth (Loc "outputStream") "write_unsigned_int" [(Attr (Loc "self") "specificSegmentAppearance")] []);
       Expr (Meth (Attr (Loc "self") "segmentLocation") "serialize" [(Loc "outputStream")] []);
       Expr (Meth (Attr (Loc "self") "segmentOrientation") "serialize" [(Loc "outputStream")] []);
       Expr (Meth (Loc "outputStream") "write_float" [(Attr (Loc "self") "segmentLength")] []);
       Expr (Meth (Loc "outputStream") "write_float" [(Attr (Loc "self") "segmentWidth")] []);
       Expr (Meth (Loc "outputStream") "write_float" [(Attr (Loc "self") "segmentHeight")] []);
       Expr (Meth (Loc "outputStream") "write_float" [(Attr (Loc "self") "segmentDepth")] []);
       Expr (Meth (Loc "outputStream") "write_unsigned_int" [(Attr (Loc "self") "padding")] [])]));
    (* opendis/dis7.py:1762-1774 *)
    ("parse", MMeth (mkmeth KNormal false [("self", None); ("inputStream", None)]
       [SetAttr (Loc "self") "segmentNumber" (Meth (Loc "inputStream") "read_unsigned_byte" [] []);
       SetAttr (Loc "self") "segmentModification" (Meth (Loc "inputStream") "read_unsigned_byte" [] []);
       SetAttr (Loc "self") "generalSegmentAppearance" (Meth (Loc "inputStream") "read_unsigned_short" [] []);
       SetAttr (Loc "self") "specificSegmentAppearance" (Meth (Loc "inputStream") "read_unsigned_int" [] []);
       Expr (Meth (Attr (Loc "self") "segmentLocation") "parse" [(Loc "inputStream")] []);
       Expr (Meth (Attr (Loc "self") "segmentOrientation") "parse" [(Loc "inputStream")] []);
       SetAttr (Loc "self") "segmentLength" (Meth (Loc "inputStream") "read_float" [] []);
       SetAttr (Loc "self") "segmentWidth" (Meth (Loc "inputStream") "read_float" [] []);
       SetAttr (Loc "self") "segmentHeight" (Meth (Loc "inputStream") "read_float" [] []);
       SetAttr (Loc "self") "segmentDepth" (Meth (Loc "inputStream") "read_float" [] []);
       SetAttr (Loc "self") "padding" (Meth (Loc "inputStream") "read_unsigned_int" [] [])]))
  ].

(* opendis/dis7.py:1777-1809  class SystemIdentifier() *)
Definition c_SystemIdentifier : cls := mkcls "SystemIdentifier" ["SystemIdentifier"]
  [
    (* opendis/dis7.py:1783-1795 *)
    ("__init__", MMeth (mkmeth KNormal false [("self", None); ("systemType", Some (DLit (LInt 0))); ("systemName", Some (DLit (LInt 0))); ("systemMode", Some (DLit (LInt 0))); ("changeOptions", Some (DLit (LNone)))]
       [SetAttr (Loc "self") "systemType" (Loc "systemType");
       SetAttr (Loc "self") "systemName" (Loc "systemName");
       SetAttr (Loc "self") "systemMode" (Loc "systemMode");
       SetAttr (Loc "self") "changeOptions" (OrE (Loc "changeOptions") (CallV (Glob "ChangeOptions") [] []))]));
    (* opendis/dis7.py:1797-1802 *)
    ("serialize", MMeth (mkmeth KNormal false [("self", None); ("outputStream", None)]
       [Expr (Meth (Loc "outputStream") "write_unsigned_short" [(Attr (Loc "self") "systemType")] []);
       Expr (Meth (Loc "outputStream") "write_unsigned_short" [(Attr (Loc "self") "systemName")] []);
       Expr (Meth (Loc "outputStream") "write_unsigned_short" [(Attr (Loc "self") "systemMode")] []);
       Expr (Meth (Attr (Loc "self") "changeOptions") "serialize" [(Loc "outputStream")] [])]));
    (* opendis/dis7.py:1804-1809 *)
    ("parse", MMeth (mkmeth KNormal false [("self", None); ("inputStream", None)]
       [SetAttr (Loc "self") "systemType" (Meth (Loc "inputStream") "read_unsigned_short" [] []);
       SetAttr (Loc "self") "systemName" (Meth (Loc "inputStream") "read_unsigned_short" [] []);
       SetAttr (Loc "self") "systemMode" (Meth (Loc "inputStream") "read_unsigned_short" [] []);
       Expr (Meth (Attr (Loc "self") "changeOptions") "parse" [(Loc "inputStream")] [])]))
  ].

(* opendis/dis7.py:1812-1839  class TrackJamData() *)
Definition c_TrackJamData : cls := mkcls "TrackJamData" ["TrackJamData"]
  [
    (* opendis/dis7.py:1818-1827 *)
    ("__init__", MMeth (mkmeth KNormal false [("self", None); ("entityID", Some (DLit (LNone))); ("emitterNumber", Some (DLit (LInt 0))); ("beamNumber", Some (DLit (LInt 0)))]
       [SetAttr (Loc "self") "entityID" (OrE (Loc "entityID") (CallV (Glob "EntityIdentifier") [] []));
       SetAttr (Loc "self") "emitterNumber" (Loc "emitterNumber");
       SetAttr (Loc "self") "beamNumber" (Loc "beamNumber")]));
    (* opendis/dis7.py:1829-1833 *)
    ("serialize", MMeth (mkmeth KNormal false [("self", None); ("outputStream", None)]
       [Expr (Meth (Attr (Loc "self") "entityID") "serialize" [(Loc "outputStream")] []);
       Expr (Meth (Loc "outputStream") "write_unsigned_byte" [(Attr (Loc "self") "emitterNumber")] []);
       Expr (Meth (Loc "outputStream") "write_unsigned_byte" [(Attr (Loc "self") "beamNumber")] [])]));
    (* opendis/dis7.py:1835-1839 *)
    ("parse", MMeth (mkmeth KNormal false [("self", None); ("inputStream", None)]
       [Expr (Meth (Attr (Loc "self") "entityID") "parse" [(Loc "inputStream")] []);
       SetAttr (Loc "self") "emitterNumber" (Meth (Loc "inputStream") "read_unsigned_byte" [] []);
       SetAttr (Loc "self") "beamNumber" (Meth (Loc "inputStream") "read_unsigned_byte" [] [])]))
  ].

(* opendis/dis7.py:1842-1888  class AggregateType() *)
Definition c_AggregateType : cls := mkcls "AggregateType" ["AggregateType"]
  [
    (* opendis/dis7.py:1848-1868 *)
    ("__init__", MMeth (mkmeth KNormal false [("self", None); ("aggregateKind", Some (DLit (LInt 0))); ("domain", Some (DLit (LInt 0))); ("country", Some (DLit (LInt 0))); ("category", Some (DLit (LInt 0))); ("subcategory", Some (DLit (LInt 0))); ("specificInfo", Some (DLit (LInt 0))); ("extra", Some (DLit (LInt 0)))]
       [SetAttr (Loc "self") "aggregateKind" (Loc "aggregateKind");
       SetAttr (Loc "self") "domain" (Loc "domain");
       SetAttr (Loc "self") "country" (Loc "country");
       SetAttr (Loc "self") "category" (Loc "category");
       SetAttr (Loc "self") "subcategory" (Loc "subcategory");
       SetAttr (Loc "self") "specificInfo" (Loc "specificInfo");
       SetAttr (Loc "self") "extra" (Loc "extra")]));
    (* opendis/dis7.py:1870-1878 *)
    ("serialize", MMeth (mkmeth KNormal false [("self", None); ("outputStream", None)]
       [Expr (Meth (Loc "outputStream") "write_unsigned_byte" [(Attr (Loc "self") "aggregateKind")] []);
       Expr (Meth (Loc "outputStream") "write_unsigned_byte" [(Attr (Loc "self") "domain")] []);
       Expr (Meth (Loc "outputStream") "write_unsigned_short" [(Attr (Loc "self") "country")] []);
       Expr (Meth (Loc "outputStream") "write_unsigned_byte" [(Attr (Loc "self") "category")] []);
       Expr (Meth (Loc "outputStream") "write_unsigned_byte" [(Attr (Loc "self") "subcategory")] []);
       Expr (Meth (Loc "outputStream") "write_unsigned_byte" [(Attr (Loc "self") "specificInfo")] []);
       Expr (Meth (Loc "outputStream") "write_unsigned_byte" [(Attr (Loc "self") "extra")] [])]));
    (* opendis/dis7.py:1880-1888 *)
    ("parse", MMeth (mkmeth KNormal false [("self", None); ("inputStream", None)]
       [SetAttr (Loc "self") "aggregateKind" (Meth (Loc "inputStream") "read_unsigned_byte" [] []);
       SetAttr (Loc "self") "domain" (Meth (Loc "inputStream") "read_unsigned_byte" [] []);
       SetAttr (Loc "self") "country" (Meth (Loc "inputStream") "read_unsigned_short" [] []);
       SetAttr (Loc "self") "category" (Meth (Loc "inputStream") "read_unsigned_byte" [] []);
       SetAttr (Loc "self") "subcategory" (Meth (Loc "inputStream") "read_unsigned_byte" [] []);
       SetAttr (Loc "self") "specificInfo" (Meth (Loc "inputStream") "read_unsigned_byte" [] []);
       SetAttr (Loc "self") "extra" (Meth (Loc "inputStream") "read_unsigned_byte" [] [])]))
  ].

(* opendis/dis7.py:1891-1919  class SimulationManagementPduHeader() *)
Definition c_SimulationManagementPduHeader : cls := mkcls "SimulationManagementPduHeader" ["SimulationManagementPduHeader"]
  [
    (* opendis/dis7.py:1898-1907 *)
    ("__init__", MMeth (mkmeth KNormal false [("self", None); ("pduHeader", Some (DLit (LNone))); ("originatingID", Some (DLit (LNone))); ("receivingID", Some (DLit (LNone)))]
       [SetAttr (Loc "self") "pduHeader" (OrE (Loc "pduHeader") (CallV (Glob "PduHeader") [] []));
       SetAttr (Loc "self") "originatingID" (OrE (Loc "originatingID") (CallV (Glob "SimulationIdentifier") [] []));
       SetAttr (Loc "self") "receivingID" (OrE (Loc "receivingID") (CallV (Glob "SimulationIdentifier") [] []))]));
    (* opendis/dis7.py:1909-1913 *)
    ("serialize", MMeth (mkmeth KNormal false [("self", None); ("outputStream", None)]
       [Expr (Meth (Attr (Loc "self") "pduHeader") "serialize" [(Loc "outputStream")] []);
       Expr (Meth (Attr (Loc "self") "originatingID") "serialize" [(Loc "outputStream")] []);
       Expr (Meth (Attr (Loc "self") "receivingID") "serialize" [(Loc "outputStream")] [])]));
    (* opendis/dis7.py:1915-1919 *)
    ("parse", MMeth (mkmeth KNormal false [("self", None); ("inputStream", None)]
       [Expr (Meth (Attr (Loc "self") "pduHeader") "parse" [(Loc "inputStream")] []);
       Expr (Meth (Attr (Loc "self") "originatingID") "parse" [(Loc "inputStream")] []);
       Expr (Meth (Attr (Loc "self") "receivingID") "parse" [(Loc "inputStream")] [])]))
  ].

(* opendis/dis7.py:1922-1960  class BeamData() *)
Definition c_BeamData : cls := mkcls "BeamData" ["BeamData"]
  [
    (* opendis/dis7.py:1928-1944 *)
    ("__init__", MMeth (mkmeth KNormal false [("self", None); ("beamAzimuthCenter", Some (DLit (LFloat 0))); ("beamAzimuthSweep", Some (DLit (LFloat 0))); ("beamElevationCenter", Some (DLit (LFloat 0))); ("beamElevationSweep", Some (DLit (LFloat 0))); ("beamSweepSync", Some (DLit (LFloat 0)))]
       [SetAttr (Loc "self") "beamAzimuthCenter" (Loc "beamAzimuthCenter");
       SetAttr (Loc "self") "beamAzimuthSweep" (Loc "beamAzimuthSweep");
       SetAttr (Loc "self") "beamElevationCenter" (Loc "beamElevationCenter");
       SetAttr (Loc "self") "beamElevationSweep" (Loc "beamElevationSweep");
       SetAttr (Loc "self") "beamSweepSync" (Loc "beamSweepSync")]));
    (* opendis/dis7.py:1946-1952 *)
    ("serialize", MMeth (mkmeth KNormal false [("self", None); ("outputStream", None)]
       [Expr (Meth (Loc "outputStream") "write_float" [(Attr (Loc "self") "beamAzimuthCenter")] []);
       Expr (Meth (Loc "outputStream") "write_float" [(Attr (Loc "self") "beamAzimuthSweep")] []);
       Expr (Meth (Loc "outputStream") "write_float" [(Attr (Loc "self") "beamElevationCenter")] []);
       Expr (Meth (Loc "outputStream") "write_float" [(Attr (Loc "self") "beamElevationSweep")] []);
       Expr (Meth (Loc "outputStream") "write_float" [(Attr (Loc "self") "beamSweepSync")] [])]));
    (* opendis/dis7.py:1954-1960 *)
    ("parse", MMeth (mkmeth KNormal false [("self", None); ("inputStream", None)]
       [SetAttr (Loc "self") "beamAzimuthCenter" (Meth (Loc "inputStream") "read_float" [] []);
       SetAttr (Loc "self") "beamAzimuthSweep" (Meth (Loc "inputStream") "read_float" [] []);
       SetAttr (Loc "self") "beamElevationCenter" (Meth (Loc "inputStream") "read_float" [] []);
       SetAttr (Loc "self") "beamElevationSweep" (Meth (Loc "inputStream") "read_float" [] []);
       SetAttr (Loc "self") "beamSweepSync" (Meth (Loc "inputStream") "read_float" [] [])]))
  ].

(* opendis/dis7.py:1963-1998  class EngineFuel() *)
Definition c_EngineFuel : cls := mkcls "EngineFuel" ["EngineFuel"]
  [
    (* opendis/dis7.py:1969-1982 *)
    ("__init__", MMeth (mkmeth KNormal false [("self", None); ("fuelQuantity", Some (DLit (LInt 0))); ("fuelMeasurementUnits", Some (DLit (LInt 0))); ("fuelType", Some (DLit (LInt 0))); ("fuelLocation", Some (DLit (LInt 0)))]
       [SetAttr (Loc "self") "fuelQuantity" (Lit (LInt 0));
       SetAttr (Loc "self") "fuelMeasurementUnits" (Lit (LInt 0));
       SetAttr (Loc "self") "fuelType" (Lit (LInt 0));
       SetAttr (Loc "self") "fuelLocation" (Lit (LInt 0));
       SetAttr (Loc "self") "padding" (Lit (LInt 0))]));
    (* opendis/dis7.py:1984-1990 *)
    ("serialize", MMeth (mkmeth KNormal false [("self", None); ("outputStream", None)]
       [Expr (Meth (Loc "outputStream") "write_unsigned_int" [(Attr (Loc "self") "fuelQuantity")] []);
       Expr (Meth (Loc "outputStream") "write_unsigned_byte" [(Attr (Loc "self") "fuelMeasurementUnits")] []);
       Expr (Meth (Loc "outputStream") "write_unsigned_byte" [(Attr (Loc "self") "fuelType")] []);
       Expr (Meth (Loc "outputStream") "write_unsigned_byte" [(Attr (Loc "self") "fuelLocation")] []);
       Expr (Meth (Loc "outputStream") "write_unsigned_byte" [(Attr (Loc "self") "padding")] [])]));
    (* opendis/dis7.py:1992-1998 *)
    ("parse", MMeth (mkmeth KNormal false [("self", None); ("inputStream", None)]
       [SetAttr (Loc "self") "fuelQuantity" (Meth (Loc "inputStream") "read_unsigned_int" [] []);
       SetAttr (Loc "self") "fuelMeasurementUnits" (Meth (Loc "inputStream") "read_unsigned_byte" [] []);
       SetAttr (Loc "self") "fuelType" (Meth (Loc "inputStream") "read_unsigned_byte" [] []);
       SetAttr (Loc "self") "fuelLocation" (Meth (Loc "inputStream") "read_unsigned_byte" [] []);
       SetAttr (Loc "self") "padding" (Meth (Loc "inputStream") "read_unsigned_byte" [] [])]))
  ].

(* opendis/dis7.py:2001-2047  class IOEffect() *)
Definition c_IOEffect : cls := mkcls "IOEffect" ["IOEffect"]
  [
    (* opendis/dis7.py:2006 *)
    ("recordType", MAttr (LInt 5500));
    (* opendis/dis7.py:2007 *)
    ("recordLength", MAttr (LInt 16));
    (* opendis/dis7.py:2009-2023 *)
    ("__init__", MMeth (mkmeth KNormal false [("self", None); ("ioStatus", Some (DLit (LInt 0))); ("ioLinkType", Some (DLit (LInt 0))); ("ioEffect", Some (DLit (LInt 0))); ("ioEffectDutyCycle", Some (DLit (LInt 0))); ("ioEffectDuration", Some (DLit (LInt 0))); ("ioProcess", Some (DLit (LInt 0)))]
       [SetAttr (Loc "self") "ioStatus" (Loc "ioStatus");
       SetAttr (Loc "self") "ioLinkType" (Loc "ioLinkType");
       SetAttr (Loc "self") "ioEffect" (Loc "ioEffect");
       SetAttr (Loc "self") "ioEffectDutyCycle" (Loc "ioEffectDutyCycle");
       SetAttr (Loc "self") "ioEffectDuration" (Loc "ioEffectDuration");
       SetAttr (Loc "self") "ioProcess" (Loc "ioProcess");
       SetAttr (Loc "self") "padding" (Lit (LInt 0))]));
    (* opendis/dis7.py:2025-2035 *)
    ("serialize", MMeth (mkmeth KNormal false [("self", None); ("outputStream", None)]
       [Expr (Meth (Loc "outputStream") "write_unsigned_int" [(Attr (Loc "self") "recordType")] []);
       Expr (Meth (Loc "outputStream") "write_unsigned_short" [(Attr (Loc "self") "recordLength")] []);
       Expr (Meth (Loc "outputStream") "write_unsigned_byte" [(Attr (Loc "self") "ioStatus")] []);
       Expr (Meth (Loc "outputStream") "write_unsigned_byte" [(Attr (Loc "self") "ioLinkType")] []);
       Expr (Meth (Loc "outputStream") "write_unsigned_byte" [(Attr (Loc "self") "ioEffect")] []);
       Expr (Meth (Loc "outputStream") "write_unsigned_byte" [(Attr (Loc "self") "ioEffectDutyCycle")] []);
       Expr (Meth (Loc "outputStream") "write_unsigned_short" [(Attr (Loc "self") "ioEffectDuration")] []);
       Expr (Meth (Loc "outputStream") "write_unsigned_short" [(Attr (Loc "self") "ioProcess")] []);
       Expr (Meth (Loc "outputStream") "write_unsigned_short" [(Attr (Loc "self") "padding")] [])]));
    (* opendis/dis7.py:2037-2047 *)
    ("parse", MMeth (mkmeth KNormal false [("self", None); ("inputStream", None)]
       [SetAttr (Loc "self") "recordType" (Meth (Loc "inputStream") "read_unsigned_int" [] []);
       SetAttr (Loc "self") "recordLength" (Meth (Loc "inputStream") "read_unsigned_short" [] []);
       SetAttr (Loc "self") "ioStatus" (Meth (Loc "inputStream") "read_unsigned_byte" [] []);
       SetAttr (Loc "self") "ioLinkType" (Meth (Loc "inputStream") "read_unsigned_byte" [] []);
       SetAttr (Loc "self") "ioEffect" (Meth (Loc "inputStream") "read_unsigned_byte" [] []);
       SetAttr (Loc "self") "ioEffectDutyCycle" (Meth (Loc "inputStream") "read_unsigned_byte" [] []);
       SetAttr (Loc "self") "ioEffectDuration" (Meth (Loc "inputStream") "read_unsigned_short" [] []);
       SetAttr (Loc "self") "ioProcess" (Meth (Loc "inputStream") "read_unsigned_short" [] []);
       SetAttr (Loc "self") "padding" (Meth (Loc "inputStream") "read_unsigned_short" [] [])]))
  ].

(* opendis/dis7.py:2050-2077  class SimulationIdentifier() *)
Definition c_SimulationIdentifier : cls := mkcls "SimulationIdentifier" ["SimulationIdentifier"]
  [
    (* opendis/dis7.py:2061-2067 *)
    ("__init__", MMeth (mkmeth KNormal false [("self", None); ("simulationAddress", Some (DLit (LNone))); ("referenceNumber", Some (DLit (LInt 0)))]
       [SetAttr (Loc "self") "simulationAddress" (OrE (Loc "simulationAddress") (CallV (Glob "SimulationAddress") [] []));
       SetAttr (Loc "self") "referenceNumber" (Loc "referenceNumber")]));
    (* opendis/dis7.py:2069-2072 *)
    ("serialize", MMeth (mkmeth KNormal false [("self", None); ("outputStream", None)]
       [Expr (Meth (Attr (Loc "self") "simulationAddress") "serialize" [(Loc "outputStream")] []);
       Expr (Meth (Loc "outputStream") "write_unsigned_short" [(Attr (Loc "self") "referenceNumber")] [])]));
    (* opendis/dis7.py:2074-2077 *)
    ("parse", MMeth (mkmeth KNormal false [("self", None); ("inputStream", None)]
       [Expr (Meth (Attr (Loc "self") "simulationAddress") "parse" [(Loc "inputStream")] []);
       SetAttr (Loc "self") "referenceNumber" (Meth (Loc "inputStream") "read_unsigned_short" [] [])]))
  ].

(* opendis/dis7.py:2080-2155  class GridAxisDescriptorVariable() *)
Definition c_GridAxisDescriptorVariable : cls := mkcls "GridAxisDescriptorVariable" ["GridAxisDescriptorVariable"]
  [
    (* opendis/dis7.py:2087-2120 *)
    ("__init__", MMeth (mkmeth KNormal false [("self", None); ("domainInitialXi", Some (DLit (LFloat 0))); ("domainFinalXi", Some (DLit (LFloat 0))); ("domainPointsXi", Some (DLit (LInt 0))); ("interleafFactor", Some (DLit (LInt 0))); ("axisType", Some (DLit (LInt 0))); ("numberOfPointsOnXiAxis", Some (DLit (LInt 0))); ("initialIndex", Some (DLit (LInt 0))); ("coordinateScaleXi", Some (DLit (LFloat 0))); ("coordinateOffsetXi", Some (DLit (LFloat 0))); ("xiValues", Some (DLit (LNone)))]
       [SetAttr (Loc "self") "domainInitialXi" (Loc "domainInitialXi");
       SetAttr (Loc "self") "domainFinalXi" (Loc "domainFinalXi");
       SetAttr (Loc "self") "domainPointsXi" (Loc "domainPointsXi");
       SetAttr (Loc "self") "interleafFactor" (Loc "interleafFactor");
       SetAttr (Loc "self") "axisType" (Loc "axisType");
       SetAttr (Loc "self") "numberOfPointsOnXiAxis" (Loc "numberOfPointsOnXiAxis");
       SetAttr (Loc "self") "initialIndex" (Loc "initialIndex");
       SetAttr (Loc "self") "coordinateScaleXi" (Loc "coordinateScaleXi");
       SetAttr (Loc "self") "coordinateOffsetXi" (Loc "coordinateOffsetXi");
       SetAttr (Loc "self") "xiValues" (OrE (Loc "xiValues") (ListE []))]));
    (* opendis/dis7.py:2123-2137 *)
    ("serialize", MMeth (mkmeth KNormal false [("self", None); ("outputStream", None)]
       [Expr (Meth (Loc "outputStream") "write_double" [(Attr (Loc "self") "domainInitialXi")] []);
       Expr (Meth (Loc "outputStream") "write_double" [(Attr (Loc "self") "domainFinalXi")] []);
       Expr (Meth (Loc "outputStream") "write_unsigned_short" [(Attr (Loc "self") "domainPointsXi")] []);
       Expr (Meth (Loc "outputStream") "write_unsigned_byte" [(Attr (Loc "self") "interleafFactor")] []);
       Expr (Meth (Loc "outputStream") "write_unsigned_byte" [(Attr (Loc "self") "axisType")] []);
       Expr (Meth (Loc "outputStream") "write_unsigned_short" [(Builtin BLen [(Attr (Loc "self") "xiValues")])] []);
       Expr (Meth (Loc "outputStream") "write_unsigned_short" [(Attr (Loc "self") "initialIndex")] []);
       Expr (Meth (Loc "outputStream") "write_double" [(Attr (Loc "self") "coordinateScaleXi")] []);
       Expr (Meth (Loc "outputStream") "write_double" [(Attr (Loc "self") "coordinateOffsetXi")] []);
       For "anObj" (Attr (Loc "self") "xiValues") [Expr (Meth (Loc "anObj") "serialize" [(Loc "outputStream")] [])]]));
    (* opendis/dis7.py:2139-2155 *)
    ("parse", MMeth (mkmeth KNormal false [("self", None); ("inputStream", None)]
       [SetAttr (Loc "self") "domainInitialXi" (Meth (Loc "inputStream") "read_double" [] []);
       SetAttr (Loc "self") "domainFinalXi" (Meth (Loc "inputStream") "read_double" [] []);
       SetAttr (Loc "self") "domainPointsXi" (Meth (Loc "inputStream") "read_unsigned_short" [] []);
       SetAttr (Loc "self") "interleafFactor" (Meth (Loc "inputStream") "read_unsigned_byte" [] []);
       SetAttr (Loc "self") "axisType" (Meth (Loc "inputStream") "read_unsigned_byte" [] []);
       SetAttr (Loc "self") "numberOfPointsOnXiAxis" (Meth (Loc "inputStream") "read_unsigned_short" [] []);
       SetAttr (Loc "self") "initialIndex" (Meth (Loc "inputStream") "read_unsigned_short" [] []);
       SetAttr (Loc "self") "coordinateScaleXi" (Meth (Loc "inputStream") "read_double" [] []);
       SetAttr (Loc "self") "coordinateOffsetXi" (Meth (Loc "inputStream") "read_double" [] []);
       For "idx" (Builtin BRange [(Lit (LInt 0)); (Attr (Loc "self") "numberOfPointsOnXiAxis")]) [Assign "element" (CallV (Glob "null") [] []); Expr (Meth (Loc "element") "parse" [(Loc "inputStream")] []); Expr (Meth (Attr (Loc "self") "xiValues") "append" [(Loc "element")] [])]]))
  ].

(* opendis/dis7.py:2158-2179  class SupplyQuantity() *)
Definition c_SupplyQuantity : cls := mkcls "SupplyQuantity" ["SupplyQuantity"]
  [
    (* opendis/dis7.py:2164-2169 *)
    ("__init__", MMeth (mkmeth KNormal false [("self", None); ("supplyType", Some (DLit (LNone))); ("quantity", Some (DLit (LFloat 0)))]
       [SetAttr (Loc "self") "supplyType" (OrE (Loc "supplyType") (CallV (Glob "EntityType") [] []));
       SetAttr (Loc "self") "quantity" (Loc "quantity")]));
    (* opendis/dis7.py:2171-2174 *)
    ("serialize", MMeth (mkmeth KNormal false [("self", None); ("outputStream", None)]
       [Expr (Meth (Attr (Loc "self") "supplyType") "serialize" [(Loc "outputStream")] []);
       Expr (Meth (Loc "outputStream") "write_float" [(Attr (Loc "self") "quantity")] [])]));
    (* opendis/dis7.py:2176-2179 *)
    ("parse", MMeth (mkmeth KNormal false [("self", None); ("inputStream", None)]
       [Expr (Meth (Attr (Loc "self") "supplyType") "parse" [(Loc "inputStream")] []);
       SetAttr (Loc "self") "quantity" (Meth (Loc "inputStream") "read_float" [] [])]))
  ].

(* opendis/dis7.py:2182-2218  class SilentEntitySystem() *)
Definition c_SilentEntitySystem : cls := mkcls "SilentEntitySystem" ["SilentEntitySystem"]
  [
    (* opendis/dis7.py:2188-2196 *)
    ("__init__", MMeth (mkmeth KNormal false [("self", None); ("numberOfEntities", Some (DLit (LInt 0))); ("entityType", Some (DLit (LNone))); ("appearanceRecordList", Some (DLit (LNone)))]
       [SetAttr (Loc "self") "numberOfEntities" (Loc "numberOfEntities");
       SetAttr (Loc "self") "entityType" (OrE (Loc "entityType") (CallV (Glob "EntityType") [] []));
       SetAttr (Loc "self") "appearanceRecordList" (OrE (Loc "appearanceRecordList") (ListE []))]));
    (* opendis/dis7.py:2199-2200 *)
    ("numberOfAppearanceRecords", MMeth (mkmeth KProperty false [("self", None)]
       [Return (Builtin BLen [(Attr (Loc "self") "appearanceRecordList")])]));
    (* opendis/dis7.py:2202-2208 *)
    ("serialize", MMeth (mkmeth KNormal false [("self", None); ("outputStream", None)]
       [Expr (Meth (Loc "outputStream") "write_unsigned_short" [(Attr (Loc "self") "numberOfEntities")] []);
       Expr (Meth (Loc "outputStream") "write_unsigned_short" [(Attr (Loc "self") "numberOfAppearanceRecords")] []);
       Expr (Meth (Attr (Loc "self") "entityType") "serialize" [(Loc "outputStream")] []);
       For "anObj" (Attr (Loc "self") "appearanceRecordList") [Expr (Meth (Loc "anObj") "serialize" [(Loc "outputStream")] [])]]));
    (* opendis/dis7.py:2210-2218 *)
    ("parse", MMeth (mkmeth KNormal false [("self", None); ("inputStream", None)]
       [SetAttr (Loc "self") "numberOfEntities" (Meth (Loc "inputStream") "read_unsigned_short" [] []);
       Assign "numberOfAppearanceRecords" (Meth (Loc "inputStream") "read_unsigned_short" [] []);
       Expr (Meth (Attr (Loc "self") "entityType") "parse" [(Loc "inputStream")] []);
       For "idx" (Builtin BRange [(Lit (LInt 0)); (Loc "numberOfAppearanceRecords")]) [Assign "element" (CallV (Glob "null") [] []); Expr (Meth (Loc "element") "parse" [(Loc "inputStream")] []); Expr (Meth (Attr (Loc "self") "appearanceRecordList") "append" [(Loc "element")] [])]]))
  ].

(* opendis/dis7.py:2221-2242  class SilentAggregateSystem() *)
Definition c_SilentAggregateSystem : cls := mkcls "SilentAggregateSystem" ["SilentAggregateSystem"]
  [
    (* opendis/dis7.py:2227-2232 *)
    ("__init__", MMeth (mkmeth KNormal false [("self", None); ("numberOfAggregates", Some (DLit (LInt 0))); ("aggregateType", Some (DLit (LNone)))]
       [SetAttr (Loc "self") "numberOfAggregates" (Loc "numberOfAggregates");
       SetAttr (Loc "self") "aggregateType" (OrE (Loc "aggregateType") (CallV (Glob "AggregateType") [] []))]));
    (* opendis/dis7.py:2234-2237 *)
    ("serialize", MMeth (mkmeth KNormal false [("self", None); ("outputStream", None)]
       [Expr (Meth (Loc "outputStream") "write_unsigned_short" [(Attr (Loc "self") "numberOfAggregates")] []);
       Expr (Meth (Attr (Loc "self") "entityType") "serialize" [(Loc "outputStream")] [])]));
    (* opendis/dis7.py:2239-2242 *)
    ("parse", MMeth (mkmeth KNormal false [("self", None); ("inputStream", None)]
       [SetAttr (Loc "self") "numberOfAggregates" (Meth (Loc "inputStream") "read_unsigned_short" [] []);
       Expr (Meth (Attr (Loc "self") "aggregateType") "parse" [(Loc "inputStream")] [])]))
  ].

(* opendis/dis7.py:2245-2310  class BlankingSector() *)
Definition c_BlankingSector : cls := mkcls "BlankingSector" ["BlankingSector"]
  [
    (* opendis/dis7.py:2251 *)
    ("recordType", MAttr (LInt 3500));
    (* opendis/dis7.py:2252 *)
    ("recordLength", MAttr (LInt 40));
    (* opendis/dis7.py:2254-2275 *)
    ("__init__", MMeth (mkmeth KNormal false [("self", None); ("emitterNumber", Some (DLit (LInt 0))); ("beamNumber", Some (DLit (LInt 0))); ("stateIndicator", Some (DLit (LInt 0))); ("leftAzimuth", Some (DLit (LFloat 0))); ("rightAzimuth", Some (DLit (LFloat 0))); ("lowerElevation", Some (DLit (LFloat 0))); ("upperElevation", Some (DLit (LFloat 0))); ("residualPower", Some (DLit (LFloat 0)))]
       [SetAttr (Loc "self") "padding" (Lit (LInt 0));
       SetAttr (Loc "self") "emitterNumber" (Loc "emitterNumber");
       SetAttr (Loc "self") "beamNumber" (Loc "beamNumber");
       SetAttr (Loc "self") "stateIndicator" (Loc "stateIndicator");
       SetAttr (Loc "self") "padding2" (Lit (LInt 0));
       SetAttr (Loc "self") "leftAzimuth" (Loc "leftAzimuth");
       SetAttr (Loc "self") "rightAzimuth" (Loc "rightAzimuth");
       SetAttr (Loc "self") "lowerElevation" (Loc "lowerElevation");
       SetAttr (Loc "self") "upperElevation" (Loc "upperElevation");
       SetAttr (Loc "self") "residualPower" (Loc "residualPower");
       SetAttr (Loc "self") "padding3" (Lit (LInt 0));
       SetAttr (Loc "self") "padding4" (Lit (LInt 0))]));
    (* opendis/dis7.py:2277-2292 *)
    ("serialize", MMeth (mkmeth KNormal false [("self", None); ("outputStream", None)]
       [Expr (Meth (Loc "outputStream") "write_int" [(Attr (Loc "self") "recordType")] []);
       Expr (Meth (Loc "outputStream") "write_unsigned_short" [(Attr (Loc "self") "recordLength")] []);
       Expr (Meth (Loc "outputStream") "write_unsigned_short" [(Attr (Loc "self") "padding")] []);
       Expr (Meth (Loc "outputStream") "write_unsigned_byte" [(Attr (Loc "self") "emitterNumber")] []);
       Expr (Meth (Loc "outputStream") "write_unsigned_byte" [(Attr (Loc "self") "beamNumber")] []);
       Expr (Meth (Loc "outputStream") "write_unsigned_byte" [(Attr (Loc "self") "stateIndicator")] []);
       Expr (Meth (Loc "outputStream") "write_unsigned_byte" [(Attr (Loc "self") "padding2")] []);
       Expr (Meth (Loc "outputStream") "write_float" [(Attr (Loc "self") "leftAzimuth")] []);
       Expr (Meth (Loc "outputStream") "write_float" [(Attr (Loc "self") "rightAzimuth")] []);
       Expr (Meth (Loc "outputStream") "write_float" [(Attr (Loc "self") "lowerElevation")] []);
       Expr (Meth (Loc "outputStream") "write_float" [(Attr (Loc "self") "upperElevation")] []);
       Expr (Meth (Loc "outputStream") "write_float" [(Attr (Loc "self") "residualPower")] []);
       Expr (Meth (Loc "outputStream") "write_int" [(Attr (Loc "self") "padding3")] []);
       Expr (Meth (Loc "outputStream") "write_int" [(Attr (Loc "self") "padding4")] [])]));
    (* opendis/dis7.py:2294-2310 *)
    ("parse", MMeth (mkmeth KNormal false [("self", None); ("inputStream", None)]
       [SetAttr (Loc "self") "recordType" (Meth (Loc "inputStream") "read_int" [] []);
       SetAttr (Loc "self") "recordLength" (Meth (Loc "inputStream") "read_unsigned_short" [] []);
       SetAttr (Loc "self") "padding" (Meth (Loc "inputStream") "read_unsigned_short" [] []);
       SetAttr (Loc "self") "emitterNumber" (Meth (Loc "inputStream") "read_unsigned_byte" [] []);
       SetAttr (Loc "self") "beamNumber" (Meth (Loc "inputStream") "read_unsigned_byte" [] []);
       SetAttr (Loc "self") "stateIndicator" (Meth (Loc "inputStream") "read_unsigned_byte" [] []);
       SetAttr (Loc "self") "padding2" (Meth (Loc "inputStream") "read_unsigned_byte" [] []);
       SetAttr (Loc "self") "leftAzimuth" (Meth (Loc "inputStream") "read_float" [] []);
       SetAttr (Loc "self") "rightAzimuth" (Meth (Loc "inputStream") "read_float" [] []);
       SetAttr (Loc "self") "lowerElevation" (Meth (Loc "inputStream") "read_float" [] []);
       SetAttr (Loc "self") "upperElevation" (Meth (Loc "inputStream") "read_float" [] []);
       SetAttr (Loc "self") "residualPower" (Meth (Loc "inputStream") "read_float" [] []);
       SetAttr (Loc "self") "padding3" (Meth (Loc "inputStream") "read_int" [] []);
       SetAttr (Loc "self") "padding4" (Meth (Loc "inputStream") "read_int" [] [])]))
  ].

(* opendis/dis7.py:2313-2350  class LaunchedMunitionRecord() *)
Definition c_LaunchedMunitionRecord : cls := mkcls "LaunchedMunitionRecord" ["LaunchedMunitionRecord"]
  [
    (* opendis/dis7.py:2319-2330 *)
    ("__init__", MMeth (mkmeth KNormal false [("self", None); ("fireEventID", Some (DLit (LNone))); ("firingEntityID", Some (DLit (LNone))); ("targetEntityID", Some (DLit (LNone))); ("targetLocation", Some (DLit (LNone)))]
       [SetAttr (Loc "self") "fireEventID" (OrE (Loc "fireEventID") (CallV (Glob "EventIdentifier") [] []));
       SetAttr (Loc "self") "padding" (Lit (LInt 0));
       SetAttr (Loc "self") "firingEntityID" (OrE (Loc "firingEntityID") (CallV (Glob "EventIdentifier") [] []));
       SetAttr (Loc "self") "padding2" (Lit (LInt 0));
       SetAttr (Loc "self") "targetEntityID" (OrE (Loc "targetEntityID") (CallV (Glob "EventIdentifier") [] []));
       SetAttr (Loc "self") "padding3" (Lit (LInt 0));
       SetAttr (Loc "self") "targetLocation" (OrE (Loc "targetLocation") (CallV (Glob "WorldCoordinates") [] []))]));
    (* opendis/dis7.py:2332-2340 *)
    ("serialize", MMeth (mkmeth KNormal false [("self", None); ("outputStream", None)]
       [Expr (Meth (Attr (Loc "self") "fireEventID") "serialize" [(Loc "outputStream")] []);
       Expr (Meth (Loc "outputStream") "write_unsigned_short" [(Attr (Loc "self") "padding")] []);
       Expr (Meth (Attr (Loc "self") "firingEntityID") "serialize" [(Loc "outputStream")] []);
       Expr (Meth (Loc "outputStream") "write_unsigned_short" [(Attr (Loc "self") "padding2")] []);
       Expr (Meth (Attr (Loc "self") "targetEntityID") "serialize" [(Loc "outputStream")] []);
       Expr (Meth (Loc "outputStream") "write_unsigned_short" [(Attr (Loc "self") "padding3")] []);
       Expr (Meth (Attr (Loc "self") "targetLocation") "serialize" [(Loc "outputStream")] [])]));
    (* opendis/dis7.py:2342-2350 *)
    ("parse", MMeth (mkmeth KNormal false [("self", None); ("inputStream", None)]
       [Expr (Meth (Attr (Loc "self") "fireEventID") "parse" [(Loc "inputStream")] []);
       SetAttr (Loc "self") "padding" (Meth (Loc "inputStream") "read_unsigned_short" [] []);
       Expr (Meth (Attr (Loc "self") "firingEntityID") "parse" [(Loc "inputStream")] []);
       SetAttr (Loc "self") "padding2" (Meth (Loc "inputStream") "read_unsigned_short" [] []);
       Expr (Meth (Attr (Loc "self") "targetEntityID") "parse" [(Loc "inputStream")] []);
       SetAttr (Loc "self") "padding3" (Meth (Loc "inputStream") "read_unsigned_short" [] []);
       Expr (Meth (Attr (Loc "self") "targetLocation") "parse" [(Loc "inputStream")] [])]))
  ].

(* opendis/dis7.py:2353-2398  class IFFFundamentalParameterData() *)
Definition c_IFFFundamentalParameterData : cls := mkcls "IFFFundamentalParameterData" ["IFFFundamentalParameterData"]
  [
    (* opendis/dis7.py:2359-2373 *)
    ("__init__", MMeth (mkmeth KNormal false [("self", None); ("erp", Some (DLit (LFloat 0))); ("frequency", Some (DLit (LFloat 0))); ("pgrf", Some (DLit (LFloat 0))); ("pulseWidth", Some (DLit (LFloat 0))); ("burstLength", Some (DLit (LInt 0))); ("applicableModes", Some (DLit (LInt 0))); ("systemSpecificData", Some (DLit (LNone)))]
       [SetAttr (Loc "self") "erp" (Loc "erp");
       SetAttr (Loc "self") "frequency" (Loc "frequency");
       SetAttr (Loc "self") "pgrf" (Loc "pgrf");
       SetAttr (Loc "self") "pulseWidth" (Loc "pulseWidth");
       SetAttr (Loc "self") "burstLength" (Loc "burstLength");
       SetAttr (Loc "self") "applicableModes" (Loc "applicableModes");
       SetAttr (Loc "self") "systemSpecificData" (OrE (Loc "systemSpecificData") (Bin OMul (ListE [(Lit (LInt 0))]) (Lit (LInt 3))))]));
    (* opendis/dis7.py:2375-2384 *)
    ("serialize", MMeth (mkmeth KNormal false [("self", None); ("outputStream", None)]
       [Expr (Meth (Loc "outputStream") "write_float" [(Attr (Loc "self") "erp")] []);
       Expr (Meth (Loc "outputStream") "write_float" [(Attr (Loc "self") "frequency")] []);
       Expr (Meth (Loc "outputStream") "write_float" [(Attr (Loc "self") "pgrf")] []);
       Expr (Meth (Loc "outputStream") "write_float" [(Attr (Loc "self") "pulseWidth")] []);
       Expr (Meth (Loc "outputStream") "write_unsigned_int" [(Attr (Loc "self") "burstLength")] []);
       Expr (Meth (Loc "outputStream") "write_unsigned_byte" [(Attr (Loc "self") "applicableModes")] []);
       For "idx" (Builtin BRange [(Lit (LInt 0)); (Lit (LInt 3))]) [Expr (Meth (Loc "outputStream") "write_unsigned_byte" [(Sub (Attr (Loc "self") "systemSpecificData") (Loc "idx"))] [])]]));
    (* opendis/dis7.py:2386-2398 *)
    ("parse", MMeth (mkmeth KNormal false [("self", None); ("inputStream", None)]
       [SetAttr (Loc "self") "erp" (Meth (Loc "inputStream") "read_float" [] []);
       SetAttr (Loc "self") "frequency" (Meth (Loc "inputStream") "read_float" [] []);
       SetAttr (Loc "self") "pgrf" (Meth (Loc "inputStream") "read_float" [] []);
       SetAttr (Loc "self") "pulseWidth" (Meth (Loc "inputStream") "read_float" [] []);
       SetAttr (Loc "self") "burstLength" (Meth (Loc "inputStream") "read_unsigned_int" [] []);
       SetAttr (Loc "self") "applicableModes" (Meth (Loc "inputStream") "read_unsigned_byte" [] []);
       SetAttr (Loc "self") "systemSpecificData" (Bin OMul (ListE [(Lit (LInt 0))]) (Lit (LInt 3)));
       For "idx" (Builtin BRange [(Lit (LInt 0)); (Lit (LInt 3))]) [Assign "val" (Meth (Loc "inputStream") "read_unsigned_byte" [] []); SetSub (Attr (Loc "self") "systemSpecificData") (Loc "idx") (Loc "val")]]))
  ].

(* opendis/dis7.py:2401-2463  class FundamentalOperationalData() *)
Definition c_FundamentalOperationalData : cls := mkcls "FundamentalOperationalData" ["FundamentalOperationalData"]
  [
    (* opendis/dis7.py:2407-2437 *)
    ("__init__", MMeth (mkmeth KNormal false [("self", None); ("systemStatus", Some (DLit (LInt 0))); ("dataField1", Some (DLit (LInt 0))); ("informationLayers", Some (DLit (LInt 0))); ("dataField2", Some (DLit (LInt 0))); ("parameter1", Some (DLit (LInt 0))); ("parameter2", Some (DLit (LInt 0))); ("parameter3", Some (DLit (LInt 0))); ("parameter4", Some (DLit (LInt 0))); ("parameter5", Some (DLit (LInt 0))); ("parameter6", Some (DLit (LInt 0)))]
       [SetAttr (Loc "self") "systemStatus" (Loc "systemStatus");
       SetAttr (Loc "self") "dataField1" (Loc "dataField1");
       SetAttr (Loc "self") "informationLayers" (Loc "informationLayers");
       SetAttr (Loc "self") "dataField2" (Loc "dataField2");
       SetAttr (Loc "self") "parameter1" (Loc "parameter1");
       SetAttr (Loc "self") "parameter2" (Loc "parameter2");
       SetAttr (Loc "self") "parameter3" (Loc "parameter3");
       SetAttr (Loc "self") "parameter4" (Loc "parameter4");
       SetAttr (Loc "self") "parameter5" (Loc "parameter5");
       SetAttr (Loc "self") "parameter6" (Loc "parameter6")]));
    (* opendis/dis7.py:2439-2450 *)
    ("serialize", MMeth (mkmeth KNormal false [("self", None); ("outputStream", None)]
       [Expr (Meth (Loc "outputStream") "write_unsigned_byte" [(Attr (Loc "self") "systemStatus")] []);
       Expr (Meth (Loc "outputStream") "write_unsigned_byte" [(Attr (Loc "self") "dataField1")] []);
       Expr (Meth (Loc "outputStream") "write_unsigned_byte" [(Attr (Loc "self") "informationLayers")] []);
       Expr (Meth (Loc "outputStream") "write_unsigned_byte" [(Attr (Loc "self") "dataField2")] []);
       Expr (Meth (Loc "outputStream") "write_unsigned_short" [(Attr (Loc "self") "parameter1")] []);
       Expr (Meth (Loc "outputStream") "write_unsigned_short" [(Attr (Loc "self") "parameter2")] []);
       Expr (Meth (Loc "outputStream") "write_unsigned_short" [(Attr (Loc "self") "parameter3")] []);
       Expr (Meth (Loc "outputStream") "write_unsigned_short" [(Attr (Loc "self") "parameter4")] []);
       Expr (Meth (Loc "outputStream") "write_unsigned_short" [(Attr (Loc "self") "parameter5")] []);
       Expr (Meth (Loc "outputStream") "write_unsigned_short" [(Attr (Loc "self") "parameter6")] [])]));
    (* opendis/dis7.py:2452-2463 *)
    ("parse", MMeth (mkmeth KNormal false [("self", None); ("inputStream", None)]
       [SetAttr (Loc "self") "systemStatus" (Meth (Loc "inputStream") "read_unsigned_byte" [] []);
       SetAttr (Loc "self") "dataField1" (Meth (Loc "inputStream") "read_unsigned_byte" [] []);
       SetAttr (Loc "self") "informationLayers" (Meth (Loc "inputStream") "read_unsigned_byte" [] []);
       SetAttr (Loc "self") "dataField2" (Meth (Loc "inputStream") "read_unsigned_byte" [] []);
       SetAttr (Loc "self") "parameter1" (Meth (Loc "inputStream") "read_unsigned_short" [] []);
       SetAttr (Loc "self") "parameter2" (Meth (Loc "inputStream") "read_unsigned_short" [] []);
       SetAttr (Loc "self") "parameter3" (Meth (Loc "inputStream") "read_unsigned_short" [] []);
       SetAttr (Loc "self") "parameter4" (Meth (Loc "inputStream") "read_unsigned_short" [] []);
       SetAttr (Loc "self") "parameter5" (Meth (Loc "inputStream") "read_unsigned_short" [] []);
       SetAttr (Loc "self") "parameter6" (Meth (Loc "inputStream") "read_unsigned_short" [] [])]))
  ].

(* opendis/dis7.py:2466-2494  class IntercomCommunicationsParameters() *)
Definition c_IntercomCommunicationsParameters : cls := mkcls "IntercomCommunicationsParameters" ["IntercomCommunicationsParameters"]
  [
    (* opendis/dis7.py:2472-2481 *)
    ("__init__", MMeth (mkmeth KNormal false [("self", None); ("recordType", Some (DLit (LInt 0))); ("recordLength", Some (DLit (LInt 0))); ("recordSpecificField", Some (DLit (LInt 0)))]
       [SetAttr (Loc "self") "recordType" (Loc "recordType");
       SetAttr (Loc "self") "recordLength" (Loc "recordLength");
       SetAttr (Loc "self") "recordSpecificField" (Loc "recordSpecificField")]));
    (* opendis/dis7.py:2484-2488 *)
    ("serialize", MMeth (mkmeth KNormal false [("self", None); ("outputStream", None)]
       [Expr (Meth (Loc "outputStream") "write_unsigned_short" [(Attr (Loc "self") "recordType")] []);
       Expr (Meth (Loc "outputStream") "write_unsigned_short" [(Attr (Loc "self") "recordLength")] []);
       Expr (Meth (Loc "outputStream") "write_unsigned_int" [(Attr (Loc "self") "recordSpecificField")] [])]));
    (* opendis/dis7.py:2490-2494 *)
    ("parse", MMeth (mkmeth KNormal false [("self", None); ("inputStream", None)]
       [SetAttr (Loc "self") "recordType" (Meth (Loc "inputStream") "read_unsigned_short" [] []);
       SetAttr (Loc "self") "recordLength" (Meth (Loc "inputStream") "read_unsigned_short" [] []);
       SetAttr (Loc "self") "recordSpecificField" (Meth (Loc "inputStream") "read_unsigned_int" [] [])]))
  ].

(* opendis/dis7.py:2497-2540  class EntityType() *)
Definition c_EntityType : cls := mkcls "EntityType" ["EntityType"]
  [
    (* opendis/dis7.py:2503-2520 *)
    ("__init__", MMeth (mkmeth KNormal false [("self", None); ("entityKind", Some (DLit (LInt 0))); ("domain", Some (DLit (LInt 0))); ("country", Some (DLit (LInt 0))); ("category", Some (DLit (LInt 0))); ("subcategory", Some (DLit (LInt 0))); ("specific", Some (DLit (LInt 0))); ("extra", Some (DLit (LInt 0)))]
       [SetAttr (Loc "self") "entityKind" (Loc "entityKind");
       SetAttr (Loc "self") "domain" (Loc "domain");
       SetAttr (Loc "self") "country" (Loc "country");
       SetAttr (Loc "self") "category" (Loc "category");
       SetAttr (Loc "self") "subcategory" (Loc "subcategory");
       SetAttr (Loc "self") "specific" (Loc "specific");
       SetAttr (Loc "self") "extra" (Loc "extra")]));
    (* opendis/dis7.py:2522-2530 *)
    ("serialize", MMeth (mkmeth KNormal false [("self", None); ("outputStream", None)]
       [Expr (Meth (Loc "outputStream") "write_unsigned_byte" [(Attr (Loc "self") "entityKind")] []);
       Expr (Meth (Loc "outputStream") "write_unsigned_byte" [(Attr (Loc "self") "domain")] []);
       Expr (Meth (Loc "outputStream") "write_unsigned_short" [(Attr (Loc "self") "country")] []);
       Expr (Meth (Loc "outputStream") "write_unsigned_byte" [(Attr (Loc "self") "category")] []);
       Expr (Meth (Loc "outputStream") "write_unsigned_byte" [(Attr (Loc "self") "subcategory")] []);
       Expr (Meth (Loc "outputStream") "write_unsigned_byte" [(Attr (Loc "self") "specific")] []);
       Expr (Meth (Loc "outputStream") "write_unsigned_byte" [(Attr (Loc "self") "extra")] [])]));
    (* opendis/dis7.py:2532-2540 *)
    ("parse", MMeth (mkmeth KNormal false [("self", None); ("inputStream", None)]
       [SetAttr (Loc "self") "entityKind" (Meth (Loc "inputStream") "read_unsigned_byte" [] []);
       SetAttr (Loc "self") "domain" (Meth (Loc "inputStream") "read_unsigned_byte" [] []);
       SetAttr (Loc "self") "country" (Meth (Loc "inputStream") "read_unsigned_short" [] []);
       SetAttr (Loc "self") "category" (Meth (Loc "inputStream") "read_unsigned_byte" [] []);
       SetAttr (Loc "self") "subcategory" (Meth (Loc "inputStream") "read_unsigned_byte" [] []);
       SetAttr (Loc "self") "specific" (Meth (Loc "inputStream") "read_unsigned_byte" [] []);
       SetAttr (Loc "self") "extra" (Meth (Loc "inputStream") "read_unsigned_byte" [] [])]))
  ].

(* opendis/dis7.py:2543-2582  class Munition() *)
Definition c_Munition : cls := mkcls "Munition" ["Munition"]
  [
    (* opendis/dis7.py:2552-2566 *)
    ("__init__", MMeth (mkmeth KNormal false [("self", None); ("munitionType", Some (DLit (LNone))); ("station", Some (DLit (LInt 0))); ("quantity", Some (DLit (LInt 0))); ("munitionStatus", Some (DLit (LInt 0)))]
       [SetAttr (Loc "self") "munitionType" (OrE (Loc "munitionType") (CallV (Glob "EntityType") [] []));
       SetAttr (Loc "self") "station" (Loc "station");
       SetAttr (Loc "self") "quantity" (Loc "quantity");
       SetAttr (Loc "self") "munitionStatus" (Loc "munitionStatus");
       SetAttr (Loc "self") "padding" (Lit (LInt 0))]));
    (* opendis/dis7.py:2568-2574 *)
    ("serialize", MMeth (mkmeth KNormal false [("self", None); ("outputStream", None)]
       [Expr (Meth (Attr (Loc "self") "munitionType") "serialize" [(Loc "outputStream")] []);
       Expr (Meth (Loc "outputStream") "write_unsigned_int" [(Attr (Loc "self") "station")] []);
       Expr (Meth (Loc "outputStream") "write_unsigned_short" [(Attr (Loc "self") "quantity")] []);
       Expr (Meth (Loc "outputStream") "write_unsigned_byte" [(Attr (Loc "self") "munitionStatus")] []);
       Expr (Meth (Loc "outputStream") "write_unsigned_byte" [(Attr (Loc "self") "padding")] [])]));
    (* opendis/dis7.py:2576-2582 *)
    ("parse", MMeth (mkmeth KNormal false [("self", None); ("inputStream", None)]
       [Expr (Meth (Attr (Loc "self") "munitionType") "parse" [(Loc "inputStream")] []);
       SetAttr (Loc "self") "station" (Meth (Loc "inputStream") "read_unsigned_int" [] []);
       SetAttr (Loc "self") "quantity" (Meth (Loc "inputStream") "read_unsigned_short" [] []);
       SetAttr (Loc "self") "munitionStatus" (Meth (Loc "inputStream") "read_unsigned_byte" [] []);
       SetAttr (Loc "self") "padding" (Meth (Loc "inputStream") "read_unsigned_byte" [] [])]))
  ].

(* opendis/dis7.py:2585-2615  class StandardVariableSpecification() *)
Definition c_StandardVariableSpecification : cls := mkcls "StandardVariableSpecification" ["StandardVariableSpecification"]
  [
    (* opendis/dis7.py:2591-2596 *)
    ("__init__", MMeth (mkmeth KNormal false [("self", None); ("standardVariables", Some (DLit (LNone)))]
       [SetAttr (Loc "self") "standardVariables" (OrE (Loc "standardVariables") (ListE []))]));
    (* opendis/dis7.py:2599-2600 *)
    ("numberOfStandardVariableRecords", MMeth (mkmeth KProperty false [("self", None)]
       [Return (Builtin BLen [(Attr (Loc "self") "standardVariables")])]));
    (* opendis/dis7.py:2602-2606 *)
    ("serialize", MMeth (mkmeth KNormal false [("self", None); ("outputStream", None)]
       [Expr (Meth (Loc "outputStream") "write_unsigned_short" [(Attr (Loc "self") "numberOfStandardVariableRecords")] []);
       For "anObj" (Attr (Loc "self") "standardVariables") [Expr (Meth (Loc "anObj") "serialize" [(Loc "outputStream")] [])]]));
    (* opendis/dis7.py:2608-2615 *)
    ("parse", MMeth (mkmeth KNormal false [("self", None); ("inputStream", None)]
       [Assign "numberOfStandardVariableRecords" (Meth (Loc "inputStream") "read_unsigned_short" [] []);
       For "idx" (Builtin BRange [(Lit (LInt 0)); (Loc "numberOfStandardVariableRecords")]) [Assign "element" (CallV (Glob "null") [] []); Expr (Meth (Loc "element") "parse" [(Loc "inputStream")] []); Expr (Meth (Attr (Loc "self") "standardVariables") "append" [(Loc "element")] [])]]))
  ].

(* opendis/dis7.py:2618-2633  class Vector2Float() *)
Definition c_Vector2Float : cls := mkcls "Vector2Float" ["Vector2Float"]
  [
    (* opendis/dis7.py:2621-2623 *)
    ("__init__", MMeth (mkmeth KNormal false [("self", None); ("x", Some (DLit (LFloat 0))); ("y", Some (DLit (LFloat 0)))]
       [SetAttr (Loc "self") "x" (Loc "x");
       SetAttr (Loc "self") "y" (Loc "y")]));
    (* opendis/dis7.py:2625-2628 *)
    ("serialize", MMeth (mkmeth KNormal false [("self", None); ("outputStream", None)]
       [Expr (Meth (Loc "outputStream") "write_float" [(Attr (Loc "self") "x")] []);
       Expr (Meth (Loc "outputStream") "write_float" [(Attr (Loc "self") "y")] [])]));
    (* opendis/dis7.py:2630-2633 *)
    ("parse", MMeth (mkmeth KNormal false [("self", None); ("inputStream", None)]
       [SetAttr (Loc "self") "x" (Meth (Loc "inputStream") "read_float" [] []);
       SetAttr (Loc "self") "y" (Meth (Loc "inputStream") "read_float" [] [])]))
  ].

(* opendis/dis7.py:2636-2668  class Environment() *)
Definition c_Environment : cls := mkcls "Environment" ["Environment"]
  [
    (* opendis/dis7.py:2642-2654 *)
    ("__init__", MMeth (mkmeth KNormal false [("self", None); ("environmentType", Some (DLit (LInt 0))); ("length", Some (DLit (LInt 0))); ("index", Some (DLit (LInt 0)))]
       [SetAttr (Loc "self") "environmentType" (Loc "environmentType");
       SetAttr (Loc "self") "length" (Loc "length");
       SetAttr (Loc "self") "index" (Loc "index");
       SetAttr (Loc "self") "padding0" (Lit (LInt 0));
       SetAttr (Loc "self") "padding1" (Lit (LInt 0))]));
    (* opendis/dis7.py:2656-2661 *)
    ("serialize", MMeth (mkmeth KNormal false [("self", None); ("outputStream", None)]
       [Expr (Meth (Loc "outputStream") "write_unsigned_int" [(Attr (Loc "self") "environmentType")] []);
       Expr (Meth (Loc "outputStream") "write_unsigned_short" [(Attr (Loc "self") "length")] []);
       Expr (Meth (Loc "outputStream") "write_unsigned_byte" [(Attr (Loc "self") "index")] []);
       Expr (Meth (Loc "outputStream") "write_unsigned_byte" [(Attr (Loc "self") "padding")] [])]));
    (* opendis/dis7.py:2663-2668 *)
    ("parse", MMeth (mkmeth KNormal false [("self", None); ("inputStream", None)]
       [SetAttr (Loc "self") "environmentType" (Meth (Loc "inputStream") "read_unsigned_int" [] []);
       SetAttr (Loc "self") "length" (Meth (Loc "inputStream") "read_unsigned_short" [] []);
       SetAttr (Loc "self") "index" (Meth (Loc "inputStream") "read_unsigned_byte" [] []);
       SetAttr (Loc "self") "padding" (Meth (Loc "inputStream") "read_unsigned_byte" [] [])]))
  ].

(* opendis/dis7.py:2671-2698  class AcousticEmitter() *)
Definition c_AcousticEmitter : cls := mkcls "AcousticEmitter" ["AcousticEmitter"]
  [
    (* opendis/dis7.py:2677-2686 *)
    ("__init__", MMeth (mkmeth KNormal false [("self", None); ("acousticSystemName", Some (DLit (LInt 0))); ("acousticFunction", Some (DLit (LInt 0))); ("acousticIDNumber", Some (DLit (LInt 0)))]
       [SetAttr (Loc "self") "acousticSystemName" (Loc "acousticSystemName");
       SetAttr (Loc "self") "acousticFunction" (Loc "acousticFunction");
       SetAttr (Loc "self") "acousticIDNumber" (Loc "acousticIDNumber")]));
    (* opendis/dis7.py:2688-2692 *)
    ("serialize", MMeth (mkmeth KNormal false [("self", None); ("outputStream", None)]
       [Expr (Meth (Loc "outputStream") "write_unsigned_short" [(Attr (Loc "self") "acousticSystemName")] []);
       Expr (Meth (Loc "outputStream") "write_unsigned_byte" [(Attr (Loc "self") "acousticFunction")] []);
       Expr (Meth (Loc "outputStream") "write_unsigned_byte" [(Attr (Loc "self") "acousticIDNumber")] [])]));
    (* opendis/dis7.py:2694-2698 *)
    ("parse", MMeth (mkmeth KNormal false [("self", None); ("inputStream", None)]
       [SetAttr (Loc "self") "acousticSystemName" (Meth (Loc "inputStream") "read_unsigned_short" [] []);
       SetAttr (Loc "self") "acousticFunction" (Meth (Loc "inputStream") "read_unsigned_byte" [] []);
       SetAttr (Loc "self") "acousticIDNumber" (Meth (Loc "inputStream") "read_unsigned_byte" [] [])]))
  ].

(* opendis/dis7.py:2701-2728  class AngularVelocityVector() *)
Definition c_AngularVelocityVector : cls := mkcls "AngularVelocityVector" ["AngularVelocityVector"]
  [
    (* opendis/dis7.py:2710-2716 *)
    ("__init__", MMeth (mkmeth KNormal false [("self", None); ("x", Some (DLit (LFloat 0))); ("y", Some (DLit (LFloat 0))); ("z", Some (DLit (LFloat 0)))]
       [SetAttr (Loc "self") "x" (Lit (LInt 0));
       SetAttr (Loc "self") "y" (Lit (LInt 0));
       SetAttr (Loc "self") "z" (Lit (LInt 0))]));
    (* opendis/dis7.py:2718-2722 *)
    ("serialize", MMeth (mkmeth KNormal false [("self", None); ("outputStream", None)]
       [Expr (Meth (Loc "outputStream") "write_float" [(Attr (Loc "self") "x")] []);
       Expr (Meth (Loc "outputStream") "write_float" [(Attr (Loc "self") "y")] []);
       Expr (Meth (Loc "outputStream") "write_float" [(Attr (Loc "self") "z")] [])]));
    (* opendis/dis7.py:2724-2728 *)
    ("parse", MMeth (mkmeth KNormal false [("self", None); ("inputStream", None)]
       [SetAttr (Loc "self") "x" (Meth (Loc "inputStream") "read_float" [] []);
       SetAttr (Loc "self") "y" (Meth (Loc "inputStream") "read_float" [] []);
       SetAttr (Loc "self") "z" (Meth (Loc "inputStream") "read_float" [] [])]))
  ].

(* opendis/dis7.py:2731-2759  class AggregateMarking() *)
Definition c_AggregateMarking : cls := mkcls "AggregateMarking" ["AggregateMarking"]
  [
    (* opendis/dis7.py:2738-2744 *)
    ("__init__", MMeth (mkmeth KNormal false [("self", None); ("characterSet", Some (DLit (LInt 0))); ("characters", Some (DLit (LNone)))]
       [SetAttr (Loc "self") "characterSet" (Loc "characterSet");
       SetAttr (Loc "self") "characters" (Bin OMul (ListE [(Lit (LInt 0))]) (Lit (LInt 31)))]));
    (* opendis/dis7.py:2746-2750 *)
    ("serialize", MMeth (mkmeth KNormal false [("self", None); ("outputStream", None)]
       [Expr (Meth (Loc "outputStream") "write_unsigned_byte" [(Attr (Loc "self") "characterSet")] []);
       For "idx" (Builtin BRange [(Lit (LInt 0)); (Lit (LInt 31))]) [Expr (Meth (Loc "outputStream") "write_unsigned_byte" [(Sub (Attr (Loc "self") "characters") (Loc "idx"))] [])]]));
    (* opendis/dis7.py:2752-2759 *)
    ("parse", MMeth (mkmeth KNormal false [("self", None); ("inputStream", None)]
       [SetAttr (Loc "self") "characterSet" (Meth (Loc "inputStream") "read_unsigned_byte" [] []);
       SetAttr (Loc "self") "characters" (Bin OMul (ListE [(Lit (LInt 0))]) (Lit (LInt 31)));
       For "idx" (Builtin BRange [(Lit (LInt 0)); (Lit (LInt 31))]) [Assign "val" (Meth (Loc "inputStream") "read_unsigned_byte" [] []); SetSub (Attr (Loc "self") "characters") (Loc "idx") (Loc "val")]]))
  ].

(* opendis/dis7.py:2762-2781  class DataFilterRecord() *)
Definition c_DataFilterRecord : cls := mkcls "DataFilterRecord" ["DataFilterRecord"]
  [
    (* opendis/dis7.py:2771-2773 *)
    ("__init__", MMeth (mkmeth KNormal false [("self", None); ("bitFlags", Some (DLit (LInt 0)))]
       [SetAttr (Loc "self") "bitFlags" (Loc "bitFlags")]));
    (* opendis/dis7.py:2775-2777 *)
    ("serialize", MMeth (mkmeth KNormal false [("self", None); ("outputStream", None)]
       [Expr (Meth (Loc "outputStream") "write_unsigned_int" [(Attr (Loc "self") "bitFlags")] [])]));
    (* opendis/dis7.py:2779-2781 *)
    ("parse", MMeth (mkmeth KNormal false [("self", None); ("inputStream", None)]
       [SetAttr (Loc "self") "bitFlags" (Meth (Loc "inputStream") "read_unsigned_int" [] [])]))
  ].

(* opendis/dis7.py:2784-2812  class IntercomIdentifier() *)
Definition c_IntercomIdentifier : cls := mkcls "IntercomIdentifier" ["IntercomIdentifier"]
  [
    (* opendis/dis7.py:2790-2798 *)
    ("__init__", MMeth (mkmeth KNormal false [("self", None); ("siteNumber", Some (DLit (LInt 0))); ("applicationNumber", Some (DLit (LInt 0))); ("referenceNumber", Some (DLit (LInt 0))); ("intercomNumber", Some (DLit (LInt 0)))]
       [SetAttr (Loc "self") "siteNumber" (Loc "siteNumber");
       SetAttr (Loc "self") "applicationNumber" (Loc "applicationNumber");
       SetAttr (Loc "self") "referenceNumber" (Loc "referenceNumber");
       SetAttr (Loc "self") "intercomNumber" (Loc "intercomNumber")]));
    (* opendis/dis7.py:2800-2805 *)
    ("serialize", MMeth (mkmeth KNormal false [("self", None); ("outputStream", None)]
       [Expr (Meth (Loc "outputStream") "write_unsigned_short" [(Attr (Loc "self") "siteNumber")] []);
       Expr (Meth (Loc "outputStream") "write_unsigned_short" [(Attr (Loc "self") "applicationNumber")] []);
       Expr (Meth (Loc "outputStream") "write_unsigned_short" [(Attr (Loc "self") "referenceNumber")] []);
       Expr (Meth (Loc "outputStream") "write_unsigned_short" [(Attr (Loc "self") "intercomNumber")] [])]));
    (* opendis/dis7.py:2807-2812 *)
    ("parse", MMeth (mkmeth KNormal false [("self", None); ("inputStream", None)]
       [SetAttr (Loc "self") "siteNumber" (Meth (Loc "inputStream") "read_unsigned_short" [] []);
       SetAttr (Loc "self") "applicationNumber" (Meth (Loc "inputStream") "read_unsigned_short" [] []);
       SetAttr (Loc "self") "referenceNumber" (Meth (Loc "inputStream") "read_unsigned_short" [] []);
       SetAttr (Loc "self") "intercomNumber" (Meth (Loc "inputStream") "read_unsigned_short" [] [])]))
  ].

(* opendis/dis7.py:2815-2850  class StorageFuel() *)
Definition c_StorageFuel : cls := mkcls "StorageFuel" ["StorageFuel"]
  [
    (* opendis/dis7.py:2821-2834 *)
    ("__init__", MMeth (mkmeth KNormal false [("self", None); ("fuelQuantity", Some (DLit (LInt 0))); ("fuelMeasurementUnits", Some (DLit (LInt 0))); ("fuelType", Some (DLit (LInt 0))); ("fuelLocation", Some (DLit (LInt 0)))]
       [SetAttr (Loc "self") "fuelQuantity" (Loc "fuelQuantity");
       SetAttr (Loc "self") "fuelMeasurementUnits" (Loc "fuelMeasurementUnits");
       SetAttr (Loc "self") "fuelType" (Loc "fuelType");
       SetAttr (Loc "self") "fuelLocation" (Loc "fuelLocation");
       SetAttr (Loc "self") "padding" (Lit (LInt 0))]));
    (* opendis/dis7.py:2836-2842 *)
    ("serialize", MMeth (mkmeth KNormal false [("self", None); ("outputStream", None)]
       [Expr (Meth (Loc "outputStream") "write_unsigned_int" [(Attr (Loc "self") "fuelQuantity")] []);
       Expr (Meth (Loc "outputStream") "write_unsigned_byte" [(Attr (Loc "self") "fuelMeasurementUnits")] []);
       Expr (Meth (Loc "outputStream") "write_unsigned_byte" [(Attr (Loc "self") "fuelType")] []);
       Expr (Meth (Loc "outputStream") "write_unsigned_byte" [(Attr (Loc "self") "fuelLocation")] []);
       Expr (Meth (Loc "outputStream") "write_unsigned_byte" [(Attr (Loc "self") "padding")] [])]));
    (* opendis/dis7.py:2844-2850 *)
    ("parse", MMeth (mkmeth KNormal false [("self", None); ("inputStream", None)]
       [SetAttr (Loc "self") "fuelQuantity" (Meth (Loc "inputStream") "read_unsigned_int" [] []);
       SetAttr (Loc "self") "fuelMeasurementUnits" (Meth (Loc "inputStream") "read_unsigned_byte" [] []);
       SetAttr (Loc "self") "fuelType" (Meth (Loc "inputStream") "read_unsigned_byte" [] []);
       SetAttr (Loc "self") "fuelLocation" (Meth (Loc "inputStream") "read_unsigned_byte" [] []);
       SetAttr (Loc "self") "padding" (Meth (Loc "inputStream") "read_unsigned_byte" [] [])]))
  ].

(* opendis/dis7.py:2853-2893  class Sensor() *)
Definition c_Sensor : cls := mkcls "Sensor" ["Sensor"]
  [
    (* opendis/dis7.py:2859-2875 *)
    ("__init__", MMeth (mkmeth KNormal false [("self", None); ("sensorTypeSource", Some (DLit (LInt 0))); ("sensorOnOffStatus", Some (DLit (LInt 0))); ("sensorType", Some (DLit (LInt 0))); ("station", Some (DLit (LInt 0))); ("quantity", Some (DLit (LInt 0)))]
       [SetAttr (Loc "self") "sensorTypeSource" (Loc "sensorTypeSource");
       SetAttr (Loc "self") "sensorOnOffStatus" (Loc "sensorOnOffStatus");
       SetAttr (Loc "self") "sensorType" (Loc "sensorType");
       SetAttr (Loc "self") "station" (Loc "station");
       SetAttr (Loc "self") "quantity" (Loc "quantity");
       SetAttr (Loc "self") "padding" (Lit (LInt 0))]));
    (* opendis/dis7.py:2877-2884 *)
    ("serialize", MMeth (mkmeth KNormal false [("self", None); ("outputStream", None)]
       [Expr (Meth (Loc "outputStream") "write_unsigned_byte" [(Attr (Loc "self") "sensorTypeSource")] []);
       Expr (Meth (Loc "outputStream") "write_unsigned_byte" [(Attr (Loc "self") "sensorOnOffStatus")] []);
       Expr (Meth (Loc "outputStream") "write_unsigned_short" [(Attr (Loc "self") "sensorType")] []);
       Expr (Meth (Loc "outputStream") "write_unsigned_int" [(Attr (Loc "self") "station")] []);
       Expr (Meth (Loc "outputStream") "write_unsigned_short" [(Attr (Loc "self") "quantity")] []);
       Expr (Meth (Loc "outputStream") "write_unsigned_short" [(Attr (Loc "self") "padding")] [])]));
    (* opendis/dis7.py:2886-2893 *)
    ("parse", MMeth (mkmeth KNormal false [("self", None); ("inputStream", None)]
       [SetAttr (Loc "self") "sensorTypeSource" (Meth (Loc "inputStream") "read_unsigned_byte" [] []);
       SetAttr (Loc "self") "sensorOnOffStatus" (Meth (Loc "inputStream") "read_unsigned_byte" [] []);
       SetAttr (Loc "self") "sensorType" (Meth (Loc "inputStream") "read_unsigned_short" [] []);
       SetAttr (Loc "self") "station" (Meth (Loc "inputStream") "read_unsigned_int" [] []);
       SetAttr (Loc "self") "quantity" (Meth (Loc "inputStream") "read_unsigned_short" [] []);
       SetAttr (Loc "self") "padding" (Meth (Loc "inputStream") "read_unsigned_short" [] [])]))
  ].

(* opendis/dis7.py:2896-2940  class MunitionReload() *)
Definition c_MunitionReload : cls := mkcls "MunitionReload" ["MunitionReload"]
  [
    (* opendis/dis7.py:2903-2922 *)
    ("__init__", MMeth (mkmeth KNormal false [("self", None); ("munitionType", Some (DLit (LNone))); ("station", Some (DLit (LInt 0))); ("standardQuantity", Some (DLit (LInt 0))); ("maximumQuantity", Some (DLit (LInt 0))); ("standardQuantityReloadTime", Some (DLit (LInt 0))); ("maximumQuantityReloadTime", Some (DLit (LInt 0)))]
       [SetAttr (Loc "self") "munitionType" (OrE (Loc "munitionType") (CallV (Glob "EntityType") [] []));
       SetAttr (Loc "self") "station" (Loc "station");
       SetAttr (Loc "self") "standardQuantity" (Loc "standardQuantity");
       SetAttr (Loc "self") "maximumQuantity" (Loc "maximumQuantity");
       SetAttr (Loc "self") "standardQuantityReloadTime" (Loc "standardQuantityReloadTime");
       SetAttr (Loc "self") "maximumQuantityReloadTime" (Loc "maximumQuantityReloadTime")]));
    (* opendis/dis7.py:2924-2931 *)
    ("serialize", MMeth (mkmeth KNormal false [("self", None); ("outputStream", None)]
       [Expr (Meth (Attr (Loc "self") "munitionType") "serialize" [(Loc "outputStream")] []);
       Expr (Meth (Loc "outputStream") "write_unsigned_int" [(Attr (Loc "self") "station")] []);
       Expr (Meth (Loc "outputStream") "write_unsigned_short" [(Attr (Loc "self") "standardQuantity")] []);
       Expr (Meth (Loc "outputStream") "write_unsigned_short" [(Attr (Loc "self") "maximumQuantity")] []);
       Expr (Meth (Loc "outputStream") "write_unsigned_int" [(Attr (Loc "self") "standardQuantityReloadTime")] []);
       Expr (Meth (Loc "outputStream") "write_unsigned_int" [(Attr (Loc "self") "maximumQuantityReloadTime")] [])]));
    (* opendis/dis7.py:2933-2940 *)
    ("parse", MMeth (mkmeth KNormal false [("self", None); ("inputStream", None)]
       [Expr (Meth (Attr (Loc "self") "munitionType") "parse" [(Loc "inputStream")] []);
       SetAttr (Loc "self") "station" (Meth (Loc "inputStream") "read_unsigned_int" [] []);
       SetAttr (Loc "self") "standardQuantity" (Meth (Loc "inputStream") "read_unsigned_short" [] []);
       SetAttr (Loc "self") "maximumQuantity" (Meth (Loc "inputStream") "read_unsigned_short" [] []);
       SetAttr (Loc "self") "standardQuantityReloadTime" (Meth (Loc "inputStream") "read_unsigned_int" [] []);
       SetAttr (Loc "self") "maximumQuantityReloadTime" (Meth (Loc "inputStream") "read_unsigned_int" [] [])]))
  ].

(* opendis/dis7.py:2943-2996  class StorageFuelReload() *)
Definition c_StorageFuelReload : cls := mkcls "StorageFuelReload" ["StorageFuelReload"]
  [
    (* opendis/dis7.py:2952-2974 *)
    ("__init__", MMeth (mkmeth KNormal false [("self", None); ("standardQuantity", Some (DLit (LInt 0))); ("maximumQuantity", Some (DLit (LInt 0))); ("standardQuantityReloadTime", Some (DLit (LInt 0))); ("maximumQuantityReloadTime", Some (DLit (LInt 0))); ("fuelMeasurementUnits", Some (DLit (LInt 0))); ("fuelType", Some (DLit (LInt 0))); ("fuelLocation", Some (DLit (LInt 0)))]
       [SetAttr (Loc "self") "standardQuantity" (Loc "standardQuantity");
       SetAttr (Loc "self") "maximumQuantity" (Loc "maximumQuantity");
       SetAttr (Loc "self") "standardQuantityReloadTime" (Loc "standardQuantityReloadTime");
       SetAttr (Loc "self") "maximumQuantityReloadTime" (Loc "maximumQuantityReloadTime");
       SetAttr (Loc "self") "fuelMeasurementUnits" (Loc "fuelMeasurementUnits");
       SetAttr (Loc "self") "fuelType" (Loc "fuelType");
       SetAttr (Loc "self") "fuelLocation" (Loc "fuelLocation");
       SetAttr (Loc "self") "padding" (Lit (LInt 0))]));
    (* opendis/dis7.py:2976-2985 *)
    ("serialize", MMeth (mkmeth KNormal false [("self", None); ("outputStream", None)]
       [Expr (Meth (Loc "outputStream") "write_unsigned_int" [(Attr (Loc "self") "standardQuantity")] []);
       Expr (Meth (Loc "outputStream") "write_unsigned_int" [(Attr (Loc "self") "maximumQuantity")] []);
       Expr (Meth (Loc "outputStream") "write_unsigned_byte" [(Attr (Loc "self") "standardQuantityReloadTime")] []);
       Expr (Meth (Loc "outputStream") "write_unsigned_byte" [(Attr (Loc "self") "maximumQuantityReloadTime")] []);
       Expr (Meth (Loc "outputStream") "write_unsigned_byte" [(Attr (Loc "self") "fuelMeasurementUnits")] []);
       Expr (Meth (Loc "outputStream") "write_unsigned_byte" [(Attr (Loc "self") "fuelType")] []);
       Expr (Meth (Loc "outputStream") "write_unsigned_byte" [(Attr (Loc "self") "fuelLocation")] []);
       Expr (Meth (Loc "outputStream") "write_unsigned_byte" [(Attr (Loc "self") "padding")] [])]));
    (* opendis/dis7.py:2987-2996 *)
    ("parse", MMeth (mkmeth KNormal false [("self", None); ("inputStream", None)]
       [SetAttr (Loc "self") "standardQuantity" (Meth (Loc "inputStream") "read_unsigned_int" [] []);
       SetAttr (Loc "self") "maximumQuantity" (Meth (Loc "inputStream") "read_unsigned_int" [] []);
       SetAttr (Loc "self") "standardQuantityReloadTime" (Meth (Loc "inputStream") "read_unsigned_byte" [] []);
       SetAttr (Loc "self") "maximumQuantityReloadTime" (Meth (Loc "inputStream") "read_unsigned_byte" [] []);
       SetAttr (Loc "self") "fuelMeasurementUnits" (Meth (Loc "inputStream") "read_unsigned_byte" [] []);
       SetAttr (Loc "self") "fuelType" (Meth (Loc "inputStream") "read_unsigned_byte" [] []);
       SetAttr (Loc "self") "fuelLocation" (Meth (Loc "inputStream") "read_unsigned_byte" [] []);
       SetAttr (Loc "self") "padding" (Meth (Loc "inputStream") "read_unsigned_byte" [] [])]))
  ].

(* opendis/dis7.py:2999-3037  class ExpendableReload() *)
Definition c_ExpendableReload : cls := mkcls "ExpendableReload" ["ExpendableReload"]
  [
    (* opendis/dis7.py:3005-3019 *)
    ("__init__", MMeth (mkmeth KNormal false [("self", None); ("expendable", Some (DLit (LNone))); ("station", Some (DLit (LInt 0))); ("standardQuantity", Some (DLit (LInt 0))); ("maximumQuantity", Some (DLit (LInt 0))); ("standardQuantityReloadTime", Some (DLit (LInt 0))); ("maximumQuantityReloadTime", Some (DLit (LInt 0)))]
       [SetAttr (Loc "self") "expendable" (OrE (Loc "expendable") (CallV (Glob "EntityType") [] []));
       SetAttr (Loc "self") "station" (Loc "station");
       SetAttr (Loc "self") "standardQuantity" (Loc "standardQuantity");
       SetAttr (Loc "self") "maximumQuantity" (Loc "maximumQuantity");
       SetAttr (Loc "self") "standardQuantityReloadTime" (Loc "standardQuantityReloadTime");
       SetAttr (Loc "self") "maximumQuantityReloadTime" (Loc "maximumQuantityReloadTime")]));
    (* opendis/dis7.py:3021-3028 *)
    ("serialize", MMeth (mkmeth KNormal false [("self", None); ("outputStream", None)]
       [Expr (Meth (Attr (Loc "self") "expendable") "serialize" [(Loc "outputStream")] []);
       Expr (Meth (Loc "outputStream") "write_unsigned_int" [(Attr (Loc "self") "station")] []);
       Expr (Meth (Loc "outputStream") "write_unsigned_short" [(Attr (Loc "self") "standardQuantity")] []);
       Expr (Meth (Loc "outputStream") "write_unsigned_short" [(Attr (Loc "self") "maximumQuantity")] []);
       Expr (Meth (Loc "outputStream") "write_unsigned_int" [(Attr (Loc "self") "standardQuantityReloadTime")] []);
       Expr (Meth (Loc "outputStream") "write_unsigned_int" [(Attr (Loc "self") "maximumQuantityReloadTime")] [])]));
    (* opendis/dis7.py:3030-3037 *)
    ("parse", MMeth (mkmeth KNormal false [("self", None); ("inputStream", None)]
       [Expr (Meth (Attr (Loc "self") "expendable") "parse" [(Loc "inputStream")] []);
       SetAttr (Loc "self") "station" (Meth (Loc "inputStream") "read_unsigned_int" [] []);
       SetAttr (Loc "self") "standardQuantity" (Meth (Loc "inputStream") "read_unsigned_short" [] []);
       SetAttr (Loc "self") "maximumQuantity" (Meth (Loc "inputStream") "read_unsigned_short" [] []);
       SetAttr (Loc "self") "standardQuantityReloadTime" (Meth (Loc "inputStream") "read_unsigned_int" [] []);
       SetAttr (Loc "self") "maximumQuantityReloadTime" (Meth (Loc "inputStream") "read_unsigned_int" [] [])]))
  ].

(* opendis/dis7.py:3040-3083  class EngineFuelReload() *)
Definition c_EngineFuelReload : cls := mkcls "EngineFuelReload" ["EngineFuelReload"]
  [
    (* opendis/dis7.py:3043-3062 *)
    ("__init__", MMeth (mkmeth KNormal false [("self", None); ("standardQuantity", Some (DLit (LInt 0))); ("maximumQuantity", Some (DLit (LInt 0))); ("standardQuantityReloadTime", Some (DLit (LInt 0))); ("maximumQuantityReloadTime", Some (DLit (LInt 0))); ("fuelMeasurementUnits", Some (DLit (LInt 0))); ("fuelLocation", Some (DLit (LInt 0)))]
       [SetAttr (Loc "self") "standardQuantity" (Loc "standardQuantity");
       SetAttr (Loc "self") "maximumQuantity" (Loc "maximumQuantity");
       SetAttr (Loc "self") "standardQuantityReloadTime" (Loc "standardQuantityReloadTime");
       SetAttr (Loc "self") "maximumQuantityReloadTime" (Loc "maximumQuantityReloadTime");
       SetAttr (Loc "self") "fuelMeasurmentUnits" (Loc "fuelMeasurementUnits");
       SetAttr (Loc "self") "fuelLocation" (Loc "fuelLocation");
       SetAttr (Loc "self") "padding" (Lit (LInt 0))]));
    (* opendis/dis7.py:3064-3072 *)
    ("serialize", MMeth (mkmeth KNormal false [("self", None); ("outputStream", None)]
       [Expr (Meth (Loc "outputStream") "write_unsigned_int" [(Attr (Loc "self") "standardQuantity")] []);
       Expr (Meth (Loc "outputStream") "write_unsigned_int" [(Attr (Loc "self") "maximumQuantity")] []);
       Expr (Meth (Loc "outputStream") "write_unsigned_int" [(Attr (Loc "self") "standardQuantityReloadTime")] []);
       Expr (Meth (Loc "outputStream") "write_unsigned_int" [(Attr (Loc "self") "maximumQuantityReloadTime")] []);
       Expr (Meth (Loc "outputStream") "write_unsigned_byte" [(Attr (Loc "self") "fuelMeasurmentUnits")] []);
       Expr (Meth (Loc "outputStream") "write_unsigned_byte" [(Attr (Loc "self") "fuelLocation")] []);
       Expr (Meth (Loc "outputStream") "write_unsigned_byte" [(Attr (Loc "self") "padding")] [])]));
    (* opendis/dis7.py:3074-3083 *)
    ("parse", MMeth (mkmeth KNormal false [("self", None); ("inputStream", None)]
       [SetAttr (Loc "self") "standardQuantity" (Meth (Loc "inputStream") "read_unsigned_int" [] []);
       SetAttr (Loc "self") "maximumQuantity" (Meth (Loc "inputStream") "read_unsigned_int" [] []);
       SetAttr (Loc "self") "standardQuantityReloadTime" (Meth (Loc "inputStream") "read_unsigned_int" [] []);
       SetAttr (Loc "self") "maximumQuantityReloadTime" (Meth (Loc "inputStream") "read_unsigned_int" [] []);
       SetAttr (Loc "self") "fuelMeasurmentUnits" (Meth (Loc "inputStream") "read_unsigned_byte" [] []);
       SetAttr (Loc "self") "fuelLocation" (Meth (Loc "inputStream") "read_unsigned_byte" [] []);
       SetAttr (Loc "self") "padding" (Meth (Loc "inputStream") "read_unsigned_byte" [] [])]))
  ].

(* opendis/dis7.py:3086-3109  class UnattachedIdentifier() *)
Definition c_UnattachedIdentifier : cls := mkcls "UnattachedIdentifier" ["UnattachedIdentifier"]
  [
    (* opendis/dis7.py:3093-3099 *)
    ("__init__", MMeth (mkmeth KNormal false [("self", None); ("simulationAddress", Some (DLit (LNone))); ("referenceNumber", Some (DLit (LInt 0)))]
       [SetAttr (Loc "self") "simulationAddress" (OrE (Loc "simulationAddress") (CallV (Glob "SimulationAddress") [] []));
       SetAttr (Loc "self") "referenceNumber" (Loc "referenceNumber")]));
    (* opendis/dis7.py:3101-3104 *)
    ("serialize", MMeth (mkmeth KNormal false [("self", None); ("outputStream", None)]
       [Expr (Meth (Attr (Loc "self") "simulationAddress") "serialize" [(Loc "outputStream")] []);
       Expr (Meth (Loc "outputStream") "write_unsigned_short" [(Attr (Loc "self") "referenceNumber")] [])]));
    (* opendis/dis7.py:3106-3109 *)
    ("parse", MMeth (mkmeth KNormal false [("self", None); ("inputStream", None)]
       [Expr (Meth (Attr (Loc "self") "simulationAddress") "parse" [(Loc "inputStream")] []);
       SetAttr (Loc "self") "referenceNumber" (Meth (Loc "inputStream") "read_unsigned_short" [] [])]))
  ].

(* opendis/dis7.py:3112-3143  class EntityTypeVP() *)
Definition c_EntityTypeVP : cls := mkcls "EntityTypeVP" ["EntityTypeVP"]
  [
    (* opendis/dis7.py:3117 *)
    ("recordType", MAttr (LInt 3));
    (* opendis/dis7.py:3119-3127 *)
    ("__init__", MMeth (mkmeth KNormal false [("self", None); ("changeIndicator", Some (DLit (LInt 0))); ("entityType", Some (DLit (LNone)))]
       [SetAttr (Loc "self") "changeIndicator" (Loc "changeIndicator");
       SetAttr (Loc "self") "entityType" (OrE (Loc "entityType") (CallV (Glob "EntityType") [] []));
       SetAttr (Loc "self") "padding" (Lit (LInt 0));
       SetAttr (Loc "self") "padding1" (Lit (LInt 0))]));
    (* opendis/dis7.py:3129-3135 *)
    ("serialize", MMeth (mkmeth KNormal false [("self", None); ("outputStream", None)]
       [Expr (Meth (Loc "outputStream") "write_unsigned_byte" [(Attr (Loc "self") "recordType")] []);
       Expr (Meth (Loc "outputStream") "write_unsigned_byte" [(Attr (Loc "self") "changeIndicator")] []);
       Expr (Meth (Attr (Loc "self") "entityType") "serialize" [(Loc "outputStream")] []);
       Expr (Meth (Loc "outputStream") "write_unsigned_short" [(Attr (Loc "self") "padding")] []);
       Expr (Meth (Loc "outputStream") "write_unsigned_int" [(Attr (Loc "self") "padding1")] [])]));
    (* opendis/dis7.py:3137-3143 *)
    ("parse", MMeth (mkmeth KNormal false [("self", None); ("inputStream", None)]
       [SetAttr (Loc "self") "recordType" (Meth (Loc "inputStream") "read_unsigned_byte" [] []);
       SetAttr (Loc "self") "changeIndicator" (Meth (Loc "inputStream") "read_unsigned_byte" [] []);
       Expr (Meth (Attr (Loc "self") "entityType") "parse" [(Loc "inputStream")] []);
       SetAttr (Loc "self") "padding" (Meth (Loc "inputStream") "read_unsigned_short" [] []);
       SetAttr (Loc "self") "padding1" (Meth (Loc "inputStream") "read_unsigned_int" [] [])]))
  ].

(* opendis/dis7.py:3146-3165  class BeamStatus() *)
Definition c_BeamStatus : cls := mkcls "BeamStatus" ["BeamStatus"]
  [
    (* opendis/dis7.py:3154-3156 *)
    ("__init__", MMeth (mkmeth KNormal false [("self", None); ("beamState", Some (DLit (LInt 0)))]
       [SetAttr (Loc "self") "beamState" (Bin OBitAnd (Loc "beamState") (Lit (LInt 1)))]));
    (* opendis/dis7.py:3158-3160 *)
    ("serialize", MMeth (mkmeth KNormal false [("self", None); ("outputStream", None)]
       [Expr (Meth (Loc "outputStream") "write_unsigned_byte" [(Bin OBitAnd (Attr (Loc "self") "beamState") (Lit (LInt 1)))] [])]));
    (* opendis/dis7.py:3162-3165 *)
    ("parse", MMeth (mkmeth KNormal false [("self", None); ("inputStream", None)]
       [Assign "value" (Bin OBitAnd (Meth (Loc "inputStream") "read_unsigned_byte" [] []) (Lit (LInt 1)));
       SetAttr (Loc "self") "beamState" (Loc "value")]))
  ].

(* opendis/dis7.py:3168-3209  class EnvironmentGeneral() *)
Definition c_EnvironmentGeneral : cls := mkcls "EnvironmentGeneral" ["EnvironmentGeneral"]
  [
    (* opendis/dis7.py:3176-3191 *)
    ("__init__", MMeth (mkmeth KNormal false [("self", None); ("environmentType", Some (DLit (LInt 0))); ("length", Some (DLit (LInt 0))); ("index", Some (DLit (LInt 0))); ("geometry", Some (DLit (LNone)))]
       [SetAttr (Loc "self") "environmentType" (Loc "environmentType");
       SetAttr (Loc "self") "length" (Loc "length");
       SetAttr (Loc "self") "index" (Loc "index");
       SetAttr (Loc "self") "padding" (Lit (LInt 0));
       SetAttr (Loc "self") "geometry" (Loc "geometry");
       SetAttr (Loc "self") "padding2" (Lit (LInt 0))]));
    (* opendis/dis7.py:3193-3200 *)
    ("serialize", MMeth (mkmeth KNormal false [("self", None); ("outputStream", None)]
       [Expr (Meth (Loc "outputStream") "write_unsigned_int" [(Attr (Loc "self") "environmentType")] []);
       Expr (Meth (Loc "outputStream") "write_unsigned_byte" [(Attr (Loc "self") "length")] []);
       Expr (Meth (Loc "outputStream") "write_unsigned_byte" [(Attr (Loc "self") "index")] []);
       Expr (Meth (Loc "outputStream") "write_unsigned_byte" [(Attr (Loc "self") "padding1")] []);
       Expr (Meth (Loc "outputStream") "write_unsigned_byte" [(Attr (Loc "self") "geometry")] []);
       Expr (Meth (Loc "outputStream") "write_unsigned_byte" [(Attr (Loc "self") "padding2")] [])]));
    (* opendis/dis7.py:3202-3209 *)
    ("parse", MMeth (mkmeth KNormal false [("self", None); ("inputStream", None)]
       [SetAttr (Loc "self") "environmentType" (Meth (Loc "inputStream") "read_unsigned_int" [] []);
       SetAttr (Loc "self") "length" (Meth (Loc "inputStream") "read_unsigned_byte" [] []);
       SetAttr (Loc "self") "index" (Meth (Loc "inputStream") "read_unsigned_byte" [] []);
       SetAttr (Loc "self") "padding1" (Meth (Loc "inputStream") "read_unsigned_byte" [] []);
       SetAttr (Loc "self") "geometry" (Meth (Loc "inputStream") "read_unsigned_byte" [] []);
       SetAttr (Loc "self") "padding2" (Meth (Loc "inputStream") "read_unsigned_byte" [] [])]))
  ].

(* opendis/dis7.py:3212-3259  class GridAxis() *)
Definition c_GridAxis : cls := mkcls "GridAxis" ["GridAxis"]
  [
    (* opendis/dis7.py:3218-3239 *)
    ("__init__", MMeth (mkmeth KNormal false [("self", None); ("domainInitialXi", Some (DLit (LFloat 0))); ("domainFinalXi", Some (DLit (LFloat 0))); ("domainPointsXi", Some (DLit (LInt 0))); ("interleafFactor", Some (DLit (LInt 0))); ("axisType", Some (DLit (LInt 0))); ("numberOfPointsOnXiAxis", Some (DLit (LInt 0))); ("initialIndex", Some (DLit (LInt 0)))]
       [SetAttr (Loc "self") "domainInitialXi" (Loc "domainInitialXi");
       SetAttr (Loc "self") "domainFinalXi" (Loc "domainFinalXi");
       SetAttr (Loc "self") "domainPointsXi" (Loc "domainPointsXi");
       SetAttr (Loc "self") "interleafFactor" (Loc "interleafFactor");
       SetAttr (Loc "self") "axisType" (Loc "axisType");
       SetAttr (Loc "self") "numberOfPointsOnXiAxis" (Loc "numberOfPointsOnXiAxis");
       SetAttr (Loc "self") "initialIndex" (Loc "initialIndex")]));
    (* opendis/dis7.py:3241-3249 *)
    ("serialize", MMeth (mkmeth KNormal false [("self", None); ("outputStream", None)]
       [Expr (Meth (Loc "outputStream") "write_double" [(Attr (Loc "self") "domainInitialXi")] []);
       Expr (Meth (Loc "outputStream") "write_double" [(Attr (Loc "self") "domainFinalXi")] []);
       Expr (Meth (Loc "outputStream") "write_unsigned_short" [(Attr (Loc "self") "domainPointsXi")] []);
       Expr (Meth (Loc "outputStream") "write_unsigned_byte" [(Attr (Loc "self") "interleafFactor")] []);
       Expr (Meth (Loc "outputStream") "write_unsigned_byte" [(Attr (Loc "self") "axisType")] []);
       Expr (Meth (Loc "outputStream") "write_unsigned_short" [(Attr (Loc "self") "numberOfPointsOnXiAxis")] []);
       Expr (Meth (Loc "outputStream") "write_unsigned_short" [(Attr (Loc "self") "initialIndex")] [])]));
    (* opendis/dis7.py:3251-3259 *)
    ("parse", MMeth (mkmeth KNormal false [("self", None); ("inputStream", None)]
       [SetAttr (Loc "self") "domainInitialXi" (Meth (Loc "inputStream") "read_double" [] []);
       SetAttr (Loc "self") "domainFinalXi" (Meth (Loc "inputStream") "read_double" [] []);
       SetAttr (Loc "self") "domainPointsXi" (Meth (Loc "inputStream") "read_unsigned_short" [] []);
       SetAttr (Loc "self") "interleafFactor" (Meth (Loc "inputStream") "read_unsigned_byte" [] []);
       SetAttr (Loc "self") "axisType" (Meth (Loc "inputStream") "read_unsigned_byte" [] []);
       SetAttr (Loc "self") "numberOfPointsOnXiAxis" (Meth (Loc "inputStream") "read_unsigned_short" [] []);
       SetAttr (Loc "self") "initialIndex" (Meth (Loc "inputStream") "read_unsigned_short" [] [])]))
  ].

(* opendis/dis7.py:3262-3290  class RecordSpecification() *)
Definition c_RecordSpecification : cls := mkcls "RecordSpecification" ["RecordSpecification"]
  [
    (* opendis/dis7.py:3269-3272 *)
    ("__init__", MMeth (mkmeth KNormal false [("self", None); ("recordSets", Some (DLit (LNone)))]
       [SetAttr (Loc "self") "recordSets" (OrE (Loc "recordSets") (ListE []))]));
    (* opendis/dis7.py:3275-3276 *)
    ("numberOfRecordSets", MMeth (mkmeth KProperty false [("self", None)]
       [Return (Builtin BLen [(Attr (Loc "self") "recordSets")])]));
    (* opendis/dis7.py:3278-3282 *)
    ("serialize", MMeth (mkmeth KNormal false [("self", None); ("outputStream", None)]
       [Expr (Meth (Loc "outputStream") "write_unsigned_int" [(Attr (Loc "self") "numberOfRecordSets")] []);
       For "anObj" (Attr (Loc "self") "recordSets") [Expr (Meth (Loc "anObj") "serialize" [(Loc "outputStream")] [])]]));
    (* opendis/dis7.py:3284-3290 *)
    ("parse", MMeth (mkmeth KNormal false [("self", None); ("inputStream", None)]
       [Assign "numberOfRecordSets" (Meth (Loc "inputStream") "read_unsigned_int" [] []);
       For "idx" (Builtin BRange [(Lit (LInt 0)); (Loc "numberOfRecordSets")]) [Assign "element" (CallV (Glob "null") [] []); Expr (Meth (Loc "element") "parse" [(Loc "inputStream")] []); Expr (Meth (Attr (Loc "self") "recordSets") "append" [(Loc "element")] [])]]))
  ].

(* opendis/dis7.py:3293-3339  class VariableDatum() *)
Definition c_VariableDatum : cls := mkcls "VariableDatum" ["VariableDatum"]
  [
    (* opendis/dis7.py:3300-3309 *)
    ("__init__", MMeth (mkmeth KNormal false [("self", None); ("variableDatumID", Some (DLit (LInt 0))); ("variableDatumLength", Some (DLit (LInt 0))); ("variableData", Some (DLit (LNone)))]
       [SetAttr (Loc "self") "variableDatumID" (Loc "variableDatumID");
       SetAttr (Loc "self") "variableDatumLength" (Loc "variableDatumLength");
       SetAttr (Loc "self") "variableData" (OrE (Loc "variableData") (ListE []))]));
    (* opendis/dis7.py:3311-3316 *)
    ("datumPaddingSizeInBits", MMeth (mkmeth KNormal false [("self", None)]
       [Assign "padding" (Lit (LInt 0));
       Assign "remainder" (Bin OMod (Attr (Loc "self") "variableDatumLength") (Lit (LInt 64)));
       If (Cmp CNe (Loc "remainder") (Lit (LInt 0))) [Assign "padding" (Bin OSub (Lit (LInt 64)) (Loc "remainder"))] [];
       Return (Loc "padding")]));
    (* opendis/dis7.py:3318-3327 *)
    ("serialize", MMeth (mkmeth KNormal false [("self", None); ("outputStream", None)]
       [Expr (Meth (Loc "outputStream") "write_unsigned_int" [(Attr (Loc "self") "variableDatumID")] []);
       Expr (Meth (Loc "outputStream") "write_unsigned_int" [(Attr (Loc "self") "variableDatumLength")] []);
       For "x" (Builtin BRange [(Bin OFloorDiv (Attr (Loc "self") "variableDatumLength") (Lit (LInt 8)))]) [Expr (Meth (Loc "outputStream") "write_unsigned_byte" [(Sub (Attr (Loc "self") "variableData") (Loc "x"))] [])];
       For "x" (Builtin BRange [(Bin OFloorDiv (Meth (Loc "self") "datumPaddingSizeInBits" [] []) (Lit (LInt 8)))]) [Expr (Meth (Loc "outputStream") "write_unsigned_byte" [(Lit (LInt 0))] [])]]));
    (* opendis/dis7.py:3329-3339 *)
    ("parse", MMeth (mkmeth KNormal false [("self", None); ("inputStream", None)]
       [SetAttr (Loc "self") "variableDatumID" (Meth (Loc "inputStream") "read_unsigned_int" [] []);
       SetAttr (Loc "self") "variableDatumLength" (Meth (Loc "inputStream") "read_unsigned_int" [] []);
       For "x" (Builtin BRange [(Bin OFloorDiv (Attr (Loc "self") "variableDatumLength") (Lit (LInt 8)))]) [Expr (Meth (Attr (Loc "self") "variableData") "append" [(Meth (Loc "inputStream") "read_unsigned_byte" [] [])] [])];
       For "x" (Builtin BRange [(Bin OFloorDiv (Meth (Loc "self") "datumPaddingSizeInBits" [] []) (Lit (LInt 8)))]) [Expr (Meth (Loc "inputStream") "read_unsigned_byte" [] [])]]))
  ].

(* opendis/dis7.py:3342-3367  class EventIdentifierLiveEntity() *)
Definition c_EventIdentifierLiveEntity : cls := mkcls "EventIdentifierLiveEntity" ["EventIdentifierLiveEntity"]
  [
    (* opendis/dis7.py:3349-3355 *)
    ("__init__", MMeth (mkmeth KNormal false [("self", None); ("siteNumber", Some (DLit (LInt 0))); ("applicationNumber", Some (DLit (LInt 0))); ("eventNumber", Some (DLit (LInt 0)))]
       [SetAttr (Loc "self") "siteNumber" (Loc "siteNumber");
       SetAttr (Loc "self") "applicationNumber" (Loc "applicationNumber");
       SetAttr (Loc "self") "eventNumber" (Loc "eventNumber")]));
    (* opendis/dis7.py:3357-3361 *)
    ("serialize", MMeth (mkmeth KNormal false [("self", None); ("outputStream", None)]
       [Expr (Meth (Loc "outputStream") "write_unsigned_byte" [(Attr (Loc "self") "siteNumber")] []);
       Expr (Meth (Loc "outputStream") "write_unsigned_byte" [(Attr (Loc "self") "applicationNumber")] []);
       Expr (Meth (Loc "outputStream") "write_unsigned_short" [(Attr (Loc "self") "eventNumber")] [])]));
    (* opendis/dis7.py:3363-3367 *)
    ("parse", MMeth (mkmeth KNormal false [("self", None); ("inputStream", None)]
       [SetAttr (Loc "self") "siteNumber" (Meth (Loc "inputStream") "read_unsigned_byte" [] []);
       SetAttr (Loc "self") "applicationNumber" (Meth (Loc "inputStream") "read_unsigned_byte" [] []);
       SetAttr (Loc "self") "eventNumber" (Meth (Loc "inputStream") "read_unsigned_short" [] [])]))
  ].

(* opendis/dis7.py:3370-3421  class PduHeader() *)
Definition c_PduHeader : cls := mkcls "PduHeader" ["PduHeader"]
  [
    (* opendis/dis7.py:3377-3399 *)
    ("__init__", MMeth (mkmeth KNormal false [("self", None); ("protocolVersion", Some (DLit (LInt 7))); ("exerciseID", Some (DLit (LInt 0))); ("pduType", Some (DLit (LInt 0))); ("protocolFamily", Some (DLit (LInt 0))); ("timestamp", Some (DLit (LInt 0))); ("pduLength", Some (DLit (LInt 0))); ("pduStatus", Some (DLit (LInt 0)))]
       [SetAttr (Loc "self") "protocolVersion" (Loc "protocolVersion");
       SetAttr (Loc "self") "exerciseID" (Loc "exerciseID");
       SetAttr (Loc "self") "pduType" (Loc "pduType");
       SetAttr (Loc "self") "protocolFamily" (Loc "protocolFamily");
       SetAttr (Loc "self") "timestamp" (Loc "timestamp");
       SetAttr (Loc "self") "pduLength" (Loc "pduLength");
       SetAttr (Loc "self") "pduStatus" (Loc "pduStatus");
       SetAttr (Loc "self") "padding" (Lit (LInt 0))]));
    (* opendis/dis7.py:3401-3410 *)
    ("serialize", MMeth (mkmeth KNormal false [("self", None); ("outputStream", None)]
       [Expr (Meth (Loc "outputStream") "write_unsigned_byte" [(Attr (Loc "self") "protocolVersion")] []);
       Expr (Meth (Loc "outputStream") "write_unsigned_byte" [(Attr (Loc "self") "exerciseID")] []);
       Expr (Meth (Loc "outputStream") "write_unsigned_byte" [(Attr (Loc "self") "pduType")] []);
       Expr (Meth (Loc "outputStream") "write_unsigned_byte" [(Attr (Loc "self") "protocolFamily")] []);
       Expr (Meth (Loc "outputStream") "write_unsigned_int" [(Attr (Loc "self") "timestamp")] []);
       Expr (Meth (Loc "outputStream") "write_unsigned_byte" [(Attr (Loc "self") "pduLength")] []);
       Expr (Meth (Loc "outputStream") "write_unsigned_short" [(Attr (Loc "self") "pduStatus")] []);
       Expr (Meth (Loc "outputStream") "write_unsigned_byte" [(Attr (Loc "self") "padding")] [])]));
    (* opendis/dis7.py:3412-3421 *)
    ("parse", MMeth (mkmeth KNormal false [("self", None); ("inputStream", None)]
       [SetAttr (Loc "self") "protocolVersion" (Meth (Loc "inputStream") "read_unsigned_byte" [] []);
       SetAttr (Loc "self") "exerciseID" (Meth (Loc "inputStream") "read_unsigned_byte" [] []);
       SetAttr (Loc "self") "pduType" (Meth (Loc "inputStream") "read_unsigned_byte" [] []);
       SetAttr (Loc "self") "protocolFamily" (Meth (Loc "inputStream") "read_unsigned_byte" [] []);
       SetAttr (Loc "self") "timestamp" (Meth (Loc "inputStream") "read_unsigned_int" [] []);
       SetAttr (Loc "self") "pduLength" (Meth (Loc "inputStream") "read_unsigned_byte" [] []);
       SetAttr (Loc "self") "pduStatus" (Meth (Loc "inputStream") "read_unsigned_short" [] []);
       SetAttr (Loc "self") "padding" (Meth (Loc "inputStream") "read_unsigned_byte" [] [])]))
  ].

(* opendis/dis7.py:3424-3478  class PduSuperclass() *)
Definition c_PduSuperclass : cls := mkcls "PduSuperclass" ["PduSuperclass"]
  [
    (* opendis/dis7.py:3431-3460 *)
    ("__init__", MMeth (mkmeth KNormal false [("self", None); ("protocolVersion", Some (DLit (LInt 7))); ("exerciseID", Some (DLit (LInt 0))); ("pduType", Some (DLit (LNone))); ("protocolFamily", Some (DLit (LNone))); ("timestamp", Some (DLit (LInt 0))); ("pduLength", Some (DLit (LInt 0)))]
       [SetAttr (Loc "self") "protocolVersion" (Loc "protocolVersion");
       SetAttr (Loc "self") "exerciseID" (Loc "exerciseID");
       If (AndE (Cmp CIs (Loc "pduType") (Lit (LNone))) (NotE (HasAttr (Loc "self") "pduType"))) [Raise ValueError] [If (Cmp CIsNot (Loc "pduType") (Lit (LNone))) [SetAttr (Loc "self") "pduType" (Loc "pduType")] []];
       If (AndE (Cmp CIs (Loc "protocolFamily") (Lit (LNone))) (NotE (HasAttr (Loc "self") "pduType"))) [Raise ValueError] [If (Cmp CIsNot (Loc "pduType") (Lit (LNone))) [SetAttr (Loc "self") "protocolFamily" (Loc "protocolFamily")] []];
       SetAttr (Loc "self") "timestamp" (Loc "timestamp");
       SetAttr (Loc "self") "length" (Loc "pduLength")]));
    (* opendis/dis7.py:3462-3469 *)
    ("serialize", MMeth (mkmeth KNormal false [("self", None); ("outputStream", None)]
       [Expr (Meth (Loc "outputStream") "write_unsigned_byte" [(Attr (Loc "self") "protocolVersion")] []);
       Expr (Meth (Loc "outputStream") "write_unsigned_byte" [(Attr (Loc "self") "exerciseID")] []);
       Expr (Meth (Loc "outputStream") "write_unsigned_byte" [(Attr (Loc "self") "pduType")] []);
       Expr (Meth (Loc "outputStream") "write_unsigned_byte" [(Attr (Loc "self") "protocolFamily")] []);
       Expr (Meth (Loc "outputStream") "write_unsigned_int" [(Attr (Loc "self") "timestamp")] []);
       Expr (Meth (Loc "outputStream") "write_unsigned_short" [(Attr (Loc "self") "length")] [])]));
    (* opendis/dis7.py:3471-3478 *)
    ("parse", MMeth (mkmeth KNormal false [("self", None); ("inputStream", None)]
       [SetAttr (Loc "self") "protocolVersion" (Meth (Loc "inputStream") "read_unsigned_byte" [] []);
       SetAttr (Loc "self") "exerciseID" (Meth (Loc "inputStream") "read_unsigned_byte" [] []);
       SetAttr (Loc "self") "pduType" (Meth (Loc "inputStream") "read_unsigned_byte" [] []);
       SetAttr (Loc "self") "protocolFamily" (Meth (Loc "inputStream") "read_unsigned_byte" [] []);
       SetAttr (Loc "self") "timestamp" (Meth (Loc "inputStream") "read_unsigned_int" [] []);
       SetAttr (Loc "self") "length" (Meth (Loc "inputStream") "read_unsigned_short" [] [])]))
  ].

(* opendis/dis7.py:3481-3501  class CommunicationsNodeID() *)
Definition c_CommunicationsNodeID : cls := mkcls "CommunicationsNodeID" ["CommunicationsNodeID"]
  [
    (* opendis/dis7.py:3487-3491 *)
    ("__init__", MMeth (mkmeth KNormal false [("self", None); ("entityID", Some (DLit (LNone))); ("elementID", Some (DLit (LInt 0)))]
       [SetAttr (Loc "self") "entityID" (OrE (Loc "entityID") (CallV (Glob "EntityIdentifier") [] []));
       SetAttr (Loc "self") "elementID" (Loc "elementID")]));
    (* opendis/dis7.py:3493-3496 *)
    ("serialize", MMeth (mkmeth KNormal false [("self", None); ("outputStream", None)]
       [Expr (Meth (Attr (Loc "self") "entityID") "serialize" [(Loc "outputStream")] []);
       Expr (Meth (Loc "outputStream") "write_unsigned_short" [(Attr (Loc "self") "elementID")] [])]));
    (* opendis/dis7.py:3498-3501 *)
    ("parse", MMeth (mkmeth KNormal false [("self", None); ("inputStream", None)]
       [Expr (Meth (Attr (Loc "self") "entityID") "parse" [(Loc "inputStream")] []);
       SetAttr (Loc "self") "elementID" (Meth (Loc "inputStream") "read_unsigned_short" [] [])]))
  ].

(* opendis/dis7.py:3504-3523  class ExpendableDescriptor() *)
Definition c_ExpendableDescriptor : cls := mkcls "ExpendableDescriptor" ["ExpendableDescriptor"]
  [
    (* opendis/dis7.py:3510-3513 *)
    ("__init__", MMeth (mkmeth KNormal false [("self", None); ("expendableType", Some (DLit (LNone)))]
       [SetAttr (Loc "self") "expendableType" (OrE (Loc "expendableType") (CallV (Glob "EntityType") [] []));
       SetAttr (Loc "self") "padding" (Lit (LInt 0))]));
    (* opendis/dis7.py:3515-3518 *)
    ("serialize", MMeth (mkmeth KNormal false [("self", None); ("outputStream", None)]
       [Expr (Meth (Attr (Loc "self") "expendableType") "serialize" [(Loc "outputStream")] []);
       Expr (Meth (Loc "outputStream") "write_long" [(Attr (Loc "self") "padding")] [])]));
    (* opendis/dis7.py:3520-3523 *)
    ("parse", MMeth (mkmeth KNormal false [("self", None); ("inputStream", None)]
       [Expr (Meth (Attr (Loc "self") "expendableType") "parse" [(Loc "inputStream")] []);
       SetAttr (Loc "self") "padding" (Meth (Loc "inputStream") "read_long" [] [])]))
  ].

(* opendis/dis7.py:3526-3550  class PropulsionSystemData() *)
Definition c_PropulsionSystemData : cls := mkcls "PropulsionSystemData" ["PropulsionSystemData"]
  [
    (* opendis/dis7.py:3534-3540 *)
    ("__init__", MMeth (mkmeth KNormal false [("self", None); ("powerSetting", Some (DLit (LFloat 0))); ("engineRpm", Some (DLit (LFloat 0)))]
       [SetAttr (Loc "self") "powerSetting" (Loc "powerSetting");
       SetAttr (Loc "self") "engineRpm" (Loc "engineRpm")]));
    (* opendis/dis7.py:3542-3545 *)
    ("serialize", MMeth (mkmeth KNormal false [("self", None); ("outputStream", None)]
       [Expr (Meth (Loc "outputStream") "write_float" [(Attr (Loc "self") "powerSetting")] []);
       Expr (Meth (Loc "outputStream") "write_float" [(Attr (Loc "self") "engineRpm")] [])]));
    (* opendis/dis7.py:3547-3550 *)
    ("parse", MMeth (mkmeth KNormal false [("self", None); ("inputStream", None)]
       [SetAttr (Loc "self") "powerSetting" (Meth (Loc "inputStream") "read_float" [] []);
       SetAttr (Loc "self") "engineRpm" (Meth (Loc "inputStream") "read_float" [] [])]))
  ].

(* opendis/dis7.py:3553-3577  class LiveEntityIdentifier() *)
Definition c_LiveEntityIdentifier : cls := mkcls "LiveEntityIdentifier" ["LiveEntityIdentifier"]
  [
    (* opendis/dis7.py:3560-3567 *)
    ("__init__", MMeth (mkmeth KNormal false [("self", None); ("liveSimulationAddress", Some (DLit (LNone))); ("entityNumber", Some (DLit (LInt 0)))]
       [SetAttr (Loc "self") "liveSimulationAddress" (OrE (Loc "liveSimulationAddress") (CallV (Glob "LiveSimulationAddress") [] []));
       SetAttr (Loc "self") "entityNumber" (Loc "entityNumber")]));
    (* opendis/dis7.py:3569-3572 *)
    ("serialize", MMeth (mkmeth KNormal false [("self", None); ("outputStream", None)]
       [Expr (Meth (Attr (Loc "self") "liveSimulationAddress") "serialize" [(Loc "outputStream")] []);
       Expr (Meth (Loc "outputStream") "write_unsigned_short" [(Attr (Loc "self") "entityNumber")] [])]));
    (* opendis/dis7.py:3574-3577 *)
    ("parse", MMeth (mkmeth KNormal false [("self", None); ("inputStream", None)]
       [Expr (Meth (Attr (Loc "self") "liveSimulationAddress") "parse" [(Loc "inputStream")] []);
       SetAttr (Loc "self") "entityNumber" (Meth (Loc "inputStream") "read_unsigned_short" [] [])]))
  ].

(* opendis/dis7.py:3580-3621  class SeparationVP() *)
Definition c_SeparationVP : cls := mkcls "SeparationVP" ["SeparationVP"]
  [
    (* opendis/dis7.py:3585 *)
    ("recordType", MAttr (LInt 2));
    (* opendis/dis7.py:3587-3601 *)
    ("__init__", MMeth (mkmeth KNormal false [("self", None); ("reasonForSeparation", Some (DLit (LInt 0))); ("preEntityIndicator", Some (DLit (LInt 0))); ("parentEntityID", Some (DLit (LNone))); ("stationLocation", Some (DLit (LNone)))]
       [SetAttr (Loc "self") "reasonForSeparation" (Loc "reasonForSeparation");
       SetAttr (Loc "self") "preEntityIndicator" (Loc "preEntityIndicator");
       SetAttr (Loc "self") "padding1" (Lit (LInt 0));
       SetAttr (Loc "self") "parentEntityID" (OrE (Loc "parentEntityID") (CallV (Glob "EntityIdentifier") [] []));
       SetAttr (Loc "self") "padding2" (Lit (LInt 0));
       SetAttr (Loc "self") "stationLocation" (OrE (Loc "stationLocation") (CallV (Glob "NamedLocationIdentification") [] []))]));
    (* opendis/dis7.py:3603-3611 *)
    ("serialize", MMeth (mkmeth KNormal false [("self", None); ("outputStream", None)]
       [Expr (Meth (Loc "outputStream") "write_unsigned_byte" [(Attr (Loc "self") "recordType")] []);
       Expr (Meth (Loc "outputStream") "write_unsigned_byte" [(Attr (Loc "self") "reasonForSeparation")] []);
       Expr (Meth (Loc "outputStream") "write_unsigned_byte" [(Attr (Loc "self") "preEntityIndicator")] []);
       Expr (Meth (Loc "outputStream") "write_unsigned_byte" [(Attr (Loc "self") "padding1")] []);
       Expr (Meth (Attr (Loc "self") "parentEntityID") "serialize" [(Loc "outputStream")] []);
       Expr (Meth (Loc "outputStream") "write_unsigned_short" [(Attr (Loc "self") "padding2")] []);
       Expr (Meth (Loc "outputStream") "write_unsigned_int" [(Attr (Loc "self") "stationLocation")] [])]));
    (* opendis/dis7.py:3613-3621 *)
    ("parse", MMeth (mkmeth KNormal false [("self", None); ("inputStream", None)]
       [SetAttr (Loc "self") "recordType" (Meth (Loc "inputStream") "read_unsigned_byte" [] []);
       SetAttr (Loc "self") "reasonForSeparation" (Meth (Loc "inputStream") "read_unsigned_byte" [] []);
       SetAttr (Loc "self") "preEntityIndicator" (Meth (Loc "inputStream") "read_unsigned_byte" [] []);
       SetAttr (Loc "self") "padding1" (Meth (Loc "inputStream") "read_unsigned_byte" [] []);
       Expr (Meth (Attr (Loc "self") "parentEntityID") "parse" [(Loc "inputStream")] []);
       SetAttr (Loc "self") "padding2" (Meth (Loc "inputStream") "read_unsigned_short" [] []);
       SetAttr (Loc "self") "stationLocation" (Meth (Loc "inputStream") "read_unsigned_int" [] [])]))
  ].

(* opendis/dis7.py:3624-3648  class EmitterSystem() *)
Definition c_EmitterSystem : cls := mkcls "EmitterSystem" ["EmitterSystem"]
  [
    (* opendis/dis7.py:3630-3636 *)
    ("__init__", MMeth (mkmeth KNormal false [("self", None); ("emitterName", Some (DLit (LInt 0))); ("emitterFunction", Some (DLit (LInt 0))); ("emitterIDNumber", Some (DLit (LInt 0)))]
       [SetAttr (Loc "self") "emitterName" (Loc "emitterName");
       SetAttr (Loc "self") "emitterFunction" (Loc "emitterFunction");
       SetAttr (Loc "self") "emitterIDNumber" (Loc "emitterIDNumber")]));
    (* opendis/dis7.py:3638-3642 *)
    ("serialize", MMeth (mkmeth KNormal false [("self", None); ("outputStream", None)]
       [Expr (Meth (Loc "outputStream") "write_unsigned_short" [(Attr (Loc "self") "emitterName")] []);
       Expr (Meth (Loc "outputStream") "write_unsigned_byte" [(Attr (Loc "self") "emitterFunction")] []);
       Expr (Meth (Loc "outputStream") "write_unsigned_byte" [(Attr (Loc "self") "emitterIDNumber")] [])]));
    (* opendis/dis7.py:3644-3648 *)
    ("parse", MMeth (mkmeth KNormal false [("self", None); ("inputStream", None)]
       [SetAttr (Loc "self") "emitterName" (Meth (Loc "inputStream") "read_unsigned_short" [] []);
       SetAttr (Loc "self") "emitterFunction" (Meth (Loc "inputStream") "read_unsigned_byte" [] []);
       SetAttr (Loc "self") "emitterIDNumber" (Meth (Loc "inputStream") "read_unsigned_byte" [] [])]))
  ].

(* opendis/dis7.py:3651-3668  class PduStatus() *)
Definition c_PduStatus : cls := mkcls "PduStatus" ["PduStatus"]
  [
    (* opendis/dis7.py:3658-3660 *)
    ("__init__", MMeth (mkmeth KNormal false [("self", None); ("pduStatus", Some (DLit (LInt 0)))]
       [SetAttr (Loc "self") "pduStatus" (Loc "pduStatus")]));
    (* opendis/dis7.py:3662-3664 *)
    ("serialize", MMeth (mkmeth KNormal false [("self", None); ("outputStream", None)]
       [Expr (Meth (Loc "outputStream") "write_unsigned_byte" [(Attr (Loc "self") "pduStatus")] [])]));
    (* opendis/dis7.py:3666-3668 *)
    ("parse", MMeth (mkmeth KNormal false [("self", None); ("inputStream", None)]
       [SetAttr (Loc "self") "pduStatus" (Meth (Loc "inputStream") "read_unsigned_byte" [] [])]))
  ].

(* opendis/dis7.py:3671-3695  class LiveEntityPdu(PduSuperclass) *)
Definition c_LiveEntityPdu : cls := mkcls "LiveEntityPdu" ["LiveEntityPdu"; "PduSuperclass"]
  [
    (* opendis/dis7.py:3678-3683 *)
    ("__init__", MMeth (mkmeth KNormal false [("self", None); ("subprotocolNumber", Some (DLit (LInt 0)))]
       [Expr (Super "LiveEntityPdu" "__init__" [] []);
       SetAttr (Loc "self") "subprotocolNumber" (Loc "subprotocolNumber");
       SetAttr (Loc "self") "padding" (Lit (LInt 0))]));
    (* opendis/dis7.py:3685-3689 *)
    ("serialize", MMeth (mkmeth KNormal false [("self", None); ("outputStream", None)]
       [Expr (Super "LiveEntityPdu" "serialize" [(Loc "outputStream")] []);
       Expr (Meth (Loc "outputStream") "write_unsigned_short" [(Attr (Loc "self") "subprotocolNumber")] []);
       Expr (Meth (Loc "outputStream") "write_unsigned_byte" [(Attr (Loc "self") "padding")] [])]));
    (* opendis/dis7.py:3691-3695 *)
    ("parse", MMeth (mkmeth KNormal false [("self", None); ("inputStream", None)]
       [Expr (Super "LiveEntityPdu" "parse" [(Loc "inputStream")] []);
       SetAttr (Loc "self") "subprotocolNumber" (Meth (Loc "inputStream") "read_unsigned_short" [] []);
       SetAttr (Loc "self") "padding" (Meth (Loc "inputStream") "read_unsigned_byte" [] [])]))
  ].

(* opendis/dis7.py:3698-3718  class Pdu(PduSuperclass) *)
Definition c_Pdu : cls := mkcls "Pdu" ["Pdu"; "PduSuperclass"]
  [
    (* opendis/dis7.py:3701-3706 *)
    ("__init__", MMeth (mkmeth KNormal false [("self", None); ("pduStatus", Some (DLit (LInt 0)))]
       [Expr (Super "Pdu" "__init__" [] []);
       SetAttr (Loc "self") "pduStatus" (Loc "pduStatus");
       SetAttr (Loc "self") "padding" (Lit (LInt 0))]));
    (* opendis/dis7.py:3708-3712 *)
    ("serialize", MMeth (mkmeth KNormal false [("self", None); ("outputStream", None)]
       [Expr (Super "Pdu" "serialize" [(Loc "outputStream")] []);
       Expr (Meth (Loc "outputStream") "write_unsigned_byte" [(Attr (Loc "self") "pduStatus")] []);
       Expr (Meth (Loc "outputStream") "write_unsigned_byte" [(Attr (Loc "self") "padding")] [])]));
    (* opendis/dis7.py:3714-3718 *)
    ("parse", MMeth (mkmeth KNormal false [("self", None); ("inputStream", None)]
       [Expr (Super "Pdu" "parse" [(Loc "inputStream")] []);
       SetAttr (Loc "self") "pduStatus" (Meth (Loc "inputStream") "read_unsigned_byte" [] []);
       SetAttr (Loc "self") "padding" (Meth (Loc "inputStream") "read_unsigned_byte" [] [])]))
  ].

(* opendis/dis7.py:3721-3738  class EntityInformationFamilyPdu(Pdu) *)
Definition c_EntityInformationFamilyPdu : cls := mkcls "EntityInformationFamilyPdu" ["EntityInformationFamilyPdu"; "Pdu"; "PduSuperclass"]
  [
    (* opendis/dis7.py:3727 *)
    ("protocolFamily", MAttr (LInt 1));
    (* opendis/dis7.py:3729-3730 *)
    ("__init__", MMeth (mkmeth KNormal false [("self", None)]
       [Expr (Super "EntityInformationFamilyPdu" "__init__" [] [])]));
    (* opendis/dis7.py:3732-3734 *)
    ("serialize", MMeth (mkmeth KNormal false [("self", None); ("outputStream", None)]
       [Expr (Super "EntityInformationFamilyPdu" "serialize" [(Loc "outputStream")] [])]));
    (* opendis/dis7.py:3736-3738 *)
    ("parse", MMeth (mkmeth KNormal false [("self", None); ("inputStream", None)]
       [Expr (Super "EntityInformationFamilyPdu" "parse" [(Loc "inputStream")] [])]))
  ].

(* opendis/dis7.py:3741-3757  class LogisticsFamilyPdu(Pdu) *)
Definition c_LogisticsFamilyPdu : cls := mkcls "LogisticsFamilyPdu" ["LogisticsFamilyPdu"; "Pdu"; "PduSuperclass"]
  [
    (* opendis/dis7.py:3746 *)
    ("protocolFamily", MAttr (LInt 3));
    (* opendis/dis7.py:3748-3749 *)
    ("__init__", MMeth (mkmeth KNormal false [("self", None)]
       [Expr (Super "LogisticsFamilyPdu" "__init__" [] [])]));
    (* opendis/dis7.py:3751-3753 *)
    ("serialize", MMeth (mkmeth KNormal false [("self", None); ("outputStream", None)]
       [Expr (Super "LogisticsFamilyPdu" "serialize" [(Loc "outputStream")] [])]));
    (* opendis/dis7.py:3755-3757 *)
    ("parse", MMeth (mkmeth KNormal false [("self", None); ("inputStream", None)]
       [Expr (Super "LogisticsFamilyPdu" "parse" [(Loc "inputStream")] [])]))
  ].

(* opendis/dis7.py:3760-3820  class EntityStateUpdatePdu(EntityInformationFamilyPdu) *)
Definition c_EntityStateUpdatePdu : cls := mkcls "EntityStateUpdatePdu" ["EntityStateUpdatePdu"; "EntityInformationFamilyPdu"; "Pdu"; "PduSuperclass"]
  [
    (* opendis/dis7.py:3766 *)
    ("pduType", MAttr (LInt 67));
    (* opendis/dis7.py:3768-3788 *)
    ("__init__", MMeth (mkmeth KNormal false [("self", None); ("entityID", Some (DLit (LNone))); ("entityLinearVelocity", Some (DLit (LNone))); ("entityLocation", Some (DLit (LNone))); ("entityOrientation", Some (DLit (LNone))); ("entityAppearance", Some (DLit (LInt 0))); ("variableParameters", Some (DLit (LNone)))]
       [Expr (Super "EntityStateUpdatePdu" "__init__" [] []);
       SetAttr (Loc "self") "entityID" (OrE (Loc "entityID") (CallV (Glob "EntityIdentifier") [] []));
       SetAttr (Loc "self") "padding1" (Lit (LInt 0));
       SetAttr (Loc "self") "entityLinearVelocity" (OrE (Loc "entityLinearVelocity") (CallV (Glob "Vector3Float") [] []));
       SetAttr (Loc "self") "entityLocation" (OrE (Loc "entityLocation") (CallV (Glob "WorldCoordinates") [] []));
       SetAttr (Loc "self") "entityOrientation" (OrE (Loc "entityOrientation") (CallV (Glob "EulerAngles") [] []));
       SetAttr (Loc "self") "entityAppearance" (Loc "entityAppearance");
       SetAttr (Loc "self") "variableParameters" (OrE (Loc "variableParameters") (ListE []))]));
    (* opendis/dis7.py:3791-3792 *)
    ("numberOfVariableParameters", MMeth (mkmeth KProperty false [("self", None)]
       [Return (Builtin BLen [(Attr (Loc "self") "variableParameters")])]));
    (* opendis/dis7.py:3794-3805 *)
    ("serialize", MMeth (mkmeth KNormal false [("self", None); ("outputStream", None)]
       [Expr (Super "EntityStateUpdatePdu" "serialize" [(Loc "outputStream")] []);
       Expr (Meth (Attr (Loc "self") "entityID") "serialize" [(Loc "outputStream")] []);
       Expr (Meth (Loc "outputStream") "write_byte" [(Attr (Loc "self") "padding1")] []);
       Expr (Meth (Loc "outputStream") "write_unsigned_byte" [(Attr (Loc "self") "numberOfVariableParameters")] []);
       Expr (Meth (Attr (Loc "self") "entityLinearVelocity") "serialize" [(Loc "outputStream")] []);
       Expr (Meth (Attr (Loc "self") "entityLocation") "serialize" [(Loc "outputStream")] []);
       Expr (Meth (Attr (Loc "self") "entityOrientation") "serialize" [(Loc "outputStream")] []);
       Expr (Meth (Loc "outputStream") "write_unsigned_int" [(Attr (Loc "self") "entityAppearance")] []);
       For "anObj" (Attr (Loc "self") "variableParameters") [Expr (Meth (Loc "anObj") "serialize" [(Loc "outputStream")] [])]]));
    (* opendis/dis7.py:3807-3820 *)
    ("parse", MMeth (mkmeth KNormal false [("self", None); ("inputStream", None)]
       [Expr (Super "EntityStateUpdatePdu" "parse" [(Loc "inputStream")] []);
       Expr (Meth (Attr (Loc "self") "entityID") "parse" [(Loc "inputStream")] []);
       SetAttr (Loc "self") "padding1" (Meth (Loc "inputStream") "read_byte" [] []);
       Assign "numberOfVariableParameters" (Meth (Loc "inputStream") "read_unsigned_byte" [] []);
       Expr (Meth (Attr (Loc "self") "entityLinearVelocity") "parse" [(Loc "inputStream")] []);
       Expr (Meth (Attr (Loc "self") "entityLocation") "parse" [(Loc "inputStream")] []);
       Expr (Meth (Attr (Loc "self") "entityOrientation") "parse" [(Loc "inputStream")] []);
       SetAttr (Loc "self") "entityAppearance" (Meth (Loc "inputStream") "read_unsigned_int" [] []);
       For "idx" (Builtin BRange [(Lit (LInt 0)); (Loc "numberOfVariableParameters")]) [Assign "element" (CallV (Glob "VariableParameter") [] []); Expr (Meth (Loc "element") "parse" [(Loc "inputStream")] []); Expr (Meth (Attr (Loc "self") "variableParameters") "append" [(Loc "element")] [])]]))
  ].

(* opendis/dis7.py:3823-3872  class ServiceRequestPdu(LogisticsFamilyPdu) *)
Definition c_ServiceRequestPdu : cls := mkcls "ServiceRequestPdu" ["ServiceRequestPdu"; "LogisticsFamilyPdu"; "Pdu"; "PduSuperclass"]
  [
    (* opendis/dis7.py:3829 *)
    ("pduType", MAttr (LInt 5));
    (* opendis/dis7.py:3831-3844 *)
    ("__init__", MMeth (mkmeth KNormal false [("self", None); ("requestingEntityID", Some (DLit (LNone))); ("servicingEntityID", Some (DLit (LNone))); ("serviceTypeRequested", Some (DLit (LInt 0))); ("supplies", Some (DLit (LNone)))]
       [Expr (Super "ServiceRequestPdu" "__init__" [] []);
       SetAttr (Loc "self") "requestingEntityID" (OrE (Loc "requestingEntityID") (CallV (Glob "EntityIdentifier") [] []));
       SetAttr (Loc "self") "servicingEntityID" (OrE (Loc "servicingEntityID") (CallV (Glob "EntityIdentifier") [] []));
       SetAttr (Loc "self") "serviceTypeRequested" (Loc "serviceTypeRequested");
       SetAttr (Loc "self") "serviceRequestPadding" (Lit (LInt 0));
       SetAttr (Loc "self") "supplies" (OrE (Loc "supplies") (ListE []))]));
    (* opendis/dis7.py:3847-3848 *)
    ("numberOfSupplyTypes", MMeth (mkmeth KProperty false [("self", None)]
       [Return (Builtin BLen [(Attr (Loc "self") "supplies")])]));
    (* opendis/dis7.py:3850-3859 *)
    ("serialize", MMeth (mkmeth KNormal false [("self", None); ("outputStream", None)]
       [Expr (Super "ServiceRequestPdu" "serialize" [(Loc "outputStream")] []);
       Expr (Meth (Attr (Loc "self") "requestingEntityID") "serialize" [(Loc "outputStream")] []);
       Expr (Meth (Attr (Loc "self") "servicingEntityID") "serialize" [(Loc "outputStream")] []);
       Expr (Meth (Loc "outputStream") "write_unsigned_byte" [(Attr (Loc "self") "serviceTypeRequested")] []);
       Expr (Meth (Loc "outputStream") "write_unsigned_byte" [(Attr (Loc "self") "numberOfSupplyTypes")] []);
       Expr (Meth (Loc "outputStream") "write_short" [(Attr (Loc "self") "serviceRequestPadding")] []);
       For "anObj" (Attr (Loc "self") "supplies") [Expr (Meth (Loc "anObj") "serialize" [(Loc "outputStream")] [])]]));
    (* opendis/dis7.py:3861-3872 *)
    ("parse", MMeth (mkmeth KNormal false [("self", None); ("inputStream", None)]
       [Expr (Super "ServiceRequestPdu" "parse" [(Loc "inputStream")] []);
       Expr (Meth (Attr (Loc "self") "requestingEntityID") "parse" [(Loc "inputStream")] []);
       Expr (Meth (Attr (Loc "self") "servicingEntityID") "parse" [(Loc "inputStream")] []);
       SetAttr (Loc "self") "serviceTypeRequested" (Meth (Loc "inputStream") "read_unsigned_byte" [] []);
       Assign "numberOfSupplyTypes" (Meth (Loc "inputStream") "read_unsigned_byte" [] []);
       SetAttr (Loc "self") "serviceRequestPadding" (Meth (Loc "inputStream") "read_short" [] []);
       For "idx" (Builtin BRange [(Lit (LInt 0)); (Loc "numberOfSupplyTypes")]) [Assign "element" (CallV (Glob "SupplyQuantity") [] []); Expr (Meth (Loc "element") "parse" [(Loc "inputStream")] []); Expr (Meth (Attr (Loc "self") "supplies") "append" [(Loc "element")] [])]]))
  ].

(* opendis/dis7.py:3875-3910  class RepairCompletePdu(LogisticsFamilyPdu) *)
Definition c_RepairCompletePdu : cls := mkcls "RepairCompletePdu" ["RepairCompletePdu"; "LogisticsFamilyPdu"; "Pdu"; "PduSuperclass"]
  [
    (* opendis/dis7.py:3880 *)
    ("pduType", MAttr (LInt 9));
    (* opendis/dis7.py:3882-3894 *)
    ("__init__", MMeth (mkmeth KNormal false [("self", None); ("receivingEntityID", Some (DLit (LNone))); ("repairingEntityID", Some (DLit (LNone))); ("repair", Some (DLit (LInt 0)))]
       [Expr (Super "RepairCompletePdu" "__init__" [] []);
       SetAttr (Loc "self") "receivingEntityID" (OrE (Loc "receivingEntityID") (CallV (Glob "EntityIdentifier") [] []));
       SetAttr (Loc "self") "repairingEntityID" (OrE (Loc "repairingEntityID") (CallV (Glob "EntityIdentifier") [] []));
       SetAttr (Loc "self") "repair" (Loc "repair");
       SetAttr (Loc "self") "padding4" (Lit (LInt 0))]));
    (* opendis/dis7.py:3896-3902 *)
    ("serialize", MMeth (mkmeth KNormal false [("self", None); ("outputStream", None)]
       [Expr (Super "RepairCompletePdu" "serialize" [(Loc "outputStream")] []);
       Expr (Meth (Attr (Loc "self") "receivingEntityID") "serialize" [(Loc "outputStream")] []);
       Expr (Meth (Attr (Loc "self") "repairingEntityID") "serialize" [(Loc "outputStream")] []);
       Expr (Meth (Loc "outputStream") "write_unsigned_short" [(Attr (Loc "self") "repair")] []);
       Expr (Meth (Loc "outputStream") "write_short" [(Attr (Loc "self") "padding4")] [])]));
    (* opendis/dis7.py:3904-3910 *)
    ("parse", MMeth (mkmeth KNormal false [("self", None); ("inputStream", None)]
       [Expr (Super "RepairCompletePdu" "parse" [(Loc "inputStream")] []);
       Expr (Meth (Attr (Loc "self") "receivingEntityID") "parse" [(Loc "inputStream")] []);
       Expr (Meth (Attr (Loc "self") "repairingEntityID") "parse" [(Loc "inputStream")] []);
       SetAttr (Loc "self") "repair" (Meth (Loc "inputStream") "read_unsigned_short" [] []);
       SetAttr (Loc "self") "padding4" (Meth (Loc "inputStream") "read_short" [] [])]))
  ].

(* opendis/dis7.py:3913-3929  class SyntheticEnvironmentFamilyPdu(Pdu) *)
Definition c_SyntheticEnvironmentFamilyPdu : cls := mkcls "SyntheticEnvironmentFamilyPdu" ["SyntheticEnvironmentFamilyPdu"; "Pdu"; "PduSuperclass"]
  [
    (* opendis/dis7.py:3918 *)
    ("protocolFamily", MAttr (LInt 9));
    (* opendis/dis7.py:3920-3921 *)
    ("__init__", MMeth (mkmeth KNormal false [("self", None)]
       [Expr (Super "SyntheticEnvironmentFamilyPdu" "__init__" [] [])]));
    (* opendis/dis7.py:3923-3925 *)
    ("serialize", MMeth (mkmeth KNormal false [("self", None); ("outputStream", None)]
       [Expr (Super "SyntheticEnvironmentFamilyPdu" "serialize" [(Loc "outputStream")] [])]));
    (* opendis/dis7.py:3927-3929 *)
    ("parse", MMeth (mkmeth KNormal false [("self", None); ("inputStream", None)]
       [Expr (Super "SyntheticEnvironmentFamilyPdu" "parse" [(Loc "inputStream")] [])]))
  ].

(* opendis/dis7.py:3932-3987  class CollisionPdu(EntityInformationFamilyPdu) *)
Definition c_CollisionPdu : cls := mkcls "CollisionPdu" ["CollisionPdu"; "EntityInformationFamilyPdu"; "Pdu"; "PduSuperclass"]
  [
    (* opendis/dis7.py:3938 *)
    ("pduType", MAttr (LInt 4));
    (* opendis/dis7.py:3940-3963 *)
    ("__init__", MMeth (mkmeth KNormal false [("self", None); ("issuingEntityID", Some (DLit (LNone))); ("collidingEntityID", Some (DLit (LNone))); ("eventID", Some (DLit (LNone))); ("collisionType", Some (DLit (LInt 0))); ("velocity", Some (DLit (LNone))); ("mass", Some (DLit (LFloat 0))); ("location", Some (DLit (LNone)))]
       [Expr (Super "CollisionPdu" "__init__" [] []);
       SetAttr (Loc "self") "issuingEntityID" (OrE (Loc "issuingEntityID") (CallV (Glob "EntityIdentifier") [] []));
       SetAttr (Loc "self") "collidingEntityID" (OrE (Loc "collidingEntityID") (CallV (Glob "EntityIdentifier") [] []));
       SetAttr (Loc "self") "eventID" (OrE (Loc "eventID") (CallV (Glob "EventIdentifier") [] []));
       SetAttr (Loc "self") "collisionType" (Loc "collisionType");
       SetAttr (Loc "self") "pad" (Lit (LInt 0));
       SetAttr (Loc "self") "velocity" (OrE (Loc "velocity") (CallV (Glob "Vector3Float") [] []));
       SetAttr (Loc "self") "mass" (Loc "mass");
       SetAttr (Loc "self") "location" (OrE (Loc "location") (CallV (Glob "Vector3Float") [] []))]));
    (* opendis/dis7.py:3965-3975 *)
    ("serialize", MMeth (mkmeth KNormal false [("self", None); ("outputStream", None)]
       [Expr (Super "CollisionPdu" "serialize" [(Loc "outputStream")] []);
       Expr (Meth (Attr (Loc "self") "issuingEntityID") "serialize" [(Loc "outputStream")] []);
       Expr (Meth (Attr (Loc "self") "collidingEntityID") "serialize" [(Loc "outputStream")] []);
       Expr (Meth (Attr (Loc "self") "eventID") "serialize" [(Loc "outputStream")] []);
       Expr (Meth (Loc "outputStream") "write_unsigned_byte" [(Attr (Loc "self") "collisionType")] []);
       Expr (Meth (Loc "outputStream") "write_byte" [(Attr (Loc "self") "pad")] []);
       Expr (Meth (Attr (Loc "self") "velocity") "serialize" [(Loc "outputStream")] []);
       Expr (Meth (Loc "outputStream") "write_float" [(Attr (Loc "self") "mass")] []);
       Expr (Meth (Attr (Loc "self") "location") "serialize" [(Loc "outputStream")] [])]));
    (* opendis/dis7.py:3977-3987 *)
    ("parse", MMeth (mkmeth KNormal false [("self", None); ("inputStream", None)]
       [Expr (Super "CollisionPdu" "parse" [(Loc "inputStream")] []);
       Expr (Meth (Attr (Loc "self") "issuingEntityID") "parse" [(Loc "inputStream")] []);
       Expr (Meth (Attr (Loc "self") "collidingEntityID") "parse" [(Loc "inputStream")] []);
       Expr (Meth (Attr (Loc "self") "eventID") "parse" [(Loc "inputStream")] []);
       SetAttr (Loc "self") "collisionType" (Meth (Loc "inputStream") "read_unsigned_byte" [] []);
       SetAttr (Loc "self") "pad" (Meth (Loc "inputStream") "read_byte" [] []);
       Expr (Meth (Attr (Loc "self") "velocity") "parse" [(Loc "inputStream")] []);
       SetAttr (Loc "self") "mass" (Meth (Loc "inputStream") "read_float" [] []);
       Expr (Meth (Attr (Loc "self") "location") "parse" [(Loc "inputStream")] [])]))
  ].

(* opendis/dis7.py:3990-4027  class RepairResponsePdu(LogisticsFamilyPdu) *)
Definition c_RepairResponsePdu : cls := mkcls "RepairResponsePdu" ["RepairResponsePdu"; "LogisticsFamilyPdu"; "Pdu"; "PduSuperclass"]
  [
    (* opendis/dis7.py:3995 *)
    ("pduType", MAttr (LInt 10));
    (* opendis/dis7.py:3997-4009 *)
    ("__init__", MMeth (mkmeth KNormal false [("self", None); ("receivingEntityID", Some (DLit (LNone))); ("repairingEntityID", Some (DLit (LNone))); ("repairResult", Some (DLit (LInt 0)))]
       [Expr (Super "RepairResponsePdu" "__init__" [] []);
       SetAttr (Loc "self") "receivingEntityID" (OrE (Loc "receivingEntityID") (CallV (Glob "EntityIdentifier") [] []));
       SetAttr (Loc "self") "repairingEntityID" (OrE (Loc "repairingEntityID") (CallV (Glob "EntityIdentifier") [] []));
       SetAttr (Loc "self") "repairResult" (Loc "repairResult");
       SetAttr (Loc "self") "padding1" (Lit (LInt 0));
       SetAttr (Loc "self") "padding2" (Lit (LInt 0))]));
    (* opendis/dis7.py:4011-4018 *)
    ("serialize", MMeth (mkmeth KNormal false [("self", None); ("outputStream", None)]
       [Expr (Super "RepairResponsePdu" "serialize" [(Loc "outputStream")] []);
       Expr (Meth (Attr (Loc "self") "receivingEntityID") "serialize" [(Loc "outputStream")] []);
       Expr (Meth (Attr (Loc "self") "repairingEntityID") "serialize" [(Loc "outputStream")] []);
       Expr (Meth (Loc "outputStream") "write_unsigned_byte" [(Attr (Loc "self") "repairResult")] []);
       Expr (Meth (Loc "outputStream") "write_short" [(Attr (Loc "self") "padding1")] []);
       Expr (Meth (Loc "outputStream") "write_byte" [(Attr (Loc "self") "padding2")] [])]));
    (* opendis/dis7.py:4020-4027 *)
    ("parse", MMeth (mkmeth KNormal false [("self", None); ("inputStream", None)]
       [Expr (Super "RepairResponsePdu" "parse" [(Loc "inputStream")] []);
       Expr (Meth (Attr (Loc "self") "receivingEntityID") "parse" [(Loc "inputStream")] []);
       Expr (Meth (Attr (Loc "self") "repairingEntityID") "parse" [(Loc "inputStream")] []);
       SetAttr (Loc "self") "repairResult" (Meth (Loc "inputStream") "read_unsigned_byte" [] []);
       SetAttr (Loc "self") "padding1" (Meth (Loc "inputStream") "read_short" [] []);
       SetAttr (Loc "self") "padding2" (Meth (Loc "inputStream") "read_byte" [] [])]))
  ].

(* opendis/dis7.py:4030-4056  class SimulationManagementFamilyPdu(Pdu) *)
Definition c_SimulationManagementFamilyPdu : cls := mkcls "SimulationManagementFamilyPdu" ["SimulationManagementFamilyPdu"; "Pdu"; "PduSuperclass"]
  [
    (* opendis/dis7.py:4035 *)
    ("protocolFamily", MAttr (LInt 5));
    (* opendis/dis7.py:4037-4044 *)
    ("__init__", MMeth (mkmeth KNormal false [("self", None); ("originatingEntityID", Some (DLit (LNone))); ("receivingEntityID", Some (DLit (LNone)))]
       [Expr (Super "SimulationManagementFamilyPdu" "__init__" [] []);
       SetAttr (Loc "self") "originatingEntityID" (OrE (Loc "originatingEntityID") (CallV (Glob "EntityIdentifier") [] []));
       SetAttr (Loc "self") "receivingEntityID" (OrE (Loc "receivingEntityID") (CallV (Glob "EntityIdentifier") [] []))]));
    (* opendis/dis7.py:4046-4050 *)
    ("serialize", MMeth (mkmeth KNormal false [("self", None); ("outputStream", None)]
       [Expr (Super "SimulationManagementFamilyPdu" "serialize" [(Loc "outputStream")] []);
       Expr (Meth (Attr (Loc "self") "originatingEntityID") "serialize" [(Loc "outputStream")] []);
       Expr (Meth (Attr (Loc "self") "receivingEntityID") "serialize" [(Loc "outputStream")] [])]));
    (* opendis/dis7.py:4052-4056 *)
    ("parse", MMeth (mkmeth KNormal false [("self", None); ("inputStream", None)]
       [Expr (Super "SimulationManagementFamilyPdu" "parse" [(Loc "inputStream")] []);
       Expr (Meth (Attr (Loc "self") "originatingEntityID") "parse" [(Loc "inputStream")] []);
       Expr (Meth (Attr (Loc "self") "receivingEntityID") "parse" [(Loc "inputStream")] [])]))
  ].

(* opendis/dis7.py:4059-4107  class DataQueryPdu(SimulationManagementFamilyPdu) *)
Definition c_DataQueryPdu : cls := mkcls "DataQueryPdu" ["DataQueryPdu"; "SimulationManagementFamilyPdu"; "Pdu"; "PduSuperclass"]
  [
    (* opendis/dis7.py:4064 *)
    ("pduType", MAttr (LInt 18));
    (* opendis/dis7.py:4066-4077 *)
    ("__init__", MMeth (mkmeth KNormal false [("self", None); ("requestID", Some (DLit (LInt 0))); ("timeInterval", Some (DLit (LInt 0))); ("fixedDatumIDs", Some (DLit (LNone))); ("variableDatumIDs", Some (DLit (LNone)))]
       [Expr (Super "DataQueryPdu" "__init__" [] []);
       SetAttr (Loc "self") "requestID" (Lit (LInt 0));
       SetAttr (Loc "self") "timeInterval" (Lit (LInt 0));
       SetAttr (Loc "self") "_dataQuery" (CallV (Glob "DataQueryDatumSpecification") [(OrE (Loc "fixedDatumIDs") (ListE [])); (OrE (Loc "variableDatumIDs") (ListE []))] [])]));
    (* opendis/dis7.py:4080-4081 *)
    ("numberOfFixedDatumIDs", MMeth (mkmeth KProperty false [("self", None)]
       [Return (Attr (Attr (Loc "self") "_dataQuery") "numberOfFixedDatumIDs")]));
    (* opendis/dis7.py:4084-4085 *)
    ("numberOfVariableDatumIDs", MMeth (mkmeth KProperty false [("self", None)]
       [Return (Attr (Attr (Loc "self") "_dataQuery") "numberOfVariableDatumIDs")]));
    (* opendis/dis7.py:4088-4089 *)
    ("fixedDatumIDs", MMeth (mkmeth KProperty false [("self", None)]
       [Return (Attr (Attr (Loc "self") "_dataQuery") "fixedDatumIDs")]));
    (* opendis/dis7.py:4092-4093 *)
    ("variableDatumIDs", MMeth (mkmeth KProperty false [("self", None)]
       [Return (Attr (Attr (Loc "self") "_dataQuery") "variableDatumIDs")]));
    (* opendis/dis7.py:4095-4100 *)
    ("serialize", MMeth (mkmeth KNormal false [("self", None); ("outputStream", None)]
       [Expr (Super "DataQueryPdu" "serialize" [(Loc "outputStream")] []);
       Expr (Meth (Loc "outputStream") "write_unsigned_int" [(Attr (Loc "self") "requestID")] []);
       Expr (Meth (Loc "outputStream") "write_unsigned_int" [(Attr (Loc "self") "timeInterval")] []);
       Expr (Meth (Attr (Loc "self") "_dataQuery") "serialize" [(Loc "outputStream")] [])]));
    (* opendis/dis7.py:4102-4107 *)
    ("parse", MMeth (mkmeth KNormal false [("self", None); ("inputStream", None)]
       [Expr (Super "DataQueryPdu" "parse" [(Loc "inputStream")] []);
       SetAttr (Loc "self") "requestID" (Meth (Loc "inputStream") "read_unsigned_int" [] []);
       SetAttr (Loc "self") "timeInterval" (Meth (Loc "inputStream") "read_unsigned_int" [] []);
       Expr (Meth (Attr (Loc "self") "_dataQuery") "parse" [(Loc "inputStream")] [])]))
  ].

(* opendis/dis7.py:4110-4175  class LinearObjectStatePdu(SyntheticEnvironmentFamilyPdu) *)
Definition c_LinearObjectStatePdu : cls := mkcls "LinearObjectStatePdu" ["LinearObjectStatePdu"; "SyntheticEnvironmentFamilyPdu"; "Pdu"; "PduSuperclass"]
  [
    (* opendis/dis7.py:4117 *)
    ("pduType", MAttr (LInt 44));
    (* opendis/dis7.py:4119-4141 *)
    ("__init__", MMeth (mkmeth KNormal false [("self", None); ("objectID", Some (DLit (LNone))); ("referencedObjectID", Some (DLit (LNone))); ("updateNumber", Some (DLit (LInt 0))); ("forceID", Some (DLit (LInt 0))); ("requesterID", Some (DLit (LNone))); ("receivingID", Some (DLit (LNone))); ("objectType", Some (DLit (LNone))); ("linearSegmentParameters", Some (DLit (LNone)))]
       [Expr (Super "LinearObjectStatePdu" "__init__" [] []);
       SetAttr (Loc "self") "objectID" (OrE (Loc "objectID") (CallV (Glob "EntityIdentifier") [] []));
       SetAttr (Loc "self") "referencedObjectID" (OrE (Loc "referencedObjectID") (CallV (Glob "EntityIdentifier") [] []));
       SetAttr (Loc "self") "updateNumber" (Loc "updateNumber");
       SetAttr (Loc "self") "forceID" (Loc "forceID");
       SetAttr (Loc "self") "numberOfSegments" (Glob "numberOfSegments");
       SetAttr (Loc "self") "requesterID" (OrE (Loc "requesterID") (CallV (Glob "SimulationAddress") [] []));
       SetAttr (Loc "self") "receivingID" (OrE (Loc "receivingID") (CallV (Glob "SimulationAddress") [] []));
       SetAttr (Loc "self") "objectType" (OrE (Loc "objectType") (CallV (Glob "ObjectType") [] []));
       SetAttr (Loc "self") "linearSegmentParameters" (OrE (Loc "linearSegmentParameters") (ListE []))]));
    (* opendis/dis7.py:4144-4145 *)
    ("numberOfSegments", MMeth (mkmeth KProperty false [("self", None)]
       [Return (Builtin BLen [(Attr (Loc "self") "linearSegmentParameters")])]));
    (* opendis/dis7.py:4147-4159 *)
    ("serialize", MMeth (mkmeth KNormal false [("self", None); ("outputStream", None)]
       [Expr (Super "LinearObjectStatePdu" "serialize" [(Loc "outputStream")] []);
       Expr (Meth (Attr (Loc "self") "objectID") "serialize" [(Loc "outputStream")] []);
       Expr (Meth (Attr (Loc "self") "referencedObjectID") "serialize" [(Loc "outputStream")] []);
       Expr (Meth (Loc "outputStream") "write_unsigned_short" [(Attr (Loc "self") "updateNumber")] []);
       Expr (Meth (Loc "outputStream") "write_unsigned_byte" [(Attr (Loc "self") "forceID")] []);
       Expr (Meth (Loc "outputStream") "write_unsigned_byte" [(Attr (Loc "self") "numberOfSegments")] []);
       Expr (Meth (Attr (Loc "self") "requesterID") "serialize" [(Loc "outputStream")] []);
       Expr (Meth (Attr (Loc "self") "receivingID") "serialize" [(Loc "outputStream")] []);
       Expr (Meth (Attr (Loc "self") "objectType") "serialize" [(Loc "outputStream")] []);
       For "anObj" (Attr (Loc "self") "linearSegmentParameters") [Expr (Meth (Loc "anObj") "serialize" [(Loc "outputStream")] [])]]));
    (* opendis/dis7.py:4161-4175 *)
    ("parse", MMeth (mkmeth KNormal false [("self", None); ("inputStream", None)]
       [Expr (Super "LinearObjectStatePdu" "parse" [(Loc "inputStream")] []);
       Expr (Meth (Attr (Loc "self") "objectID") "parse" [(Loc "inputStream")] []);
       Expr (Meth (Attr (Loc "self") "referencedObjectID") "parse" [(Loc "inputStream")] []);
       SetAttr (Loc "self") "updateNumber" (Meth (Loc "inputStream") "read_unsigned_short" [] []);
       SetAttr (Loc "self") "forceID" (Meth (Loc "inputStream") "read_unsigned_byte" [] []);
       Assign "numberOfSegments" (Meth (Loc "inputStream") "read_unsigned_byte" [] []);
       Expr (Meth (Attr (Loc "self") "requesterID") "parse" [(Loc "inputStream")] []);
       Expr (Meth (Attr (Loc "self") "receivingID") "parse" [(Loc "inputStream")] []);
       Expr (Meth (Attr (Loc "self") "objectType") "parse" [(Loc "inputStream")] []);
       For "idx" (Builtin BRange [(Lit (LInt 0)); (Loc "numberOfSegments")]) [Assign "element" (CallV (Glob "LinearSegmentParameter") [] []); Expr (Meth (Loc "element") "parse" [(Loc "inputStream")] []); Expr (Meth (Attr (Loc "self") "linearSegmentParameters") "append" [(Loc "element")] [])]]))
  ].

(* opendis/dis7.py:4178-4198  class CreateEntityPdu(SimulationManagementFamilyPdu) *)
Definition c_CreateEntityPdu : cls := mkcls "CreateEntityPdu" ["CreateEntityPdu"; "SimulationManagementFamilyPdu"; "Pdu"; "PduSuperclass"]
  [
    (* opendis/dis7.py:4183 *)
    ("pduType", MAttr (LInt 11));
    (* opendis/dis7.py:4185-4188 *)
    ("__init__", MMeth (mkmeth KNormal false [("self", None); ("requestID", Some (DLit (LInt 0)))]
       [Expr (Super "CreateEntityPdu" "__init__" [] []);
       SetAttr (Loc "self") "requestID" (Loc "requestID")]));
    (* opendis/dis7.py:4190-4193 *)
    ("serialize", MMeth (mkmeth KNormal false [("self", None); ("outputStream", None)]
       [Expr (Super "CreateEntityPdu" "serialize" [(Loc "outputStream")] []);
       Expr (Meth (Loc "outputStream") "write_unsigned_int" [(Attr (Loc "self") "requestID")] [])]));
    (* opendis/dis7.py:4195-4198 *)
    ("parse", MMeth (mkmeth KNormal false [("self", None); ("inputStream", None)]
       [Expr (Super "CreateEntityPdu" "parse" [(Loc "inputStream")] []);
       SetAttr (Loc "self") "requestID" (Meth (Loc "inputStream") "read_unsigned_int" [] [])]))
  ].

(* opendis/dis7.py:4201-4217  class RadioCommunicationsFamilyPdu(Pdu) *)
Definition c_RadioCommunicationsFamilyPdu : cls := mkcls "RadioCommunicationsFamilyPdu" ["RadioCommunicationsFamilyPdu"; "Pdu"; "PduSuperclass"]
  [
    (* opendis/dis7.py:4206 *)
    ("protocolFamily", MAttr (LInt 4));
    (* opendis/dis7.py:4208-4209 *)
    ("__init__", MMeth (mkmeth KNormal false [("self", None)]
       [Expr (Super "RadioCommunicationsFamilyPdu" "__init__" [] [])]));
    (* opendis/dis7.py:4211-4213 *)
    ("serialize", MMeth (mkmeth KNormal false [("self", None); ("outputStream", None)]
       [Expr (Super "RadioCommunicationsFamilyPdu" "serialize" [(Loc "outputStream")] [])]));
    (* opendis/dis7.py:4215-4217 *)
    ("parse", MMeth (mkmeth KNormal false [("self", None); ("inputStream", None)]
       [Expr (Super "RadioCommunicationsFamilyPdu" "parse" [(Loc "inputStream")] [])]))
  ].

(* opendis/dis7.py:4220-4280  class IntercomSignalPdu(RadioCommunicationsFamilyPdu) *)
Definition c_IntercomSignalPdu : cls := mkcls "IntercomSignalPdu" ["IntercomSignalPdu"; "RadioCommunicationsFamilyPdu"; "Pdu"; "PduSuperclass"]
  [
    (* opendis/dis7.py:4225 *)
    ("pduType", MAttr (LInt 31));
    (* opendis/dis7.py:4227-4244 *)
    ("__init__", MMeth (mkmeth KNormal false [("self", None); ("entityID", Some (DLit (LNone))); ("communicationsDeviceID", Some (DLit (LInt 0))); ("encodingScheme", Some (DLit (LInt 0))); ("tdlType", Some (DLit (LInt 0))); ("sampleRate", Some (DLit (LInt 0))); ("samples", Some (DLit (LInt 0))); ("data", Some (DLit (LNone)))]
       [Expr (Super "IntercomSignalPdu" "__init__" [] []);
       SetAttr (Loc "self") "entityID" (OrE (Loc "entityID") (CallV (Glob "EntityIdentifier") [] []));
       SetAttr (Loc "self") "communicationsDeviceID" (Loc "communicationsDeviceID");
       SetAttr (Loc "self") "encodingScheme" (Loc "encodingScheme");
       SetAttr (Loc "self") "tdlType" (Loc "tdlType");
       SetAttr (Loc "self") "sampleRate" (Loc "sampleRate");
       SetAttr (Loc "self") "samples" (Loc "samples");
       SetAttr (Loc "self") "data" (OrE (Loc "data") (ListE []))]));
    (* opendis/dis7.py:4248-4250 *)
    ("dataLength", MMeth (mkmeth KProperty false [("self", None)]
       [Return (Bin OMul (Builtin BLen [(Attr (Loc "self") "data")]) (Lit (LInt 8)))]));
    (* opendis/dis7.py:4252-4263 *)
    ("serialize", MMeth (mkmeth KNormal false [("self", None); ("outputStream", None)]
       [Expr (Super "IntercomSignalPdu" "serialize" [(Loc "outputStream")] []);
       Expr (Meth (Attr (Loc "self") "entityID") "serialize" [(Loc "outputStream")] []);
       Expr (Meth (Loc "outputStream") "write_unsigned_short" [(Attr (Loc "self") "communicationsDeviceID")] []);
       Expr (Meth (Loc "outputStream") "write_unsigned_short" [(Attr (Loc "self") "encodingScheme")] []);
       Expr (Meth (Loc "outputStream") "write_unsigned_short" [(Attr (Loc "self") "tdlType")] []);
       Expr (Meth (Loc "outputStream") "write_unsigned_int" [(Attr (Loc "self") "sampleRate")] []);
       Expr (Meth (Loc "outputStream") "write_unsigned_short" [(Attr (Loc "self") "dataLength")] []);
       Expr (Meth (Loc "outputStream") "write_unsigned_short" [(Attr (Loc "self") "samples")] []);
       For "anObj" (Attr (Loc "self") "data") [Expr (Meth (Loc "anObj") "serialize" [(Loc "outputStream")] [])]]));
    (* opendis/dis7.py:4265-4280 *)
    ("parse", MMeth (mkmeth KNormal false [("self", None); ("inputStream", None)]
       [Expr (Super "IntercomSignalPdu" "parse" [(Loc "inputStream")] []);
       Expr (Meth (Attr (Loc "self") "entityID") "parse" [(Loc "inputStream")] []);
       SetAttr (Loc "self") "communicationsDeviceID" (Meth (Loc "inputStream") "read_unsigned_short" [] []);
       SetAttr (Loc "self") "encodingScheme" (Meth (Loc "inputStream") "read_unsigned_short" [] []);
       SetAttr (Loc "self") "tdlType" (Meth (Loc "inputStream") "read_unsigned_short" [] []);
       SetAttr (Loc "self") "sampleRate" (Meth (Loc "inputStream") "read_unsigned_int" [] []);
       Assign "dataLength" (Meth (Loc "inputStream") "read_unsigned_short" [] []);
       SetAttr (Loc "self") "samples" (Meth (Loc "inputStream") "read_unsigned_short" [] []);
       For "idx" (Builtin BRange [(Lit (LInt 0)); (Bin OFloorDiv (Loc "dataLength") (Lit (LInt 8)))]) [Assign "element" (CallV (Glob "null") [] []); Expr (Meth (Loc "element") "parse" [(Loc "inputStream")] []); Expr (Meth (Attr (Loc "self") "data") "append" [(Loc "element")] [])]]))
  ].

(* opendis/dis7.py:4283-4305  class RemoveEntityPdu(SimulationManagementFamilyPdu) *)
Definition c_RemoveEntityPdu : cls := mkcls "RemoveEntityPdu" ["RemoveEntityPdu"; "SimulationManagementFamilyPdu"; "Pdu"; "PduSuperclass"]
  [
    (* opendis/dis7.py:4289 *)
    ("pduType", MAttr (LInt 12));
    (* opendis/dis7.py:4291-4295 *)
    ("__init__", MMeth (mkmeth KNormal false [("self", None); ("requestID", Some (DLit (LInt 0)))]
       [Expr (Super "RemoveEntityPdu" "__init__" [] []);
       SetAttr (Loc "self") "requestID" (Loc "requestID")]));
    (* opendis/dis7.py:4297-4300 *)
    ("serialize", MMeth (mkmeth KNormal false [("self", None); ("outputStream", None)]
       [Expr (Super "RemoveEntityPdu" "serialize" [(Loc "outputStream")] []);
       Expr (Meth (Loc "outputStream") "write_unsigned_int" [(Attr (Loc "self") "requestID")] [])]));
    (* opendis/dis7.py:4302-4305 *)
    ("parse", MMeth (mkmeth KNormal false [("self", None); ("inputStream", None)]
       [Expr (Super "RemoveEntityPdu" "parse" [(Loc "inputStream")] []);
       SetAttr (Loc "self") "requestID" (Meth (Loc "inputStream") "read_unsigned_int" [] [])]))
  ].

(* opendis/dis7.py:4308-4355  class ResupplyReceivedPdu(LogisticsFamilyPdu) *)
Definition c_ResupplyReceivedPdu : cls := mkcls "ResupplyReceivedPdu" ["ResupplyReceivedPdu"; "LogisticsFamilyPdu"; "Pdu"; "PduSuperclass"]
  [
    (* opendis/dis7.py:4313 *)
    ("pduType", MAttr (LInt 7));
    (* opendis/dis7.py:4315-4327 *)
    ("__init__", MMeth (mkmeth KNormal false [("self", None); ("receivingEntityID", Some (DLit (LNone))); ("supplyingEntityID", Some (DLit (LNone))); ("supplies", Some (DLit (LNone)))]
       [Expr (Super "ResupplyReceivedPdu" "__init__" [] []);
       SetAttr (Loc "self") "receivingEntityID" (OrE (Loc "receivingEntityID") (CallV (Glob "EntityIdentifier") [] []));
       SetAttr (Loc "self") "supplyingEntityID" (OrE (Loc "supplyingEntityID") (CallV (Glob "EntityIdentifier") [] []));
       SetAttr (Loc "self") "padding1" (Lit (LInt 0));
       SetAttr (Loc "self") "padding2" (Lit (LInt 0));
       SetAttr (Loc "self") "supplies" (OrE (Loc "supplies") (ListE []))]));
    (* opendis/dis7.py:4330-4331 *)
    ("numberOfSupplyTypes", MMeth (mkmeth KProperty false [("self", None)]
       [Return (Builtin BLen [(Attr (Loc "self") "supplies")])]));
    (* opendis/dis7.py:4333-4342 *)
    ("serialize", MMeth (mkmeth KNormal false [("self", None); ("outputStream", None)]
       [Expr (Super "ResupplyReceivedPdu" "serialize" [(Loc "outputStream")] []);
       Expr (Meth (Attr (Loc "self") "receivingEntityID") "serialize" [(Loc "outputStream")] []);
       Expr (Meth (Attr (Loc "self") "supplyingEntityID") "serialize" [(Loc "outputStream")] []);
       Expr (Meth (Loc "outputStream") "write_unsigned_byte" [(Attr (Loc "self") "numberOfSupplyTypes")] []);
       Expr (Meth (Loc "outputStream") "write_short" [(Attr (Loc "self") "padding1")] []);
       Expr (Meth (Loc "outputStream") "write_byte" [(Attr (Loc "self") "padding2")] []);
       For "anObj" (Attr (Loc "self") "supplies") [Expr (Meth (Loc "anObj") "serialize" [(Loc "outputStream")] [])]]));
    (* opendis/dis7.py:4344-4355 *)
    ("parse", MMeth (mkmeth KNormal false [("self", None); ("inputStream", None)]
       [Expr (Super "ResupplyReceivedPdu" "parse" [(Loc "inputStream")] []);
       Expr (Meth (Attr (Loc "self") "receivingEntityID") "parse" [(Loc "inputStream")] []);
       Expr (Meth (Attr (Loc "self") "supplyingEntityID") "parse" [(Loc "inputStream")] []);
       Assign "numberOfSupplyTypes" (Meth (Loc "inputStream") "read_unsigned_byte" [] []);
       SetAttr (Loc "self") "padding1" (Meth (Loc "inputStream") "read_short" [] []);
       SetAttr (Loc "self") "padding2" (Meth (Loc "inputStream") "read_byte" [] []);
       For "idx" (Builtin BRange [(Lit (LInt 0)); (Loc "numberOfSupplyTypes")]) [Assign "element" (CallV (Glob "null") [] []); Expr (Meth (Loc "element") "parse" [(Loc "inputStream")] []); Expr (Meth (Attr (Loc "self") "supplies") "append" [(Loc "element")] [])]]))
  ].

(* opendis/dis7.py:4358-4385  class WarfareFamilyPdu(Pdu) *)
Definition c_WarfareFamilyPdu : cls := mkcls "WarfareFamilyPdu" ["WarfareFamilyPdu"; "Pdu"; "PduSuperclass"]
  [
    (* opendis/dis7.py:4364 *)
    ("protocolFamily", MAttr (LInt 2));
    (* opendis/dis7.py:4366-4373 *)
    ("__init__", MMeth (mkmeth KNormal false [("self", None); ("firingEntityID", Some (DLit (LNone))); ("targetEntityID", Some (DLit (LNone)))]
       [Expr (Super "WarfareFamilyPdu" "__init__" [] []);
       SetAttr (Loc "self") "firingEntityID" (OrE (Loc "firingEntityID") (CallV (Glob "EntityIdentifier") [] []));
       SetAttr (Loc "self") "targetEntityID" (OrE (Loc "targetEntityID") (CallV (Glob "EntityIdentifier") [] []))]));
    (* opendis/dis7.py:4375-4379 *)
    ("serialize", MMeth (mkmeth KNormal false [("self", None); ("outputStream", None)]
       [Expr (Super "WarfareFamilyPdu" "serialize" [(Loc "outputStream")] []);
       Expr (Meth (Attr (Loc "self") "firingEntityID") "serialize" [(Loc "outputStream")] []);
       Expr (Meth (Attr (Loc "self") "targetEntityID") "serialize" [(Loc "outputStream")] [])]));
    (* opendis/dis7.py:4381-4385 *)
    ("parse", MMeth (mkmeth KNormal false [("self", None); ("inputStream", None)]
       [Expr (Super "WarfareFamilyPdu" "parse" [(Loc "inputStream")] []);
       Expr (Meth (Attr (Loc "self") "firingEntityID") "parse" [(Loc "inputStream")] []);
       Expr (Meth (Attr (Loc "self") "targetEntityID") "parse" [(Loc "inputStream")] [])]))
  ].

(* opendis/dis7.py:4388-4474  class CollisionElasticPdu(EntityInformationFamilyPdu) *)
Definition c_CollisionElasticPdu : cls := mkcls "CollisionElasticPdu" ["CollisionElasticPdu"; "EntityInformationFamilyPdu"; "Pdu"; "PduSuperclass"]
  [
    (* opendis/dis7.py:4394 *)
    ("pduType", MAttr (LInt 66));
    (* opendis/dis7.py:4396-4436 *)
    ("__init__", MMeth (mkmeth KNormal false [("self", None); ("issuingEntityID", Some (DLit (LNone))); ("collidingEntityID", Some (DLit (LNone))); ("collisionEventID", Some (DLit (LNone))); ("contactVelocity", Some (DLit (LNone))); ("mass", Some (DLit (LFloat 0))); ("locationOfImpact", Some (DLit (LNone))); ("collisionIntermediateResultXX", Some (DLit (LFloat 0))); ("collisionIntermediateResultXY", Some (DLit (LFloat 0))); ("collisionIntermediateResultXZ", Some (DLit (LFloat 0))); ("collisionIntermediateResultYY", Some (DLit (LFloat 0))); ("collisionIntermediateResultYZ", Some (DLit (LFloat 0))); ("collisionIntermediateResultZZ", Some (DLit (LFloat 0))); ("unitSurfaceNormal", Some (DLit (LNone))); ("coefficientOfRestitution", Some (DLit (LFloat 0)))]
       [Expr (Super "CollisionElasticPdu" "__init__" [] []);
       SetAttr (Loc "self") "issuingEntityID" (OrE (Loc "issuingEntityID") (CallV (Glob "EntityIdentifier") [] []));
       SetAttr (Loc "self") "collidingEntityID" (OrE (Loc "collidingEntityID") (CallV (Glob "EntityIdentifier") [] []));
       SetAttr (Loc "self") "collisionEventID" (OrE (Loc "collisionEventID") (CallV (Glob "EventIdentifier") [] []));
       SetAttr (Loc "self") "pad" (Lit (LInt 0));
       SetAttr (Loc "self") "contactVelocity" (OrE (Loc "contactVelocity") (CallV (Glob "Vector3Float") [] []));
       SetAttr (Loc "self") "mass" (Loc "mass");
       SetAttr (Loc "self") "locationOfImpact" (OrE (Loc "locationOfImpact") (CallV (Glob "Vector3Float") [] []));
       SetAttr (Loc "self") "collisionIntermediateResultXX" (Loc "collisionIntermediateResultXX");
       SetAttr (Loc "self") "collisionIntermediateResultXY" (Loc "collisionIntermediateResultXY");
       SetAttr (Loc "self") "collisionIntermediateResultXZ" (Loc "collisionIntermediateResultXZ");
       SetAttr (Loc "self") "collisionIntermediateResultYY" (Loc "collisionIntermediateResultYY");
       SetAttr (Loc "self") "collisionIntermediateResultYZ" (Loc "collisionIntermediateResultYZ");
       SetAttr (Loc "self") "collisionIntermediateResultZZ" (Loc "collisionIntermediateResultZZ");
       SetAttr (Loc "self") "unitSurfaceNormal" (OrE (Loc "unitSurfaceNormal") (CallV (Glob "Vector3Float") [] []));
       SetAttr (Loc "self") "coefficientOfRestitution" (Loc "coefficientOfRestitution")]));
    (* opendis/dis7.py:4438-4455 *)
    ("serialize", MMeth (mkmeth KNormal false [("self", None); ("outputStream", None)]
       [Expr (Super "CollisionElasticPdu" "serialize" [(Loc "outputStream")] []);
       Expr (Meth (Attr (Loc "self") "issuingEntityID") "serialize" [(Loc "outputStream")] []);
       Expr (Meth (Attr (Loc "self") "collidingEntityID") "serialize" [(Loc "outputStream")] []);
       Expr (Meth (Attr (Loc "self") "collisionEventID") "serialize" [(Loc "outputStream")] []);
       Expr (Meth (Loc "outputStream") "write_short" [(Attr (Loc "self") "pad")] []);
       Expr (Meth (Attr (Loc "self") "contactVelocity") "serialize" [(Loc "outputStream")] []);
       Expr (Meth (Loc "outputStream") "write_float" [(Attr (Loc "self") "mass")] []);
       Expr (Meth (Attr (Loc "self") "locationOfImpact") "serialize" [(Loc "outputStream")] []);
       Expr (Meth (Loc "outputStream") "write_float" [(Attr (Loc "self") "collisionIntermediateResultXX")] []);
       Expr (Meth (Loc "outputStream") "write_float" [(Attr (Loc "self") "collisionIntermediateResultXY")] []);
       Expr (Meth (Loc "outputStream") "write_float" [(Attr (Loc "self") "collisionIntermediateResultXZ")] []);
       Expr (Meth (Loc "outputStream") "write_float" [(Attr (Loc "self") "collisionIntermediateResultYY")] []);
       Expr (Meth (Loc "outputStream") "write_float" [(Attr (Loc "self") "collisionIntermediateResultYZ")] []);
       Expr (Meth (Loc "outputStream") "write_float" [(Attr (Loc "self") "collisionIntermediateResultZZ")] []);
       Expr (Meth (Attr (Loc "self") "unitSurfaceNormal") "serialize" [(Loc "outputStream")] []);
       Expr (Meth (Loc "outputStream") "write_float" [(Attr (Loc "self") "coefficientOfRestitution")] [])]));
    (* opendis/dis7.py:4457-4474 *)
    ("parse", MMeth (mkmeth KNormal false [("self", None); ("inputStream", None)]
       [Expr (Super "CollisionElasticPdu" "parse" [(Loc "inputStream")] []);
       Expr (Meth (Attr (Loc "self") "issuingEntityID") "parse" [(Loc "inputStream")] []);
       Expr (Meth (Attr (Loc "self") "collidingEntityID") "parse" [(Loc "inputStream")] []);
       Expr (Meth (Attr (Loc "self") "collisionEventID") "parse" [(Loc "inputStream")] []);
       SetAttr (Loc "self") "pad" (Meth (Loc "inputStream") "read_short" [] []);
       Expr (Meth (Attr (Loc "self") "contactVelocity") "parse" [(Loc "inputStream")] []);
       SetAttr (Loc "self") "mass" (Meth (Loc "inputStream") "read_float" [] []);
       Expr (Meth (Attr (Loc "self") "locationOfImpact") "parse" [(Loc "inputStream")] []);
       SetAttr (Loc "self") "collisionIntermediateResultXX" (Meth (Loc "inputStream") "read_float" [] []);
       SetAttr (Loc "self") "collisionIntermediateResultXY" (Meth (Loc "inputStream") "read_float" [] []);
       SetAttr (Loc "self") "collisionIntermediateResultXZ" (Meth (Loc "inputStream") "read_float" [] []);
       SetAttr (Loc "self") "collisionIntermediateResultYY" (Meth (Loc "inputStream") "read_float" [] []);
       SetAttr (Loc "self") "collisionIntermediateResultYZ" (Meth (Loc "inputStream") "read_float" [] []);
       SetAttr (Loc "self") "collisionIntermediateResultZZ" (Meth (Loc "inputStream") "read_float" [] []);
       Expr (Meth (Attr (Loc "self") "unitSurfaceNormal") "parse" [(Loc "inputStream")] []);
       SetAttr (Loc "self") "coefficientOfRestitution" (Meth (Loc "inputStream") "read_float" [] [])]))
  ].

(* opendis/dis7.py:4477-4527  class ActionRequestPdu(SimulationManagementFamilyPdu) *)
Definition c_ActionRequestPdu : cls := mkcls "ActionRequestPdu" ["ActionRequestPdu"; "SimulationManagementFamilyPdu"; "Pdu"; "PduSuperclass"]
  [
    (* opendis/dis7.py:4483 *)
    ("pduType", MAttr (LInt 16));
    (* opendis/dis7.py:4485-4497 *)
    ("__init__", MMeth (mkmeth KNormal false [("self", None); ("requestID", Some (DLit (LInt 0))); ("actionID", Some (DLit (LInt 0))); ("fixedDatumRecords", Some (DLit (LNone))); ("variableDatumRecords", Some (DLit (LNone)))]
       [Expr (Super "ActionRequestPdu" "__init__" [] []);
       SetAttr (Loc "self") "requestID" (Loc "requestID");
       SetAttr (Loc "self") "actionID" (Loc "actionID");
       SetAttr (Loc "self") "_datums" (CallV (Glob "DatumSpecification") [(OrE (Loc "fixedDatumRecords") (ListE [])); (OrE (Loc "variableDatumRecords") (ListE []))] [])]));
    (* opendis/dis7.py:4500-4501 *)
    ("numberOfFixedDatumRecords", MMeth (mkmeth KProperty false [("self", None)]
       [Return (Attr (Attr (Loc "self") "_datums") "numberOfFixedDatumRecords")]));
    (* opendis/dis7.py:4504-4505 *)
    ("numberOfVariableDatumRecords", MMeth (mkmeth KProperty false [("self", None)]
       [Return (Attr (Attr (Loc "self") "_datums") "numberOfVariableDatumRecords")]));
    (* opendis/dis7.py:4508-4509 *)
    ("fixedDatumRecords", MMeth (mkmeth KProperty false [("self", None)]
       [Return (Attr (Attr (Loc "self") "_datums") "fixedDatumRecords")]));
    (* opendis/dis7.py:4512-4513 *)
    ("variableDatumRecords", MMeth (mkmeth KProperty false [("self", None)]
       [Return (Attr (Attr (Loc "self") "_datums") "variableDatumRecords")]));
    (* opendis/dis7.py:4515-4520 *)
    ("serialize", MMeth (mkmeth KNormal false [("self", None); ("outputStream", None)]
       [Expr (Super "ActionRequestPdu" "serialize" [(Loc "outputStream")] []);
       Expr (Meth (Loc "outputStream") "write_unsigned_int" [(Attr (Loc "self") "requestID")] []);
       Expr (Meth (Loc "outputStream") "write_unsigned_int" [(Attr (Loc "self") "actionID")] []);
       Expr (Meth (Attr (Loc "self") "_datums") "serialize" [(Loc "outputStream")] [])]));
    (* opendis/dis7.py:4522-4527 *)
    ("parse", MMeth (mkmeth KNormal false [("self", None); ("inputStream", None)]
       [Expr (Super "ActionRequestPdu" "parse" [(Loc "inputStream")] []);
       SetAttr (Loc "self") "requestID" (Meth (Loc "inputStream") "read_unsigned_int" [] []);
       SetAttr (Loc "self") "actionID" (Meth (Loc "inputStream") "read_unsigned_int" [] []);
       Expr (Meth (Attr (Loc "self") "_datums") "parse" [(Loc "inputStream")] [])]))
  ].

(* opendis/dis7.py:4530-4562  class AcknowledgePdu(SimulationManagementFamilyPdu) *)
Definition c_AcknowledgePdu : cls := mkcls "AcknowledgePdu" ["AcknowledgePdu"; "SimulationManagementFamilyPdu"; "Pdu"; "PduSuperclass"]
  [
    (* opendis/dis7.py:4536 *)
    ("pduType", MAttr (LInt 15));
    (* opendis/dis7.py:4538-4548 *)
    ("__init__", MMeth (mkmeth KNormal false [("self", None); ("acknowledgeFlag", Some (DLit (LInt 0))); ("responseFlag", Some (DLit (LInt 0))); ("requestID", Some (DLit (LInt 0)))]
       [Expr (Super "AcknowledgePdu" "__init__" [] []);
       SetAttr (Loc "self") "acknowledgeFlag" (Loc "acknowledgeFlag");
       SetAttr (Loc "self") "responseFlag" (Loc "responseFlag");
       SetAttr (Loc "self") "requestID" (Loc "requestID")]));
    (* opendis/dis7.py:4550-4555 *)
    ("serialize", MMeth (mkmeth KNormal false [("self", None); ("outputStream", None)]
       [Expr (Super "AcknowledgePdu" "serialize" [(Loc "outputStream")] []);
       Expr (Meth (Loc "outputStream") "write_unsigned_short" [(Attr (Loc "self") "acknowledgeFlag")] []);
       Expr (Meth (Loc "outputStream") "write_unsigned_short" [(Attr (Loc "self") "responseFlag")] []);
       Expr (Meth (Loc "outputStream") "write_unsigned_int" [(Attr (Loc "self") "requestID")] [])]));
    (* opendis/dis7.py:4557-4562 *)
    ("parse", MMeth (mkmeth KNormal false [("self", None); ("inputStream", None)]
       [Expr (Super "AcknowledgePdu" "parse" [(Loc "inputStream")] []);
       SetAttr (Loc "self") "acknowledgeFlag" (Meth (Loc "inputStream") "read_unsigned_short" [] []);
       SetAttr (Loc "self") "responseFlag" (Meth (Loc "inputStream") "read_unsigned_short" [] []);
       SetAttr (Loc "self") "requestID" (Meth (Loc "inputStream") "read_unsigned_int" [] [])]))
  ].

(* opendis/dis7.py:4565-4581  class DistributedEmissionsFamilyPdu(Pdu) *)
Definition c_DistributedEmissionsFamilyPdu : cls := mkcls "DistributedEmissionsFamilyPdu" ["DistributedEmissionsFamilyPdu"; "Pdu"; "PduSuperclass"]
  [
    (* opendis/dis7.py:4570 *)
    ("protocolFamily", MAttr (LInt 6));
    (* opendis/dis7.py:4572-4573 *)
    ("__init__", MMeth (mkmeth KNormal false [("self", None)]
       [Expr (Super "DistributedEmissionsFamilyPdu" "__init__" [] [])]));
    (* opendis/dis7.py:4575-4577 *)
    ("serialize", MMeth (mkmeth KNormal false [("self", None); ("outputStream", None)]
       [Expr (Super "DistributedEmissionsFamilyPdu" "serialize" [(Loc "outputStream")] [])]));
    (* opendis/dis7.py:4579-4581 *)
    ("parse", MMeth (mkmeth KNormal false [("self", None); ("inputStream", None)]
       [Expr (Super "DistributedEmissionsFamilyPdu" "parse" [(Loc "inputStream")] [])]))
  ].

(* opendis/dis7.py:4584-4610  class SimulationManagementWithReliabilityFamilyPdu(Pdu) *)
Definition c_SimulationManagementWithReliabilityFamilyPdu : cls := mkcls "SimulationManagementWithReliabilityFamilyPdu" ["SimulationManagementWithReliabilityFamilyPdu"; "Pdu"; "PduSuperclass"]
  [
    (* opendis/dis7.py:4589 *)
    ("protocolFamily", MAttr (LInt 10));
    (* opendis/dis7.py:4591-4598 *)
    ("__init__", MMeth (mkmeth KNormal false [("self", None); ("originatingEntityID", Some (DLit (LNone))); ("receivingEntityID", Some (DLit (LNone)))]
       [Expr (Super "SimulationManagementWithReliabilityFamilyPdu" "__init__" [] []);
       SetAttr (Loc "self") "originatingEntityID" (OrE (Loc "originatingEntityID") (CallV (Glob "EntityIdentifier") [] []));
       SetAttr (Loc "self") "receivingEntityID" (OrE (Loc "receivingEntityID") (CallV (Glob "EntityIdentifier") [] []))]));
    (* opendis/dis7.py:4600-4604 *)
    ("serialize", MMeth (mkmeth KNormal false [("self", None); ("outputStream", None)]
       [Expr (Super "SimulationManagementWithReliabilityFamilyPdu" "serialize" [(Loc "outputStream")] []);
       Expr (Meth (Attr (Loc "self") "originatingEntityID") "serialize" [(Loc "outputStream")] []);
       Expr (Meth (Attr (Loc "self") "receivingEntityID") "serialize" [(Loc "outputStream")] [])]));
    (* opendis/dis7.py:4606-4610 *)
    ("parse", MMeth (mkmeth KNormal false [("self", None); ("inputStream", None)]
       [Expr (Super "SimulationManagementWithReliabilityFamilyPdu" "parse" [(Loc "inputStream")] []);
       Expr (Meth (Attr (Loc "self") "originatingEntityID") "parse" [(Loc "inputStream")] []);
       Expr (Meth (Attr (Loc "self") "receivingEntityID") "parse" [(Loc "inputStream")] [])]))
  ].

(* opendis/dis7.py:4613-4675  class ActionRequestReliablePdu(SimulationManagementWithReliabilityFamilyPdu) *)
Definition c_ActionRequestReliablePdu : cls := mkcls "ActionRequestReliablePdu" ["ActionRequestReliablePdu"; "SimulationManagementWithReliabilityFamilyPdu"; "Pdu"; "PduSuperclass"]
  [
    (* opendis/dis7.py:4619 *)
    ("pduType", MAttr (LInt 56));
    (* opendis/dis7.py:4621-4637 *)
    ("__init__", MMeth (mkmeth KNormal false [("self", None); ("requiredReliabilityService", Some (DLit (LInt 0))); ("requestID", Some (DLit (LInt 0))); ("actionID", Some (DLit (LInt 0))); ("fixedDatumRecords", Some (DLit (LNone))); ("variableDatumRecords", Some (DLit (LNone)))]
       [Expr (Super "ActionRequestReliablePdu" "__init__" [] []);
       SetAttr (Loc "self") "requiredReliabilityService" (Loc "requiredReliabilityService");
       SetAttr (Loc "self") "pad1" (Lit (LInt 0));
       SetAttr (Loc "self") "pad2" (Lit (LInt 0));
       SetAttr (Loc "self") "requestID" (Loc "requestID");
       SetAttr (Loc "self") "actionID" (Loc "actionID");
       SetAttr (Loc "self") "pad3" (Lit (LInt 0));
       SetAttr (Loc "self") "_datums" (CallV (Glob "DatumSpecification") [(OrE (Loc "fixedDatumRecords") (ListE [])); (OrE (Loc "variableDatumRecords") (ListE []))] [])]));
    (* opendis/dis7.py:4640-4641 *)
    ("numberOfFixedDatumRecords", MMeth (mkmeth KProperty false [("self", None)]
       [Return (Attr (Attr (Loc "self") "_datums") "numberOfFixedDatumRecords")]));
    (* opendis/dis7.py:4644-4645 *)
    ("numberOfVariableDatumRecords", MMeth (mkmeth KProperty false [("self", None)]
       [Return (Attr (Attr (Loc "self") "_datums") "numberOfVariableDatumRecords")]));
    (* opendis/dis7.py:4648-4649 *)
    ("fixedDatumRecords", MMeth (mkmeth KProperty false [("self", None)]
       [Return (Attr (Attr (Loc "self") "_datums") "fixedDatumRecords")]));
    (* opendis/dis7.py:4652-4653 *)
    ("variableDatumRecords", MMeth (mkmeth KProperty false [("self", None)]
       [Return (Attr (Attr (Loc "self") "_datums") "variableDatumRecords")]));
    (* opendis/dis7.py:4655-4664 *)
    ("serialize", MMeth (mkmeth KNormal false [("self", None); ("outputStream", None)]
       [Expr (Super "ActionRequestReliablePdu" "serialize" [(Loc "outputStream")] []);
       Expr (Meth (Loc "outputStream") "write_unsigned_byte" [(Attr (Loc "self") "requiredReliabilityService")] []);
       Expr (Meth (Loc "outputStream") "write_unsigned_short" [(Attr (Loc "self") "pad1")] []);
       Expr (Meth (Loc "outputStream") "write_unsigned_byte" [(Attr (Loc "self") "pad2")] []);
       Expr (Meth (Loc "outputStream") "write_unsigned_int" [(Attr (Loc "self") "requestID")] []);
       Expr (Meth (Loc "outputStream") "write_unsigned_int" [(Attr (Loc "self") "actionID")] []);
       Expr (Meth (Loc "outputStream") "write_int" [(Attr (Loc "self") "pad3")] []);
       Expr (Meth (Attr (Loc "self") "_datums") "serialize" [(Loc "outputStream")] [])]));
    (* opendis/dis7.py:4666-4675 *)
    ("parse", MMeth (mkmeth KNormal false [("self", None); ("inputStream", None)]
       [Expr (Super "ActionRequestReliablePdu" "parse" [(Loc "inputStream")] []);
       SetAttr (Loc "self") "requiredReliabilityService" (Meth (Loc "inputStream") "read_unsigned_byte" [] []);
       SetAttr (Loc "self") "pad1" (Meth (Loc "inputStream") "read_unsigned_short" [] []);
       SetAttr (Loc "self") "pad2" (Meth (Loc "inputStream") "read_unsigned_byte" [] []);
       SetAttr (Loc "self") "requestID" (Meth (Loc "inputStream") "read_unsigned_int" [] []);
       SetAttr (Loc "self") "actionID" (Meth (Loc "inputStream") "read_unsigned_int" [] []);
       SetAttr (Loc "self") "pad3" (Meth (Loc "inputStream") "read_int" [] []);
       Expr (Meth (Attr (Loc "self") "_datums") "parse" [(Loc "inputStream")] [])]))
  ].

(* opendis/dis7.py:4678-4753  class DesignatorPdu(DistributedEmissionsFamilyPdu) *)
Definition c_DesignatorPdu : cls := mkcls "DesignatorPdu" ["DesignatorPdu"; "DistributedEmissionsFamilyPdu"; "Pdu"; "PduSuperclass"]
  [
    (* opendis/dis7.py:4683 *)
    ("pduType", MAttr (LInt 24));
    (* opendis/dis7.py:4685-4721 *)
    ("__init__", MMeth (mkmeth KNormal false [("self", None); ("designatingEntityID", Some (DLit (LNone))); ("codeName", Some (DLit (LInt 0))); ("designatedEntityID", Some (DLit (LNone))); ("designatorCode", Some (DLit (LInt 0))); ("designatorPower", Some (DLit (LFloat 0))); ("designatorWavelength", Some (DLit (LFloat 0))); ("designatorSpotWrtDesignated", Some (DLit (LNone))); ("designatorSpotLocation", Some (DLit (LNone))); ("deadReckoningAlgorithm", Some (DLit (LInt 0))); ("entityLinearAcceleration", Some (DLit (LNone)))]
       [Expr (Super "DesignatorPdu" "__init__" [] []);
       SetAttr (Loc "self") "designatingEntityID" (OrE (Loc "designatingEntityID") (CallV (Glob "EntityIdentifier") [] []));
       SetAttr (Loc "self") "codeName" (Loc "codeName");
       SetAttr (Loc "self") "designatedEntityID" (OrE (Loc "designatedEntityID") (CallV (Glob "EntityIdentifier") [] []));
       SetAttr (Loc "self") "designatorCode" (Loc "designatorCode");
       SetAttr (Loc "self") "designatorPower" (Loc "designatorPower");
       SetAttr (Loc "self") "designatorWavelength" (Loc "designatorWavelength");
       SetAttr (Loc "self") "designatorSpotWrtDesignated" (OrE (Loc "designatorSpotWrtDesignated") (CallV (Glob "Vector3Float") [] []));
       SetAttr (Loc "self") "designatorSpotLocation" (OrE (Loc "designatorSpotLocation") (CallV (Glob "WorldCoordinates") [] []));
       SetAttr (Loc "self") "deadReckoningAlgorithm" (Loc "deadReckoningAlgorithm");
       SetAttr (Loc "self") "padding1" (Lit (LInt 0));
       SetAttr (Loc "self") "padding2" (Lit (LInt 0));
       SetAttr (Loc "self") "entityLinearAcceleration" (OrE (Loc "entityLinearAcceleration") (CallV (Glob "Vector3Float") [] []))]));
    (* opendis/dis7.py:4723-4737 *)
    ("serialize", MMeth (mkmeth KNormal false [("self", None); ("outputStream", None)]
       [Expr (Super "DesignatorPdu" "serialize" [(Loc "outputStream")] []);
       Expr (Meth (Attr (Loc "self") "designatingEntityID") "serialize" [(Loc "outputStream")] []);
       Expr (Meth (Loc "outputStream") "write_unsigned_short" [(Attr (Loc "self") "codeName")] []);
       Expr (Meth (Attr (Loc "self") "designatedEntityID") "serialize" [(Loc "outputStream")] []);
       Expr (Meth (Loc "outputStream") "write_unsigned_short" [(Attr (Loc "self") "designatorCode")] []);
       Expr (Meth (Loc "outputStream") "write_float" [(Attr (Loc "self") "designatorPower")] []);
       Expr (Meth (Loc "outputStream") "write_float" [(Attr (Loc "self") "designatorWavelength")] []);
       Expr (Meth (Attr (Loc "self") "designatorSpotWrtDesignated") "serialize" [(Loc "outputStream")] []);
       Expr (Meth (Attr (Loc "self") "designatorSpotLocation") "serialize" [(Loc "outputStream")] []);
       Expr (Meth (Loc "outputStream") "write_byte" [(Attr (Loc "self") "deadReckoningAlgorithm")] []);
       Expr (Meth (Loc "outputStream") "write_unsigned_short" [(Attr (Loc "self") "padding1")] []);
       Expr (Meth (Loc "outputStream") "write_byte" [(Attr (Loc "self") "padding2")] []);
       Expr (Meth (Attr (Loc "self") "entityLinearAcceleration") "serialize" [(Loc "outputStream")] [])]));
    (* opendis/dis7.py:4739-4753 *)
    ("parse", MMeth (mkmeth KNormal false [("self", None); ("inputStream", None)]
       [Expr (Super "DesignatorPdu" "parse" [(Loc "inputStream")] []);
       Expr (Meth (Attr (Loc "self") "designatingEntityID") "parse" [(Loc "inputStream")] []);
       SetAttr (Loc "self") "codeName" (Meth (Loc "inputStream") "read_unsigned_short" [] []);
       Expr (Meth (Attr (Loc "self") "designatedEntityID") "parse" [(Loc "inputStream")] []);
       SetAttr (Loc "self") "designatorCode" (Meth (Loc "inputStream") "read_unsigned_short" [] []);
       SetAttr (Loc "self") "designatorPower" (Meth (Loc "inputStream") "read_float" [] []);
       SetAttr (Loc "self") "designatorWavelength" (Meth (Loc "inputStream") "read_float" [] []);
       Expr (Meth (Attr (Loc "self") "designatorSpotWrtDesignated") "parse" [(Loc "inputStream")] []);
       Expr (Meth (Attr (Loc "self") "designatorSpotLocation") "parse" [(Loc "inputStream")] []);
       SetAttr (Loc "self") "deadReckoningAlgorithm" (Meth (Loc "inputStream") "read_byte" [] []);
       SetAttr (Loc "self") "padding1" (Meth (Loc "inputStream") "read_unsigned_short" [] []);
       SetAttr (Loc "self") "padding2" (Meth (Loc "inputStream") "read_byte" [] []);
       Expr (Meth (Attr (Loc "self") "entityLinearAcceleration") "parse" [(Loc "inputStream")] [])]))
  ].

(* opendis/dis7.py:4756-4795  class StopFreezePdu(SimulationManagementFamilyPdu) *)
Definition c_StopFreezePdu : cls := mkcls "StopFreezePdu" ["StopFreezePdu"; "SimulationManagementFamilyPdu"; "Pdu"; "PduSuperclass"]
  [
    (* opendis/dis7.py:4761 *)
    ("pduType", MAttr (LInt 14));
    (* opendis/dis7.py:4763-4777 *)
    ("__init__", MMeth (mkmeth KNormal false [("self", None); ("realWorldTime", Some (DLit (LNone))); ("reason", Some (DLit (LInt 0))); ("frozenBehavior", Some (DLit (LInt 0))); ("requestID", Some (DLit (LInt 0)))]
       [Expr (Super "StopFreezePdu" "__init__" [] []);
       SetAttr (Loc "self") "realWorldTime" (OrE (Loc "realWorldTime") (CallV (Glob "ClockTime") [] []));
       SetAttr (Loc "self") "reason" (Loc "reason");
       SetAttr (Loc "self") "frozenBehavior" (Loc "frozenBehavior");
       SetAttr (Loc "self") "padding1" (Lit (LInt 0));
       SetAttr (Loc "self") "requestID" (Loc "requestID")]));
    (* opendis/dis7.py:4779-4786 *)
    ("serialize", MMeth (mkmeth KNormal false [("self", None); ("outputStream", None)]
       [Expr (Super "StopFreezePdu" "serialize" [(Loc "outputStream")] []);
       Expr (Meth (Attr (Loc "self") "realWorldTime") "serialize" [(Loc "outputStream")] []);
       Expr (Meth (Loc "outputStream") "write_unsigned_byte" [(Attr (Loc "self") "reason")] []);
       Expr (Meth (Loc "outputStream") "write_unsigned_byte" [(Attr (Loc "self") "frozenBehavior")] []);
       Expr (Meth (Loc "outputStream") "write_short" [(Attr (Loc "self") "padding1")] []);
       Expr (Meth (Loc "outputStream") "write_unsigned_int" [(Attr (Loc "self") "requestID")] [])]));
    (* opendis/dis7.py:4788-4795 *)
    ("parse", MMeth (mkmeth KNormal false [("self", None); ("inputStream", None)]
       [Expr (Super "StopFreezePdu" "parse" [(Loc "inputStream")] []);
       Expr (Meth (Attr (Loc "self") "realWorldTime") "parse" [(Loc "inputStream")] []);
       SetAttr (Loc "self") "reason" (Meth (Loc "inputStream") "read_unsigned_byte" [] []);
       SetAttr (Loc "self") "frozenBehavior" (Meth (Loc "inputStream") "read_unsigned_byte" [] []);
       SetAttr (Loc "self") "padding1" (Meth (Loc "inputStream") "read_short" [] []);
       SetAttr (Loc "self") "requestID" (Meth (Loc "inputStream") "read_unsigned_int" [] [])]))
  ].

(* opendis/dis7.py:4798-4887  class EntityStatePdu(EntityInformationFamilyPdu) *)
Definition c_EntityStatePdu : cls := mkcls "EntityStatePdu" ["EntityStatePdu"; "EntityInformationFamilyPdu"; "Pdu"; "PduSuperclass"]
  [
    (* opendis/dis7.py:4803 *)
    ("pduType", MAttr (LInt 1));
    (* opendis/dis7.py:4805-4842 *)
    ("__init__", MMeth (mkmeth KNormal false [("self", None); ("entityID", Some (DLit (LNone))); ("forceId", Some (DLit (LInt 0))); ("entityType", Some (DLit (LNone))); ("alternativeEntityType", Some (DLit (LNone))); ("entityLinearVelocity", Some (DLit (LNone))); ("entityLocation", Some (DLit (LNone))); ("entityOrientation", Some (DLit (LNone))); ("entityAppearance", Some (DLit (LInt 0))); ("deadReckoningParameters", Some (DLit (LNone))); ("marking", Some (DLit (LNone))); ("capabilities", Some (DLit (LInt 0))); ("variableParameters", Some (DLit (LNone)))]
       [Expr (Super "EntityStatePdu" "__init__" [] []);
       SetAttr (Loc "self") "entityID" (OrE (Loc "entityID") (CallV (Glob "EntityIdentifier") [] []));
       SetAttr (Loc "self") "forceId" (Loc "forceId");
       SetAttr (Loc "self") "entityType" (OrE (Loc "entityType") (CallV (Glob "EntityType") [] []));
       SetAttr (Loc "self") "alternativeEntityType" (OrE (Loc "alternativeEntityType") (CallV (Glob "EntityType") [] []));
       SetAttr (Loc "self") "entityLinearVelocity" (OrE (Loc "entityLinearVelocity") (CallV (Glob "Vector3Float") [] []));
       SetAttr (Loc "self") "entityLocation" (OrE (Loc "entityLocation") (CallV (Glob "WorldCoordinates") [] []));
       SetAttr (Loc "self") "entityOrientation" (OrE (Loc "entityOrientation") (CallV (Glob "EulerAngles") [] []));
       SetAttr (Loc "self") "entityAppearance" (Loc "entityAppearance");
       SetAttr (Loc "self") "deadReckoningParameters" (OrE (Loc "deadReckoningParameters") (CallV (Glob "DeadReckoningParameters") [] []));
       SetAttr (Loc "self") "marking" (OrE (Loc "marking") (CallV (Glob "EntityMarking") [] []));
       SetAttr (Loc "self") "capabilities" (Loc "capabilities");
       SetAttr (Loc "self") "variableParameters" (OrE (Loc "variableParameters") (ListE []))]));
    (* opendis/dis7.py:4845-4849 *)
    ("numberOfVariableParameters", MMeth (mkmeth KProperty false [("self", None)]
       [Return (Builtin BLen [(Attr (Loc "self") "variableParameters")])]));
    (* opendis/dis7.py:4851-4867 *)
    ("serialize", MMeth (mkmeth KNormal false [("self", None); ("outputStream", None)]
       [Expr (Super "EntityStatePdu" "serialize" [(Loc "outputStream")] []);
       Expr (Meth (Attr (Loc "self") "entityID") "serialize" [(Loc "outputStream")] []);
       Expr (Meth (Loc "outputStream") "write_unsigned_byte" [(Attr (Loc "self") "forceId")] []);
       Expr (Meth (Loc "outputStream") "write_unsigned_byte" [(Attr (Loc "self") "numberOfVariableParameters")] []);
       Expr (Meth (Attr (Loc "self") "entityType") "serialize" [(Loc "outputStream")] []);
       Expr (Meth (Attr (Loc "self") "alternativeEntityType") "serialize" [(Loc "outputStream")] []);
       Expr (Meth (Attr (Loc "self") "entityLinearVelocity") "serialize" [(Loc "outputStream")] []);
       Expr (Meth (Attr (Loc "self") "entityLocation") "serialize" [(Loc "outputStream")] []);
       Expr (Meth (Attr (Loc "self") "entityOrientation") "serialize" [(Loc "outputStream")] []);
       Expr (Meth (Loc "outputStream") "write_unsigned_int" [(Attr (Loc "self") "entityAppearance")] []);
       Expr (Meth (Attr (Loc "self") "deadReckoningParameters") "serialize" [(Loc "outputStream")] []);
       Expr (Meth (Attr (Loc "self") "marking") "serialize" [(Loc "outputStream")] []);
       Expr (Meth (Loc "outputStream") "write_unsigned_int" [(Attr (Loc "self") "capabilities")] []);
       For "anObj" (Attr (Loc "self") "variableParameters") [Expr (Meth (Loc "anObj") "serialize" [(Loc "outputStream")] [])]]));
    (* opendis/dis7.py:4869-4887 *)
    ("parse", MMeth (mkmeth KNormal false [("self", None); ("inputStream", None)]
       [Expr (Super "EntityStatePdu" "parse" [(Loc "inputStream")] []);
       Expr (Meth (Attr (Loc "self") "entityID") "parse" [(Loc "inputStream")] []);
       SetAttr (Loc "self") "forceId" (Meth (Loc "inputStream") "read_unsigned_byte" [] []);
       Assign "numberOfVariableParameters" (Meth (Loc "inputStream") "read_unsigned_byte" [] []);
       Expr (Meth (Attr (Loc "self") "entityType") "parse" [(Loc "inputStream")] []);
       Expr (Meth (Attr (Loc "self") "alternativeEntityType") "parse" [(Loc "inputStream")] []);
       Expr (Meth (Attr (Loc "self") "entityLinearVelocity") "parse" [(Loc "inputStream")] []);
       Expr (Meth (Attr (Loc "self") "entityLocation") "parse" [(Loc "inputStream")] []);
       Expr (Meth (Attr (Loc "self") "entityOrientation") "parse" [(Loc "inputStream")] []);
       SetAttr (Loc "self") "entityAppearance" (Meth (Loc "inputStream") "read_unsigned_int" [] []);
       Expr (Meth (Attr (Loc "self") "deadReckoningParameters") "parse" [(Loc "inputStream")] []);
       Expr (Meth (Attr (Loc "self") "marking") "parse" [(Loc "inputStream")] []);
       SetAttr (Loc "self") "capabilities" (Meth (Loc "inputStream") "read_unsigned_int" [] []);
       For "idx" (Builtin BRange [(Lit (LInt 0)); (Loc "numberOfVariableParameters")]) [Assign "element" (CallV (Glob "VariableParameter") [] []); Expr (Meth (Loc "element") "parse" [(Loc "inputStream")] []); Expr (Meth (Attr (Loc "self") "variableParameters") "append" [(Loc "element")] [])]]))
  ].

(* opendis/dis7.py:4890-4906  class EntityManagementFamilyPdu(Pdu) *)
Definition c_EntityManagementFamilyPdu : cls := mkcls "EntityManagementFamilyPdu" ["EntityManagementFamilyPdu"; "Pdu"; "PduSuperclass"]
  [
    (* opendis/dis7.py:4895 *)
    ("protocolFamily", MAttr (LInt 7));
    (* opendis/dis7.py:4897-4898 *)
    ("__init__", MMeth (mkmeth KNormal false [("self", None)]
       [Expr (Super "EntityManagementFamilyPdu" "__init__" [] [])]));
    (* opendis/dis7.py:4900-4902 *)
    ("serialize", MMeth (mkmeth KNormal false [("self", None); ("outputStream", None)]
       [Expr (Super "EntityManagementFamilyPdu" "serialize" [(Loc "outputStream")] [])]));
    (* opendis/dis7.py:4904-4906 *)
    ("parse", MMeth (mkmeth KNormal false [("self", None); ("inputStream", None)]
       [Expr (Super "EntityManagementFamilyPdu" "parse" [(Loc "inputStream")] [])]))
  ].

(* opendis/dis7.py:4909-4940  class StartResumePdu(SimulationManagementFamilyPdu) *)
Definition c_StartResumePdu : cls := mkcls "StartResumePdu" ["StartResumePdu"; "SimulationManagementFamilyPdu"; "Pdu"; "PduSuperclass"]
  [
    (* opendis/dis7.py:4914 *)
    ("pduType", MAttr (LInt 13));
    (* opendis/dis7.py:4916-4926 *)
    ("__init__", MMeth (mkmeth KNormal false [("self", None); ("realWorldTime", Some (DLit (LNone))); ("simulationTime", Some (DLit (LNone))); ("requestID", Some (DLit (LInt 0)))]
       [Expr (Super "StartResumePdu" "__init__" [] []);
       SetAttr (Loc "self") "realWorldTime" (OrE (Loc "realWorldTime") (CallV (Glob "ClockTime") [] []));
       SetAttr (Loc "self") "simulationTime" (OrE (Loc "simulationTime") (CallV (Glob "ClockTime") [] []));
       SetAttr (Loc "self") "requestID" (Loc "requestID")]));
    (* opendis/dis7.py:4928-4933 *)
    ("serialize", MMeth (mkmeth KNormal false [("self", None); ("outputStream", None)]
       [Expr (Super "StartResumePdu" "serialize" [(Loc "outputStream")] []);
       Expr (Meth (Attr (Loc "self") "realWorldTime") "serialize" [(Loc "outputStream")] []);
       Expr (Meth (Attr (Loc "self") "simulationTime") "serialize" [(Loc "outputStream")] []);
       Expr (Meth (Loc "outputStream") "write_unsigned_int" [(Attr (Loc "self") "requestID")] [])]));
    (* opendis/dis7.py:4935-4940 *)
    ("parse", MMeth (mkmeth KNormal false [("self", None); ("inputStream", None)]
       [Expr (Super "StartResumePdu" "parse" [(Loc "inputStream")] []);
       Expr (Meth (Attr (Loc "self") "realWorldTime") "parse" [(Loc "inputStream")] []);
       Expr (Meth (Attr (Loc "self") "simulationTime") "parse" [(Loc "inputStream")] []);
       SetAttr (Loc "self") "requestID" (Meth (Loc "inputStream") "read_unsigned_int" [] [])]))
  ].

(* opendis/dis7.py:4943-5116  class TransmitterPdu(RadioCommunicationsFamilyPdu) *)
Definition c_TransmitterPdu : cls := mkcls "TransmitterPdu" ["TransmitterPdu"; "RadioCommunicationsFamilyPdu"; "Pdu"; "PduSuperclass"]
  [
    (* opendis/dis7.py:4950 *)
    ("pduType", MAttr (LInt 25));
    (* opendis/dis7.py:4952-4996 *)
    ("__init__", MMeth (mkmeth KNormal false [("self", None); ("radioReferenceID", Some (DLit (LNone))); ("radioNumber", Some (DLit (LInt 0))); ("radioEntityType", Some (DLit (LNone))); ("transmitState", Some (DLit (LInt 0))); ("inputSource", Some (DLit (LInt 0))); ("antennaLocation", Some (DLit (LNone))); ("relativeAntennaLocation", Some (DLit (LNone))); ("antennaPatternType", Some (DLit (LInt 0))); ("frequency", Some (DLit (LInt 0))); ("transmitFrequencyBandwidth", Some (DLit (LFloat 0))); ("power", Some (DLit (LFloat 0))); ("modulationType", Some (DLit (LNone))); ("cryptoSystem", Some (DLit (LInt 0))); ("cryptoKeyId", Some (DLit (LInt 0))); ("modulationParameters", Some (DLit (LNone))); ("antennaPattern", Some (DLit (LNone))); ("variableTransmitterParameters", Some (DLit (LNone)))]
       [Expr (Super "TransmitterPdu" "__init__" [] []);
       SetAttr (Loc "self") "radioReferenceID" (OrE (Loc "radioReferenceID") (CallV (Glob "EntityIdentifier") [] []));
       SetAttr (Loc "self") "radioNumber" (Loc "radioNumber");
       SetAttr (Loc "self") "radioEntityType" (OrE (Loc "radioEntityType") (CallV (Glob "EntityType") [] []));
       SetAttr (Loc "self") "transmitState" (Loc "transmitState");
       SetAttr (Loc "self") "inputSource" (Loc "inputSource");
       SetAttr (Loc "self") "antennaLocation" (OrE (Loc "antennaLocation") (CallV (Glob "WorldCoordinates") [] []));
       SetAttr (Loc "self") "relativeAntennaLocation" (OrE (Loc "relativeAntennaLocation") (CallV (Glob "Vector3Float") [] []));
       SetAttr (Loc "self") "antennaPatternType" (Loc "antennaPatternType");
       SetAttr (Loc "self") "frequency" (Loc "frequency");
       SetAttr (Loc "self") "transmitFrequencyBandwidth" (Loc "transmitFrequencyBandwidth");
       SetAttr (Loc "self") "power" (Loc "power");
       SetAttr (Loc "self") "modulationType" (OrE (Loc "modulationType") (CallV (Glob "ModulationType") [] []));
       SetAttr (Loc "self") "cryptoSystem" (Loc "cryptoSystem");
       SetAttr (Loc "self") "cryptoKeyId" (Loc "cryptoKeyId");
       SetAttr (Loc "self") "padding2" (Lit (LInt 0));
       SetAttr (Loc "self") "padding3" (Lit (LInt 0));
       SetAttr (Loc "self") "modulationParameters" (Loc "modulationParameters");
       SetAttr (Loc "self") "antennaPattern" (Loc "antennaPattern");
       SetAttr (Loc "self") "variableTransmitterParameters" (IfE (Loc "variableTransmitterParameters") (Builtin BList [(Loc "variableTransmitterParameters")]) (ListE []))]));
    (* opendis/dis7.py:4999-5003 *)
    ("antennaPatternLength", MMeth (mkmeth KProperty false [("self", None)]
       [If (Attr (Loc "self") "antennaPattern") [Return (Meth (Attr (Loc "self") "antennaPattern") "marshalledSize" [] [])] [Return (Lit (LInt 0))]]));
    (* opendis/dis7.py:5006-5010 *)
    ("modulationParametersLength", MMeth (mkmeth KProperty false [("self", None)]
       [If (Attr (Loc "self") "modulationParameters") [Return (Meth (Attr (Loc "self") "modulationParameters") "marshalledSize" [] [])] [Return (Lit (LInt 0))]]));
    (* opendis/dis7.py:5013-5014 *)
    ("variableTransmitterParameterCount", MMeth (mkmeth KProperty false [("self", None)]
       [Return (Builtin BLen [(Attr (Loc "self") "variableTransmitterParameters")])]));
    (* opendis/dis7.py:5016-5050 *)
    ("serialize", MMeth (mkmeth KNormal false [("self", None); ("outputStream", None)]
       [Expr (Super "TransmitterPdu" "serialize" [(Loc "outputStream")] []);
       Expr (Meth (Attr (Loc "self") "radioReferenceID") "serialize" [(Loc "outputStream")] []);
       Expr (Meth (Loc "outputStream") "write_uint16" [(Attr (Loc "self") "radioNumber")] []);
       Expr (Meth (Attr (Loc "self") "radioEntityType") "serialize" [(Loc "outputStream")] []);
       Expr (Meth (Loc "outputStream") "write_uint8" [(Attr (Loc "self") "transmitState")] []);
       Expr (Meth (Loc "outputStream") "write_uint8" [(Attr (Loc "self") "inputSource")] []);
       Expr (Meth (Loc "outputStream") "write_uint16" [(Attr (Loc "self") "variableTransmitterParameterCount")] []);
       Expr (Meth (Attr (Loc "self") "antennaLocation") "serialize" [(Loc "outputStream")] []);
       Expr (Meth (Attr (Loc "self") "relativeAntennaLocation") "serialize" [(Loc "outputStream")] []);
       Expr (Meth (Loc "outputStream") "write_uint16" [(Attr (Loc "self") "antennaPatternType")] []);
       Expr (Meth (Loc "outputStream") "write_uint16" [(Attr (Loc "self") "antennaPatternLength")] []);
       Expr (Meth (Loc "outputStream") "write_uint64" [(Attr (Loc "self") "frequency")] []);
       Expr (Meth (Loc "outputStream") "write_float32" [(Attr (Loc "self") "transmitFrequencyBandwidth")] []);
       Expr (Meth (Loc "outputStream") "write_float32" [(Attr (Loc "self") "power")] []);
       Expr (Meth (Attr (Loc "self") "modulationType") "serialize" [(Loc "outputStream")] []);
       Expr (Meth (Loc "outputStream") "write_uint16" [(Attr (Loc "self") "cryptoSystem")] []);
       Expr (Meth (Loc "outputStream") "write_uint16" [(Attr (Loc "self") "cryptoKeyId")] []);
       Expr (Meth (Loc "outputStream") "write_uint8" [(Attr (Loc "self") "modulationParametersLength")] []);
       Expr (Meth (Loc "outputStream") "write_uint16" [(Attr (Loc "self") "padding2")] []);
       Expr (Meth (Loc "outputStream") "write_uint8" [(Attr (Loc "self") "padding3")] []);
       If (Attr (Loc "self") "modulationParameters") [Expr (Meth (Attr (Loc "self") "modulationParameters") "serialize" [(Loc "outputStream")] [])] [];
       If (Attr (Loc "self") "antennaPattern") [Expr (Meth (Attr (Loc "self") "antennaPattern") "serialize" [(Loc "outputStream")] [])] [];
       For "vtp" (Attr (Loc "self") "variableTransmitterParameters") [Expr (Meth (Loc "vtp") "serialize" [(Loc "outputStream")] [])]]));
    (* opendis/dis7.py:5052-5116 *)
    ("parse", MMeth (mkmeth KNormal false [("self", None); ("inputStream", None)]
       [Expr (Super "TransmitterPdu" "parse" [(Loc "inputStream")] []);
       Expr (Meth (Attr (Loc "self") "radioReferenceID") "parse" [(Loc "inputStream")] []);
       SetAttr (Loc "self") "radioNumber" (Meth (Loc "inputStream") "read_uint16" [] []);
       Expr (Meth (Attr (Loc "self") "radioEntityType") "parse" [(Loc "inputStream")] []);
       SetAttr (Loc "self") "transmitState" (Meth (Loc "inputStream") "read_uint8" [] []);
       SetAttr (Loc "self") "inputSource" (Meth (Loc "inputStream") "read_uint8" [] []);
       Assign "variableTransmitterParameterCount" (Meth (Loc "inputStream") "read_uint16" [] []);
       Expr (Meth (Attr (Loc "self") "antennaLocation") "parse" [(Loc "inputStream")] []);
       Expr (Meth (Attr (Loc "self") "relativeAntennaLocation") "parse" [(Loc "inputStream")] []);
       SetAttr (Loc "self") "antennaPatternType" (Meth (Loc "inputStream") "read_uint16" [] []);
       Assign "antennaPatternLength" (Meth (Loc "inputStream") "read_uint16" [] []);
       SetAttr (Loc "self") "frequency" (Meth (Loc "inputStream") "read_uint64" [] []);
       SetAttr (Loc "self") "transmitFrequencyBandwidth" (Meth (Loc "inputStream") "read_float32" [] []);
       SetAttr (Loc "self") "power" (Meth (Loc "inputStream") "read_float32" [] []);
       Expr (Meth (Attr (Loc "self") "modulationType") "parse" [(Loc "inputStream")] []);
       SetAttr (Loc "self") "cryptoSystem" (Meth (Loc "inputStream") "read_uint16" [] []);
       SetAttr (Loc "self") "cryptoKeyId" (Meth (Loc "inputStream") "read_uint16" [] []);
       Assign "modulationParametersLength" (Meth (Loc "inputStream") "read_uint8" [] []);
       SetAttr (Loc "self") "padding2" (Meth (Loc "inputStream") "read_uint16" [] []);
       SetAttr (Loc "self") "padding3" (Meth (Loc "inputStream") "read_uint8" [] []);
       If (Cmp CGt (Loc "modulationParametersLength") (Lit (LInt 0))) [If (Cmp CEq (Attr (Attr (Loc "self") "modulationType") "radioSystem") (Lit (LInt 1))) [If (Cmp CEq (Attr (Attr (Loc "self") "modulationType") "majorModulation") (Lit (LInt 0))) [Assign "radio" (CallV (Glob "SimpleIntercomRadio") [] [])] [Assign "radio" (CallV (Glob "GenericRadio") [] [])]; Expr (Meth (Loc "radio") "parse" [(Loc "inputStream")] [])] [If (Cmp CIn (Attr (Attr (Loc "self") "modulationType") "radioSystem") (TupleE [(Lit (LInt 2)); (Lit (LInt 3)); (Lit (LInt 4))])) [Assign "radio" (CallV (Glob "BasicHaveQuickMP") [] []); Expr (Meth (Loc "radio") "parse" [(Loc "inputStream")] [])] [If (Cmp CEq (Attr (Attr (Loc "self") "modulationType") "radioSystem") (Lit (LInt 6))) [Assign "radio" (CallV (Glob "CCTTSincgarsMP") [] []); Expr (Meth (Loc "radio") "parse" [(Loc "inputStream")] [])] [Assign "radio" (CallV (Glob "UnknownRadio") [] []); Expr (Meth (Loc "radio") "parse" [(Loc "inputStream"); (Loc "modulationParametersLength")] ["bytelength"])]]]; SetAttr (Loc "self") "modulationParameters" (Loc "radio")] [SetAttr (Loc "self") "modulationParameters" (Lit (LNone))];
       If (Cmp CGt (Loc "antennaPatternLength") (Lit (LInt 0))) [If (Cmp CEq (Attr (Loc "self") "antennaPatternType") (Lit (LInt 1))) [SetAttr (Loc "self") "antennaPattern" (CallV (Glob "BeamAntennaPattern") [] []); Expr (Meth (Attr (Loc "self") "antennaPattern") "parse" [(Loc "inputStream")] [])] [SetAttr (Loc "self") "antennaPattern" (CallV (Glob "UnknownAntennaPattern") [] []); Expr (Meth (Attr (Loc "self") "antennaPattern") "parse" [(Loc "inputStream"); (Loc "antennaPatternLength")] ["bytelength"])]] [SetAttr (Loc "self") "antennaPattern" (Lit (LNone))];
       For "_" (Builtin BRange [(Lit (LInt 0)); (Loc "variableTransmitterParameterCount")]) [Assign "vtp" (CallV (Glob "parseStandardVariableRecord") [(Loc "inputStream"); (Glob "VariableTransmitterParametersRecord")] []); Expr (Meth (Attr (Loc "self") "variableTransmitterParameters") "append" [(Loc "vtp")] [])]]))
  ].

(* opendis/dis7.py:5119-5169  class ElectromagneticEmissionsPdu(DistributedEmissionsFamilyPdu) *)
Definition c_ElectromagneticEmissionsPdu : cls := mkcls "ElectromagneticEmissionsPdu" ["ElectromagneticEmissionsPdu"; "DistributedEmissionsFamilyPdu"; "Pdu"; "PduSuperclass"]
  [
    (* opendis/dis7.py:5125 *)
    ("pduType", MAttr (LInt 23));
    (* opendis/dis7.py:5127-5140 *)
    ("__init__", MMeth (mkmeth KNormal false [("self", None); ("emittingEntityID", Some (DLit (LNone))); ("eventID", Some (DLit (LNone))); ("stateUpdateIndicator", Some (DLit (LInt 0))); ("systems", Some (DLit (LNone)))]
       [Expr (Super "ElectromagneticEmissionsPdu" "__init__" [] []);
       SetAttr (Loc "self") "emittingEntityID" (OrE (Loc "emittingEntityID") (CallV (Glob "EntityIdentifier") [] []));
       SetAttr (Loc "self") "eventID" (OrE (Loc "eventID") (CallV (Glob "EventIdentifier") [] []));
       SetAttr (Loc "self") "stateUpdateIndicator" (Loc "stateUpdateIndicator");
       SetAttr (Loc "self") "systems" (OrE (Loc "systems") (ListE []));
       SetAttr (Loc "self") "paddingForEmissionsPdu" (Lit (LInt 0))]));
    (* opendis/dis7.py:5143-5144 *)
    ("numberOfSystems", MMeth (mkmeth KProperty false [("self", None)]
       [Return (Builtin BLen [(Attr (Loc "self") "systems")])]));
    (* opendis/dis7.py:5146-5155 *)
    ("serialize", MMeth (mkmeth KNormal false [("self", None); ("outputStream", None)]
       [Expr (Super "ElectromagneticEmissionsPdu" "serialize" [(Loc "outputStream")] []);
       Expr (Meth (Attr (Loc "self") "emittingEntityID") "serialize" [(Loc "outputStream")] []);
       Expr (Meth (Attr (Loc "self") "eventID") "serialize" [(Loc "outputStream")] []);
       Expr (Meth (Loc "outputStream") "write_unsigned_byte" [(Attr (Loc "self") "stateUpdateIndicator")] []);
       Expr (Meth (Loc "outputStream") "write_unsigned_byte" [(Attr (Loc "self") "numberOfSystems")] []);
       Expr (Meth (Loc "outputStream") "write_unsigned_short" [(Attr (Loc "self") "paddingForEmissionsPdu")] []);
       For "anObj" (Attr (Loc "self") "systems") [Expr (Meth (Loc "anObj") "serialize" [(Loc "outputStream")] [])]]));
    (* opendis/dis7.py:5157-5169 *)
    ("parse", MMeth (mkmeth KNormal false [("self", None); ("inputStream", None)]
       [Expr (Super "ElectromagneticEmissionsPdu" "parse" [(Loc "inputStream")] []);
       Expr (Meth (Attr (Loc "self") "emittingEntityID") "parse" [(Loc "inputStream")] []);
       Expr (Meth (Attr (Loc "self") "eventID") "parse" [(Loc "inputStream")] []);
       SetAttr (Loc "self") "stateUpdateIndicator" (Meth (Loc "inputStream") "read_unsigned_byte" [] []);
       Assign "numberOfSystems" (Meth (Loc "inputStream") "read_unsigned_byte" [] []);
       SetAttr (Loc "self") "paddingForEmissionsPdu" (Meth (Loc "inputStream") "read_unsigned_short" [] []);
       For "idx" (Builtin BRange [(Lit (LInt 0)); (Loc "numberOfSystems")]) [Assign "element" (CallV (Glob "EmissionSystemRecord") [] []); Expr (Meth (Loc "element") "parse" [(Loc "inputStream")] []); Expr (Meth (Attr (Loc "self") "systems") "append" [(Loc "element")] [])]]))
  ].

(* opendis/dis7.py:5172-5231  class EmissionSystemBeamRecord() *)
Definition c_EmissionSystemBeamRecord : cls := mkcls "EmissionSystemBeamRecord" ["EmissionSystemBeamRecord"]
  [
    (* opendis/dis7.py:5178-5197 *)
    ("__init__", MMeth (mkmeth KNormal false [("self", None); ("beamDataLength", Some (DLit (LInt 0))); ("beamIDNumber", Some (DLit (LInt 0))); ("beamParameterIndex", Some (DLit (LInt 0))); ("fundamentalParameterData", Some (DLit (LNone))); ("beamFunction", Some (DLit (LInt 0))); ("highDensityTrackJam", Some (DLit (LInt 0))); ("beamStatus", Some (DLit (LNone))); ("jammingModeSequence", Some (DLit (LInt 0))); ("trackJamRecords", Some (DLit (LNone)))]
       [SetAttr (Loc "self") "beamDataLength" (Loc "beamDataLength");
       SetAttr (Loc "self") "beamIDNumber" (Loc "beamIDNumber");
       SetAttr (Loc "self") "beamParameterIndex" (Loc "beamParameterIndex");
       SetAttr (Loc "self") "fundamentalParameterData" (OrE (Loc "fundamentalParameterData") (CallV (Glob "EEFundamentalParameterData") [] []));
       SetAttr (Loc "self") "beamFunction" (Loc "beamFunction");
       SetAttr (Loc "self") "highDensityTrackJam" (Loc "highDensityTrackJam");
       SetAttr (Loc "self") "beamStatus" (OrE (Loc "beamStatus") (CallV (Glob "BeamStatus") [] []));
       SetAttr (Loc "self") "jammingModeSequence" (Loc "jammingModeSequence");
       SetAttr (Loc "self") "trackJamRecords" (OrE (Loc "trackJamRecords") (ListE []))]));
    (* opendis/dis7.py:5200-5201 *)
    ("numberOfTargetsInTrackJam", MMeth (mkmeth KProperty false [("self", None)]
       [Return (Builtin BLen [(Attr (Loc "self") "trackJamRecords")])]));
    (* opendis/dis7.py:5203-5215 *)
    ("serialize", MMeth (mkmeth KNormal false [("self", None); ("outputStream", None)]
       [Expr (Meth (Loc "outputStream") "write_unsigned_byte" [(Attr (Loc "self") "beamDataLength")] []);
       Expr (Meth (Loc "outputStream") "write_unsigned_byte" [(Attr (Loc "self") "beamIDNumber")] []);
       Expr (Meth (Loc "outputStream") "write_unsigned_short" [(Attr (Loc "self") "beamParameterIndex")] []);
       Expr (Meth (Attr (Loc "self") "fundamentalParameterData") "serialize" [(Loc "outputStream")] []);
       Expr (Meth (Loc "outputStream") "write_unsigned_byte" [(Attr (Loc "self") "beamFunction")] []);
       Expr (Meth (Loc "outputStream") "write_unsigned_byte" [(Attr (Loc "self") "numberOfTargetsInTrackJam")] []);
       Expr (Meth (Loc "outputStream") "write_unsigned_byte" [(Attr (Loc "self") "highDensityTrackJam")] []);
       Expr (Meth (Attr (Loc "self") "beamStatus") "serialize" [(Loc "outputStream")] []);
       Expr (Meth (Loc "outputStream") "write_unsigned_int" [(Attr (Loc "self") "jammingModeSequence")] []);
       For "anObj" (Attr (Loc "self") "trackJamRecords") [Expr (Meth (Loc "anObj") "serialize" [(Loc "outputStream")] [])]]));
    (* opendis/dis7.py:5217-5231 *)
    ("parse", MMeth (mkmeth KNormal false [("self", None); ("inputStream", None)]
       [SetAttr (Loc "self") "beamDataLength" (Meth (Loc "inputStream") "read_unsigned_byte" [] []);
       SetAttr (Loc "self") "beamIDNumber" (Meth (Loc "inputStream") "read_unsigned_byte" [] []);
       SetAttr (Loc "self") "beamParameterIndex" (Meth (Loc "inputStream") "read_unsigned_short" [] []);
       Expr (Meth (Attr (Loc "self") "fundamentalParameterData") "parse" [(Loc "inputStream")] []);
       SetAttr (Loc "self") "beamFunction" (Meth (Loc "inputStream") "read_unsigned_byte" [] []);
       Assign "numberOfTargetsInTrackJam" (Meth (Loc "inputStream") "read_unsigned_byte" [] []);
       SetAttr (Loc "self") "highDensityTrackJam" (Meth (Loc "inputStream") "read_unsigned_byte" [] []);
       Expr (Meth (Attr (Loc "self") "beamStatus") "parse" [(Loc "inputStream")] []);
       SetAttr (Loc "self") "jammingModeSequence" (Meth (Loc "inputStream") "read_unsigned_int" [] []);
       For "idx" (Builtin BRange [(Lit (LInt 0)); (Loc "numberOfTargetsInTrackJam")]) [Assign "element" (CallV (Glob "TrackJamData") [] []); Expr (Meth (Loc "element") "parse" [(Loc "inputStream")] []); Expr (Meth (Attr (Loc "self") "trackJamRecords") "append" [(Loc "element")] [])]]))
  ].

(* opendis/dis7.py:5234-5276  class EmissionSystemRecord() *)
Definition c_EmissionSystemRecord : cls := mkcls "EmissionSystemRecord" ["EmissionSystemRecord"]
  [
    (* opendis/dis7.py:5240-5252 *)
    ("__init__", MMeth (mkmeth KNormal false [("self", None); ("systemDataLength", Some (DLit (LInt 0))); ("emitterSystem", Some (DLit (LNone))); ("location", Some (DLit (LNone))); ("beamRecords", Some (DLit (LNone)))]
       [SetAttr (Loc "self") "systemDataLength" (Loc "systemDataLength");
       SetAttr (Loc "self") "paddingForEmissionsPdu" (Lit (LInt 0));
       SetAttr (Loc "self") "emitterSystem" (OrE (Loc "emitterSystem") (CallV (Glob "EmitterSystem") [] []));
       SetAttr (Loc "self") "location" (OrE (Loc "location") (CallV (Glob "Vector3Float") [] []));
       SetAttr (Loc "self") "beamRecords" (OrE (Loc "beamRecords") (ListE []))]));
    (* opendis/dis7.py:5255-5256 *)
    ("numberOfBeams", MMeth (mkmeth KProperty false [("self", None)]
       [Return (Builtin BLen [(Attr (Loc "self") "beamRecords")])]));
    (* opendis/dis7.py:5258-5265 *)
    ("serialize", MMeth (mkmeth KNormal false [("self", None); ("outputStream", None)]
       [Expr (Meth (Loc "outputStream") "write_unsigned_byte" [(Attr (Loc "self") "systemDataLength")] []);
       Expr (Meth (Loc "outputStream") "write_unsigned_byte" [(Attr (Loc "self") "numberOfBeams")] []);
       Expr (Meth (Loc "outputStream") "write_unsigned_short" [(Lit (LInt 0))] []);
       Expr (Meth (Attr (Loc "self") "emitterSystem") "serialize" [(Loc "outputStream")] []);
       Expr (Meth (Attr (Loc "self") "location") "serialize" [(Loc "outputStream")] []);
       For "anObj" (Attr (Loc "self") "beamRecords") [Expr (Meth (Loc "anObj") "serialize" [(Loc "outputStream")] [])]]));
    (* opendis/dis7.py:5267-5276 *)
    ("parse", MMeth (mkmeth KNormal false [("self", None); ("inputStream", None)]
       [SetAttr (Loc "self") "systemDataLength" (Meth (Loc "inputStream") "read_unsigned_byte" [] []);
       Assign "numberOfBeams" (Meth (Loc "inputStream") "read_unsigned_byte" [] []);
       Expr (Meth (Loc "inputStream") "read_unsigned_short" [] []);
       Expr (Meth (Attr (Loc "self") "emitterSystem") "parse" [(Loc "inputStream")] []);
       Expr (Meth (Attr (Loc "self") "location") "parse" [(Loc "inputStream")] []);
       For "idx" (Builtin BRange [(Lit (LInt 0)); (Loc "numberOfBeams")]) [Assign "element" (CallV (Glob "EmissionSystemBeamRecord") [] []); Expr (Meth (Loc "element") "parse" [(Loc "inputStream")] []); Expr (Meth (Attr (Loc "self") "beamRecords") "append" [(Loc "element")] [])]]))
  ].

(* opendis/dis7.py:5279-5327  class ResupplyOfferPdu(LogisticsFamilyPdu) *)
Definition c_ResupplyOfferPdu : cls := mkcls "ResupplyOfferPdu" ["ResupplyOfferPdu"; "LogisticsFamilyPdu"; "Pdu"; "PduSuperclass"]
  [
    (* opendis/dis7.py:5285 *)
    ("pduType", MAttr (LInt 6));
    (* opendis/dis7.py:5287-5299 *)
    ("__init__", MMeth (mkmeth KNormal false [("self", None); ("receivingEntityID", Some (DLit (LNone))); ("supplyingEntityID", Some (DLit (LNone))); ("supplies", Some (DLit (LNone)))]
       [Expr (Super "ResupplyOfferPdu" "__init__" [] []);
       SetAttr (Loc "self") "receivingEntityID" (OrE (Loc "receivingEntityID") (CallV (Glob "EntityIdentifier") [] []));
       SetAttr (Loc "self") "supplyingEntityID" (OrE (Loc "supplyingEntityID") (CallV (Glob "EntityIdentifier") [] []));
       SetAttr (Loc "self") "padding1" (Lit (LInt 0));
       SetAttr (Loc "self") "padding2" (Lit (LInt 0));
       SetAttr (Loc "self") "supplies" (OrE (Loc "supplies") (ListE []))]));
    (* opendis/dis7.py:5302-5303 *)
    ("numberOfSupplyTypes", MMeth (mkmeth KProperty false [("self", None)]
       [Return (Builtin BLen [(Attr (Loc "self") "supplies")])]));
    (* opendis/dis7.py:5305-5314 *)
    ("serialize", MMeth (mkmeth KNormal false [("self", None); ("outputStream", None)]
       [Expr (Super "ResupplyOfferPdu" "serialize" [(Loc "outputStream")] []);
       Expr (Meth (Attr (Loc "self") "receivingEntityID") "serialize" [(Loc "outputStream")] []);
       Expr (Meth (Attr (Loc "self") "supplyingEntityID") "serialize" [(Loc "outputStream")] []);
       Expr (Meth (Loc "outputStream") "write_unsigned_byte" [(Attr (Loc "self") "numberOfSupplyTypes")] []);
       Expr (Meth (Loc "outputStream") "write_byte" [(Attr (Loc "self") "padding1")] []);
       Expr (Meth (Loc "outputStream") "write_short" [(Attr (Loc "self") "padding2")] []);
       For "anObj" (Attr (Loc "self") "supplies") [Expr (Meth (Loc "anObj") "serialize" [(Loc "outputStream")] [])]]));
    (* opendis/dis7.py:5316-5327 *)
    ("parse", MMeth (mkmeth KNormal false [("self", None); ("inputStream", None)]
       [Expr (Super "ResupplyOfferPdu" "parse" [(Loc "inputStream")] []);
       Expr (Meth (Attr (Loc "self") "receivingEntityID") "parse" [(Loc "inputStream")] []);
       Expr (Meth (Attr (Loc "self") "supplyingEntityID") "parse" [(Loc "inputStream")] []);
       Assign "numberOfSupplyTypes" (Meth (Loc "inputStream") "read_unsigned_byte" [] []);
       SetAttr (Loc "self") "padding1" (Meth (Loc "inputStream") "read_byte" [] []);
       SetAttr (Loc "self") "padding2" (Meth (Loc "inputStream") "read_short" [] []);
       For "idx" (Builtin BRange [(Lit (LInt 0)); (Loc "numberOfSupplyTypes")]) [Assign "element" (CallV (Glob "SupplyQuantity") [] []); Expr (Meth (Loc "element") "parse" [(Loc "inputStream")] []); Expr (Meth (Attr (Loc "self") "supplies") "append" [(Loc "element")] [])]]))
  ].

(* opendis/dis7.py:5330-5391  class AttributePdu(EntityInformationFamilyPdu) *)
Definition c_AttributePdu : cls := mkcls "AttributePdu" ["AttributePdu"; "EntityInformationFamilyPdu"; "Pdu"; "PduSuperclass"]
  [
    (* opendis/dis7.py:5342-5365 *)
    ("__init__", MMeth (mkmeth KNormal false [("self", None); ("originatingSimulationAddress", Some (DLit (LNone))); ("attributeRecordPduType", Some (DLit (LInt 0))); ("attributeRecordProtocolVersion", Some (DLit (LInt 0))); ("masterAttributeRecordType", Some (DLit (LInt 0))); ("actionCode", Some (DLit (LInt 0))); ("numberOfAttributeRecordSets", Some (DLit (LInt 0)))]
       [Expr (Super "AttributePdu" "__init__" [] []);
       SetAttr (Loc "self") "originatingSimulationAddress" (OrE (Loc "originatingSimulationAddress") (CallV (Glob "SimulationAddress") [] []));
       SetAttr (Loc "self") "padding1" (Lit (LInt 0));
       SetAttr (Loc "self") "padding2" (Lit (LInt 0));
       SetAttr (Loc "self") "attributeRecordPduType" (Loc "attributeRecordPduType");
       SetAttr (Loc "self") "attributeRecordProtocolVersion" (Loc "attributeRecordProtocolVersion");
       SetAttr (Loc "self") "masterAttributeRecordType" (Loc "masterAttributeRecordType");
       SetAttr (Loc "self") "actionCode" (Loc "actionCode");
       SetAttr (Loc "self") "padding3" (Lit (LInt 0));
       SetAttr (Loc "self") "numberOfAttributeRecordSets" (Loc "numberOfAttributeRecordSets")]));
    (* opendis/dis7.py:5367-5378 *)
    ("serialize", MMeth (mkmeth KNormal false [("self", None); ("outputStream", None)]
       [Expr (Super "AttributePdu" "serialize" [(Loc "outputStream")] []);
       Expr (Meth (Attr (Loc "self") "originatingSimulationAddress") "serialize" [(Loc "outputStream")] []);
       Expr (Meth (Loc "outputStream") "write_int" [(Attr (Loc "self") "padding1")] []);
       Expr (Meth (Loc "outputStream") "write_short" [(Attr (Loc "self") "padding2")] []);
       Expr (Meth (Loc "outputStream") "write_unsigned_byte" [(Attr (Loc "self") "attributeRecordPduType")] []);
       Expr (Meth (Loc "outputStream") "write_unsigned_byte" [(Attr (Loc "self") "attributeRecordProtocolVersion")] []);
       Expr (Meth (Loc "outputStream") "write_unsigned_int" [(Attr (Loc "self") "masterAttributeRecordType")] []);
       Expr (Meth (Loc "outputStream") "write_unsigned_byte" [(Attr (Loc "self") "actionCode")] []);
       Expr (Meth (Loc "outputStream") "write_byte" [(Attr (Loc "self") "padding3")] []);
       Expr (Meth (Loc "outputStream") "write_unsigned_short" [(Attr (Loc "self") "numberOfAttributeRecordSets")] [])]));
    (* opendis/dis7.py:5380-5391 *)
    ("parse", MMeth (mkmeth KNormal false [("self", None); ("inputStream", None)]
       [Expr (Super "AttributePdu" "parse" [(Loc "inputStream")] []);
       Expr (Meth (Attr (Loc "self") "originatingSimulationAddress") "parse" [(Loc "inputStream")] []);
       SetAttr (Loc "self") "padding1" (Meth (Loc "inputStream") "read_int" [] []);
       SetAttr (Loc "self") "padding2" (Meth (Loc "inputStream") "read_short" [] []);
       SetAttr (Loc "self") "attributeRecordPduType" (Meth (Loc "inputStream") "read_unsigned_byte" [] []);
       SetAttr (Loc "self") "attributeRecordProtocolVersion" (Meth (Loc "inputStream") "read_unsigned_byte" [] []);
       SetAttr (Loc "self") "masterAttributeRecordType" (Meth (Loc "inputStream") "read_unsigned_int" [] []);
       SetAttr (Loc "self") "actionCode" (Meth (Loc "inputStream") "read_unsigned_byte" [] []);
       SetAttr (Loc "self") "padding3" (Meth (Loc "inputStream") "read_byte" [] []);
       SetAttr (Loc "self") "numberOfAttributeRecordSets" (Meth (Loc "inputStream") "read_unsigned_short" [] [])]))
  ].

(* opendis/dis7.py:5394-5410  class MinefieldFamilyPdu(Pdu) *)
Definition c_MinefieldFamilyPdu : cls := mkcls "MinefieldFamilyPdu" ["MinefieldFamilyPdu"; "Pdu"; "PduSuperclass"]
  [
    (* opendis/dis7.py:5398 *)
    ("protocolFamily", MAttr (LInt 8));
    (* opendis/dis7.py:5400-5402 *)
    ("__init__", MMeth (mkmeth KNormal false [("self", None)]
       [Expr (Super "MinefieldFamilyPdu" "__init__" [] [])]));
    (* opendis/dis7.py:5404-5406 *)
    ("serialize", MMeth (mkmeth KNormal false [("self", None); ("outputStream", None)]
       [Expr (Super "MinefieldFamilyPdu" "serialize" [(Loc "outputStream")] [])]));
    (* opendis/dis7.py:5408-5410 *)
    ("parse", MMeth (mkmeth KNormal false [("self", None); ("inputStream", None)]
       [Expr (Super "MinefieldFamilyPdu" "parse" [(Loc "inputStream")] [])]))
  ].

(* opendis/dis7.py:5413-5468  class SetDataReliablePdu(SimulationManagementWithReliabilityFamilyPdu) *)
Definition c_SetDataReliablePdu : cls := mkcls "SetDataReliablePdu" ["SetDataReliablePdu"; "SimulationManagementWithReliabilityFamilyPdu"; "Pdu"; "PduSuperclass"]
  [
    (* opendis/dis7.py:5419 *)
    ("pduType", MAttr (LInt 59));
    (* opendis/dis7.py:5421-5434 *)
    ("__init__", MMeth (mkmeth KNormal false [("self", None); ("requiredReliabilityService", Some (DLit (LInt 0))); ("requestID", Some (DLit (LInt 0))); ("fixedDatumRecords", Some (DLit (LNone))); ("variableDatumRecords", Some (DLit (LNone)))]
       [Expr (Super "SetDataReliablePdu" "__init__" [] []);
       SetAttr (Loc "self") "requiredReliabilityService" (Loc "requiredReliabilityService");
       SetAttr (Loc "self") "pad1" (Lit (LInt 0));
       SetAttr (Loc "self") "pad2" (Lit (LInt 0));
       SetAttr (Loc "self") "requestID" (Loc "requestID");
       SetAttr (Loc "self") "_datums" (CallV (Glob "DatumSpecification") [(OrE (Loc "fixedDatumRecords") (ListE [])); (OrE (Loc "variableDatumRecords") (ListE []))] [])]));
    (* opendis/dis7.py:5437-5438 *)
    ("numberOfFixedDatumRecords", MMeth (mkmeth KProperty false [("self", None)]
       [Return (Attr (Attr (Loc "self") "_datums") "numberOfFixedDatumRecords")]));
    (* opendis/dis7.py:5441-5442 *)
    ("numberOfVariableDatumRecords", MMeth (mkmeth KProperty false [("self", None)]
       [Return (Attr (Attr (Loc "self") "_datums") "numberOfVariableDatumRecords")]));
    (* opendis/dis7.py:5445-5446 *)
    ("fixedDatumRecords", MMeth (mkmeth KProperty false [("self", None)]
       [Return (Attr (Attr (Loc "self") "_datums") "fixedDatumRecords")]));
    (* opendis/dis7.py:5449-5450 *)
    ("variableDatumRecords", MMeth (mkmeth KProperty false [("self", None)]
       [Return (Attr (Attr (Loc "self") "_datums") "variableDatumRecords")]));
    (* opendis/dis7.py:5452-5459 *)
    ("serialize", MMeth (mkmeth KNormal false [("self", None); ("outputStream", None)]
       [Expr (Super "SetDataReliablePdu" "serialize" [(Loc "outputStream")] []);
       Expr (Meth (Loc "outputStream") "write_unsigned_byte" [(Attr (Loc "self") "requiredReliabilityService")] []);
       Expr (Meth (Loc "outputStream") "write_unsigned_short" [(Attr (Loc "self") "pad1")] []);
       Expr (Meth (Loc "outputStream") "write_unsigned_byte" [(Attr (Loc "self") "pad2")] []);
       Expr (Meth (Loc "outputStream") "write_unsigned_int" [(Attr (Loc "self") "requestID")] []);
       Expr (Meth (Attr (Loc "self") "_datums") "serialize" [(Loc "outputStream")] [])]));
    (* opendis/dis7.py:5461-5468 *)
    ("parse", MMeth (mkmeth KNormal false [("self", None); ("inputStream", None)]
       [Expr (Super "SetDataReliablePdu" "parse" [(Loc "inputStream")] []);
       SetAttr (Loc "self") "requiredReliabilityService" (Meth (Loc "inputStream") "read_unsigned_byte" [] []);
       SetAttr (Loc "self") "pad1" (Meth (Loc "inputStream") "read_unsigned_short" [] []);
       SetAttr (Loc "self") "pad2" (Meth (Loc "inputStream") "read_unsigned_byte" [] []);
       SetAttr (Loc "self") "requestID" (Meth (Loc "inputStream") "read_unsigned_int" [] []);
       Expr (Meth (Attr (Loc "self") "_datums") "parse" [(Loc "inputStream")] [])]))
  ].

(* opendis/dis7.py:5471-5502  class EventReportPdu(SimulationManagementFamilyPdu) *)
Definition c_EventReportPdu : cls := mkcls "EventReportPdu" ["EventReportPdu"; "SimulationManagementFamilyPdu"; "Pdu"; "PduSuperclass"]
  [
    (* opendis/dis7.py:5477 *)
    ("pduType", MAttr (LInt 21));
    (* opendis/dis7.py:5479-5488 *)
    ("__init__", MMeth (mkmeth KNormal false [("self", None); ("eventType", Some (DLit (LInt 0))); ("fixedDatumRecords", Some (DLit (LNone))); ("variableDatumRecords", Some (DLit (LNone)))]
       [Expr (Super "EventReportPdu" "__init__" [] []);
       SetAttr (Loc "self") "eventType" (Loc "eventType");
       SetAttr (Loc "self") "padding1" (Lit (LInt 0));
       SetAttr (Loc "self") "_datums" (CallV (Glob "DatumSpecification") [(OrE (Loc "fixedDatumRecords") (ListE [])); (OrE (Loc "variableDatumRecords") (ListE []))] [])]));
    (* opendis/dis7.py:5490-5495 *)
    ("serialize", MMeth (mkmeth KNormal false [("self", None); ("outputStream", None)]
       [Expr (Super "EventReportPdu" "serialize" [(Loc "outputStream")] []);
       Expr (Meth (Loc "outputStream") "write_unsigned_int" [(Attr (Loc "self") "eventType")] []);
       Expr (Meth (Loc "outputStream") "write_unsigned_int" [(Attr (Loc "self") "padding1")] []);
       Expr (Meth (Attr (Loc "self") "_datums") "serialize" [(Loc "outputStream")] [])]));
    (* opendis/dis7.py:5497-5502 *)
    ("parse", MMeth (mkmeth KNormal false [("self", None); ("inputStream", None)]
       [Expr (Super "EventReportPdu" "parse" [(Loc "inputStream")] []);
       SetAttr (Loc "self") "eventType" (Meth (Loc "inputStream") "read_unsigned_int" [] []);
       SetAttr (Loc "self") "padding1" (Meth (Loc "inputStream") "read_unsigned_int" [] []);
       Expr (Meth (Attr (Loc "self") "_datums") "parse" [(Loc "inputStream")] [])]))
  ].

(* opendis/dis7.py:5505-5582  class PointObjectStatePdu(SyntheticEnvironmentFamilyPdu) *)
Definition c_PointObjectStatePdu : cls := mkcls "PointObjectStatePdu" ["PointObjectStatePdu"; "SyntheticEnvironmentFamilyPdu"; "Pdu"; "PduSuperclass"]
  [
    (* opendis/dis7.py:5511 *)
    ("pduType", MAttr (LInt 43));
    (* opendis/dis7.py:5513-5550 *)
    ("__init__", MMeth (mkmeth KNormal false [("self", None); ("objectID", Some (DLit (LNone))); ("referencedObjectID", Some (DLit (LNone))); ("updateNumber", Some (DLit (LInt 0))); ("forceID", Some (DLit (LInt 0))); ("modifications", Some (DLit (LInt 0))); ("objectType", Some (DLit (LNone))); ("objectLocation", Some (DLit (LNone))); ("objectOrientation", Some (DLit (LNone))); ("objectAppearance", Some (DLit (LInt 0))); ("requesterID", Some (DLit (LNone))); ("receivingID", Some (DLit (LNone)))]
       [Expr (Super "PointObjectStatePdu" "__init__" [] []);
       SetAttr (Loc "self") "objectID" (OrE (Loc "objectID") (CallV (Glob "EntityIdentifier") [] []));
       SetAttr (Loc "self") "referencedObjectID" (OrE (Loc "referencedObjectID") (CallV (Glob "EntityIdentifier") [] []));
       SetAttr (Loc "self") "updateNumber" (Loc "updateNumber");
       SetAttr (Loc "self") "forceID" (Loc "forceID");
       SetAttr (Loc "self") "modifications" (Loc "modifications");
       SetAttr (Loc "self") "objectType" (OrE (Loc "objectType") (CallV (Glob "ObjectType") [] []));
       SetAttr (Loc "self") "objectLocation" (OrE (Loc "objectLocation") (CallV (Glob "WorldCoordinates") [] []));
       SetAttr (Loc "self") "objectOrientation" (OrE (Loc "objectOrientation") (CallV (Glob "EulerAngles") [] []));
       SetAttr (Loc "self") "objectAppearance" (Loc "objectAppearance");
       SetAttr (Loc "self") "pad1" (Lit (LInt 0));
       SetAttr (Loc "self") "requesterID" (OrE (Loc "requesterID") (CallV (Glob "SimulationAddress") [] []));
       SetAttr (Loc "self") "receivingID" (OrE (Loc "receivingID") (CallV (Glob "SimulationAddress") [] []));
       SetAttr (Loc "self") "pad2" (Lit (LInt 0))]));
    (* opendis/dis7.py:5552-5566 *)
    ("serialize", MMeth (mkmeth KNormal false [("self", None); ("outputStream", None)]
       [Expr (Super "PointObjectStatePdu" "serialize" [(Loc "outputStream")] []);
       Expr (Meth (Attr (Loc "self") "objectID") "serialize" [(Loc "outputStream")] []);
       Expr (Meth (Attr (Loc "self") "referencedObjectID") "serialize" [(Loc "outputStream")] []);
       Expr (Meth (Loc "outputStream") "write_unsigned_short" [(Attr (Loc "self") "updateNumber")] []);
       Expr (Meth (Loc "outputStream") "write_unsigned_byte" [(Attr (Loc "self") "forceID")] []);
       Expr (Meth (Loc "outputStream") "write_unsigned_byte" [(Attr (Loc "self") "modifications")] []);
       Expr (Meth (Attr (Loc "self") "objectType") "serialize" [(Loc "outputStream")] []);
       Expr (Meth (Attr (Loc "self") "objectLocation") "serialize" [(Loc "outputStream")] []);
       Expr (Meth (Attr (Loc "self") "objectOrientation") "serialize" [(Loc "outputStream")] []);
       Expr (Meth (Loc "outputStream") "write_double" [(Attr (Loc "self") "objectAppearance")] []);
       Expr (Meth (Attr (Loc "self") "requesterID") "serialize" [(Loc "outputStream")] []);
       Expr (Meth (Attr (Loc "self") "receivingID") "serialize" [(Loc "outputStream")] []);
       Expr (Meth (Loc "outputStream") "write_unsigned_int" [(Attr (Loc "self") "pad2")] [])]));
    (* opendis/dis7.py:5568-5582 *)
    ("parse", MMeth (mkmeth KNormal false [("self", None); ("inputStream", None)]
       [Expr (Super "PointObjectStatePdu" "parse" [(Loc "inputStream")] []);
       Expr (Meth (Attr (Loc "self") "objectID") "parse" [(Loc "inputStream")] []);
       Expr (Meth (Attr (Loc "self") "referencedObjectID") "parse" [(Loc "inputStream")] []);
       SetAttr (Loc "self") "updateNumber" (Meth (Loc "inputStream") "read_unsigned_short" [] []);
       SetAttr (Loc "self") "forceID" (Meth (Loc "inputStream") "read_unsigned_byte" [] []);
       SetAttr (Loc "self") "modifications" (Meth (Loc "inputStream") "read_unsigned_byte" [] []);
       Expr (Meth (Attr (Loc "self") "objectType") "parse" [(Loc "inputStream")] []);
       Expr (Meth (Attr (Loc "self") "objectLocation") "parse" [(Loc "inputStream")] []);
       Expr (Meth (Attr (Loc "self") "objectOrientation") "parse" [(Loc "inputStream")] []);
       SetAttr (Loc "self") "objectAppearance" (Meth (Loc "inputStream") "read_double" [] []);
       Expr (Meth (Attr (Loc "self") "requesterID") "parse" [(Loc "inputStream")] []);
       Expr (Meth (Attr (Loc "self") "receivingID") "parse" [(Loc "inputStream")] []);
       SetAttr (Loc "self") "pad2" (Meth (Loc "inputStream") "read_unsigned_int" [] [])]))
  ].

(* opendis/dis7.py:5585-5634  class DataPdu(SimulationManagementFamilyPdu) *)
Definition c_DataPdu : cls := mkcls "DataPdu" ["DataPdu"; "SimulationManagementFamilyPdu"; "Pdu"; "PduSuperclass"]
  [
    (* opendis/dis7.py:5591 *)
    ("pduType", MAttr (LInt 20));
    (* opendis/dis7.py:5593-5603 *)
    ("__init__", MMeth (mkmeth KNormal false [("self", None); ("requestID", Some (DLit (LInt 0))); ("fixedDatumRecords", Some (DLit (LNone))); ("variableDatumRecords", Some (DLit (LNone)))]
       [Expr (Super "DataPdu" "__init__" [] []);
       SetAttr (Loc "self") "requestID" (Loc "requestID");
       SetAttr (Loc "self") "padding1" (Lit (LInt 0));
       SetAttr (Loc "self") "_datums" (CallV (Glob "DatumSpecification") [(OrE (Loc "fixedDatumRecords") (ListE [])); (OrE (Loc "variableDatumRecords") (ListE []))] [])]));
    (* opendis/dis7.py:5606-5607 *)
    ("numberOfFixedDatumRecords", MMeth (mkmeth KProperty false [("self", None)]
       [Return (Attr (Attr (Loc "self") "_datums") "numberOfFixedDatumRecords")]));
    (* opendis/dis7.py:5610-5611 *)
    ("numberOfVariableDatumRecords", MMeth (mkmeth KProperty false [("self", None)]
       [Return (Attr (Attr (Loc "self") "_datums") "numberOfVariableDatumRecords")]));
    (* opendis/dis7.py:5614-5615 *)
    ("fixedDatumRecords", MMeth (mkmeth KProperty false [("self", None)]
       [Return (Attr (Attr (Loc "self") "_datums") "fixedDatumRecords")]));
    (* opendis/dis7.py:5618-5619 *)
    ("variableDatumRecords", MMeth (mkmeth KProperty false [("self", None)]
       [Return (Attr (Attr (Loc "self") "_datums") "variableDatumRecords")]));
    (* opendis/dis7.py:5621-5626 *)
    ("serialize", MMeth (mkmeth KNormal false [("self", None); ("outputStream", None)]
       [Expr (Super "DataPdu" "serialize" [(Loc "outputStream")] []);
       Expr (Meth (Loc "outputStream") "write_unsigned_int" [(Attr (Loc "self") "requestID")] []);
       Expr (Meth (Loc "outputStream") "write_unsigned_int" [(Attr (Loc "self") "padding1")] []);
       Expr (Meth (Attr (Loc "self") "_datums") "serialize" [(Loc "outputStream")] [])]));
    (* opendis/dis7.py:5628-5634 *)
    ("parse", MMeth (mkmeth KNormal false [("self", None); ("inputStream", None)]
       [Expr (Super "DataPdu" "parse" [(Loc "inputStream")] []);
       SetAttr (Loc "self") "requestID" (Meth (Loc "inputStream") "read_unsigned_int" [] []);
       SetAttr (Loc "self") "padding1" (Meth (Loc "inputStream") "read_unsigned_int" [] []);
       Expr (Meth (Attr (Loc "self") "_datums") "parse" [(Loc "inputStream")] [])]))
  ].

(* opendis/dis7.py:5637-5868  class FastEntityStatePdu(EntityInformationFamilyPdu) *)
Definition c_FastEntityStatePdu : cls := mkcls "FastEntityStatePdu" ["FastEntityStatePdu"; "EntityInformationFamilyPdu"; "Pdu"; "PduSuperclass"]
  [
    (* opendis/dis7.py:5644 *)
    ("pduType", MAttr (LInt 1));
    (* opendis/dis7.py:5646-5762 *)
    ("__init__", MMeth (mkmeth KNormal false [("self", None); ("site", Some (DLit (LInt 0))); ("application", Some (DLit (LInt 0))); ("entity", Some (DLit (LInt 0))); ("forceId", Some (DLit (LInt 0))); ("numberOfVariableParameters", Some (DLit (LInt 0))); ("entityKind", Some (DLit (LInt 0))); ("domain", Some (DLit (LInt 0))); ("country", Some (DLit (LInt 0))); ("category", Some (DLit (LInt 0))); ("subcategory", Some (DLit (LInt 0))); ("specific", Some (DLit (LInt 0))); ("extra", Some (DLit (LInt 0))); ("altEntityKind", Some (DLit (LInt 0))); ("altDomain", Some (DLit (LInt 0))); ("altCountry", Some (DLit (LInt 0))); ("altCategory", Some (DLit (LInt 0))); ("altSubcategory", Some (DLit (LInt 0))); ("altSpecific", Some (DLit (LInt 0))); ("altExtra", Some (DLit (LInt 0))); ("xVelocity", Some (DLit (LInt 0))); ("yVelocity", Some (DLit (LInt 0))); ("zVelocity", Some (DLit (LInt 0))); ("xLocation", Some (DLit (LInt 0))); ("yLocation", Some (DLit (LInt 0))); ("zLocation", Some (DLit (LInt 0))); ("psi", Some (DLit (LInt 0))); ("theta", Some (DLit (LInt 0))); ("phi", Some (DLit (LInt 0))); ("entityAppearance", Some (DLit (LInt 0))); ("deadReckoningAlgorithm", Some (DLit (LInt 0))); ("otherParameters", Some (DLit (LNone))); ("xAcceleration", Some (DLit (LInt 0))); ("yAcceleration", Some (DLit (LInt 0))); ("zAcceleration", Some (DLit (LInt 0))); ("xAngularVelocity", Some (DLit (LInt 0))); ("yAngularVelocity", Some (DLit (LInt 0))); ("zAngularVelocity", Some (DLit (LInt 0))); ("marking", Some (DLit (LNone))); ("capabilities", Some (DLit (LInt 0))); ("variableParameters", Some (DLit (LNone)))]
       [Expr (Super "FastEntityStatePdu" "__init__" [] []);
       SetAttr (Loc "self") "site" (Loc "site");
       SetAttr (Loc "self") "application" (Loc "application");
       SetAttr (Loc "self") "entity" (Loc "entity");
       SetAttr (Loc "self") "forceId" (Loc "forceId");
       SetAttr (Loc "self") "numberOfVariableParameters" (Loc "numberOfVariableParameters");
       SetAttr (Loc "self") "entityKind" (Loc "entityKind");
       SetAttr (Loc "self") "domain" (Loc "domain");
       SetAttr (Loc "self") "country" (Loc "country");
       SetAttr (Loc "self") "category" (Loc "category");
       SetAttr (Loc "self") "subcategory" (Loc "subcategory");
       SetAttr (Loc "self") "specific" (Loc "specific");
       SetAttr (Loc "self") "extra" (Loc "extra");
       SetAttr (Loc "self") "altEntityKind" (Loc "altEntityKind");
       SetAttr (Loc "self") "altDomain" (Loc "altDomain");
       SetAttr (Loc "self") "altCountry" (Loc "altCountry");
       SetAttr (Loc "self") "altCategory" (Loc "altCategory");
       SetAttr (Loc "self") "altSubcategory" (Loc "altSubcategory");
       SetAttr (Loc "self") "altSpecific" (Loc "altSpecific");
       SetAttr (Loc "self") "altExtra" (Loc "altExtra");
       SetAttr (Loc "self") "xVelocity" (Loc "xVelocity");
       SetAttr (Loc "self") "yVelocity" (Loc "yVelocity");
       SetAttr (Loc "self") "zVelocity" (Loc "zVelocity");
       SetAttr (Loc "self") "xLocation" (Loc "xLocation");
       SetAttr (Loc "self") "yLocation" (Loc "yLocation");
       SetAttr (Loc "self") "zLocation" (Loc "zLocation");
       SetAttr (Loc "self") "psi" (Loc "psi");
       SetAttr (Loc "self") "theta" (Loc "theta");
       SetAttr (Loc "self") "phi" (Loc "phi");
       SetAttr (Loc "self") "entityAppearance" (Loc "entityAppearance");
       SetAttr (Loc "self") "deadReckoningAlgorithm" (Loc "deadReckoningAlgorithm");
       SetAttr (Loc "self") "otherParameters" (OrE (Loc "otherParameters") (Bin OMul (ListE [(Lit (LInt 0))]) (Lit (LInt 15))));
       SetAttr (Loc "self") "xAcceleration" (Loc "xAcceleration");
       SetAttr (Loc "self") "yAcceleration" (Loc "yAcceleration");
       SetAttr (Loc "self") "zAcceleration" (Loc "zAcceleration");
       SetAttr (Loc "self") "xAngularVelocity" (Loc "xAngularVelocity");
       SetAttr (Loc "self") "yAngularVelocity" (Loc "yAngularVelocity");
       SetAttr (Loc "self") "zAngularVelocity" (Loc "zAngularVelocity");
       SetAttr (Loc "self") "marking" (OrE (Loc "marking") (Bin OMul (ListE [(Lit (LInt 0))]) (Lit (LInt 12))));
       SetAttr (Loc "self") "capabilities" (Loc "capabilities");
       SetAttr (Loc "self") "variableParameters" (OrE (Loc "variableParameters") (ListE []))]));
    (* opendis/dis7.py:5764-5811 *)
    ("serialize", MMeth (mkmeth KNormal false [("self", None); ("outputStream", None)]
       [Expr (Super "FastEntityStatePdu" "serialize" [(Loc "outputStream")] []);
       Expr (Meth (Loc "outputStream") "write_unsigned_short" [(Attr (Loc "self") "site")] []);
       Expr (Meth (Loc "outputStream") "write_unsigned_short" [(Attr (Loc "self") "application")] []);
       Expr (Meth (Loc "outputStream") "write_unsigned_short" [(Attr (Loc "self") "entity")] []);
       Expr (Meth (Loc "outputStream") "write_unsigned_byte" [(Attr (Loc "self") "forceId")] []);
       Expr (Meth (Loc "outputStream") "write_byte" [(Builtin BLen [(Attr (Loc "self") "variableParameters")])] []);
       Expr (Meth (Loc "outputStream") "write_unsigned_byte" [(Attr (Loc "self") "entityKind")] []);
       Expr (Meth (Loc "outputStream") "write_unsigned_byte" [(Attr (Loc "self") "domain")] []);
       Expr (Meth (Loc "outputStream") "write_unsigned_short" [(Attr (Loc "self") "country")] []);
       Expr (Meth (Loc "outputStream") "write_unsigned_byte" [(Attr (Loc "self") "category")] []);
       Expr (Meth (Loc "outputStream") "write_unsigned_byte" [(Attr (Loc "self") "subcategory")] []);
       Expr (Meth (Loc "outputStream") "write_unsigned_byte" [(Attr (Loc "self") "specific")] []);
       Expr (Meth (Loc "outputStream") "write_unsigned_byte" [(Attr (Loc "self") "extra")] []);
       Expr (Meth (Loc "outputStream") "write_unsigned_byte" [(Attr (Loc "self") "altEntityKind")] []);
       Expr (Meth (Loc "outputStream") "write_unsigned_byte" [(Attr (Loc "self") "altDomain")] []);
       Expr (Meth (Loc "outputStream") "write_unsigned_short" [(Attr (Loc "self") "altCountry")] []);
       Expr (Meth (Loc "outputStream") "write_unsigned_byte" [(Attr (Loc "self") "altCategory")] []);
       Expr (Meth (Loc "outputStream") "write_unsigned_byte" [(Attr (Loc "self") "altSubcategory")] []);
       Expr (Meth (Loc "outputStream") "write_unsigned_byte" [(Attr (Loc "self") "altSpecific")] []);
       Expr (Meth (Loc "outputStream") "write_unsigned_byte" [(Attr (Loc "self") "altExtra")] []);
       Expr (Meth (Loc "outputStream") "write_float" [(Attr (Loc "self") "xVelocity")] []);
       Expr (Meth (Loc "outputStream") "write_float" [(Attr (Loc "self") "yVelocity")] []);
       Expr (Meth (Loc "outputStream") "write_float" [(Attr (Loc "self") "zVelocity")] []);
       Expr (Meth (Loc "outputStream") "write_double" [(Attr (Loc "self") "xLocation")] []);
       Expr (Meth (Loc "outputStream") "write_double" [(Attr (Loc "self") "yLocation")] []);
       Expr (Meth (Loc "outputStream") "write_double" [(Attr (Loc "self") "zLocation")] []);
       Expr (Meth (Loc "outputStream") "write_float" [(Attr (Loc "self") "psi")] []);
       Expr (Meth (Loc "outputStream") "write_float" [(Attr (Loc "self") "theta")] []);
       Expr (Meth (Loc "outputStream") "write_float" [(Attr (Loc "self") "phi")] []);
       Expr (Meth (Loc "outputStream") "write_int" [(Attr (Loc "self") "entityAppearance")] []);
       Expr (Meth (Loc "outputStream") "write_unsigned_byte" [(Attr (Loc "self") "deadReckoningAlgorithm")] []);
       For "idx" (Builtin BRange [(Lit (LInt 0)); (Lit (LInt 15))]) [Expr (Meth (Loc "outputStream") "write_byte" [(Sub (Attr (Loc "self") "otherParameters") (Loc "idx"))] [])];
       Expr (Meth (Loc "outputStream") "write_float" [(Attr (Loc "self") "xAcceleration")] []);
       Expr (Meth (Loc "outputStream") "write_float" [(Attr (Loc "self") "yAcceleration")] []);
       Expr (Meth (Loc "outputStream") "write_float" [(Attr (Loc "self") "zAcceleration")] []);
       Expr (Meth (Loc "outputStream") "write_float" [(Attr (Loc "self") "xAngularVelocity")] []);
       Expr (Meth (Loc "outputStream") "write_float" [(Attr (Loc "self") "yAngularVelocity")] []);
       Expr (Meth (Loc "outputStream") "write_float" [(Attr (Loc "self") "zAngularVelocity")] []);
       For "idx" (Builtin BRange [(Lit (LInt 0)); (Lit (LInt 12))]) [Expr (Meth (Loc "outputStream") "write_byte" [(Sub (Attr (Loc "self") "marking") (Loc "idx"))] [])];
       Expr (Meth (Loc "outputStream") "write_int" [(Attr (Loc "self") "capabilities")] []);
       For "anObj" (Attr (Loc "self") "variableParameters") [Expr (Meth (Loc "anObj") "serialize" [(Loc "outputStream")] [])]]));
    (* opendis/dis7.py:5813-5868 *)
    ("parse", MMeth (mkmeth KNormal false [("self", None); ("inputStream", None)]
       [Expr (Super "FastEntityStatePdu" "parse" [(Loc "inputStream")] []);
       SetAttr (Loc "self") "site" (Meth (Loc "inputStream") "read_unsigned_short" [] []);
       SetAttr (Loc "self") "application" (Meth (Loc "inputStream") "read_unsigned_short" [] []);
       SetAttr (Loc "self") "entity" (Meth (Loc "inputStream") "read_unsigned_short" [] []);
       SetAttr (Loc "self") "forceId" (Meth (Loc "inputStream") "read_unsigned_byte" [] []);
       SetAttr (Loc "self") "numberOfVariableParameters" (Meth (Loc "inputStream") "read_byte" [] []);
       SetAttr (Loc "self") "entityKind" (Meth (Loc "inputStream") "read_unsigned_byte" [] []);
       SetAttr (Loc "self") "domain" (Meth (Loc "inputStream") "read_unsigned_byte" [] []);
       SetAttr (Loc "self") "country" (Meth (Loc "inputStream") "read_unsigned_short" [] []);
       SetAttr (Loc "self") "category" (Meth (Loc "inputStream") "read_unsigned_byte" [] []);
       SetAttr (Loc "self") "subcategory" (Meth (Loc "inputStream") "read_unsigned_byte" [] []);
       SetAttr (Loc "self") "specific" (Meth (Loc "inputStream") "read_unsigned_byte" [] []);
       SetAttr (Loc "self") "extra" (Meth (Loc "inputStream") "read_unsigned_byte" [] []);
       SetAttr (Loc "self") "altEntityKind" (Meth (Loc "inputStream") "read_unsigned_byte" [] []);
       SetAttr (Loc "self") "altDomain" (Meth (Loc "inputStream") "read_unsigned_byte" [] []);
       SetAttr (Loc "self") "altCountry" (Meth (Loc "inputStream") "read_unsigned_short" [] []);
       SetAttr (Loc "self") "altCategory" (Meth (Loc "inputStream") "read_unsigned_byte" [] []);
       SetAttr (Loc "self") "altSubcategory" (Meth (Loc "inputStream") "read_unsigned_byte" [] []);
       SetAttr (Loc "self") "altSpecific" (Meth (Loc "inputStream") "read_unsigned_byte" [] []);
       SetAttr (Loc "self") "altExtra" (Meth (Loc "inputStream") "read_unsigned_byte" [] []);
       SetAttr (Loc "self") "xVelocity" (Meth (Loc "inputStream") "read_float" [] []);
       SetAttr (Loc "self") "yVelocity" (Meth (Loc "inputStream") "read_float" [] []);
       SetAttr (Loc "self") "zVelocity" (Meth (Loc "inputStream") "read_float" [] []);
       SetAttr (Loc "self") "xLocation" (Meth (Loc "inputStream") "read_double" [] []);
       SetAttr (Loc "self") "yLocation" (Meth (Loc "inputStream") "read_double" [] []);
       SetAttr (Loc "self") "zLocation" (Meth (Loc "inputStream") "read_double" [] []);
       SetAttr (Loc "self") "psi" (Meth (Loc "inputStream") "read_float" [] []);
       SetAttr (Loc "self") "theta" (Meth (Loc "inputStream") "read_float" [] []);
       SetAttr (Loc "self") "phi" (Meth (Loc "inputStream") "read_float" [] []);
       SetAttr (Loc "self") "entityAppearance" (Meth (Loc "inputStream") "read_int" [] []);
       SetAttr (Loc "self") "deadReckoningAlgorithm" (Meth (Loc "inputStream") "read_unsigned_byte" [] []);
       SetAttr (Loc "self") "otherParameters" (Bin OMul (ListE [(Lit (LInt 0))]) (Lit (LInt 15)));
       For "idx" (Builtin BRange [(Lit (LInt 0)); (Lit (LInt 15))]) [Assign "val" (Meth (Loc "inputStream") "read_byte" [] []); SetSub (Attr (Loc "self") "otherParameters") (Loc "idx") (Loc "val")];
       SetAttr (Loc "self") "xAcceleration" (Meth (Loc "inputStream") "read_float" [] []);
       SetAttr (Loc "self") "yAcceleration" (Meth (Loc "inputStream") "read_float" [] []);
       SetAttr (Loc "self") "zAcceleration" (Meth (Loc "inputStream") "read_float" [] []);
       SetAttr (Loc "self") "xAngularVelocity" (Meth (Loc "inputStream") "read_float" [] []);
       SetAttr (Loc "self") "yAngularVelocity" (Meth (Loc "inputStream") "read_float" [] []);
       SetAttr (Loc "self") "zAngularVelocity" (Meth (Loc "inputStream") "read_float" [] []);
       SetAttr (Loc "self") "marking" (Bin OMul (ListE [(Lit (LInt 0))]) (Lit (LInt 12)));
       For "idx" (Builtin BRange [(Lit (LInt 0)); (Lit (LInt 12))]) [Assign "val" (Meth (Loc "inputStream") "read_byte" [] []); SetSub (Attr (Loc "self") "marking") (Loc "idx") (Loc "val")];
       SetAttr (Loc "self") "capabilities" (Meth (Loc "inputStream") "read_int" [] []);
       For "idx" (Builtin BRange [(Lit (LInt 0)); (Attr (Loc "self") "numberOfVariableParameters")]) [Assign "element" (CallV (Glob "VariableParameter") [] []); Expr (Meth (Loc "element") "parse" [(Loc "inputStream")] []); Expr (Meth (Attr (Loc "self") "variableParameters") "append" [(Loc "element")] [])]]))
  ].

(* opendis/dis7.py:5871-5902  class AcknowledgeReliablePdu(SimulationManagementWithReliabilityFamilyPdu) *)
Definition c_AcknowledgeReliablePdu : cls := mkcls "AcknowledgeReliablePdu" ["AcknowledgeReliablePdu"; "SimulationManagementWithReliabilityFamilyPdu"; "Pdu"; "PduSuperclass"]
  [
    (* opendis/dis7.py:5877 *)
    ("pduType", MAttr (LInt 55));
    (* opendis/dis7.py:5879-5888 *)
    ("__init__", MMeth (mkmeth KNormal false [("self", None); ("acknowledgeFlag", Some (DLit (LInt 0))); ("responseFlag", Some (DLit (LInt 0))); ("requestID", Some (DLit (LInt 0)))]
       [Expr (Super "AcknowledgeReliablePdu" "__init__" [] []);
       SetAttr (Loc "self") "acknowledgeFlag" (Loc "acknowledgeFlag");
       SetAttr (Loc "self") "responseFlag" (Loc "responseFlag");
       SetAttr (Loc "self") "requestID" (Loc "requestID")]));
    (* opendis/dis7.py:5890-5895 *)
    ("serialize", MMeth (mkmeth KNormal false [("self", None); ("outputStream", None)]
       [Expr (Super "AcknowledgeReliablePdu" "serialize" [(Loc "outputStream")] []);
       Expr (Meth (Loc "outputStream") "write_unsigned_short" [(Attr (Loc "self") "acknowledgeFlag")] []);
       Expr (Meth (Loc "outputStream") "write_unsigned_short" [(Attr (Loc "self") "responseFlag")] []);
       Expr (Meth (Loc "outputStream") "write_unsigned_int" [(Attr (Loc "self") "requestID")] [])]));
    (* opendis/dis7.py:5897-5902 *)
    ("parse", MMeth (mkmeth KNormal false [("self", None); ("inputStream", None)]
       [Expr (Super "AcknowledgeReliablePdu" "parse" [(Loc "inputStream")] []);
       SetAttr (Loc "self") "acknowledgeFlag" (Meth (Loc "inputStream") "read_unsigned_short" [] []);
       SetAttr (Loc "self") "responseFlag" (Meth (Loc "inputStream") "read_unsigned_short" [] []);
       SetAttr (Loc "self") "requestID" (Meth (Loc "inputStream") "read_unsigned_int" [] [])]))
  ].

(* opendis/dis7.py:5905-5946  class StartResumeReliablePdu(SimulationManagementWithReliabilityFamilyPdu) *)
Definition c_StartResumeReliablePdu : cls := mkcls "StartResumeReliablePdu" ["StartResumeReliablePdu"; "SimulationManagementWithReliabilityFamilyPdu"; "Pdu"; "PduSuperclass"]
  [
    (* opendis/dis7.py:5910 *)
    ("pduType", MAttr (LInt 53));
    (* opendis/dis7.py:5912-5926 *)
    ("__init__", MMeth (mkmeth KNormal false [("self", None); ("realWorldTime", Some (DLit (LNone))); ("simulationTime", Some (DLit (LNone))); ("requiredReliabilityService", Some (DLit (LInt 0))); ("requestID", Some (DLit (LInt 0)))]
       [Expr (Super "StartResumeReliablePdu" "__init__" [] []);
       SetAttr (Loc "self") "realWorldTime" (OrE (Loc "realWorldTime") (CallV (Glob "ClockTime") [] []));
       SetAttr (Loc "self") "simulationTime" (OrE (Loc "simulationTime") (CallV (Glob "ClockTime") [] []));
       SetAttr (Loc "self") "requiredReliabilityService" (Loc "requiredReliabilityService");
       SetAttr (Loc "self") "pad1" (Lit (LInt 0));
       SetAttr (Loc "self") "pad2" (Lit (LInt 0));
       SetAttr (Loc "self") "requestID" (Loc "requestID")]));
    (* opendis/dis7.py:5928-5936 *)
    ("serialize", MMeth (mkmeth KNormal false [("self", None); ("outputStream", None)]
       [Expr (Super "StartResumeReliablePdu" "serialize" [(Loc "outputStream")] []);
       Expr (Meth (Attr (Loc "self") "realWorldTime") "serialize" [(Loc "outputStream")] []);
       Expr (Meth (Attr (Loc "self") "simulationTime") "serialize" [(Loc "outputStream")] []);
       Expr (Meth (Loc "outputStream") "write_unsigned_byte" [(Attr (Loc "self") "requiredReliabilityService")] []);
       Expr (Meth (Loc "outputStream") "write_unsigned_short" [(Attr (Loc "self") "pad1")] []);
       Expr (Meth (Loc "outputStream") "write_unsigned_byte" [(Attr (Loc "self") "pad2")] []);
       Expr (Meth (Loc "outputStream") "write_unsigned_int" [(Attr (Loc "self") "requestID")] [])]));
    (* opendis/dis7.py:5938-5946 *)
    ("parse", MMeth (mkmeth KNormal false [("self", None); ("inputStream", None)]
       [Expr (Super "StartResumeReliablePdu" "parse" [(Loc "inputStream")] []);
       Expr (Meth (Attr (Loc "self") "realWorldTime") "parse" [(Loc "inputStream")] []);
       Expr (Meth (Attr (Loc "self") "simulationTime") "parse" [(Loc "inputStream")] []);
       SetAttr (Loc "self") "requiredReliabilityService" (Meth (Loc "inputStream") "read_unsigned_byte" [] []);
       SetAttr (Loc "self") "pad1" (Meth (Loc "inputStream") "read_unsigned_short" [] []);
       SetAttr (Loc "self") "pad2" (Meth (Loc "inputStream") "read_unsigned_byte" [] []);
       SetAttr (Loc "self") "requestID" (Meth (Loc "inputStream") "read_unsigned_int" [] [])]))
  ].

(* opendis/dis7.py:5949-6025  class ArealObjectStatePdu(SyntheticEnvironmentFamilyPdu) *)
Definition c_ArealObjectStatePdu : cls := mkcls "ArealObjectStatePdu" ["ArealObjectStatePdu"; "SyntheticEnvironmentFamilyPdu"; "Pdu"; "PduSuperclass"]
  [
    (* opendis/dis7.py:5956 *)
    ("pduType", MAttr (LInt 45));
    (* opendis/dis7.py:5958-5985 *)
    ("__init__", MMeth (mkmeth KNormal false [("self", None); ("objectID", Some (DLit (LNone))); ("referencedObjectID", Some (DLit (LNone))); ("updateNumber", Some (DLit (LInt 0))); ("forceId", Some (DLit (LInt 0))); ("modifications", Some (DLit (LInt 0))); ("objectType", Some (DLit (LNone))); ("specificObjectAppearance", Some (DLit (LInt 0))); ("generalObjectAppearance", Some (DLit (LInt 0))); ("requesterID", Some (DLit (LNone))); ("receivingID", Some (DLit (LNone))); ("objectLocation", Some (DLit (LNone)))]
       [Expr (Super "ArealObjectStatePdu" "__init__" [] []);
       SetAttr (Loc "self") "objectID" (OrE (Loc "objectID") (CallV (Glob "EntityIdentifier") [] []));
       SetAttr (Loc "self") "referencedObjectID" (OrE (Loc "referencedObjectID") (CallV (Glob "EntityIdentifier") [] []));
       SetAttr (Loc "self") "updateNumber" (Loc "updateNumber");
       SetAttr (Loc "self") "forceID" (Loc "forceId");
       SetAttr (Loc "self") "modifications" (Loc "modifications");
       SetAttr (Loc "self") "objectType" (OrE (Loc "objectType") (CallV (Glob "ObjectType") [] []));
       SetAttr (Loc "self") "specificObjectAppearance" (Loc "specificObjectAppearance");
       SetAttr (Loc "self") "generalObjectAppearance" (Loc "generalObjectAppearance");
       SetAttr (Loc "self") "requesterID" (OrE (Loc "requesterID") (CallV (Glob "SimulationAddress") [] []));
       SetAttr (Loc "self") "receivingID" (OrE (Loc "receivingID") (CallV (Glob "SimulationAddress") [] []));
       SetAttr (Loc "self") "objectLocation" (OrE (Loc "objectLocation") (ListE []))]));
    (* opendis/dis7.py:5988-5989 *)
    ("numberOfPoints", MMeth (mkmeth KProperty false [("self", None)]
       [Return (Builtin BLen [(Attr (Loc "self") "objectLocation")])]));
    (* opendis/dis7.py:5991-6006 *)
    ("serialize", MMeth (mkmeth KNormal false [("self", None); ("outputStream", None)]
       [Expr (Super "ArealObjectStatePdu" "serialize" [(Loc "outputStream")] []);
       Expr (Meth (Attr (Loc "self") "objectID") "serialize" [(Loc "outputStream")] []);
       Expr (Meth (Attr (Loc "self") "referencedObjectID") "serialize" [(Loc "outputStream")] []);
       Expr (Meth (Loc "outputStream") "write_unsigned_short" [(Attr (Loc "self") "updateNumber")] []);
       Expr (Meth (Loc "outputStream") "write_unsigned_byte" [(Attr (Loc "self") "forceID")] []);
       Expr (Meth (Loc "outputStream") "write_unsigned_byte" [(Attr (Loc "self") "modifications")] []);
       Expr (Meth (Attr (Loc "self") "objectType") "serialize" [(Loc "outputStream")] []);
       Expr (Meth (Loc "outputStream") "write_unsigned_int" [(Attr (Loc "self") "specificObjectAppearance")] []);
       Expr (Meth (Loc "outputStream") "write_unsigned_short" [(Attr (Loc "self") "generalObjectAppearance")] []);
       Expr (Meth (Loc "outputStream") "write_unsigned_short" [(Attr (Loc "self") "numberOfPoints")] []);
       Expr (Meth (Attr (Loc "self") "requesterID") "serialize" [(Loc "outputStream")] []);
       Expr (Meth (Attr (Loc "self") "receivingID") "serialize" [(Loc "outputStream")] []);
       For "anObj" (Attr (Loc "self") "objectLocation") [Expr (Meth (Loc "anObj") "serialize" [(Loc "outputStream")] [])]]));
    (* opendis/dis7.py:6008-6025 *)
    ("parse", MMeth (mkmeth KNormal false [("self", None); ("inputStream", None)]
       [Expr (Super "ArealObjectStatePdu" "parse" [(Loc "inputStream")] []);
       Expr (Meth (Attr (Loc "self") "objectID") "parse" [(Loc "inputStream")] []);
       Expr (Meth (Attr (Loc "self") "referencedObjectID") "parse" [(Loc "inputStream")] []);
       SetAttr (Loc "self") "updateNumber" (Meth (Loc "inputStream") "read_unsigned_short" [] []);
       SetAttr (Loc "self") "forceID" (Meth (Loc "inputStream") "read_unsigned_byte" [] []);
       SetAttr (Loc "self") "modifications" (Meth (Loc "inputStream") "read_unsigned_byte" [] []);
       Expr (Meth (Attr (Loc "self") "objectType") "parse" [(Loc "inputStream")] []);
       SetAttr (Loc "self") "specificObjectAppearance" (Meth (Loc "inputStream") "read_unsigned_int" [] []);
       SetAttr (Loc "self") "generalObjectAppearance" (Meth (Loc "inputStream") "read_unsigned_short" [] []);
       Assign "numberOfPoints" (Meth (Loc "inputStream") "read_unsigned_short" [] []);
       Expr (Meth (Attr (Loc "self") "requesterID") "parse" [(Loc "inputStream")] []);
       Expr (Meth (Attr (Loc "self") "receivingID") "parse" [(Loc "inputStream")] []);
       For "idx" (Builtin BRange [(Lit (LInt 0)); (Loc "numberOfPoints")]) [Assign "element" (CallV (Glob "WorldCoordinates") [] []); Expr (Meth (Loc "element") "parse" [(Loc "inputStream")] []); Expr (Meth (Attr (Loc "self") "objectLocation") "append" [(Loc "element")] [])]]))
  ].

(* opendis/dis7.py:6028-6087  class DataQueryReliablePdu(SimulationManagementWithReliabilityFamilyPdu) *)
Definition c_DataQueryReliablePdu : cls := mkcls "DataQueryReliablePdu" ["DataQueryReliablePdu"; "SimulationManagementWithReliabilityFamilyPdu"; "Pdu"; "PduSuperclass"]
  [
    (* opendis/dis7.py:6033 *)
    ("pduType", MAttr (LInt 58));
    (* opendis/dis7.py:6035-6051 *)
    ("__init__", MMeth (mkmeth KNormal false [("self", None); ("requiredReliabilityService", Some (DLit (LInt 0))); ("requestID", Some (DLit (LInt 0))); ("timeInterval", Some (DLit (LInt 0))); ("fixedDatumIDs", Some (DLit (LNone))); ("variableDatumIDs", Some (DLit (LNone)))]
       [Expr (Super "DataQueryReliablePdu" "__init__" [] []);
       SetAttr (Loc "self") "requiredReliabilityService" (Loc "requiredReliabilityService");
       SetAttr (Loc "self") "pad1" (Lit (LInt 0));
       SetAttr (Loc "self") "pad2" (Lit (LInt 0));
       SetAttr (Loc "self") "requestID" (Loc "requestID");
       SetAttr (Loc "self") "timeInterval" (Loc "timeInterval");
       SetAttr (Loc "self") "_dataQuery" (CallV (Glob "DataQueryDatumSpecification") [(OrE (Loc "fixedDatumIDs") (ListE [])); (OrE (Loc "variableDatumIDs") (ListE []))] [])]));
    (* opendis/dis7.py:6054-6055 *)
    ("numberOfFixedDatumIDs", MMeth (mkmeth KProperty false [("self", None)]
       [Return (Attr (Attr (Loc "self") "_dataQuery") "numberOfFixedDatumIDs")]));
    (* opendis/dis7.py:6058-6059 *)
    ("numberOfVariableDatumIDs", MMeth (mkmeth KProperty false [("self", None)]
       [Return (Attr (Attr (Loc "self") "_dataQuery") "numberOfVariableDatumIDs")]));
    (* opendis/dis7.py:6062-6063 *)
    ("fixedDatumIDs", MMeth (mkmeth KProperty false [("self", None)]
       [Return (Attr (Attr (Loc "self") "_dataQuery") "fixedDatumIDs")]));
    (* opendis/dis7.py:6066-6067 *)
    ("variableDatumIDs", MMeth (mkmeth KProperty false [("self", None)]
       [Return (Attr (Attr (Loc "self") "_dataQuery") "variableDatumIDs")]));
    (* opendis/dis7.py:6069-6077 *)
    ("serialize", MMeth (mkmeth KNormal false [("self", None); ("outputStream", None)]
       [Expr (Super "DataQueryReliablePdu" "serialize" [(Loc "outputStream")] []);
       Expr (Meth (Loc "outputStream") "write_unsigned_byte" [(Attr (Loc "self") "requiredReliabilityService")] []);
       Expr (Meth (Loc "outputStream") "write_unsigned_short" [(Attr (Loc "self") "pad1")] []);
       Expr (Meth (Loc "outputStream") "write_unsigned_byte" [(Attr (Loc "self") "pad2")] []);
       Expr (Meth (Loc "outputStream") "write_unsigned_int" [(Attr (Loc "self") "requestID")] []);
       Expr (Meth (Loc "outputStream") "write_unsigned_int" [(Attr (Loc "self") "timeInterval")] []);
       Expr (Meth (Attr (Loc "self") "_dataQuery") "serialize" [(Loc "outputStream")] [])]));
    (* opendis/dis7.py:6079-6087 *)
    ("parse", MMeth (mkmeth KNormal false [("self", None); ("inputStream", None)]
       [Expr (Super "DataQueryReliablePdu" "parse" [(Loc "inputStream")] []);
       SetAttr (Loc "self") "requiredReliabilityService" (Meth (Loc "inputStream") "read_unsigned_byte" [] []);
       SetAttr (Loc "self") "pad1" (Meth (Loc "inputStream") "read_unsigned_short" [] []);
       SetAttr (Loc "self") "pad2" (Meth (Loc "inputStream") "read_unsigned_byte" [] []);
       SetAttr (Loc "self") "requestID" (Meth (Loc "inputStream") "read_unsigned_int" [] []);
       SetAttr (Loc "self") "timeInterval" (Meth (Loc "inputStream") "read_unsigned_int" [] []);
       Expr (Meth (Attr (Loc "self") "_dataQuery") "parse" [(Loc "inputStream")] [])]))
  ].

(* opendis/dis7.py:6090-6172  class MinefieldStatePdu(MinefieldFamilyPdu) *)
Definition c_MinefieldStatePdu : cls := mkcls "MinefieldStatePdu" ["MinefieldStatePdu"; "MinefieldFamilyPdu"; "Pdu"; "PduSuperclass"]
  [
    (* opendis/dis7.py:6096 *)
    ("pduType", MAttr (LInt 37));
    (* opendis/dis7.py:6098-6122 *)
    ("__init__", MMeth (mkmeth KNormal false [("self", None); ("minefieldID", Some (DLit (LNone))); ("minefieldSequence", Some (DLit (LInt 0))); ("forceID", Some (DLit (LInt 0))); ("minefieldType", Some (DLit (LNone))); ("minefieldLocation", Some (DLit (LNone))); ("minefieldOrientation", Some (DLit (LNone))); ("appearance", Some (DLit (LInt 0))); ("protocolMode", Some (DLit (LInt 0))); ("perimeterPoints", Some (DLit (LNone))); ("mineTypes", Some (DLit (LNone)))]
       [Expr (Super "MinefieldStatePdu" "__init__" [] []);
       SetAttr (Loc "self") "minefieldID" (OrE (Loc "minefieldID") (CallV (Glob "MinefieldIdentifier") [] []));
       SetAttr (Loc "self") "minefieldSequence" (Loc "minefieldSequence");
       SetAttr (Loc "self") "forceID" (Loc "forceID");
       SetAttr (Loc "self") "minefieldType" (OrE (Loc "minefieldType") (CallV (Glob "EntityType") [] []));
       SetAttr (Loc "self") "minefieldLocation" (OrE (Loc "minefieldLocation") (CallV (Glob "WorldCoordinates") [] []));
       SetAttr (Loc "self") "minefieldOrientation" (OrE (Loc "minefieldOrientation") (CallV (Glob "EulerAngles") [] []));
       SetAttr (Loc "self") "appearance" (Loc "appearance");
       SetAttr (Loc "self") "protocolMode" (Loc "protocolMode");
       SetAttr (Loc "self") "perimeterPoints" (OrE (Loc "perimeterPoints") (ListE []));
       SetAttr (Loc "self") "mineTypes" (OrE (Loc "mineTypes") (ListE []))]));
    (* opendis/dis7.py:6125-6126 *)
    ("numberOfPerimeterPoints", MMeth (mkmeth KProperty false [("self", None)]
       [Return (Builtin BLen [(Attr (Loc "self") "perimeterPoints")])]));
    (* opendis/dis7.py:6129-6130 *)
    ("numberOfMineTypes", MMeth (mkmeth KProperty false [("self", None)]
       [Return (Builtin BLen [(Attr (Loc "self") "mineTypes")])]));
    (* opendis/dis7.py:6132-6149 *)
    ("serialize", MMeth (mkmeth KNormal false [("self", None); ("outputStream", None)]
       [Expr (Super "MinefieldStatePdu" "serialize" [(Loc "outputStream")] []);
       Expr (Meth (Attr (Loc "self") "minefieldID") "serialize" [(Loc "outputStream")] []);
       Expr (Meth (Loc "outputStream") "write_unsigned_short" [(Attr (Loc "self") "minefieldSequence")] []);
       Expr (Meth (Loc "outputStream") "write_unsigned_byte" [(Attr (Loc "self") "forceID")] []);
       Expr (Meth (Loc "outputStream") "write_unsigned_byte" [(Attr (Loc "self") "numberOfPerimeterPoints")] []);
       Expr (Meth (Attr (Loc "self") "minefieldType") "serialize" [(Loc "outputStream")] []);
       Expr (Meth (Loc "outputStream") "write_unsigned_short" [(Attr (Loc "self") "numberOfMineTypes")] []);
       Expr (Meth (Attr (Loc "self") "minefieldLocation") "serialize" [(Loc "outputStream")] []);
       Expr (Meth (Attr (Loc "self") "minefieldOrientation") "serialize" [(Loc "outputStream")] []);
       Expr (Meth (Loc "outputStream") "write_unsigned_short" [(Attr (Loc "self") "appearance")] []);
       Expr (Meth (Loc "outputStream") "write_unsigned_short" [(Attr (Loc "self") "protocolMode")] []);
       For "anObj" (Attr (Loc "self") "perimeterPoints") [Expr (Meth (Loc "anObj") "serialize" [(Loc "outputStream")] [])];
       For "anObj" (Attr (Loc "self") "mineTypes") [Expr (Meth (Loc "anObj") "serialize" [(Loc "outputStream")] [])]]));
    (* opendis/dis7.py:6151-6172 *)
    ("parse", MMeth (mkmeth KNormal false [("self", None); ("inputStream", None)]
       [Expr (Super "MinefieldStatePdu" "parse" [(Loc "inputStream")] []);
       Expr (Meth (Attr (Loc "self") "minefieldID") "parse" [(Loc "inputStream")] []);
       SetAttr (Loc "self") "minefieldSequence" (Meth (Loc "inputStream") "read_unsigned_short" [] []);
       SetAttr (Loc "self") "forceID" (Meth (Loc "inputStream") "read_unsigned_byte" [] []);
       Assign "numberOfPerimeterPoints" (Meth (Loc "inputStream") "read_unsigned_byte" [] []);
       Expr (Meth (Attr (Loc "self") "minefieldType") "parse" [(Loc "inputStream")] []);
       Assign "numberOfMineTypes" (Meth (Loc "inputStream") "read_unsigned_short" [] []);
       Expr (Meth (Attr (Loc "self") "minefieldLocation") "parse" [(Loc "inputStream")] []);
       Expr (Meth (Attr (Loc "self") "minefieldOrientation") "parse" [(Loc "inputStream")] []);
       SetAttr (Loc "self") "appearance" (Meth (Loc "inputStream") "read_unsigned_short" [] []);
       SetAttr (Loc "self") "protocolMode" (Meth (Loc "inputStream") "read_unsigned_short" [] []);
       For "idx" (Builtin BRange [(Lit (LInt 0)); (Loc "numberOfPerimeterPoints")]) [Assign "element" (CallV (Glob "Vector2Float") [] []); Expr (Meth (Loc "element") "parse" [(Loc "inputStream")] []); Expr (Meth (Attr (Loc "self") "perimeterPoints") "append" [(Loc "element")] [])];
       For "idx" (Builtin BRange [(Lit (LInt 0)); (Loc "numberOfMineTypes")]) [Assign "element" (CallV (Glob "EntityType") [] []); Expr (Meth (Loc "element") "parse" [(Loc "inputStream")] []); Expr (Meth (Attr (Loc "self") "mineTypes") "append" [(Loc "element")] [])]]))
  ].

(* opendis/dis7.py:6175-6230  class DataReliablePdu(SimulationManagementWithReliabilityFamilyPdu) *)
Definition c_DataReliablePdu : cls := mkcls "DataReliablePdu" ["DataReliablePdu"; "SimulationManagementWithReliabilityFamilyPdu"; "Pdu"; "PduSuperclass"]
  [
    (* opendis/dis7.py:6181 *)
    ("pduType", MAttr (LInt 60));
    (* opendis/dis7.py:6183-6196 *)
    ("__init__", MMeth (mkmeth KNormal false [("self", None); ("requestID", Some (DLit (LInt 0))); ("requiredReliabilityService", Some (DLit (LInt 0))); ("fixedDatumRecords", Some (DLit (LNone))); ("variableDatumRecords", Some (DLit (LNone)))]
       [Expr (Super "DataReliablePdu" "__init__" [] []);
       SetAttr (Loc "self") "requestID" (Loc "requestID");
       SetAttr (Loc "self") "requiredReliabilityService" (Loc "requiredReliabilityService");
       SetAttr (Loc "self") "pad1" (Lit (LInt 0));
       SetAttr (Loc "self") "pad2" (Lit (LInt 0));
       SetAttr (Loc "self") "_datums" (CallV (Glob "DatumSpecification") [(OrE (Loc "fixedDatumRecords") (ListE [])); (OrE (Loc "variableDatumRecords") (ListE []))] [])]));
    (* opendis/dis7.py:6199-6200 *)
    ("numberOfFixedDatumRecords", MMeth (mkmeth KProperty false [("self", None)]
       [Return (Attr (Attr (Loc "self") "_datums") "numberOfFixedDatumRecords")]));
    (* opendis/dis7.py:6203-6204 *)
    ("numberOfVariableDatumRecords", MMeth (mkmeth KProperty false [("self", None)]
       [Return (Attr (Attr (Loc "self") "_datums") "numberOfVariableDatumRecords")]));
    (* opendis/dis7.py:6207-6208 *)
    ("fixedDatumRecords", MMeth (mkmeth KProperty false [("self", None)]
       [Return (Attr (Attr (Loc "self") "_datums") "fixedDatumRecords")]));
    (* opendis/dis7.py:6211-6212 *)
    ("variableDatumRecords", MMeth (mkmeth KProperty false [("self", None)]
       [Return (Attr (Attr (Loc "self") "_datums") "variableDatumRecords")]));
    (* opendis/dis7.py:6214-6221 *)
    ("serialize", MMeth (mkmeth KNormal false [("self", None); ("outputStream", None)]
       [Expr (Super "DataReliablePdu" "serialize" [(Loc "outputStream")] []);
       Expr (Meth (Loc "outputStream") "write_unsigned_int" [(Attr (Loc "self") "requestID")] []);
       Expr (Meth (Loc "outputStream") "write_unsigned_byte" [(Attr (Loc "self") "requiredReliabilityService")] []);
       Expr (Meth (Loc "outputStream") "write_unsigned_short" [(Attr (Loc "self") "pad1")] []);
       Expr (Meth (Loc "outputStream") "write_unsigned_byte" [(Attr (Loc "self") "pad2")] []);
       Expr (Meth (Attr (Loc "self") "_datums") "serialize" [(Loc "outputStream")] [])]));
    (* opendis/dis7.py:6223-6230 *)
    ("parse", MMeth (mkmeth KNormal false [("self", None); ("inputStream", None)]
       [Expr (Super "DataReliablePdu" "parse" [(Loc "inputStream")] []);
       SetAttr (Loc "self") "requestID" (Meth (Loc "inputStream") "read_unsigned_int" [] []);
       SetAttr (Loc "self") "requiredReliabilityService" (Meth (Loc "inputStream") "read_unsigned_byte" [] []);
       SetAttr (Loc "self") "pad1" (Meth (Loc "inputStream") "read_unsigned_short" [] []);
       SetAttr (Loc "self") "pad2" (Meth (Loc "inputStream") "read_unsigned_byte" [] []);
       Expr (Meth (Attr (Loc "self") "_datums") "parse" [(Loc "inputStream")] [])]))
  ].

(* opendis/dis7.py:6233-6272  class CommentPdu(SimulationManagementFamilyPdu) *)
Definition c_CommentPdu : cls := mkcls "CommentPdu" ["CommentPdu"; "SimulationManagementFamilyPdu"; "Pdu"; "PduSuperclass"]
  [
    (* opendis/dis7.py:6238 *)
    ("pduType", MAttr (LInt 22));
    (* opendis/dis7.py:6240-6246 *)
    ("__init__", MMeth (mkmeth KNormal false [("self", None); ("fixedDatumRecords", Some (DLit (LNone))); ("variableDatumRecords", Some (DLit (LNone)))]
       [Expr (Super "CommentPdu" "__init__" [] []);
       SetAttr (Loc "self") "_datums" (CallV (Glob "DatumSpecification") [(OrE (Loc "fixedDatumRecords") (ListE [])); (OrE (Loc "variableDatumRecords") (ListE []))] [])]));
    (* opendis/dis7.py:6249-6250 *)
    ("numberOfFixedDatumRecords", MMeth (mkmeth KProperty false [("self", None)]
       [Return (Attr (Attr (Loc "self") "_datums") "numberOfFixedDatumRecords")]));
    (* opendis/dis7.py:6253-6254 *)
    ("numberOfVariableDatumRecords", MMeth (mkmeth KProperty false [("self", None)]
       [Return (Attr (Attr (Loc "self") "_datums") "numberOfVariableDatumRecords")]));
    (* opendis/dis7.py:6257-6258 *)
    ("fixedDatumRecords", MMeth (mkmeth KProperty false [("self", None)]
       [Return (Attr (Attr (Loc "self") "_datums") "fixedDatumRecords")]));
    (* opendis/dis7.py:6261-6262 *)
    ("variableDatumRecords", MMeth (mkmeth KProperty false [("self", None)]
       [Return (Attr (Attr (Loc "self") "_datums") "variableDatumRecords")]));
    (* opendis/dis7.py:6264-6267 *)
    ("serialize", MMeth (mkmeth KNormal false [("self", None); ("outputStream", None)]
       [Expr (Super "CommentPdu" "serialize" [(Loc "outputStream")] []);
       Expr (Meth (Attr (Loc "self") "_datums") "serialize" [(Loc "outputStream")] [])]));
    (* opendis/dis7.py:6269-6272 *)
    ("parse", MMeth (mkmeth KNormal false [("self", None); ("inputStream", None)]
       [Expr (Super "CommentPdu" "parse" [(Loc "inputStream")] []);
       Expr (Meth (Attr (Loc "self") "_datums") "parse" [(Loc "inputStream")] [])]))
  ].

(* opendis/dis7.py:6275-6315  class CommentReliablePdu(SimulationManagementWithReliabilityFamilyPdu) *)
Definition c_CommentReliablePdu : cls := mkcls "CommentReliablePdu" ["CommentReliablePdu"; "SimulationManagementWithReliabilityFamilyPdu"; "Pdu"; "PduSuperclass"]
  [
    (* opendis/dis7.py:6281 *)
    ("pduType", MAttr (LInt 62));
    (* opendis/dis7.py:6283-6289 *)
    ("__init__", MMeth (mkmeth KNormal false [("self", None); ("fixedDatumRecords", Some (DLit (LNone))); ("variableDatumRecords", Some (DLit (LNone)))]
       [Expr (Super "CommentReliablePdu" "__init__" [] []);
       SetAttr (Loc "self") "_datums" (CallV (Glob "DatumSpecification") [(OrE (Loc "fixedDatumRecords") (ListE [])); (OrE (Loc "variableDatumRecords") (ListE []))] [])]));
    (* opendis/dis7.py:6292-6293 *)
    ("numberOfFixedDatumRecords", MMeth (mkmeth KProperty false [("self", None)]
       [Return (Attr (Attr (Loc "self") "_datums") "numberOfFixedDatumRecords")]));
    (* opendis/dis7.py:6296-6297 *)
    ("numberOfVariableDatumRecords", MMeth (mkmeth KProperty false [("self", None)]
       [Return (Attr (Attr (Loc "self") "_datums") "numberOfVariableDatumRecords")]));
    (* opendis/dis7.py:6300-6301 *)
    ("fixedDatumRecords", MMeth (mkmeth KProperty false [("self", None)]
       [Return (Attr (Attr (Loc "self") "_datums") "fixedDatumRecords")]));
    (* opendis/dis7.py:6304-6305 *)
    ("variableDatumRecords", MMeth (mkmeth KProperty false [("self", None)]
       [Return (Attr (Attr (Loc "self") "_datums") "variableDatumRecords")]));
    (* opendis/dis7.py:6307-6310 *)
    ("serialize", MMeth (mkmeth KNormal false [("self", None); ("outputStream", None)]
       [Expr (Super "CommentReliablePdu" "serialize" [(Loc "outputStream")] []);
       Expr (Meth (Attr (Loc "self") "_datums") "serialize" [(Loc "outputStream")] [])]));
    (* opendis/dis7.py:6312-6315 *)
    ("parse", MMeth (mkmeth KNormal false [("self", None); ("inputStream", None)]
       [Expr (Super "CommentReliablePdu" "parse" [(Loc "inputStream")] []);
       Expr (Meth (Attr (Loc "self") "_datums") "parse" [(Loc "inputStream")] [])]))
  ].

(* opendis/dis7.py:6318-6403  class DirectedEnergyFirePdu(WarfareFamilyPdu) *)
Definition c_DirectedEnergyFirePdu : cls := mkcls "DirectedEnergyFirePdu" ["DirectedEnergyFirePdu"; "WarfareFamilyPdu"; "Pdu"; "PduSuperclass"]
  [
    (* opendis/dis7.py:6324 *)
    ("pduType", MAttr (LInt 68));
    (* opendis/dis7.py:6326-6355 *)
    ("__init__", MMeth (mkmeth KNormal false [("self", None); ("munitionType", Some (DLit (LNone))); ("shotStartTime", Some (DLit (LNone))); ("cumulativeShotTime", Some (DLit (LFloat 0))); ("apertureEmitterLocation", Some (DLit (LNone))); ("apertureDiameter", Some (DLit (LFloat 0))); ("wavelength", Some (DLit (LFloat 0))); ("pulseRepetitionFrequency", Some (DLit (LFloat 0))); ("pulseWidth", Some (DLit (LInt 0))); ("flags", Some (DLit (LNone))); ("pulseShape", Some (DLit (LInt 0))); ("dERecords", Some (DLit (LNone)))]
       [Expr (Super "DirectedEnergyFirePdu" "__init__" [] []);
       SetAttr (Loc "self") "munitionType" (OrE (Loc "munitionType") (CallV (Glob "EntityType") [] []));
       SetAttr (Loc "self") "shotStartTime" (OrE (Loc "shotStartTime") (CallV (Glob "ClockTime") [] []));
       SetAttr (Loc "self") "cumulativeShotTime" (Loc "cumulativeShotTime");
       SetAttr (Loc "self") "apertureEmitterLocation" (OrE (Loc "apertureEmitterLocation") (CallV (Glob "Vector3Float") [] []));
       SetAttr (Loc "self") "apertureDiameter" (Loc "apertureDiameter");
       SetAttr (Loc "self") "wavelength" (Loc "wavelength");
       SetAttr (Loc "self") "padding1" (Lit (LInt 0));
       SetAttr (Loc "self") "pulseRepetitionFrequency" (Loc "pulseRepetitionFrequency");
       SetAttr (Loc "self") "pulseWidth" (Loc "pulseWidth");
       SetAttr (Loc "self") "flags" (OrE (Loc "flags") (CallV (Glob "DEFireFlags") [] []));
       SetAttr (Loc "self") "pulseShape" (Loc "pulseShape");
       SetAttr (Loc "self") "padding2" (Lit (LInt 0));
       SetAttr (Loc "self") "padding3" (Lit (LInt 0));
       SetAttr (Loc "self") "padding4" (Lit (LInt 0));
       SetAttr (Loc "self") "dERecords" (OrE (Loc "dERecords") (ListE []))]));
    (* opendis/dis7.py:6358-6359 *)
    ("numberOfDERecords", MMeth (mkmeth KProperty false [("self", None)]
       [Return (Builtin BLen [(Attr (Loc "self") "dERecords")])]));
    (* opendis/dis7.py:6361-6379 *)
    ("serialize", MMeth (mkmeth KNormal false [("self", None); ("outputStream", None)]
       [Expr (Super "DirectedEnergyFirePdu" "serialize" [(Loc "outputStream")] []);
       Expr (Meth (Attr (Loc "self") "munitionType") "serialize" [(Loc "outputStream")] []);
       Expr (Meth (Attr (Loc "self") "shotStartTime") "serialize" [(Loc "outputStream")] []);
       Expr (Meth (Loc "outputStream") "write_float32" [(Attr (Loc "self") "commulativeShotTime")] []);
       Expr (Meth (Attr (Loc "self") "apertureEmitterLocation") "serialize" [(Loc "outputStream")] []);
       Expr (Meth (Loc "outputStream") "write_float32" [(Attr (Loc "self") "apertureDiameter")] []);
       Expr (Meth (Loc "outputStream") "write_float32" [(Attr (Loc "self") "wavelength")] []);
       Expr (Meth (Loc "outputStream") "write_uint32" [(Attr (Loc "self") "padding1")] []);
       Expr (Meth (Loc "outputStream") "write_float32" [(Attr (Loc "self") "pulseRepetitionFrequency")] []);
       Expr (Meth (Loc "outputStream") "write_float32" [(Attr (Loc "self") "pulseWidth")] []);
       Expr (Meth (Attr (Loc "self") "flags") "serialize" [(Loc "outputStream")] []);
       Expr (Meth (Loc "outputStream") "write_uint8" [(Attr (Loc "self") "pulseShape")] []);
       Expr (Meth (Loc "outputStream") "write_uint8" [(Attr (Loc "self") "padding2")] []);
       Expr (Meth (Loc "outputStream") "write_uint32" [(Attr (Loc "self") "padding3")] []);
       Expr (Meth (Loc "outputStream") "write_uint16" [(Attr (Loc "self") "padding4")] []);
       Expr (Meth (Loc "outputStream") "write_uint16" [(Attr (Loc "self") "numberOfDERecords")] []);
       For "record" (Attr (Loc "self") "dERecords") [Expr (Meth (Loc "record") "serialize" [(Loc "outputStream")] [])]]));
    (* opendis/dis7.py:6381-6403 *)
    ("parse", MMeth (mkmeth KNormal false [("self", None); ("inputStream", None)]
       [Expr (Super "DirectedEnergyFirePdu" "parse" [(Loc "inputStream")] []);
       Expr (Meth (Attr (Loc "self") "munitionType") "parse" [(Loc "inputStream")] []);
       Expr (Meth (Attr (Loc "self") "shotStartTime") "parse" [(Loc "inputStream")] []);
       SetAttr (Loc "self") "commulativeShotTime" (Meth (Loc "inputStream") "read_float32" [] []);
       Expr (Meth (Attr (Loc "self") "apertureEmitterLocation") "parse" [(Loc "inputStream")] []);
       SetAttr (Loc "self") "apertureDiameter" (Meth (Loc "inputStream") "read_float32" [] []);
       SetAttr (Loc "self") "wavelength" (Meth (Loc "inputStream") "read_float32" [] []);
       SetAttr (Loc "self") "padding1" (Meth (Loc "inputStream") "read_uint32" [] []);
       SetAttr (Loc "self") "pulseRepetitionFrequency" (Meth (Loc "inputStream") "read_float32" [] []);
       SetAttr (Loc "self") "pulseWidth" (Meth (Loc "inputStream") "read_float32" [] []);
       Expr (Meth (Attr (Loc "self") "flags") "parse" [(Loc "inputStream")] []);
       SetAttr (Loc "self") "pulseShape" (Meth (Loc "inputStream") "read_uint8" [] []);
       SetAttr (Loc "self") "padding2" (Meth (Loc "inputStream") "read_uint8" [] []);
       SetAttr (Loc "self") "padding3" (Meth (Loc "inputStream") "read_uint32" [] []);
       SetAttr (Loc "self") "padding4" (Meth (Loc "inputStream") "read_uint16" [] []);
       Assign "numberOfDERecords" (Meth (Loc "inputStream") "read_uint16" [] []);
       For "_" (Builtin BRange [(Lit (LInt 0)); (Loc "numberOfDERecords")]) [Assign "vtp" (CallV (Glob "parseStandardVariableRecord") [(Loc "inputStream"); (Glob "DamageDescriptionRecord")] []); Expr (Meth (Attr (Loc "self") "dERecords") "append" [(Loc "vtp")] [])]]))
  ].

(* opendis/dis7.py:6406-6475  class DetonationPdu(WarfareFamilyPdu) *)
Definition c_DetonationPdu : cls := mkcls "DetonationPdu" ["DetonationPdu"; "WarfareFamilyPdu"; "Pdu"; "PduSuperclass"]
  [
    (* opendis/dis7.py:6413 *)
    ("pduType", MAttr (LInt 3));
    (* opendis/dis7.py:6415-6439 *)
    ("__init__", MMeth (mkmeth KNormal false [("self", None); ("explodingEntityID", Some (DLit (LNone))); ("eventID", Some (DLit (LNone))); ("velocity", Some (DLit (LNone))); ("location", Some (DLit (LNone))); ("descriptor", Some (DLit (LNone))); ("locationInEntityCoordinates", Some (DLit (LNone))); ("detonationResult", Some (DLit (LInt 0))); ("variableParameters", Some (DLit (LNone)))]
       [Expr (Super "DetonationPdu" "__init__" [] []);
       SetAttr (Loc "self") "explodingEntityID" (OrE (Loc "explodingEntityID") (CallV (Glob "EntityIdentifier") [] []));
       SetAttr (Loc "self") "eventID" (OrE (Loc "eventID") (CallV (Glob "EventIdentifier") [] []));
       SetAttr (Loc "self") "velocity" (OrE (Loc "velocity") (CallV (Glob "Vector3Float") [] []));
       SetAttr (Loc "self") "location" (OrE (Loc "location") (CallV (Glob "WorldCoordinates") [] []));
       SetAttr (Loc "self") "descriptor" (OrE (Loc "descriptor") (CallV (Glob "MunitionDescriptor") [] []));
       SetAttr (Loc "self") "locationInEntityCoordinates" (OrE (Loc "locationInEntityCoordinates") (CallV (Glob "Vector3Float") [] []));
       SetAttr (Loc "self") "detonationResult" (Loc "detonationResult");
       SetAttr (Loc "self") "pad" (Lit (LInt 0));
       SetAttr (Loc "self") "variableParameters" (OrE (Loc "variableParameters") (ListE []))]));
    (* opendis/dis7.py:6442-6443 *)
    ("numberOfVariableParameters", MMeth (mkmeth KProperty false [("self", None)]
       [Return (Builtin BLen [(Attr (Loc "self") "variableParameters")])]));
    (* opendis/dis7.py:6445-6458 *)
    ("serialize", MMeth (mkmeth KNormal false [("self", None); ("outputStream", None)]
       [Expr (Super "DetonationPdu" "serialize" [(Loc "outputStream")] []);
       Expr (Meth (Attr (Loc "self") "explodingEntityID") "serialize" [(Loc "outputStream")] []);
       Expr (Meth (Attr (Loc "self") "eventID") "serialize" [(Loc "outputStream")] []);
       Expr (Meth (Attr (Loc "self") "velocity") "serialize" [(Loc "outputStream")] []);
       Expr (Meth (Attr (Loc "self") "location") "serialize" [(Loc "outputStream")] []);
       Expr (Meth (Attr (Loc "self") "descriptor") "serialize" [(Loc "outputStream")] []);
       Expr (Meth (Attr (Loc "self") "locationInEntityCoordinates") "serialize" [(Loc "outputStream")] []);
       Expr (Meth (Loc "outputStream") "write_unsigned_byte" [(Attr (Loc "self") "detonationResult")] []);
       Expr (Meth (Loc "outputStream") "write_unsigned_byte" [(Attr (Loc "self") "numberOfVariableParameters")] []);
       Expr (Meth (Loc "outputStream") "write_unsigned_short" [(Attr (Loc "self") "pad")] []);
       For "anObj" (Attr (Loc "self") "variableParameters") [Expr (Meth (Loc "anObj") "serialize" [(Loc "outputStream")] [])]]));
    (* opendis/dis7.py:6460-6475 *)
    ("parse", MMeth (mkmeth KNormal false [("self", None); ("inputStream", None)]
       [Expr (Super "DetonationPdu" "parse" [(Loc "inputStream")] []);
       Expr (Meth (Attr (Loc "self") "explodingEntityID") "parse" [(Loc "inputStream")] []);
       Expr (Meth (Attr (Loc "self") "eventID") "parse" [(Loc "inputStream")] []);
       Expr (Meth (Attr (Loc "self") "velocity") "parse" [(Loc "inputStream")] []);
       Expr (Meth (Attr (Loc "self") "location") "parse" [(Loc "inputStream")] []);
       Expr (Meth (Attr (Loc "self") "descriptor") "parse" [(Loc "inputStream")] []);
       Expr (Meth (Attr (Loc "self") "locationInEntityCoordinates") "parse" [(Loc "inputStream")] []);
       SetAttr (Loc "self") "detonationResult" (Meth (Loc "inputStream") "read_unsigned_byte" [] []);
       Assign "numberOfVariableParameters" (Meth (Loc "inputStream") "read_unsigned_byte" [] []);
       SetAttr (Loc "self") "pad" (Meth (Loc "inputStream") "read_unsigned_short" [] []);
       For "idx" (Builtin BRange [(Lit (LInt 0)); (Loc "numberOfVariableParameters")]) [Assign "element" (CallV (Glob "VariableParameter") [] []); Expr (Meth (Loc "element") "parse" [(Loc "inputStream")] []); Expr (Meth (Attr (Loc "self") "variableParameters") "append" [(Loc "element")] [])]]))
  ].

(* opendis/dis7.py:6478-6524  class SetDataPdu(SimulationManagementFamilyPdu) *)
Definition c_SetDataPdu : cls := mkcls "SetDataPdu" ["SetDataPdu"; "SimulationManagementFamilyPdu"; "Pdu"; "PduSuperclass"]
  [
    (* opendis/dis7.py:6483 *)
    ("pduType", MAttr (LInt 19));
    (* opendis/dis7.py:6485-6494 *)
    ("__init__", MMeth (mkmeth KNormal false [("self", None); ("requestID", Some (DLit (LInt 0))); ("fixedDatumRecords", Some (DLit (LNone))); ("variableDatumRecords", Some (DLit (LNone)))]
       [Expr (Super "SetDataPdu" "__init__" [] []);
       SetAttr (Loc "self") "requestID" (Loc "requestID");
       SetAttr (Loc "self") "padding1" (Lit (LInt 0));
       SetAttr (Loc "self") "_datums" (CallV (Glob "DatumSpecification") [(OrE (Loc "fixedDatumRecords") (ListE [])); (OrE (Loc "variableDatumRecords") (ListE []))] [])]));
    (* opendis/dis7.py:6497-6498 *)
    ("numberOfFixedDatumRecords", MMeth (mkmeth KProperty false [("self", None)]
       [Return (Attr (Attr (Loc "self") "_datums") "numberOfFixedDatumRecords")]));
    (* opendis/dis7.py:6501-6502 *)
    ("numberOfVariableDatumRecords", MMeth (mkmeth KProperty false [("self", None)]
       [Return (Attr (Attr (Loc "self") "_datums") "numberOfVariableDatumRecords")]));
    (* opendis/dis7.py:6505-6506 *)
    ("fixedDatumRecords", MMeth (mkmeth KProperty false [("self", None)]
       [Return (Attr (Attr (Loc "self") "_datums") "fixedDatumRecords")]));
    (* opendis/dis7.py:6509-6510 *)
    ("variableDatumRecords", MMeth (mkmeth KProperty false [("self", None)]
       [Return (Attr (Attr (Loc "self") "_datums") "variableDatumRecords")]));
    (* opendis/dis7.py:6512-6517 *)
    ("serialize", MMeth (mkmeth KNormal false [("self", None); ("outputStream", None)]
       [Expr (Super "SetDataPdu" "serialize" [(Loc "outputStream")] []);
       Expr (Meth (Loc "outputStream") "write_unsigned_int" [(Attr (Loc "self") "requestID")] []);
       Expr (Meth (Loc "outputStream") "write_unsigned_int" [(Attr (Loc "self") "padding1")] []);
       Expr (Meth (Attr (Loc "self") "_datums") "serialize" [(Loc "outputStream")] [])]));
    (* opendis/dis7.py:6519-6524 *)
    ("parse", MMeth (mkmeth KNormal false [("self", None); ("inputStream", None)]
       [Expr (Super "SetDataPdu" "parse" [(Loc "inputStream")] []);
       SetAttr (Loc "self") "requestID" (Meth (Loc "inputStream") "read_unsigned_int" [] []);
       SetAttr (Loc "self") "padding1" (Meth (Loc "inputStream") "read_unsigned_int" [] []);
       Expr (Meth (Attr (Loc "self") "_datums") "parse" [(Loc "inputStream")] [])]))
  ].

(* opendis/dis7.py:6527-6581  class RecordQueryReliablePdu(SimulationManagementWithReliabilityFamilyPdu) *)
Definition c_RecordQueryReliablePdu : cls := mkcls "RecordQueryReliablePdu" ["RecordQueryReliablePdu"; "SimulationManagementWithReliabilityFamilyPdu"; "Pdu"; "PduSuperclass"]
  [
    (* opendis/dis7.py:6532 *)
    ("pduType", MAttr (LInt 63));
    (* opendis/dis7.py:6534-6549 *)
    ("__init__", MMeth (mkmeth KNormal false [("self", None); ("requestID", Some (DLit (LInt 0))); ("requiredReliabilityService", Some (DLit (LInt 0))); ("eventType", Some (DLit (LInt 0))); ("time", Some (DLit (LInt 0))); ("recordIDs", Some (DLit (LNone)))]
       [Expr (Super "RecordQueryReliablePdu" "__init__" [] []);
       SetAttr (Loc "self") "requestID" (Loc "requestID");
       SetAttr (Loc "self") "requiredReliabilityService" (Loc "requiredReliabilityService");
       SetAttr (Loc "self") "pad1" (Lit (LInt 0));
       SetAttr (Loc "self") "pad2" (Lit (LInt 0));
       SetAttr (Loc "self") "eventType" (Loc "eventType");
       SetAttr (Loc "self") "time" (Loc "time");
       SetAttr (Loc "self") "recordIDs" (OrE (Loc "recordIDs") (ListE []))]));
    (* opendis/dis7.py:6552-6553 *)
    ("numberOfRecords", MMeth (mkmeth KProperty false [("self", None)]
       [Return (Builtin BLen [(Attr (Loc "self") "recordIDs")])]));
    (* opendis/dis7.py:6555-6566 *)
    ("serialize", MMeth (mkmeth KNormal false [("self", None); ("outputStream", None)]
       [Expr (Super "RecordQueryReliablePdu" "serialize" [(Loc "outputStream")] []);
       Expr (Meth (Loc "outputStream") "write_unsigned_int" [(Attr (Loc "self") "requestID")] []);
       Expr (Meth (Loc "outputStream") "write_unsigned_byte" [(Attr (Loc "self") "requiredReliabilityService")] []);
       Expr (Meth (Loc "outputStream") "write_unsigned_short" [(Attr (Loc "self") "pad1")] []);
       Expr (Meth (Loc "outputStream") "write_unsigned_byte" [(Attr (Loc "self") "pad2")] []);
       Expr (Meth (Loc "outputStream") "write_unsigned_short" [(Attr (Loc "self") "eventType")] []);
       Expr (Meth (Loc "outputStream") "write_unsigned_int" [(Attr (Loc "self") "time")] []);
       Expr (Meth (Loc "outputStream") "write_unsigned_int" [(Attr (Loc "self") "numberOfRecords")] []);
       For "anObj" (Attr (Loc "self") "recordIDs") [Expr (Meth (Loc "anObj") "serialize" [(Loc "outputStream")] [])]]));
    (* opendis/dis7.py:6568-6581 *)
    ("parse", MMeth (mkmeth KNormal false [("self", None); ("inputStream", None)]
       [Expr (Super "RecordQueryReliablePdu" "parse" [(Loc "inputStream")] []);
       SetAttr (Loc "self") "requestID" (Meth (Loc "inputStream") "read_unsigned_int" [] []);
       SetAttr (Loc "self") "requiredReliabilityService" (Meth (Loc "inputStream") "read_unsigned_byte" [] []);
       SetAttr (Loc "self") "pad1" (Meth (Loc "inputStream") "read_unsigned_short" [] []);
       SetAttr (Loc "self") "pad2" (Meth (Loc "inputStream") "read_unsigned_byte" [] []);
       SetAttr (Loc "self") "eventType" (Meth (Loc "inputStream") "read_unsigned_short" [] []);
       SetAttr (Loc "self") "time" (Meth (Loc "inputStream") "read_unsigned_int" [] []);
       Assign "numberOfRecords" (Meth (Loc "inputStream") "read_unsigned_int" [] []);
       For "idx" (Builtin BRange [(Lit (LInt 0)); (Loc "numberOfRecords")]) [Assign "element" (CallV (Glob "null") [] []); Expr (Meth (Loc "element") "parse" [(Loc "inputStream")] []); Expr (Meth (Attr (Loc "self") "recordIDs") "append" [(Loc "element")] [])]]))
  ].

(* opendis/dis7.py:6584-6632  class ActionResponsePdu(SimulationManagementFamilyPdu) *)
Definition c_ActionResponsePdu : cls := mkcls "ActionResponsePdu" ["ActionResponsePdu"; "SimulationManagementFamilyPdu"; "Pdu"; "PduSuperclass"]
  [
    (* opendis/dis7.py:6589 *)
    ("pduType", MAttr (LInt 17));
    (* opendis/dis7.py:6591-6602 *)
    ("__init__", MMeth (mkmeth KNormal false [("self", None); ("requestID", Some (DLit (LInt 0))); ("requestStatus", Some (DLit (LInt 0))); ("fixedDatumRecords", Some (DLit (LNone))); ("variableDatumRecords", Some (DLit (LNone)))]
       [Expr (Super "ActionResponsePdu" "__init__" [] []);
       SetAttr (Loc "self") "requestID" (Loc "requestID");
       SetAttr (Loc "self") "requestStatus" (Loc "requestStatus");
       SetAttr (Loc "self") "_datums" (CallV (Glob "DatumSpecification") [(OrE (Loc "fixedDatumRecords") (ListE [])); (OrE (Loc "variableDatumRecords") (ListE []))] [])]));
    (* opendis/dis7.py:6605-6606 *)
    ("numberOfFixedDatumRecords", MMeth (mkmeth KProperty false [("self", None)]
       [Return (Attr (Attr (Loc "self") "_datums") "numberOfFixedDatumRecords")]));
    (* opendis/dis7.py:6609-6610 *)
    ("numberOfVariableDatumRecords", MMeth (mkmeth KProperty false [("self", None)]
       [Return (Attr (Attr (Loc "self") "_datums") "numberOfVariableDatumRecords")]));
    (* opendis/dis7.py:6613-6614 *)
    ("fixedDatumRecords", MMeth (mkmeth KProperty false [("self", None)]
       [Return (Attr (Attr (Loc "self") "_datums") "fixedDatumRecords")]));
    (* opendis/dis7.py:6617-6618 *)
    ("variableDatumRecords", MMeth (mkmeth KProperty false [("self", None)]
       [Return (Attr (Attr (Loc "self") "_datums") "variableDatumRecords")]));
    (* opendis/dis7.py:6620-6625 *)
    ("serialize", MMeth (mkmeth KNormal false [("self", None); ("outputStream", None)]
       [Expr (Super "ActionResponsePdu" "serialize" [(Loc "outputStream")] []);
       Expr (Meth (Loc "outputStream") "write_unsigned_int" [(Attr (Loc "self") "requestID")] []);
       Expr (Meth (Loc "outputStream") "write_unsigned_int" [(Attr (Loc "self") "requestStatus")] []);
       Expr (Meth (Attr (Loc "self") "_datums") "serialize" [(Loc "outputStream")] [])]));
    (* opendis/dis7.py:6627-6632 *)
    ("parse", MMeth (mkmeth KNormal false [("self", None); ("inputStream", None)]
       [Expr (Super "ActionResponsePdu" "parse" [(Loc "inputStream")] []);
       SetAttr (Loc "self") "requestID" (Meth (Loc "inputStream") "read_unsigned_int" [] []);
       SetAttr (Loc "self") "requestStatus" (Meth (Loc "inputStream") "read_unsigned_int" [] []);
       Expr (Meth (Attr (Loc "self") "_datums") "parse" [(Loc "inputStream")] [])]))
  ].

(* opendis/dis7.py:6635-6677  class EntityDamageStatusPdu(WarfareFamilyPdu) *)
Definition c_EntityDamageStatusPdu : cls := mkcls "EntityDamageStatusPdu" ["EntityDamageStatusPdu"; "WarfareFamilyPdu"; "Pdu"; "PduSuperclass"]
  [
    (* opendis/dis7.py:6641 *)
    ("pduType", MAttr (LInt 69));
    (* opendis/dis7.py:6643-6651 *)
    ("__init__", MMeth (mkmeth KNormal false [("self", None); ("damagedEntityID", Some (DLit (LNone))); ("damageDescriptions", Some (DLit (LNone)))]
       [Expr (Super "EntityDamageStatusPdu" "__init__" [] []);
       SetAttr (Loc "self") "damagedEntityID" (OrE (Loc "damagedEntityID") (CallV (Glob "EntityIdentifier") [] []));
       SetAttr (Loc "self") "padding1" (Lit (LInt 0));
       SetAttr (Loc "self") "padding2" (Lit (LInt 0));
       SetAttr (Loc "self") "damageDescriptions" (OrE (Loc "damageDescriptions") (ListE []))]));
    (* opendis/dis7.py:6654-6655 *)
    ("damageDescriptionCount", MMeth (mkmeth KProperty false [("self", None)]
       [Return (Builtin BLen [(Attr (Loc "self") "damageDescriptions")])]));
    (* opendis/dis7.py:6657-6664 *)
    ("serialize", MMeth (mkmeth KNormal false [("self", None); ("outputStream", None)]
       [Expr (Super "EntityDamageStatusPdu" "serialize" [(Loc "outputStream")] []);
       Expr (Meth (Attr (Loc "self") "damagedEntityID") "serialize" [(Loc "outputStream")] []);
       Expr (Meth (Loc "outputStream") "write_uint16" [(Attr (Loc "self") "padding1")] []);
       Expr (Meth (Loc "outputStream") "write_uint16" [(Attr (Loc "self") "padding2")] []);
       Expr (Meth (Loc "outputStream") "write_uint16" [(Attr (Loc "self") "damageDescriptionCount")] []);
       For "record" (Attr (Loc "self") "damageDescriptions") [Expr (Meth (Loc "record") "serialize" [(Loc "outputStream")] [])]]));
    (* opendis/dis7.py:6666-6677 *)
    ("parse", MMeth (mkmeth KNormal false [("self", None); ("inputStream", None)]
       [Expr (Super "EntityDamageStatusPdu" "parse" [(Loc "inputStream")] []);
       Expr (Meth (Attr (Loc "self") "damagedEntityID") "parse" [(Loc "inputStream")] []);
       SetAttr (Loc "self") "padding1" (Meth (Loc "inputStream") "read_uint16" [] []);
       SetAttr (Loc "self") "padding2" (Meth (Loc "inputStream") "read_uint16" [] []);
       Assign "damageDescriptionCount" (Meth (Loc "inputStream") "read_uint16" [] []);
       For "_" (Builtin BRange [(Lit (LInt 0)); (Loc "damageDescriptionCount")]) [Assign "record" (CallV (Glob "parseStandardVariableRecord") [(Loc "inputStream"); (Glob "DamageDescriptionRecord")] []); Expr (Meth (Attr (Loc "self") "damageDescriptions") "append" [(Loc "record")] [])]]))
  ].

(* opendis/dis7.py:6680-6733  class FirePdu(WarfareFamilyPdu) *)
Definition c_FirePdu : cls := mkcls "FirePdu" ["FirePdu"; "WarfareFamilyPdu"; "Pdu"; "PduSuperclass"]
  [
    (* opendis/dis7.py:6686 *)
    ("pduType", MAttr (LInt 2));
    (* opendis/dis7.py:6688-6711 *)
    ("__init__", MMeth (mkmeth KNormal false [("self", None); ("munitionExpendableID", Some (DLit (LNone))); ("eventID", Some (DLit (LNone))); ("fireMissionIndex", Some (DLit (LInt 0))); ("location", Some (DLit (LNone))); ("descriptor", Some (DLit (LNone))); ("velocity", Some (DLit (LNone))); ("range_", Some (DLit (LFloat 0)))]
       [Expr (Super "FirePdu" "__init__" [] []);
       SetAttr (Loc "self") "munitionExpendableID" (OrE (Loc "munitionExpendableID") (CallV (Glob "EntityIdentifier") [] []));
       SetAttr (Loc "self") "eventID" (OrE (Loc "eventID") (CallV (Glob "EventIdentifier") [] []));
       SetAttr (Loc "self") "fireMissionIndex" (Loc "fireMissionIndex");
       SetAttr (Loc "self") "location" (OrE (Loc "location") (CallV (Glob "WorldCoordinates") [] []));
       SetAttr (Loc "self") "descriptor" (OrE (Loc "descriptor") (CallV (Glob "MunitionDescriptor") [] []));
       SetAttr (Loc "self") "velocity" (OrE (Loc "velocity") (CallV (Glob "Vector3Float") [] []));
       SetAttr (Loc "self") "range" (Loc "range_")]));
    (* opendis/dis7.py:6713-6722 *)
    ("serialize", MMeth (mkmeth KNormal false [("self", None); ("outputStream", None)]
       [Expr (Super "FirePdu" "serialize" [(Loc "outputStream")] []);
       Expr (Meth (Attr (Loc "self") "munitionExpendableID") "serialize" [(Loc "outputStream")] []);
       Expr (Meth (Attr (Loc "self") "eventID") "serialize" [(Loc "outputStream")] []);
       Expr (Meth (Loc "outputStream") "write_unsigned_int" [(Attr (Loc "self") "fireMissionIndex")] []);
       Expr (Meth (Attr (Loc "self") "location") "serialize" [(Loc "outputStream")] []);
       Expr (Meth (Attr (Loc "self") "descriptor") "serialize" [(Loc "outputStream")] []);
       Expr (Meth (Attr (Loc "self") "velocity") "serialize" [(Loc "outputStream")] []);
       Expr (Meth (Loc "outputStream") "write_float" [(Attr (Loc "self") "range")] [])]));
    (* opendis/dis7.py:6724-6733 *)
    ("parse", MMeth (mkmeth KNormal false [("self", None); ("inputStream", None)]
       [Expr (Super "FirePdu" "parse" [(Loc "inputStream")] []);
       Expr (Meth (Attr (Loc "self") "munitionExpendableID") "parse" [(Loc "inputStream")] []);
       Expr (Meth (Attr (Loc "self") "eventID") "parse" [(Loc "inputStream")] []);
       SetAttr (Loc "self") "fireMissionIndex" (Meth (Loc "inputStream") "read_unsigned_int" [] []);
       Expr (Meth (Attr (Loc "self") "location") "parse" [(Loc "inputStream")] []);
       Expr (Meth (Attr (Loc "self") "descriptor") "parse" [(Loc "inputStream")] []);
       Expr (Meth (Attr (Loc "self") "velocity") "parse" [(Loc "inputStream")] []);
       SetAttr (Loc "self") "range" (Meth (Loc "inputStream") "read_float" [] [])]))
  ].

(* opendis/dis7.py:6736-6775  class ReceiverPdu(RadioCommunicationsFamilyPdu) *)
Definition c_ReceiverPdu : cls := mkcls "ReceiverPdu" ["ReceiverPdu"; "RadioCommunicationsFamilyPdu"; "Pdu"; "PduSuperclass"]
  [
    (* opendis/dis7.py:6741 *)
    ("pduType", MAttr (LInt 27));
    (* opendis/dis7.py:6743-6757 *)
    ("__init__", MMeth (mkmeth KNormal false [("self", None); ("receiverState", Some (DLit (LInt 0))); ("receivedPower", Some (DLit (LFloat 0))); ("transmitterEntityID", Some (DLit (LNone))); ("transmitterRadioId", Some (DLit (LInt 0)))]
       [Expr (Super "ReceiverPdu" "__init__" [] []);
       SetAttr (Loc "self") "receiverState" (Loc "receiverState");
       SetAttr (Loc "self") "padding1" (Lit (LInt 0));
       SetAttr (Loc "self") "receivedPower" (Loc "receivedPower");
       SetAttr (Loc "self") "transmitterEntityID" (OrE (Loc "transmitterEntityID") (CallV (Glob "EntityIdentifier") [] []));
       SetAttr (Loc "self") "transmitterRadioId" (Loc "transmitterRadioId")]));
    (* opendis/dis7.py:6759-6766 *)
    ("serialize", MMeth (mkmeth KNormal false [("self", None); ("outputStream", None)]
       [Expr (Super "ReceiverPdu" "serialize" [(Loc "outputStream")] []);
       Expr (Meth (Loc "outputStream") "write_unsigned_short" [(Attr (Loc "self") "receiverState")] []);
       Expr (Meth (Loc "outputStream") "write_unsigned_short" [(Attr (Loc "self") "padding1")] []);
       Expr (Meth (Loc "outputStream") "write_float" [(Attr (Loc "self") "receivedPower")] []);
       Expr (Meth (Attr (Loc "self") "transmitterEntityID") "serialize" [(Loc "outputStream")] []);
       Expr (Meth (Loc "outputStream") "write_unsigned_short" [(Attr (Loc "self") "transmitterRadioId")] [])]));
    (* opendis/dis7.py:6768-6775 *)
    ("parse", MMeth (mkmeth KNormal false [("self", None); ("inputStream", None)]
       [Expr (Super "ReceiverPdu" "parse" [(Loc "inputStream")] []);
       SetAttr (Loc "self") "receiverState" (Meth (Loc "inputStream") "read_unsigned_short" [] []);
       SetAttr (Loc "self") "padding1" (Meth (Loc "inputStream") "read_unsigned_short" [] []);
       SetAttr (Loc "self") "receivedPower" (Meth (Loc "inputStream") "read_float" [] []);
       Expr (Meth (Attr (Loc "self") "transmitterEntityID") "parse" [(Loc "inputStream")] []);
       SetAttr (Loc "self") "transmitterRadioId" (Meth (Loc "inputStream") "read_unsigned_short" [] [])]))
  ].

(* opendis/dis7.py:6778-6870  class UaPdu(DistributedEmissionsFamilyPdu) *)
Definition c_UaPdu : cls := mkcls "UaPdu" ["UaPdu"; "DistributedEmissionsFamilyPdu"; "Pdu"; "PduSuperclass"]
  [
    (* opendis/dis7.py:6785 *)
    ("pduType", MAttr (LInt 29));
    (* opendis/dis7.py:6787-6814 *)
    ("__init__", MMeth (mkmeth KNormal false [("self", None); ("emittingEntityID", Some (DLit (LNone))); ("eventID", Some (DLit (LNone))); ("stateChangeIndicator", Some (DLit (LInt 0))); ("passiveParameterIndex", Some (DLit (LInt 0))); ("propulsionPlantConfiguration", Some (DLit (LInt 0))); ("shaftRPMs", Some (DLit (LNone))); ("apaData", Some (DLit (LNone))); ("emitterSystems", Some (DLit (LNone)))]
       [Expr (Super "UaPdu" "__init__" [] []);
       SetAttr (Loc "self") "emittingEntityID" (OrE (Loc "emittingEntityID") (CallV (Glob "EntityIdentifier") [] []));
       SetAttr (Loc "self") "eventID" (OrE (Loc "eventID") (CallV (Glob "EventIdentifier") [] []));
       SetAttr (Loc "self") "stateChangeIndicator" (Loc "stateChangeIndicator");
       SetAttr (Loc "self") "pad" (Lit (LInt 0));
       SetAttr (Loc "self") "passiveParameterIndex" (Loc "passiveParameterIndex");
       SetAttr (Loc "self") "propulsionPlantConfiguration" (Loc "propulsionPlantConfiguration");
       SetAttr (Loc "self") "shaftRPMs" (OrE (Loc "shaftRPMs") (ListE []));
       SetAttr (Loc "self") "apaData" (OrE (Loc "apaData") (ListE []));
       SetAttr (Loc "self") "emitterSystems" (OrE (Loc "emitterSystems") (ListE []))]));
    (* opendis/dis7.py:6817-6818 *)
    ("numberOfShafts", MMeth (mkmeth KProperty false [("self", None)]
       [Return (Builtin BLen [(Attr (Loc "self") "shaftRPMs")])]));
    (* opendis/dis7.py:6821-6822 *)
    ("numberOfAPAs", MMeth (mkmeth KProperty false [("self", None)]
       [Return (Builtin BLen [(Attr (Loc "self") "apaData")])]));
    (* opendis/dis7.py:6825-6826 *)
    ("numberOfUAEmitterSystems", MMeth (mkmeth KProperty false [("self", None)]
       [Return (Builtin BLen [(Attr (Loc "self") "emitterSystems")])]));
    (* opendis/dis7.py:6828-6845 *)
    ("serialize", MMeth (mkmeth KNormal false [("self", None); ("outputStream", None)]
       [Expr (Super "UaPdu" "serialize" [(Loc "outputStream")] []);
       Expr (Meth (Attr (Loc "self") "emittingEntityID") "serialize" [(Loc "outputStream")] []);
       Expr (Meth (Attr (Loc "self") "eventID") "serialize" [(Loc "outputStream")] []);
       Expr (Meth (Loc "outputStream") "write_byte" [(Attr (Loc "self") "stateChangeIndicator")] []);
       Expr (Meth (Loc "outputStream") "write_byte" [(Attr (Loc "self") "pad")] []);
       Expr (Meth (Loc "outputStream") "write_unsigned_short" [(Attr (Loc "self") "passiveParameterIndex")] []);
       Expr (Meth (Loc "outputStream") "write_unsigned_byte" [(Attr (Loc "self") "propulsionPlantConfiguration")] []);
       Expr (Meth (Loc "outputStream") "write_unsigned_byte" [(Attr (Loc "self") "numberOfShafts")] []);
       Expr (Meth (Loc "outputStream") "write_unsigned_byte" [(Attr (Loc "self") "numberOfAPAs")] []);
       Expr (Meth (Loc "outputStream") "write_unsigned_byte" [(Attr (Loc "self") "numberOfUAEmitterSystems")] []);
       For "anObj" (Attr (Loc "self") "shaftRPMs") [Expr (Meth (Loc "anObj") "serialize" [(Loc "outputStream")] [])];
       For "anObj" (Attr (Loc "self") "apaData") [Expr (Meth (Loc "anObj") "serialize" [(Loc "outputStream")] [])];
       For "anObj" (Attr (Loc "self") "emitterSystems") [Expr (Meth (Loc "anObj") "serialize" [(Loc "outputStream")] [])]]));
    (* opendis/dis7.py:6847-6870 *)
    ("parse", MMeth (mkmeth KNormal false [("self", None); ("inputStream", None)]
       [Expr (Super "UaPdu" "parse" [(Loc "inputStream")] []);
       Expr (Meth (Attr (Loc "self") "emittingEntityID") "parse" [(Loc "inputStream")] []);
       Expr (Meth (Attr (Loc "self") "eventID") "parse" [(Loc "inputStream")] []);
       SetAttr (Loc "self") "stateChangeIndicator" (Meth (Loc "inputStream") "read_byte" [] []);
       SetAttr (Loc "self") "pad" (Meth (Loc "inputStream") "read_byte" [] []);
       SetAttr (Loc "self") "passiveParameterIndex" (Meth (Loc "inputStream") "read_unsigned_short" [] []);
       SetAttr (Loc "self") "propulsionPlantConfiguration" (Meth (Loc "inputStream") "read_unsigned_byte" [] []);
       Assign "numberOfShafts" (Meth (Loc "inputStream") "read_unsigned_byte" [] []);
       Assign "numberOfAPAs" (Meth (Loc "inputStream") "read_unsigned_byte" [] []);
       Assign "numberOfUAEmitterSystems" (Meth (Loc "inputStream") "read_unsigned_byte" [] []);
       For "idx" (Builtin BRange [(Lit (LInt 0)); (Loc "numberOfShafts")]) [Assign "element" (CallV (Glob "null") [] []); Expr (Meth (Loc "element") "parse" [(Loc "inputStream")] []); Expr (Meth (Attr (Loc "self") "shaftRPMs") "append" [(Loc "element")] [])];
       For "idx" (Builtin BRange [(Lit (LInt 0)); (Loc "numberOfAPAs")]) [Assign "element" (CallV (Glob "null") [] []); Expr (Meth (Loc "element") "parse" [(Loc "inputStream")] []); Expr (Meth (Attr (Loc "self") "apaData") "append" [(Loc "element")] [])];
       For "idx" (Builtin BRange [(Lit (LInt 0)); (Loc "numberOfUAEmitterSystems")]) [Assign "element" (CallV (Glob "null") [] []); Expr (Meth (Loc "element") "parse" [(Loc "inputStream")] []); Expr (Meth (Attr (Loc "self") "emitterSystems") "append" [(Loc "element")] [])]]))
  ].

(* opendis/dis7.py:6873-6954  class IntercomControlPdu(RadioCommunicationsFamilyPdu) *)
Definition c_IntercomControlPdu : cls := mkcls "IntercomControlPdu" ["IntercomControlPdu"; "RadioCommunicationsFamilyPdu"; "Pdu"; "PduSuperclass"]
  [
    (* opendis/dis7.py:6881 *)
    ("pduType", MAttr (LInt 32));
    (* opendis/dis7.py:6883-6914 *)
    ("__init__", MMeth (mkmeth KNormal false [("self", None); ("controlType", Some (DLit (LInt 0))); ("communicationsChannelType", Some (DLit (LInt 0))); ("sourceEntityID", Some (DLit (LNone))); ("sourceCommunicationsDeviceID", Some (DLit (LInt 0))); ("sourceLineID", Some (DLit (LInt 0))); ("transmitPriority", Some (DLit (LInt 0))); ("transmitLineState", Some (DLit (LInt 0))); ("command", Some (DLit (LInt 0))); ("masterEntityID", Some (DLit (LNone))); ("masterCommunicationsDeviceID", Some (DLit (LInt 0))); ("intercomParameters", Some (DLit (LNone)))]
       [Expr (Super "IntercomControlPdu" "__init__" [] []);
       SetAttr (Loc "self") "controlType" (Loc "controlType");
       SetAttr (Loc "self") "communicationsChannelType" (Loc "communicationsChannelType");
       SetAttr (Loc "self") "sourceEntityID" (OrE (Loc "sourceEntityID") (CallV (Glob "EntityIdentifier") [] []));
       SetAttr (Loc "self") "sourceCommunicationsDeviceID" (Loc "sourceCommunicationsDeviceID");
       SetAttr (Loc "self") "sourceLineID" (Loc "sourceLineID");
       SetAttr (Loc "self") "transmitPriority" (Loc "transmitPriority");
       SetAttr (Loc "self") "transmitLineState" (Loc "transmitLineState");
       SetAttr (Loc "self") "command" (Loc "command");
       SetAttr (Loc "self") "masterEntityID" (OrE (Loc "masterEntityID") (CallV (Glob "EntityIdentifier") [] []));
       SetAttr (Loc "self") "masterCommunicationsDeviceID" (Loc "masterCommunicationsDeviceID");
       SetAttr (Loc "self") "intercomParameters" (Loc "intercomParameters")]));
    (* opendis/dis7.py:6917-6920 *)
    ("intercomParametersLength", MMeth (mkmeth KProperty false [("self", None)]
       [Return (Builtin BLen [(Attr (Loc "self") "intercomParameters")])]));
    (* opendis/dis7.py:6922-6937 *)
    ("serialize", MMeth (mkmeth KNormal false [("self", None); ("outputStream", None)]
       [Expr (Super "IntercomControlPdu" "serialize" [(Loc "outputStream")] []);
       Expr (Meth (Loc "outputStream") "write_unsigned_byte" [(Attr (Loc "self") "controlType")] []);
       Expr (Meth (Loc "outputStream") "write_unsigned_byte" [(Attr (Loc "self") "communicationsChannelType")] []);
       Expr (Meth (Attr (Loc "self") "sourceEntityID") "serialize" [(Loc "outputStream")] []);
       Expr (Meth (Loc "outputStream") "write_unsigned_byte" [(Attr (Loc "self") "sourceCommunicationsDeviceID")] []);
       Expr (Meth (Loc "outputStream") "write_unsigned_byte" [(Attr (Loc "self") "sourceLineID")] []);
       Expr (Meth (Loc "outputStream") "write_unsigned_byte" [(Attr (Loc "self") "transmitPriority")] []);
       Expr (Meth (Loc "outputStream") "write_unsigned_byte" [(Attr (Loc "self") "transmitLineState")] []);
       Expr (Meth (Loc "outputStream") "write_unsigned_byte" [(Attr (Loc "self") "command")] []);
       Expr (Meth (Attr (Loc "self") "masterEntityID") "serialize" [(Loc "outputStream")] []);
       Expr (Meth (Loc "outputStream") "write_unsigned_short" [(Attr (Loc "self") "masterCommunicationsDeviceID")] []);
       Expr (Meth (Loc "outputStream") "write_unsigned_int" [(Attr (Loc "self") "intercomParametersLength")] []);
       For "anObj" (Attr (Loc "self") "intercomParameters") [Expr (Meth (Loc "anObj") "serialize" [(Loc "outputStream")] [])]]));
    (* opendis/dis7.py:6939-6954 *)
    ("parse", MMeth (mkmeth KNormal false [("self", None); ("inputStream", None)]
       [Expr (Super "IntercomControlPdu" "parse" [(Loc "inputStream")] []);
       SetAttr (Loc "self") "controlType" (Meth (Loc "inputStream") "read_unsigned_byte" [] []);
       SetAttr (Loc "self") "communicationsChannelType" (Meth (Loc "inputStream") "read_unsigned_byte" [] []);
       Expr (Meth (Attr (Loc "self") "sourceEntityID") "parse" [(Loc "inputStream")] []);
       SetAttr (Loc "self") "sourceCommunicationsDeviceID" (Meth (Loc "inputStream") "read_unsigned_byte" [] []);
       SetAttr (Loc "self") "sourceLineID" (Meth (Loc "inputStream") "read_unsigned_byte" [] []);
       SetAttr (Loc "self") "transmitPriority" (Meth (Loc "inputStream") "read_unsigned_byte" [] []);
       SetAttr (Loc "self") "transmitLineState" (Meth (Loc "inputStream") "read_unsigned_byte" [] []);
       SetAttr (Loc "self") "command" (Meth (Loc "inputStream") "read_unsigned_byte" [] []);
       Expr (Meth (Attr (Loc "self") "masterEntityID") "parse" [(Loc "inputStream")] []);
       SetAttr (Loc "self") "masterCommunicationsDeviceID" (Meth (Loc "inputStream") "read_unsigned_short" [] []);
       Assign "intercomParametersLength" (Meth (Loc "inputStream") "read_unsigned_int" [] []);
       SetAttr (Loc "self") "intercomParameters" (Meth (Glob "IntercomCommunicationsParameters") "parse" [(Loc "inputStream")] [])]))
  ].

(* opendis/dis7.py:6957-7015  class SignalPdu(RadioCommunicationsFamilyPdu) *)
Definition c_SignalPdu : cls := mkcls "SignalPdu" ["SignalPdu"; "RadioCommunicationsFamilyPdu"; "Pdu"; "PduSuperclass"]
  [
    (* opendis/dis7.py:6964 *)
    ("pduType", MAttr (LInt 26));
    (* opendis/dis7.py:6966-6982 *)
    ("__init__", MMeth (mkmeth KNormal false [("self", None); ("entityID", Some (DLit (LNone))); ("radioID", Some (DLit (LInt 0))); ("encodingScheme", Some (DLit (LInt 0))); ("tdlType", Some (DLit (LInt 0))); ("sampleRate", Some (DLit (LInt 0))); ("samples", Some (DLit (LInt 0))); ("data", Some (DLit (LNone)))]
       [Expr (Super "SignalPdu" "__init__" [] []);
       SetAttr (Loc "self") "entityID" (OrE (Loc "entityID") (CallV (Glob "EntityIdentifier") [] []));
       SetAttr (Loc "self") "radioID" (Loc "radioID");
       SetAttr (Loc "self") "encodingScheme" (Loc "encodingScheme");
       SetAttr (Loc "self") "tdlType" (Loc "tdlType");
       SetAttr (Loc "self") "sampleRate" (Loc "sampleRate");
       SetAttr (Loc "self") "samples" (Loc "samples");
       SetAttr (Loc "self") "data" (OrE (Loc "data") (ListE []))]));
    (* opendis/dis7.py:6986-6988 *)
    ("dataLength", MMeth (mkmeth KProperty false [("self", None)]
       [Return (Bin OMul (Builtin BLen [(Attr (Loc "self") "data")]) (Lit (LInt 8)))]));
    (* opendis/dis7.py:6990-7001 *)
    ("serialize", MMeth (mkmeth KNormal false [("self", None); ("outputStream", None)]
       [Expr (Super "SignalPdu" "serialize" [(Loc "outputStream")] []);
       Expr (Meth (Attr (Loc "self") "entityID") "serialize" [(Loc "outputStream")] []);
       Expr (Meth (Loc "outputStream") "write_unsigned_short" [(Attr (Loc "self") "radioID")] []);
       Expr (Meth (Loc "outputStream") "write_unsigned_short" [(Attr (Loc "self") "encodingScheme")] []);
       Expr (Meth (Loc "outputStream") "write_unsigned_short" [(Attr (Loc "self") "tdlType")] []);
       Expr (Meth (Loc "outputStream") "write_unsigned_int" [(Attr (Loc "self") "sampleRate")] []);
       Expr (Meth (Loc "outputStream") "write_unsigned_short" [(Bin OMul (Builtin BLen [(Attr (Loc "self") "data")]) (Lit (LInt 8)))] []);
       Expr (Meth (Loc "outputStream") "write_unsigned_short" [(Attr (Loc "self") "samples")] []);
       For "b" (Attr (Loc "self") "data") [Expr (Meth (Loc "outputStream") "write_unsigned_byte" [(Loc "b")] [])]]));
    (* opendis/dis7.py:7003-7015 *)
    ("parse", MMeth (mkmeth KNormal false [("self", None); ("inputStream", None)]
       [Expr (Super "SignalPdu" "parse" [(Loc "inputStream")] []);
       Expr (Meth (Attr (Loc "self") "entityID") "parse" [(Loc "inputStream")] []);
       SetAttr (Loc "self") "radioID" (Meth (Loc "inputStream") "read_unsigned_short" [] []);
       SetAttr (Loc "self") "encodingScheme" (Meth (Loc "inputStream") "read_unsigned_short" [] []);
       SetAttr (Loc "self") "tdlType" (Meth (Loc "inputStream") "read_unsigned_short" [] []);
       SetAttr (Loc "self") "sampleRate" (Meth (Loc "inputStream") "read_unsigned_int" [] []);
       Assign "dataLength" (Meth (Loc "inputStream") "read_unsigned_short" [] []);
       SetAttr (Loc "self") "samples" (Meth (Loc "inputStream") "read_unsigned_short" [] []);
       For "idx" (Builtin BRange [(Lit (LInt 0)); (Bin OFloorDiv (Loc "dataLength") (Lit (LInt 8)))]) [Assign "element" (Meth (Loc "inputStream") "read_unsigned_byte" [] []); Expr (Meth (Attr (Loc "self") "data") "append" [(Loc "element")] [])]]))
  ].

(* opendis/dis7.py:7018-7049  class RemoveEntityReliablePdu(SimulationManagementWithReliabilityFamilyPdu) *)
Definition c_RemoveEntityReliablePdu : cls := mkcls "RemoveEntityReliablePdu" ["RemoveEntityReliablePdu"; "SimulationManagementWithReliabilityFamilyPdu"; "Pdu"; "PduSuperclass"]
  [
    (* opendis/dis7.py:7023 *)
    ("pduType", MAttr (LInt 52));
    (* opendis/dis7.py:7025-7033 *)
    ("__init__", MMeth (mkmeth KNormal false [("self", None); ("requiredReliabilityService", Some (DLit (LInt 0))); ("requestID", Some (DLit (LInt 0)))]
       [Expr (Super "RemoveEntityReliablePdu" "__init__" [] []);
       SetAttr (Loc "self") "requiredReliabilityService" (Loc "requiredReliabilityService");
       SetAttr (Loc "self") "pad1" (Lit (LInt 0));
       SetAttr (Loc "self") "pad2" (Lit (LInt 0));
       SetAttr (Loc "self") "requestID" (Loc "requestID")]));
    (* opendis/dis7.py:7035-7041 *)
    ("serialize", MMeth (mkmeth KNormal false [("self", None); ("outputStream", None)]
       [Expr (Super "RemoveEntityReliablePdu" "serialize" [(Loc "outputStream")] []);
       Expr (Meth (Loc "outputStream") "write_unsigned_byte" [(Attr (Loc "self") "requiredReliabilityService")] []);
       Expr (Meth (Loc "outputStream") "write_unsigned_short" [(Attr (Loc "self") "pad1")] []);
       Expr (Meth (Loc "outputStream") "write_unsigned_byte" [(Attr (Loc "self") "pad2")] []);
       Expr (Meth (Loc "outputStream") "write_unsigned_int" [(Attr (Loc "self") "requestID")] [])]));
    (* opendis/dis7.py:7043-7049 *)
    ("parse", MMeth (mkmeth KNormal false [("self", None); ("inputStream", None)]
       [Expr (Super "RemoveEntityReliablePdu" "parse" [(Loc "inputStream")] []);
       SetAttr (Loc "self") "requiredReliabilityService" (Meth (Loc "inputStream") "read_unsigned_byte" [] []);
       SetAttr (Loc "self") "pad1" (Meth (Loc "inputStream") "read_unsigned_short" [] []);
       SetAttr (Loc "self") "pad2" (Meth (Loc "inputStream") "read_unsigned_byte" [] []);
       SetAttr (Loc "self") "requestID" (Meth (Loc "inputStream") "read_unsigned_int" [] [])]))
  ].

(* opendis/dis7.py:7052-7119  class SeesPdu(DistributedEmissionsFamilyPdu) *)
Definition c_SeesPdu : cls := mkcls "SeesPdu" ["SeesPdu"; "DistributedEmissionsFamilyPdu"; "Pdu"; "PduSuperclass"]
  [
    (* opendis/dis7.py:7057 *)
    ("pduType", MAttr (LInt 30));
    (* opendis/dis7.py:7059-7072 *)
    ("__init__", MMeth (mkmeth KNormal false [("self", None); ("originatingEntityID", Some (DLit (LNone))); ("infraredSignatureRepresentationIndex", Some (DLit (LInt 0))); ("acousticSignatureRepresentationIndex", Some (DLit (LInt 0))); ("radarCrossSectionSignatureRepresentationIndex", Some (DLit (LInt 0))); ("propulsionSystemData", Some (DLit (LNone))); ("vectoringSystemData", Some (DLit (LNone)))]
       [Expr (Super "SeesPdu" "__init__" [] []);
       SetAttr (Loc "self") "orginatingEntityID" (OrE (Loc "originatingEntityID") (CallV (Glob "EntityIdentifier") [] []));
       SetAttr (Loc "self") "infraredSignatureRepresentationIndex" (Loc "infraredSignatureRepresentationIndex");
       SetAttr (Loc "self") "acousticSignatureRepresentationIndex" (Loc "acousticSignatureRepresentationIndex");
       SetAttr (Loc "self") "radarCrossSectionSignatureRepresentationIndex" (Loc "radarCrossSectionSignatureRepresentationIndex");
       SetAttr (Loc "self") "propulsionSystemData" (OrE (Loc "propulsionSystemData") (ListE []));
       SetAttr (Loc "self") "vectoringSystemData" (OrE (Loc "vectoringSystemData") (ListE []))]));
    (* opendis/dis7.py:7075-7076 *)
    ("numberOfPropulsionSystems", MMeth (mkmeth KProperty false [("self", None)]
       [Return (Builtin BLen [(Attr (Loc "self") "propulsionSystemData")])]));
    (* opendis/dis7.py:7079-7080 *)
    ("numberOfVectoringNozzleSystems", MMeth (mkmeth KProperty false [("self", None)]
       [Return (Builtin BLen [(Attr (Loc "self") "vectoringSystemData")])]));
    (* opendis/dis7.py:7082-7097 *)
    ("serialize", MMeth (mkmeth KNormal false [("self", None); ("outputStream", None)]
       [Expr (Super "SeesPdu" "serialize" [(Loc "outputStream")] []);
       Expr (Meth (Attr (Loc "self") "orginatingEntityID") "serialize" [(Loc "outputStream")] []);
       Expr (Meth (Loc "outputStream") "write_unsigned_short" [(Attr (Loc "self") "infraredSignatureRepresentationIndex")] []);
       Expr (Meth (Loc "outputStream") "write_unsigned_short" [(Attr (Loc "self") "acousticSignatureRepresentationIndex")] []);
       Expr (Meth (Loc "outputStream") "write_unsigned_short" [(Attr (Loc "self") "radarCrossSectionSignatureRepresentationIndex")] []);
       Expr (Meth (Loc "outputStream") "write_unsigned_short" [(Attr (Loc "self") "numberOfPropulsionSystems")] []);
       Expr (Meth (Loc "outputStream") "write_unsigned_short" [(Attr (Loc "self") "numberOfVectoringNozzleSystems")] []);
       For "anObj" (Attr (Loc "self") "propulsionSystemData") [Expr (Meth (Loc "anObj") "serialize" [(Loc "outputStream")] [])];
       For "anObj" (Attr (Loc "self") "vectoringSystemData") [Expr (Meth (Loc "anObj") "serialize" [(Loc "outputStream")] [])]]));
    (* opendis/dis7.py:7099-7119 *)
    ("parse", MMeth (mkmeth KNormal false [("self", None); ("inputStream", None)]
       [Expr (Super "SeesPdu" "parse" [(Loc "inputStream")] []);
       Expr (Meth (Attr (Loc "self") "orginatingEntityID") "parse" [(Loc "inputStream")] []);
       SetAttr (Loc "self") "infraredSignatureRepresentationIndex" (Meth (Loc "inputStream") "read_unsigned_short" [] []);
       SetAttr (Loc "self") "acousticSignatureRepresentationIndex" (Meth (Loc "inputStream") "read_unsigned_short" [] []);
       SetAttr (Loc "self") "radarCrossSectionSignatureRepresentationIndex" (Meth (Loc "inputStream") "read_unsigned_short" [] []);
       Assign "numberOfPropulsionSystems" (Meth (Loc "inputStream") "read_unsigned_short" [] []);
       Assign "numberOfVectoringNozzleSystems" (Meth (Loc "inputStream") "read_unsigned_short" [] []);
       For "idx" (Builtin BRange [(Lit (LInt 0)); (Loc "numberOfPropulsionSystems")]) [Assign "element" (CallV (Glob "null") [] []); Expr (Meth (Loc "element") "parse" [(Loc "inputStream")] []); Expr (Meth (Attr (Loc "self") "propulsionSystemData") "append" [(Loc "element")] [])];
       For "idx" (Builtin BRange [(Lit (LInt 0)); (Loc "numberOfVectoringNozzleSystems")]) [Assign "element" (CallV (Glob "null") [] []); Expr (Meth (Loc "element") "parse" [(Loc "inputStream")] []); Expr (Meth (Attr (Loc "self") "vectoringSystemData") "append" [(Loc "element")] [])]]))
  ].

(* opendis/dis7.py:7122-7153  class CreateEntityReliablePdu(SimulationManagementWithReliabilityFamilyPdu) *)
Definition c_CreateEntityReliablePdu : cls := mkcls "CreateEntityReliablePdu" ["CreateEntityReliablePdu"; "SimulationManagementWithReliabilityFamilyPdu"; "Pdu"; "PduSuperclass"]
  [
    (* opendis/dis7.py:7127 *)
    ("pduType", MAttr (LInt 51));
    (* opendis/dis7.py:7129-7137 *)
    ("__init__", MMeth (mkmeth KNormal false [("self", None); ("requiredReliabilityService", Some (DLit (LInt 0))); ("requestID", Some (DLit (LInt 0)))]
       [Expr (Super "CreateEntityReliablePdu" "__init__" [] []);
       SetAttr (Loc "self") "requiredReliabilityService" (Loc "requiredReliabilityService");
       SetAttr (Loc "self") "pad1" (Lit (LInt 0));
       SetAttr (Loc "self") "pad2" (Lit (LInt 0));
       SetAttr (Loc "self") "requestID" (Loc "requestID")]));
    (* opendis/dis7.py:7139-7145 *)
    ("serialize", MMeth (mkmeth KNormal false [("self", None); ("outputStream", None)]
       [Expr (Super "CreateEntityReliablePdu" "serialize" [(Loc "outputStream")] []);
       Expr (Meth (Loc "outputStream") "write_unsigned_byte" [(Attr (Loc "self") "requiredReliabilityService")] []);
       Expr (Meth (Loc "outputStream") "write_unsigned_short" [(Attr (Loc "self") "pad1")] []);
       Expr (Meth (Loc "outputStream") "write_unsigned_byte" [(Attr (Loc "self") "pad2")] []);
       Expr (Meth (Loc "outputStream") "write_unsigned_int" [(Attr (Loc "self") "requestID")] [])]));
    (* opendis/dis7.py:7147-7153 *)
    ("parse", MMeth (mkmeth KNormal false [("self", None); ("inputStream", None)]
       [Expr (Super "CreateEntityReliablePdu" "parse" [(Loc "inputStream")] []);
       SetAttr (Loc "self") "requiredReliabilityService" (Meth (Loc "inputStream") "read_unsigned_byte" [] []);
       SetAttr (Loc "self") "pad1" (Meth (Loc "inputStream") "read_unsigned_short" [] []);
       SetAttr (Loc "self") "pad2" (Meth (Loc "inputStream") "read_unsigned_byte" [] []);
       SetAttr (Loc "self") "requestID" (Meth (Loc "inputStream") "read_unsigned_int" [] [])]))
  ].

(* opendis/dis7.py:7156-7199  class StopFreezeReliablePdu(SimulationManagementWithReliabilityFamilyPdu) *)
Definition c_StopFreezeReliablePdu : cls := mkcls "StopFreezeReliablePdu" ["StopFreezeReliablePdu"; "SimulationManagementWithReliabilityFamilyPdu"; "Pdu"; "PduSuperclass"]
  [
    (* opendis/dis7.py:7161 *)
    ("pduType", MAttr (LInt 54));
    (* opendis/dis7.py:7163-7179 *)
    ("__init__", MMeth (mkmeth KNormal false [("self", None); ("realWorldTime", Some (DLit (LNone))); ("reason", Some (DLit (LInt 0))); ("frozenBehavior", Some (DLit (LInt 0))); ("requiredReliabilityService", Some (DLit (LInt 0))); ("requestID", Some (DLit (LInt 0)))]
       [Expr (Super "StopFreezeReliablePdu" "__init__" [] []);
       SetAttr (Loc "self") "realWorldTime" (OrE (Loc "realWorldTime") (CallV (Glob "ClockTime") [] []));
       SetAttr (Loc "self") "reason" (Loc "reason");
       SetAttr (Loc "self") "frozenBehavior" (Loc "frozenBehavior");
       SetAttr (Loc "self") "requiredReliablityService" (Loc "requiredReliabilityService");
       SetAttr (Loc "self") "pad1" (Lit (LInt 0));
       SetAttr (Loc "self") "requestID" (Loc "requestID")]));
    (* opendis/dis7.py:7181-7189 *)
    ("serialize", MMeth (mkmeth KNormal false [("self", None); ("outputStream", None)]
       [Expr (Super "StopFreezeReliablePdu" "serialize" [(Loc "outputStream")] []);
       Expr (Meth (Attr (Loc "self") "realWorldTime") "serialize" [(Loc "outputStream")] []);
       Expr (Meth (Loc "outputStream") "write_unsigned_byte" [(Attr (Loc "self") "reason")] []);
       Expr (Meth (Loc "outputStream") "write_unsigned_byte" [(Attr (Loc "self") "frozenBehavior")] []);
       Expr (Meth (Loc "outputStream") "write_unsigned_byte" [(Attr (Loc "self") "requiredReliablityService")] []);
       Expr (Meth (Loc "outputStream") "write_unsigned_byte" [(Attr (Loc "self") "pad1")] []);
       Expr (Meth (Loc "outputStream") "write_unsigned_int" [(Attr (Loc "self") "requestID")] [])]));
    (* opendis/dis7.py:7191-7199 *)
    ("parse", MMeth (mkmeth KNormal false [("self", None); ("inputStream", None)]
       [Expr (Super "StopFreezeReliablePdu" "parse" [(Loc "inputStream")] []);
       Expr (Meth (Attr (Loc "self") "realWorldTime") "parse" [(Loc "inputStream")] []);
       SetAttr (Loc "self") "reason" (Meth (Loc "inputStream") "read_unsigned_byte" [] []);
       SetAttr (Loc "self") "frozenBehavior" (Meth (Loc "inputStream") "read_unsigned_byte" [] []);
       SetAttr (Loc "self") "requiredReliablityService" (Meth (Loc "inputStream") "read_unsigned_byte" [] []);
       SetAttr (Loc "self") "pad1" (Meth (Loc "inputStream") "read_unsigned_byte" [] []);
       SetAttr (Loc "self") "requestID" (Meth (Loc "inputStream") "read_unsigned_int" [] [])]))
  ].

(* opendis/dis7.py:7202-7250  class EventReportReliablePdu(SimulationManagementWithReliabilityFamilyPdu) *)
Definition c_EventReportReliablePdu : cls := mkcls "EventReportReliablePdu" ["EventReportReliablePdu"; "SimulationManagementWithReliabilityFamilyPdu"; "Pdu"; "PduSuperclass"]
  [
    (* opendis/dis7.py:7208 *)
    ("pduType", MAttr (LInt 61));
    (* opendis/dis7.py:7210-7220 *)
    ("__init__", MMeth (mkmeth KNormal false [("self", None); ("eventType", Some (DLit (LInt 0))); ("fixedDatumRecords", Some (DLit (LNone))); ("variableDatumRecords", Some (DLit (LNone)))]
       [Expr (Super "EventReportReliablePdu" "__init__" [] []);
       SetAttr (Loc "self") "eventType" (Loc "eventType");
       SetAttr (Loc "self") "pad1" (Lit (LInt 0));
       SetAttr (Loc "self") "_datums" (CallV (Glob "DatumSpecification") [(OrE (Loc "fixedDatumRecords") (ListE [])); (OrE (Loc "variableDatumRecords") (ListE []))] [])]));
    (* opendis/dis7.py:7223-7224 *)
    ("numberOfFixedDatumRecords", MMeth (mkmeth KProperty false [("self", None)]
       [Return (Attr (Attr (Loc "self") "_datums") "numberOfFixedDatumRecords")]));
    (* opendis/dis7.py:7227-7228 *)
    ("numberOfVariableDatumRecords", MMeth (mkmeth KProperty false [("self", None)]
       [Return (Attr (Attr (Loc "self") "_datums") "numberOfVariableDatumRecords")]));
    (* opendis/dis7.py:7231-7232 *)
    ("fixedDatumRecords", MMeth (mkmeth KProperty false [("self", None)]
       [Return (Attr (Attr (Loc "self") "_datums") "fixedDatumRecords")]));
    (* opendis/dis7.py:7235-7236 *)
    ("variableDatumRecords", MMeth (mkmeth KProperty false [("self", None)]
       [Return (Attr (Attr (Loc "self") "_datums") "variableDatumRecords")]));
    (* opendis/dis7.py:7238-7243 *)
    ("serialize", MMeth (mkmeth KNormal false [("self", None); ("outputStream", None)]
       [Expr (Super "EventReportReliablePdu" "serialize" [(Loc "outputStream")] []);
       Expr (Meth (Loc "outputStream") "write_unsigned_short" [(Attr (Loc "self") "eventType")] []);
       Expr (Meth (Loc "outputStream") "write_unsigned_int" [(Attr (Loc "self") "pad1")] []);
       Expr (Meth (Attr (Loc "self") "_datums") "serialize" [(Loc "outputStream")] [])]));
    (* opendis/dis7.py:7245-7250 *)
    ("parse", MMeth (mkmeth KNormal false [("self", None); ("inputStream", None)]
       [Expr (Super "EventReportReliablePdu" "parse" [(Loc "inputStream")] []);
       SetAttr (Loc "self") "eventType" (Meth (Loc "inputStream") "read_unsigned_short" [] []);
       SetAttr (Loc "self") "pad1" (Meth (Loc "inputStream") "read_unsigned_int" [] []);
       Expr (Meth (Attr (Loc "self") "_datums") "parse" [(Loc "inputStream")] [])]))
  ].

(* opendis/dis7.py:7253-7299  class MinefieldResponseNackPdu(MinefieldFamilyPdu) *)
Definition c_MinefieldResponseNackPdu : cls := mkcls "MinefieldResponseNackPdu" ["MinefieldResponseNackPdu"; "MinefieldFamilyPdu"; "Pdu"; "PduSuperclass"]
  [
    (* opendis/dis7.py:7258 *)
    ("pduType", MAttr (LInt 40));
    (* opendis/dis7.py:7260-7271 *)
    ("__init__", MMeth (mkmeth KNormal false [("self", None); ("minefieldID", Some (DLit (LNone))); ("requestingEntityID", Some (DLit (LNone))); ("requestID", Some (DLit (LInt 0))); ("missingPduSequenceNumbers", Some (DLit (LNone)))]
       [Expr (Super "MinefieldResponseNackPdu" "__init__" [] []);
       SetAttr (Loc "self") "minefieldID" (OrE (Loc "minefieldID") (CallV (Glob "EntityIdentifier") [] []));
       SetAttr (Loc "self") "requestingEntityID" (OrE (Loc "requestingEntityID") (CallV (Glob "EntityIdentifier") [] []));
       SetAttr (Loc "self") "requestID" (Loc "requestID");
       SetAttr (Loc "self") "missingPduSequenceNumbers" (OrE (Loc "missingPduSequenceNumbers") (ListE []))]));
    (* opendis/dis7.py:7275-7276 *)
    ("numberOfMissingPdus", MMeth (mkmeth KProperty false [("self", None)]
       [Return (Builtin BLen [(Attr (Loc "self") "missingPduSequenceNumbers")])]));
    (* opendis/dis7.py:7278-7286 *)
    ("serialize", MMeth (mkmeth KNormal false [("self", None); ("outputStream", None)]
       [Expr (Super "MinefieldResponseNackPdu" "serialize" [(Loc "outputStream")] []);
       Expr (Meth (Attr (Loc "self") "minefieldID") "serialize" [(Loc "outputStream")] []);
       Expr (Meth (Attr (Loc "self") "requestingEntityID") "serialize" [(Loc "outputStream")] []);
       Expr (Meth (Loc "outputStream") "write_unsigned_byte" [(Attr (Loc "self") "requestID")] []);
       Expr (Meth (Loc "outputStream") "write_unsigned_byte" [(Attr (Loc "self") "numberOfMissingPdus")] []);
       For "anObj" (Attr (Loc "self") "missingPduSequenceNumbers") [Expr (Meth (Loc "anObj") "serialize" [(Loc "outputStream")] [])]]));
    (* opendis/dis7.py:7288-7299 *)
    ("parse", MMeth (mkmeth KNormal false [("self", None); ("inputStream", None)]
       [Expr (Super "MinefieldResponseNackPdu" "parse" [(Loc "inputStream")] []);
       Expr (Meth (Attr (Loc "self") "minefieldID") "parse" [(Loc "inputStream")] []);
       Expr (Meth (Attr (Loc "self") "requestingEntityID") "parse" [(Loc "inputStream")] []);
       SetAttr (Loc "self") "requestID" (Meth (Loc "inputStream") "read_unsigned_byte" [] []);
       Assign "numberOfMissingPdus" (Meth (Loc "inputStream") "read_unsigned_byte" [] []);
       For "idx" (Builtin BRange [(Lit (LInt 0)); (Loc "numberOfMissingPdus")]) [Assign "element" (CallV (Glob "null") [] []); Expr (Meth (Loc "element") "parse" [(Loc "inputStream")] []); Expr (Meth (Attr (Loc "self") "missingPduSequenceNumbers") "append" [(Loc "element")] [])]]))
  ].

(* opendis/dis7.py:7302-7349  class ActionResponseReliablePdu(SimulationManagementWithReliabilityFamilyPdu) *)
Definition c_ActionResponseReliablePdu : cls := mkcls "ActionResponseReliablePdu" ["ActionResponseReliablePdu"; "SimulationManagementWithReliabilityFamilyPdu"; "Pdu"; "PduSuperclass"]
  [
    (* opendis/dis7.py:7307 *)
    ("pduType", MAttr (LInt 57));
    (* opendis/dis7.py:7309-7319 *)
    ("__init__", MMeth (mkmeth KNormal false [("self", None); ("requestID", Some (DLit (LInt 0))); ("responseStatus", Some (DLit (LInt 0))); ("fixedDatumRecords", Some (DLit (LNone))); ("variableDatumRecords", Some (DLit (LNone)))]
       [Expr (Super "ActionResponseReliablePdu" "__init__" [] []);
       SetAttr (Loc "self") "requestID" (Loc "requestID");
       SetAttr (Loc "self") "responseStatus" (Loc "responseStatus");
       SetAttr (Loc "self") "_datums" (CallV (Glob "DatumSpecification") [(OrE (Loc "fixedDatumRecords") (ListE [])); (OrE (Loc "variableDatumRecords") (ListE []))] [])]));
    (* opendis/dis7.py:7322-7323 *)
    ("numberOfFixedDatumRecords", MMeth (mkmeth KProperty false [("self", None)]
       [Return (Attr (Attr (Loc "self") "_datums") "numberOfFixedDatumRecords")]));
    (* opendis/dis7.py:7326-7327 *)
    ("numberOfVariableDatumRecords", MMeth (mkmeth KProperty false [("self", None)]
       [Return (Attr (Attr (Loc "self") "_datums") "numberOfVariableDatumRecords")]));
    (* opendis/dis7.py:7330-7331 *)
    ("fixedDatumRecords", MMeth (mkmeth KProperty false [("self", None)]
       [Return (Attr (Attr (Loc "self") "_datums") "fixedDatumRecords")]));
    (* opendis/dis7.py:7334-7335 *)
    ("variableDatumRecords", MMeth (mkmeth KProperty false [("self", None)]
       [Return (Attr (Attr (Loc "self") "_datums") "variableDatumRecords")]));
    (* opendis/dis7.py:7337-7342 *)
    ("serialize", MMeth (mkmeth KNormal false [("self", None); ("outputStream", None)]
       [Expr (Super "ActionResponseReliablePdu" "serialize" [(Loc "outputStream")] []);
       Expr (Meth (Loc "outputStream") "write_unsigned_int" [(Attr (Loc "self") "requestID")] []);
       Expr (Meth (Loc "outputStream") "write_unsigned_int" [(Attr (Loc "self") "responseStatus")] []);
       Expr (Meth (Attr (Loc "self") "_datums") "serialize" [(Loc "outputStream")] [])]));
    (* opendis/dis7.py:7344-7349 *)
    ("parse", MMeth (mkmeth KNormal false [("self", None); ("inputStream", None)]
       [Expr (Super "ActionResponseReliablePdu" "parse" [(Loc "inputStream")] []);
       SetAttr (Loc "self") "requestID" (Meth (Loc "inputStream") "read_unsigned_int" [] []);
       SetAttr (Loc "self") "responseStatus" (Meth (Loc "inputStream") "read_unsigned_int" [] []);
       Expr (Meth (Attr (Loc "self") "_datums") "parse" [(Loc "inputStream")] [])]))
  ].

(* opendis/dis7.py:7352-7397  class IsPartOfPdu(EntityManagementFamilyPdu) *)
Definition c_IsPartOfPdu : cls := mkcls "IsPartOfPdu" ["IsPartOfPdu"; "EntityManagementFamilyPdu"; "Pdu"; "PduSuperclass"]
  [
    (* opendis/dis7.py:7358 *)
    ("pduType", MAttr (LInt 36));
    (* opendis/dis7.py:7360-7377 *)
    ("__init__", MMeth (mkmeth KNormal false [("self", None); ("originatingEntityID", Some (DLit (LNone))); ("receivingEntityID", Some (DLit (LNone))); ("relationship", Some (DLit (LNone))); ("partLocation", Some (DLit (LNone))); ("namedLocationID", Some (DLit (LNone))); ("partEntityType", Some (DLit (LNone)))]
       [Expr (Super "IsPartOfPdu" "__init__" [] []);
       SetAttr (Loc "self") "orginatingEntityID" (OrE (Loc "originatingEntityID") (CallV (Glob "EntityIdentifier") [] []));
       SetAttr (Loc "self") "receivingEntityID" (OrE (Loc "receivingEntityID") (CallV (Glob "EntityIdentifier") [] []));
       SetAttr (Loc "self") "relationship" (OrE (Loc "relationship") (CallV (Glob "Relationship") [] []));
       SetAttr (Loc "self") "partLocation" (OrE (Loc "partLocation") (CallV (Glob "Vector3Float") [] []));
       SetAttr (Loc "self") "namedLocationID" (OrE (Loc "namedLocationID") (CallV (Glob "NamedLocationIdentification") [] []));
       SetAttr (Loc "self") "partEntityType" (OrE (Loc "partEntityType") (CallV (Glob "EntityType") [] []))]));
    (* opendis/dis7.py:7379-7387 *)
    ("serialize", MMeth (mkmeth KNormal false [("self", None); ("outputStream", None)]
       [Expr (Super "IsPartOfPdu" "serialize" [(Loc "outputStream")] []);
       Expr (Meth (Attr (Loc "self") "orginatingEntityID") "serialize" [(Loc "outputStream")] []);
       Expr (Meth (Attr (Loc "self") "receivingEntityID") "serialize" [(Loc "outputStream")] []);
       Expr (Meth (Attr (Loc "self") "relationship") "serialize" [(Loc "outputStream")] []);
       Expr (Meth (Attr (Loc "self") "partLocation") "serialize" [(Loc "outputStream")] []);
       Expr (Meth (Attr (Loc "self") "namedLocationID") "serialize" [(Loc "outputStream")] []);
       Expr (Meth (Attr (Loc "self") "partEntityType") "serialize" [(Loc "outputStream")] [])]));
    (* opendis/dis7.py:7389-7397 *)
    ("parse", MMeth (mkmeth KNormal false [("self", None); ("inputStream", None)]
       [Expr (Super "IsPartOfPdu" "parse" [(Loc "inputStream")] []);
       Expr (Meth (Attr (Loc "self") "orginatingEntityID") "parse" [(Loc "inputStream")] []);
       Expr (Meth (Attr (Loc "self") "receivingEntityID") "parse" [(Loc "inputStream")] []);
       Expr (Meth (Attr (Loc "self") "relationship") "parse" [(Loc "inputStream")] []);
       Expr (Meth (Attr (Loc "self") "partLocation") "parse" [(Loc "inputStream")] []);
       Expr (Meth (Attr (Loc "self") "namedLocationID") "parse" [(Loc "inputStream")] []);
       Expr (Meth (Attr (Loc "self") "partEntityType") "parse" [(Loc "inputStream")] [])]))
  ].

(* opendis/dis7.py:7400-7537  class AggregateStatePdu(EntityManagementFamilyPdu) *)
Definition c_AggregateStatePdu : cls := mkcls "AggregateStatePdu" ["AggregateStatePdu"; "EntityManagementFamilyPdu"; "Pdu"; "PduSuperclass"]
  [
    (* opendis/dis7.py:7407 *)
    ("pduType", MAttr (LInt 33));
    (* opendis/dis7.py:7409-7449 *)
    ("__init__", MMeth (mkmeth KNormal false [("self", None); ("aggregateID", Some (DLit (LNone))); ("forceID", Some (DLit (LInt 0))); ("aggregateState", Some (DLit (LInt 0))); ("aggregateType", Some (DLit (LNone))); ("formation", Some (DLit (LInt 0))); ("aggregateMarking", Some (DLit (LNone))); ("dimensions", Some (DLit (LNone))); ("orientation", Some (DLit (LNone))); ("centerOfMass", Some (DLit (LNone))); ("velocity", Some (DLit (LNone))); ("aggregateIDs", Some (DLit (LNone))); ("entityIDs", Some (DLit (LNone))); ("silentAggregateSystems", Some (DLit (LNone))); ("silentEntitySystems", Some (DLit (LNone))); ("variableDatumRecords", Some (DLit (LNone)))]
       [Expr (Super "AggregateStatePdu" "__init__" [] []);
       SetAttr (Loc "self") "aggregateID" (OrE (Loc "aggregateID") (CallV (Glob "AggregateIdentifier") [] []));
       SetAttr (Loc "self") "forceID" (Loc "forceID");
       SetAttr (Loc "self") "aggregateState" (Loc "aggregateState");
       SetAttr (Loc "self") "aggregateType" (OrE (Loc "aggregateType") (CallV (Glob "AggregateType") [] []));
       SetAttr (Loc "self") "formation" (Loc "formation");
       SetAttr (Loc "self") "aggregateMarking" (OrE (Loc "aggregateMarking") (CallV (Glob "AggregateMarking") [] []));
       SetAttr (Loc "self") "dimensions" (OrE (Loc "dimensions") (CallV (Glob "Vector3Float") [] []));
       SetAttr (Loc "self") "orientation" (OrE (Loc "orientation") (CallV (Glob "EulerAngles") [] []));
       SetAttr (Loc "self") "centerOfMass" (OrE (Loc "centerOfMass") (CallV (Glob "Vector3Float") [] []));
       SetAttr (Loc "self") "velocity" (OrE (Loc "velocity") (CallV (Glob "WorldCoordinates") [] []));
       SetAttr (Loc "self") "aggregateIDs" (OrE (Loc "aggregateIDs") (ListE []));
       SetAttr (Loc "self") "entityIDs" (OrE (Loc "entityIDs") (ListE []));
       SetAttr (Loc "self") "silentAggregateSystems" (OrE (Loc "silentAggregateSystems") (ListE []));
       SetAttr (Loc "self") "silentEntitySystems" (OrE (Loc "silentEntitySystems") (ListE []));
       SetAttr (Loc "self") "variableDatumRecords" (OrE (Loc "variableDatumRecords") (ListE []))]));
    (* opendis/dis7.py:7452-7453 *)
    ("numberOfAggregateIDs", MMeth (mkmeth KProperty false [("self", None)]
       [Return (Builtin BLen [(Attr (Loc "self") "aggregateIDs")])]));
    (* opendis/dis7.py:7456-7457 *)
    ("numberOfEntityIDs", MMeth (mkmeth KProperty false [("self", None)]
       [Return (Builtin BLen [(Attr (Loc "self") "entityIDs")])]));
    (* opendis/dis7.py:7460-7461 *)
    ("numberOfSilentAggregateSystems", MMeth (mkmeth KProperty false [("self", None)]
       [Return (Builtin BLen [(Attr (Loc "self") "silentAggregateSystems")])]));
    (* opendis/dis7.py:7464-7465 *)
    ("numberOfSilentEntitySystems", MMeth (mkmeth KProperty false [("self", None)]
       [Return (Builtin BLen [(Attr (Loc "self") "silentEntitySystems")])]));
    (* opendis/dis7.py:7468-7469 *)
    ("numberOfVariableDatumRecords", MMeth (mkmeth KProperty false [("self", None)]
       [Return (Builtin BLen [(Attr (Loc "self") "variableDatumRecords")])]));
    (* opendis/dis7.py:7471-7498 *)
    ("serialize", MMeth (mkmeth KNormal false [("self", None); ("outputStream", None)]
       [Expr (Super "AggregateStatePdu" "serialize" [(Loc "outputStream")] []);
       Expr (Meth (Attr (Loc "self") "aggregateID") "serialize" [(Loc "outputStream")] []);
       Expr (Meth (Loc "outputStream") "write_unsigned_byte" [(Attr (Loc "self") "forceID")] []);
       Expr (Meth (Loc "outputStream") "write_unsigned_byte" [(Attr (Loc "self") "aggregateState")] []);
       Expr (Meth (Attr (Loc "self") "aggregateType") "serialize" [(Loc "outputStream")] []);
       Expr (Meth (Loc "outputStream") "write_unsigned_int" [(Attr (Loc "self") "formation")] []);
       Expr (Meth (Attr (Loc "self") "aggregateMarking") "serialize" [(Loc "outputStream")] []);
       Expr (Meth (Attr (Loc "self") "dimensions") "serialize" [(Loc "outputStream")] []);
       Expr (Meth (Attr (Loc "self") "orientation") "serialize" [(Loc "outputStream")] []);
       Expr (Meth (Attr (Loc "self") "centerOfMass") "serialize" [(Loc "outputStream")] []);
       Expr (Meth (Attr (Loc "self") "velocity") "serialize" [(Loc "outputStream")] []);
       Expr (Meth (Loc "outputStream") "write_unsigned_short" [(Attr (Loc "self") "numberOfAggregateIDs")] []);
       Expr (Meth (Loc "outputStream") "write_unsigned_short" [(Attr (Loc "self") "numberOfEntityIDs")] []);
       Expr (Meth (Loc "outputStream") "write_unsigned_short" [(Attr (Loc "self") "numberOfSilentAggregateSystems")] []);
       Expr (Meth (Loc "outputStream") "write_unsigned_short" [(Attr (Loc "self") "numberOfSilentEntitySystems")] []);
       For "aggregateID" (Attr (Loc "self") "aggregateIDs") [Expr (Meth (Loc "aggregateID") "serialize" [(Loc "outputStream")] [])];
       For "entityID" (Attr (Loc "self") "entityIDs") [Expr (Meth (Loc "entityID") "serialize" [(Loc "outputStream")] [])];
       For "silentAggregateSystem" (Attr (Loc "self") "silentAggregateSystems") [Expr (Meth (Loc "silentAggregateSystem") "serialize" [(Loc "outputStream")] [])];
       For "silentEntitySystem" (Attr (Loc "self") "silentEntitySystems") [Expr (Meth (Loc "silentEntitySystem") "serialize" [(Loc "outputStream")] [])];
       Expr (Meth (Loc "outputStream") "write_unsigned_int" [(Attr (Loc "self") "numberOfVariableDatumRecords")] []);
       For "variableDatumRecord" (Attr (Loc "self") "variableDatumRecords") [Expr (Meth (Loc "variableDatumRecord") "serialize" [(Loc "outputStream")] [])]]));
    (* opendis/dis7.py:7500-7537 *)
    ("parse", MMeth (mkmeth KNormal false [("self", None); ("inputStream", None)]
       [Expr (Super "AggregateStatePdu" "parse" [(Loc "inputStream")] []);
       Expr (Meth (Attr (Loc "self") "aggregateID") "parse" [(Loc "inputStream")] []);
       SetAttr (Loc "self") "forceID" (Meth (Loc "inputStream") "read_unsigned_byte" [] []);
       SetAttr (Loc "self") "aggregateState" (Meth (Loc "inputStream") "read_unsigned_byte" [] []);
       Expr (Meth (Attr (Loc "self") "aggregateType") "parse" [(Loc "inputStream")] []);
       SetAttr (Loc "self") "formation" (Meth (Loc "inputStream") "read_unsigned_int" [] []);
       Expr (Meth (Attr (Loc "self") "aggregateMarking") "parse" [(Loc "inputStream")] []);
       Expr (Meth (Attr (Loc "self") "dimensions") "parse" [(Loc "inputStream")] []);
       Expr (Meth (Attr (Loc "self") "orientation") "parse" [(Loc "inputStream")] []);
       Expr (Meth (Attr (Loc "self") "centerOfMass") "parse" [(Loc "inputStream")] []);
       Expr (Meth (Attr (Loc "self") "velocity") "parse" [(Loc "inputStream")] []);
       Assign "numberOfAggregateIDs" (Meth (Loc "inputStream") "read_unsigned_short" [] []);
       Assign "numberOfEntityIDs" (Meth (Loc "inputStream") "read_unsigned_short" [] []);
       Assign "numberOfSilentAggregateSystems" (Meth (Loc "inputStream") "read_unsigned_short" [] []);
       Assign "numberOfSilentEntitySystems" (Meth (Loc "inputStream") "read_unsigned_short" [] []);
       For "idx" (Builtin BRange [(Lit (LInt 0)); (Loc "numberOfAggregateIDs")]) [Assign "element" (CallV (Glob "AggregateIdentifier") [] []); Expr (Meth (Loc "element") "parse" [(Loc "inputStream")] []); Expr (Meth (Attr (Loc "self") "aggregateIDs") "append" [(Loc "element")] [])];
       For "idx" (Builtin BRange [(Lit (LInt 0)); (Loc "numberOfEntityIDs")]) [Assign "element" (CallV (Glob "EntityIdentifier") [] []); Expr (Meth (Loc "element") "parse" [(Loc "inputStream")] []); Expr (Meth (Attr (Loc "self") "entityIDs") "append" [(Loc "element")] [])];
       For "idx" (Builtin BRange [(Lit (LInt 0)); (Loc "numberOfSilentAggregateSystems")]) [Assign "element" (CallV (Glob "SilentAggregateSystem") [] []); Expr (Meth (Loc "element") "parse" [(Loc "inputStream")] []); Expr (Meth (Attr (Loc "self") "silentAggregateSystems") "append" [(Loc "element")] [])];
       For "idx" (Builtin BRange [(Lit (LInt 0)); (Loc "numberOfSilentEntitySystems")]) [Assign "element" (CallV (Glob "SilentEntitySystem") [] []); Expr (Meth (Loc "element") "parse" [(Loc "inputStream")] []); Expr (Meth (Attr (Loc "self") "silentEntitySystems") "append" [(Loc "element")] [])];
       Assign "numberOfVariableDatumRecords" (Meth (Loc "inputStream") "read_unsigned_int" [] []);
       For "idx" (Builtin BRange [(Lit (LInt 0)); (Loc "numberOfVariableDatumRecords")]) [Assign "element" (CallV (Glob "VariableDatum") [] []); Expr (Meth (Loc "element") "parse" [(Loc "inputStream")] []); Expr (Meth (Attr (Loc "self") "variableDatumRecords") "append" [(Loc "element")] [])]]))
  ].

Definition ProgDis_classes : list (string * cls) :=
  [("DataQueryDatumSpecification", c_DataQueryDatumSpecification);
   ("RadioIdentifier", c_RadioIdentifier);
   ("RequestID", c_RequestID);
   ("IFFData", c_IFFData);
   ("MunitionDescriptor", c_MunitionDescriptor);
   ("MinefieldSensorType", c_MinefieldSensorType);
   ("GroupID", c_GroupID);
   ("LayerHeader", c_LayerHeader);
   ("UnsignedDISInteger", c_UnsignedDISInteger);
   ("DeadReckoningParameters", c_DeadReckoningParameters);
   ("ProtocolMode", c_ProtocolMode);
   ("AngleDeception", c_AngleDeception);
   ("EntityAssociation", c_EntityAssociation);
   ("VectoringNozzleSystem", c_VectoringNozzleSystem);
   ("FalseTargetsAttribute", c_FalseTargetsAttribute);
   ("MinefieldIdentifier", c_MinefieldIdentifier);
   ("RadioType", c_RadioType);
   ("NamedLocationIdentification", c_NamedLocationIdentification);
   ("IFFDataSpecification", c_IFFDataSpecification);
   ("OwnershipStatus", c_OwnershipStatus);
   ("AttachedParts", c_AttachedParts);
   ("Attribute", c_Attribute);
   ("RecordQuerySpecification", c_RecordQuerySpecification);
   ("ArticulatedParts", c_ArticulatedParts);
   ("ObjectType", c_ObjectType);
   ("Association", c_Association);
   ("RecordSpecificationElement", c_RecordSpecificationElement);
   ("AntennaLocation", c_AntennaLocation);
   ("ObjectIdentifier", c_ObjectIdentifier);
   ("AggregateIdentifier", c_AggregateIdentifier);
   ("FixedDatum", c_FixedDatum);
   ("VariableParameter", c_VariableParameter);
   ("ChangeOptions", c_ChangeOptions);
   ("LiveSimulationAddress", c_LiveSimulationAddress);
   ("EntityMarking", c_EntityMarking);
   ("UAFundamentalParameter", c_UAFundamentalParameter);
   ("ExplosionDescriptor", c_ExplosionDescriptor);
   ("ClockTime", c_ClockTime);
   ("SecondaryOperationalData", c_SecondaryOperationalData);
   ("EnvironmentType", c_EnvironmentType);
   ("TotalRecordSets", c_TotalRecordSets);
   ("MineEntityIdentifier", c_MineEntityIdentifier);
   ("Relationship", c_Relationship);
   ("EEFundamentalParameterData", c_EEFundamentalParameterData);
   ("JammingTechnique", c_JammingTechnique);
   ("DatumSpecification", c_DatumSpecification);
   ("Expendable", c_Expendable);
   ("IOCommunicationsNode", c_IOCommunicationsNode);
   ("LinearSegmentParameter", c_LinearSegmentParameter);
   ("SystemIdentifier", c_SystemIdentifier);
   ("TrackJamData", c_TrackJamData);
   ("AggregateType", c_AggregateType);
   ("SimulationManagementPduHeader", c_SimulationManagementPduHeader);
   ("BeamData", c_BeamData);
   ("EngineFuel", c_EngineFuel);
   ("IOEffect", c_IOEffect);
   ("SimulationIdentifier", c_SimulationIdentifier);
   ("GridAxisDescriptorVariable", c_GridAxisDescriptorVariable);
   ("SupplyQuantity", c_SupplyQuantity);
   ("SilentEntitySystem", c_SilentEntitySystem);
   ("SilentAggregateSystem", c_SilentAggregateSystem);
   ("BlankingSector", c_BlankingSector);
   ("LaunchedMunitionRecord", c_LaunchedMunitionRecord);
   ("IFFFundamentalParameterData", c_IFFFundamentalParameterData);
   ("FundamentalOperationalData", c_FundamentalOperationalData);
   ("IntercomCommunicationsParameters", c_IntercomCommunicationsParameters);
   ("EntityType", c_EntityType);
   ("Munition", c_Munition);
   ("StandardVariableSpecification", c_StandardVariableSpecification);
   ("Vector2Float", c_Vector2Float);
   ("Environment", c_Environment);
   ("AcousticEmitter", c_AcousticEmitter);
   ("AngularVelocityVector", c_AngularVelocityVector);
   ("AggregateMarking", c_AggregateMarking);
   ("DataFilterRecord", c_DataFilterRecord);
   ("IntercomIdentifier", c_IntercomIdentifier);
   ("StorageFuel", c_StorageFuel);
   ("Sensor", c_Sensor);
   ("MunitionReload", c_MunitionReload);
   ("StorageFuelReload", c_StorageFuelReload);
   ("ExpendableReload", c_ExpendableReload);
   ("EngineFuelReload", c_EngineFuelReload);
   ("UnattachedIdentifier", c_UnattachedIdentifier);
   ("EntityTypeVP", c_EntityTypeVP);
   ("BeamStatus", c_BeamStatus);
   ("EnvironmentGeneral", c_EnvironmentGeneral);
   ("GridAxis", c_GridAxis);
   ("RecordSpecification", c_RecordSpecification);
   ("VariableDatum", c_VariableDatum);
   ("EventIdentifierLiveEntity", c_EventIdentifierLiveEntity);
   ("PduHeader", c_PduHeader);
   ("PduSuperclass", c_PduSuperclass);
   ("CommunicationsNodeID", c_CommunicationsNodeID);
   ("ExpendableDescriptor", c_ExpendableDescriptor);
   ("PropulsionSystemData", c_PropulsionSystemData);
   ("LiveEntityIdentifier", c_LiveEntityIdentifier);
   ("SeparationVP", c_SeparationVP);
   ("EmitterSystem", c_EmitterSystem);
   ("PduStatus", c_PduStatus);
   ("LiveEntityPdu", c_LiveEntityPdu);
   ("Pdu", c_Pdu);
   ("EntityInformationFamilyPdu", c_EntityInformationFamilyPdu);
   ("LogisticsFamilyPdu", c_LogisticsFamilyPdu);
   ("EntityStateUpdatePdu", c_EntityStateUpdatePdu);
   ("ServiceRequestPdu", c_ServiceRequestPdu);
   ("RepairCompletePdu", c_RepairCompletePdu);
   ("SyntheticEnvironmentFamilyPdu", c_SyntheticEnvironmentFamilyPdu);
   ("CollisionPdu", c_CollisionPdu);
   ("RepairResponsePdu", c_RepairResponsePdu);
   ("SimulationManagementFamilyPdu", c_SimulationManagementFamilyPdu);
   ("DataQueryPdu", c_DataQueryPdu);
   ("LinearObjectStatePdu", c_LinearObjectStatePdu);
   ("CreateEntityPdu", c_CreateEntityPdu);
   ("RadioCommunicationsFamilyPdu", c_RadioCommunicationsFamilyPdu);
   ("IntercomSignalPdu", c_IntercomSignalPdu);
   ("RemoveEntityPdu", c_RemoveEntityPdu);
   ("ResupplyReceivedPdu", c_ResupplyReceivedPdu);
   ("WarfareFamilyPdu", c_WarfareFamilyPdu);
   ("CollisionElasticPdu", c_CollisionElasticPdu);
   ("ActionRequestPdu", c_ActionRequestPdu);
   ("AcknowledgePdu", c_AcknowledgePdu);
   ("DistributedEmissionsFamilyPdu", c_DistributedEmissionsFamilyPdu);
   ("SimulationManagementWithReliabilityFamilyPdu", c_SimulationManagementWithReliabilityFamilyPdu);
   ("ActionRequestReliablePdu", c_ActionRequestReliablePdu);
   ("DesignatorPdu", c_DesignatorPdu);
   ("StopFreezePdu", c_StopFreezePdu);
   ("EntityStatePdu", c_EntityStatePdu);
   ("EntityManagementFamilyPdu", c_EntityManagementFamilyPdu);
   ("StartResumePdu", c_StartResumePdu);
   ("TransmitterPdu", c_TransmitterPdu);
   ("ElectromagneticEmissionsPdu", c_ElectromagneticEmissionsPdu);
   ("EmissionSystemBeamRecord", c_EmissionSystemBeamRecord);
   ("EmissionSystemRecord", c_EmissionSystemRecord);
   ("ResupplyOfferPdu", c_ResupplyOfferPdu);
   ("AttributePdu", c_AttributePdu);
   ("MinefieldFamilyPdu", c_MinefieldFamilyPdu);
   ("SetDataReliablePdu", c_SetDataReliablePdu);
   ("EventReportPdu", c_EventReportPdu);
   ("PointObjectStatePdu", c_PointObjectStatePdu);
   ("DataPdu", c_DataPdu);
   ("FastEntityStatePdu", c_FastEntityStatePdu);
   ("AcknowledgeReliablePdu", c_AcknowledgeReliablePdu);
   ("StartResumeReliablePdu", c_StartResumeReliablePdu);
   ("ArealObjectStatePdu", c_ArealObjectStatePdu);
   ("DataQueryReliablePdu", c_DataQueryReliablePdu);
   ("MinefieldStatePdu", c_MinefieldStatePdu);
   ("DataReliablePdu", c_DataReliablePdu);
   ("CommentPdu", c_CommentPdu);
   ("CommentReliablePdu", c_CommentReliablePdu);
   ("DirectedEnergyFirePdu", c_DirectedEnergyFirePdu);
   ("DetonationPdu", c_DetonationPdu);
   ("SetDataPdu", c_SetDataPdu);
   ("RecordQueryReliablePdu", c_RecordQueryReliablePdu);
   ("ActionResponsePdu", c_ActionResponsePdu);
   ("EntityDamageStatusPdu", c_EntityDamageStatusPdu);
   ("FirePdu", c_FirePdu);
   ("ReceiverPdu", c_ReceiverPdu);
   ("UaPdu", c_UaPdu);
   ("IntercomControlPdu", c_IntercomControlPdu);
   ("SignalPdu", c_SignalPdu);
   ("RemoveEntityReliablePdu", c_RemoveEntityReliablePdu);
   ("SeesPdu", c_SeesPdu);
   ("CreateEntityReliablePdu", c_CreateEntityReliablePdu);
   ("StopFreezeReliablePdu", c_StopFreezeReliablePdu);
   ("EventReportReliablePdu", c_EventReportReliablePdu);
   ("MinefieldResponseNackPdu", c_MinefieldResponseNackPdu);
   ("ActionResponseReliablePdu", c_ActionResponseReliablePdu);
   ("IsPartOfPdu", c_IsPartOfPdu);
   ("AggregateStatePdu", c_AggregateStatePdu)].

(* opendis/dis7.py:49-68 *)
Definition f_parseStandardVariableRecord : meth := mkmeth KNormal false [("inputStream", None); ("expectedType", None)]
  [Assign "recordType" (Meth (Loc "inputStream") "read_uint32" [] []);
  Assign "recordLength" (Meth (Loc "inputStream") "read_uint16" [] []);
  Assign "svClass" (CallV (Glob "getStandardVariableClass") [(Loc "recordType"); (Loc "expectedType")] []);
  Assign "sv_instance" (CallV (Loc "svClass") [] []);
  Expr (Meth (Loc "sv_instance") "parse" [(Loc "inputStream"); (Loc "recordLength")] []);
  Return (Loc "sv_instance")].

(* opendis/PduFactory.py:11-64 *)
Definition PduTypeDecoders : list (Z * string) :=
  [(1, "EntityStatePdu");
   (2, "FirePdu");
   (3, "DetonationPdu");
   (4, "CollisionPdu");
   (5, "ServiceRequestPdu");
   (6, "CollisionElasticPdu");
   (7, "ResupplyReceivedPdu");
   (9, "RepairCompletePdu");
   (10, "RepairResponsePdu");
   (11, "CreateEntityPdu");
   (12, "RemoveEntityPdu");
   (13, "StartResumePdu");
   (14, "StopFreezePdu");
   (15, "AcknowledgePdu");
   (16, "ActionRequestPdu");
   (17, "ActionResponsePdu");
   (18, "DataQueryPdu");
   (19, "SetDataPdu");
   (20, "DataPdu");
   (21, "EventReportPdu");
   (22, "CommentPdu");
   (23, "ElectromagneticEmissionsPdu");
   (24, "DesignatorPdu");
   (25, "TransmitterPdu");
   (26, "SignalPdu");
   (27, "ReceiverPdu");
   (29, "UaPdu");
   (31, "IntercomSignalPdu");
   (32, "IntercomControlPdu");
   (33, "AggregateStatePdu");
   (36, "IsPartOfPdu");
   (37, "MinefieldStatePdu");
   (40, "MinefieldResponseNackPdu");
   (41, "PointObjectStatePdu");
   (43, "PointObjectStatePdu");
   (44, "LinearObjectStatePdu");
   (45, "ArealObjectStatePdu");
   (51, "CreateEntityReliablePdu");
   (52, "RemoveEntityReliablePdu");
   (54, "StopFreezeReliablePdu");
   (55, "AcknowledgeReliablePdu");
   (56, "ActionRequestReliablePdu");
   (57, "ActionResponseReliablePdu");
   (58, "DataQueryReliablePdu");
   (59, "SetDataReliablePdu");
   (60, "DataReliablePdu");
   (61, "EventReportReliablePdu");
   (62, "CommentReliablePdu");
   (63, "RecordQueryReliablePdu");
   (66, "CollisionElasticPdu");
   (67, "EntityStateUpdatePdu");
   (69, "EntityDamageStatusPdu")].
