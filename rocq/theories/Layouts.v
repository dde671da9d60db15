(** * The wire layout of every record and PDU

    A layout lists a record's fields in wire order, each with its primitive type, embedded
    record or list.  [lay] chains the items; [fapp] puts a superclass's fields first.  [TW] says what the
    serialize methods write, [TR] what the parse methods read; they differ only for the classes that
    have an [r_] layout.  [Refine.v] checks both against the code.  (Drafted by tools/layouts.py.) *)
From Coq Require Import ZArith String List.
From Verif Require Import Spec.
Import ListNotations.
Open Scope string_scope. Open Scope Z_scope. Open Scope list_scope.

Definition lay (l : list (fmt -> fmt)) : fmt := fold_right (fun f k => f k) Done l.

(** opendis/record/common.py:115 SimulationAddress (serialize 133-135, parse 137-139) *)
Definition w_SimulationAddress : fmt := lay [
  Prim "site" u16;
  Prim "application" u16].

(** opendis/record/common.py:32 EntityIdentifier (serialize 48-50, parse 52-54) *)
Definition w_EntityIdentifier : fmt := lay [
  Obj "simulationAddress" "SimulationAddress" w_SimulationAddress;
  Prim "entityNumber" u16].

(** opendis/record/common.py:57 EulerAngles (serialize 77-80, parse 82-85) *)
Definition w_EulerAngles : fmt := lay [
  Prim "psi" f32;
  Prim "theta" f32;
  Prim "phi" f32].

(** opendis/record/common.py:88 EventIdentifier (serialize 106-108, parse 110-112) *)
Definition w_EventIdentifier : fmt := lay [
  Obj "simulationAddress" "SimulationAddress" w_SimulationAddress;
  Prim "eventNumber" u16].

(** opendis/record/common.py:142 Vector3Float (serialize 160-163, parse 165-168) *)
Definition w_Vector3Float : fmt := lay [
  Prim "x" f32;
  Prim "y" f32;
  Prim "z" f32].

(** opendis/record/common.py:171 WorldCoordinates (serialize 188-191, parse 193-196) *)
Definition w_WorldCoordinates : fmt := lay [
  Prim "x" f64;
  Prim "y" f64;
  Prim "z" f64].

(** opendis/record/radio/__init__.py:104 BeamAntennaPattern (serialize 137-148, parse 150-164) *)
Definition w_BeamAntennaPattern : fmt := lay [
  Obj "beamDirection" "EulerAngles" w_EulerAngles;
  Prim "azimuthBeamwidth" f32;
  Prim "elevationBeamwidth" f32;
  Prim "referenceSystem" u8;
  Prim "padding1" u8;
  Prim "padding2" u16;
  Prim "ez" f32;
  Prim "ex" f32;
  Prim "phase" f32;
  Prim "padding3" u32].

(** opendis/record/radio/__init__.py:167 SpreadSpectrum (serialize 202-209, parse 211-215) *)
Definition w_SpreadSpectrum : fmt := lay [
  Bits [mkbf (Some "frequencyHopping") 1 true; mkbf (Some "pseudoNoise") 1 true; mkbf (Some "timeHopping") 1 true; mkbf (Some "padding") 13 false]].

(** opendis/record/radio/__init__.py:218 ModulationType (serialize 243-247, parse 249-253) *)
Definition w_ModulationType : fmt := lay [
  Obj "spreadSpectrum" "SpreadSpectrum" w_SpreadSpectrum;
  Prim "majorModulation" u16;
  Prim "detail" u16;
  Prim "radioSystem" u16].

(** opendis/record/radio/__init__.py:267 NetId (serialize 297-303, parse 305-310) *)
Definition w_NetId : fmt := lay [
  Bits [mkbf (Some "netNumber") 10 false; mkbf (Some "frequencyTable") 2 false; mkbf (Some "mode") 2 false; mkbf (Some "padding") 2 false]].

(** opendis/record/radio/__init__.py:313 GenericRadio (serialize 323-324, parse 326-329) *)
Definition w_GenericRadio : fmt := lay [
  ].

(** opendis/record/radio/__init__.py:332 SimpleIntercomRadio (serialize 346-347, parse 349-352) *)
Definition w_SimpleIntercomRadio : fmt := lay [
  ].

(** opendis/record/radio/__init__.py:357 BasicHaveQuickMP (serialize 379-387, parse 389-400) *)
Definition w_BasicHaveQuickMP : fmt := lay [
  Obj "net_id" "NetId" w_NetId;
  Prim "mwod_index" u16;
  Prim "reserved16" u16;
  Prim "reserved8_1" u8;
  Prim "reserved8_2" u8;
  Prim "time_of_day" u32;
  Prim "padding" u32].

(** opendis/record/radio/__init__.py:403 CCTTSincgarsMP (serialize 426-435, parse 437-449) *)
Definition w_CCTTSincgarsMP : fmt := lay [
  Prim "fh_net_id" u16;
  Prim "hop_set_id" u16;
  Prim "lockout_set_id" u16;
  Prim "start_of_message" u8;
  Prim "clear_channel" u8;
  Prim "fh_sync_time_offset" u32;
  Prim "transmission_security_key" u16;
  Prim "padding" u16].

(** opendis/record/warfare/enums.py:8 DEFireFlags (serialize 28-32, parse 34-38) *)
Definition w_DEFireFlags : fmt := lay [
  Bits [mkbf (Some "weaponOn") 1 false; mkbf (Some "stateUpdateFlag") 1 false; mkbf None 14 false]].

(** opendis/record/warfare/__init__.py:251 DirectedEnergyTargetEnergyDeposition (serialize 270-274, parse 276-280) *)
Definition w_DirectedEnergyTargetEnergyDeposition : fmt := lay [
  Obj "targetEntityID" "EntityIdentifier" w_EntityIdentifier;
  Prim "padding" u16;
  Prim "peakIrradiance" f32].

(** opendis/dis7.py:71 DataQueryDatumSpecification (serialize 93-101, parse 103-112) *)
Definition w_DataQueryDatumSpecification : fmt := lay [
  Cnt "fixedDatumIDs" u32 1;
  Cnt "variableDatumIDs" u32 1;
  PList "fixedDatumIDs" u32;
  PList "variableDatumIDs" u32].

(** opendis/dis7.py:115 RadioIdentifier (serialize 132-137, parse 139-144) *)
Definition w_RadioIdentifier : fmt := lay [
  Prim "siteNumber" u16;
  Prim "applicationNumber" u16;
  Prim "referenceNumber" u16;
  Prim "radioNumber" u16].

(** opendis/dis7.py:147 RequestID (serialize 158-160, parse 162-164) *)
Definition w_RequestID : fmt := lay [
  Prim "requestID" u32].

(** opendis/dis7.py:167 IFFData (serialize 184-190, parse 192-201) *)
Definition w_IFFData : fmt := lay [
  Prim "recordType" u32;
  Cnt "iffData" u16 1;
  PList "iffData" u8].

(** opendis/dis7.py:2497 EntityType (serialize 2522-2530, parse 2532-2540) *)
Definition w_EntityType : fmt := lay [
  Prim "entityKind" u8;
  Prim "domain" u8;
  Prim "country" u16;
  Prim "category" u8;
  Prim "subcategory" u8;
  Prim "specific" u8;
  Prim "extra" u8].

(** opendis/dis7.py:204 MunitionDescriptor (serialize 229-235, parse 237-243) *)
Definition w_MunitionDescriptor : fmt := lay [
  Obj "munitionType" "EntityType" w_EntityType;
  Prim "warhead" u16;
  Prim "fuse" u16;
  Prim "quantity" u16;
  Prim "rate" u16].

(** opendis/dis7.py:246 MinefieldSensorType (serialize 257-259, parse 261-263) *)
Definition w_MinefieldSensorType : fmt := lay [
  Prim "sensorType" u16].

(** opendis/dis7.py:266 GroupID (serialize 281-284, parse 286-289) *)
Definition w_GroupID : fmt := lay [
  Obj "simulationAddress" "SimulationAddress" w_SimulationAddress;
  Prim "groupNumber" u16].

(** opendis/dis7.py:292 LayerHeader (serialize 309-313, parse 315-319) *)
Definition w_LayerHeader : fmt := lay [
  Prim "layerNumber" u8;
  Prim "layerSpecificInformation" u8;
  Prim "length" u16].

(** opendis/dis7.py:322 UnsignedDISInteger (serialize 329-331, parse 333-335) *)
Definition w_UnsignedDISInteger : fmt := lay [
  Prim "val" u32].

(** opendis/dis7.py:338 DeadReckoningParameters (serialize 356-363, parse 365-375) *)
Definition w_DeadReckoningParameters : fmt := lay [
  Prim "deadReckoningAlgorithm" u8;
  Arr "parameters" u8 15;
  Obj "entityLinearAcceleration" "Vector3Float" w_Vector3Float;
  Obj "entityAngularVelocity" "Vector3Float" w_Vector3Float].

(** opendis/dis7.py:378 ProtocolMode (serialize 388-390, parse 392-394) *)
Definition w_ProtocolMode : fmt := lay [
  Prim "protocolMode" u16].

(** opendis/dis7.py:397 AngleDeception (serialize 436-453, parse 455-472) *)
Definition w_AngleDeception : fmt := lay [
  Prim "recordType" u32;
  Prim "recordLength" u16;
  Prim "padding" u16;
  Prim "emitterNumber" u8;
  Prim "beamNumber" u8;
  Prim "stateIndicator" u8;
  Prim "padding2" u8;
  Prim "azimuthOffset" f32;
  Prim "azimuthWidth" f32;
  Prim "azimuthPullRate" f32;
  Prim "azimuthPullAcceleration" f32;
  Prim "elevationOffset" f32;
  Prim "elevationWidth" f32;
  Prim "elevationPullRate" f32;
  Prim "elevationPullAcceleration" f32;
  Prim "padding3" u32].

(** opendis/dis7.py:475 EntityAssociation (serialize 508-518, parse 520-530) *)
Definition w_EntityAssociation : fmt := lay [
  Prim "recordType" u8;
  Prim "changeIndicator" u8;
  Prim "associationStatus" u8;
  Prim "associationType" u8;
  Obj "entityID" "EntityIdentifier" w_EntityIdentifier;
  Prim "ownStationLocation" u16;
  Prim "physicalConnectionType" u8;
  Prim "groupMemberType" u8;
  Prim "groupNumber" u16].

(** opendis/dis7.py:533 VectoringNozzleSystem (serialize 545-548, parse 550-553) *)
Definition w_VectoringNozzleSystem : fmt := lay [
  Prim "horizontalDeflectionAngle" f32;
  Prim "verticalDeflectionAngle" f32].

(** opendis/dis7.py:556 FalseTargetsAttribute (serialize 591-605, parse 607-621) *)
Definition w_FalseTargetsAttribute : fmt := lay [
  Prim "recordType" u32;
  Prim "recordLength" u16;
  Prim "padding" u16;
  Prim "emitterNumber" u8;
  Prim "beamNumber" u8;
  Prim "stateIndicator" u8;
  Prim "padding2" u8;
  Prim "falseTargetCount" u16;
  Prim "walkSpeed" f32;
  Prim "walkAcceleration" f32;
  Prim "maximumWalkDistance" f32;
  Prim "keepTime" f32;
  Prim "echoSpacing" f32].

(** opendis/dis7.py:624 MinefieldIdentifier (serialize 636-639, parse 641-644) *)
Definition w_MinefieldIdentifier : fmt := lay [
  Obj "simulationAddress" "SimulationAddress" w_SimulationAddress;
  Prim "minefieldNumber" u16].

(** opendis/dis7.py:647 RadioType (serialize 672-680, parse 682-690) *)
Definition w_RadioType : fmt := lay [
  Prim "entityKind" u8;
  Prim "domain" u8;
  Prim "country" u16;
  Prim "category" u8;
  Prim "subcategory" u8;
  Prim "specific" u8;
  Prim "extra" u8].

(** opendis/dis7.py:693 NamedLocationIdentification (serialize 709-712, parse 714-717) *)
Definition w_NamedLocationIdentification : fmt := lay [
  Prim "stationName" u16;
  Prim "stationNumber" u16].

(** opendis/dis7.py:720 IFFDataSpecification (serialize 733-737, parse 739-745) *)
Definition w_IFFDataSpecification : fmt := lay [
  Cnt "iffDataRecords" u16 1;
  OList "iffDataRecords" "IFFData" w_IFFData].

(** opendis/dis7.py:748 OwnershipStatus (serialize 763-767, parse 769-773) *)
Definition w_OwnershipStatus : fmt := lay [
  Obj "entityId" "EntityIdentifier" w_EntityIdentifier;
  Prim "ownershipStatus" u8;
  Prim "padding" u8].

(** opendis/dis7.py:776 AttachedParts (serialize 797-803, parse 805-811) *)
Definition w_AttachedParts : fmt := lay [
  Prim "recordType" u8;
  Prim "detachedIndicator" u8;
  Prim "partAttachedTo" u16;
  Prim "parameterType" u32;
  Prim "parameterValue" i64].

(** opendis/dis7.py:814 Attribute (serialize 829-833, parse 835-839) *)
Definition w_Attribute : fmt := lay [
  Prim "recordType" u32;
  Prim "recordLength" u16;
  Prim "recordSpecificFields" i64].

(** opendis/dis7.py:842 RecordQuerySpecification (serialize 857-861, parse 863-868) *)
Definition w_RecordQuerySpecification : fmt := lay [
  Cnt "recordIDs" u32 1;
  PList "recordIDs" u32].

(** opendis/dis7.py:871 ArticulatedParts (serialize 893-899, parse 901-907) *)
Definition w_ArticulatedParts : fmt := lay [
  Prim "recordType" u8;
  Prim "changeIndicator" u8;
  Prim "partAttachedTo" u16;
  Prim "parameterType" u32;
  Prim "parameterValue" i64].

(** opendis/dis7.py:910 ObjectType (serialize 930-935, parse 937-942) *)
Definition w_ObjectType : fmt := lay [
  Prim "domain" u8;
  Prim "objectKind" u8;
  Prim "category" u8;
  Prim "subcategory" u8].

(** opendis/dis7.py:945 Association (serialize 967-972, parse 974-979) *)
Definition w_Association : fmt := lay [
  Prim "associationType" u8;
  Prim "padding4" u8;
  Obj "associatedEntityID" "EntityIdentifier" w_EntityIdentifier;
  Obj "associatedLocation" "WorldCoordinates" w_WorldCoordinates].

(** opendis/dis7.py:982 RecordSpecificationElement (serialize 1006-1013, parse 1015-1022) *)
Definition w_RecordSpecificationElement : fmt := lay [
  Prim "recordID" u32;
  Prim "recordSetSerialNumber" u32;
  Prim "recordLength" u16;
  Prim "recordCount" u16;
  Prim "recordValues" u16;
  Prim "pad4" u8].

(** opendis/dis7.py:1025 AntennaLocation (serialize 1040-1043, parse 1045-1048) *)
Definition w_AntennaLocation : fmt := lay [
  Obj "antennaLocation" "WorldCoordinates" w_WorldCoordinates;
  Obj "relativeAntennaLocation" "Vector3Float" w_Vector3Float].

(** opendis/dis7.py:1051 ObjectIdentifier (serialize 1065-1068, parse 1070-1073) *)
Definition w_ObjectIdentifier : fmt := lay [
  Obj "simulationAddress" "SimulationAddress" w_SimulationAddress;
  Prim "objectNumber" u16].

(** opendis/dis7.py:1076 AggregateIdentifier (serialize 1089-1092, parse 1094-1097) *)
Definition w_AggregateIdentifier : fmt := lay [
  Obj "simulationAddress" "SimulationAddress" w_SimulationAddress;
  Prim "aggregateID" u16].

(** opendis/dis7.py:1100 FixedDatum (serialize 1114-1117, parse 1119-1122) *)
Definition w_FixedDatum : fmt := lay [
  Prim "fixedDatumID" u32;
  Prim "fixedDatumValue" u32].

(** opendis/dis7.py:1125 VariableParameter (serialize 1149-1155, parse 1157-1163) *)
Definition w_VariableParameter : fmt := lay [
  Prim "recordType" u8;
  Prim "variableParameterFields1" f64;
  Prim "variableParameterFields2" u32;
  Prim "variableParameterFields3" u16;
  Prim "variableParameterFields4" u8].

(** opendis/dis7.py:1166 ChangeOptions (serialize 1173-1175, parse 1177-1179) *)
Definition w_ChangeOptions : fmt := lay [
  ].

(** opendis/dis7.py:1182 LiveSimulationAddress (serialize 1197-1200, parse 1202-1205) *)
Definition w_LiveSimulationAddress : fmt := lay [
  Prim "liveSiteNumber" u8;
  Prim "liveApplicationNumber" u8].

(** opendis/dis7.py:1208 EntityMarking (serialize 1233-1237, parse 1239-1245) *)
Definition w_EntityMarking : fmt := lay [
  Prim "characterSet" u8;
  Arr "characters" i8 11].

(** opendis/dis7.py:1248 UAFundamentalParameter (serialize 1275-1282, parse 1284-1291) *)
Definition w_UAFundamentalParameter : fmt := lay [
  Prim "activeEmissionParameterIndex" u16;
  Prim "scanPattern" u16;
  Prim "beamCenterAzimuthHorizontal" f32;
  Prim "azimuthalBeamwidthHorizontal" f32;
  Prim "beamCenterDepressionElevation" f32;
  Prim "beamwidthDownElevation" f32].

(** opendis/dis7.py:1294 ExplosionDescriptor (serialize 1312-1317, parse 1319-1324) *)
Definition w_ExplosionDescriptor : fmt := lay [
  Obj "explodingObject" "EntityType" w_EntityType;
  Prim "explosiveMaterial" u16;
  Prim "padding" u16;
  Prim "explosiveForce" f32].

(** opendis/dis7.py:1327 ClockTime (serialize 1344-1347, parse 1349-1352) *)
Definition w_ClockTime : fmt := lay [
  Prim "hour" u32;
  Prim "timePastHour" u32].

(** opendis/dis7.py:1355 SecondaryOperationalData (serialize 1374-1380, parse 1382-1386) *)
Definition w_SecondaryOperationalData : fmt := lay [
  Prim "operationalData1" u8;
  Prim "operationalData2" u8;
  Prim "numberOfIFFFundamentalParameterRecords" u16].

(** opendis/dis7.py:1389 EnvironmentType (serialize 1414-1422, parse 1424-1433) *)
Definition w_EnvironmentType : fmt := lay [
  Prim "entityKind" u8;
  Prim "domain" u8;
  Prim "entityClass" u16;
  Prim "category" u8;
  Prim "subcategory" u8;
  Prim "specific" u8;
  Prim "extra" u8].

(** opendis/dis7.py:1436 TotalRecordSets (serialize 1444-1447, parse 1449-1453) *)
Definition w_TotalRecordSets : fmt := lay [
  Prim "totalRecordSets" u16;
  Prim "padding" u16].

(** opendis/dis7.py:1456 MineEntityIdentifier (serialize 1469-1472, parse 1474-1477) *)
Definition w_MineEntityIdentifier : fmt := lay [
  Obj "simulationAddress" "SimulationAddress" w_SimulationAddress;
  Prim "mineEntityNumber" u16].

(** opendis/dis7.py:1480 Relationship (serialize 1494-1497, parse 1499-1502) *)
Definition w_Relationship : fmt := lay [
  Prim "nature" u16;
  Prim "position" u16].

(** opendis/dis7.py:1505 EEFundamentalParameterData (serialize 1539-1550, parse 1552-1563) *)
Definition w_EEFundamentalParameterData : fmt := lay [
  Prim "frequency" f32;
  Prim "frequencyRange" f32;
  Prim "effectiveRadiatedPower" f32;
  Prim "pulseRepetitionFrequency" f32;
  Prim "pulseWidth" f32;
  Prim "beamAzimuthCenter" f32;
  Prim "beamAzimuthSweep" f32;
  Prim "beamElevationCenter" f32;
  Prim "beamElevationSweep" f32;
  Prim "beamSweepSync" f32].

(** opendis/dis7.py:1566 JammingTechnique (serialize 1578-1583, parse 1585-1590) *)
Definition w_JammingTechnique : fmt := lay [
  Prim "kind" u8;
  Prim "category" u8;
  Prim "subcategory" u8;
  Prim "specific" u8].

(** opendis/dis7.py:3293 VariableDatum (serialize 3318-3327, parse 3329-3339) *)
Definition w_VariableDatum : fmt := lay [
  Prim "variableDatumID" u32;
  Prim "variableDatumLength" u32;
  VList "variableData" u8 "variableDatumLength" 8;
  Pad "variableDatumLength"].

(** opendis/dis7.py:1593 DatumSpecification (serialize 1615-1623, parse 1625-1637) *)
Definition w_DatumSpecification : fmt := lay [
  Cnt "fixedDatumRecords" u32 1;
  Cnt "variableDatumRecords" u32 1;
  OList "fixedDatumRecords" "FixedDatum" w_FixedDatum;
  OList "variableDatumRecords" "VariableDatum" w_VariableDatum].

(** opendis/dis7.py:1640 Expendable (serialize 1658-1664, parse 1666-1672) *)
Definition w_Expendable : fmt := lay [
  Obj "expendable" "EntityType" w_EntityType;
  Prim "station" u32;
  Prim "quantity" u16;
  Prim "expendableStatus" u8;
  Prim "padding" u8].

(** opendis/dis7.py:3481 CommunicationsNodeID (serialize 3493-3496, parse 3498-3501) *)
Definition w_CommunicationsNodeID : fmt := lay [
  Obj "entityID" "EntityIdentifier" w_EntityIdentifier;
  Prim "elementID" u16].

(** opendis/dis7.py:1675 IOCommunicationsNode (serialize 1691-1697, parse 1699-1705) *)
Definition w_IOCommunicationsNode : fmt := lay [
  Prim "recordType" u32;
  Prim "recordLength" u16;
  Prim "communcationsNodeType" u8;
  Prim "padding" u8;
  Obj "communicationsNodeID" "CommunicationsNodeID" w_CommunicationsNodeID].

(** opendis/dis7.py:1708 LinearSegmentParameter (serialize 1748-1760, parse 1762-1774) *)
Definition w_LinearSegmentParameter : fmt := lay [
  Prim "segmentNumber" u8;
  Prim "segmentModification" u8;
  Prim "generalSegmentAppearance" u16;
  Prim "specificSegmentAppearance" u32;
  Obj "segmentLocation" "WorldCoordinates" w_WorldCoordinates;
  Obj "segmentOrientation" "EulerAngles" w_EulerAngles;
  Prim "segmentLength" f32;
  Prim "segmentWidth" f32;
  Prim "segmentHeight" f32;
  Prim "segmentDepth" f32;
  Prim "padding" u32].

(** opendis/dis7.py:1777 SystemIdentifier (serialize 1797-1802, parse 1804-1809) *)
Definition w_SystemIdentifier : fmt := lay [
  Prim "systemType" u16;
  Prim "systemName" u16;
  Prim "systemMode" u16;
  Obj "changeOptions" "ChangeOptions" w_ChangeOptions].

(** opendis/dis7.py:1812 TrackJamData (serialize 1829-1833, parse 1835-1839) *)
Definition w_TrackJamData : fmt := lay [
  Obj "entityID" "EntityIdentifier" w_EntityIdentifier;
  Prim "emitterNumber" u8;
  Prim "beamNumber" u8].

(** opendis/dis7.py:1842 AggregateType (serialize 1870-1878, parse 1880-1888) *)
Definition w_AggregateType : fmt := lay [
  Prim "aggregateKind" u8;
  Prim "domain" u8;
  Prim "country" u16;
  Prim "category" u8;
  Prim "subcategory" u8;
  Prim "specificInfo" u8;
  Prim "extra" u8].

(** opendis/dis7.py:3370 PduHeader (serialize 3401-3410, parse 3412-3421) *)
Definition w_PduHeader : fmt := lay [
  Prim "protocolVersion" u8;
  Prim "exerciseID" u8;
  Prim "pduType" u8;
  Prim "protocolFamily" u8;
  Prim "timestamp" u32;
  Prim "pduLength" u8;
  Prim "pduStatus" u16;
  Prim "padding" u8].

(** opendis/dis7.py:2050 SimulationIdentifier (serialize 2069-2072, parse 2074-2077) *)
Definition w_SimulationIdentifier : fmt := lay [
  Obj "simulationAddress" "SimulationAddress" w_SimulationAddress;
  Prim "referenceNumber" u16].

(** opendis/dis7.py:1891 SimulationManagementPduHeader (serialize 1909-1913, parse 1915-1919) *)
Definition w_SimulationManagementPduHeader : fmt := lay [
  Obj "pduHeader" "PduHeader" w_PduHeader;
  Obj "originatingID" "SimulationIdentifier" w_SimulationIdentifier;
  Obj "receivingID" "SimulationIdentifier" w_SimulationIdentifier].

(** opendis/dis7.py:1922 BeamData (serialize 1946-1952, parse 1954-1960) *)
Definition w_BeamData : fmt := lay [
  Prim "beamAzimuthCenter" f32;
  Prim "beamAzimuthSweep" f32;
  Prim "beamElevationCenter" f32;
  Prim "beamElevationSweep" f32;
  Prim "beamSweepSync" f32].

(** opendis/dis7.py:1963 EngineFuel (serialize 1984-1990, parse 1992-1998) *)
Definition w_EngineFuel : fmt := lay [
  Prim "fuelQuantity" u32;
  Prim "fuelMeasurementUnits" u8;
  Prim "fuelType" u8;
  Prim "fuelLocation" u8;
  Prim "padding" u8].

(** opendis/dis7.py:2001 IOEffect (serialize 2025-2035, parse 2037-2047) *)
Definition w_IOEffect : fmt := lay [
  Prim "recordType" u32;
  Prim "recordLength" u16;
  Prim "ioStatus" u8;
  Prim "ioLinkType" u8;
  Prim "ioEffect" u8;
  Prim "ioEffectDutyCycle" u8;
  Prim "ioEffectDuration" u16;
  Prim "ioProcess" u16;
  Prim "padding" u16].

(** opendis/dis7.py:2080 GridAxisDescriptorVariable (serialize 2123-2137, parse 2139-2155) *)
Definition w_GridAxisDescriptorVariable : fmt := lay [
  Prim "domainInitialXi" f64;
  Prim "domainFinalXi" f64;
  Prim "domainPointsXi" u16;
  Prim "interleafFactor" u8;
  Prim "axisType" u8;
  Cnt "xiValues" u16 1;
  Prim "initialIndex" u16;
  Prim "coordinateScaleXi" f64;
  Prim "coordinateOffsetXi" f64;
  NullL "xiValues"].

(** opendis/dis7.py:2158 SupplyQuantity (serialize 2171-2174, parse 2176-2179) *)
Definition w_SupplyQuantity : fmt := lay [
  Obj "supplyType" "EntityType" w_EntityType;
  Prim "quantity" f32].

(** opendis/dis7.py:2182 SilentEntitySystem (serialize 2202-2208, parse 2210-2218) *)
Definition w_SilentEntitySystem : fmt := lay [
  Prim "numberOfEntities" u16;
  Cnt "appearanceRecordList" u16 1;
  Obj "entityType" "EntityType" w_EntityType;
  NullL "appearanceRecordList"].

(** opendis/dis7.py:2245 BlankingSector (serialize 2277-2292, parse 2294-2310) *)
Definition w_BlankingSector : fmt := lay [
  Prim "recordType" i32;
  Prim "recordLength" u16;
  Prim "padding" u16;
  Prim "emitterNumber" u8;
  Prim "beamNumber" u8;
  Prim "stateIndicator" u8;
  Prim "padding2" u8;
  Prim "leftAzimuth" f32;
  Prim "rightAzimuth" f32;
  Prim "lowerElevation" f32;
  Prim "upperElevation" f32;
  Prim "residualPower" f32;
  Prim "padding3" i32;
  Prim "padding4" i32].

(** opendis/dis7.py:2313 LaunchedMunitionRecord (serialize 2332-2340, parse 2342-2350) *)
Definition w_LaunchedMunitionRecord : fmt := lay [
  Obj "fireEventID" "EventIdentifier" w_EventIdentifier;
  Prim "padding" u16;
  Obj "firingEntityID" "EventIdentifier" w_EventIdentifier;
  Prim "padding2" u16;
  Obj "targetEntityID" "EventIdentifier" w_EventIdentifier;
  Prim "padding3" u16;
  Obj "targetLocation" "WorldCoordinates" w_WorldCoordinates].

(** opendis/dis7.py:2353 IFFFundamentalParameterData (serialize 2375-2384, parse 2386-2398) *)
Definition w_IFFFundamentalParameterData : fmt := lay [
  Prim "erp" f32;
  Prim "frequency" f32;
  Prim "pgrf" f32;
  Prim "pulseWidth" f32;
  Prim "burstLength" u32;
  Prim "applicableModes" u8;
  Arr "systemSpecificData" u8 3].

(** opendis/dis7.py:2401 FundamentalOperationalData (serialize 2439-2450, parse 2452-2463) *)
Definition w_FundamentalOperationalData : fmt := lay [
  Prim "systemStatus" u8;
  Prim "dataField1" u8;
  Prim "informationLayers" u8;
  Prim "dataField2" u8;
  Prim "parameter1" u16;
  Prim "parameter2" u16;
  Prim "parameter3" u16;
  Prim "parameter4" u16;
  Prim "parameter5" u16;
  Prim "parameter6" u16].

(** opendis/dis7.py:2466 IntercomCommunicationsParameters (serialize 2484-2488, parse 2490-2494) *)
Definition w_IntercomCommunicationsParameters : fmt := lay [
  Prim "recordType" u16;
  Prim "recordLength" u16;
  Prim "recordSpecificField" u32].

(** opendis/dis7.py:2543 Munition (serialize 2568-2574, parse 2576-2582) *)
Definition w_Munition : fmt := lay [
  Obj "munitionType" "EntityType" w_EntityType;
  Prim "station" u32;
  Prim "quantity" u16;
  Prim "munitionStatus" u8;
  Prim "padding" u8].

(** opendis/dis7.py:2585 StandardVariableSpecification (serialize 2602-2606, parse 2608-2615) *)
Definition w_StandardVariableSpecification : fmt := lay [
  Cnt "standardVariables" u16 1;
  NullL "standardVariables"].

(** opendis/dis7.py:2618 Vector2Float (serialize 2625-2628, parse 2630-2633) *)
Definition w_Vector2Float : fmt := lay [
  Prim "x" f32;
  Prim "y" f32].

(** opendis/dis7.py:2636 Environment (serialize 2656-2661, parse 2663-2668) *)
Definition w_Environment : fmt := lay [
  Prim "environmentType" u32;
  Prim "length" u16;
  Prim "index" u8;
  Prim "padding" u8].

(** opendis/dis7.py:2671 AcousticEmitter (serialize 2688-2692, parse 2694-2698) *)
Definition w_AcousticEmitter : fmt := lay [
  Prim "acousticSystemName" u16;
  Prim "acousticFunction" u8;
  Prim "acousticIDNumber" u8].

(** opendis/dis7.py:2701 AngularVelocityVector (serialize 2718-2722, parse 2724-2728) *)
Definition w_AngularVelocityVector : fmt := lay [
  Prim "x" f32;
  Prim "y" f32;
  Prim "z" f32].

(** opendis/dis7.py:2731 AggregateMarking (serialize 2746-2750, parse 2752-2759) *)
Definition w_AggregateMarking : fmt := lay [
  Prim "characterSet" u8;
  Arr "characters" u8 31].

(** opendis/dis7.py:2762 DataFilterRecord (serialize 2775-2777, parse 2779-2781) *)
Definition w_DataFilterRecord : fmt := lay [
  Prim "bitFlags" u32].

(** opendis/dis7.py:2784 IntercomIdentifier (serialize 2800-2805, parse 2807-2812) *)
Definition w_IntercomIdentifier : fmt := lay [
  Prim "siteNumber" u16;
  Prim "applicationNumber" u16;
  Prim "referenceNumber" u16;
  Prim "intercomNumber" u16].

(** opendis/dis7.py:2815 StorageFuel (serialize 2836-2842, parse 2844-2850) *)
Definition w_StorageFuel : fmt := lay [
  Prim "fuelQuantity" u32;
  Prim "fuelMeasurementUnits" u8;
  Prim "fuelType" u8;
  Prim "fuelLocation" u8;
  Prim "padding" u8].

(** opendis/dis7.py:2853 Sensor (serialize 2877-2884, parse 2886-2893) *)
Definition w_Sensor : fmt := lay [
  Prim "sensorTypeSource" u8;
  Prim "sensorOnOffStatus" u8;
  Prim "sensorType" u16;
  Prim "station" u32;
  Prim "quantity" u16;
  Prim "padding" u16].

(** opendis/dis7.py:2896 MunitionReload (serialize 2924-2931, parse 2933-2940) *)
Definition w_MunitionReload : fmt := lay [
  Obj "munitionType" "EntityType" w_EntityType;
  Prim "station" u32;
  Prim "standardQuantity" u16;
  Prim "maximumQuantity" u16;
  Prim "standardQuantityReloadTime" u32;
  Prim "maximumQuantityReloadTime" u32].

(** opendis/dis7.py:2943 StorageFuelReload (serialize 2976-2985, parse 2987-2996) *)
Definition w_StorageFuelReload : fmt := lay [
  Prim "standardQuantity" u32;
  Prim "maximumQuantity" u32;
  Prim "standardQuantityReloadTime" u8;
  Prim "maximumQuantityReloadTime" u8;
  Prim "fuelMeasurementUnits" u8;
  Prim "fuelType" u8;
  Prim "fuelLocation" u8;
  Prim "padding" u8].

(** opendis/dis7.py:2999 ExpendableReload (serialize 3021-3028, parse 3030-3037) *)
Definition w_ExpendableReload : fmt := lay [
  Obj "expendable" "EntityType" w_EntityType;
  Prim "station" u32;
  Prim "standardQuantity" u16;
  Prim "maximumQuantity" u16;
  Prim "standardQuantityReloadTime" u32;
  Prim "maximumQuantityReloadTime" u32].

(** opendis/dis7.py:3040 EngineFuelReload (serialize 3064-3072, parse 3074-3083) *)
Definition w_EngineFuelReload : fmt := lay [
  Prim "standardQuantity" u32;
  Prim "maximumQuantity" u32;
  Prim "standardQuantityReloadTime" u32;
  Prim "maximumQuantityReloadTime" u32;
  Prim "fuelMeasurmentUnits" u8;
  Prim "fuelLocation" u8;
  Prim "padding" u8].

(** opendis/dis7.py:3086 UnattachedIdentifier (serialize 3101-3104, parse 3106-3109) *)
Definition w_UnattachedIdentifier : fmt := lay [
  Obj "simulationAddress" "SimulationAddress" w_SimulationAddress;
  Prim "referenceNumber" u16].

(** opendis/dis7.py:3112 EntityTypeVP (serialize 3129-3135, parse 3137-3143) *)
Definition w_EntityTypeVP : fmt := lay [
  Prim "recordType" u8;
  Prim "changeIndicator" u8;
  Obj "entityType" "EntityType" w_EntityType;
  Prim "padding" u16;
  Prim "padding1" u32].

(** opendis/dis7.py:3146 BeamStatus (serialize 3158-3160, parse 3162-3165) *)
Definition w_BeamStatus : fmt := lay [
  Mask "beamState" 1].

(** opendis/dis7.py:3168 EnvironmentGeneral (serialize 3193-3200, parse 3202-3209) *)
Definition w_EnvironmentGeneral : fmt := lay [
  Prim "environmentType" u32;
  Prim "length" u8;
  Prim "index" u8;
  Prim "padding1" u8;
  Prim "geometry" u8;
  Prim "padding2" u8].

(** opendis/dis7.py:3212 GridAxis (serialize 3241-3249, parse 3251-3259) *)
Definition w_GridAxis : fmt := lay [
  Prim "domainInitialXi" f64;
  Prim "domainFinalXi" f64;
  Prim "domainPointsXi" u16;
  Prim "interleafFactor" u8;
  Prim "axisType" u8;
  Prim "numberOfPointsOnXiAxis" u16;
  Prim "initialIndex" u16].

(** opendis/dis7.py:3262 RecordSpecification (serialize 3278-3282, parse 3284-3290) *)
Definition w_RecordSpecification : fmt := lay [
  Cnt "recordSets" u32 1;
  NullL "recordSets"].

(** opendis/dis7.py:3342 EventIdentifierLiveEntity (serialize 3357-3361, parse 3363-3367) *)
Definition w_EventIdentifierLiveEntity : fmt := lay [
  Prim "siteNumber" u8;
  Prim "applicationNumber" u8;
  Prim "eventNumber" u16].

(** opendis/dis7.py:3424 PduSuperclass (serialize 3462-3469, parse 3471-3478) *)
Definition w_PduSuperclass : fmt := lay [
  Prim "protocolVersion" u8;
  Prim "exerciseID" u8;
  Prim "pduType" u8;
  Prim "protocolFamily" u8;
  Prim "timestamp" u32;
  Prim "length" u16].

(** opendis/dis7.py:3504 ExpendableDescriptor (serialize 3515-3518, parse 3520-3523) *)
Definition w_ExpendableDescriptor : fmt := lay [
  Obj "expendableType" "EntityType" w_EntityType;
  Prim "padding" i64].

(** opendis/dis7.py:3526 PropulsionSystemData (serialize 3542-3545, parse 3547-3550) *)
Definition w_PropulsionSystemData : fmt := lay [
  Prim "powerSetting" f32;
  Prim "engineRpm" f32].

(** opendis/dis7.py:3553 LiveEntityIdentifier (serialize 3569-3572, parse 3574-3577) *)
Definition w_LiveEntityIdentifier : fmt := lay [
  Obj "liveSimulationAddress" "LiveSimulationAddress" w_LiveSimulationAddress;
  Prim "entityNumber" u16].

(** opendis/dis7.py:3580 SeparationVP (serialize 3603-3611, parse 3613-3621) *)
Definition w_SeparationVP : fmt := lay [
  Prim "recordType" u8;
  Prim "reasonForSeparation" u8;
  Prim "preEntityIndicator" u8;
  Prim "padding1" u8;
  Obj "parentEntityID" "EntityIdentifier" w_EntityIdentifier;
  Prim "padding2" u16;
  Prim "stationLocation" u32].

(** opendis/dis7.py:3624 EmitterSystem (serialize 3638-3642, parse 3644-3648) *)
Definition w_EmitterSystem : fmt := lay [
  Prim "emitterName" u16;
  Prim "emitterFunction" u8;
  Prim "emitterIDNumber" u8].

(** opendis/dis7.py:3651 PduStatus (serialize 3662-3664, parse 3666-3668) *)
Definition w_PduStatus : fmt := lay [
  Prim "pduStatus" u8].

(** opendis/dis7.py:3671 LiveEntityPdu (serialize 3685-3689, parse 3691-3695) *)
Definition w_LiveEntityPdu : fmt := lay [
  fapp w_PduSuperclass;
  Prim "subprotocolNumber" u16;
  Prim "padding" u8].

(** opendis/dis7.py:3698 Pdu (serialize 3708-3712, parse 3714-3718) *)
Definition w_Pdu : fmt := lay [
  fapp w_PduSuperclass;
  Prim "pduStatus" u8;
  Prim "padding" u8].

(** opendis/dis7.py:3721 EntityInformationFamilyPdu (serialize 3732-3734, parse 3736-3738) *)
Definition w_EntityInformationFamilyPdu : fmt := lay [
  fapp w_Pdu].

(** opendis/dis7.py:3741 LogisticsFamilyPdu (serialize 3751-3753, parse 3755-3757) *)
Definition w_LogisticsFamilyPdu : fmt := lay [
  fapp w_Pdu].

(** opendis/dis7.py:3760 EntityStateUpdatePdu (serialize 3794-3805, parse 3807-3820) *)
Definition w_EntityStateUpdatePdu : fmt := lay [
  fapp w_EntityInformationFamilyPdu;
  Obj "entityID" "EntityIdentifier" w_EntityIdentifier;
  Prim "padding1" i8;
  Cnt "variableParameters" u8 1;
  Obj "entityLinearVelocity" "Vector3Float" w_Vector3Float;
  Obj "entityLocation" "WorldCoordinates" w_WorldCoordinates;
  Obj "entityOrientation" "EulerAngles" w_EulerAngles;
  Prim "entityAppearance" u32;
  OList "variableParameters" "VariableParameter" w_VariableParameter].

(** opendis/dis7.py:3823 ServiceRequestPdu (serialize 3850-3859, parse 3861-3872) *)
Definition w_ServiceRequestPdu : fmt := lay [
  fapp w_LogisticsFamilyPdu;
  Obj "requestingEntityID" "EntityIdentifier" w_EntityIdentifier;
  Obj "servicingEntityID" "EntityIdentifier" w_EntityIdentifier;
  Prim "serviceTypeRequested" u8;
  Cnt "supplies" u8 1;
  Prim "serviceRequestPadding" i16;
  OList "supplies" "SupplyQuantity" w_SupplyQuantity].

(** opendis/dis7.py:3875 RepairCompletePdu (serialize 3896-3902, parse 3904-3910) *)
Definition w_RepairCompletePdu : fmt := lay [
  fapp w_LogisticsFamilyPdu;
  Obj "receivingEntityID" "EntityIdentifier" w_EntityIdentifier;
  Obj "repairingEntityID" "EntityIdentifier" w_EntityIdentifier;
  Prim "repair" u16;
  Prim "padding4" i16].

(** opendis/dis7.py:3913 SyntheticEnvironmentFamilyPdu (serialize 3923-3925, parse 3927-3929) *)
Definition w_SyntheticEnvironmentFamilyPdu : fmt := lay [
  fapp w_Pdu].

(** opendis/dis7.py:3932 CollisionPdu (serialize 3965-3975, parse 3977-3987) *)
Definition w_CollisionPdu : fmt := lay [
  fapp w_EntityInformationFamilyPdu;
  Obj "issuingEntityID" "EntityIdentifier" w_EntityIdentifier;
  Obj "collidingEntityID" "EntityIdentifier" w_EntityIdentifier;
  Obj "eventID" "EventIdentifier" w_EventIdentifier;
  Prim "collisionType" u8;
  Prim "pad" i8;
  Obj "velocity" "Vector3Float" w_Vector3Float;
  Prim "mass" f32;
  Obj "location" "Vector3Float" w_Vector3Float].

(** opendis/dis7.py:3990 RepairResponsePdu (serialize 4011-4018, parse 4020-4027) *)
Definition w_RepairResponsePdu : fmt := lay [
  fapp w_LogisticsFamilyPdu;
  Obj "receivingEntityID" "EntityIdentifier" w_EntityIdentifier;
  Obj "repairingEntityID" "EntityIdentifier" w_EntityIdentifier;
  Prim "repairResult" u8;
  Prim "padding1" i16;
  Prim "padding2" i8].

(** opendis/dis7.py:4030 SimulationManagementFamilyPdu (serialize 4046-4050, parse 4052-4056) *)
Definition w_SimulationManagementFamilyPdu : fmt := lay [
  fapp w_Pdu;
  Obj "originatingEntityID" "EntityIdentifier" w_EntityIdentifier;
  Obj "receivingEntityID" "EntityIdentifier" w_EntityIdentifier].

(** opendis/dis7.py:4059 DataQueryPdu (serialize 4095-4100, parse 4102-4107) *)
Definition w_DataQueryPdu : fmt := lay [
  fapp w_SimulationManagementFamilyPdu;
  Prim "requestID" u32;
  Prim "timeInterval" u32;
  Obj "_dataQuery" "DataQueryDatumSpecification" w_DataQueryDatumSpecification].

(** opendis/dis7.py:4110 LinearObjectStatePdu (serialize 4147-4159, parse 4161-4175) *)
Definition w_LinearObjectStatePdu : fmt := lay [
  fapp w_SyntheticEnvironmentFamilyPdu;
  Obj "objectID" "EntityIdentifier" w_EntityIdentifier;
  Obj "referencedObjectID" "EntityIdentifier" w_EntityIdentifier;
  Prim "updateNumber" u16;
  Prim "forceID" u8;
  Cnt "linearSegmentParameters" u8 1;
  Obj "requesterID" "SimulationAddress" w_SimulationAddress;
  Obj "receivingID" "SimulationAddress" w_SimulationAddress;
  Obj "objectType" "ObjectType" w_ObjectType;
  OList "linearSegmentParameters" "LinearSegmentParameter" w_LinearSegmentParameter].

(** opendis/dis7.py:4178 CreateEntityPdu (serialize 4190-4193, parse 4195-4198) *)
Definition w_CreateEntityPdu : fmt := lay [
  fapp w_SimulationManagementFamilyPdu;
  Prim "requestID" u32].

(** opendis/dis7.py:4201 RadioCommunicationsFamilyPdu (serialize 4211-4213, parse 4215-4217) *)
Definition w_RadioCommunicationsFamilyPdu : fmt := lay [
  fapp w_Pdu].

(** opendis/dis7.py:4220 IntercomSignalPdu (serialize 4252-4263, parse 4265-4280) *)
Definition w_IntercomSignalPdu : fmt := lay [
  fapp w_RadioCommunicationsFamilyPdu;
  Obj "entityID" "EntityIdentifier" w_EntityIdentifier;
  Prim "communicationsDeviceID" u16;
  Prim "encodingScheme" u16;
  Prim "tdlType" u16;
  Prim "sampleRate" u32;
  Cnt "data" u16 8;
  Prim "samples" u16;
  NullL "data"].

(** opendis/dis7.py:4283 RemoveEntityPdu (serialize 4297-4300, parse 4302-4305) *)
Definition w_RemoveEntityPdu : fmt := lay [
  fapp w_SimulationManagementFamilyPdu;
  Prim "requestID" u32].

(** opendis/dis7.py:4308 ResupplyReceivedPdu (serialize 4333-4342, parse 4344-4355) *)
Definition w_ResupplyReceivedPdu : fmt := lay [
  fapp w_LogisticsFamilyPdu;
  Obj "receivingEntityID" "EntityIdentifier" w_EntityIdentifier;
  Obj "supplyingEntityID" "EntityIdentifier" w_EntityIdentifier;
  Cnt "supplies" u8 1;
  Prim "padding1" i16;
  Prim "padding2" i8;
  NullL "supplies"].

(** opendis/dis7.py:4358 WarfareFamilyPdu (serialize 4375-4379, parse 4381-4385) *)
Definition w_WarfareFamilyPdu : fmt := lay [
  fapp w_Pdu;
  Obj "firingEntityID" "EntityIdentifier" w_EntityIdentifier;
  Obj "targetEntityID" "EntityIdentifier" w_EntityIdentifier].

(** opendis/dis7.py:4388 CollisionElasticPdu (serialize 4438-4455, parse 4457-4474) *)
Definition w_CollisionElasticPdu : fmt := lay [
  fapp w_EntityInformationFamilyPdu;
  Obj "issuingEntityID" "EntityIdentifier" w_EntityIdentifier;
  Obj "collidingEntityID" "EntityIdentifier" w_EntityIdentifier;
  Obj "collisionEventID" "EventIdentifier" w_EventIdentifier;
  Prim "pad" i16;
  Obj "contactVelocity" "Vector3Float" w_Vector3Float;
  Prim "mass" f32;
  Obj "locationOfImpact" "Vector3Float" w_Vector3Float;
  Prim "collisionIntermediateResultXX" f32;
  Prim "collisionIntermediateResultXY" f32;
  Prim "collisionIntermediateResultXZ" f32;
  Prim "collisionIntermediateResultYY" f32;
  Prim "collisionIntermediateResultYZ" f32;
  Prim "collisionIntermediateResultZZ" f32;
  Obj "unitSurfaceNormal" "Vector3Float" w_Vector3Float;
  Prim "coefficientOfRestitution" f32].

(** opendis/dis7.py:4477 ActionRequestPdu (serialize 4515-4520, parse 4522-4527) *)
Definition w_ActionRequestPdu : fmt := lay [
  fapp w_SimulationManagementFamilyPdu;
  Prim "requestID" u32;
  Prim "actionID" u32;
  Obj "_datums" "DatumSpecification" w_DatumSpecification].

(** opendis/dis7.py:4530 AcknowledgePdu (serialize 4550-4555, parse 4557-4562) *)
Definition w_AcknowledgePdu : fmt := lay [
  fapp w_SimulationManagementFamilyPdu;
  Prim "acknowledgeFlag" u16;
  Prim "responseFlag" u16;
  Prim "requestID" u32].

(** opendis/dis7.py:4565 DistributedEmissionsFamilyPdu (serialize 4575-4577, parse 4579-4581) *)
Definition w_DistributedEmissionsFamilyPdu : fmt := lay [
  fapp w_Pdu].

(** opendis/dis7.py:4584 SimulationManagementWithReliabilityFamilyPdu (serialize 4600-4604, parse 4606-4610) *)
Definition w_SimulationManagementWithReliabilityFamilyPdu : fmt := lay [
  fapp w_Pdu;
  Obj "originatingEntityID" "EntityIdentifier" w_EntityIdentifier;
  Obj "receivingEntityID" "EntityIdentifier" w_EntityIdentifier].

(** opendis/dis7.py:4613 ActionRequestReliablePdu (serialize 4655-4664, parse 4666-4675) *)
Definition w_ActionRequestReliablePdu : fmt := lay [
  fapp w_SimulationManagementWithReliabilityFamilyPdu;
  Prim "requiredReliabilityService" u8;
  Prim "pad1" u16;
  Prim "pad2" u8;
  Prim "requestID" u32;
  Prim "actionID" u32;
  Prim "pad3" i32;
  Obj "_datums" "DatumSpecification" w_DatumSpecification].

(** opendis/dis7.py:4678 DesignatorPdu (serialize 4723-4737, parse 4739-4753) *)
Definition w_DesignatorPdu : fmt := lay [
  fapp w_DistributedEmissionsFamilyPdu;
  Obj "designatingEntityID" "EntityIdentifier" w_EntityIdentifier;
  Prim "codeName" u16;
  Obj "designatedEntityID" "EntityIdentifier" w_EntityIdentifier;
  Prim "designatorCode" u16;
  Prim "designatorPower" f32;
  Prim "designatorWavelength" f32;
  Obj "designatorSpotWrtDesignated" "Vector3Float" w_Vector3Float;
  Obj "designatorSpotLocation" "WorldCoordinates" w_WorldCoordinates;
  Prim "deadReckoningAlgorithm" i8;
  Prim "padding1" u16;
  Prim "padding2" i8;
  Obj "entityLinearAcceleration" "Vector3Float" w_Vector3Float].

(** opendis/dis7.py:4756 StopFreezePdu (serialize 4779-4786, parse 4788-4795) *)
Definition w_StopFreezePdu : fmt := lay [
  fapp w_SimulationManagementFamilyPdu;
  Obj "realWorldTime" "ClockTime" w_ClockTime;
  Prim "reason" u8;
  Prim "frozenBehavior" u8;
  Prim "padding1" i16;
  Prim "requestID" u32].

(** opendis/dis7.py:4798 EntityStatePdu (serialize 4851-4867, parse 4869-4887) *)
Definition w_EntityStatePdu : fmt := lay [
  fapp w_EntityInformationFamilyPdu;
  Obj "entityID" "EntityIdentifier" w_EntityIdentifier;
  Prim "forceId" u8;
  Cnt "variableParameters" u8 1;
  Obj "entityType" "EntityType" w_EntityType;
  Obj "alternativeEntityType" "EntityType" w_EntityType;
  Obj "entityLinearVelocity" "Vector3Float" w_Vector3Float;
  Obj "entityLocation" "WorldCoordinates" w_WorldCoordinates;
  Obj "entityOrientation" "EulerAngles" w_EulerAngles;
  Prim "entityAppearance" u32;
  Obj "deadReckoningParameters" "DeadReckoningParameters" w_DeadReckoningParameters;
  Obj "marking" "EntityMarking" w_EntityMarking;
  Prim "capabilities" u32;
  OList "variableParameters" "VariableParameter" w_VariableParameter].

(** opendis/dis7.py:4890 EntityManagementFamilyPdu (serialize 4900-4902, parse 4904-4906) *)
Definition w_EntityManagementFamilyPdu : fmt := lay [
  fapp w_Pdu].

(** opendis/dis7.py:4909 StartResumePdu (serialize 4928-4933, parse 4935-4940) *)
Definition w_StartResumePdu : fmt := lay [
  fapp w_SimulationManagementFamilyPdu;
  Obj "realWorldTime" "ClockTime" w_ClockTime;
  Obj "simulationTime" "ClockTime" w_ClockTime;
  Prim "requestID" u32].

(** opendis/dis7.py:5172 EmissionSystemBeamRecord (serialize 5203-5215, parse 5217-5231) *)
Definition w_EmissionSystemBeamRecord : fmt := lay [
  Prim "beamDataLength" u8;
  Prim "beamIDNumber" u8;
  Prim "beamParameterIndex" u16;
  Obj "fundamentalParameterData" "EEFundamentalParameterData" w_EEFundamentalParameterData;
  Prim "beamFunction" u8;
  Cnt "trackJamRecords" u8 1;
  Prim "highDensityTrackJam" u8;
  Obj "beamStatus" "BeamStatus" w_BeamStatus;
  Prim "jammingModeSequence" u32;
  OList "trackJamRecords" "TrackJamData" w_TrackJamData].

(** opendis/dis7.py:5234 EmissionSystemRecord (serialize 5258-5265, parse 5267-5276) *)
Definition w_EmissionSystemRecord : fmt := lay [
  Prim "systemDataLength" u8;
  Cnt "beamRecords" u8 1;
  Zero u16;
  Obj "emitterSystem" "EmitterSystem" w_EmitterSystem;
  Obj "location" "Vector3Float" w_Vector3Float;
  OList "beamRecords" "EmissionSystemBeamRecord" w_EmissionSystemBeamRecord].

(** opendis/dis7.py:5119 ElectromagneticEmissionsPdu (serialize 5146-5155, parse 5157-5169) *)
Definition w_ElectromagneticEmissionsPdu : fmt := lay [
  fapp w_DistributedEmissionsFamilyPdu;
  Obj "emittingEntityID" "EntityIdentifier" w_EntityIdentifier;
  Obj "eventID" "EventIdentifier" w_EventIdentifier;
  Prim "stateUpdateIndicator" u8;
  Cnt "systems" u8 1;
  Prim "paddingForEmissionsPdu" u16;
  OList "systems" "EmissionSystemRecord" w_EmissionSystemRecord].

(** opendis/dis7.py:5279 ResupplyOfferPdu (serialize 5305-5314, parse 5316-5327) *)
Definition w_ResupplyOfferPdu : fmt := lay [
  fapp w_LogisticsFamilyPdu;
  Obj "receivingEntityID" "EntityIdentifier" w_EntityIdentifier;
  Obj "supplyingEntityID" "EntityIdentifier" w_EntityIdentifier;
  Cnt "supplies" u8 1;
  Prim "padding1" i8;
  Prim "padding2" i16;
  OList "supplies" "SupplyQuantity" w_SupplyQuantity].

(** opendis/dis7.py:5330 AttributePdu (serialize 5367-5378, parse 5380-5391) *)
Definition w_AttributePdu : fmt := lay [
  fapp w_EntityInformationFamilyPdu;
  Obj "originatingSimulationAddress" "SimulationAddress" w_SimulationAddress;
  Prim "padding1" i32;
  Prim "padding2" i16;
  Prim "attributeRecordPduType" u8;
  Prim "attributeRecordProtocolVersion" u8;
  Prim "masterAttributeRecordType" u32;
  Prim "actionCode" u8;
  Prim "padding3" i8;
  Prim "numberOfAttributeRecordSets" u16].

(** opendis/dis7.py:5394 MinefieldFamilyPdu (serialize 5404-5406, parse 5408-5410) *)
Definition w_MinefieldFamilyPdu : fmt := lay [
  fapp w_Pdu].

(** opendis/dis7.py:5413 SetDataReliablePdu (serialize 5452-5459, parse 5461-5468) *)
Definition w_SetDataReliablePdu : fmt := lay [
  fapp w_SimulationManagementWithReliabilityFamilyPdu;
  Prim "requiredReliabilityService" u8;
  Prim "pad1" u16;
  Prim "pad2" u8;
  Prim "requestID" u32;
  Obj "_datums" "DatumSpecification" w_DatumSpecification].

(** opendis/dis7.py:5471 EventReportPdu (serialize 5490-5495, parse 5497-5502) *)
Definition w_EventReportPdu : fmt := lay [
  fapp w_SimulationManagementFamilyPdu;
  Prim "eventType" u32;
  Prim "padding1" u32;
  Obj "_datums" "DatumSpecification" w_DatumSpecification].

(** opendis/dis7.py:5505 PointObjectStatePdu (serialize 5552-5566, parse 5568-5582) *)
Definition w_PointObjectStatePdu : fmt := lay [
  fapp w_SyntheticEnvironmentFamilyPdu;
  Obj "objectID" "EntityIdentifier" w_EntityIdentifier;
  Obj "referencedObjectID" "EntityIdentifier" w_EntityIdentifier;
  Prim "updateNumber" u16;
  Prim "forceID" u8;
  Prim "modifications" u8;
  Obj "objectType" "ObjectType" w_ObjectType;
  Obj "objectLocation" "WorldCoordinates" w_WorldCoordinates;
  Obj "objectOrientation" "EulerAngles" w_EulerAngles;
  Prim "objectAppearance" f64;
  Obj "requesterID" "SimulationAddress" w_SimulationAddress;
  Obj "receivingID" "SimulationAddress" w_SimulationAddress;
  Prim "pad2" u32].

(** opendis/dis7.py:5585 DataPdu (serialize 5621-5626, parse 5628-5634) *)
Definition w_DataPdu : fmt := lay [
  fapp w_SimulationManagementFamilyPdu;
  Prim "requestID" u32;
  Prim "padding1" u32;
  Obj "_datums" "DatumSpecification" w_DatumSpecification].

(** opendis/dis7.py:5637 FastEntityStatePdu (serialize 5764-5811, parse 5813-5868) *)
Definition w_FastEntityStatePdu : fmt := lay [
  fapp w_EntityInformationFamilyPdu;
  Prim "site" u16;
  Prim "application" u16;
  Prim "entity" u16;
  Prim "forceId" u8;
  Cnt "variableParameters" i8 1;
  Prim "entityKind" u8;
  Prim "domain" u8;
  Prim "country" u16;
  Prim "category" u8;
  Prim "subcategory" u8;
  Prim "specific" u8;
  Prim "extra" u8;
  Prim "altEntityKind" u8;
  Prim "altDomain" u8;
  Prim "altCountry" u16;
  Prim "altCategory" u8;
  Prim "altSubcategory" u8;
  Prim "altSpecific" u8;
  Prim "altExtra" u8;
  Prim "xVelocity" f32;
  Prim "yVelocity" f32;
  Prim "zVelocity" f32;
  Prim "xLocation" f64;
  Prim "yLocation" f64;
  Prim "zLocation" f64;
  Prim "psi" f32;
  Prim "theta" f32;
  Prim "phi" f32;
  Prim "entityAppearance" i32;
  Prim "deadReckoningAlgorithm" u8;
  Arr "otherParameters" i8 15;
  Prim "xAcceleration" f32;
  Prim "yAcceleration" f32;
  Prim "zAcceleration" f32;
  Prim "xAngularVelocity" f32;
  Prim "yAngularVelocity" f32;
  Prim "zAngularVelocity" f32;
  Arr "marking" i8 12;
  Prim "capabilities" i32;
  OList "variableParameters" "VariableParameter" w_VariableParameter].

(** opendis/dis7.py:5871 AcknowledgeReliablePdu (serialize 5890-5895, parse 5897-5902) *)
Definition w_AcknowledgeReliablePdu : fmt := lay [
  fapp w_SimulationManagementWithReliabilityFamilyPdu;
  Prim "acknowledgeFlag" u16;
  Prim "responseFlag" u16;
  Prim "requestID" u32].

(** opendis/dis7.py:5905 StartResumeReliablePdu (serialize 5928-5936, parse 5938-5946) *)
Definition w_StartResumeReliablePdu : fmt := lay [
  fapp w_SimulationManagementWithReliabilityFamilyPdu;
  Obj "realWorldTime" "ClockTime" w_ClockTime;
  Obj "simulationTime" "ClockTime" w_ClockTime;
  Prim "requiredReliabilityService" u8;
  Prim "pad1" u16;
  Prim "pad2" u8;
  Prim "requestID" u32].

(** opendis/dis7.py:5949 ArealObjectStatePdu (serialize 5991-6006, parse 6008-6025) *)
Definition w_ArealObjectStatePdu : fmt := lay [
  fapp w_SyntheticEnvironmentFamilyPdu;
  Obj "objectID" "EntityIdentifier" w_EntityIdentifier;
  Obj "referencedObjectID" "EntityIdentifier" w_EntityIdentifier;
  Prim "updateNumber" u16;
  Prim "forceID" u8;
  Prim "modifications" u8;
  Obj "objectType" "ObjectType" w_ObjectType;
  Prim "specificObjectAppearance" u32;
  Prim "generalObjectAppearance" u16;
  Cnt "objectLocation" u16 1;
  Obj "requesterID" "SimulationAddress" w_SimulationAddress;
  Obj "receivingID" "SimulationAddress" w_SimulationAddress;
  OList "objectLocation" "WorldCoordinates" w_WorldCoordinates].

(** opendis/dis7.py:6028 DataQueryReliablePdu (serialize 6069-6077, parse 6079-6087) *)
Definition w_DataQueryReliablePdu : fmt := lay [
  fapp w_SimulationManagementWithReliabilityFamilyPdu;
  Prim "requiredReliabilityService" u8;
  Prim "pad1" u16;
  Prim "pad2" u8;
  Prim "requestID" u32;
  Prim "timeInterval" u32;
  Obj "_dataQuery" "DataQueryDatumSpecification" w_DataQueryDatumSpecification].

(** opendis/dis7.py:6090 MinefieldStatePdu (serialize 6132-6149, parse 6151-6172) *)
Definition w_MinefieldStatePdu : fmt := lay [
  fapp w_MinefieldFamilyPdu;
  Obj "minefieldID" "MinefieldIdentifier" w_MinefieldIdentifier;
  Prim "minefieldSequence" u16;
  Prim "forceID" u8;
  Cnt "perimeterPoints" u8 1;
  Obj "minefieldType" "EntityType" w_EntityType;
  Cnt "mineTypes" u16 1;
  Obj "minefieldLocation" "WorldCoordinates" w_WorldCoordinates;
  Obj "minefieldOrientation" "EulerAngles" w_EulerAngles;
  Prim "appearance" u16;
  Prim "protocolMode" u16;
  OList "perimeterPoints" "Vector2Float" w_Vector2Float;
  OList "mineTypes" "EntityType" w_EntityType].

(** opendis/dis7.py:6175 DataReliablePdu (serialize 6214-6221, parse 6223-6230) *)
Definition w_DataReliablePdu : fmt := lay [
  fapp w_SimulationManagementWithReliabilityFamilyPdu;
  Prim "requestID" u32;
  Prim "requiredReliabilityService" u8;
  Prim "pad1" u16;
  Prim "pad2" u8;
  Obj "_datums" "DatumSpecification" w_DatumSpecification].

(** opendis/dis7.py:6233 CommentPdu (serialize 6264-6267, parse 6269-6272) *)
Definition w_CommentPdu : fmt := lay [
  fapp w_SimulationManagementFamilyPdu;
  Obj "_datums" "DatumSpecification" w_DatumSpecification].

(** opendis/dis7.py:6275 CommentReliablePdu (serialize 6307-6310, parse 6312-6315) *)
Definition w_CommentReliablePdu : fmt := lay [
  fapp w_SimulationManagementWithReliabilityFamilyPdu;
  Obj "_datums" "DatumSpecification" w_DatumSpecification].

(** opendis/dis7.py:6406 DetonationPdu (serialize 6445-6458, parse 6460-6475) *)
Definition w_DetonationPdu : fmt := lay [
  fapp w_WarfareFamilyPdu;
  Obj "explodingEntityID" "EntityIdentifier" w_EntityIdentifier;
  Obj "eventID" "EventIdentifier" w_EventIdentifier;
  Obj "velocity" "Vector3Float" w_Vector3Float;
  Obj "location" "WorldCoordinates" w_WorldCoordinates;
  Obj "descriptor" "MunitionDescriptor" w_MunitionDescriptor;
  Obj "locationInEntityCoordinates" "Vector3Float" w_Vector3Float;
  Prim "detonationResult" u8;
  Cnt "variableParameters" u8 1;
  Prim "pad" u16;
  OList "variableParameters" "VariableParameter" w_VariableParameter].

(** opendis/dis7.py:6478 SetDataPdu (serialize 6512-6517, parse 6519-6524) *)
Definition w_SetDataPdu : fmt := lay [
  fapp w_SimulationManagementFamilyPdu;
  Prim "requestID" u32;
  Prim "padding1" u32;
  Obj "_datums" "DatumSpecification" w_DatumSpecification].

(** opendis/dis7.py:6527 RecordQueryReliablePdu (serialize 6555-6566, parse 6568-6581) *)
Definition w_RecordQueryReliablePdu : fmt := lay [
  fapp w_SimulationManagementWithReliabilityFamilyPdu;
  Prim "requestID" u32;
  Prim "requiredReliabilityService" u8;
  Prim "pad1" u16;
  Prim "pad2" u8;
  Prim "eventType" u16;
  Prim "time" u32;
  Cnt "recordIDs" u32 1;
  NullL "recordIDs"].

(** opendis/dis7.py:6584 ActionResponsePdu (serialize 6620-6625, parse 6627-6632) *)
Definition w_ActionResponsePdu : fmt := lay [
  fapp w_SimulationManagementFamilyPdu;
  Prim "requestID" u32;
  Prim "requestStatus" u32;
  Obj "_datums" "DatumSpecification" w_DatumSpecification].

(** opendis/dis7.py:6680 FirePdu (serialize 6713-6722, parse 6724-6733) *)
Definition w_FirePdu : fmt := lay [
  fapp w_WarfareFamilyPdu;
  Obj "munitionExpendableID" "EntityIdentifier" w_EntityIdentifier;
  Obj "eventID" "EventIdentifier" w_EventIdentifier;
  Prim "fireMissionIndex" u32;
  Obj "location" "WorldCoordinates" w_WorldCoordinates;
  Obj "descriptor" "MunitionDescriptor" w_MunitionDescriptor;
  Obj "velocity" "Vector3Float" w_Vector3Float;
  Prim "range" f32].

(** opendis/dis7.py:6736 ReceiverPdu (serialize 6759-6766, parse 6768-6775) *)
Definition w_ReceiverPdu : fmt := lay [
  fapp w_RadioCommunicationsFamilyPdu;
  Prim "receiverState" u16;
  Prim "padding1" u16;
  Prim "receivedPower" f32;
  Obj "transmitterEntityID" "EntityIdentifier" w_EntityIdentifier;
  Prim "transmitterRadioId" u16].

(** opendis/dis7.py:6778 UaPdu (serialize 6828-6845, parse 6847-6870) *)
Definition w_UaPdu : fmt := lay [
  fapp w_DistributedEmissionsFamilyPdu;
  Obj "emittingEntityID" "EntityIdentifier" w_EntityIdentifier;
  Obj "eventID" "EventIdentifier" w_EventIdentifier;
  Prim "stateChangeIndicator" i8;
  Prim "pad" i8;
  Prim "passiveParameterIndex" u16;
  Prim "propulsionPlantConfiguration" u8;
  Cnt "shaftRPMs" u8 1;
  Cnt "apaData" u8 1;
  Cnt "emitterSystems" u8 1;
  NullL "shaftRPMs";
  NullL "apaData";
  NullL "emitterSystems"].

(** opendis/dis7.py:6873 IntercomControlPdu (serialize 6922-6937, parse 6939-6954) *)
Definition w_IntercomControlPdu : fmt := lay [
  fapp w_RadioCommunicationsFamilyPdu;
  Prim "controlType" u8;
  Prim "communicationsChannelType" u8;
  Obj "sourceEntityID" "EntityIdentifier" w_EntityIdentifier;
  Prim "sourceCommunicationsDeviceID" u8;
  Prim "sourceLineID" u8;
  Prim "transmitPriority" u8;
  Prim "transmitLineState" u8;
  Prim "command" u8;
  Obj "masterEntityID" "EntityIdentifier" w_EntityIdentifier;
  Prim "masterCommunicationsDeviceID" u16;
  Cnt "intercomParameters" u32 1;
  NullL "intercomParameters"].

(** opendis/dis7.py:6957 SignalPdu (serialize 6990-7001, parse 7003-7015) *)
Definition w_SignalPdu : fmt := lay [
  fapp w_RadioCommunicationsFamilyPdu;
  Obj "entityID" "EntityIdentifier" w_EntityIdentifier;
  Prim "radioID" u16;
  Prim "encodingScheme" u16;
  Prim "tdlType" u16;
  Prim "sampleRate" u32;
  Cnt "data" u16 8;
  Prim "samples" u16;
  PList "data" u8].

(** opendis/dis7.py:7018 RemoveEntityReliablePdu (serialize 7035-7041, parse 7043-7049) *)
Definition w_RemoveEntityReliablePdu : fmt := lay [
  fapp w_SimulationManagementWithReliabilityFamilyPdu;
  Prim "requiredReliabilityService" u8;
  Prim "pad1" u16;
  Prim "pad2" u8;
  Prim "requestID" u32].

(** opendis/dis7.py:7052 SeesPdu (serialize 7082-7097, parse 7099-7119) *)
Definition w_SeesPdu : fmt := lay [
  fapp w_DistributedEmissionsFamilyPdu;
  Obj "orginatingEntityID" "EntityIdentifier" w_EntityIdentifier;
  Prim "infraredSignatureRepresentationIndex" u16;
  Prim "acousticSignatureRepresentationIndex" u16;
  Prim "radarCrossSectionSignatureRepresentationIndex" u16;
  Cnt "propulsionSystemData" u16 1;
  Cnt "vectoringSystemData" u16 1;
  NullL "propulsionSystemData";
  NullL "vectoringSystemData"].

(** opendis/dis7.py:7122 CreateEntityReliablePdu (serialize 7139-7145, parse 7147-7153) *)
Definition w_CreateEntityReliablePdu : fmt := lay [
  fapp w_SimulationManagementWithReliabilityFamilyPdu;
  Prim "requiredReliabilityService" u8;
  Prim "pad1" u16;
  Prim "pad2" u8;
  Prim "requestID" u32].

(** opendis/dis7.py:7156 StopFreezeReliablePdu (serialize 7181-7189, parse 7191-7199) *)
Definition w_StopFreezeReliablePdu : fmt := lay [
  fapp w_SimulationManagementWithReliabilityFamilyPdu;
  Obj "realWorldTime" "ClockTime" w_ClockTime;
  Prim "reason" u8;
  Prim "frozenBehavior" u8;
  Prim "requiredReliablityService" u8;
  Prim "pad1" u8;
  Prim "requestID" u32].

(** opendis/dis7.py:7202 EventReportReliablePdu (serialize 7238-7243, parse 7245-7250) *)
Definition w_EventReportReliablePdu : fmt := lay [
  fapp w_SimulationManagementWithReliabilityFamilyPdu;
  Prim "eventType" u16;
  Prim "pad1" u32;
  Obj "_datums" "DatumSpecification" w_DatumSpecification].

(** opendis/dis7.py:7253 MinefieldResponseNackPdu (serialize 7278-7286, parse 7288-7299) *)
Definition w_MinefieldResponseNackPdu : fmt := lay [
  fapp w_MinefieldFamilyPdu;
  Obj "minefieldID" "EntityIdentifier" w_EntityIdentifier;
  Obj "requestingEntityID" "EntityIdentifier" w_EntityIdentifier;
  Prim "requestID" u8;
  Cnt "missingPduSequenceNumbers" u8 1;
  NullL "missingPduSequenceNumbers"].

(** opendis/dis7.py:7302 ActionResponseReliablePdu (serialize 7337-7342, parse 7344-7349) *)
Definition w_ActionResponseReliablePdu : fmt := lay [
  fapp w_SimulationManagementWithReliabilityFamilyPdu;
  Prim "requestID" u32;
  Prim "responseStatus" u32;
  Obj "_datums" "DatumSpecification" w_DatumSpecification].

(** opendis/dis7.py:7352 IsPartOfPdu (serialize 7379-7387, parse 7389-7397) *)
Definition w_IsPartOfPdu : fmt := lay [
  fapp w_EntityManagementFamilyPdu;
  Obj "orginatingEntityID" "EntityIdentifier" w_EntityIdentifier;
  Obj "receivingEntityID" "EntityIdentifier" w_EntityIdentifier;
  Obj "relationship" "Relationship" w_Relationship;
  Obj "partLocation" "Vector3Float" w_Vector3Float;
  Obj "namedLocationID" "NamedLocationIdentification" w_NamedLocationIdentification;
  Obj "partEntityType" "EntityType" w_EntityType].

(** opendis/record/radio/__init__.py:167 SpreadSpectrum (parse 211-215) *)
Definition r_SpreadSpectrum : fmt := lay [
  Bits [mkbf (Some "frequencyHopping") 1 true; mkbf (Some "pseudoNoise") 1 true; mkbf (Some "timeHopping") 1 true; mkbf None 13 false]].

(** opendis/record/radio/__init__.py:218 ModulationType (parse 249-253) *)
Definition r_ModulationType : fmt := lay [
  Obj "spreadSpectrum" "SpreadSpectrum" r_SpreadSpectrum;
  Prim "majorModulation" u16;
  Prim "detail" u16;
  Prim "radioSystem" u16].

(** opendis/record/warfare/enums.py:8 DEFireFlags (parse 34-38) *)
Definition r_DEFireFlags : fmt := lay [
  Bits [mkbf (Some "weaponOn") 1 false; mkbf (Some "stateUpdateFlag") 1 false; mkbf (Some "padding") 14 false]].

(** opendis/dis7.py:167 IFFData (parse 192-201) *)
Definition r_IFFData : fmt := lay [
  Prim "recordType" u32;
  Prim "recordLength" u16;
  Derive "iffData" "recordLength" 6;
  PList "iffData" u8].

(** opendis/dis7.py:720 IFFDataSpecification (parse 739-745) *)
Definition r_IFFDataSpecification : fmt := lay [
  Cnt "iffDataRecords" u16 1;
  OList "iffDataRecords" "IFFData" r_IFFData].

(** opendis/dis7.py:2221 SilentAggregateSystem (parse 2239-2242) *)
Definition r_SilentAggregateSystem : fmt := lay [
  Prim "numberOfAggregates" u16;
  Obj "aggregateType" "AggregateType" w_AggregateType].

(** opendis/dis7.py:7400 AggregateStatePdu (parse 7500-7537) *)
Definition r_AggregateStatePdu : fmt := lay [
  fapp w_EntityManagementFamilyPdu;
  Obj "aggregateID" "AggregateIdentifier" w_AggregateIdentifier;
  Prim "forceID" u8;
  Prim "aggregateState" u8;
  Obj "aggregateType" "AggregateType" w_AggregateType;
  Prim "formation" u32;
  Obj "aggregateMarking" "AggregateMarking" w_AggregateMarking;
  Obj "dimensions" "Vector3Float" w_Vector3Float;
  Obj "orientation" "EulerAngles" w_EulerAngles;
  Obj "centerOfMass" "Vector3Float" w_Vector3Float;
  Obj "velocity" "WorldCoordinates" w_WorldCoordinates;
  Cnt "aggregateIDs" u16 1;
  Cnt "entityIDs" u16 1;
  Cnt "silentAggregateSystems" u16 1;
  Cnt "silentEntitySystems" u16 1;
  OList "aggregateIDs" "AggregateIdentifier" w_AggregateIdentifier;
  OList "entityIDs" "EntityIdentifier" w_EntityIdentifier;
  OList "silentAggregateSystems" "SilentAggregateSystem" r_SilentAggregateSystem;
  OList "silentEntitySystems" "SilentEntitySystem" w_SilentEntitySystem;
  Cnt "variableDatumRecords" u32 1;
  OList "variableDatumRecords" "VariableDatum" w_VariableDatum].

(** the layout each class's serialize follows *)
Definition TW : list (string * fmt) := [
  ("EntityIdentifier", w_EntityIdentifier);
  ("EulerAngles", w_EulerAngles);
  ("EventIdentifier", w_EventIdentifier);
  ("SimulationAddress", w_SimulationAddress);
  ("Vector3Float", w_Vector3Float);
  ("WorldCoordinates", w_WorldCoordinates);
  ("BeamAntennaPattern", w_BeamAntennaPattern);
  ("SpreadSpectrum", w_SpreadSpectrum);
  ("ModulationType", w_ModulationType);
  ("NetId", w_NetId);
  ("GenericRadio", w_GenericRadio);
  ("SimpleIntercomRadio", w_SimpleIntercomRadio);
  ("BasicHaveQuickMP", w_BasicHaveQuickMP);
  ("CCTTSincgarsMP", w_CCTTSincgarsMP);
  ("DEFireFlags", w_DEFireFlags);
  ("DirectedEnergyTargetEnergyDeposition", w_DirectedEnergyTargetEnergyDeposition);
  ("DataQueryDatumSpecification", w_DataQueryDatumSpecification);
  ("RadioIdentifier", w_RadioIdentifier);
  ("RequestID", w_RequestID);
  ("IFFData", w_IFFData);
  ("MunitionDescriptor", w_MunitionDescriptor);
  ("MinefieldSensorType", w_MinefieldSensorType);
  ("GroupID", w_GroupID);
  ("LayerHeader", w_LayerHeader);
  ("UnsignedDISInteger", w_UnsignedDISInteger);
  ("DeadReckoningParameters", w_DeadReckoningParameters);
  ("ProtocolMode", w_ProtocolMode);
  ("AngleDeception", w_AngleDeception);
  ("EntityAssociation", w_EntityAssociation);
  ("VectoringNozzleSystem", w_VectoringNozzleSystem);
  ("FalseTargetsAttribute", w_FalseTargetsAttribute);
  ("MinefieldIdentifier", w_MinefieldIdentifier);
  ("RadioType", w_RadioType);
  ("NamedLocationIdentification", w_NamedLocationIdentification);
  ("IFFDataSpecification", w_IFFDataSpecification);
  ("OwnershipStatus", w_OwnershipStatus);
  ("AttachedParts", w_AttachedParts);
  ("Attribute", w_Attribute);
  ("RecordQuerySpecification", w_RecordQuerySpecification);
  ("ArticulatedParts", w_ArticulatedParts);
  ("ObjectType", w_ObjectType);
  ("Association", w_Association);
  ("RecordSpecificationElement", w_RecordSpecificationElement);
  ("AntennaLocation", w_AntennaLocation);
  ("ObjectIdentifier", w_ObjectIdentifier);
  ("AggregateIdentifier", w_AggregateIdentifier);
  ("FixedDatum", w_FixedDatum);
  ("VariableParameter", w_VariableParameter);
  ("ChangeOptions", w_ChangeOptions);
  ("LiveSimulationAddress", w_LiveSimulationAddress);
  ("EntityMarking", w_EntityMarking);
  ("UAFundamentalParameter", w_UAFundamentalParameter);
  ("ExplosionDescriptor", w_ExplosionDescriptor);
  ("ClockTime", w_ClockTime);
  ("SecondaryOperationalData", w_SecondaryOperationalData);
  ("EnvironmentType", w_EnvironmentType);
  ("TotalRecordSets", w_TotalRecordSets);
  ("MineEntityIdentifier", w_MineEntityIdentifier);
  ("Relationship", w_Relationship);
  ("EEFundamentalParameterData", w_EEFundamentalParameterData);
  ("JammingTechnique", w_JammingTechnique);
  ("DatumSpecification", w_DatumSpecification);
  ("Expendable", w_Expendable);
  ("IOCommunicationsNode", w_IOCommunicationsNode);
  ("LinearSegmentParameter", w_LinearSegmentParameter);
  ("SystemIdentifier", w_SystemIdentifier);
  ("TrackJamData", w_TrackJamData);
  ("AggregateType", w_AggregateType);
  ("SimulationManagementPduHeader", w_SimulationManagementPduHeader);
  ("BeamData", w_BeamData);
  ("EngineFuel", w_EngineFuel);
  ("IOEffect", w_IOEffect);
  ("SimulationIdentifier", w_SimulationIdentifier);
  ("GridAxisDescriptorVariable", w_GridAxisDescriptorVariable);
  ("SupplyQuantity", w_SupplyQuantity);
  ("SilentEntitySystem", w_SilentEntitySystem);
  ("BlankingSector", w_BlankingSector);
  ("LaunchedMunitionRecord", w_LaunchedMunitionRecord);
  ("IFFFundamentalParameterData", w_IFFFundamentalParameterData);
  ("FundamentalOperationalData", w_FundamentalOperationalData);
  ("IntercomCommunicationsParameters", w_IntercomCommunicationsParameters);
  ("EntityType", w_EntityType);
  ("Munition", w_Munition);
  ("StandardVariableSpecification", w_StandardVariableSpecification);
  ("Vector2Float", w_Vector2Float);
  ("Environment", w_Environment);
  ("AcousticEmitter", w_AcousticEmitter);
  ("AngularVelocityVector", w_AngularVelocityVector);
  ("AggregateMarking", w_AggregateMarking);
  ("DataFilterRecord", w_DataFilterRecord);
  ("IntercomIdentifier", w_IntercomIdentifier);
  ("StorageFuel", w_StorageFuel);
  ("Sensor", w_Sensor);
  ("MunitionReload", w_MunitionReload);
  ("StorageFuelReload", w_StorageFuelReload);
  ("ExpendableReload", w_ExpendableReload);
  ("EngineFuelReload", w_EngineFuelReload);
  ("UnattachedIdentifier", w_UnattachedIdentifier);
  ("EntityTypeVP", w_EntityTypeVP);
  ("BeamStatus", w_BeamStatus);
  ("EnvironmentGeneral", w_EnvironmentGeneral);
  ("GridAxis", w_GridAxis);
  ("RecordSpecification", w_RecordSpecification);
  ("VariableDatum", w_VariableDatum);
  ("EventIdentifierLiveEntity", w_EventIdentifierLiveEntity);
  ("PduHeader", w_PduHeader);
  ("PduSuperclass", w_PduSuperclass);
  ("CommunicationsNodeID", w_CommunicationsNodeID);
  ("ExpendableDescriptor", w_ExpendableDescriptor);
  ("PropulsionSystemData", w_PropulsionSystemData);
  ("LiveEntityIdentifier", w_LiveEntityIdentifier);
  ("SeparationVP", w_SeparationVP);
  ("EmitterSystem", w_EmitterSystem);
  ("PduStatus", w_PduStatus);
  ("LiveEntityPdu", w_LiveEntityPdu);
  ("Pdu", w_Pdu);
  ("EntityInformationFamilyPdu", w_EntityInformationFamilyPdu);
  ("LogisticsFamilyPdu", w_LogisticsFamilyPdu);
  ("EntityStateUpdatePdu", w_EntityStateUpdatePdu);
  ("ServiceRequestPdu", w_ServiceRequestPdu);
  ("RepairCompletePdu", w_RepairCompletePdu);
  ("SyntheticEnvironmentFamilyPdu", w_SyntheticEnvironmentFamilyPdu);
  ("CollisionPdu", w_CollisionPdu);
  ("RepairResponsePdu", w_RepairResponsePdu);
  ("SimulationManagementFamilyPdu", w_SimulationManagementFamilyPdu);
  ("DataQueryPdu", w_DataQueryPdu);
  ("LinearObjectStatePdu", w_LinearObjectStatePdu);
  ("CreateEntityPdu", w_CreateEntityPdu);
  ("RadioCommunicationsFamilyPdu", w_RadioCommunicationsFamilyPdu);
  ("IntercomSignalPdu", w_IntercomSignalPdu);
  ("RemoveEntityPdu", w_RemoveEntityPdu);
  ("ResupplyReceivedPdu", w_ResupplyReceivedPdu);
  ("WarfareFamilyPdu", w_WarfareFamilyPdu);
  ("CollisionElasticPdu", w_CollisionElasticPdu);
  ("ActionRequestPdu", w_ActionRequestPdu);
  ("AcknowledgePdu", w_AcknowledgePdu);
  ("DistributedEmissionsFamilyPdu", w_DistributedEmissionsFamilyPdu);
  ("SimulationManagementWithReliabilityFamilyPdu", w_SimulationManagementWithReliabilityFamilyPdu);
  ("ActionRequestReliablePdu", w_ActionRequestReliablePdu);
  ("DesignatorPdu", w_DesignatorPdu);
  ("StopFreezePdu", w_StopFreezePdu);
  ("EntityStatePdu", w_EntityStatePdu);
  ("EntityManagementFamilyPdu", w_EntityManagementFamilyPdu);
  ("StartResumePdu", w_StartResumePdu);
  ("ElectromagneticEmissionsPdu", w_ElectromagneticEmissionsPdu);
  ("EmissionSystemBeamRecord", w_EmissionSystemBeamRecord);
  ("EmissionSystemRecord", w_EmissionSystemRecord);
  ("ResupplyOfferPdu", w_ResupplyOfferPdu);
  ("AttributePdu", w_AttributePdu);
  ("MinefieldFamilyPdu", w_MinefieldFamilyPdu);
  ("SetDataReliablePdu", w_SetDataReliablePdu);
  ("EventReportPdu", w_EventReportPdu);
  ("PointObjectStatePdu", w_PointObjectStatePdu);
  ("DataPdu", w_DataPdu);
  ("FastEntityStatePdu", w_FastEntityStatePdu);
  ("AcknowledgeReliablePdu", w_AcknowledgeReliablePdu);
  ("StartResumeReliablePdu", w_StartResumeReliablePdu);
  ("ArealObjectStatePdu", w_ArealObjectStatePdu);
  ("DataQueryReliablePdu", w_DataQueryReliablePdu);
  ("MinefieldStatePdu", w_MinefieldStatePdu);
  ("DataReliablePdu", w_DataReliablePdu);
  ("CommentPdu", w_CommentPdu);
  ("CommentReliablePdu", w_CommentReliablePdu);
  ("DetonationPdu", w_DetonationPdu);
  ("SetDataPdu", w_SetDataPdu);
  ("RecordQueryReliablePdu", w_RecordQueryReliablePdu);
  ("ActionResponsePdu", w_ActionResponsePdu);
  ("FirePdu", w_FirePdu);
  ("ReceiverPdu", w_ReceiverPdu);
  ("UaPdu", w_UaPdu);
  ("IntercomControlPdu", w_IntercomControlPdu);
  ("SignalPdu", w_SignalPdu);
  ("RemoveEntityReliablePdu", w_RemoveEntityReliablePdu);
  ("SeesPdu", w_SeesPdu);
  ("CreateEntityReliablePdu", w_CreateEntityReliablePdu);
  ("StopFreezeReliablePdu", w_StopFreezeReliablePdu);
  ("EventReportReliablePdu", w_EventReportReliablePdu);
  ("MinefieldResponseNackPdu", w_MinefieldResponseNackPdu);
  ("ActionResponseReliablePdu", w_ActionResponseReliablePdu);
  ("IsPartOfPdu", w_IsPartOfPdu)].

(** the layout each class's parse follows *)
Definition TR : list (string * fmt) := [
  ("EntityIdentifier", w_EntityIdentifier);
  ("EulerAngles", w_EulerAngles);
  ("EventIdentifier", w_EventIdentifier);
  ("SimulationAddress", w_SimulationAddress);
  ("Vector3Float", w_Vector3Float);
  ("WorldCoordinates", w_WorldCoordinates);
  ("BeamAntennaPattern", w_BeamAntennaPattern);
  ("SpreadSpectrum", r_SpreadSpectrum);
  ("ModulationType", r_ModulationType);
  ("NetId", w_NetId);
  ("GenericRadio", w_GenericRadio);
  ("SimpleIntercomRadio", w_SimpleIntercomRadio);
  ("BasicHaveQuickMP", w_BasicHaveQuickMP);
  ("CCTTSincgarsMP", w_CCTTSincgarsMP);
  ("DEFireFlags", r_DEFireFlags);
  ("DirectedEnergyTargetEnergyDeposition", w_DirectedEnergyTargetEnergyDeposition);
  ("DataQueryDatumSpecification", w_DataQueryDatumSpecification);
  ("RadioIdentifier", w_RadioIdentifier);
  ("RequestID", w_RequestID);
  ("IFFData", r_IFFData);
  ("MunitionDescriptor", w_MunitionDescriptor);
  ("MinefieldSensorType", w_MinefieldSensorType);
  ("GroupID", w_GroupID);
  ("LayerHeader", w_LayerHeader);
  ("UnsignedDISInteger", w_UnsignedDISInteger);
  ("DeadReckoningParameters", w_DeadReckoningParameters);
  ("ProtocolMode", w_ProtocolMode);
  ("AngleDeception", w_AngleDeception);
  ("EntityAssociation", w_EntityAssociation);
  ("VectoringNozzleSystem", w_VectoringNozzleSystem);
  ("FalseTargetsAttribute", w_FalseTargetsAttribute);
  ("MinefieldIdentifier", w_MinefieldIdentifier);
  ("RadioType", w_RadioType);
  ("NamedLocationIdentification", w_NamedLocationIdentification);
  ("IFFDataSpecification", r_IFFDataSpecification);
  ("OwnershipStatus", w_OwnershipStatus);
  ("AttachedParts", w_AttachedParts);
  ("Attribute", w_Attribute);
  ("RecordQuerySpecification", w_RecordQuerySpecification);
  ("ArticulatedParts", w_ArticulatedParts);
  ("ObjectType", w_ObjectType);
  ("Association", w_Association);
  ("RecordSpecificationElement", w_RecordSpecificationElement);
  ("AntennaLocation", w_AntennaLocation);
  ("ObjectIdentifier", w_ObjectIdentifier);
  ("AggregateIdentifier", w_AggregateIdentifier);
  ("FixedDatum", w_FixedDatum);
  ("VariableParameter", w_VariableParameter);
  ("ChangeOptions", w_ChangeOptions);
  ("LiveSimulationAddress", w_LiveSimulationAddress);
  ("EntityMarking", w_EntityMarking);
  ("UAFundamentalParameter", w_UAFundamentalParameter);
  ("ExplosionDescriptor", w_ExplosionDescriptor);
  ("ClockTime", w_ClockTime);
  ("SecondaryOperationalData", w_SecondaryOperationalData);
  ("EnvironmentType", w_EnvironmentType);
  ("TotalRecordSets", w_TotalRecordSets);
  ("MineEntityIdentifier", w_MineEntityIdentifier);
  ("Relationship", w_Relationship);
  ("EEFundamentalParameterData", w_EEFundamentalParameterData);
  ("JammingTechnique", w_JammingTechnique);
  ("DatumSpecification", w_DatumSpecification);
  ("Expendable", w_Expendable);
  ("IOCommunicationsNode", w_IOCommunicationsNode);
  ("LinearSegmentParameter", w_LinearSegmentParameter);
  ("SystemIdentifier", w_SystemIdentifier);
  ("TrackJamData", w_TrackJamData);
  ("AggregateType", w_AggregateType);
  ("SimulationManagementPduHeader", w_SimulationManagementPduHeader);
  ("BeamData", w_BeamData);
  ("EngineFuel", w_EngineFuel);
  ("IOEffect", w_IOEffect);
  ("SimulationIdentifier", w_SimulationIdentifier);
  ("GridAxisDescriptorVariable", w_GridAxisDescriptorVariable);
  ("SupplyQuantity", w_SupplyQuantity);
  ("SilentEntitySystem", w_SilentEntitySystem);
  ("SilentAggregateSystem", r_SilentAggregateSystem);
  ("BlankingSector", w_BlankingSector);
  ("LaunchedMunitionRecord", w_LaunchedMunitionRecord);
  ("IFFFundamentalParameterData", w_IFFFundamentalParameterData);
  ("FundamentalOperationalData", w_FundamentalOperationalData);
  ("IntercomCommunicationsParameters", w_IntercomCommunicationsParameters);
  ("EntityType", w_EntityType);
  ("Munition", w_Munition);
  ("StandardVariableSpecification", w_StandardVariableSpecification);
  ("Vector2Float", w_Vector2Float);
  ("Environment", w_Environment);
  ("AcousticEmitter", w_AcousticEmitter);
  ("AngularVelocityVector", w_AngularVelocityVector);
  ("AggregateMarking", w_AggregateMarking);
  ("DataFilterRecord", w_DataFilterRecord);
  ("IntercomIdentifier", w_IntercomIdentifier);
  ("StorageFuel", w_StorageFuel);
  ("Sensor", w_Sensor);
  ("MunitionReload", w_MunitionReload);
  ("StorageFuelReload", w_StorageFuelReload);
  ("ExpendableReload", w_ExpendableReload);
  ("EngineFuelReload", w_EngineFuelReload);
  ("UnattachedIdentifier", w_UnattachedIdentifier);
  ("EntityTypeVP", w_EntityTypeVP);
  ("BeamStatus", w_BeamStatus);
  ("EnvironmentGeneral", w_EnvironmentGeneral);
  ("GridAxis", w_GridAxis);
  ("RecordSpecification", w_RecordSpecification);
  ("VariableDatum", w_VariableDatum);
  ("EventIdentifierLiveEntity", w_EventIdentifierLiveEntity);
  ("PduHeader", w_PduHeader);
  ("PduSuperclass", w_PduSuperclass);
  ("CommunicationsNodeID", w_CommunicationsNodeID);
  ("ExpendableDescriptor", w_ExpendableDescriptor);
  ("PropulsionSystemData", w_PropulsionSystemData);
  ("LiveEntityIdentifier", w_LiveEntityIdentifier);
  ("SeparationVP", w_SeparationVP);
  ("EmitterSystem", w_EmitterSystem);
  ("PduStatus", w_PduStatus);
  ("LiveEntityPdu", w_LiveEntityPdu);
  ("Pdu", w_Pdu);
  ("EntityInformationFamilyPdu", w_EntityInformationFamilyPdu);
  ("LogisticsFamilyPdu", w_LogisticsFamilyPdu);
  ("EntityStateUpdatePdu", w_EntityStateUpdatePdu);
  ("ServiceRequestPdu", w_ServiceRequestPdu);
  ("RepairCompletePdu", w_RepairCompletePdu);
  ("SyntheticEnvironmentFamilyPdu", w_SyntheticEnvironmentFamilyPdu);
  ("CollisionPdu", w_CollisionPdu);
  ("RepairResponsePdu", w_RepairResponsePdu);
  ("SimulationManagementFamilyPdu", w_SimulationManagementFamilyPdu);
  ("DataQueryPdu", w_DataQueryPdu);
  ("LinearObjectStatePdu", w_LinearObjectStatePdu);
  ("CreateEntityPdu", w_CreateEntityPdu);
  ("RadioCommunicationsFamilyPdu", w_RadioCommunicationsFamilyPdu);
  ("IntercomSignalPdu", w_IntercomSignalPdu);
  ("RemoveEntityPdu", w_RemoveEntityPdu);
  ("ResupplyReceivedPdu", w_ResupplyReceivedPdu);
  ("WarfareFamilyPdu", w_WarfareFamilyPdu);
  ("CollisionElasticPdu", w_CollisionElasticPdu);
  ("ActionRequestPdu", w_ActionRequestPdu);
  ("AcknowledgePdu", w_AcknowledgePdu);
  ("DistributedEmissionsFamilyPdu", w_DistributedEmissionsFamilyPdu);
  ("SimulationManagementWithReliabilityFamilyPdu", w_SimulationManagementWithReliabilityFamilyPdu);
  ("ActionRequestReliablePdu", w_ActionRequestReliablePdu);
  ("DesignatorPdu", w_DesignatorPdu);
  ("StopFreezePdu", w_StopFreezePdu);
  ("EntityStatePdu", w_EntityStatePdu);
  ("EntityManagementFamilyPdu", w_EntityManagementFamilyPdu);
  ("StartResumePdu", w_StartResumePdu);
  ("ElectromagneticEmissionsPdu", w_ElectromagneticEmissionsPdu);
  ("EmissionSystemBeamRecord", w_EmissionSystemBeamRecord);
  ("EmissionSystemRecord", w_EmissionSystemRecord);
  ("ResupplyOfferPdu", w_ResupplyOfferPdu);
  ("AttributePdu", w_AttributePdu);
  ("MinefieldFamilyPdu", w_MinefieldFamilyPdu);
  ("SetDataReliablePdu", w_SetDataReliablePdu);
  ("EventReportPdu", w_EventReportPdu);
  ("PointObjectStatePdu", w_PointObjectStatePdu);
  ("DataPdu", w_DataPdu);
  ("FastEntityStatePdu", w_FastEntityStatePdu);
  ("AcknowledgeReliablePdu", w_AcknowledgeReliablePdu);
  ("StartResumeReliablePdu", w_StartResumeReliablePdu);
  ("ArealObjectStatePdu", w_ArealObjectStatePdu);
  ("DataQueryReliablePdu", w_DataQueryReliablePdu);
  ("MinefieldStatePdu", w_MinefieldStatePdu);
  ("DataReliablePdu", w_DataReliablePdu);
  ("CommentPdu", w_CommentPdu);
  ("CommentReliablePdu", w_CommentReliablePdu);
  ("DetonationPdu", w_DetonationPdu);
  ("SetDataPdu", w_SetDataPdu);
  ("RecordQueryReliablePdu", w_RecordQueryReliablePdu);
  ("ActionResponsePdu", w_ActionResponsePdu);
  ("FirePdu", w_FirePdu);
  ("ReceiverPdu", w_ReceiverPdu);
  ("UaPdu", w_UaPdu);
  ("SignalPdu", w_SignalPdu);
  ("RemoveEntityReliablePdu", w_RemoveEntityReliablePdu);
  ("SeesPdu", w_SeesPdu);
  ("CreateEntityReliablePdu", w_CreateEntityReliablePdu);
  ("StopFreezeReliablePdu", w_StopFreezeReliablePdu);
  ("EventReportReliablePdu", w_EventReportReliablePdu);
  ("MinefieldResponseNackPdu", w_MinefieldResponseNackPdu);
  ("ActionResponseReliablePdu", w_ActionResponseReliablePdu);
  ("IsPartOfPdu", w_IsPartOfPdu);
  ("AggregateStatePdu", r_AggregateStatePdu)].
