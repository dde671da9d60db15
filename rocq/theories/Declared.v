(** * The wire types declared in the source

    Generated by tools/declared.py from the annotations of /repo/opendis: class, attribute, declared type.
    opendis/types.py:1-33 documents what the annotations mean: uintN, enumN and structN are N-bit unsigned, intN is
    N-bit signed, float32 and float64 are IEEE 754.  Each row cites the line of the annotation. *)
From Coq Require Import String List.
From Verif Require Import Spec.
Import ListNotations.
Open Scope string_scope.

Definition declared : list (string * string * prim) := [
  ("EntityIdentifier", "entityNumber", PInt 2 false); (* uint16, opendis/record/common.py:41 *)
  ("EulerAngles", "psi", PF32); (* float32, opendis/record/common.py:67 *)
  ("EulerAngles", "theta", PF32); (* float32, opendis/record/common.py:68 *)
  ("EulerAngles", "phi", PF32); (* float32, opendis/record/common.py:69 *)
  ("EventIdentifier", "eventNumber", PInt 2 false); (* uint16, opendis/record/common.py:98 *)
  ("SimulationAddress", "site", PInt 2 false); (* uint16, opendis/record/common.py:123 *)
  ("SimulationAddress", "application", PInt 2 false); (* uint16, opendis/record/common.py:124 *)
  ("Vector3Float", "x", PF32); (* float32, opendis/record/common.py:152 *)
  ("Vector3Float", "y", PF32); (* float32, opendis/record/common.py:152 *)
  ("Vector3Float", "z", PF32); (* float32, opendis/record/common.py:152 *)
  ("WorldCoordinates", "x", PF64); (* float64, opendis/record/common.py:180 *)
  ("WorldCoordinates", "y", PF64); (* float64, opendis/record/common.py:180 *)
  ("WorldCoordinates", "z", PF64); (* float64, opendis/record/common.py:180 *)
  ("RadioIdentifier", "siteNumber", PInt 2 false); (* uint16, opendis/dis7.py:123 *)
  ("RadioIdentifier", "applicationNumber", PInt 2 false); (* uint16, opendis/dis7.py:124 *)
  ("RadioIdentifier", "referenceNumber", PInt 2 false); (* uint16, opendis/dis7.py:125 *)
  ("RadioIdentifier", "radioNumber", PInt 2 false); (* uint16, opendis/dis7.py:126 *)
  ("RequestID", "requestID", PInt 4 false); (* uint32, opendis/dis7.py:154 *)
  ("IFFData", "recordType", PInt 4 false); (* enum32, opendis/dis7.py:174 *)
  ("IFFData", "recordLength", PInt 2 false); (* uint16, opendis/dis7.py:179 *)
  ("MunitionDescriptor", "warhead", PInt 2 false); (* enum16, opendis/dis7.py:212 *)
  ("MunitionDescriptor", "fuse", PInt 2 false); (* enum16, opendis/dis7.py:213 *)
  ("MunitionDescriptor", "quantity", PInt 2 false); (* uint16, opendis/dis7.py:214 *)
  ("MunitionDescriptor", "rate", PInt 2 false); (* uint16, opendis/dis7.py:215 *)
  ("MinefieldSensorType", "sensorType", PInt 2 false); (* enum16, opendis/dis7.py:252 *)
  ("GroupID", "groupNumber", PInt 2 false); (* uint16, opendis/dis7.py:275 *)
  ("LayerHeader", "layerNumber", PInt 1 false); (* uint8, opendis/dis7.py:300 *)
  ("LayerHeader", "layerSpecificInformation", PInt 1 false); (* enum8, opendis/dis7.py:301 *)
  ("LayerHeader", "length", PInt 2 false); (* uint16, opendis/dis7.py:302 *)
  ("DeadReckoningParameters", "deadReckoningAlgorithm", PInt 1 false); (* enum8, opendis/dis7.py:342 *)
  ("ProtocolMode", "protocolMode", PInt 2 false); (* enum16, opendis/dis7.py:384 *)
  ("AngleDeception", "recordType", PInt 4 false); (* enum32, opendis/dis7.py:406 *)
  ("AngleDeception", "recordLength", PInt 2 false); (* uint16, opendis/dis7.py:407 *)
  ("AngleDeception", "padding", PInt 2 false); (* uint16, opendis/dis7.py:421 *)
  ("AngleDeception", "emitterNumber", PInt 1 false); (* uint8, opendis/dis7.py:410 *)
  ("AngleDeception", "beamNumber", PInt 1 false); (* uint8, opendis/dis7.py:411 *)
  ("AngleDeception", "stateIndicator", PInt 1 false); (* enum8, opendis/dis7.py:412 *)
  ("AngleDeception", "padding2", PInt 1 false); (* uint8, opendis/dis7.py:425 *)
  ("AngleDeception", "azimuthOffset", PF32); (* float32, opendis/dis7.py:413 *)
  ("AngleDeception", "azimuthWidth", PF32); (* float32, opendis/dis7.py:414 *)
  ("AngleDeception", "azimuthPullRate", PF32); (* float32, opendis/dis7.py:415 *)
  ("AngleDeception", "azimuthPullAcceleration", PF32); (* float32, opendis/dis7.py:416 *)
  ("AngleDeception", "elevationOffset", PF32); (* float32, opendis/dis7.py:417 *)
  ("AngleDeception", "elevationWidth", PF32); (* float32, opendis/dis7.py:418 *)
  ("AngleDeception", "elevationPullRate", PF32); (* float32, opendis/dis7.py:419 *)
  ("AngleDeception", "elevationPullAcceleration", PF32); (* float32, opendis/dis7.py:420 *)
  ("AngleDeception", "padding3", PInt 4 false); (* uint32, opendis/dis7.py:434 *)
  ("EntityAssociation", "recordType", PInt 1 false); (* enum8, opendis/dis7.py:480 *)
  ("EntityAssociation", "changeIndicator", PInt 1 false); (* enum8, opendis/dis7.py:483 *)
  ("EntityAssociation", "associationStatus", PInt 1 false); (* enum8, opendis/dis7.py:484 *)
  ("EntityAssociation", "associationType", PInt 1 false); (* enum8, opendis/dis7.py:485 *)
  ("EntityAssociation", "ownStationLocation", PInt 2 false); (* enum16, opendis/dis7.py:487 *)
  ("EntityAssociation", "physicalConnectionType", PInt 1 false); (* enum8, opendis/dis7.py:488 *)
  ("EntityAssociation", "groupMemberType", PInt 1 false); (* enum8, opendis/dis7.py:489 *)
  ("EntityAssociation", "groupNumber", PInt 2 false); (* uint16, opendis/dis7.py:490 *)
  ("VectoringNozzleSystem", "horizontalDeflectionAngle", PF32); (* float32, opendis/dis7.py:540 *)
  ("VectoringNozzleSystem", "verticalDeflectionAngle", PF32); (* float32, opendis/dis7.py:541 *)
  ("FalseTargetsAttribute", "recordType", PInt 4 false); (* enum32, opendis/dis7.py:566 *)
  ("FalseTargetsAttribute", "recordLength", PInt 2 false); (* uint16, opendis/dis7.py:567 *)
  ("FalseTargetsAttribute", "padding", PInt 2 false); (* uint16, opendis/dis7.py:579 *)
  ("FalseTargetsAttribute", "emitterNumber", PInt 1 false); (* uint8, opendis/dis7.py:570 *)
  ("FalseTargetsAttribute", "beamNumber", PInt 1 false); (* uint8, opendis/dis7.py:571 *)
  ("FalseTargetsAttribute", "stateIndicator", PInt 1 false); (* enum8, opendis/dis7.py:572 *)
  ("FalseTargetsAttribute", "padding2", PInt 1 false); (* uint8, opendis/dis7.py:583 *)
  ("FalseTargetsAttribute", "falseTargetCount", PInt 2 false); (* uint16, opendis/dis7.py:573 *)
  ("FalseTargetsAttribute", "walkSpeed", PF32); (* float32, opendis/dis7.py:574 *)
  ("FalseTargetsAttribute", "walkAcceleration", PF32); (* float32, opendis/dis7.py:575 *)
  ("FalseTargetsAttribute", "maximumWalkDistance", PF32); (* float32, opendis/dis7.py:576 *)
  ("FalseTargetsAttribute", "keepTime", PF32); (* float32, opendis/dis7.py:577 *)
  ("FalseTargetsAttribute", "echoSpacing", PF32); (* float32, opendis/dis7.py:578 *)
  ("MinefieldIdentifier", "minefieldNumber", PInt 2 false); (* uint16, opendis/dis7.py:632 *)
  ("RadioType", "entityKind", PInt 1 false); (* enum8, opendis/dis7.py:652 *)
  ("RadioType", "domain", PInt 1 false); (* enum8, opendis/dis7.py:655 *)
  ("RadioType", "country", PInt 2 false); (* enum16, opendis/dis7.py:656 *)
  ("RadioType", "category", PInt 1 false); (* enum8, opendis/dis7.py:657 *)
  ("RadioType", "subcategory", PInt 1 false); (* enum8, opendis/dis7.py:658 *)
  ("RadioType", "specific", PInt 1 false); (* enum8, opendis/dis7.py:659 *)
  ("RadioType", "extra", PInt 1 false); (* enum8, opendis/dis7.py:660 *)
  ("NamedLocationIdentification", "stationName", PInt 2 false); (* enum16, opendis/dis7.py:702 *)
  ("NamedLocationIdentification", "stationNumber", PInt 2 false); (* uint16, opendis/dis7.py:703 *)
  ("AttachedParts", "recordType", PInt 1 false); (* enum8, opendis/dis7.py:781 *)
  ("AttachedParts", "detachedIndicator", PInt 1 false); (* enum8, opendis/dis7.py:784 *)
  ("AttachedParts", "partAttachedTo", PInt 2 false); (* uint16, opendis/dis7.py:785 *)
  ("AttachedParts", "parameterType", PInt 4 false); (* enum32, opendis/dis7.py:786 *)
  ("Attribute", "recordType", PInt 4 false); (* enum32, opendis/dis7.py:822 *)
  ("Attribute", "recordLength", PInt 2 false); (* uint16, opendis/dis7.py:823 *)
  ("ArticulatedParts", "recordType", PInt 1 false); (* enum8, opendis/dis7.py:877 *)
  ("ArticulatedParts", "changeIndicator", PInt 1 false); (* uint8, opendis/dis7.py:880 *)
  ("ArticulatedParts", "partAttachedTo", PInt 2 false); (* uint16, opendis/dis7.py:881 *)
  ("ArticulatedParts", "parameterType", PInt 4 false); (* enum32, opendis/dis7.py:882 *)
  ("ArticulatedParts", "parameterValue", PF32); (* float32, opendis/dis7.py:883 *)
  ("ObjectType", "domain", PInt 1 false); (* enum8, opendis/dis7.py:917 *)
  ("ObjectType", "objectKind", PInt 1 false); (* enum8, opendis/dis7.py:918 *)
  ("ObjectType", "category", PInt 1 false); (* enum8, opendis/dis7.py:919 *)
  ("ObjectType", "subcategory", PInt 1 false); (* enum8, opendis/dis7.py:920 *)
  ("Association", "associationType", PInt 1 false); (* enum8, opendis/dis7.py:957 *)
  ("Association", "padding4", PInt 1 false); (* uint8, opendis/dis7.py:961 *)
  ("RecordSpecificationElement", "recordID", PInt 4 false); (* enum32, opendis/dis7.py:988 *)
  ("RecordSpecificationElement", "recordSetSerialNumber", PInt 4 false); (* uint32, opendis/dis7.py:989 *)
  ("RecordSpecificationElement", "recordLength", PInt 2 false); (* uint16, opendis/dis7.py:990 *)
  ("RecordSpecificationElement", "recordCount", PInt 2 false); (* uint16, opendis/dis7.py:991 *)
  ("ObjectIdentifier", "objectNumber", PInt 2 false); (* uint16, opendis/dis7.py:1059 *)
  ("AggregateIdentifier", "aggregateID", PInt 2 false); (* uint16, opendis/dis7.py:1084 *)
  ("FixedDatum", "fixedDatumID", PInt 4 false); (* enum32, opendis/dis7.py:1107 *)
  ("FixedDatum", "fixedDatumValue", PInt 4 false); (* uint32, opendis/dis7.py:1108 *)
  ("VariableParameter", "recordType", PInt 1 false); (* enum8, opendis/dis7.py:1133 *)
  ("LiveSimulationAddress", "liveSiteNumber", PInt 1 false); (* uint8, opendis/dis7.py:1190 *)
  ("LiveSimulationAddress", "liveApplicationNumber", PInt 1 false); (* uint8, opendis/dis7.py:1191 *)
  ("EntityMarking", "characterSet", PInt 1 false); (* enum8, opendis/dis7.py:1215 *)
  ("UAFundamentalParameter", "activeEmissionParameterIndex", PInt 2 false); (* enum16, opendis/dis7.py:1256 *)
  ("UAFundamentalParameter", "scanPattern", PInt 2 false); (* enum16, opendis/dis7.py:1257 *)
  ("UAFundamentalParameter", "beamCenterAzimuthHorizontal", PF32); (* float32, opendis/dis7.py:1258 *)
  ("UAFundamentalParameter", "azimuthalBeamwidthHorizontal", PF32); (* float32, opendis/dis7.py:1259 *)
  ("UAFundamentalParameter", "beamCenterDepressionElevation", PF32); (* float32, opendis/dis7.py:1260 *)
  ("UAFundamentalParameter", "beamwidthDownElevation", PF32); (* float32, opendis/dis7.py:1261 *)
  ("ExplosionDescriptor", "explosiveMaterial", PInt 2 false); (* enum16, opendis/dis7.py:1302 *)
  ("ExplosionDescriptor", "padding", PInt 2 false); (* uint16, opendis/dis7.py:1308 *)
  ("ExplosionDescriptor", "explosiveForce", PF32); (* float32, opendis/dis7.py:1303 *)
  ("ClockTime", "hour", PInt 4 true); (* int32, opendis/dis7.py:1337 *)
  ("ClockTime", "timePastHour", PInt 4 false); (* uint32, opendis/dis7.py:1338 *)
  ("SecondaryOperationalData", "operationalData1", PInt 1 false); (* struct8, opendis/dis7.py:1364 *)
  ("SecondaryOperationalData", "operationalData2", PInt 1 false); (* struct8, opendis/dis7.py:1365 *)
  ("SecondaryOperationalData", "numberOfIFFFundamentalParameterRecords", PInt 2 false); (* uint16, opendis/dis7.py:1366 *)
  ("MineEntityIdentifier", "mineEntityNumber", PInt 2 false); (* uint16, opendis/dis7.py:1463 *)
  ("Relationship", "nature", PInt 2 false); (* enum16, opendis/dis7.py:1487 *)
  ("Relationship", "position", PInt 2 false); (* enum16, opendis/dis7.py:1488 *)
  ("EEFundamentalParameterData", "frequency", PF32); (* float32, opendis/dis7.py:1513 *)
  ("EEFundamentalParameterData", "frequencyRange", PF32); (* float32, opendis/dis7.py:1514 *)
  ("EEFundamentalParameterData", "effectiveRadiatedPower", PF32); (* float32, opendis/dis7.py:1515 *)
  ("EEFundamentalParameterData", "pulseRepetitionFrequency", PF32); (* float32, opendis/dis7.py:1516 *)
  ("EEFundamentalParameterData", "pulseWidth", PF32); (* float32, opendis/dis7.py:1517 *)
  ("JammingTechnique", "kind", PInt 1 false); (* enum8, opendis/dis7.py:1572 *)
  ("JammingTechnique", "category", PInt 1 false); (* enum8, opendis/dis7.py:1572 *)
  ("JammingTechnique", "subcategory", PInt 1 false); (* enum8, opendis/dis7.py:1572 *)
  ("JammingTechnique", "specific", PInt 1 false); (* enum8, opendis/dis7.py:1572 *)
  ("Expendable", "station", PInt 4 false); (* enum32, opendis/dis7.py:1648 *)
  ("Expendable", "quantity", PInt 2 false); (* uint16, opendis/dis7.py:1649 *)
  ("Expendable", "expendableStatus", PInt 1 false); (* enum8, opendis/dis7.py:1650 *)
  ("Expendable", "padding", PInt 1 false); (* uint8, opendis/dis7.py:1656 *)
  ("IOCommunicationsNode", "recordType", PInt 4 false); (* enum32, opendis/dis7.py:1680 *)
  ("IOCommunicationsNode", "recordLength", PInt 2 false); (* uint16, opendis/dis7.py:1681 *)
  ("IOCommunicationsNode", "communcationsNodeType", PInt 1 false); (* enum8, opendis/dis7.py:1684 *)
  ("IOCommunicationsNode", "padding", PInt 1 false); (* uint8, opendis/dis7.py:1687 *)
  ("LinearSegmentParameter", "segmentNumber", PInt 1 false); (* uint8, opendis/dis7.py:1716 *)
  ("LinearSegmentParameter", "segmentModification", PInt 1 false); (* enum8, opendis/dis7.py:1717 *)
  ("LinearSegmentParameter", "generalSegmentAppearance", PInt 2 false); (* struct16, opendis/dis7.py:1718 *)
  ("LinearSegmentParameter", "specificSegmentAppearance", PInt 4 false); (* struct32, opendis/dis7.py:1719 *)
  ("LinearSegmentParameter", "segmentLength", PF32); (* float32, opendis/dis7.py:1722 *)
  ("LinearSegmentParameter", "segmentWidth", PF32); (* float32, opendis/dis7.py:1723 *)
  ("LinearSegmentParameter", "segmentHeight", PF32); (* float32, opendis/dis7.py:1724 *)
  ("LinearSegmentParameter", "segmentDepth", PF32); (* float32, opendis/dis7.py:1725 *)
  ("LinearSegmentParameter", "padding", PInt 4 false); (* uint32, opendis/dis7.py:1746 *)
  ("SystemIdentifier", "systemType", PInt 2 false); (* enum16, opendis/dis7.py:1784 *)
  ("SystemIdentifier", "systemName", PInt 2 false); (* enum16, opendis/dis7.py:1785 *)
  ("SystemIdentifier", "systemMode", PInt 1 false); (* enum8, opendis/dis7.py:1786 *)
  ("TrackJamData", "emitterNumber", PInt 1 false); (* uint8, opendis/dis7.py:1820 *)
  ("TrackJamData", "beamNumber", PInt 1 false); (* uint8, opendis/dis7.py:1821 *)
  ("AggregateType", "aggregateKind", PInt 1 false); (* enum8, opendis/dis7.py:1849 *)
  ("AggregateType", "domain", PInt 1 false); (* enum8, opendis/dis7.py:1850 *)
  ("AggregateType", "country", PInt 1 false); (* enum8, opendis/dis7.py:1851 *)
  ("AggregateType", "category", PInt 1 false); (* enum8, opendis/dis7.py:1852 *)
  ("AggregateType", "subcategory", PInt 1 false); (* enum8, opendis/dis7.py:1853 *)
  ("AggregateType", "specificInfo", PInt 1 false); (* enum8, opendis/dis7.py:1854 *)
  ("AggregateType", "extra", PInt 1 false); (* enum8, opendis/dis7.py:1855 *)
  ("BeamData", "beamAzimuthCenter", PF32); (* float32, opendis/dis7.py:1930 *)
  ("BeamData", "beamAzimuthSweep", PF32); (* float32, opendis/dis7.py:1931 *)
  ("BeamData", "beamElevationCenter", PF32); (* float32, opendis/dis7.py:1932 *)
  ("BeamData", "beamElevationSweep", PF32); (* float32, opendis/dis7.py:1933 *)
  ("BeamData", "beamSweepSync", PF32); (* float32, opendis/dis7.py:1934 *)
  ("EngineFuel", "padding", PInt 1 false); (* uint8, opendis/dis7.py:1982 *)
  ("IOEffect", "recordType", PInt 4 false); (* enum32, opendis/dis7.py:2006 *)
  ("IOEffect", "recordLength", PInt 2 false); (* uint16, opendis/dis7.py:2007 *)
  ("IOEffect", "ioStatus", PInt 1 false); (* enum8, opendis/dis7.py:2011 *)
  ("IOEffect", "ioLinkType", PInt 1 false); (* enum8, opendis/dis7.py:2012 *)
  ("IOEffect", "ioEffect", PInt 1 false); (* enum8, opendis/dis7.py:2013 *)
  ("IOEffect", "ioEffectDutyCycle", PInt 1 false); (* uint8, opendis/dis7.py:2014 *)
  ("IOEffect", "ioEffectDuration", PInt 2 false); (* uint16, opendis/dis7.py:2015 *)
  ("IOEffect", "ioProcess", PInt 2 false); (* enum16, opendis/dis7.py:2016 *)
  ("SimulationIdentifier", "referenceNumber", PInt 2 false); (* uint16, opendis/dis7.py:2063 *)
  ("GridAxisDescriptorVariable", "domainInitialXi", PF64); (* float64, opendis/dis7.py:2088 *)
  ("GridAxisDescriptorVariable", "domainFinalXi", PF64); (* float64, opendis/dis7.py:2089 *)
  ("GridAxisDescriptorVariable", "domainPointsXi", PInt 2 false); (* uint16, opendis/dis7.py:2090 *)
  ("GridAxisDescriptorVariable", "interleafFactor", PInt 1 false); (* uint8, opendis/dis7.py:2091 *)
  ("GridAxisDescriptorVariable", "axisType", PInt 1 false); (* enum8, opendis/dis7.py:2092 *)
  ("GridAxisDescriptorVariable", "numberOfPointsOnXiAxis", PInt 2 false); (* uint16, opendis/dis7.py:2093 *)
  ("GridAxisDescriptorVariable", "initialIndex", PInt 2 false); (* uint16, opendis/dis7.py:2094 *)
  ("GridAxisDescriptorVariable", "coordinateScaleXi", PF64); (* float64, opendis/dis7.py:2096 *)
  ("GridAxisDescriptorVariable", "coordinateOffsetXi", PF64); (* float64, opendis/dis7.py:2097 *)
  ("SupplyQuantity", "quantity", PF32); (* float32, opendis/dis7.py:2166 *)
  ("SilentEntitySystem", "numberOfEntities", PInt 2 false); (* uint16, opendis/dis7.py:2189 *)
  ("SilentAggregateSystem", "numberOfAggregates", PInt 2 false); (* uint16, opendis/dis7.py:2228 *)
  ("BlankingSector", "recordType", PInt 4 false); (* enum32, opendis/dis7.py:2251 *)
  ("BlankingSector", "recordLength", PInt 2 false); (* uint16, opendis/dis7.py:2252 *)
  ("BlankingSector", "padding", PInt 2 false); (* uint16, opendis/dis7.py:2264 *)
  ("BlankingSector", "emitterNumber", PInt 1 false); (* uint8, opendis/dis7.py:2256 *)
  ("BlankingSector", "beamNumber", PInt 1 false); (* uint8, opendis/dis7.py:2257 *)
  ("BlankingSector", "stateIndicator", PInt 1 false); (* enum8, opendis/dis7.py:2258 *)
  ("BlankingSector", "leftAzimuth", PF32); (* float32, opendis/dis7.py:2259 *)
  ("BlankingSector", "rightAzimuth", PF32); (* float32, opendis/dis7.py:2260 *)
  ("BlankingSector", "lowerElevation", PF32); (* float32, opendis/dis7.py:2261 *)
  ("BlankingSector", "upperElevation", PF32); (* float32, opendis/dis7.py:2262 *)
  ("BlankingSector", "residualPower", PF32); (* float32, opendis/dis7.py:2263 *)
  ("BlankingSector", "padding3", PInt 4 false); (* uint32, opendis/dis7.py:2274 *)
  ("BlankingSector", "padding4", PInt 4 false); (* uint32, opendis/dis7.py:2275 *)
  ("LaunchedMunitionRecord", "padding", PInt 2 false); (* uint16, opendis/dis7.py:2325 *)
  ("LaunchedMunitionRecord", "padding2", PInt 2 false); (* uint16, opendis/dis7.py:2327 *)
  ("LaunchedMunitionRecord", "padding3", PInt 2 false); (* uint16, opendis/dis7.py:2329 *)
  ("IFFFundamentalParameterData", "erp", PF32); (* float32, opendis/dis7.py:2360 *)
  ("IFFFundamentalParameterData", "frequency", PF32); (* float32, opendis/dis7.py:2361 *)
  ("IFFFundamentalParameterData", "pgrf", PF32); (* float32, opendis/dis7.py:2362 *)
  ("IFFFundamentalParameterData", "pulseWidth", PF32); (* float32, opendis/dis7.py:2363 *)
  ("IFFFundamentalParameterData", "burstLength", PInt 4 false); (* uint32, opendis/dis7.py:2364 *)
  ("IFFFundamentalParameterData", "applicableModes", PInt 1 false); (* enum8, opendis/dis7.py:2365 *)
  ("IntercomCommunicationsParameters", "recordType", PInt 2 false); (* enum16, opendis/dis7.py:2476 *)
  ("IntercomCommunicationsParameters", "recordLength", PInt 2 false); (* uint16, opendis/dis7.py:2478 *)
  ("EntityType", "entityKind", PInt 1 false); (* enum8, opendis/dis7.py:2504 *)
  ("EntityType", "domain", PInt 1 false); (* enum8, opendis/dis7.py:2505 *)
  ("EntityType", "country", PInt 2 false); (* enum16, opendis/dis7.py:2506 *)
  ("EntityType", "category", PInt 1 false); (* enum8, opendis/dis7.py:2507 *)
  ("EntityType", "subcategory", PInt 1 false); (* enum8, opendis/dis7.py:2508 *)
  ("EntityType", "specific", PInt 1 false); (* enum8, opendis/dis7.py:2509 *)
  ("EntityType", "extra", PInt 1 false); (* enum8, opendis/dis7.py:2510 *)
  ("Munition", "station", PInt 4 false); (* enum32, opendis/dis7.py:2554 *)
  ("Munition", "quantity", PInt 2 false); (* uint16, opendis/dis7.py:2555 *)
  ("Munition", "munitionStatus", PInt 1 false); (* enum8, opendis/dis7.py:2556 *)
  ("Munition", "padding", PInt 1 false); (* uint8, opendis/dis7.py:2566 *)
  ("Vector2Float", "x", PF32); (* float32, opendis/dis7.py:2621 *)
  ("Vector2Float", "y", PF32); (* float32, opendis/dis7.py:2621 *)
  ("Environment", "environmentType", PInt 4 false); (* enum32, opendis/dis7.py:2643 *)
  ("Environment", "length", PInt 2 false); (* uint16, opendis/dis7.py:2644 *)
  ("Environment", "index", PInt 1 false); (* uint8, opendis/dis7.py:2645 *)
  ("Environment", "padding0", PInt 1 false); (* uint8, opendis/dis7.py:2651 *)
  ("AcousticEmitter", "acousticSystemName", PInt 2 false); (* enum16, opendis/dis7.py:2678 *)
  ("AcousticEmitter", "acousticFunction", PInt 1 false); (* enum8, opendis/dis7.py:2679 *)
  ("AcousticEmitter", "acousticIDNumber", PInt 1 false); (* uint8, opendis/dis7.py:2680 *)
  ("AggregateMarking", "characterSet", PInt 1 false); (* enum8, opendis/dis7.py:2739 *)
  ("IntercomIdentifier", "siteNumber", PInt 2 false); (* uint16, opendis/dis7.py:2791 *)
  ("IntercomIdentifier", "applicationNumber", PInt 2 false); (* uint16, opendis/dis7.py:2792 *)
  ("IntercomIdentifier", "referenceNumber", PInt 2 false); (* uint16, opendis/dis7.py:2793 *)
  ("IntercomIdentifier", "intercomNumber", PInt 2 false); (* uint16, opendis/dis7.py:2794 *)
  ("StorageFuel", "fuelQuantity", PInt 4 false); (* uint32, opendis/dis7.py:2822 *)
  ("StorageFuel", "fuelMeasurementUnits", PInt 1 false); (* enum8, opendis/dis7.py:2823 *)
  ("StorageFuel", "fuelType", PInt 1 false); (* enum8, opendis/dis7.py:2824 *)
  ("StorageFuel", "fuelLocation", PInt 1 false); (* enum8, opendis/dis7.py:2825 *)
  ("StorageFuel", "padding", PInt 1 false); (* uint8, opendis/dis7.py:2834 *)
  ("Sensor", "sensorTypeSource", PInt 1 false); (* enum8, opendis/dis7.py:2860 *)
  ("Sensor", "sensorOnOffStatus", PInt 1 false); (* enum8, opendis/dis7.py:2861 *)
  ("Sensor", "sensorType", PInt 2 false); (* enum16, opendis/dis7.py:2862 *)
  ("Sensor", "station", PInt 4 false); (* enum32, opendis/dis7.py:2863 *)
  ("Sensor", "quantity", PInt 2 false); (* uint16, opendis/dis7.py:2864 *)
  ("Sensor", "padding", PInt 2 false); (* uint16, opendis/dis7.py:2875 *)
  ("MunitionReload", "station", PInt 4 false); (* enum32, opendis/dis7.py:2905 *)
  ("MunitionReload", "standardQuantity", PInt 2 false); (* uint16, opendis/dis7.py:2906 *)
  ("MunitionReload", "maximumQuantity", PInt 2 false); (* uint16, opendis/dis7.py:2907 *)
  ("MunitionReload", "standardQuantityReloadTime", PInt 4 false); (* uint32, opendis/dis7.py:2908 *)
  ("MunitionReload", "maximumQuantityReloadTime", PInt 4 false); (* uint32, opendis/dis7.py:2909 *)
  ("StorageFuelReload", "standardQuantity", PInt 4 false); (* uint32, opendis/dis7.py:2953 *)
  ("StorageFuelReload", "maximumQuantity", PInt 4 false); (* uint32, opendis/dis7.py:2954 *)
  ("StorageFuelReload", "standardQuantityReloadTime", PInt 4 false); (* uint32, opendis/dis7.py:2955 *)
  ("StorageFuelReload", "maximumQuantityReloadTime", PInt 4 false); (* uint32, opendis/dis7.py:2956 *)
  ("StorageFuelReload", "fuelMeasurementUnits", PInt 1 false); (* enum8, opendis/dis7.py:2957 *)
  ("StorageFuelReload", "fuelType", PInt 1 false); (* enum8, opendis/dis7.py:2958 *)
  ("StorageFuelReload", "fuelLocation", PInt 1 false); (* enum8, opendis/dis7.py:2959 *)
  ("StorageFuelReload", "padding", PInt 1 false); (* uint8, opendis/dis7.py:2974 *)
  ("ExpendableReload", "station", PInt 4 false); (* enum32, opendis/dis7.py:3007 *)
  ("ExpendableReload", "standardQuantity", PInt 2 false); (* uint16, opendis/dis7.py:3008 *)
  ("ExpendableReload", "maximumQuantity", PInt 2 false); (* uint16, opendis/dis7.py:3009 *)
  ("ExpendableReload", "standardQuantityReloadTime", PInt 4 false); (* uint32, opendis/dis7.py:3010 *)
  ("ExpendableReload", "maximumQuantityReloadTime", PInt 4 false); (* uint32, opendis/dis7.py:3011 *)
  ("UnattachedIdentifier", "referenceNumber", PInt 2 false); (* uint16, opendis/dis7.py:3095 *)
  ("EntityTypeVP", "recordType", PInt 1 false); (* enum8, opendis/dis7.py:3117 *)
  ("EntityTypeVP", "changeIndicator", PInt 1 false); (* enum8, opendis/dis7.py:3120 *)
  ("EntityTypeVP", "padding", PInt 2 false); (* uint16, opendis/dis7.py:3126 *)
  ("EntityTypeVP", "padding1", PInt 4 false); (* uint32, opendis/dis7.py:3127 *)
  ("BeamStatus", "beamState", PInt 1 false); (* uint8, opendis/dis7.py:3155 *)
  ("EnvironmentGeneral", "environmentType", PInt 4 false); (* enum32, opendis/dis7.py:3177 *)
  ("EnvironmentGeneral", "length", PInt 2 false); (* uint16, opendis/dis7.py:3178 *)
  ("EnvironmentGeneral", "index", PInt 1 false); (* uint8, opendis/dis7.py:3179 *)
  ("GridAxis", "domainInitialXi", PF64); (* float64, opendis/dis7.py:3219 *)
  ("GridAxis", "domainFinalXi", PF64); (* float64, opendis/dis7.py:3220 *)
  ("GridAxis", "domainPointsXi", PInt 2 false); (* uint16, opendis/dis7.py:3221 *)
  ("GridAxis", "interleafFactor", PInt 1 false); (* uint8, opendis/dis7.py:3222 *)
  ("GridAxis", "axisType", PInt 1 false); (* enum8, opendis/dis7.py:3223 *)
  ("GridAxis", "numberOfPointsOnXiAxis", PInt 2 false); (* uint16, opendis/dis7.py:3224 *)
  ("GridAxis", "initialIndex", PInt 2 false); (* uint16, opendis/dis7.py:3225 *)
  ("VariableDatum", "variableDatumID", PInt 4 false); (* enum32, opendis/dis7.py:3301 *)
  ("VariableDatum", "variableDatumLength", PInt 4 false); (* uint32, opendis/dis7.py:3302 *)
  ("EventIdentifierLiveEntity", "siteNumber", PInt 1 false); (* uint8, opendis/dis7.py:3350 *)
  ("EventIdentifierLiveEntity", "applicationNumber", PInt 1 false); (* uint8, opendis/dis7.py:3351 *)
  ("EventIdentifierLiveEntity", "eventNumber", PInt 2 false); (* uint16, opendis/dis7.py:3352 *)
  ("PduHeader", "protocolVersion", PInt 1 false); (* enum8, opendis/dis7.py:3378 *)
  ("PduHeader", "pduType", PInt 1 false); (* enum8, opendis/dis7.py:3380 *)
  ("PduHeader", "protocolFamily", PInt 1 false); (* enum8, opendis/dis7.py:3381 *)
  ("PduHeader", "timestamp", PInt 4 false); (* uint32, opendis/dis7.py:3382 *)
  ("PduHeader", "pduLength", PInt 2 false); (* uint16, opendis/dis7.py:3383 *)
  ("PduHeader", "pduStatus", PInt 1 false); (* struct8, opendis/dis7.py:3384 *)
  ("PduHeader", "padding", PInt 1 false); (* uint8, opendis/dis7.py:3399 *)
  ("PduSuperclass", "protocolVersion", PInt 1 false); (* enum8, opendis/dis7.py:3432 *)
  ("PduSuperclass", "timestamp", PInt 4 false); (* uint32, opendis/dis7.py:3436 *)
  ("PduSuperclass", "length", PInt 2 false); (* uint16, opendis/dis7.py:3437 *)
  ("CommunicationsNodeID", "elementID", PInt 2 false); (* uint16, opendis/dis7.py:3489 *)
  ("ExpendableDescriptor", "padding", PInt 8 false); (* uint64, opendis/dis7.py:3513 *)
  ("PropulsionSystemData", "powerSetting", PF32); (* float32, opendis/dis7.py:3535 *)
  ("PropulsionSystemData", "engineRpm", PF32); (* float32, opendis/dis7.py:3536 *)
  ("LiveEntityIdentifier", "entityNumber", PInt 2 false); (* uint16, opendis/dis7.py:3562 *)
  ("SeparationVP", "recordType", PInt 1 false); (* enum8, opendis/dis7.py:3585 *)
  ("SeparationVP", "reasonForSeparation", PInt 1 false); (* enum8, opendis/dis7.py:3588 *)
  ("SeparationVP", "preEntityIndicator", PInt 1 false); (* enum8, opendis/dis7.py:3589 *)
  ("SeparationVP", "padding1", PInt 1 false); (* uint8, opendis/dis7.py:3596 *)
  ("SeparationVP", "padding2", PInt 2 false); (* uint16, opendis/dis7.py:3599 *)
  ("EmitterSystem", "emitterName", PInt 2 false); (* enum16, opendis/dis7.py:3631 *)
  ("EmitterSystem", "emitterFunction", PInt 1 false); (* enum8, opendis/dis7.py:3632 *)
  ("EmitterSystem", "emitterIDNumber", PInt 1 false); (* uint8, opendis/dis7.py:3633 *)
  ("PduStatus", "pduStatus", PInt 1 false); (* uint8, opendis/dis7.py:3658 *)
  ("LiveEntityPdu", "subprotocolNumber", PInt 1 false); (* enum8, opendis/dis7.py:3678 *)
  ("Pdu", "pduStatus", PInt 1 false); (* uint8, opendis/dis7.py:3703 *)
  ("Pdu", "padding", PInt 1 false); (* uint8, opendis/dis7.py:3705 *)
  ("EntityInformationFamilyPdu", "protocolFamily", PInt 1 false); (* enum8, opendis/dis7.py:3727 *)
  ("LogisticsFamilyPdu", "protocolFamily", PInt 1 false); (* enum8, opendis/dis7.py:3746 *)
  ("EntityStateUpdatePdu", "pduType", PInt 1 false); (* enum8, opendis/dis7.py:3766 *)
  ("EntityStateUpdatePdu", "padding1", PInt 1 false); (* uint8, opendis/dis7.py:3778 *)
  ("EntityStateUpdatePdu", "entityAppearance", PInt 4 false); (* struct32, opendis/dis7.py:3773 *)
  ("ServiceRequestPdu", "pduType", PInt 1 false); (* enum8, opendis/dis7.py:3829 *)
  ("ServiceRequestPdu", "serviceTypeRequested", PInt 1 false); (* enum8, opendis/dis7.py:3834 *)
  ("RepairCompletePdu", "pduType", PInt 1 false); (* enum8, opendis/dis7.py:3880 *)
  ("RepairCompletePdu", "repair", PInt 2 false); (* enum16, opendis/dis7.py:3885 *)
  ("RepairCompletePdu", "padding4", PInt 2 false); (* uint16, opendis/dis7.py:3893 *)
  ("SyntheticEnvironmentFamilyPdu", "protocolFamily", PInt 1 false); (* enum8, opendis/dis7.py:3918 *)
  ("CollisionPdu", "pduType", PInt 1 false); (* enum8, opendis/dis7.py:3938 *)
  ("CollisionPdu", "collisionType", PInt 1 false); (* enum8, opendis/dis7.py:3944 *)
  ("CollisionPdu", "pad", PInt 1 false); (* uint8, opendis/dis7.py:3957 *)
  ("CollisionPdu", "mass", PF32); (* float32, opendis/dis7.py:3946 *)
  ("RepairResponsePdu", "pduType", PInt 1 false); (* enum8, opendis/dis7.py:3995 *)
  ("RepairResponsePdu", "repairResult", PInt 1 false); (* enum8, opendis/dis7.py:4000 *)
  ("RepairResponsePdu", "padding1", PInt 1 false); (* uint8, opendis/dis7.py:4008 *)
  ("RepairResponsePdu", "padding2", PInt 2 false); (* uint16, opendis/dis7.py:4009 *)
  ("SimulationManagementFamilyPdu", "protocolFamily", PInt 1 false); (* enum8, opendis/dis7.py:4035 *)
  ("DataQueryPdu", "pduType", PInt 1 false); (* enum8, opendis/dis7.py:4064 *)
  ("LinearObjectStatePdu", "pduType", PInt 1 false); (* enum8, opendis/dis7.py:4117 *)
  ("LinearObjectStatePdu", "updateNumber", PInt 2 false); (* uint16, opendis/dis7.py:4122 *)
  ("LinearObjectStatePdu", "forceID", PInt 1 false); (* enum8, opendis/dis7.py:4123 *)
  ("CreateEntityPdu", "pduType", PInt 1 false); (* enum8, opendis/dis7.py:4183 *)
  ("CreateEntityPdu", "requestID", PInt 4 false); (* uint32, opendis/dis7.py:4185 *)
  ("RadioCommunicationsFamilyPdu", "protocolFamily", PInt 1 false); (* enum8, opendis/dis7.py:4206 *)
  ("IntercomSignalPdu", "pduType", PInt 1 false); (* enum8, opendis/dis7.py:4225 *)
  ("IntercomSignalPdu", "communicationsDeviceID", PInt 2 false); (* uint16, opendis/dis7.py:4229 *)
  ("IntercomSignalPdu", "encodingScheme", PInt 2 false); (* struct16, opendis/dis7.py:4230 *)
  ("IntercomSignalPdu", "tdlType", PInt 2 false); (* uint16, opendis/dis7.py:4231 *)
  ("IntercomSignalPdu", "sampleRate", PInt 4 false); (* uint32, opendis/dis7.py:4232 *)
  ("IntercomSignalPdu", "samples", PInt 2 false); (* uint16, opendis/dis7.py:4233 *)
  ("RemoveEntityPdu", "pduType", PInt 1 false); (* enum8, opendis/dis7.py:4289 *)
  ("RemoveEntityPdu", "requestID", PInt 4 false); (* uint32, opendis/dis7.py:4291 *)
  ("ResupplyReceivedPdu", "pduType", PInt 1 false); (* enum8, opendis/dis7.py:4313 *)
  ("ResupplyReceivedPdu", "padding1", PInt 1 false); (* uint8, opendis/dis7.py:4324 *)
  ("ResupplyReceivedPdu", "padding2", PInt 2 false); (* uint16, opendis/dis7.py:4325 *)
  ("WarfareFamilyPdu", "protocolFamily", PInt 1 false); (* enum8, opendis/dis7.py:4364 *)
  ("CollisionElasticPdu", "pduType", PInt 1 false); (* enum8, opendis/dis7.py:4394 *)
  ("CollisionElasticPdu", "pad", PInt 2 false); (* uint16, opendis/dis7.py:4418 *)
  ("CollisionElasticPdu", "mass", PF32); (* float32, opendis/dis7.py:4401 *)
  ("CollisionElasticPdu", "collisionIntermediateResultXX", PF32); (* float32, opendis/dis7.py:4403 *)
  ("CollisionElasticPdu", "collisionIntermediateResultXY", PF32); (* float32, opendis/dis7.py:4404 *)
  ("CollisionElasticPdu", "collisionIntermediateResultXZ", PF32); (* float32, opendis/dis7.py:4405 *)
  ("CollisionElasticPdu", "collisionIntermediateResultYY", PF32); (* float32, opendis/dis7.py:4406 *)
  ("CollisionElasticPdu", "collisionIntermediateResultYZ", PF32); (* float32, opendis/dis7.py:4407 *)
  ("CollisionElasticPdu", "collisionIntermediateResultZZ", PF32); (* float32, opendis/dis7.py:4408 *)
  ("CollisionElasticPdu", "coefficientOfRestitution", PF32); (* float32, opendis/dis7.py:4410 *)
  ("ActionRequestPdu", "pduType", PInt 1 false); (* enum8, opendis/dis7.py:4483 *)
  ("ActionRequestPdu", "requestID", PInt 4 false); (* uint32, opendis/dis7.py:4486 *)
  ("ActionRequestPdu", "actionID", PInt 4 false); (* enum32, opendis/dis7.py:4487 *)
  ("AcknowledgePdu", "pduType", PInt 1 false); (* enum8, opendis/dis7.py:4536 *)
  ("AcknowledgePdu", "acknowledgeFlag", PInt 2 false); (* enum16, opendis/dis7.py:4539 *)
  ("AcknowledgePdu", "responseFlag", PInt 2 false); (* enum16, opendis/dis7.py:4540 *)
  ("AcknowledgePdu", "requestID", PInt 4 false); (* uint32, opendis/dis7.py:4541 *)
  ("DistributedEmissionsFamilyPdu", "protocolFamily", PInt 1 false); (* enum8, opendis/dis7.py:4570 *)
  ("SimulationManagementWithReliabilityFamilyPdu", "protocolFamily", PInt 1 false); (* enum8, opendis/dis7.py:4589 *)
  ("ActionRequestReliablePdu", "pduType", PInt 1 false); (* enum8, opendis/dis7.py:4619 *)
  ("ActionRequestReliablePdu", "requiredReliabilityService", PInt 1 false); (* enum8, opendis/dis7.py:4622 *)
  ("ActionRequestReliablePdu", "pad1", PInt 1 false); (* uint8, opendis/dis7.py:4630 *)
  ("ActionRequestReliablePdu", "pad2", PInt 2 false); (* uint16, opendis/dis7.py:4631 *)
  ("ActionRequestReliablePdu", "requestID", PInt 4 false); (* uint32, opendis/dis7.py:4623 *)
  ("ActionRequestReliablePdu", "actionID", PInt 4 false); (* enum32, opendis/dis7.py:4624 *)
  ("ActionRequestReliablePdu", "pad3", PInt 4 false); (* uint32, opendis/dis7.py:4634 *)
  ("DesignatorPdu", "pduType", PInt 1 false); (* enum8, opendis/dis7.py:4683 *)
  ("DesignatorPdu", "codeName", PInt 2 false); (* enum16, opendis/dis7.py:4687 *)
  ("DesignatorPdu", "designatorCode", PInt 2 false); (* enum16, opendis/dis7.py:4689 *)
  ("DesignatorPdu", "designatorPower", PF32); (* float32, opendis/dis7.py:4690 *)
  ("DesignatorPdu", "designatorWavelength", PF32); (* float32, opendis/dis7.py:4691 *)
  ("DesignatorPdu", "deadReckoningAlgorithm", PInt 1 false); (* enum8, opendis/dis7.py:4695 *)
  ("DesignatorPdu", "padding1", PInt 1 false); (* uint8, opendis/dis7.py:4717 *)
  ("DesignatorPdu", "padding2", PInt 2 false); (* uint16, opendis/dis7.py:4718 *)
  ("StopFreezePdu", "pduType", PInt 1 false); (* enum8, opendis/dis7.py:4761 *)
  ("StopFreezePdu", "reason", PInt 1 false); (* enum8, opendis/dis7.py:4765 *)
  ("StopFreezePdu", "frozenBehavior", PInt 1 false); (* struct8, opendis/dis7.py:4766 *)
  ("StopFreezePdu", "padding1", PInt 2 false); (* uint16, opendis/dis7.py:4775 *)
  ("StopFreezePdu", "requestID", PInt 4 false); (* uint32, opendis/dis7.py:4767 *)
  ("EntityStatePdu", "pduType", PInt 1 false); (* enum8, opendis/dis7.py:4803 *)
  ("EntityStatePdu", "forceId", PInt 1 false); (* enum8, opendis/dis7.py:4807 *)
  ("EntityStatePdu", "entityAppearance", PInt 4 false); (* uint32, opendis/dis7.py:4813 *)
  ("EntityStatePdu", "capabilities", PInt 4 false); (* uint32, opendis/dis7.py:4816 *)
  ("EntityManagementFamilyPdu", "protocolFamily", PInt 1 false); (* enum8, opendis/dis7.py:4895 *)
  ("StartResumePdu", "pduType", PInt 1 false); (* enum8, opendis/dis7.py:4914 *)
  ("StartResumePdu", "requestID", PInt 4 false); (* uint32, opendis/dis7.py:4919 *)
  ("TransmitterPdu", "pduType", PInt 1 false); (* enum8, opendis/dis7.py:4950 *)
  ("TransmitterPdu", "radioNumber", PInt 2 false); (* uint16, opendis/dis7.py:4954 *)
  ("TransmitterPdu", "transmitState", PInt 1 false); (* enum8, opendis/dis7.py:4956 *)
  ("TransmitterPdu", "inputSource", PInt 1 false); (* enum8, opendis/dis7.py:4957 *)
  ("TransmitterPdu", "antennaPatternType", PInt 2 false); (* enum16, opendis/dis7.py:4960 *)
  ("TransmitterPdu", "frequency", PInt 8 false); (* uint64, opendis/dis7.py:4961 *)
  ("TransmitterPdu", "transmitFrequencyBandwidth", PF32); (* float32, opendis/dis7.py:4962 *)
  ("TransmitterPdu", "power", PF32); (* float32, opendis/dis7.py:4963 *)
  ("TransmitterPdu", "cryptoSystem", PInt 2 false); (* enum16, opendis/dis7.py:4965 *)
  ("TransmitterPdu", "cryptoKeyId", PInt 2 false); (* struct16, opendis/dis7.py:4966 *)
  ("ElectromagneticEmissionsPdu", "pduType", PInt 1 false); (* enum8, opendis/dis7.py:5125 *)
  ("ElectromagneticEmissionsPdu", "stateUpdateIndicator", PInt 1 false); (* enum8, opendis/dis7.py:5130 *)
  ("ElectromagneticEmissionsPdu", "paddingForEmissionsPdu", PInt 2 false); (* uint16, opendis/dis7.py:5140 *)
  ("EmissionSystemBeamRecord", "beamDataLength", PInt 1 false); (* uint8, opendis/dis7.py:5179 *)
  ("EmissionSystemBeamRecord", "beamIDNumber", PInt 1 false); (* uint8, opendis/dis7.py:5180 *)
  ("EmissionSystemBeamRecord", "beamParameterIndex", PInt 2 false); (* uint16, opendis/dis7.py:5181 *)
  ("EmissionSystemBeamRecord", "beamFunction", PInt 1 false); (* enum8, opendis/dis7.py:5183 *)
  ("EmissionSystemBeamRecord", "highDensityTrackJam", PInt 1 false); (* enum8, opendis/dis7.py:5184 *)
  ("EmissionSystemBeamRecord", "jammingModeSequence", PInt 4 false); (* uint32, opendis/dis7.py:5186 *)
  ("EmissionSystemRecord", "systemDataLength", PInt 1 false); (* uint8, opendis/dis7.py:5241 *)
  ("EmissionSystemRecord", "paddingForEmissionsPdu", PInt 1 false); (* uint8, opendis/dis7.py:5247 *)
  ("ResupplyOfferPdu", "pduType", PInt 1 false); (* enum8, opendis/dis7.py:5285 *)
  ("ResupplyOfferPdu", "padding1", PInt 1 false); (* uint8, opendis/dis7.py:5296 *)
  ("ResupplyOfferPdu", "padding2", PInt 2 false); (* uint16, opendis/dis7.py:5297 *)
  ("AttributePdu", "padding1", PInt 4 false); (* uint32, opendis/dis7.py:5353 *)
  ("AttributePdu", "padding2", PInt 2 false); (* uint16, opendis/dis7.py:5354 *)
  ("AttributePdu", "attributeRecordPduType", PInt 1 false); (* enum8, opendis/dis7.py:5344 *)
  ("AttributePdu", "attributeRecordProtocolVersion", PInt 1 false); (* enum8, opendis/dis7.py:5345 *)
  ("AttributePdu", "masterAttributeRecordType", PInt 4 false); (* enum32, opendis/dis7.py:5346 *)
  ("AttributePdu", "actionCode", PInt 1 false); (* enum8, opendis/dis7.py:5347 *)
  ("AttributePdu", "padding3", PInt 1 false); (* uint8, opendis/dis7.py:5363 *)
  ("AttributePdu", "numberOfAttributeRecordSets", PInt 2 false); (* uint16, opendis/dis7.py:5348 *)
  ("MinefieldFamilyPdu", "protocolFamily", PInt 1 false); (* enum8, opendis/dis7.py:5398 *)
  ("SetDataReliablePdu", "pduType", PInt 1 false); (* enum8, opendis/dis7.py:5419 *)
  ("SetDataReliablePdu", "requiredReliabilityService", PInt 1 false); (* enum8, opendis/dis7.py:5422 *)
  ("SetDataReliablePdu", "pad1", PInt 1 false); (* uint8, opendis/dis7.py:5429 *)
  ("SetDataReliablePdu", "pad2", PInt 2 false); (* uint16, opendis/dis7.py:5430 *)
  ("SetDataReliablePdu", "requestID", PInt 4 false); (* uint32, opendis/dis7.py:5423 *)
  ("EventReportPdu", "pduType", PInt 1 false); (* enum8, opendis/dis7.py:5477 *)
  ("EventReportPdu", "eventType", PInt 4 false); (* enum32, opendis/dis7.py:5480 *)
  ("PointObjectStatePdu", "pduType", PInt 1 false); (* enum8, opendis/dis7.py:5511 *)
  ("PointObjectStatePdu", "updateNumber", PInt 2 false); (* uint16, opendis/dis7.py:5516 *)
  ("PointObjectStatePdu", "forceID", PInt 1 false); (* enum8, opendis/dis7.py:5517 *)
  ("PointObjectStatePdu", "modifications", PInt 1 false); (* enum8, opendis/dis7.py:5518 *)
  ("PointObjectStatePdu", "pad1", PInt 2 false); (* uint16, opendis/dis7.py:5545 *)
  ("PointObjectStatePdu", "pad2", PInt 4 false); (* uint32, opendis/dis7.py:5550 *)
  ("DataPdu", "pduType", PInt 1 false); (* enum8, opendis/dis7.py:5591 *)
  ("DataPdu", "requestID", PInt 4 false); (* uint32, opendis/dis7.py:5594 *)
  ("DataPdu", "padding1", PInt 4 false); (* uint32, opendis/dis7.py:5600 *)
  ("FastEntityStatePdu", "pduType", PInt 1 false); (* enum8, opendis/dis7.py:5644 *)
  ("AcknowledgeReliablePdu", "pduType", PInt 1 false); (* enum8, opendis/dis7.py:5877 *)
  ("AcknowledgeReliablePdu", "acknowledgeFlag", PInt 2 false); (* enum16, opendis/dis7.py:5880 *)
  ("AcknowledgeReliablePdu", "responseFlag", PInt 2 false); (* enum16, opendis/dis7.py:5881 *)
  ("AcknowledgeReliablePdu", "requestID", PInt 4 false); (* uint32, opendis/dis7.py:5882 *)
  ("StartResumeReliablePdu", "pduType", PInt 1 false); (* enum8, opendis/dis7.py:5910 *)
  ("StartResumeReliablePdu", "requiredReliabilityService", PInt 1 false); (* enum8, opendis/dis7.py:5915 *)
  ("StartResumeReliablePdu", "pad1", PInt 1 false); (* uint8, opendis/dis7.py:5924 *)
  ("StartResumeReliablePdu", "pad2", PInt 2 false); (* uint16, opendis/dis7.py:5925 *)
  ("StartResumeReliablePdu", "requestID", PInt 4 false); (* uint32, opendis/dis7.py:5916 *)
  ("ArealObjectStatePdu", "pduType", PInt 1 false); (* enum8, opendis/dis7.py:5956 *)
  ("ArealObjectStatePdu", "updateNumber", PInt 2 false); (* uint16, opendis/dis7.py:5961 *)
  ("ArealObjectStatePdu", "forceID", PInt 1 false); (* enum8, opendis/dis7.py:5962 *)
  ("ArealObjectStatePdu", "modifications", PInt 1 false); (* enum8, opendis/dis7.py:5963 *)
  ("ArealObjectStatePdu", "specificObjectAppearance", PInt 4 false); (* struct32, opendis/dis7.py:5965 *)
  ("ArealObjectStatePdu", "generalObjectAppearance", PInt 2 false); (* struct16, opendis/dis7.py:5966 *)
  ("DataQueryReliablePdu", "pduType", PInt 1 false); (* enum8, opendis/dis7.py:6033 *)
  ("DataQueryReliablePdu", "requiredReliabilityService", PInt 1 false); (* enum8, opendis/dis7.py:6036 *)
  ("DataQueryReliablePdu", "pad1", PInt 1 false); (* uint8, opendis/dis7.py:6044 *)
  ("DataQueryReliablePdu", "pad2", PInt 2 false); (* uint16, opendis/dis7.py:6045 *)
  ("DataQueryReliablePdu", "requestID", PInt 4 false); (* uint32, opendis/dis7.py:6037 *)
  ("MinefieldStatePdu", "pduType", PInt 1 false); (* enum8, opendis/dis7.py:6096 *)
  ("MinefieldStatePdu", "minefieldSequence", PInt 2 false); (* uint16, opendis/dis7.py:6100 *)
  ("MinefieldStatePdu", "forceID", PInt 1 false); (* enum8, opendis/dis7.py:6101 *)
  ("MinefieldStatePdu", "appearance", PInt 2 false); (* struct16, opendis/dis7.py:6105 *)
  ("MinefieldStatePdu", "protocolMode", PInt 2 false); (* struct16, opendis/dis7.py:6106 *)
  ("DataReliablePdu", "pduType", PInt 1 false); (* enum8, opendis/dis7.py:6181 *)
  ("DataReliablePdu", "requestID", PInt 4 false); (* uint32, opendis/dis7.py:6184 *)
  ("DataReliablePdu", "requiredReliabilityService", PInt 1 false); (* enum8, opendis/dis7.py:6185 *)
  ("DataReliablePdu", "pad1", PInt 1 false); (* uint8, opendis/dis7.py:6192 *)
  ("DataReliablePdu", "pad2", PInt 2 false); (* uint16, opendis/dis7.py:6193 *)
  ("CommentPdu", "pduType", PInt 1 false); (* enum8, opendis/dis7.py:6238 *)
  ("CommentReliablePdu", "pduType", PInt 1 false); (* enum8, opendis/dis7.py:6281 *)
  ("DirectedEnergyFirePdu", "pduType", PInt 1 false); (* enum8, opendis/dis7.py:6324 *)
  ("DirectedEnergyFirePdu", "cumulativeShotTime", PF32); (* float32, opendis/dis7.py:6329 *)
  ("DirectedEnergyFirePdu", "apertureDiameter", PF32); (* float32, opendis/dis7.py:6331 *)
  ("DirectedEnergyFirePdu", "wavelength", PF32); (* float32, opendis/dis7.py:6332 *)
  ("DirectedEnergyFirePdu", "padding1", PInt 4 false); (* uint32, opendis/dis7.py:6347 *)
  ("DirectedEnergyFirePdu", "pulseRepetitionFrequency", PF32); (* float32, opendis/dis7.py:6333 *)
  ("DirectedEnergyFirePdu", "pulseWidth", PF32); (* float32, opendis/dis7.py:6334 *)
  ("DirectedEnergyFirePdu", "pulseShape", PInt 1 false); (* enum8, opendis/dis7.py:6336 *)
  ("DirectedEnergyFirePdu", "padding2", PInt 1 false); (* uint8, opendis/dis7.py:6352 *)
  ("DirectedEnergyFirePdu", "padding3", PInt 4 false); (* uint32, opendis/dis7.py:6353 *)
  ("DirectedEnergyFirePdu", "padding4", PInt 2 false); (* uint16, opendis/dis7.py:6354 *)
  ("DetonationPdu", "pduType", PInt 1 false); (* enum8, opendis/dis7.py:6413 *)
  ("DetonationPdu", "detonationResult", PInt 1 false); (* enum8, opendis/dis7.py:6422 *)
  ("DetonationPdu", "pad", PInt 2 false); (* uint16, opendis/dis7.py:6437 *)
  ("SetDataPdu", "pduType", PInt 1 false); (* enum8, opendis/dis7.py:6483 *)
  ("SetDataPdu", "requestID", PInt 4 false); (* uint32, opendis/dis7.py:6486 *)
  ("SetDataPdu", "padding1", PInt 4 false); (* uint32, opendis/dis7.py:6491 *)
  ("RecordQueryReliablePdu", "pduType", PInt 1 false); (* enum8, opendis/dis7.py:6532 *)
  ("RecordQueryReliablePdu", "requestID", PInt 4 false); (* uint32, opendis/dis7.py:6535 *)
  ("RecordQueryReliablePdu", "requiredReliabilityService", PInt 1 false); (* enum8, opendis/dis7.py:6536 *)
  ("RecordQueryReliablePdu", "pad1", PInt 1 false); (* uint8, opendis/dis7.py:6544 *)
  ("RecordQueryReliablePdu", "eventType", PInt 2 false); (* enum16, opendis/dis7.py:6537 *)
  ("RecordQueryReliablePdu", "time", PInt 4 false); (* uint32, opendis/dis7.py:6538 *)
  ("ActionResponsePdu", "pduType", PInt 1 false); (* enum8, opendis/dis7.py:6589 *)
  ("ActionResponsePdu", "requestID", PInt 4 false); (* uint32, opendis/dis7.py:6592 *)
  ("ActionResponsePdu", "requestStatus", PInt 4 false); (* enum32, opendis/dis7.py:6593 *)
  ("EntityDamageStatusPdu", "pduType", PInt 1 false); (* enum8, opendis/dis7.py:6641 *)
  ("EntityDamageStatusPdu", "padding1", PInt 2 false); (* uint16, opendis/dis7.py:6648 *)
  ("EntityDamageStatusPdu", "padding2", PInt 2 false); (* uint16, opendis/dis7.py:6649 *)
  ("FirePdu", "pduType", PInt 1 false); (* enum8, opendis/dis7.py:6686 *)
  ("FirePdu", "fireMissionIndex", PInt 4 false); (* uint32, opendis/dis7.py:6691 *)
  ("FirePdu", "range", PF32); (* float32, opendis/dis7.py:6695 *)
  ("ReceiverPdu", "pduType", PInt 1 false); (* enum8, opendis/dis7.py:6741 *)
  ("ReceiverPdu", "receiverState", PInt 2 false); (* enum16, opendis/dis7.py:6744 *)
  ("ReceiverPdu", "padding1", PInt 2 false); (* uint16, opendis/dis7.py:6751 *)
  ("ReceiverPdu", "receivedPower", PF32); (* float32, opendis/dis7.py:6745 *)
  ("ReceiverPdu", "transmitterRadioId", PInt 2 false); (* uint16, opendis/dis7.py:6747 *)
  ("UaPdu", "pduType", PInt 1 false); (* enum8, opendis/dis7.py:6785 *)
  ("UaPdu", "stateChangeIndicator", PInt 1 false); (* enum8, opendis/dis7.py:6790 *)
  ("UaPdu", "pad", PInt 1 false); (* uint8, opendis/dis7.py:6803 *)
  ("UaPdu", "passiveParameterIndex", PInt 2 false); (* enum16, opendis/dis7.py:6791 *)
  ("UaPdu", "propulsionPlantConfiguration", PInt 1 false); (* struct8, opendis/dis7.py:6792 *)
  ("IntercomControlPdu", "pduType", PInt 1 false); (* enum8, opendis/dis7.py:6881 *)
  ("IntercomControlPdu", "controlType", PInt 1 false); (* enum8, opendis/dis7.py:6884 *)
  ("IntercomControlPdu", "communicationsChannelType", PInt 1 false); (* struct8, opendis/dis7.py:6885 *)
  ("IntercomControlPdu", "sourceCommunicationsDeviceID", PInt 2 false); (* uint16, opendis/dis7.py:6887 *)
  ("IntercomControlPdu", "sourceLineID", PInt 1 false); (* uint8, opendis/dis7.py:6888 *)
  ("IntercomControlPdu", "transmitPriority", PInt 1 false); (* uint8, opendis/dis7.py:6889 *)
  ("IntercomControlPdu", "transmitLineState", PInt 1 false); (* enum8, opendis/dis7.py:6890 *)
  ("IntercomControlPdu", "command", PInt 1 false); (* enum8, opendis/dis7.py:6891 *)
  ("IntercomControlPdu", "masterCommunicationsDeviceID", PInt 2 false); (* uint16, opendis/dis7.py:6893 *)
  ("SignalPdu", "pduType", PInt 1 false); (* enum8, opendis/dis7.py:6964 *)
  ("SignalPdu", "radioID", PInt 2 false); (* uint16, opendis/dis7.py:6968 *)
  ("SignalPdu", "encodingScheme", PInt 2 false); (* struct16, opendis/dis7.py:6969 *)
  ("SignalPdu", "tdlType", PInt 2 false); (* enum16, opendis/dis7.py:6970 *)
  ("SignalPdu", "sampleRate", PInt 4 false); (* uint32, opendis/dis7.py:6971 *)
  ("SignalPdu", "samples", PInt 2 false); (* uint16, opendis/dis7.py:6972 *)
  ("RemoveEntityReliablePdu", "pduType", PInt 1 false); (* enum8, opendis/dis7.py:7023 *)
  ("RemoveEntityReliablePdu", "requiredReliabilityService", PInt 1 false); (* enum8, opendis/dis7.py:7026 *)
  ("RemoveEntityReliablePdu", "pad1", PInt 1 false); (* uint8, opendis/dis7.py:7031 *)
  ("RemoveEntityReliablePdu", "pad2", PInt 2 false); (* uint16, opendis/dis7.py:7032 *)
  ("RemoveEntityReliablePdu", "requestID", PInt 4 false); (* uint32, opendis/dis7.py:7027 *)
  ("SeesPdu", "pduType", PInt 1 false); (* enum8, opendis/dis7.py:7057 *)
  ("SeesPdu", "infraredSignatureRepresentationIndex", PInt 2 false); (* uint16, opendis/dis7.py:7061 *)
  ("SeesPdu", "acousticSignatureRepresentationIndex", PInt 2 false); (* uint16, opendis/dis7.py:7062 *)
  ("SeesPdu", "radarCrossSectionSignatureRepresentationIndex", PInt 2 false); (* uint16, opendis/dis7.py:7063 *)
  ("CreateEntityReliablePdu", "pduType", PInt 1 false); (* enum8, opendis/dis7.py:7127 *)
  ("CreateEntityReliablePdu", "requiredReliabilityService", PInt 1 false); (* enum8, opendis/dis7.py:7130 *)
  ("CreateEntityReliablePdu", "pad1", PInt 1 false); (* uint8, opendis/dis7.py:7135 *)
  ("CreateEntityReliablePdu", "pad2", PInt 2 false); (* uint16, opendis/dis7.py:7136 *)
  ("CreateEntityReliablePdu", "requestID", PInt 4 false); (* uint32, opendis/dis7.py:7131 *)
  ("StopFreezeReliablePdu", "pduType", PInt 1 false); (* enum8, opendis/dis7.py:7161 *)
  ("StopFreezeReliablePdu", "reason", PInt 1 false); (* enum8, opendis/dis7.py:7165 *)
  ("StopFreezeReliablePdu", "frozenBehavior", PInt 1 false); (* struct8, opendis/dis7.py:7166 *)
  ("StopFreezeReliablePdu", "requiredReliablityService", PInt 1 false); (* enum8, opendis/dis7.py:7167 *)
  ("StopFreezeReliablePdu", "pad1", PInt 1 false); (* uint8, opendis/dis7.py:7178 *)
  ("StopFreezeReliablePdu", "requestID", PInt 4 false); (* uint32, opendis/dis7.py:7168 *)
  ("EventReportReliablePdu", "pduType", PInt 1 false); (* enum8, opendis/dis7.py:7208 *)
  ("EventReportReliablePdu", "eventType", PInt 4 false); (* enum32, opendis/dis7.py:7211 *)
  ("EventReportReliablePdu", "pad1", PInt 4 false); (* uint32, opendis/dis7.py:7217 *)
  ("MinefieldResponseNackPdu", "pduType", PInt 1 false); (* enum8, opendis/dis7.py:7258 *)
  ("MinefieldResponseNackPdu", "requestID", PInt 4 false); (* uint32, opendis/dis7.py:7263 *)
  ("ActionResponseReliablePdu", "pduType", PInt 1 false); (* enum8, opendis/dis7.py:7307 *)
  ("ActionResponseReliablePdu", "requestID", PInt 4 false); (* uint32, opendis/dis7.py:7310 *)
  ("ActionResponseReliablePdu", "responseStatus", PInt 4 false); (* enum32, opendis/dis7.py:7311 *)
  ("IsPartOfPdu", "pduType", PInt 1 false); (* enum8, opendis/dis7.py:7358 *)
  ("AggregateStatePdu", "pduType", PInt 1 false); (* enum8, opendis/dis7.py:7407 *)
  ("AggregateStatePdu", "forceID", PInt 2 false); (* enum16, opendis/dis7.py:7410 *)
  ("AggregateStatePdu", "aggregateState", PInt 1 false); (* enum8, opendis/dis7.py:7411 *)
  ("AggregateStatePdu", "formation", PInt 4 false); (* enum32, opendis/dis7.py:7413 *)
  ("StandardVariableRecord", "recordType", PInt 4 false); (* enum32, opendis/record/base.py:72 *)
  ("BeamAntennaPattern", "azimuthBeamwidth", PF32); (* float32, opendis/record/radio/__init__.py:113 *)
  ("BeamAntennaPattern", "elevationBeamwidth", PF32); (* float32, opendis/record/radio/__init__.py:114 *)
  ("BeamAntennaPattern", "referenceSystem", PInt 1 false); (* enum8, opendis/record/radio/__init__.py:115 *)
  ("BeamAntennaPattern", "padding1", PInt 1 false); (* uint8, opendis/record/radio/__init__.py:124 *)
  ("BeamAntennaPattern", "padding2", PInt 2 false); (* uint16, opendis/record/radio/__init__.py:125 *)
  ("BeamAntennaPattern", "ez", PF32); (* float32, opendis/record/radio/__init__.py:116 *)
  ("BeamAntennaPattern", "ex", PF32); (* float32, opendis/record/radio/__init__.py:117 *)
  ("BeamAntennaPattern", "phase", PF32); (* float32, opendis/record/radio/__init__.py:118 *)
  ("BeamAntennaPattern", "padding3", PInt 4 false); (* uint32, opendis/record/radio/__init__.py:132 *)
  ("ModulationType", "majorModulation", PInt 2 false); (* enum16, opendis/record/radio/__init__.py:226 *)
  ("ModulationType", "detail", PInt 2 false); (* enum16, opendis/record/radio/__init__.py:227 *)
  ("ModulationType", "radioSystem", PInt 2 false); (* enum16, opendis/record/radio/__init__.py:228 *)
  ("BasicHaveQuickMP", "mwod_index", PInt 2 false); (* uint16, opendis/record/radio/__init__.py:362 *)
  ("BasicHaveQuickMP", "reserved16", PInt 2 false); (* uint16, opendis/record/radio/__init__.py:363 *)
  ("BasicHaveQuickMP", "reserved8_1", PInt 1 false); (* uint8, opendis/record/radio/__init__.py:364 *)
  ("BasicHaveQuickMP", "reserved8_2", PInt 1 false); (* uint8, opendis/record/radio/__init__.py:365 *)
  ("BasicHaveQuickMP", "time_of_day", PInt 4 false); (* uint32, opendis/record/radio/__init__.py:366 *)
  ("BasicHaveQuickMP", "padding", PInt 4 false); (* uint32, opendis/record/radio/__init__.py:367 *)
  ("CCTTSincgarsMP", "fh_net_id", PInt 2 false); (* uint16, opendis/record/radio/__init__.py:407 *)
  ("CCTTSincgarsMP", "hop_set_id", PInt 2 false); (* uint16, opendis/record/radio/__init__.py:408 *)
  ("CCTTSincgarsMP", "lockout_set_id", PInt 2 false); (* uint16, opendis/record/radio/__init__.py:409 *)
  ("CCTTSincgarsMP", "start_of_message", PInt 1 false); (* enum8, opendis/record/radio/__init__.py:410 *)
  ("CCTTSincgarsMP", "clear_channel", PInt 1 false); (* enum8, opendis/record/radio/__init__.py:411 *)
  ("CCTTSincgarsMP", "fh_sync_time_offset", PInt 4 false); (* uint32, opendis/record/radio/__init__.py:412 *)
  ("CCTTSincgarsMP", "transmission_security_key", PInt 2 false); (* uint16, opendis/record/radio/__init__.py:413 *)
  ("CCTTSincgarsMP", "padding", PInt 2 false); (* uint16, opendis/record/radio/__init__.py:421 *)
  ("HighFidelityHAVEQUICKRadio", "recordType", PInt 4 false); (* enum32, opendis/record/radio/__init__.py:454 *)
  ("HighFidelityHAVEQUICKRadio", "padding1", PInt 2 false); (* uint16, opendis/record/radio/__init__.py:466 *)
  ("HighFidelityHAVEQUICKRadio", "todTransmitIndicator", PInt 1 false); (* enum8, opendis/record/radio/__init__.py:458 *)
  ("HighFidelityHAVEQUICKRadio", "padding2", PInt 1 false); (* uint8, opendis/record/radio/__init__.py:469 *)
  ("HighFidelityHAVEQUICKRadio", "todDelta", PInt 4 false); (* uint32, opendis/record/radio/__init__.py:459 *)
  ("HighFidelityHAVEQUICKRadio", "wod1", PInt 4 false); (* uint32, opendis/record/radio/__init__.py:460 *)
  ("HighFidelityHAVEQUICKRadio", "wod2", PInt 4 false); (* uint32, opendis/record/radio/__init__.py:461 *)
  ("HighFidelityHAVEQUICKRadio", "wod3", PInt 4 false); (* uint32, opendis/record/radio/__init__.py:462 *)
  ("HighFidelityHAVEQUICKRadio", "wod4", PInt 4 false); (* uint32, opendis/record/radio/__init__.py:463 *)
  ("HighFidelityHAVEQUICKRadio", "wod5", PInt 4 false); (* uint32, opendis/record/radio/__init__.py:464 *)
  ("HighFidelityHAVEQUICKRadio", "wod6", PInt 4 false); (* uint32, opendis/record/radio/__init__.py:465 *)
  ("DirectedEnergyDamage", "recordType", PInt 4 false); (* enum32, opendis/record/warfare/__init__.py:49 *)
  ("DirectedEnergyDamage", "padding", PInt 2 false); (* uint16, opendis/record/warfare/__init__.py:61 *)
  ("DirectedEnergyDamage", "damageDiameter", PF32); (* float32, opendis/record/warfare/__init__.py:54 *)
  ("DirectedEnergyDamage", "temperature", PF32); (* float32, opendis/record/warfare/__init__.py:55 *)
  ("DirectedEnergyDamage", "componentIdentification", PInt 1 false); (* enum8, opendis/record/warfare/__init__.py:56 *)
  ("DirectedEnergyDamage", "componentDamageStatus", PInt 1 false); (* enum8, opendis/record/warfare/__init__.py:57 *)
  ("DirectedEnergyDamage", "componentVisualDamageStatus", PInt 1 false); (* struct8, opendis/record/warfare/__init__.py:58 *)
  ("DirectedEnergyDamage", "componentVisualSmokeColor", PInt 1 false); (* enum8, opendis/record/warfare/__init__.py:59 *)
  ("DirectedEnergyDamage", "padding2", PInt 2 false); (* uint16, opendis/record/warfare/__init__.py:70 *)
  ("DirectedEnergyAreaAimpoint", "recordType", PInt 4 false); (* enum32, opendis/record/warfare/__init__.py:114 *)
  ("DirectedEnergyAreaAimpoint", "padding", PInt 2 false); (* uint16, opendis/record/warfare/__init__.py:119 *)
  ("DirectedEnergyPrecisionAimpoint", "recordType", PInt 4 false); (* enum32, opendis/record/warfare/__init__.py:179 *)
  ("DirectedEnergyPrecisionAimpoint", "padding", PInt 2 false); (* uint16, opendis/record/warfare/__init__.py:193 *)
  ("DirectedEnergyPrecisionAimpoint", "targetComponentID", PInt 1 false); (* enum8, opendis/record/warfare/__init__.py:187 *)
  ("DirectedEnergyPrecisionAimpoint", "beamSpotType", PInt 1 false); (* enum8, opendis/record/warfare/__init__.py:188 *)
  ("DirectedEnergyPrecisionAimpoint", "beamSpotCrossSectionSemiMajorAxis", PF32); (* float32, opendis/record/warfare/__init__.py:189 *)
  ("DirectedEnergyPrecisionAimpoint", "beamSpotCrossSectionSemiMinorAxis", PF32); (* float32, opendis/record/warfare/__init__.py:190 *)
  ("DirectedEnergyPrecisionAimpoint", "beamSpotCrossSectionOrientationAngle", PF32); (* float32, opendis/record/warfare/__init__.py:191 *)
  ("DirectedEnergyPrecisionAimpoint", "peakIrradiance", PF32); (* float32, opendis/record/warfare/__init__.py:192 *)
  ("DirectedEnergyPrecisionAimpoint", "padding2", PInt 4 false); (* uint32, opendis/record/warfare/__init__.py:205 *)
  ("DirectedEnergyTargetEnergyDeposition", "padding", PInt 2 false); (* uint16, opendis/record/warfare/__init__.py:264 *)
  ("DirectedEnergyTargetEnergyDeposition", "peakIrradiance", PF32) (* float32, opendis/record/warfare/__init__.py:262 *)
].
