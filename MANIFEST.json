{
 "claims": [
  {
   "property": "C01",
   "status": "proved",
   "theorems": [
    "C01_int_round_trip"
   ],
   "note": "all integer writer/reader pairs except write_uint64/read_uint64, which is C04"
  },
  {
   "property": "C02",
   "status": "proved",
   "theorems": [
    "C02_big_endian"
   ],
   "note": ""
  },
  {
   "property": "C03",
   "status": "proved",
   "theorems": [
    "C03_out_of_range"
   ],
   "note": ""
  },
  {
   "property": "C04",
   "status": "partial",
   "theorems": [
    "C04_uint64_exact",
    "C04_uint64_inverse_partial",
    "C04_uint64_inverse_refuted"
   ],
   "note": "read_uint64 reads a signed integer: inverse exactly below 2^63, refuted from there on"
  },
  {
   "property": "C05",
   "status": "partial",
   "theorems": [
    "C05_char_round_trip",
    "C05_char_too_large",
    "C05_char8_exact",
    "C05_char8_inverse_refuted"
   ],
   "note": "char proved; char8 never reads back (writes 1 byte, reads 2): refuted, with its exact behaviour"
  },
  {
   "property": "C06",
   "status": "proved",
   "theorems": [
    "C06_float64",
    "C06_float32"
   ],
   "note": ""
  },
  {
   "property": "C08",
   "status": "proved",
   "theorems": [
    "C08_utf_round_trip",
    "C08_utf_too_long"
   ],
   "note": ""
  },
  {
   "property": "C09",
   "status": "proved",
   "theorems": [
    "C09_fixed_reads"
   ],
   "note": ""
  },
  {
   "property": "C10",
   "status": "proved",
   "theorems": [
    "C10_round_trip",
    "C10_covers",
    "C10_others"
   ],
   "note": "every class with a wire layout (layout c = Some f); C10_covers shows that these are all the classes with a serialize method but the 33 listed in PropScope.others"
  },
  {
   "property": "C11",
   "status": "proved",
   "theorems": [
    "C11_factory_round_trip"
   ],
   "note": "every PDU class the factory maps to itself and that has a wire layout"
  },
  {
   "property": "C12",
   "status": "partial",
   "theorems": [
    "C12_reencode",
    "C12_covers",
    "C12_created",
    "C12_length",
    "C12_stable",
    "C12_signalling_nan_refuted"
   ],
   "note": "identity on the bytes for every class whose layout ignores no bits, on contents without float32 NaN (also through createPdu); refuted for signalling float32 NaNs; same length and idempotent for every layout"
  },
  {
   "property": "C13",
   "status": "proved",
   "theorems": [
    "C13_total",
    "C13_covers"
   ],
   "note": "every layout without bit fields and undefined names"
  },
  {
   "property": "C14",
   "status": "proved",
   "theorems": [
    "C14_truncated"
   ],
   "note": ""
  },
  {
   "property": "C15",
   "status": "proved",
   "theorems": [
    "C15_trailing"
   ],
   "note": ""
  },
  {
   "property": "C16",
   "status": "proved",
   "theorems": [
    "C16_unambiguous"
   ],
   "note": ""
  },
  {
   "property": "C17",
   "status": "proved",
   "theorems": [
    "C17_size",
    "C17_fixed_sizes",
    "C17_entity_state"
   ],
   "note": ""
  },
  {
   "property": "C18",
   "status": "proved",
   "theorems": [
    "C18_counts",
    "C18_covers"
   ],
   "note": ""
  },
  {
   "property": "C19",
   "status": "proved",
   "theorems": [
    "C19_header",
    "C19_header_special",
    "C19_covers"
   ],
   "note": "every PDU class: C19_header for the classes with a fixed layout, C19_header_special for the other four"
  },
  {
   "property": "C20",
   "status": "partial",
   "theorems": [
    "C20_length_partial",
    "C20_length_refuted"
   ],
   "note": "the length field is whatever the client stored; refuted for the real size"
  },
  {
   "property": "C21",
   "status": "proved",
   "theorems": [
    "C21_dispatch",
    "C21_third_byte"
   ],
   "note": ""
  },
  {
   "property": "C22",
   "status": "partial",
   "theorems": [
    "C22_own_type_partial",
    "C22_own_type_refuted"
   ],
   "note": "holds for every PDU class but five; refuted for each of the five"
  },
  {
   "property": "C23",
   "status": "partial",
   "theorems": [
    "C23_safe_partial",
    "C23_safe_refuted",
    "C23_exact"
   ],
   "note": "no other exception exactly for the types outside the list; refuted for each type in the list"
  },
  {
   "property": "C24",
   "status": "proved",
   "theorems": [
    "C24_isolated",
    "C24_disjoint"
   ],
   "note": ""
  },
  {
   "property": "C25",
   "status": "proved",
   "theorems": [
    "C25_serialize_pure",
    "C25_size_pure",
    "C25_attribute_pure",
    "C25_twice"
   ],
   "note": "every object, also ill-formed ones; no object is created or changed"
  },
  {
   "property": "C26",
   "status": "proved",
   "theorems": [
    "C26_append_only",
    "C26_failure_prefix"
   ],
   "note": "append-only for every object graph; the prefix statement for classes with a wire layout"
  },
  {
   "property": "C27",
   "status": "partial",
   "theorems": [
    "C27_reparse",
    "C27_covers",
    "C27_replaces_partial",
    "C27_replaces_refuted"
   ],
   "note": "exact effect of parsing into a used object (lists are extended); replacement holds for the 127 classes without lists and is refuted with lists"
  },
  {
   "property": "C28",
   "status": "partial",
   "theorems": [
    "C28_defaults_partial",
    "C28_defaults_refuted"
   ],
   "note": "169 of 192 classes; refuted for each of the other 23, with the exception raised"
  },
  {
   "property": "C29",
   "status": "proved",
   "theorems": [
    "C29_sequence",
    "C29_getPdu_position",
    "C29_getPdu_rewinds"
   ],
   "note": ""
  },
  {
   "property": "C33",
   "status": "proved",
   "theorems": [
    "C33_accepted",
    "C33_rejected",
    "C33_write",
    "C33_read",
    "C33_short",
    "C33_round_trip"
   ],
   "note": "about the general bitfield factory (Bitfield.v), any field list"
  },
  {
   "property": "C34",
   "status": "proved",
   "theorems": [
    "C34_spread_spectrum",
    "C34_net_id",
    "C34_fire_flags",
    "C34_padding_refuted"
   ],
   "note": "all flags round-trip; the padding bits do not (refuted separately)"
  },
  {
   "property": "C35",
   "status": "proved",
   "theorems": [
    "C35_round_trip",
    "C35_parse"
   ],
   "note": ""
  },
  {
   "property": "C36",
   "status": "proved",
   "theorems": [
    "C36_round_trip",
    "C36_too_long"
   ],
   "note": "payload held as a list of ints"
  },
  {
   "property": "C37",
   "status": "proved",
   "theorems": [
    "C37_setString",
    "C37_charactersString",
    "C37_round_trip",
    "C37_not_ascii"
   ],
   "note": ""
  },
  {
   "property": "C39",
   "status": "partial",
   "theorems": [
    "C39_exact",
    "C39_round_trip_partial",
    "C39_round_trip_refuted"
   ],
   "note": "the code writes len(data) and reads length-6: refuted for every non-empty data, proved for empty data, exact wire behaviour proved"
  },
  {
   "property": "C30",
   "status": "partial",
   "theorems": [
    "C30_announced_partial",
    "C30_raw_partial",
    "C30_standard_variable_refuted",
    "C30_unknown_refuted"
   ],
   "note": "Proved for the 16 fixed-layout classes and the raw-data records with a marshalledSize method; refuted, for every instance, for the four registered standard variable records (the serialised bytes exceed the announced size by a constant) and for records of unregistered type."
  },
  {
   "property": "C31",
   "status": "partial",
   "theorems": [
    "C31_standard_layout_partial",
    "C31_record_refuted",
    "C31_unregistered_refuted",
    "C31_pdu_refuted"
   ],
   "note": "The code violates the property: C31_record_refuted shows that no record of the four registered classes, whatever its contents, is read back by parseStandardVariableRecord; C31_unregistered_refuted that unregistered types raise TypeError; C31_pdu_refuted gives a PDU. What does hold is that records in the standard's single-header layout are read."
  },
  {
   "property": "C32",
   "status": "proved",
   "theorems": [
    "C32_registered",
    "C32_registered_types",
    "C32_unregistered",
    "C32_value_error"
   ],
   "note": ""
  },
  {
   "property": "C40",
   "status": "proved",
   "theorems": [
    "C40_rotation"
   ],
   "note": "over exact real numbers"
  },
  {
   "property": "C41",
   "status": "proved",
   "theorems": [
    "C41_zero_time"
   ],
   "note": "over exact real numbers"
  },
  {
   "property": "C42",
   "status": "proved",
   "theorems": [
    "C42_fpw",
    "C42_fvw",
    "C42_rpw",
    "C42_rvw",
    "C42_rotating",
    "C42_no_turn"
   ],
   "note": "over exact real numbers"
  },
  {
   "property": "C43",
   "status": "proved",
   "theorems": [
    "C43_fixed",
    "C43_rotating",
    "C43_aligned"
   ],
   "note": "over exact real numbers"
  },
  {
   "property": "C44",
   "status": "proved",
   "theorems": [
    "C44_total",
    "C44_kinematics",
    "C44_gimbal"
   ],
   "note": "over exact real numbers"
  },
  {
   "property": "C45",
   "status": "proved",
   "theorems": [
    "C45_angles",
    "C45_metric",
    "C45_reference"
   ],
   "note": "over exact real numbers"
  },
  {
   "property": "C46",
   "status": "proved",
   "theorems": [
    "C46_matrix",
    "C46_inverse",
    "C46_isometry",
    "C46_together",
    "C46_centre"
   ],
   "note": "over exact real numbers"
  },
  {
   "property": "C47",
   "status": "proved",
   "theorems": [
    "C47_rodrigues",
    "C47_compose",
    "C47_rotation",
    "C47_axes"
   ],
   "note": "over exact real numbers"
  },
  {
   "property": "C48",
   "status": "proved",
   "theorems": [
    "C48_surface",
    "C48_altitude",
    "C48_fixed_point",
    "C48_equator",
    "C48_poles"
   ],
   "note": "over exact real numbers"
  },
  {
   "property": "C52",
   "status": "proved",
   "theorems": [
    "C52_angular_velocity"
   ],
   "note": "over exact real numbers"
  },
  {
   "property": "C49",
   "status": "partial",
   "theorems": [
    "C49_zone_partial",
    "C49_boundaries",
    "C49_exceptional",
    "C49_zone_refuted"
   ],
   "note": "over exact real numbers; proved for -180 <= lon < 180; at longitude 180 the code yields zone 61 (refuted there)"
  },
  {
   "property": "C50",
   "status": "proved",
   "theorems": [
    "C50_bands",
    "C50_outside",
    "C50_letters",
    "C50_monotone",
    "C50_no_i_o",
    "C50_band_x_refuted"
   ],
   "note": "over exact real numbers; C50_band_x_refuted shows the deviation from the standard for latitudes 80..84"
  },
  {
   "property": "C51",
   "status": "proved",
   "theorems": [
    "C51_llarpy2ecef",
    "C51_ecef2llarpy",
    "C51_no_position",
    "C51_round_trip"
   ],
   "note": "over exact real numbers; holds at gimbal lock too"
  },
  {
   "property": "C53",
   "status": "proved",
   "theorems": [
    "C53_ned2pae",
    "C53_ecef2pae",
    "C53_vertical"
   ],
   "note": "over exact real numbers"
  },
  {
   "property": "C54",
   "status": "proved",
   "theorems": [
    "C54_central",
    "C54_altitude",
    "C54_mirror",
    "C54_hemispheres_refuted"
   ],
   "note": "over exact real numbers; C54_hemispheres_refuted shows that no false northing is applied"
  },
  {
   "property": "C55",
   "status": "proved",
   "theorems": [
    "C55_range",
    "C55_monotone",
    "C55_equator"
   ],
   "note": "over exact real numbers"
  },
  {
   "property": "C57",
   "status": "proved",
   "theorems": [
    "C57_gcc"
   ],
   "note": "over exact real numbers; the origin string is modelled as already split and converted"
  },
  {
   "property": "C56",
   "status": "partial",
   "theorems": [
    "C56_terminates_partial",
    "C56_always_terminates_partial",
    "C56_converges_partial",
    "C56_near_surface_partial",
    "C56_domain_refuted",
    "C56_accuracy_refuted"
   ],
   "note": "over exact real numbers. Termination for every tolerance and geometric convergence for positions at least half an Earth radius from the centre with |z| <= 60000 km; within 150 km of the ellipsoid six iterations, 0.00065 degrees and 69 m always suffice. For |z| >= 78000 km off the axis the code raises a math domain error (refuted), and the tolerance does not bound the error (refuted by a position where the loop stalls). Positions near the centre of the Earth and 60000 km < |z| < 78000 km are not covered"
  },
  {
   "property": "C58",
   "status": "proved",
   "theorems": [
    "C58_coordinates_exist",
    "C58_coordinates_unique"
   ],
   "note": "over exact real numbers"
  },
  {
   "property": "C07",
   "status": "proved",
   "theorems": [
    "C07_narrowing",
    "C07_unique"
   ],
   "note": "values of bit patterns compared as integers; no axioms"
  },
  {
   "property": "C38",
   "status": "partial",
   "theorems": [
    "C38_round_trip_partial",
    "C38_unknown_antenna_refuted",
    "C38_frequency_refuted",
    "C38_generic_radio_refuted",
    "C38_truncated_refuted"
   ],
   "note": "Round trip for every Transmitter PDU with no variable transmitter parameters (with them, C62_transmitter_round_trip_refuted); the refuted theorems show what is lost outside the conditions."
  },
  {
   "property": "C59",
   "status": "partial",
   "theorems": [
    "C59_offsets_partial",
    "C59_read_partial",
    "C59_receiver_refuted",
    "C59_receiver_read_refuted",
    "C59_event_report_refuted",
    "C59_transmitter",
    "C59_aggregate",
    "C59_aggregate_read",
    "C59_aggregate_swapped",
    "C59_aggregate_refuted",
    "C59_directed_energy",
    "C59_entity_damage_refuted",
    "C59_record_query_refuted",
    "C59_event_report_every_refuted"
   ],
   "note": "Proved for the 47 classes of the table std, what the Transmitter PDU and the Directed Energy Fire PDU write and the Aggregate State PDU (center of mass and velocity excepted: they have each other's type); ReceiverPdu, EventReportReliablePdu, RecordQueryReliablePdu and EntityDamageStatusPdu do not follow the standard (refuted for every instance; Event Report-R for every event type but 0); IntercomControl and the PDUs that cannot be constructed are not tabulated."
  },
  {
   "property": "C60",
   "status": "partial",
   "theorems": [
    "C60_declared_partial",
    "C60_read_partial",
    "C60_covers",
    "C60_declared_refuted",
    "C60_rejected_refuted",
    "C60_war_pdus",
    "C60_aggregate",
    "C60_force_refuted",
    "C60_transmitter",
    "C60_standard_variable",
    "C60_silent_refuted"
   ],
   "note": "Proved for the 936 declared attributes of the 180 classes with a layout, except the 52 listed, which are written in another type, and BeamStatus.beamState, and for the 78 declared attributes of the eight other PDUs and standard variable records, except AggregateStatePdu.forceID; refuted for every SilentAggregateSystem; the abstract StandardVariableRecord has no instances of its own."
  },
  {
   "property": "C61",
   "status": "partial",
   "theorems": [
    "C61_arguments_partial",
    "C61_transmitter",
    "C61_beam",
    "C61_lost_refuted"
   ],
   "note": "Proved for 760 of the 780 parameters of 175 constructors and, with the exact conversion of one argument, for TransmitterPdu (its list is copied) and BeamStatus (its last bit is kept). Partial because the code drops the 20 parameters of the list lost or stores them under another name (refuted for each)."
  },
  {
   "property": "C62",
   "status": "partial",
   "theorems": [
    "C62_entity_damage_read",
    "C62_directed_energy_read",
    "C62_transmitter_read",
    "C62_entity_damage_rejects",
    "C62_directed_energy_rejects",
    "C62_transmitter_rejects",
    "C62_entity_damage_writes",
    "C62_directed_energy_writes",
    "C62_round_trip_refuted",
    "C62_transmitter_round_trip_refuted"
   ],
   "note": "Reading, rejecting and writing are proved for all lists; the round trip is refuted for every PDU with at least one record, because records are written with a longer header and padding than is read."
  },
  {
   "property": "C63",
   "status": "proved",
   "theorems": [
    "C63_assign",
    "C63_covers",
    "C63_read_modify_write",
    "C63_new",
    "C63_shared_refuted"
   ],
   "note": "C63_covers: of the 972 scalar attributes of the layouts only VariableDatum.variableDatumLength is excepted; C63_shared_refuted shows that the condition on shared objects is needed; AttachedParts, Environment, EnvironmentGeneral and SeparationVP have no serializable contents when new"
  },
  {
   "property": "C64",
   "status": "partial",
   "theorems": [
    "C64_read",
    "C64_write",
    "C64_round_trip",
    "C64_silent_refuted",
    "C64_silent_never"
   ],
   "note": "Proved except that a PDU with silent aggregates cannot be written (refuted for all of them)."
  },
  {
   "property": "C65",
   "status": "proved",
   "theorems": [
    "C65_accepts",
    "C65_comes_back",
    "C65_created",
    "C65_same",
    "C65_covers",
    "C65_cut_refuted"
   ],
   "note": "C65_cut_refuted: an entity marking of twelve characters is accepted and comes back with eleven, so the exception for the cutting classes is needed."
  },
  {
   "property": "C66",
   "status": "proved",
   "theorems": [
    "C66_fpw",
    "C66_fvw",
    "C66_rpw",
    "C66_rvw",
    "C66_micrometre",
    "C66_drift"
   ],
   "note": "DeadReckoning64.v computes with Flocq's binary64 in the order of the Python code; the exact algorithm of DeadReckoning.v is the specification. ** 2 is assumed accurate to one unit in the last place (record accurate; C66_case exhibits a platform)."
  },
  {
   "property": "C67",
   "status": "proved",
   "theorems": [
    "C67_still",
    "C67_infinite",
    "C67_infinite_refuted"
   ],
   "note": "C67_infinite_refuted: a wire velocity with the bit pattern 7f800000 turns the position into NaN at dt = 0, so finiteness is needed."
  },
  {
   "property": "C68",
   "status": "proved",
   "theorems": [
    "C68_matrix",
    "C68_fpb",
    "C68_fvb",
    "C68_turn",
    "C68_gimbal",
    "C68_rotating"
   ],
   "note": "For |cos pitch| within a tenth of the threshold 1e-6 the floating-point test may take either branch; the theorems leave that band out."
  },
  {
   "property": "C69",
   "status": "proved",
   "theorems": [
    "C69_attributes",
    "C69_state",
    "C69_fvw",
    "C69_fpw",
    "C69_millimetre"
   ],
   "note": "The rotating and body-frame algorithms are in C78."
  },
  {
   "property": "C70",
   "status": "proved",
   "theorems": [
    "C70_ecef",
    "C70_near_earth",
    "C70_gcc",
    "C70_distance"
   ],
   "note": ""
  },
  {
   "property": "C71",
   "status": "proved",
   "theorems": [
    "C71_terminates",
    "C71_near_surface",
    "C71_latitude",
    "C71_axis_refuted"
   ],
   "note": "C71_axis_refuted shows why the bound on the ratio is needed: 2^-600 m from the axis the code raises ZeroDivisionError although the position is off the axis."
  },
  {
   "property": "C72",
   "status": "proved",
   "theorems": [
    "C72_stable",
    "C72_round_trip"
   ],
   "note": ""
  },
  {
   "property": "C73",
   "status": "proved",
   "theorems": [
    "C73_distance",
    "C73_round_trip",
    "C73_directions"
   ],
   "note": ""
  },
  {
   "property": "C74",
   "status": "proved",
   "theorems": [
    "C74_llarpy2ecef",
    "C74_ecef2llarpy",
    "C74_located"
   ],
   "note": ""
  },
  {
   "property": "C75",
   "status": "proved",
   "theorems": [
    "C75_example"
   ],
   "note": ""
  },
  {
   "property": "C76",
   "status": "partial",
   "theorems": [
    "C76_other",
    "C76_labels_refuted",
    "C76_cut",
    "C76_unknown",
    "C76_centre"
   ],
   "note": "The code violates the property: labels exchanged, and four kinds of datagrams end the program. Proved: the positive part for other PDUs, and the violations."
  },
  {
   "property": "C77",
   "status": "proved",
   "theorems": [
    "C77_append",
    "C77_covers",
    "C77_covers_all",
    "C77_new",
    "C77_apart"
   ],
   "note": ""
  },
  {
   "property": "C78",
   "status": "proved",
   "theorems": [
    "C78_body",
    "C78_turn"
   ],
   "note": ""
  },
  {
   "property": "C79",
   "status": "proved",
   "theorems": [
    "C79_zone",
    "C79_coordinates",
    "C79_not_finite",
    "C79_zone_refuted"
   ],
   "note": "C79_zone_refuted shows that the exception next to 180 degrees is real. ecef2utm is modelled (Utm64.v) as the composition with ecef2lla; C85 bounds its error."
  },
  {
   "property": "C80",
   "status": "proved",
   "theorems": [
    "C80_ned2pae",
    "C80_locates",
    "C80_ecef2pae",
    "C80_bearings",
    "C80_gravity"
   ],
   "note": ""
  },
  {
   "property": "C81",
   "status": "proved",
   "theorems": [
    "C81_map",
    "C81_demo"
   ],
   "note": "The error in latitude is that of ecef2lla's stopping rule (C56, C71). C81_case instantiates C81_demo with the numbers of the program: eleven frames, a displacement of 62.5 m from Monterey."
  },
  {
   "property": "C82",
   "status": "partial",
   "theorems": [
    "C82_writes",
    "C82_covers",
    "C82_parse_refuted",
    "C82_createPdu_refuted",
    "C82_numbers_refuted"
   ],
   "note": "Writing is proved for all lists of objects. Reading back and lists of numbers are refuted: for every object with a non-empty list, not for one witness. IntercomControlPdu cannot be read at all (C23, C39)."
  },
  {
   "property": "C83",
   "status": "proved",
   "theorems": [
    "C83_conformal",
    "C83_conformal_wide",
    "C83_speed",
    "C83_speed_wide",
    "C83_meridian",
    "C83_equator"
   ],
   "note": "Over the reals; C79 bounds what rounding adds. Points on zone boundaries are excluded because the coordinates jump there."
  },
  {
   "property": "C84",
   "status": "proved",
   "theorems": [
    "C84_distinct",
    "C84_number",
    "C84_east"
   ],
   "note": "Over the reals."
  },
  {
   "property": "C85",
   "status": "proved",
   "theorems": [
    "C85_accuracy"
   ],
   "note": "The metre-sized bounds come from the tolerance at which ecef2lla stops, not from rounding (C71, C79). Positions whose nearest points (0.00065 degrees in latitude, 1e-12 in longitude) lie in another zone are excluded."
  },
  {
   "property": "C86",
   "status": "proved",
   "theorems": [
    "C86_linear",
    "C86_parse",
    "C86_memory",
    "C87_linear"
   ],
   "note": "A step is an expression evaluated, a statement executed or a loop round begun, plus bytes read and objects, attributes and entries created; the counting interpreter is proved to be the interpreter of Interp.v with a counter (run_erase, create_erase). Integer arithmetic counts as one step. Proved by a syntactic check of every function that decoding can reach (every loop must read at least one byte per round), run on the translated program, whose soundness is proved for every program."
  },
  {
   "property": "C87",
   "status": "proved",
   "theorems": [
    "C87_createPdu",
    "C87_limit",
    "C87_parse",
    "C87_linear"
   ],
   "note": "Calls counted are calls of the repository's functions, methods and constructors; struct and io calls are primitives. Proved by ranking the classes by what their objects hold, a syntactic check of that ranking run on the translated program, and a soundness theorem for every program that passes the check. C87_linear makes the constant of C86 independent of the limit. The setting is objects that the client made with a constructor call without arguments and has not altered since, with anything else in memory; an object whose attributes the client replaced by a cyclic structure is outside it."
  },
  {
   "property": "C88",
   "status": "proved",
   "theorems": [
    "C88_users",
    "C88_others",
    "C88_decode"
   ],
   "note": "Proved by a relational (renaming) invariant for every program without shared mutable parameter defaults, which the translated code is checked to be; C88_shared_default shows that the statement fails for a program that has one. Statements are atomic here; a statement that raises leaves the variables as before it."
  },
  {
   "property": "C89",
   "status": "proved",
   "theorems": [
    "C89_threads",
    "C89_finishes",
    "C89_schedules"
   ],
   "note": "A second interpreter (Threads.v) yields the tree of single operations of a thread and is proved equal to Interp.v when not interrupted; a relational invariant over schedules gives the rest. Operations are those CPython does not interrupt (one attribute access, one object creation, one call of a builtin or C function); a for loop takes the elements of its list when it starts. C89_race shows that the statement fails for a program with a shared default."
  },
  {
   "property": "C90",
   "status": "proved",
   "theorems": [
    "C90_readers",
    "C90_finishes",
    "C90_unchanged",
    "C90_harmless",
    "C90_send"
   ],
   "note": "Operations as in C89. C90_torn shows the limit: when a thread changes the PDU while another sends it, a datagram that mixes old and new values goes out."
  },
  {
   "property": "C91",
   "status": "proved",
   "theorems": [
    "C91_serialize",
    "C91_limit",
    "C91_cycle"
   ],
   "note": "For the classes with a layout (Classes.v lists those without). Calls counted are calls of the repository's functions, methods and constructors."
  },
  {
   "property": "C92",
   "status": "proved",
   "theorems": [
    "C92_routes"
   ],
   "note": "Positions whose zone changes within 0.00066 degrees of latitude or 1e-11 degrees of longitude are excluded: there the two ways may choose different zones."
  },
  {
   "property": "C93",
   "status": "proved",
   "theorems": [
    "C93_series",
    "C93_apart",
    "C93_goes_through",
    "C93_order",
    "C93_last"
   ],
   "note": "Attributes that follow a list or a string of variable length in the datagram have no fixed offset and are left to C63, one assignment at a time."
  },
  {
   "property": "C94",
   "status": "proved",
   "theorems": [
    "C94_rewrite",
    "C94_rest",
    "C94_remove",
    "C94_appends",
    "C94_new",
    "C94_assign_object",
    "C94_assign_new",
    "C94_read_modify_write",
    "C94_goes_through"
   ],
   "note": "Python's list operations other than append and indexing are not used by the package; a change in place is modelled as the list object getting new elements (set_elements). Several appends are run by the interpreter (extend)."
  },
  {
   "property": "C95",
   "status": "proved",
   "theorems": [
    "C95_whole",
    "C95_independent",
    "C95_separate",
    "C95_new",
    "C10_covers"
   ],
   "note": "The classes are those C10_covers says have a layout. By induction over the operations. Constructors without arguments (four classes whose new objects have an attribute without a wire value excepted: AttachedParts, Environment, EnvironmentGeneral, SeparationVP); an operation that raises is covered for serialize only."
  },
  {
   "property": "C96",
   "status": "proved",
   "theorems": [
    "C96_replace",
    "C96_covers",
    "C96_attributes",
    "C96_no_others",
    "C96_goes_through"
   ],
   "note": "C96_covers: every record attribute of each of the 159 classes with a layout; C96_attributes lists them (204 in 86 classes). serialize does not write AttachedParts.attachedPartType and SeparationVP.stationLocation as records. An object of another class, or one that shares parts with o, is outside the theorem."
  },
  {
   "property": "C97",
   "status": "proved",
   "theorems": [
    "C97_apart",
    "C97_copy",
    "C97_shared"
   ],
   "note": "C97_shared states the sharing that a user may not expect: copying a record copies a reference."
  },
  {
   "property": "C98",
   "status": "proved",
   "theorems": [
    "C98_copies",
    "C98_answer"
   ],
   "note": "The objects share the records afterwards (C97_shared). Using one record of p for two attributes of o is outside the theorem."
  },
  {
   "property": "C99",
   "status": "proved",
   "theorems": [
    "C99_within",
    "C99_linked_refuted"
   ],
   "note": "C99_linked_refuted: a received Entity State PDU, alternativeEntityType = entityType, then alternativeEntityType.country = 7 also changes entityType."
  }
 ]
}
