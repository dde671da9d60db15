#!/usr/bin/env python3
"""Write MANIFEST.json; checks that every theorem named exists in rocq/theories."""
import json, re, pathlib
root = pathlib.Path(__file__).resolve().parent.parent
C = []
def claim(p, status, thms, note): C.append(dict(property=p, status=status, theorems=thms.split(), note=note))

claim("C01", "proved", "C01_int_round_trip", "all integer writer/reader pairs except write_uint64/read_uint64, which is C04")
claim("C02", "proved", "C02_big_endian", "")
claim("C03", "proved", "C03_out_of_range", "")
claim("C04", "partial", "C04_uint64_exact C04_uint64_inverse_partial C04_uint64_inverse_refuted", "read_uint64 reads a signed integer: inverse exactly below 2^63, refuted from there on")
claim("C05", "partial", "C05_char_round_trip C05_char_too_large C05_char8_exact C05_char8_inverse_refuted", "char proved; char8 never reads back (writes 1 byte, reads 2): refuted, with its exact behaviour")
claim("C06", "proved", "C06_float64 C06_float32", "")
claim("C08", "proved", "C08_utf_round_trip C08_utf_too_long", "")
claim("C09", "proved", "C09_fixed_reads", "")
claim("C10", "proved", "C10_round_trip C10_covers C10_others", "every class with a wire layout (layout c = Some f); C10_covers shows that these are all the classes with a serialize method but the 33 listed in PropScope.others")
claim("C11", "proved", "C11_factory_round_trip", "every PDU class the factory maps to itself and that has a wire layout")
claim("C12", "partial", "C12_reencode C12_covers C12_created C12_length C12_stable C12_signalling_nan_refuted", "identity on the bytes for every class whose layout ignores no bits, on contents without float32 NaN (also through createPdu); refuted for signalling float32 NaNs; same length and idempotent for every layout")
claim("C13", "proved", "C13_total C13_covers", "every layout without bit fields and undefined names")
claim("C14", "proved", "C14_truncated", "")
claim("C15", "proved", "C15_trailing", "")
claim("C16", "proved", "C16_unambiguous", "")
claim("C17", "proved", "C17_size C17_fixed_sizes C17_entity_state", "")
claim("C18", "proved", "C18_counts C18_covers", "")
claim("C19", "proved", "C19_header C19_header_special C19_covers", "every PDU class: C19_header for the classes with a fixed layout, C19_header_special for the other four")
claim("C20", "partial", "C20_length_partial C20_length_refuted", "the length field is whatever the client stored; refuted for the real size")
claim("C21", "proved", "C21_dispatch C21_third_byte", "")
claim("C22", "partial", "C22_own_type_partial C22_own_type_refuted", "holds for every PDU class but five; refuted for each of the five")
claim("C23", "partial", "C23_safe_partial C23_safe_refuted C23_exact", "no other exception exactly for the types outside the list; refuted for each type in the list")
claim("C24", "proved", "C24_isolated C24_disjoint", "")
claim("C25", "proved", "C25_serialize_pure C25_size_pure C25_attribute_pure C25_twice", "every object, also ill-formed ones; no object is created or changed")
claim("C26", "proved", "C26_append_only C26_failure_prefix", "append-only for every object graph; the prefix statement for classes with a wire layout")
claim("C27", "partial", "C27_reparse C27_covers C27_replaces_partial C27_replaces_refuted", "exact effect of parsing into a used object (lists are extended); replacement holds for the 127 classes without lists and is refuted with lists")
claim("C28", "partial", "C28_defaults_partial C28_defaults_refuted", "169 of 192 classes; refuted for each of the other 23, with the exception raised")
claim("C29", "proved", "C29_sequence C29_getPdu_position C29_getPdu_rewinds", "")
claim("C33", "proved", "C33_accepted C33_rejected C33_write C33_read C33_short C33_round_trip", "about the general bitfield factory (Bitfield.v), any field list")
claim("C34", "proved", "C34_spread_spectrum C34_net_id C34_fire_flags C34_padding_refuted", "all flags round-trip; the padding bits do not (refuted separately)")
claim("C35", "proved", "C35_round_trip C35_parse", "")
claim("C36", "proved", "C36_round_trip C36_too_long", "payload held as a list of ints")
claim("C37", "proved", "C37_setString C37_charactersString C37_round_trip C37_not_ascii", "")
claim("C39", "partial", "C39_exact C39_round_trip_partial C39_round_trip_refuted", "the code writes len(data) and reads length-6: refuted for every non-empty data, proved for empty data, exact wire behaviour proved")

claim("C30","partial","C30_announced_partial C30_raw_partial C30_standard_variable_refuted C30_unknown_refuted","Proved for the 16 fixed-layout classes and the raw-data records with a marshalledSize method; refuted, for every instance, for the four registered standard variable records (the serialised bytes exceed the announced size by a constant) and for records of unregistered type.")
claim("C31","partial","C31_standard_layout_partial C31_record_refuted C31_unregistered_refuted C31_pdu_refuted","The code violates the property: C31_record_refuted shows that no record of the four registered classes, whatever its contents, is read back by parseStandardVariableRecord; C31_unregistered_refuted that unregistered types raise TypeError; C31_pdu_refuted gives a PDU. What does hold is that records in the standard's single-header layout are read.")
claim("C32","proved","C32_registered C32_registered_types C32_unregistered C32_value_error","")
claim("C40","proved","C40_rotation","over exact real numbers")
claim("C41","proved","C41_zero_time","over exact real numbers")
claim("C42","proved","C42_fpw C42_fvw C42_rpw C42_rvw C42_rotating C42_no_turn","over exact real numbers")
claim("C43","proved","C43_fixed C43_rotating C43_aligned","over exact real numbers")
claim("C44","proved","C44_total C44_kinematics C44_gimbal","over exact real numbers")
claim("C45","proved","C45_angles C45_metric C45_reference","over exact real numbers")
claim("C46","proved","C46_matrix C46_inverse C46_isometry C46_together C46_centre","over exact real numbers")
claim("C47","proved","C47_rodrigues C47_compose C47_rotation C47_axes","over exact real numbers")
claim("C48","proved","C48_surface C48_altitude C48_fixed_point C48_equator C48_poles","over exact real numbers")
claim("C52","proved","C52_angular_velocity","over exact real numbers")

claim("C49","partial","C49_zone_partial C49_boundaries C49_exceptional C49_zone_refuted","over exact real numbers; proved for -180 <= lon < 180; at longitude 180 the code yields zone 61 (refuted there)")
claim("C50","proved","C50_bands C50_outside C50_letters C50_monotone C50_no_i_o C50_band_x_refuted","over exact real numbers; C50_band_x_refuted shows the deviation from the standard for latitudes 80..84")
claim("C51","proved","C51_llarpy2ecef C51_ecef2llarpy C51_no_position C51_round_trip","over exact real numbers; holds at gimbal lock too")
claim("C53","proved","C53_ned2pae C53_ecef2pae C53_vertical","over exact real numbers")
claim("C54","proved","C54_central C54_altitude C54_mirror C54_hemispheres_refuted","over exact real numbers; C54_hemispheres_refuted shows that no false northing is applied")
claim("C55","proved","C55_range C55_monotone C55_equator","over exact real numbers")
claim("C57","proved","C57_gcc","over exact real numbers; the origin string is modelled as already split and converted")
claim("C56","partial","C56_terminates_partial C56_always_terminates_partial C56_converges_partial C56_near_surface_partial C56_domain_refuted C56_accuracy_refuted","over exact real numbers. Termination for every tolerance and geometric convergence for positions at least half an Earth radius from the centre with |z| <= 60000 km; within 150 km of the ellipsoid six iterations, 0.00065 degrees and 69 m always suffice. For |z| >= 78000 km off the axis the code raises a math domain error (refuted), and the tolerance does not bound the error (refuted by a position where the loop stalls). Positions near the centre of the Earth and 60000 km < |z| < 78000 km are not covered")
claim("C58","proved","C58_coordinates_exist C58_coordinates_unique","over exact real numbers")
claim("C07","proved","C07_narrowing C07_unique","values of bit patterns compared as integers; no axioms")

claim("C38","partial","C38_round_trip_partial C38_unknown_antenna_refuted C38_frequency_refuted C38_generic_radio_refuted C38_truncated_refuted","Round trip for every Transmitter PDU with no variable transmitter parameters (with them, C62_transmitter_round_trip_refuted); the refuted theorems show what is lost outside the conditions.")
claim("C59","partial","C59_offsets_partial C59_read_partial C59_receiver_refuted C59_receiver_read_refuted C59_event_report_refuted C59_transmitter C59_aggregate C59_aggregate_read C59_aggregate_swapped C59_aggregate_refuted C59_directed_energy C59_entity_damage_refuted C59_record_query_refuted C59_event_report_every_refuted","Proved for the 47 classes of the table std, what the Transmitter PDU and the Directed Energy Fire PDU write and the Aggregate State PDU (center of mass and velocity excepted: they have each other's type); ReceiverPdu, EventReportReliablePdu, RecordQueryReliablePdu and EntityDamageStatusPdu do not follow the standard (refuted for every instance; Event Report-R for every event type but 0); IntercomControl and the PDUs that cannot be constructed are not tabulated.")
claim("C60","partial","C60_declared_partial C60_read_partial C60_covers C60_declared_refuted C60_rejected_refuted C60_war_pdus C60_aggregate C60_force_refuted C60_transmitter C60_standard_variable C60_silent_refuted","Proved for the 936 declared attributes of the 180 classes with a layout, except the 52 listed, which are written in another type, and BeamStatus.beamState, and for the 78 declared attributes of the eight other PDUs and standard variable records, except AggregateStatePdu.forceID; refuted for every SilentAggregateSystem; the abstract StandardVariableRecord has no instances of its own.")
claim("C61","partial","C61_arguments_partial C61_transmitter C61_beam C61_lost_refuted","Proved for 760 of the 780 parameters of 175 constructors and, with the exact conversion of one argument, for TransmitterPdu (its list is copied) and BeamStatus (its last bit is kept). Partial because the code drops the 20 parameters of the list lost or stores them under another name (refuted for each).")
claim("C62","partial","C62_entity_damage_read C62_directed_energy_read C62_transmitter_read C62_entity_damage_rejects C62_directed_energy_rejects C62_transmitter_rejects C62_entity_damage_writes C62_directed_energy_writes C62_round_trip_refuted C62_transmitter_round_trip_refuted","Reading, rejecting and writing are proved for all lists; the round trip is refuted for every PDU with at least one record, because records are written with a longer header and padding than is read.")
claim("C63","proved","C63_assign C63_covers C63_read_modify_write C63_new C63_shared_refuted","C63_covers: of the 972 scalar attributes of the layouts only VariableDatum.variableDatumLength is excepted; C63_shared_refuted shows that the condition on shared objects is needed; AttachedParts, Environment, EnvironmentGeneral and SeparationVP have no serializable contents when new")
claim("C64","partial","C64_read C64_write C64_round_trip C64_silent_refuted C64_silent_never","Proved except that a PDU with silent aggregates cannot be written (refuted for all of them).")
claim("C65","proved","C65_accepts C65_comes_back C65_created C65_same C65_covers C65_cut_refuted","C65_cut_refuted: an entity marking of twelve characters is accepted and comes back with eleven, so the exception for the cutting classes is needed.")
claim("C66","proved","C66_fpw C66_fvw C66_rpw C66_rvw C66_micrometre C66_drift","DeadReckoning64.v computes with Flocq's binary64 in the order of the Python code; the exact algorithm of DeadReckoning.v is the specification. ** 2 is assumed accurate to one unit in the last place (record accurate; C66_case exhibits a platform).")
claim("C67","proved","C67_still C67_infinite C67_infinite_refuted","C67_infinite_refuted: a wire velocity with the bit pattern 7f800000 turns the position into NaN at dt = 0, so finiteness is needed.")
claim("C68","proved","C68_matrix C68_fpb C68_fvb C68_turn C68_gimbal C68_rotating","For |cos pitch| within a tenth of the threshold 1e-6 the floating-point test may take either branch; the theorems leave that band out.")
claim("C69","proved","C69_attributes C69_state C69_fvw C69_fpw C69_millimetre","The rotating and body-frame algorithms are in C78.")
claim("C70","proved","C70_ecef C70_near_earth C70_gcc C70_distance","")
claim("C71","proved","C71_terminates C71_near_surface C71_latitude C71_axis_refuted","C71_axis_refuted shows why the bound on the ratio is needed: 2^-600 m from the axis the code raises ZeroDivisionError although the position is off the axis.")
claim("C72","proved","C72_stable C72_round_trip","")
claim("C73","proved","C73_distance C73_round_trip C73_directions","")
claim("C74","proved","C74_llarpy2ecef C74_ecef2llarpy C74_located","")
claim("C75","proved","C75_example","")
claim("C76","partial","C76_other C76_labels_refuted C76_cut C76_unknown C76_centre","The code violates the property: labels exchanged, and four kinds of datagrams end the program. Proved: the positive part for other PDUs, and the violations.")
claim("C77","proved","C77_append C77_covers C77_covers_all C77_new C77_apart","")
claim("C78","proved","C78_body C78_turn","")
claim("C79","proved","C79_zone C79_coordinates C79_not_finite C79_zone_refuted","C79_zone_refuted shows that the exception next to 180 degrees is real. ecef2utm is modelled (Utm64.v) as the composition with ecef2lla; C85 bounds its error.")
claim("C80","proved","C80_ned2pae C80_locates C80_ecef2pae C80_bearings C80_gravity","")
claim("C81","proved","C81_map C81_demo","The error in latitude is that of ecef2lla's stopping rule (C56, C71). C81_case instantiates C81_demo with the numbers of the program: eleven frames, a displacement of 62.5 m from Monterey.")
claim("C82","partial","C82_writes C82_covers C82_parse_refuted C82_createPdu_refuted C82_numbers_refuted","Writing is proved for all lists of objects. Reading back and lists of numbers are refuted: for every object with a non-empty list, not for one witness. IntercomControlPdu cannot be read at all (C23, C39).")
claim("C83","proved","C83_conformal C83_conformal_wide C83_speed C83_speed_wide C83_meridian C83_equator","Over the reals; C79 bounds what rounding adds. Points on zone boundaries are excluded because the coordinates jump there.")
claim("C84","proved","C84_distinct C84_number C84_east","Over the reals.")
claim("C85","proved","C85_accuracy","The metre-sized bounds come from the tolerance at which ecef2lla stops, not from rounding (C71, C79). Positions whose nearest points (0.00065 degrees in latitude, 1e-12 in longitude) lie in another zone are excluded.")
claim("C86","proved","C86_linear C86_parse C86_memory C87_linear","A step is an expression evaluated, a statement executed or a loop round begun, plus bytes read and objects, attributes and entries created; the counting interpreter is proved to be the interpreter of Interp.v with a counter (run_erase, create_erase). Integer arithmetic counts as one step. Proved by a syntactic check of every function that decoding can reach (every loop must read at least one byte per round), run on the translated program, whose soundness is proved for every program.")
claim("C87","proved","C87_createPdu C87_limit C87_parse C87_linear","Calls counted are calls of the repository's functions, methods and constructors; struct and io calls are primitives. Proved by ranking the classes by what their objects hold, a syntactic check of that ranking run on the translated program, and a soundness theorem for every program that passes the check. C87_linear makes the constant of C86 independent of the limit. The setting is objects that the client made with a constructor call without arguments and has not altered since, with anything else in memory; an object whose attributes the client replaced by a cyclic structure is outside it.")
claim("C88","proved","C88_users C88_others C88_decode","Proved by a relational (renaming) invariant for every program without shared mutable parameter defaults, which the translated code is checked to be; C88_shared_default shows that the statement fails for a program that has one. Statements are atomic here; a statement that raises leaves the variables as before it.")
claim("C89","proved","C89_threads C89_finishes C89_schedules","A second interpreter (Threads.v) yields the tree of single operations of a thread and is proved equal to Interp.v when not interrupted; a relational invariant over schedules gives the rest. Operations are those CPython does not interrupt (one attribute access, one object creation, one call of a builtin or C function); a for loop takes the elements of its list when it starts. C89_race shows that the statement fails for a program with a shared default.")
claim("C90","proved","C90_readers C90_finishes C90_unchanged C90_harmless C90_send","Operations as in C89. C90_torn shows the limit: when a thread changes the PDU while another sends it, a datagram that mixes old and new values goes out.")
claim("C91","proved","C91_serialize C91_limit C91_cycle","For the classes with a layout (Classes.v lists those without). Calls counted are calls of the repository's functions, methods and constructors.")
claim("C92","proved","C92_routes","Positions whose zone changes within 0.00066 degrees of latitude or 1e-11 degrees of longitude are excluded: there the two ways may choose different zones.")
claim("C93","proved","C93_series C93_apart C93_goes_through C93_order C93_last","Attributes that follow a list or a string of variable length in the datagram have no fixed offset and are left to C63, one assignment at a time.")
claim("C94","proved","C94_rewrite C94_rest C94_remove C94_appends C94_new C94_assign_object C94_assign_new C94_read_modify_write C94_goes_through","Python's list operations other than append and indexing are not used by the package; a change in place is modelled as the list object getting new elements (set_elements). Several appends are run by the interpreter (extend).")
claim("C95","proved","C95_whole C95_independent C95_separate C95_new C10_covers","The classes are those C10_covers says have a layout. By induction over the operations. Constructors without arguments (four classes whose new objects have an attribute without a wire value excepted: AttachedParts, Environment, EnvironmentGeneral, SeparationVP); an operation that raises is covered for serialize only.")
claim("C96","proved","C96_replace C96_covers C96_attributes C96_no_others C96_goes_through","C96_covers: every record attribute of each of the 159 classes with a layout; C96_attributes lists them (204 in 86 classes). serialize does not write AttachedParts.attachedPartType and SeparationVP.stationLocation as records. An object of another class, or one that shares parts with o, is outside the theorem.")
claim("C97","proved","C97_apart C97_copy C97_shared","C97_shared states the sharing that a user may not expect: copying a record copies a reference.")
claim("C98","proved","C98_copies C98_answer","The objects share the records afterwards (C97_shared). Using one record of p for two attributes of o is outside the theorem.")
claim("C99","proved","C99_within C99_linked_refuted","C99_linked_refuted: a received Entity State PDU, alternativeEntityType = entityType, then alternativeEntityType.country = 7 also changes entityType.")
names = set()
for f in (root / "rocq/theories").glob("*.v"):
    names |= set(re.findall(r"^(?:Theorem|Lemma|Corollary|Proposition|Fact|Remark)\s+([A-Za-z0-9_']+)", f.read_text(), re.M))
props = {json.loads(l)["id"] for l in (root / "properties.jsonl").read_text().splitlines() if l.strip()}
for c in C:
    assert c["property"] in props, c
    for t in c["theorems"]: assert t in names, t
(root / "MANIFEST.json").write_text(json.dumps({"claims": C}, indent=1) + "\n")
print(len(C), "claims; missing", sorted(props - {c["property"] for c in C}))
