{"id": "C01", "title": "Integer stream primitives round-trip", "statement": "For each integer width and signedness offered by both DataOutputStream and DataInputStream, writing any in-range integer and reading it back from the bytes produced returns the same integer, consumes exactly the bytes written and leaves whatever follows them unread.", "quantifier": "every integer in the range of the primitive, every trailing byte string", "why_tests_cant": "2^8..2^64 values per primitive and any trailing data; tests sample a few.", "anchors": ["opendis/stream.py: DataOutputStream.write_byte/.write_unsigned_byte/.write_short/.write_unsigned_short/.write_int/.write_unsigned_int/.write_long and int/uint aliases", "opendis/stream.py: DataInputStream.read_*"]}
{"id": "C02", "title": "Integer writes are big-endian two's complement of the documented width", "statement": "The bytes appended by an integer write are exactly the big-endian (network order) base-256 digits, of the documented width, of the integer modulo 2^width.", "quantifier": "every integer in range, every primitive", "why_tests_cant": "A byte-order or width slip can be invisible on palindromic or small sample values.", "anchors": ["opendis/stream.py: DataOutputStream.write_*"]}
{"id": "C03", "title": "Out-of-range integers are rejected without output", "statement": "Writing an integer outside the range of the primitive raises struct.error and appends nothing to the output; in particular no value is ever silently wrapped or truncated.", "quantifier": "every integer outside the range, every primitive, every prior output", "why_tests_cant": "Infinitely many out-of-range integers.", "anchors": ["opendis/stream.py: DataOutputStream.write_*"]}
{"id": "C04", "title": "64-bit unsigned primitives are inverse of each other", "statement": "Reading with read_uint64 what write_uint64 wrote returns the value written. (The code violates this for values of 2^63 and above, where a negative number comes back.)", "quantifier": "every integer in 0 .. 2^64-1", "why_tests_cant": "2^64 values; the failing half is never sampled by the tests.", "anchors": ["opendis/stream.py: DataOutputStream.write_uint64", "opendis/stream.py: DataInputStream.read_uint64"]}
{"id": "C05", "title": "Character primitives are inverse of each other", "statement": "Reading with read_char what write_char wrote returns the character, and reading with read_char8 what write_char8 wrote returns the character and consumes the bytes written. (The second half is violated: one byte is written and two are read.)", "quantifier": "every character code", "why_tests_cant": "All code points.", "anchors": ["opendis/stream.py: write_char/.write_char8/.read_char/.read_char8"]}
{"id": "C06", "title": "float64 fields survive bit for bit; float32 fields survive when representable", "statement": "A float written as float64 and read back is the same double, bit for bit. A float written as float32 and read back is unchanged whenever it is exactly a (non signalling-NaN) single-precision number.", "quantifier": "every 64-bit pattern; every 32-bit pattern", "why_tests_cant": "2^64 and 2^32 patterns including subnormals, infinities and NaNs.", "anchors": ["opendis/stream.py: write_double/.read_double/.write_float/.read_float/.write_float32/.read_float32"]}
{"id": "C07", "title": "float32 narrowing rounds to nearest-even or raises", "statement": "A finite double written as float32 and read back is the nearest single-precision number, ties to even, unless that rounding overflows, in which case OverflowError is raised and nothing is written.", "quantifier": "every finite double", "why_tests_cant": "2^64 inputs; ties and overflow boundary are measure-zero samples.", "anchors": ["opendis/stream.py: write_float/.write_float32/.read_float/.read_float32"]}
{"id": "C08", "title": "Byte strings round-trip through write_utf and read_utf", "statement": "Any byte string of at most 65535 bytes written with write_utf is returned by read_utf with the trailing data left unread; a longer one raises struct.error.", "quantifier": "every byte string, every trailing byte string", "why_tests_cant": "Unbounded lengths.", "anchors": ["opendis/stream.py: write_utf/.read_utf"]}
{"id": "C09", "title": "Fixed-width reads never succeed on short input", "statement": "A fixed-width read (integer, float, char, boolean) raises struct.error exactly when fewer bytes remain than its width, and on success the value depends only on those bytes.", "quantifier": "every input and position", "why_tests_cant": "All inputs.", "anchors": ["opendis/stream.py: DataInputStream.read_*"]}
{"id": "C10", "title": "Records round-trip", "statement": "For every record class of the wire protocol whose reader and writer agree, serialising any instance whose attributes are in range and parsing the bytes into a fresh instance of the class yields the same value for every attribute carried on the wire, consumes exactly the bytes written and leaves trailing data unread.", "quantifier": "every instance of every listed record class, with every in-range attribute value and every list length; every trailing byte string", "why_tests_cant": "Unbounded values and list lengths; no record but three is round-trip tested.", "anchors": ["opendis/dis7.py: all record classes", "opendis/record/common.py", "opendis/record/radio/__init__.py", "opendis/record/warfare/__init__.py"]}
{"id": "C11", "title": "PDUs round-trip through the factory", "statement": "For every PDU class that the factory table maps from its own type number, serialising any in-range instance and passing the bytes to createPdu returns an instance of the same class with the same value for every attribute carried on the wire (nested records and lists included).", "quantifier": "every instance of every listed PDU class; every trailing byte string", "why_tests_cant": "Unbounded; only SignalPdu has a round-trip test.", "anchors": ["opendis/dis7.py: PDU classes", "opendis/PduFactory.py: createPdu, getPdu, PduTypeDecoders"]}
{"id": "C12", "title": "Decoding then encoding reproduces the datagram", "statement": "If createPdu (or a record's parse) accepts a byte string, re-serialising the object gives back exactly the bytes that were consumed, for every class whose layout has no ignored padding.", "quantifier": "every byte string", "why_tests_cant": "All byte strings; tests use six captured datagrams.", "anchors": ["opendis/PduFactory.py: createPdu", "opendis/dis7.py: parse/serialize methods"]}
{"id": "C13", "title": "Decoding is total up to truncation", "statement": "For the PDU classes listed, parsing an arbitrary byte string either succeeds or raises struct.error, and it raises exactly when the bytes end before the last field announced by the header and count fields.", "quantifier": "every byte string whatsoever", "why_tests_cant": "Adversarial datagrams cannot be enumerated.", "anchors": ["opendis/PduFactory.py: createPdu", "opendis/dis7.py: parse methods"]}
{"id": "C14", "title": "Truncated datagrams are never accepted", "statement": "If parsing succeeds and consumes n bytes, then parsing any strictly shorter prefix of those n bytes raises struct.error; a truncated datagram never yields a PDU.", "quantifier": "every byte string, every cut point", "why_tests_cant": "All cut points of all datagrams.", "anchors": ["opendis/dis7.py: parse methods", "opendis/stream.py: DataInputStream.read_*"]}
{"id": "C15", "title": "Trailing bytes do not influence decoding", "statement": "If parsing a byte string succeeds, parsing the same bytes followed by anything yields the same object and stops at the same place.", "quantifier": "every byte string and every suffix", "why_tests_cant": "All suffixes.", "anchors": ["opendis/dis7.py: parse methods"]}
{"id": "C16", "title": "Serialisation is unambiguous", "statement": "Two in-range instances of the same class that serialise to the same bytes agree on every attribute carried on the wire, and no encoding is a proper prefix of another one's.", "quantifier": "every pair of instances of a class", "why_tests_cant": "Pairs of unbounded objects.", "anchors": ["opendis/dis7.py: serialize methods"]}
{"id": "C17", "title": "Encoded size formula", "statement": "The number of bytes produced by serialize for a class is the fixed part plus, for each list attribute, the sum of its elements' sizes; e.g. an EntityState PDU takes 144 bytes plus 16 per variable parameter, a Fire PDU 96.", "quantifier": "every in-range instance", "why_tests_cant": "Unbounded list lengths.", "anchors": ["opendis/dis7.py: serialize methods"]}
{"id": "C18", "title": "Count fields announce the number of records that follow", "statement": "Every count field written by serialize equals the length of the list it announces, and a list too long for its count field makes serialize raise struct.error instead of emitting a wrong count.", "quantifier": "every list length", "why_tests_cant": "Unbounded list lengths; wrap-around only shows beyond 255 or 65535 elements.", "anchors": ["opendis/dis7.py: EntityStatePdu, EntityStateUpdatePdu, DetonationPdu, ServiceRequestPdu, ElectromagneticEmissionsPdu, MinefieldStatePdu, ArealObjectStatePdu, DatumSpecification ... numberOf* properties"]}
{"id": "C19", "title": "Header fields sit at their fixed offsets", "statement": "In the bytes produced by any PDU's serialize, byte 0 is protocolVersion, 1 exerciseID, 2 pduType, 3 protocolFamily, 4-7 timestamp, 8-9 length, 10 pduStatus, 11 padding.", "quantifier": "every PDU instance of every class", "why_tests_cant": "Receivers dispatch on offset 2 for every possible PDU.", "anchors": ["opendis/dis7.py: PduSuperclass.serialize, Pdu.serialize", "opendis/PduFactory.py: getPdu"]}
{"id": "C20", "title": "The header length field announces the size of the PDU", "statement": "The length field in the serialised header equals the number of bytes serialised. (The code never sets it: the field is whatever the caller assigned, 0 by default.)", "quantifier": "every PDU instance", "why_tests_cant": "For all PDUs.", "anchors": ["opendis/dis7.py: PduSuperclass.__init__, PduSuperclass.serialize"]}
{"id": "C21", "title": "Factory dispatch", "statement": "createPdu looks only at byte 2 to choose a class: if the value is a key of the table the result, if any, is an instance of exactly the class in the table; for any other value (including 128..255) it returns None without raising; with fewer than three bytes it raises struct.error.", "quantifier": "every byte string", "why_tests_cant": "All byte strings.", "anchors": ["opendis/PduFactory.py: getPdu, createPdu, PduTypeDecoders"]}
{"id": "C22", "title": "Every PDU class is decoded as itself", "statement": "For every concrete PDU class, the factory maps the type number the class writes to that same class. (Violated by ResupplyOfferPdu, StartResumeReliablePdu, SeesPdu, DirectedEnergyFirePdu and FastEntityStatePdu.)", "quantifier": "every PDU class and instance", "why_tests_cant": "A table-wide statement about every instance.", "anchors": ["opendis/PduFactory.py: PduTypeDecoders", "opendis/dis7.py: pduType class attributes"]}
{"id": "C23", "title": "No datagram crashes the receiver with an unexpected error", "statement": "createPdu on any byte string returns a PDU, returns None or raises struct.error; no other exception type escapes. (Violated for several PDU types: undefined names, missing attributes, wrong calls; the safe type numbers are characterised exactly.)", "quantifier": "every byte string", "why_tests_cant": "Adversarial inputs cannot be enumerated.", "anchors": ["opendis/PduFactory.py: createPdu", "opendis/dis7.py: UaPdu, IntercomSignalPdu, IntercomControlPdu, ResupplyReceivedPdu, MinefieldResponseNackPdu, LinearObjectStatePdu, RecordQueryReliablePdu, AggregateStatePdu, TransmitterPdu, EntityDamageStatusPdu"]}
{"id": "C24", "title": "Decoded PDUs share no state", "statement": "Decoding a datagram modifies no existing object and everything reachable from the result is newly created: PDUs decoded earlier, and later ones, never share mutable parts.", "quantifier": "every prior heap (history of decoded PDUs) and every byte string", "why_tests_cant": "Any history of decodes; aliasing bugs only show after mutation of a second object.", "anchors": ["opendis/PduFactory.py: createPdu", "opendis/dis7.py: __init__ and parse methods of all classes"]}
{"id": "C25", "title": "Serialising does not change the object", "statement": "serialize, marshalledSize and the count/length properties modify no object at all, whatever the object graph; serialising twice appends the same bytes twice.", "quantifier": "every object graph, every class, success or exception", "why_tests_cant": "All object graphs.", "anchors": ["opendis/dis7.py: serialize methods", "opendis/record/radio/__init__.py", "opendis/record/warfare/__init__.py", "opendis/record/common.py"]}
{"id": "C26", "title": "Output is append-only", "statement": "Whatever happens (success or exception) serialize only appends to the output stream, and on failure what was appended is a prefix of the bytes that the fields before the failing one encode to.", "quantifier": "every object graph, every prior output, every failure point", "why_tests_cant": "All failure points.", "anchors": ["opendis/stream.py: DataOutputStream", "opendis/dis7.py: serialize methods"]}
{"id": "C27", "title": "Parsing replaces the previous contents", "statement": "Parsing into an already used instance gives the same object as parsing into a fresh one. (Holds for classes without lists; violated by every class with a list attribute, which accumulates.)", "quantifier": "every prior state of the instance and every byte string", "why_tests_cant": "All histories of an instance.", "anchors": ["opendis/dis7.py: parse methods that append"]}
{"id": "C28", "title": "Every PDU can be built with defaults and serialised", "statement": "Constructing a class with no arguments and serialising the result succeeds. (The classes for which it fails are listed, with the exception raised.)", "quantifier": "every concrete class of the library, every prior heap", "why_tests_cant": "A statement about all classes and any heap; no test constructs most of them.", "anchors": ["opendis/dis7.py: __init__ and serialize of every class"]}
{"id": "C29", "title": "A stream of PDUs decodes to the same sequence", "statement": "Serialising a list of records/PDUs one after another and parsing them in the same order with their classes returns the list; but repeated getPdu on one stream does not advance (it rewinds to offset 0).", "quantifier": "every list of in-range instances", "why_tests_cant": "Unbounded lists.", "anchors": ["opendis/PduFactory.py: getPdu", "opendis/dis7.py: serialize/parse methods"]}
{"id": "C30", "title": "Announced size equals serialised size", "statement": "marshalledSize() of a record equals the number of bytes its serialize writes. (Violated by all four registered standard variable records and by UnknownStandardVariableRecord.)", "quantifier": "every instance of every record class with a marshalledSize method", "why_tests_cant": "Variable-size records.", "anchors": ["opendis/record/base.py: StandardVariableRecord.serialize", "opendis/record/warfare/__init__.py", "opendis/record/radio/__init__.py", "opendis/record/__init__.py"]}
{"id": "C31", "title": "Standard variable records round-trip inside their PDU", "statement": "A record written in an EntityDamageStatus, DirectedEnergyFire or Transmitter PDU is read back by the PDU's parse. (Violated: the header is written twice or with a 32-bit length and read once with a 16-bit length.)", "quantifier": "every standard variable record instance", "why_tests_cant": "For all records.", "anchors": ["opendis/dis7.py: parseStandardVariableRecord, EntityDamageStatusPdu, TransmitterPdu", "opendis/record/base.py", "opendis/record/warfare/__init__.py", "opendis/record/radio/__init__.py", "opendis/record/__init__.py"]}
{"id": "C32", "title": "Registry lookup of standard variable records", "statement": "getStandardVariableClass returns the registered class for the four registered types, a class carrying the requested type for any other non-negative integer, raises ValueError for negative or non-integer types and TypeError exactly when the class found is not a subclass of the expected one.", "quantifier": "every record type value and expected class", "why_tests_cant": "All integers.", "anchors": ["opendis/record/__init__.py: getStandardVariableClass"]}
{"id": "C33", "title": "Bitfields pack most significant bit first and unpack exactly", "statement": "For every list of fields with widths 1..32 summing to 8, 16 or 32, the factory accepts it; packing values and unpacking the bytes returns each value modulo 2^width, the first field occupies the most significant bits, and packing the unpacked values returns the same bytes. Every other total or width is rejected.", "quantifier": "every field list, every value tuple, every byte string of the right length", "why_tests_cant": "All field lists and values.", "anchors": ["opendis/record/bitfield.py: bitfield, _field"]}
{"id": "C34", "title": "Flag records round-trip", "statement": "SpreadSpectrum, NetId and DEFireFlags return the same flags after serialise/parse for every in-range value; over-wide values never spill into neighbouring fields. (The padding bits of SpreadSpectrum are not read back, those of DEFireFlags not written.)", "quantifier": "every combination of flag values", "why_tests_cant": "Interaction of bit positions.", "anchors": ["opendis/record/radio/__init__.py: SpreadSpectrum, NetId", "opendis/record/warfare/enums.py: DEFireFlags"]}
{"id": "C35", "title": "Variable datums are padded to 64-bit boundaries and round-trip", "statement": "A VariableDatum whose variableDatumLength is 8 times the number of its bytes serialises to 8 + ceil(n/8)*8 bytes, padding zero, and parses back to the same bytes; whatever the announced bit length, parse consumes a whole number of 64-bit words when the length is a multiple of 8.", "quantifier": "every byte list and bit length", "why_tests_cant": "All lengths modulo 64.", "anchors": ["opendis/dis7.py: VariableDatum"]}
{"id": "C36", "title": "Signal payload round-trips", "statement": "A SignalPdu carrying any payload of at most 8191 bytes is returned unchanged by createPdu; a longer one makes serialize raise struct.error.", "quantifier": "every byte string", "why_tests_cant": "All lengths around the 16-bit bit-count limit.", "anchors": ["opendis/dis7.py: SignalPdu"]}
{"id": "C37", "title": "Entity markings", "statement": "setString(s) stores the first 11 characters padded with zeros; for ASCII strings without NUL, charactersString() returns them, also after a serialise/parse round trip; a character above 127 makes serialize raise struct.error.", "quantifier": "every string", "why_tests_cant": "All strings.", "anchors": ["opendis/dis7.py: EntityMarking"]}
{"id": "C38", "title": "Transmitter PDU round-trip", "statement": "A TransmitterPdu with frequency below 2^63, whose modulation parameters agree with its modulation type, with a beam antenna pattern or none and no variable transmitter parameters is returned unchanged by createPdu. (Violated outside these conditions, e.g. an UnknownAntennaPattern loses its last six bytes.)", "quantifier": "every such instance", "why_tests_cant": "All combinations of dependent length and type fields.", "anchors": ["opendis/dis7.py: TransmitterPdu", "opendis/record/radio/__init__.py"]}
{"id": "C39", "title": "IFF data records round-trip", "statement": "An IFFData record read back by parse has the bytes that were serialised. (Violated: serialize writes the number of data bytes as record length, parse subtracts 6.)", "quantifier": "every data list", "why_tests_cant": "All lengths.", "anchors": ["opendis/dis7.py: IFFData, IFFFundamentalParameterData"]}
{"id": "C40", "title": "Rotation matrices are rotations", "statement": "get_rotation_matrix returns, for every triple of Euler angles, an orthogonal matrix of determinant 1 equal to Rz(psi) Ry(theta) Rx(phi).", "quantifier": "all real angles", "why_tests_cant": "Continuum of inputs.", "anchors": ["opendis/DeadReckoning.py: get_rotation_matrix"]}
{"id": "C41", "title": "Zero elapsed time leaves position and orientation unchanged", "statement": "Every dead reckoning algorithm with dt = 0 returns the initial position and orientation.", "quantifier": "all positions, velocities, accelerations, orientations and angular velocities", "why_tests_cant": "Continuum of inputs.", "anchors": ["opendis/DeadReckoning.py: drm_*"]}
{"id": "C42", "title": "World-frame linear extrapolation composes", "statement": "Extrapolating by t1 and then t2 equals extrapolating by t1+t2 for FPW and RPW positions, and for FVW/RVW when the velocity is advanced by a*t1 in between; orientation is unchanged by the fixed (F) algorithms.", "quantifier": "all real t1, t2 and vectors", "why_tests_cant": "Continuum of inputs.", "anchors": ["opendis/DeadReckoning.py: drm_fpw, drm_rpw, drm_fvw, drm_rvw"]}
{"id": "C43", "title": "Body-frame extrapolation moves by the rotated displacement", "statement": "The displacement computed by FPB/RPB/FVB/RVB is the rotation of the body displacement: its length equals that of v*dt (+ a*dt^2/2), and with zero orientation they coincide with the world-frame algorithms.", "quantifier": "all real inputs", "why_tests_cant": "Continuum of inputs.", "anchors": ["opendis/DeadReckoning.py: drm_fpb, drm_rpb, drm_fvb, drm_rvb"]}
{"id": "C44", "title": "Euler rate integration is guarded at gimbal lock", "statement": "drm_rpw never divides by zero: the branch that divides by cos(theta) is only taken when |cos(theta)| >= 1e-6, and there the computed rates invert the kinematic equation mapping Euler rates to body rates.", "quantifier": "all real orientations and angular velocities", "why_tests_cant": "Singular set is measure zero.", "anchors": ["opendis/DeadReckoning.py: drm_rpw"]}
{"id": "C45", "title": "Degree/radian conversions and Euclidean distance", "statement": "deg2rad and rad2deg are inverse of each other; euclideanDistance is a metric (non-negative, zero only on equal points, symmetric, triangle inequality) on vectors of equal length.", "quantifier": "all reals; all vectors", "why_tests_cant": "Continuum of inputs.", "anchors": ["opendis/RangeCoordinates.py: deg2rad, rad2deg, euclideanDistance"]}
{"id": "C46", "title": "NED transforms are isometries and inverse of each other", "statement": "The ECEF-to-NED matrix is orthogonal with determinant 1 for every latitude and longitude; ned2ecef inverts ecef2ned for every origin other than the earth's centre, and distances are preserved.", "quantifier": "all real points and origins", "why_tests_cant": "Continuum of inputs.", "anchors": ["opendis/RangeCoordinates.py: GPS.ecef2ned, GPS.ned2ecef, GPS.ecefvec2nedvec"]}
{"id": "C47", "title": "Axis-angle rotation matrices", "statement": "rotate_3x3(theta, n) is, for every unit vector n, an orthogonal matrix of determinant 1 that fixes n; rotations about the same axis compose by adding angles.", "quantifier": "all angles and unit vectors", "why_tests_cant": "Continuum of inputs.", "anchors": ["opendis/RangeCoordinates.py: GPS.rotate_3x3"]}
{"id": "C48", "title": "Geodetic to ECEF conversion is geometrically correct", "statement": "lla2ecef with altitude 0 yields a point of the WGS84 ellipsoid; altitude moves along the unit surface normal by exactly that length; the true latitude is a fixed point of the loop body of ecef2lla, so the loop returns it unchanged once reached.", "quantifier": "all latitudes, longitudes and altitudes", "why_tests_cant": "Continuum of inputs.", "anchors": ["opendis/RangeCoordinates.py: GPS.lla2ecef, GPS.ecef2lla"]}
{"id": "C49", "title": "UTM zones", "statement": "For every longitude in [-180, 180) the zone number computed by lla2utm is between 1 and 60 and (outside the Norway/Svalbard exceptions) its central meridian is within 3 degrees; longitude exactly 180 gives zone 61 (violation of the zone range).", "quantifier": "all longitudes and latitudes", "why_tests_cant": "Continuum of inputs.", "anchors": ["opendis/RangeCoordinates.py: GPS.lla2utm, GPS.utmLetterDesignator"]}
{"id": "C50", "title": "UTM latitude bands", "statement": "utmLetterDesignator returns one of the 20 band letters exactly for latitudes in [-80, 80), is monotone in latitude, never returns I or O, and returns Z outside. (Latitudes 80..84, which belong to band X, get Z.)", "quantifier": "all latitudes", "why_tests_cant": "Continuum of inputs.", "anchors": ["opendis/RangeCoordinates.py: GPS.utmLetterDesignator"]}
{"id": "C51", "title": "Attitude conversion angles are consistent", "statement": "llarpy2ecef returns ECEF Euler angles describing the same body axes as the NED roll/pitch/yaw it is given: the rotation built from (psi, theta, phi) maps the reference axes to the same three vectors, away from gimbal lock.", "quantifier": "all attitudes with cos(theta) non zero", "why_tests_cant": "Continuum of inputs.", "anchors": ["opendis/RangeCoordinates.py: GPS.llarpy2ecef, GPS.ecef2llarpy"]}
{"id": "C52", "title": "The angular velocity matrix is the cross product", "statement": "get_angular_velocity_matrix(w) is skew-symmetric and multiplying it with u gives the cross product w x u.", "quantifier": "all real vectors w and u", "why_tests_cant": "Continuum of inputs.", "anchors": ["opendis/DeadReckoning.py: get_angular_velocity_matrix"]}
{"id": "C53", "title": "Range, azimuth and elevation locate the point", "statement": "ned2pae returns the range (Euclidean length), the azimuth in (-180,180] and the elevation in [-90,90] from which the NED vector is recovered exactly; ecef2pae gives the distance between point and origin, and ned2ecef of the recovered vector gives the point back.", "quantifier": "all NED vectors; all points and origins whose position is defined", "why_tests_cant": "Continuum of inputs, including the vertical and the zero vector.", "anchors": ["opendis/RangeCoordinates.py: GPS.ned2pae, GPS.ecef2pae"]}
{"id": "C54", "title": "UTM projection symmetries", "statement": "On the central meridian of its zone a point has easting 500000 and scale factor 0.9996; points symmetric to the central meridian have eastings symmetric to 500000 and the same northing and scale; altitude passes through unchanged. Points mirrored at the equator get opposite northings (the standard's false northing of 10000000 in the southern hemisphere is not applied).", "quantifier": "all latitudes, zones, offsets and altitudes", "why_tests_cant": "Continuum of inputs.", "anchors": ["opendis/RangeCoordinates.py: GPS.lla2utm"]}
{"id": "C55", "title": "Surface gravity", "statement": "WGS84.g0 is defined for every latitude, lies between 9.7803267715 and 9.8322, is symmetric to the equator and grows from the equator to the poles.", "quantifier": "all latitudes", "why_tests_cant": "Continuum of inputs.", "anchors": ["opendis/RangeCoordinates.py: WGS84.g0"]}
{"id": "C57", "title": "Geocentric coordinates relative to an origin", "statement": "lla2gcc without an origin equals lla2ecef; with an origin (lon lat alt) it is the vector from the origin's ECEF point to the point, so the origin itself maps to zero.", "quantifier": "all points and origins", "why_tests_cant": "Continuum of inputs.", "anchors": ["opendis/RangeCoordinates.py: GPS.lla2gcc"]}
{"id": "C56", "title": "ecef2lla terminates and inverts lla2ecef", "statement": "For every ECEF position and positive tolerance the loop of ecef2lla ends after finitely many iterations without an exception, and the latitude and altitude it returns are those of the position, to an accuracy that improves with every iteration and is bounded by the tolerance.", "quantifier": "all positions, all tolerances, any number of iterations", "why_tests_cant": "Termination and convergence of an iteration over a continuum of inputs; the number of iterations depends on the tolerance.", "anchors": ["opendis/RangeCoordinates.py: GPS.ecef2lla"]}
{"id": "C58", "title": "Every position has exactly one latitude, longitude and altitude", "statement": "Every ECEF position off the polar axis and at least 3401 km from the centre is lla2ecef of some latitude in (-90, 90), longitude in (-180, 180] and altitude of at least -3000 km; no two such coordinates give the same position.", "quantifier": "all positions; all pairs of coordinates", "why_tests_cant": "Existence and uniqueness over a continuum.", "anchors": ["opendis/RangeCoordinates.py: GPS.lla2ecef"]}
{"id": "C59", "title": "Fields are where the DIS standard puts them", "statement": "In the bytes that serialize writes for an EntityState, Fire, Detonation, Collision, Designator, Signal, Electromagnetic Emissions, simulation management or other tabulated PDU, each attribute is at the offset and in the type given by the IEEE 1278.1-2012 table for that PDU; counts, fixed arrays and the fields of each element of a record list too. parse takes each attribute from the same place.", "quantifier": "all objects of the tabulated classes that serialize accepts, all lists of all lengths; all inputs that parse accepts", "why_tests_cant": "Round-trip tests cannot see a field that is written and read at the same wrong place; the tests check a few recorded datagrams.", "anchors": ["opendis/dis7.py: EntityStatePdu.serialize, FirePdu.serialize, DetonationPdu.serialize, ReceiverPdu.serialize, EventReportReliablePdu.serialize, and the parse methods"]}
{"id": "C60", "title": "Attributes are written in their declared type", "statement": "An attribute that the source declares as uintN, intN, enumN, structN or floatN is written as a value of exactly that type, serialize accepts every value of that type, and after parse the attribute holds a value of that type.", "quantifier": "all classes, all attributes with a declaration, all values", "why_tests_cant": "The declarations are annotations that nothing checks; a narrower writer only fails for large values.", "anchors": ["opendis/types.py", "opendis/dis7.py: all serialize and parse methods"]}
{"id": "C61", "title": "Constructors keep their arguments", "statement": "Calling a record or PDU class with any positional and keyword arguments that Python accepts gives a new object, changes no existing object and neither stream, and for every parameter p the attribute o.p is the argument given for p (or its default): the very same value when it is a number or character or counts as true, and otherwise, for parameters that are records or lists, an object made by this call and not shared with any other. (Violated for 20 parameters of 14 classes, whose argument is dropped or stored under a misspelt name: EngineFuel, AngularVelocityVector, AggregateMarking.characters, DataQueryPdu.requestID/timeInterval, SeesPdu and IsPartOfPdu.originatingEntityID, ArealObjectStatePdu.forceId, and others.)", "quantifier": "all classes but the 26 abstract, special or unconstructible ones that are listed, all argument lists and keyword assignments, all argument values, all heaps and stream contents", "why_tests_cant": "780 parameters in 175 constructors, each of which can be given by position, by keyword or left out, on a heap that may already share the arguments between objects; a test constructs a few objects and looks at a few attributes", "anchors": ["opendis/dis7.py", "opendis/record/common.py", "opendis/record/warfare/", "opendis/record/radio/"]}
{"id": "C62", "title": "PDUs carry their standard variable records", "statement": "createPdu (for Entity Damage Status and Transmitter PDUs) or parse (for Directed Energy Fire PDUs) of a datagram that holds the fixed fields, the number of records and then that many damage description or variable transmitter parameter records of any mix of registered classes gives a PDU with those fields and exactly those records in that order, and leaves the bytes that follow unread; a record of a class the PDU does not accept raises TypeError, a record length that is not a multiple of eight ValueError and an early end struct.error, at whatever position in the list. serialize writes the fields, the number of records in two bytes and the bytes of every record in the order of the list, and raises struct.error for more than 65535. What serialize writes for a PDU with records is read back as the same PDU. (The last part is violated for every PDU with at least one registered record.)", "quantifier": "all field values, lists of records of any length and mix of classes, bytes that follow, positions of the first bad record, heaps", "why_tests_cant": "the records have different classes and lengths and are not delimited, so the position of each depends on all before it; a test has one or two records", "anchors": ["opendis/dis7.py:4943-5117", "opendis/dis7.py:6318-6404", "opendis/dis7.py:6635-6678", "opendis/record/common.py"]}
{"id": "C63", "title": "Assigning to one attribute changes only that attribute's bytes", "statement": "Take an object of any class with a fixed layout in which no object appears twice (in particular any PDU just made by createPdu or by its constructor), that serializes to bytes bs. After one assignment of a scalar to an attribute, to an attribute of a record reached through attributes and list elements, or to an element of a list or array of scalars, serialize writes bs with exactly the bytes of that attribute replaced by those of the new value, everything before and after unchanged, or, if the value does not fit, raises what writing that value raises after writing exactly the bytes before it. So createPdu(data), one assignment and serialize give data with that field replaced. (The length attribute of a VariableDatum, which decides how many bytes follow, is excepted.)", "quantifier": "all classes with a layout, contents, heaps, paths through attributes and list elements of any depth, assigned scalars, datagrams", "why_tests_cant": "a write to one field could disturb a derived count, a padding or a shared sub-record only for particular contents; tests compare a handful of whole encodings", "anchors": ["opendis/dis7.py", "opendis/PduFactory.py", "opendis/DataOutputStream.py"]}
{"id": "C64", "title": "Aggregate State PDUs are read, and written only without silent aggregates", "statement": "createPdu applied to the bytes of an Aggregate State PDU with any lists (aggregate and entity IDs, silent aggregates, silent entities without appearance records, variable datums), followed by anything, returns an object whose attributes hold exactly those values and consumes exactly those bytes. serialize on an AggregateStatePdu without silent aggregates writes its fields in the same order with the same widths, so that createPdu gives it back. With at least one silent aggregate serialize never returns: after the fields before the list and the first silent aggregate's number of aggregates it raises AttributeError (or earlier, if one of those values does not fit).", "quantifier": "all contents, lists of any length, heaps, trailing bytes", "why_tests_cant": "the failure needs a non-empty list of one kind and the success claim ranges over five lists of any length", "anchors": ["opendis/dis7.py:7400-7537", "opendis/dis7.py:2221-2242", "opendis/PduFactory.py"]}
{"id": "C65", "title": "What serialize accepts comes back", "statement": "For an object of a class with a common layout and attribute values of any type and size: serialize returns exactly if every attribute it writes holds an acceptable value (an int or bool in the range of the wire type, a float that does not overflow it or an int convertible to one, a list whose length its count field can hold, at least as many elements as a fixed-size array has), and raises otherwise. If it returns, parsing the bytes, whatever follows them, gives an object with the same integers, the same 64-bit floats, 32-bit floats rounded to nearest, and lists of the same length, recursively; values are cut only in the 26 classes with fixed-size arrays, separately stored lengths, flags or bit fields, and there exactly to the array size, the stored length and the low bits.", "quantifier": "all classes with a layout, all attribute values including out-of-range and wrongly typed ones, all heaps, any trailing bytes", "why_tests_cant": "tests serialize valid values; that no invalid value is written as something else ranges over all values of all attributes of 159 classes", "anchors": ["opendis/dis7.py", "opendis/stream.py", "opendis/record/__init__.py"]}
{"id": "C66", "title": "World-frame dead reckoning in floating point is accurate", "statement": "With IEEE double arithmetic, extrapolating a position at constant velocity (DRM FPW, RPW) gives each coordinate within 4 rounding errors (4 * 2^-53) of |p| + |v dt| from the exact p + v dt, and at constant acceleration (FVW, RVW) within 8 rounding errors of |p| + |v dt| + |a| dt^2 / 2, for all finite inputs far below the overflow threshold. For positions up to 2^26 m, 2^14 m/s, 2^10 m/s^2 and 128 s this is below a micrometre. Extrapolating n times by dt drifts by at most n times 8 rounding errors, for n up to 2^40. The rotating variants move the position like the fixed ones and raise only for an infinite angle.", "quantifier": "all finite binary64 inputs below 2^1014, all step counts up to 2^40, all platforms whose squaring is within one unit in the last place", "why_tests_cant": "tests compare a few literals with a tolerance; the worst case over all doubles and any number of steps is a statement about rounding", "anchors": ["opendis/DeadReckoning.py:116-262"]}
{"id": "C67", "title": "Dead reckoning by zero time changes nothing, in floating point", "statement": "With IEEE double arithmetic and finite position, velocity, acceleration, orientation and angular velocity (not near the overflow threshold), all eight moving dead reckoning functions called with dt = 0 or -0 return the given position and orientation exactly (equal values, no rounding). This does not extend to infinite velocities, which a received datagram may contain: an infinite velocity component gives a NaN coordinate even for dt = 0.", "quantifier": "all finite binary64 inputs, all platforms", "why_tests_cant": "the exactness of a zero step must hold for every double and every order of summation in numpy's matrix product", "anchors": ["opendis/DeadReckoning.py:116-391"]}
{"id": "C68", "title": "Body-frame and turning dead reckoning in floating point is accurate", "statement": "With IEEE double arithmetic, math.cos, sin and tan accurate to one unit in the last place, and numpy's matrix product summing in any order, with or without fused multiply-add: every entry of the rotation matrix is within 2^-48 of the exact one; the positions of DRM FPB, RPB, FVB and RVB are within 64 rounding errors of the exact ones relative to the distances involved; the angles of RPW and the other rotating algorithms are within 16 rounding errors relative to the angle and the turn, away from gimbal lock, and in the gimbal-lock branch the heading keeps its value exactly and the other two angles are as accurate.", "quantifier": "all finite binary64 inputs below a bound near the overflow threshold, pitch angles with |cos| at least 1.1e-6 or at most 0.9e-6, all platforms meeting the accuracy assumption", "why_tests_cant": "the bound ranges over all doubles and over the evaluation orders of numpy builds", "anchors": ["opendis/DeadReckoning.py:44-84", "opendis/DeadReckoning.py:143-207", "opendis/DeadReckoning.py:264-391"]}
{"id": "C69", "title": "Sender and receiver agree on a moving entity", "statement": "When serialize accepts a PDU of a class createPdu knows, createPdu applied to the bytes returns an object in which every scalar attribute, at any depth of nested records, has the sender's value (integers and doubles unchanged, single-precision fields rounded to the nearest single). For an Entity State PDU whose location, velocity, acceleration, orientation and angular velocity are finite floats, the receiver reads the same location bit for bit and the other quantities within 2^-24 relative and 2^-150 absolute; and the position the receiver then extrapolates in double precision with DRM FPW or FVW lies within twice that error, carried over the time, plus eight rounding errors of the location, of the exact motion of the sender's values: less than a millimetre per axis up to 67000 km from the centre of the Earth, 1024 m/s, 128 m/s2 and five seconds.", "quantifier": "all PDU objects serialize accepts, all attribute paths, all bytes following the PDU, all finite double values, all times", "why_tests_cant": "the accuracy bound ranges over all doubles and the agreement over all objects and paths; no test compares both ends of the wire and the extrapolated position", "anchors": ["opendis/dis7.py:1-7537", "opendis/PduFactory.py:67-93", "opendis/stream.py:1-184", "opendis/DeadReckoning.py:116-141", "opendis/DeadReckoning.py:239-262"]}
{"id": "C70", "title": "Geodetic positions are converted to nanometres in double precision", "statement": "For finite floats with |latitude| <= 90, |longitude| <= 360 and |altitude| <= 10^12 m, GPS.lla2ecef as executed in double precision raises no exception and each coordinate is within 2^-48 (6400 km + |altitude|) of the exact WGS84 position, that is within 30 nm up to 2000 km altitude; lla2gcc relative to a geoOrigin is within 1.1 times the sum of the two such bounds; euclideanDistance of two points raises no exception and its result is within 5*2^-53 relative (and 2^-500 absolute) of the exact distance.", "quantifier": "all finite doubles in the stated ranges, all mathematical libraries accurate to one unit in the last place", "why_tests_cant": "rounding errors depend on every bit of the inputs and on the platform's sin and cos; the bound is over 2^192 inputs", "anchors": ["opendis/RangeCoordinates.py:49-69", "opendis/RangeCoordinates.py:72-97", "opendis/RangeCoordinates.py:293-329"]}
{"id": "C71", "title": "ecef2lla terminates and is accurate in double precision", "statement": "Take a finite position e of doubles whose exact geodetic coordinates have |latitude| < 90, |longitude| < 180 and altitude between -3000 and 53000 km, and let K <= 10^7 bound the ratio of its distance from the Earth's centre to its distance from the Earth's axis. For a finite tolerance between (K+60) 2^-53 and 90 the loop of GPS.ecef2lla, as executed in double precision, ends without an exception after at most k+4 iterations where 40^-k <= tolerance. The longitude is within 1000*2^-53 degrees. If the loop is still running after i+2 iterations, the returned latitude is within 2*40^-i + (14K+1400) 2^-53 degrees and the altitude within 190000*40^-i + (18K+18) 2^-53 |e| metres. With the default tolerance and |altitude| <= 150 km at most 6 iterations run, and the result is within 0.00065 degrees and 70 m. Closer to the axis (2^-600 m) the square of the coordinate underflows and ZeroDivisionError is raised.", "quantifier": "all finite doubles and tolerances in the stated ranges, all mathematical libraries accurate to one unit in the last place", "why_tests_cant": "whether a floating-point iteration stops, rather than cycling between neighbouring values, depends on every bit of the input and on the platform's library", "anchors": ["opendis/RangeCoordinates.py:72-97", "opendis/RangeCoordinates.py:117-157"]}
{"id": "C72", "title": "Conversion to a position and back returns to the start", "statement": "Two positions at most D <= 10 km apart, with altitudes of at least lo >= -3000 km, have latitudes within 57.4 D/(6334 km + lo) degrees, altitudes within D (1 + (distance from the centre + 44 km)/(6334 km + lo)), and longitudes (modulo 360) within 57.4 D/(distance from the axis - 2D) degrees. Hence for finite doubles with |latitude| < 90 and cosine c of the latitude at least 10^-5, |longitude| <= 179.99 and |altitude| <= 149 km, ecef2lla of the result of lla2ecef, both as executed in double precision with the default tolerance, runs at most 6 iterations, raises no exception and returns the longitude within 10^-12/c degrees, the latitude within 0.00066 degrees and the altitude within 71 m; if the loop is still running after i iterations, the latitude within 0.026*40^-i + 10^-12/c degrees and the altitude within 2760*40^-i + 2*10^-7/c metres.", "quantifier": "all pairs of real positions in the stated ranges; all finite doubles in the stated ranges, all mathematical libraries accurate to one unit in the last place", "why_tests_cant": "the error of the round trip is the sum of rounding, conditioning and an iteration that stops early, over 2^192 inputs", "anchors": ["opendis/RangeCoordinates.py:117-157", "opendis/RangeCoordinates.py:293-313"]}
{"id": "C73", "title": "Local north-east-down coordinates are accurate in double precision", "statement": "Take finite positions of doubles: an origin o whose exact geodetic coordinates have |latitude| < 90, |longitude| < 180, altitude between -3000 and 53000 km and distance from the centre at most 9*10^6 times that from the axis, and e with coordinates up to 10^9 m. GPS.ecef2ned(e, o) and GPS.ned2ecef of its result, as executed in double precision, end without an exception after at most 10 iterations; the length of the result is the distance of e and o within 100*2^-53 relative (and 2^-490); going back yields e within 200*2^-53 (|dx|+|dy|+|dz|) + 2*2^-53 |coordinate| (and 2^-490). For an origin within 150 km of the ellipsoid the components are those along the true north, east and down axes: east within 60*2^-53, north and down within 1.15*10^-5, times |dx|+|dy|+|dz|; if ecef2lla(o) still runs after i iterations, north and down within 0.00046*40^-i + (K/4+100) 2^-53.", "quantifier": "all finite doubles in the stated ranges, all mathematical libraries accurate to one unit in the last place, all orders of summation in the matrix product", "why_tests_cant": "rounding depends on every bit of six inputs and on the order in which numpy adds, fused or not", "anchors": ["opendis/RangeCoordinates.py:235-248", "opendis/RangeCoordinates.py:479-492", "opendis/RangeCoordinates.py:117-157"]}
{"id": "C74", "title": "Attitude conversions are accurate in double precision", "statement": "Take finite doubles: |lat| <= 1.570796 rad, |lon| <= 4 rad, |alt| <= 10^12 m, and any roll, pitch and yaw. GPS.llarpy2ecef(lat, lon, alt, roll, pitch, yaw), as executed in double precision, raises nothing; its position is within (6400000 + |alt|)/2^47 m per coordinate of the exact one; the Euler angles it returns are at most 22/7 in size, and carry every body vector to within 10^-10 of its length of where the given roll, pitch and yaw in the exact local north-east-down frame carry it. GPS.ecef2llarpy(X, Y, Z, psi, theta, phi) returns the latitude and longitude of ecef2lla in radians, its altitude, and a roll, pitch and yaw that in the north-east-down frame at the returned latitude and longitude agree with the given Euler angles within 10^-10 in the same sense; for positions as in C73 this takes at most 10 iterations. Neither direction has an exception at pitch +-90 degrees.", "quantifier": "all finite doubles in the stated ranges, all mathematical libraries accurate to one unit in the last place (either sign of a half turn from atan2(+-0, negative)), all orders of summation in the matrix products and dot products", "why_tests_cant": "the angles are ill-conditioned near pitch +-90 degrees, where no table of expected angles exists, and rounding depends on every bit of six inputs and on the order in which numpy adds", "anchors": ["opendis/RangeCoordinates.py:160-232", "opendis/RangeCoordinates.py:269-290", "opendis/RangeCoordinates.py:403-476", "opendis/RangeCoordinates.py:506-539"]}
{"id": "C75", "title": "The example receiver shows the state the example sender sent", "statement": "Let dis_sender.py build its datagram from finite doubles lat, lon (radians), alt (metres), roll, pitch and yaw with |lat| <= 1.57078, |lon| <= 3.1414 and |alt| <= 149000 (it has 36.6 and -121.9 degrees and 1 m as literals). Then sending raises nothing and the datagram has 144 bytes. dis_receiver.py, given this datagram, prints an EntityStatePdu with Id 42; its latitude is within 0.00067 degrees of the sender's, its longitude within 2*10^-12/cos(lat) degrees and its altitude within 71 m; the printed angles, read as roll, pitch and yaw in this order (see C76 for the labels), in the north-east-down frame at the printed place, carry every body vector to within 10^-6 of its length of where the sender's roll, pitch and yaw carry it.", "quantifier": "all finite doubles in the stated ranges, all attitudes, all mathematical libraries accurate to one unit in the last place, all objects existing in the receiver", "why_tests_cant": "the path crosses two iterations, about a hundred roundings, a conversion to single precision, the serialization of every field and the factory; the claim is for every position and attitude and not the one literal in the file", "anchors": ["examples/dis_sender.py:23-57", "examples/dis_receiver.py:24-54"]}
{"id": "C76", "title": "The example receiver labels the angles correctly and survives every datagram", "statement": "dis_receiver.py prints for every datagram what it contains: for a PDU of another type its class and size, for an Entity State PDU the yaw, pitch and roll under these labels; no datagram ends the program. Found: every PDU of a type other than 1 from serialize, of at most 1024 bytes, is reported with its class and its size. But the labels Yaw and Roll are exchanged: for a sender with roll 0.5 rad and no yaw the angles as labelled describe an attitude more than 0.4 away. And the program ends with an exception for every datagram of fewer than three bytes, for every type without a class, for every PDU of more than 1024 bytes (an Entity State PDU with 56 variable parameters), and for every Entity State PDU at (0, 0, 0), such as a new one.", "quantifier": "all datagrams of the kinds listed, all PDU classes with a common layout for writing and reading, all mathematical libraries", "why_tests_cant": "the kinds are infinite; the exchange of labels is invisible with the attitude the sender has as literals, where both angles are zero", "anchors": ["examples/dis_receiver.py:24-54", "opendis/RangeCoordinates.py:269-290", "opendis/PduFactory.py:67-92"]}
{"id": "C77", "title": "Appending to a list adds the element's bytes and counts it, and changes nothing else", "statement": "Let o be an object (a PDU or a record) just created, decoded or filled in, v an object that shares nothing with it (a new one, for instance) or a number, and let both serialize without error. After o.path.a.append(v), where path leads through records and list elements of o to a list a that has a count, o serializes to the bytes it serialized to before, with the count field now holding one element more and with the bytes v itself serializes to inserted after those of the last element. If the count field's type cannot hold the new count, serialize raises struct.error at that place. Nothing else changes: no other byte, no sharing between objects, nothing in the streams. Covers all 18 lists of numbers and records that parse can fill; the 14 lists whose element class does not exist (parse calls null()) are left out.", "quantifier": "all objects, all contents, all lengths of the list, all depths of the path, all elements", "why_tests_cant": "there are lists of any length in objects of any contents; the positions of count and insertion depend on the lengths of other lists and elements", "anchors": ["opendis/dis7.py:4838-4890", "opendis/dis7.py:5120-5280", "opendis/dis7.py:6970-7016"]}
{"id": "C78", "title": "Sender and receiver agree on a turning entity and on one whose velocity is in its own frame", "statement": "Let an Entity State PDU hold a location of at most 2^26 m per axis, velocities of at most 1024 m/s, accelerations of at most 128 m/s2, angles of at most 8 rad and angular velocities of at most 8 rad/s, all finite doubles, and let it serialize. The receiver decodes the datagram with createPdu and extrapolates over at most 5 s with DeadReckoning.py in double precision. drm_fpb and drm_fvb return a position within 2 cm per axis of where the sender's exact motion takes the entity (its velocity and acceleration turned by its orientation), and the orientation within 4.8*10^-7 rad. If the sender's pitch has |cos| at least 10^-5, then drm_rpw, drm_rvw, drm_rpb and drm_rvb all return the same orientation, each angle within 2*10^-4/cos(pitch)^2 rad of the angle plus the exact Euler rate times the time, with positions within 1 mm (world frame) and 2 cm (body frame) of the exact ones.", "quantifier": "all Entity State PDUs with such a motion, all other contents, all times, all platforms with cos, sin, tan and squares within one ulp and any order of summation in numpy's @, all trailing bytes", "why_tests_cant": "the receiver computes from orientation and rates rounded to single precision, and the rates are divided by cos(pitch): how much that costs depends on angles, speeds and times together", "anchors": ["opendis/DeadReckoning.py:143-207", "opendis/DeadReckoning.py:209-237", "opendis/DeadReckoning.py:264-391", "opendis/PduFactory.py:1-130"]}
{"id": "C79", "title": "UTM projection in double precision", "statement": "For a finite latitude of at most 84 degrees either way and a finite longitude in [-180, 180), lla2utm in double precision returns. The zone number is that of the exceptional zone, or of a zone whose central meridian is at most three degrees (and 10^-13) away, followed by the letter of the band; it is in 1 .. 60 unless the longitude is within 10^-13 degrees of 180 (180 - 2^-45 degrees gets zone 61). Unless the longitude is less than 10^-13 degrees west of a multiple of six degrees, easting and northing are within 10^-7 m and the scale factor within 2*10^-15 of the exact series, zone and band are those of the exact formula, and the altitude is returned unchanged. A longitude that is a NaN raises ValueError, an infinite one OverflowError; a latitude that is not finite has band Z.", "quantifier": "all latitudes and longitudes of the domain, all altitudes, all platforms whose sin, cos, tan and powers are within one ulp", "why_tests_cant": "continuum of inputs; the neighbours of zone boundaries, and the effect of every rounding in four series", "anchors": ["opendis/RangeCoordinates.py:332-400", "opendis/RangeCoordinates.py:542-564"]}
{"id": "C80", "title": "Range, azimuth, elevation and gravity in double precision", "statement": "ned2pae in double precision returns the length of the vector to five half-units in the last place, the azimuth and the elevation to 2*10^-13 degrees (the azimuth except straight south and on the vertical, where the sign of a zero decides); for every vector of at most 2^80 m per axis, without exception, range, azimuth and elevation point back to the vector within 10^-14 of its length. ecef2pae returns the distance of the two positions to 1.3*10^-14 of it, and from an origin near the surface what its result points to has the true east component to 2*10^-14 and the true north and down components to 1.2*10^-5 of the span of the vector (the stopping tolerance of ecef2lla). WGS84.g0 is within 10^-14 m/s2 of its formula for every finite latitude.", "quantifier": "all vectors, positions and origins of the domain, all latitudes; all platforms whose sin, cos, squares and atan2 are within one ulp, with any sign of atan2(0, x) for x <= 0, and any order of summation in numpy's @", "why_tests_cant": "continuum of inputs, including tiny components whose squares underflow, the vertical and the half line straight south", "anchors": ["opendis/RangeCoordinates.py:99-107", "opendis/RangeCoordinates.py:251-260", "opendis/RangeCoordinates.py:494-503"]}
{"id": "C81", "title": "Where a dead-reckoned entity is shown on the map", "statement": "A receiver that extrapolates the Entity State PDU it got with drm_fvw for up to five seconds and converts the position with ecef2lla gets, for every entity near the surface, the latitude of the place where the laws of motion put the sender's entity to 0.00066 degrees, its longitude to 2*10^-8 degrees over the cosine of the latitude and its altitude to 71 m; when ecef2lla needs more than k iterations the latitude is within 0.026/40^k + 2*10^-7 degrees and the altitude within 2760/40^k + 0.015 m. The demonstration program examples/dis_dead_reckoning.py, for any state of the entity, any duration up to 128 s and any start near the surface, ends and prints one frame for every half second from 0 on up to the duration, at exactly these times, each with the position of the entity to a micrometre per axis, and ends the second run at the coordinates of the start displaced by the last position, to the same accuracy.", "quantifier": "all Entity State PDUs that serialize and all bytes that follow, all states, durations and starts of the domain, all platforms whose library functions are within one ulp", "why_tests_cant": "continuum of inputs; composition of four roundings (single precision on the wire, the extrapolation, the conversion, its stopping rule)", "anchors": ["examples/dis_dead_reckoning.py:16-145", "opendis/DeadReckoning.py:209-262", "opendis/RangeCoordinates.py:117-158"]}
{"id": "C82", "title": "Lists of supplies, emitters, propulsion systems and record identifiers go out and come back", "statement": "In the eleven classes whose list elements the library leaves unspecified on reading (Resupply Received, UA, SEES, Intercom Signal, Intercom Control, Record Query-R, Minefield Response NACK, grid axis, silent entity system, record and standard variable specification) serialize writes every field, for every list the number of elements in the list's count field, and then the elements of every list in order, whatever objects they are; createPdu gives the lists back; a list of plain numbers, which the constructor's annotations ask for, is accepted. (Violated twice: whenever one of the lists is not empty, parse and createPdu raise NameError on exactly the bytes that serialize wrote; and serialize raises AttributeError on every list of numbers, after writing the fields and counts.)", "quantifier": "all contents of the fields, all lists of any length and any element objects, all bytes that follow", "why_tests_cant": "lists of any length and of any mixture of element objects, any field values; the failure on reading is for all of them", "anchors": ["opendis/dis7.py:4308-4369", "opendis/dis7.py:2182-2218", "opendis/dis7.py:7253-7310", "opendis/PduFactory.py:65-80"]}
{"id": "C83", "title": "UTM coordinates are a conformal map with the returned scale", "statement": "Inside a UTM zone, away from the poles, the easting and northing that lla2utm returns are a conformal map of the WGS84 ellipsoid that lla2ecef describes: at every point the map turns the east and the north direction by the same angle and scales lengths in both by the scale factor that lla2utm returns, to 5 parts in 10^9 within 3 degrees of the central meridian and to 2.5 parts in 10^7 in the widened zones of Norway and Svalbard. So anything moving over ground moves on the grid with its ground speed times the returned scale, in whatever direction. On the central meridian differences of northings are 0.9996 times the length of the meridian arc to 6 parts in 10^10 (6 mm from the equator to the pole); on the equator the northing is 0.", "quantifier": "all points of all zones, all directions and all differentiable paths (exact real arithmetic)", "why_tests_cant": "a statement about derivatives at every point of the earth; a wrong coefficient of a high order term shows up only far from the central meridian at some latitudes and in millimetres", "anchors": ["opendis/RangeCoordinates.py:332-400", "opendis/RangeCoordinates.py:292-316"]}
{"id": "C84", "title": "UTM coordinates tell places apart", "statement": "lla2utm never returns the same result for two different positions (other than the poles): two positions with equal zone, easting, northing and altitude have equal latitude, longitude and altitude, even if the latitude band letter is ignored; and in a zone the easting grows strictly with the longitude.", "quantifier": "all pairs of positions with latitude between -90 and 90 exclusive and longitude from -180 up to 180 (exact real arithmetic)", "why_tests_cant": "injectivity over pairs of positions anywhere on earth", "anchors": ["opendis/RangeCoordinates.py:332-400"]}
{"id": "C85", "title": "UTM coordinates of an Earth-centred position are accurate to metres", "statement": "In double precision, ecef2utm ends for every position within 150 km of the WGS84 ellipsoid and up to 83.99 degrees of latitude that is not at a zone border, and returns the zone number of the exact position, an easting within 8 m (4 m if within 3 degrees of the central meridian), a northing within 73 m, an altitude within 70 m and a scale within 1e-7 of the exact UTM coordinates of the position; every further pass the latitude iteration takes divides the bounds on easting and northing by 40.", "quantifier": "all finite double precision positions in that region and all implementations of the math library accurate to one unit in the last place", "why_tests_cant": "an error bound over a continuum of positions, through an iteration that stops by a tolerance, for any conforming math library", "anchors": ["opendis/RangeCoordinates.py:263-266", "opendis/RangeCoordinates.py:332-400"]}
{"id": "C86", "title": "The work and memory of decoding are linear in the datagram, whatever counts it announces", "statement": "Whatever record counts and lengths a datagram announces, and whether createPdu succeeds, returns None or raises, the number of steps it takes, and so the number of objects, attributes and list entries it creates, is at most a constant times one plus the length of the datagram; likewise parse of any record, relative to the bytes that it reads. The constant does not depend on the datagram, the record or what is already in memory.", "quantifier": "all byte strings, all objects in all states, all heaps and streams, all bounds on nested calls (for createPdu the constant is the same for all of them: C87_linear)", "why_tests_cant": "an asymptotic bound over all datagrams: announced counts range up to 2^32-1 in up to dozens of nested lists, and each loop must be shown to read something in every round", "anchors": ["opendis/PduFactory.py:65-91", "opendis/dis7.py:1-7537", "opendis/stream.py:27-105", "opendis/record/__init__.py:40-85"]}
{"id": "C87", "title": "Decoding never runs out of stack", "statement": "Whatever the datagram, createPdu and parse never have more than 27 calls nested in each other, so they never raise RecursionError under any limit of 27 or more (Python's default is 1000), and the outcome is the same under all such limits. The same holds for constructing an object of any class and parsing any number of datagrams into it one after the other.", "quantifier": "all byte strings, all classes, all heaps, all sequences of datagrams and arguments, all limits", "why_tests_cant": "an adversarial datagram that nests records in records would be the witness; a bound over all datagrams needs an argument that no call chain is cyclic, including calls through attributes whose class is only known at run time", "anchors": ["opendis/PduFactory.py:65-91", "opendis/dis7.py:1-7500", "opendis/stream.py:18-105", "opendis/record/__init__.py:40-130"]}
{"id": "C88", "title": "Users of the library that share no objects do not influence each other", "statement": "Several users of the library in one process (receivers, senders, simulations) that pass no objects to each other work as if each were alone: whatever statements they execute and in whatever order these are interleaved, each gets the same values in its variables, the same exceptions, the same bytes written and the same bytes left to read as when the others do nothing. In particular the outcome of createPdu depends on the datagram alone, not on anything decoded or built before.", "quantifier": "all numbers of users, all programs they run (any statements of the language: loops, constructor and method calls, attribute and list updates, createPdu), all interleavings at statement granularity, all inputs; for createPdu, all heaps", "why_tests_cant": "a non-interference property: it speaks about all pairs of programs and all interleavings, and a leak (a shared default list, a class-level mutable attribute, a cached object) shows only for particular combinations", "anchors": ["opendis/dis7.py:1-7500", "opendis/PduFactory.py:65-91", "opendis/record/__init__.py:40-130", "opendis/stream.py:18-200"]}
{"id": "C89", "title": "Threads that share no objects need no locks", "statement": "Threads that use the library and pass no objects to each other may be interrupted anywhere, also in the middle of constructors, parse, serialize and createPdu: each thread that has finished has the same values in its variables, the same exceptions, the same bytes written and the same bytes left to read as when it runs alone without interruption; and each finishes once it has been given a number of steps that does not depend on what the others do.", "quantifier": "all numbers of threads, all programs they run (any statements, new inputs, createPdu), all schedules at the granularity of single operations, all inputs", "why_tests_cant": "races show only for particular schedules, of which there are exponentially many and which a test cannot choose", "anchors": ["opendis/dis7.py:1-7500", "opendis/PduFactory.py:65-91", "opendis/record/__init__.py:40-130", "opendis/stream.py:18-200"]}
{"id": "C90", "title": "Threads may share objects that none of them changes", "statement": "A PDU that no thread changes may be serialised, measured and read by any number of threads at the same time, while they also decode datagrams into objects of their own: however the threads are interrupted, each one that has finished has the same variables, exceptions and bytes written as when it runs alone, each finishes once it has been given enough steps, and the shared objects stay as they are. In particular any number of threads may send one and the same PDU, and each sends the bytes of one uninterrupted call of serialize.", "quantifier": "all numbers of threads, all memories without dangling references that they share, all programs that alone do not change the shared objects (shown for decoding, new input and all statements without attribute or element assignments and without calls except of serialize, marshalledSize and what these call), all schedules at the granularity of single operations", "why_tests_cant": "an assignment in a serialize method (a length or padding field set on the way) would be a race that shows only for particular schedules", "anchors": ["opendis/dis7.py:1-7500", "opendis/PduFactory.py:65-91", "opendis/record/__init__.py:40-130", "opendis/stream.py:18-200"]}
{"id": "C91", "title": "Serialising nests calls to a bounded depth", "statement": "Serialising a PDU or record, whatever its fields hold and however many elements its lists have, never nests more than 45 calls of the library's functions, so it never ends with RecursionError under Python's default limit, and a larger limit changes nothing. Only an object that (against its type) refers to itself makes serialize recurse without bound: that ends with RecursionError whatever the limit.", "quantifier": "all classes with a layout, all contents of the object (all list lengths), all limits of at least 45; for the cycle, all limits", "why_tests_cant": "a recursion over a list would show only with lists longer than the interpreter's limit", "anchors": ["opendis/dis7.py:1-7500", "opendis/record/__init__.py:40-130", "opendis/record/common.py:48-50", "opendis/stream.py:100-200"]}
{"id": "C92", "title": "The two ways to UTM coordinates agree", "statement": "Converting a latitude, longitude and altitude to UTM directly (lla2utm) or by way of the Earth-centred position (lla2ecef, then ecef2utm), all in double precision, gives the same zone number, and coordinates that differ by at most 8.01 m in x (4.01 m within 2.99 degrees of the central meridian), 73.01 m in y, 70.01 m in altitude and 2e-7 in the scale; when ecef2lla made i passes of its loop, by at most 308/40^i m in x and 2920/40^i m in y up to 0.1 mm.", "quantifier": "all doubles with |latitude| <= 83.98, |longitude| <= 179.99, |altitude| <= 149 km, not at the border of a zone; every mathematical library that is accurate to the bounds stated in C70 and C79", "why_tests_cant": "positions are 192 bits, and the rounding of the two computations differs at each", "anchors": ["opendis/RangeCoordinates.py:117-157", "opendis/RangeCoordinates.py:263-266", "opendis/RangeCoordinates.py:293-313", "opendis/RangeCoordinates.py:332-400"]}
{"id": "C93", "title": "A series of assignments", "statement": "After any series of assignments of representable values to attributes of an object, of its records and of the elements of its lists, serialize writes what it wrote before with exactly the bytes of these attributes replaced. Different attributes occupy different bytes. So the order of assignments to different attributes does not matter, and of several assignments to one attribute only the last counts; a series goes through exactly when each of its assignments does on its own.", "quantifier": "all classes with a layout, all objects in which no object appears twice, all values, all series of assignments (any length) to attributes whose place in the datagram does not depend on the values", "why_tests_cant": "the series, their orders and the values are unbounded in number", "anchors": ["opendis/dis7.py", "opendis/DataOutputStream.py"]}
{"id": "C94", "title": "Changing the elements of a list in place", "statement": "However the elements of a list of an object, of its records or of the elements of its lists are changed in place (several appended, one removed, the list cleared, reordered, or partly replaced by new elements), serialize afterwards writes the count of the elements there are now and their bytes in their order; every other byte is as before. If the count does not fit its wire type, serialize raises the error and has written only what precedes the count. Values not yet added stay addable, and everything keeps its own bytes, so changes can be made one after the other.", "quantifier": "all classes with a layout, all objects in which no object appears twice, all their lists with a count, all new lists of elements drawn from the old elements and from new ones (any lengths)", "why_tests_cant": "the lists, their lengths and the ways to change them are unbounded", "anchors": ["opendis/dis7.py:1-7400", "opendis/DataOutputStream.py:1-60"]}
{"id": "C95", "title": "Any program that uses the objects keeps them whole and independent", "statement": "Take a program that makes objects with C(), receives them with parse, parses again into objects it has, assigns numbers and records to attributes at any depth, changes the elements of lists in place (with objects it has at hand, or moving elements and records from one object to another, but using no object in two places), and serializes, in any order and as often as it likes. At every point, each object it has at hand shares no part with another one, all its attributes can be read, and serialize either raises or writes bytes from which a reader gets the same values back, whatever follows them. What the program does to one object changes neither what another one holds nor the bytes it serializes to.", "quantifier": "all finite sequences of these operations, all classes with a layout, all data, all values, all states of the heap", "why_tests_cant": "the programs, the objects they build and the orders of operations are unbounded", "anchors": ["opendis/dis7.py:1-7400", "opendis/DataInputStream.py:1-60", "opendis/DataOutputStream.py:1-60"]}
{"id": "C96", "title": "Assigning a record to an attribute replaces exactly its bytes", "statement": "Assign an object v of the right class to an attribute that is a record, of an object o or of any record or list element below it, v sharing nothing with o. Of the bytes o serializes to, those of the old record are replaced by those v serializes to, and no other byte changes; the record is at its offset where that does not depend on the values. If serializing v raises, serializing o raises the same, having written what precedes the record and what v wrote. The old record keeps its bytes.", "quantifier": "all classes with a layout and all their record attributes at any depth, all objects in which no object appears twice, all new records, all values", "why_tests_cant": "the objects, the depth and the values are unbounded", "anchors": ["opendis/dis7.py:1-7400", "opendis/DataOutputStream.py:1-60"]}
{"id": "C97", "title": "Copying a record from one object to another", "statement": "o.a = p.b, where o and p are two objects a program holds (received or made), o.a and p.b, at any depth, are records of one class, and both objects serialize: of the bytes o serializes to, those of its record are replaced by the bytes the record has within those of p, each at its offset where that does not depend on the values; no other byte of o and no byte of p changes. The record is then common to both: a later assignment to one of its attributes through o is also one through p, and changes exactly the bytes of that attribute in what each of the two serializes to.", "quantifier": "all pairs of classes with a layout and all their record attributes at any depth, all objects held by a program, all values, all later assignments", "why_tests_cant": "the objects, the depth, the programs and the values are unbounded", "anchors": ["opendis/dis7.py:1-7400", "opendis/DataOutputStream.py:1-60"]}
{"id": "C98", "title": "Filling in a reply from the PDU received", "statement": "o.a1 = p.b1; o.a2 = p.b2; ... where o and p are two objects a program holds, each pair are records of one class at fixed places, and no record of p is used twice: this goes through, each of these records of o is overwritten, in what o serializes to, by the bytes the record has in p, no other byte changes, and p serializes to the same as before. In particular, for the 25 simulation management PDU classes, swapping originating and receiving entity of the PDU received into the reply puts bytes 18-23 and 12-17 of the one at bytes 12-23 of the other.", "quantifier": "all pairs of classes with a layout, all series of such copies (any length), all objects held by a program, all values", "why_tests_cant": "the classes, the series, the values and the programs before are unbounded", "anchors": ["opendis/dis7.py:1-7400", "opendis/DataOutputStream.py:1-60"]}
{"id": "C99", "title": "Using one record for two attributes of an object", "statement": "o.a = o.b, where o.a and o.b are records of one class at fixed places: this goes through, and serialize then writes the bytes of o.b in the place of o.a as well; no other byte changes. The record is not copied by value: the claim that an assignment to an attribute leaves all bytes before it unchanged (C63) no longer holds for such an object.", "quantifier": "all classes with a layout, all pairs of their record attributes of one class, all objects in which no object appears twice, all values", "why_tests_cant": "the classes and the values are unbounded", "anchors": ["opendis/dis7.py:1-7400", "opendis/DataOutputStream.py:1-60"]}
