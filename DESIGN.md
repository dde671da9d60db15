# Formal model of open-dis-python in Rocq (Coq 8.16.1)

## 1. What is modelled and how

### 1.1 The DIS codec (stream.py, dis7.py, record/*, PduFactory.py): deep embedding
The codec is 7500 lines of very regular Python.  Rather than re-typing it by hand,
`tools/gen.py` (committed, uses only the stdlib `ast` module, reads /repo as text)
translates **every class and every method body** into a Coq term of a small
Python abstract syntax (`theories/Lang.v`), one definition per class with the file and
line of each method in a comment.  The generated files are committed.

`theories/Interp.v` gives this syntax a meaning: a fuel-indexed, total Gallina
interpreter with

* a heap of instances and lists (references, aliasing and mutation are explicit),
* Python exceptions as values (struct.error, AttributeError, NameError, TypeError,
  ValueError, IndexError, OverflowError, AssertionError, RecursionError, ...),
  the state at the point of the exception being kept,
* one input byte stream (with position) and one output byte stream,
* `struct.pack/unpack` for the formats used, on unbounded integers and on floats
  represented as IEEE-754 bit patterns.

Fuel bounds the *call depth* only, and running out of it is the explicit
`RecursionError` value (Python has the same limit); no theorem treats it as success.

### 1.2 Specification
`theories/Spec*.v` contain an independent description of the wire formats: a table
giving, for each class, the list of its fields (`u8 "entityType"`, sub-record, counted list...)
and a total `encode`/`decode` on *values* (trees of integers, floats and lists).  It
mentions neither the interpreter nor the heap.  The theorems say that
the interpreter running the real `serialize`/`parse` code refines `encode`/`decode`,
and round-trip, injectivity, truncation... are proved from that.

### 1.3 Geometry (DeadReckoning.py, RangeCoordinates.py): shallow embedding over R
Function by function over Coq's real numbers (simplification: exact reals instead of doubles).
DeadReckoning.py is modelled a second time in IEEE binary64 arithmetic (`DeadReckoning64.v`, on Flocq's binary64), operation by
operation; the real-number model is then the specification and the theorems bound the difference.  The same is done for
lla2ecef, lla2gcc, ecef2lla, ecef2ned, ned2ecef and euclideanDistance (`Range64.v`) and ecefvec2nedvec, rotate_3x3, llarpy2ecef and ecef2llarpy
of RangeCoordinates.py (`Attitude64.v`), lla2utm, ecef2utm, ned2pae, ecef2pae and g0 (`Utm64.v`).

## 2. Plan per property

| id | modelled | proof |
|----|----------|-------|
| C01-C03, C09 | struct int codecs, stream methods run by the interpreter | arithmetic on base-256 digits, for all integers |
| C04, C05 | same | positive part proved, violation by witness (`_refuted`) |
| C06, C07 | float32/64 codecs on bit patterns | integer arithmetic on significands and exponents |
| C08 | write_utf/read_utf | induction on bytes |
| C10-C18 | all classes with agreeing reader and writer | generic refinement code = spec by induction on formats; spec lemmas by induction |
| C19 | Pdu.serialize | corollary of refinement for all PDU classes |
| C20 | length field | refuted by witness, and true characterisation |
| C21, C22 | PduFactory model | case analysis on byte 2, table lookup |
| C23 | createPdu, all table entries | safety theorem for the safe types, witnesses for the others |
| C24 | whole interpreter | relational (parametricity) theorem over the syntax: relocation of heaps |
| C25, C26 | whole interpreter | effect analysis: a syntactic check proved sound, run on all serialize methods |
| C27 | parse into used instance | positive for list-free classes, refuted otherwise |
| C28 | constructors and serialize, all classes | computation in the empty heap + relocation theorem (any heap) |
| C29 | sequences | induction on the list |
| C30-C32 | record package | witnesses; registry model by case analysis |
| C33, C34 | bitfield factory | arithmetic on Z for all field lists |
| C35-C39 | VariableDatum, SignalPdu, EntityMarking, TransmitterPdu, IFFData | refinement with special formats |
| C40-C44, C52 | DeadReckoning over R | ring/trigonometric identities |
| C45-C51, C53-C55, C57 | RangeCoordinates over R | ring/trigonometric identities, case analysis |
| C56, C58 | the loop of ecef2lla | the loop body as a contraction (factor 1/40) on pairs (sinLat, N); intermediate value theorem for existence |
| C59 | the offsets of the IEEE 1278.1 tables | hand-written tables of offsets; the offsets of a layout computed and proved right for `encode` and `decode` by induction on the layout |
| C60 | annotations of opendis/types.py | the annotations extracted into a table (Declared.v, tools/declared.py) and compared with every layout |
| C61 | constructors | a checker of __init__ bodies proved sound against the interpreter (CtorRun.v), any positional and keyword arguments |
| C62 | PDUs with standard variable records | the reading loop proved against `dec_list (sv_get e)` by induction on the count (SvList.v); round trip refuted by comparing lengths |
| C63 | assigning one attribute changes only its bytes | induction on the path: the encoding is `before ++ field ++ after` as a function of the assigned value (`hole`), the heap change is framed by `rep_ext` (Assign.v) |
| C64 | Aggregate State PDU | the layout with the silent list nulled for writing without silent aggregates; the statements before the loop by `chkS`, the loop's first iteration by hand |
| C65 | what serialize accepts comes back | `accepts` and `comes_back` are specifications by recursion on the layout, `same` one without layouts; both proved equivalent to success of `encode` and related to `decode` by induction on the layout |
| C66-C68 | DeadReckoning in IEEE binary64 (Flocq) | forward error analysis: `app x X k B C` (x is within k rounding errors of X relative to B) with one rule per operation; sums of products in any order by induction on the evaluation tree; repeated steps by induction |
| C69 | sender, wire, receiver and extrapolation together | attribute paths resolved in the layout by induction on the path, `C65_created` for the transfer, `narrow` bounded against the Flocq value of the pattern, C66 for the arithmetic |
| C70 | lla2ecef, lla2gcc and euclideanDistance in doubles | absolute error calculus (`ap` in FloatAbs) along the expression, the real model of C48 as specification; the computed eccentricity and pi bounded against the exact ones |
| C71 | ecef2lla in doubles | one iteration bounded by the error calculus of C70 (RangeErr, RangeRad, RangeStep); the real contraction of C56 absorbs the rounding, so the distance to the fixed point falls by 40 to a floor of a few 2^-53 (RangeLoop) |
| C72 | round trip in doubles | the foot points on the ellipsoid move monotonically with the normals, so the inverse of lla2ecef is Lipschitz (GeoStable); composed with C70, C58 and C71 |
| C73 | ecef2ned and ned2ecef in doubles | matrix entries by the error calculus, the product by the summation lemma of C68; the exact matrix at the computed latitude is a rotation, so length and round trip do not suffer from the early stop of ecef2lla |
| C74 | llarpy2ecef and ecef2llarpy in doubles | errors of the turned axes by the error calculus and the dot-product lemma of C68 (AttErr); the angles are shown to be exact for a frame close to the given one (backward stability), so the claim on body vectors needs no exception for vertical noses; the exact position is Lipschitz in its angles |
| C75 | example sender to example receiver | the sender's object is computed with symbolic float bits and lifted to any fuel by monotonicity (Mono); C65/C69 for the wire, C72 for the position, C74 for the attitude at both ends; rotations are Lipschitz in their angles |
| C76 | example receiver, other datagrams | C65/C69 for the factory, C14 for the cut at 1024 bytes; the exchange of labels is refuted with C75 itself |
| C77 | list.append | induction over the path as for C63; the layout is cut at the count and at the list (find_list); the footprint grows by that of the element, up to permutation |
| C78 | turning entity, sender to receiver | C69_state for the wire, C66/C68 for the rounding errors of the receiver's own arithmetic, and Lipschitz bounds of the laws of motion in orientation and rates |
| C79 | UTM in binary64 | rounding of the zone quotient by monotonicity of rounding (zone_quotient), and a bound on value and error after every operation of the four series (UtmTerms) |
| C80 | range, azimuth, elevation, gravity in binary64 | relative error of the length (C70), atan2 is Lipschitz in the relative error of its second argument; C73 for the frame |
| C81 | receiver + ecef2lla, examples/dis_dead_reckoning.py | C69 (a millimetre per axis) and C66, then stability of geodetic coordinates (C72_stable) and C71; induction on the frames, exactness of adding 0.5 |
| C82 | the eleven classes with null() in parse | serialize split into fields and loops (chkS of the part before the lists, ser_loop of C62), counts by stand-in lists of the same length; decode along what was written up to the first non-empty list |
| C83, C84 | lla2utm and lla2ecef over the reals | series as polynomials in sin^2 and the square of the longitude offset; derivatives along curves; remainders in Bernstein form (UtmShape.v, generated), meridian arc by its square; injectivity by monotonicity of a linear combination along the path that is straight in isometric coordinates |
| C85 | ecef2utm in double precision | C71 for the iteration, C79 for the projection; mean value theorem along the straight path between the exact and the computed latitude and longitude, with the derivatives of UtmDeriv.v |
| C86 | linear cost of decoding | counting interpreter (Cost.v) erased to Interp.v; sound syntactic check that every loop reachable from parse reads in every round (CostCheck.v, CostLin.v), run on the whole program (PropCost.v) |
| C87 | bounded call depth of decoding | ranking of classes and a sound syntactic check of it (DepthCheck.v, DepthOk.v), monotonicity of the counting interpreter (CostMono.v), run on the whole program (PropDepth.v) |
| C88 | users that share no objects do not influence each other | the interpreter commutes with any placement of a user's objects in a larger heap and leaves the rest alone (Ren.v); invariant over interleavings (PropUsers.v) |
| C89 | threads that share no objects need no locks | interpreter as a tree of single operations, equal to Interp.v when run in one go (Threads.v); related trees at different places in memory (ThreadRel.v); invariant over schedules (PropThreads.v) |
| C90 | threads may share objects that none of them changes | the purity check of C25 for every intermediate moment (Calm.v); invariant over schedules with a common part of the memory (PropShare.v) |
| C91 | bounded call depth of serialising | from the layout theorem, which gives one outcome for every limit; induction on the limit for the cyclic object (PropStack.v) |
| C92 | the two ways to UTM coordinates agree | C72's description of the Earth-centred position, C85 and the Lipschitz bounds of the projection (PropRoutes.v) |
| C93 | a series of assignments | C63 by induction over the series; two attributes never overlap, by induction over the paths; patches of disjoint ranges commute (PropSeries.v) |
| C94 | changing the elements of a list in place | generalises C77 to any new elements: the rest of the object is a context that does not depend on them, by induction over the path (Rewrite.v, PropRewrite.v) |
| C95 | programs that make, receive, change and write objects | the objects at hand have disjoint sets of heap locations, an invariant of every operation, by induction over the program; what an object holds depends on its own locations only (Client.v, PropClient.v) |
| C96 | assigning a record to an attribute | the rest of the object is a context that does not depend on the record, by induction over the path (Replace.v, PropReplace.v) |
| C97 | copying a record from one object to another | the source record has its bytes within the source, by induction over the path; then C96, and C63 for both objects (PropTransfer.v) |
| C98 | filling in a reply | induction over the series: the records still to be copied stay disjoint from what the reply has taken over (PropReply.v) |
| C99 | using one record for two attributes | serialize is sound for objects that share parts; the record is found within the object by its path (PropWithin.v) |

## 3. Trusted base

* The Coq 8.16.1 kernel, and `coqchk` as a second check.
* The translator `tools/gen.py` (Python source text to `Lang.v` terms) and the reading of Python by `Interp.v`.
  Both can be checked by eye: the generated files cite file and lines for every method, and follow the source statement by
  statement.  `Validate.v` (generated by `tools/validate.py`) evaluates the 115 assertions of the codec tests of /repo/tests on
  the captured datagrams inside the model; all of them hold.
* The hand-written models of the geometry (`Real3.v`, `DeadReckoning.v`, `DeadReckoning64.v`, `RangeCoordinates.v`, `Range64.v`, `Attitude64.v`, `Utm64.v`) and of the bit field
  factory (`Bitfield.v`), each definition citing the lines it models.
* The property statements and the small specifications they use.  The specifications are: `Spec.v` (formats,
  `encode`/`decode` on value trees), the literal tables in the Prop files (`pdu_types`, `header`, field lists), and for the geometry the
  textbook definitions at the head of the Prop files (rotation matrices, ellipsoid with literal axes, ...).

### Print Assumptions
Each Prop file ends with one `Print Assumptions` of the tuple of all its theorems.

| file | result |
|------|--------|
| PropStream, PropCodec, PropFactory, PropEffects, PropBits, PropRecord, PropSize, PropHeader, PropOffsets, PropDeclared, PropCtor, PropSV, PropTransmit, PropSvList, PropTxOffsets, PropAssign, PropAggregate, PropAccept, PropAppend, PropPduOffsets, PropPduOffsets2, PropNullList, PropCost, PropDepth, PropUsers, PropThreads, PropShare, PropStack, PropSeries, PropRewrite, PropScope, PropScope2, PropClient, PropReplace, PropTransfer, PropReply, PropWithin, PropFloat | Closed under the global context |
| PropDR, PropUtm | `ClassicalDedekindReals.sig_not_dec`, `ClassicalDedekindReals.sig_forall_dec`, `FunctionalExtensionality.functional_extensionality_dep` |
| PropGeo, PropConv, PropAtt, PropDR64, PropDR64b, PropEnd, PropRange64, PropLla64, PropTrip64, PropNed64, PropAtt64, PropExample, PropTurn, PropUtm64, PropPae64, PropMap, PropTm, PropEcefUtm, PropRoutes | the same three and `Classical_Prop.classic` |

These four are axioms of Coq's standard library (its construction of the real numbers, and classical trigonometry).
No axiom is declared in this development, and none of another library is used.

## 4. What is modelled and what is not

### Files
| files | content |
|-------|---------|
| Lang, Ind, Interp, Bytes | syntax, interpreter, `struct` formats |
| ProgBase, ProgDis, Prog | the translated code: stream.py, types.py, record/*, dis7.py, PduFactory.py (every class and method) |
| Spec, Codec, Codec2, Layouts | formats, `encode`/`decode`, their algebra; the table of formats by class |
| Shift, Pure, Mono, Inv, Anywhere, Closed | theorems about the whole interpreter: relocation, purity, fuel, heap invariants |
| Rep, Dec, StreamLem, SerSound, ParSound, ParStep, ParClass, NewSound, Refine, Api, StreamApi, Padding, Classes, Special | the code refines the formats |
| CtorRun | constructor bodies: checker and soundness |
| Assign | one assignment to an attribute: paths, what changes in the heap and in the encoding |
| Append | one append to a list: the layout cut at the count and at the list, what changes in the heap and in the encoding |
| SvRun, SvList, TxRun, TxPar, Bitfield | code whose format depends on data (standard variable records, Transmitter PDU), bit fields |
| Real3, DeadReckoning, RangeCoordinates, Conv | geometry over R |
| Float64, DeadReckoning64, FloatErr | binary64 arithmetic, dead reckoning in it, propagation of rounding errors |
| Range64, FloatAbs | coordinate conversions in binary64; absolute rounding errors |
| Utm64, UtmErr, UtmTerms | UTM, range/azimuth/elevation and gravity in binary64; errors of the zone quotient and of each operation of the series |
| Attitude64, AttErr | attitude conversions in binary64; the rounding errors of turned frames |
| Examples, Demo | the programs of examples/, composed from the interpreted library and the binary64 conversions |
| RangeErr, RangeRad, RangeStep, RangeLoop | one iteration of ecef2lla in binary64, and the invariant of its loop |
| UtmShape, UtmDeriv | polynomial remainders of the UTM series (generated by tools/utmshape.py); derivatives of the series and of the ground position along curves |
| GeoStable | nearby positions have nearby geodetic coordinates (reals) |
| FloatLink | the bit patterns of the codec as Flocq numbers; the error of narrowing a double to a single |
| Prop* | the property theorems, one group of properties per file, with examples |
| Declared | the declared types of attributes (generated by tools/declared.py) |
| Validate | the assertions of /repo/tests evaluated in the model |

### Covered
* Every class of dis7.py and of the record package, and PduFactory, as an executable term.  192 classes have a proved wire format
  (`Classes.wire_classes`).  The remaining ones have theorems of their own (TransmitterPdu, IFF data, bit fields, ...) or a
  `_refuted` theorem showing the defect that keeps them from having a format.
* Every function of RangeCoordinates.py and DeadReckoning.py.
* examples/dis_sender.py and examples/dis_receiver.py: what is sent for given numbers, and what is printed for a given datagram (`Examples.v`); the
  cut of `recv(1024)` and the uncaught exceptions are modelled.  examples/dis_dead_reckoning.py with its numbers as parameters (`Demo.v`).

### Simplifications
* Geometry (except DeadReckoning64, Range64, Attitude64 and Utm64): exact real numbers for doubles; no rounding, overflow, NaN, or signed zero.  `math.atan2`, `sqrt`, division and list
  indexing raise where Python does.  While loops take a step budget and return `None` when it is exhausted.
* Codec: floats are IEEE-754 bit patterns and exact.  Integers are unbounded.  Recursion depth is bounded by an explicit fuel
  (`RecursionError`); the theorems hold for every sufficient fuel.
* Objects have no `__dict__` tricks, descriptors other than properties, or weak references; threads only as interleavings of single operations (Threads.v).  Type annotations, doc strings and imports have no meaning.
* The streams are in-memory (`io.BytesIO`); sockets and files are not modelled (createPduFromFilePath only opens a file and calls getPdu).
* `ctypes` bit fields (`record/bitfield.py`) are modelled by their layout rule (big endian, most significant bit first), not by running ctypes.

* Platform: `math.cos`, `sin`, `tan` and `** 2` of doubles and the summation order of numpy's `@` are parameters of DeadReckoning64
  (record `platform`); the accuracy theorems assume `accurate`: one unit in the last place, any summation order.  `ideal_accurate`
  exhibits such a platform.  Range64 adds `atan` and `atan2` (record `mathlib`, `accurate_math`, `ideal_math_accurate`),
  Attitude64 the summation order of `dot` and the sign of atan2(0, x <= 0) (`attlib`, `accurate_att`, `ideal_att_accurate`),
  Utm64 the powers `x ** n` for n = 3 .. 6 and the same sign of atan2 (`projlib`, `accurate_proj`, `ideal_proj_accurate`).

### Not modelled
* the sockets, output and delays of examples/, enum values that only name constants, `symbolic_names.py` beyond the constants used by the code.
