(** Model of the rest of opendis/RangeCoordinates.py in IEEE binary64 arithmetic: the UTM projection, range/azimuth/elevation, and surface gravity.
    Operation by operation, in the order in which Python evaluates; see Range64 for what is a parameter of the model. The results of ** 3, ** 4, ** 5 and ** 6 are a further parameter.
    SIMPLIFICATION: coordinates are floats (ints are not modelled). *)
From Coq Require Import Reals ZArith List String Ascii DecimalString.
From Flocq Require Import Core Binary Bits.
From Verif Require Import Float64 DeadReckoning64 RangeCoordinates Range64.
Import ListNotations.
Local Open Scope R_scope.

(** the float of an int of less than 54 bits, and the int constants and float literals with an integer value *)
Definition fint (z : Z) : f64 := binary_normalize 53 1024 eq_refl eq_refl BinarySingleNaN.mode_NE z 0 false.
(** the literals 0.9996, 9.7803267715, 0.001931851353, 0.0066943800229 *)
Definition f_k0 : f64 := b64_of_bits 4607178815920315512.
Definition f_ge : f64 := b64_of_bits 4621695452555219536.
Definition f_gk : f64 := b64_of_bits 4566551914773252084.
Definition f_ge2 : f64 := b64_of_bits 4574368116842094831.

(** the mathematical library with the power function *)
Record projlib := { j_math : mathlib; j_pow : f64 -> Z -> f64 }.

(** x <= y; lo <= x < hi *)
Definition fle (x y : f64) : bool := fge y x.
Definition fbetween (lo : Z) (x : f64) (hi : Z) : bool := andb (fle (fint lo) x) (flt x (fint hi)).
(** int(x): ValueError for a NaN, OverflowError for an infinity *)
Definition gint (x : f64) : fpy Z :=
  match x with B754_nan _ _ _ _ _ => GRaise EValue | B754_infinity _ _ _ => GRaise EOverflow | _ => GRet (Btrunc 53 1024 x) end.

(** RangeCoordinates.py:542-564 GPS.utmLetterDesignator *)
Definition utmLetterDesignator64 (lat : f64) : ascii :=
  if fbetween (-80) lat (-72) then "C"%char
  else if fbetween (-72) lat (-64) then "D"%char
  else if fbetween (-64) lat (-56) then "E"%char
  else if fbetween (-56) lat (-48) then "F"%char
  else if fbetween (-48) lat (-40) then "G"%char
  else if fbetween (-40) lat (-32) then "H"%char
  else if fbetween (-32) lat (-24) then "J"%char
  else if fbetween (-24) lat (-16) then "K"%char
  else if fbetween (-16) lat (-8) then "L"%char
  else if fbetween (-8) lat 0 then "M"%char
  else if fbetween 0 lat 8 then "N"%char
  else if fbetween 8 lat 16 then "P"%char
  else if fbetween 16 lat 24 then "Q"%char
  else if fbetween 24 lat 32 then "R"%char
  else if fbetween 32 lat 40 then "S"%char
  else if fbetween 40 lat 48 then "T"%char
  else if fbetween 48 lat 56 then "U"%char
  else if fbetween 56 lat 64 then "V"%char
  else if fbetween 64 lat 72 then "W"%char
  else if fbetween 72 lat 80 then "X"%char
  else "Z"%char.

(** RangeCoordinates.py:346-355 the zone number computed by GPS.lla2utm *)
Definition utm_zone64 (lat lon : f64) : fpy Z :=
  n <-! gint (fdiv (fadd lon (fint 180)) (fint 6)) ;
  let zoneNumber := (n + 1)%Z in
  let zoneNumber := if fbetween 56 lat 64 then if fbetween 3 lon 12 then 32%Z else zoneNumber else zoneNumber in
  GRet (if fbetween 72 lat 84 then
    if fbetween 0 lon 9 then 31%Z
    else if fbetween 9 lon 21 then 33%Z
    else if fbetween 21 lon 33 then 35%Z
    else if fbetween 33 lon 42 then 37%Z
    else zoneNumber
  else zoneNumber).

Record utm_result64 := UTM64 { utm_x64 : f64; utm_y64 : f64; utm_alt64 : f64; utm_zone_name64 : string; utm_k64 : f64 }.

Section Machine.
Variable J : projlib.
Let L := j_math J.

(** x ** n of floats for an int n > 2: OverflowError if the power of a finite float is infinite; math.tan *)
Definition gpow (x : f64) (n : Z) : fpy f64 :=
  match x, j_pow J x n with
  | B754_infinity _ _ _, y => GRet y
  | _, B754_infinity _ _ _ => GRaise EOverflow
  | _, y => GRet y
  end.
Definition gtan (x : f64) : fpy f64 := of_fres (mtan (g_base L) x).

(** RangeCoordinates.py:372-381 the meridional arc M *)
Definition meridian64 (e2 latRad : f64) : fpy f64 :=
  e4 <-! gsquare L e2 ;
  e6 <-! gpow e2 3 ;
  let c1 := fsub (fsub (fsub (fint 1) (fdiv e2 (fint 4))) (fdiv (fmul (fint 3) e4) (fint 64))) (fdiv (fmul (fint 5) e6) (fint 256)) in
  let c2 := fadd (fadd (fdiv (fmul (fint 3) e2) (fint 8)) (fdiv (fmul (fint 3) e4) (fint 32))) (fdiv (fmul (fint 45) e6) (fint 1024)) in
  s2 <-! gsin L (fmul (fint 2) latRad) ;
  let c3 := fadd (fdiv (fmul (fint 15) e4) (fint 256)) (fdiv (fmul (fint 45) e6) (fint 1024)) in
  s4 <-! gsin L (fmul (fint 4) latRad) ;
  let c4 := fdiv (fmul (fint 35) e6) (fint 3072) in
  s6 <-! gsin L (fmul (fint 6) latRad) ;
  GRet (fmul a64 (fsub (fadd (fsub (fmul c1 latRad) (fmul c2 s2)) (fmul c3 s4)) (fmul c4 s6))).

(** RangeCoordinates.py:384-386 the easting *)
Definition easting64 (N T C A ep2 : f64) : fpy f64 :=
  a3 <-! gpow A 3 ;
  t2 <-! gsquare L T ;
  a5 <-! gpow A 5 ;
  let p := fsub (fadd (fadd (fsub (fint 5) (fmul (fint 18) T)) t2) (fmul (fint 72) C)) (fmul (fint 58) ep2) in
  let s := fadd (fadd A (fdiv (fmul (fadd (fsub (fint 1) T) C) a3) (fint 6))) (fdiv (fmul p a5) (fint 120)) in
  GRet (fadd (fmul (fmul f_k0 N) s) (fint 500000)).

(** RangeCoordinates.py:382, 387-391 the northing; tan(latRad) is t *)
Definition northing64 (M N t T C A ep2 : f64) : fpy f64 :=
  a2 <-! gsquare L A ;
  c2 <-! gsquare L C ;
  a4 <-! gpow A 4 ;
  t2 <-! gsquare L T ;
  a6 <-! gpow A 6 ;
  let p := fadd (fadd (fsub (fint 5) T) (fmul (fint 9) C)) (fmul (fint 4) c2) in
  let q := fsub (fadd (fadd (fsub (fint 61) (fmul (fint 58) T)) t2) (fmul (fint 600) C)) (fmul (fint 330) ep2) in
  let s := fadd (fadd (fdiv a2 (fint 2)) (fdiv (fmul p a4) (fint 24))) (fdiv (fmul q a6) (fint 720)) in
  GRet (fmul f_k0 (fadd (fsub M (fint 0)) (fmul (fmul N t) s))).

(** RangeCoordinates.py:393-396 the scale factor *)
Definition scale64 (T C A ep2 : f64) : fpy f64 :=
  a2 <-! gsquare L A ;
  c2 <-! gsquare L C ;
  a4 <-! gpow A 4 ;
  t2 <-! gsquare L T ;
  a6 <-! gpow A 6 ;
  let p := fsub (fadd (fadd (fsub (fint 5) (fmul (fint 4) T)) (fmul (fint 42) C)) (fmul (fint 13) c2)) (fmul (fint 28) ep2) in
  let q := fadd (fsub (fint 61) (fmul (fint 148) T)) (fmul (fint 16) t2) in
  GRet (fmul f_k0 (fadd (fadd (fadd (fint 1) (fdiv (fmul (fadd (fint 1) C) a2) (fint 2))) (fdiv (fmul p a4) (fint 24))) (fdiv (fmul q a6) (fint 720)))).

(** RangeCoordinates.py:332-400 GPS.lla2utm *)
Definition lla2utm64 (lla : fvec) : fpy utm_result64 :=
  let lat := fx lla in
  let lon := fy lla in
  let alt := fz lla in
  zoneNumber <-! utm_zone64 lat lon ;
  let zone := append (NilZero.string_of_int (Z.to_int zoneNumber)) (String (utmLetterDesignator64 lat) EmptyString) in
  let lonOrigin := ((zoneNumber - 1) * 6 - 180 + 3)%Z in
  let latRad := deg2rad64 lat in
  let lonRad := deg2rad64 lon in
  let lonOriginRad := deg2rad64 (fint lonOrigin) in
  eSquared <-! gsquare L e64 ;
  ePrimeSquared <-! gdiv eSquared (fsub f_1 eSquared) ;
  s <-! gsin L latRad ;
  s2 <-! gsquare L s ;
  d <-! gsqrt (fsub f_1 (fmul eSquared s2)) ;
  N <-! gdiv a64 d ;
  t <-! gtan latRad ;
  T <-! gsquare L t ;
  c <-! gcos L latRad ;
  cc <-! gsquare L c ;
  let C := fmul ePrimeSquared cc in
  let A := fmul (fsub lonRad lonOriginRad) c in
  M <-! meridian64 eSquared latRad ;
  x <-! easting64 N T C A ePrimeSquared ;
  y <-! northing64 M N t T C A ePrimeSquared ;
  k <-! scale64 T C A ePrimeSquared ;
  GRet (UTM64 x y alt zone k).

(** RangeCoordinates.py:263-266 GPS.ecef2utm *)
Definition ecef2utm64 (n : nat) (ecef : fvec) : option (fpy utm_result64) := after_lla64 L n ecef lla2utm64.

(** RangeCoordinates.py:494-503 GPS.ned2pae *)
Definition ned2pae64 (ned : fvec) : fpy fvec :=
  p <-! euclideanDistance64 L ned ;
  let alpha := g_atan2 L (fy ned) (fx ned) in
  n2 <-! gsquare L (fx ned) ; e2 <-! gsquare L (fy ned) ;
  h <-! gsqrt (fadd n2 e2) ;
  let epsilon := g_atan2 L (fneg (fz ned)) h in
  GRet (FV p (rad2deg64 alpha) (rad2deg64 epsilon)).
(** RangeCoordinates.py:251-260 GPS.ecef2pae *)
Definition ecef2pae64 (n : nat) (ecef origin : fvec) : option (fpy fvec) :=
  match ecef2ned64 L n ecef origin with None => None | Some (GRaise e) => Some (GRaise e) | Some (GRet ned) => Some (ned2pae64 ned) end.

(** RangeCoordinates.py:99-107 WGS84.g0; sin(L) is evaluated twice *)
Definition g0_64 (lat : f64) : fpy f64 :=
  s <-! gsin L lat ;
  s2 <-! gsquare L s ;
  d <-! gsqrt (fsub f_1 (fmul f_ge2 s2)) ;
  gdiv (fmul f_ge (fadd f_1 (fmul f_gk s2))) d.
End Machine.

(** what is assumed of the library: powers within one unit in the last place as well, and atan2(0, x) for x <= 0 as in Attitude64 *)
Record accurate_proj (J : projlib) : Prop := {
  ap_math : accurate_math (j_math J);
  ap_pow : forall x n, fin x -> (3 <= n <= 6)%Z -> Rabs (val x ^ Z.to_nat n) <= huge -> one_ulp (j_pow J x n) (val x ^ Z.to_nat n);
  ap_zero : forall y x, fin y -> fin x -> val y = 0 -> val x <= 0 ->
    one_ulp (g_atan2 (j_math J) y x) PI \/ one_ulp (g_atan2 (j_math J) y x) (- PI) \/ val x = 0 /\ fin (g_atan2 (j_math J) y x) /\ val (g_atan2 (j_math J) y x) = 0
}.
