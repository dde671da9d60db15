(** Model of the coordinate conversions of opendis/RangeCoordinates.py in IEEE binary64 arithmetic, operation by operation, in the order in which Python evaluates.
    As in DeadReckoning64, what the language does not determine (math.sin, cos, tan, atan and atan2, ** 2, the order in which numpy's dot adds) is a parameter of the model.
    SIMPLIFICATION: coordinates and tolerance are floats (ints are not modelled); the initial 0 and 90 of ecef2lla are ints in the code and the floats of the same value here;
    ecef2llarpy and llarpy2ecef are in Attitude64, lla2utm, ecef2utm, ned2pae, ecef2pae and g0 in Utm64. *)
From Coq Require Import Reals ZArith List Permutation.
From Flocq Require Import Core Binary Bits.
From Verif Require Import Float64 DeadReckoning64 RangeCoordinates.
Import ListNotations.
Local Open Scope R_scope.

(** outcomes *)
Inductive ferr := EZeroDivision | EValue | EOverflow | EException.
Inductive fpy (A : Type) := GRet (a : A) | GRaise (e : ferr).
Arguments GRet {A} _. Arguments GRaise {A} _.
Definition gbind {A B} (x : fpy A) (k : A -> fpy B) : fpy B := match x with GRet a => k a | GRaise e => GRaise e end.
Notation "x <-! e ; k" := (gbind e (fun x => k)) (at level 61, e at next level, right associativity).

(** literals: math.pi, 180, 1, 2, 90, 69 and 1e-9 *)
Definition f_pi : f64 := b64_of_bits 4614256656552045848.
Definition f_180 : f64 := b64_of_bits 4640537203540230144.
Definition f_1 : f64 := b64_of_bits 4607182418800017408.
Definition f_2 : f64 := b64_of_bits 4611686018427387904.
Definition f_90 : f64 := b64_of_bits 4636033603912859648.
Definition f_69 : f64 := b64_of_bits 4634555860285128704.
Definition f_nano : f64 := b64_of_bits 4472406533629990549.

(** the mathematical library: that of DeadReckoning64 and the inverse tangents *)
Record mathlib := { g_base : platform; g_atan : f64 -> f64; g_atan2 : f64 -> f64 -> f64 }.

(** comparisons; false if an operand is a NaN *)
Definition feq (x y : f64) : bool := match b64_compare x y with Some Eq => true | _ => false end.
Definition flt (x y : f64) : bool := match b64_compare x y with Some Lt => true | _ => false end.
Definition fge (x y : f64) : bool := match b64_compare x y with Some Lt | None => false | _ => true end.
(** x / y *)
Definition gdiv (x y : f64) : fpy f64 := if feq y f_zero then GRaise EZeroDivision else GRet (fdiv x y).
(** math.sqrt: correctly rounded (IEEE 754); ValueError for a negative number *)
Definition fsqrt : f64 -> f64 := b64_sqrt BinarySingleNaN.mode_NE.
Definition gsqrt (x : f64) : fpy f64 := if flt x f_zero then GRaise EValue else GRet (fsqrt x).

(** RangeCoordinates.py:72-97 WGS84: a and b are literals; f = (a - b) / a and e = sqrt(f * (2 - f)) are computed when the class is created *)
Definition a64 : f64 := b64_of_bits 4708606483430899712.
Definition b64 : f64 := b64_of_bits 4708583521799363153.
Definition flat64 : f64 := fdiv (fsub a64 b64) a64.
Definition e64 : f64 := fsqrt (fmul flat64 (fsub f_2 flat64)).

(** round(x, 2): the float nearest to the multiple of 1/100 nearest to x *)
Definition fround2 (x : f64) : f64 := nearest (round2 (val x)).

(** RangeCoordinates.py:49-51 deg2rad, 54-56 rad2deg *)
Definition deg2rad64 (deg : f64) : f64 := fdiv (fmul deg f_pi) f_180.
Definition rad2deg64 (rad : f64) : f64 := fdiv (fmul rad f_180) f_pi.

Section Machine.
Variable L : mathlib.
Let P := g_base L.

(** math.sin, math.cos: ValueError for an infinity; x ** 2: OverflowError if the square of a finite float is infinite *)
Definition of_fres {A} (r : fres A) : fpy A := match r with FRet a => GRet a | FOverflow => GRaise EOverflow | FDomain => GRaise EValue end.
Definition gsin (x : f64) : fpy f64 := of_fres (msin P x).
Definition gcos (x : f64) : fpy f64 := of_fres (mcos P x).
Definition gsquare (x : f64) : fpy f64 := of_fres (square P x).

(** RangeCoordinates.py:59-69 euclideanDistance of a triple; total starts as the int 0 and 0 + x is x *)
Definition euclideanDistance64 (v : fvec) : fpy f64 :=
  x2 <-! gsquare (fx v) ; y2 <-! gsquare (fy v) ; z2 <-! gsquare (fz v) ;
  gsqrt (fadd (fadd (fadd f_zero x2) y2) z2).
(** ... with dataRef *)
Definition euclideanDistanceRef64 (v w : fvec) : fpy f64 := euclideanDistance64 (fmap2 fsub v w).

(** RangeCoordinates.py:293-313 GPS.lla2ecef *)
Definition lla2ecef64 (lla : fvec) : fpy fvec :=
  let lat := deg2rad64 (fx lla) in
  let lon := deg2rad64 (fy lla) in
  let alt := fz lla in
  s <-! gsin lat ;
  q <-! gsquare (fmul e64 s) ;
  d <-! gsqrt (fsub f_1 q) ;
  N <-! gdiv a64 d ;
  clat <-! gcos lat ; clon <-! gcos lon ;
  let x := fmul (fmul (fadd N alt) clat) clon in
  slon <-! gsin lon ;
  let y := fmul (fmul (fadd N alt) clat) slon in
  e2 <-! gsquare e64 ;
  let z := fmul (fadd (fmul N (fsub f_1 e2)) alt) s in
  GRet (FV x y z).

(** RangeCoordinates.py:316-329 GPS.lla2gcc; geoOrigin: lon0, lat0, a0 (without it the ints 0 are subtracted, which changes nothing) *)
Definition lla2gcc64 (lla : fvec) (geoOrigin : option fvec) : fpy fvec :=
  match geoOrigin with
  | Some o => p0 <-! lla2ecef64 (FV (fy o) (fx o) (fz o)) ; p <-! lla2ecef64 lla ; GRet (fmap2 fsub p p0)
  | None => p <-! lla2ecef64 lla ; GRet (fmap2 fsub p (FV f_zero f_zero f_zero))
  end.

(** RangeCoordinates.py:149-154 one iteration of the loop of GPS.ecef2lla: the new lat, N and alt *)
Definition lla_step64 (p z N alt : f64) : fpy (f64 * f64 * f64) :=
  e2 <-! gsquare e64 ;
  sinLat <-! gdiv z (fadd (fmul N (fsub f_1 e2)) alt) ;
  q <-! gdiv (fadd z (fmul (fmul e2 N) sinLat)) p ;
  let lat := g_atan L q in
  es <-! gsquare (fmul e64 sinLat) ;
  d <-! gsqrt (fsub f_1 es) ;
  N <-! gdiv a64 d ;
  c <-! gcos lat ;
  h <-! gdiv p c ;
  GRet (lat, N, fsub h N).
(** the loop, at most n further iterations *)
Fixpoint lla_loop64 (n : nat) (tolerance p z lat previousLat N alt : f64) : option (fpy (f64 * f64)) :=
  if fge (b64_abs (fsub lat previousLat)) tolerance then
    match n with
    | O => None
    | S n' => match lla_step64 p z N alt with
              | GRaise e => Some (GRaise e)
              | GRet (lat', N', alt') => lla_loop64 n' tolerance p z lat' lat N' alt'
              end
    end
  else Some (GRet (lat, alt)).

(** RangeCoordinates.py:117-157 GPS.ecef2lla *)
Definition ecef2lla64 (n : nat) (ecef : fvec) (tolerance : f64) : option (fpy fvec) :=
  let x := fx ecef in
  let y := fy ecef in
  let z := fz ecef in
  let lon := g_atan2 L y x in
  match (x2 <-! gsquare x ; y2 <-! gsquare y ; gsqrt (fadd x2 y2)) with
  | GRaise e => Some (GRaise e)
  | GRet p =>
      if andb (feq x f_zero) (feq y f_zero) then
        Some (if flt f_zero z then GRet (FV f_90 f_69 (fround2 (fsub z b64)))
              else if flt z f_zero then GRet (FV (fneg f_90) f_69 (fround2 (fsub (fneg z) b64)))
              else GRaise EException)
      else match lla_loop64 n tolerance p z f_zero f_90 a64 f_zero with
           | None => None
           | Some (GRaise e) => Some (GRaise e)
           | Some (GRet (lat, alt)) => Some (GRet (FV (rad2deg64 lat) (rad2deg64 lon) alt))
           end
  end.

(** RangeCoordinates.py:235-248 GPS.ecef2ned and 479-492 GPS.ned2ecef, after the conversion of the origin; -sin(lat)*cos(lon) is (-sin(lat))*cos(lon) *)
Definition ned_rows (lat lon : f64) : fpy (f64 * f64 * f64 * f64) := sa <-! gsin lat ; co <-! gcos lon ; so <-! gsin lon ; ca <-! gcos lat ; GRet (sa, ca, so, co).
Definition ecef2ned_at64 (ecef origin : fvec) (lla : fvec) : fpy fvec :=
  r <-! ned_rows (deg2rad64 (fx lla)) (deg2rad64 (fy lla)) ;
  let '(sa, ca, so, co) := r in
  let Re2t := FM (FV (fmul (fneg sa) co) (fmul (fneg sa) so) ca) (FV (fneg so) co f_zero) (FV (fmul (fneg ca) co) (fmul (fneg ca) so) (fneg sa)) in
  GRet (l_matvec P Re2t (fmap2 fsub ecef origin)).
Definition ned2ecef_at64 (ned origin : fvec) (lla : fvec) : fpy fvec :=
  r <-! ned_rows (deg2rad64 (fx lla)) (deg2rad64 (fy lla)) ;
  let '(sa, ca, so, co) := r in
  let Rt2e := FM (FV (fmul (fneg sa) co) (fneg so) (fmul (fneg ca) co)) (FV (fmul (fneg sa) so) co (fmul (fneg ca) so)) (FV ca f_zero (fneg sa)) in
  GRet (fmap2 fadd (l_matvec P Rt2e ned) origin).
Definition after_lla64 {A} (n : nat) (origin : fvec) (k : fvec -> fpy A) : option (fpy A) :=
  match ecef2lla64 n origin f_nano with None => None | Some (GRaise e) => Some (GRaise e) | Some (GRet lla) => Some (k lla) end.
Definition ecef2ned64 (n : nat) (ecef origin : fvec) : option (fpy fvec) := after_lla64 n origin (ecef2ned_at64 ecef origin).
Definition ned2ecef64 (n : nat) (ned origin : fvec) : option (fpy fvec) := after_lla64 n origin (ned2ecef_at64 ned origin).
End Machine.

(** what is assumed of the library: one unit in the last place (of atan2, where the sign of a zero does not matter), and squares are not negative *)
Record accurate_math (L : mathlib) : Prop := {
  am_base : accurate (g_base L);
  am_square : forall x, fin x -> Rabs (val x * val x) <= huge -> 0 <= val (l_square (g_base L) x);
  am_atan : forall x, fin x -> one_ulp (g_atan L x) (atan (val x));
  am_atan2 : forall y x, fin y -> fin x -> (val y <> 0 \/ 0 < val x) -> one_ulp (g_atan2 L y x) (Real3.atan2 (val y) (val x))
}.
