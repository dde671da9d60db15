(** Model of the attitude conversions of opendis/RangeCoordinates.py in IEEE binary64 arithmetic, operation by operation; see Range64.v for the platform.
    SIMPLIFICATION: elements of integer arrays (array([1, 0, 0])) are the doubles of the same value. *)
From Coq Require Import Reals ZArith List.
From Flocq Require Import Core Binary Bits.
From Verif Require Import Float64 DeadReckoning64 Range64.
Local Open Scope R_scope.

(** the platform: math functions, and numpy's dot of two vectors *)
Record attlib := { t_math : mathlib; t_dot : fvec -> fvec -> f64 }.

(** the negation of an element of an integer array: there is no negative zero *)
Definition ineg (x : f64) : f64 := fsub f_zero x.

Definition mmap1 (f : f64 -> f64) (m : fmat) : fmat := FM (fmap1 f (f1 m)) (fmap1 f (f2 m)) (fmap1 f (f3 m)).
Definition mmap2 (f : f64 -> f64 -> f64) (m n : fmat) : fmat := FM (fmap2 f (f1 m) (f1 n)) (fmap2 f (f2 m) (f2 n)) (fmap2 f (f3 m) (f3 n)).
(** RangeCoordinates.py:115 identity(3), and the arrays of 187-189 and 462-464 *)
Definition ex64 : fvec := FV f_1 f_zero f_zero.
Definition ey64 : fvec := FV f_zero f_1 f_zero.
Definition ez64 : fvec := FV f_zero f_zero f_1.
Definition identity64 : fmat := FM ex64 ey64 ez64.

Section Machine.
Variable T : attlib.
Notation L := (t_math T).
Notation P := (g_base L).

(** RangeCoordinates.py:506-530 GPS.rotate_3x3; nnt[i][j] = normal_vec[j] * normal_vec[i] (GPS.transpose, 533-539, makes the column); neg negates an element of normal_vec *)
Definition rotate64 (neg : f64 -> f64) (theta : f64) (n : fvec) : fpy fmat :=
  let n_x := FM (FV f_zero (neg (fz n)) (fy n)) (FV (fz n) f_zero (neg (fx n))) (FV (neg (fy n)) (fx n) f_zero) in
  let nnt := FM (fmap1 (fun x => fmul x (fx n)) n) (fmap1 (fun x => fmul x (fy n)) n) (fmap1 (fun x => fmul x (fz n)) n) in
  c <-! gcos L theta ;
  s <-! gsin L theta ;
  GRet (mmap2 fadd (mmap2 fadd (mmap1 (fmul (fsub f_1 c)) nnt) (mmap1 (fmul c) identity64)) (mmap1 (fmul s) n_x)).

(** RangeCoordinates.py:438-459 (and 192-213): the frame x0, y0, z0 turned about z0 by a, the new y by b, the new x by c *)
Definition turn_frame64 (neg : f64 -> f64) (x0 y0 z0 : fvec) (a b c : f64) : fpy (fvec * fvec * fvec) :=
  rot_array_1 <-! rotate64 neg a z0 ;
  let x1 := l_matvec P rot_array_1 x0 in
  let y1 := l_matvec P rot_array_1 y0 in
  let z1 := l_matvec P rot_array_1 z0 in
  rot_array_2 <-! rotate64 fneg b y1 ;
  let x2 := l_matvec P rot_array_2 x1 in
  let y2 := l_matvec P rot_array_2 y1 in
  let z2 := l_matvec P rot_array_2 z1 in
  rot_array_3 <-! rotate64 fneg c x2 ;
  GRet (l_matvec P rot_array_3 x2, l_matvec P rot_array_3 y2, l_matvec P rot_array_3 z2).

(** RangeCoordinates.py:467-474 (and 222-229): the angles of the frame (x3, y3) against the reference axes X0, Y0, Z0 *)
Definition frame_angles64 (neg : f64 -> f64) (x3 y3 X0 Y0 Z0 : fvec) : fpy (f64 * f64 * f64) :=
  let psi := g_atan2 L (t_dot T x3 Y0) (t_dot T x3 X0) in
  p2 <-! gsquare L (t_dot T x3 X0) ;
  q2 <-! gsquare L (t_dot T x3 Y0) ;
  h <-! gsqrt (fadd p2 q2) ;
  let theta := g_atan2 L (fneg (t_dot T x3 Z0)) h in
  m1 <-! rotate64 neg psi Z0 ;
  let Y2 := l_matvec P m1 Y0 in
  m2 <-! rotate64 fneg theta Y2 ;
  let Z2 := l_matvec P m2 Z0 in
  GRet (psi, theta, g_atan2 L (t_dot T y3 Z2) (t_dot T y3 Y2)).

(** RangeCoordinates.py:269-290 GPS.ecefvec2nedvec, by rows *)
Definition ecefvec2nedvec64 (lat lon : f64) : fpy fmat :=
  r <-! ned_rows L lat lon ;
  let '(sa, ca, so, co) := r in
  GRet (FM (FV (fmul (fneg sa) co) (fmul (fneg sa) so) ca) (FV (fneg so) co f_zero) (FV (fmul (fneg ca) co) (fmul (fneg ca) so) (fneg sa))).

(** RangeCoordinates.py:403-476 GPS.llarpy2ecef: the position and (psi, theta, phi) *)
Definition llarpy2ecef64 (lat lon alt roll pitch yaw : f64) : fpy (fvec * fvec) :=
  XYZ <-! lla2ecef64 L (FV (rad2deg64 lat) (rad2deg64 lon) alt) ;
  a0 <-! ecefvec2nedvec64 lat lon ;
  r <-! turn_frame64 fneg (f1 a0) (f2 a0) (f3 a0) yaw pitch roll ;
  let '(x3, y3, z3) := r in
  g <-! frame_angles64 ineg x3 y3 ex64 ey64 ez64 ;
  let '(psi, theta, phi) := g in
  GRet (XYZ, FV psi theta phi).

(** RangeCoordinates.py:160-232 GPS.ecef2llarpy: (lat, lon, alt) and (roll, pitch, yaw); n bounds the iterations of ecef2lla *)
Definition ecef2llarpy64 (n : nat) (XYZ : fvec) (psi theta phi : f64) : option (fpy (fvec * fvec)) :=
  match ecef2lla64 L n XYZ f_nano with
  | None => None
  | Some (GRaise e) => Some (GRaise e)
  | Some (GRet lla) => Some (
      r <-! turn_frame64 ineg ex64 ey64 ez64 psi theta phi ;
      let '(x3, y3, z3) := r in
      a0 <-! ecefvec2nedvec64 (deg2rad64 (fx lla)) (deg2rad64 (fy lla)) ;
      g <-! frame_angles64 fneg x3 y3 (f1 a0) (f2 a0) (f3 a0) ;
      let '(yaw, pitch, roll) := g in
      GRet (FV (deg2rad64 (fx lla)) (deg2rad64 (fy lla)) (fz lla), FV roll pitch yaw))
  end.
End Machine.

(** what is assumed of the platform: numpy's dot adds up the products; and, whatever the signs of the zeros, atan2(0, x) is 0 or a half turn for x = 0, and a half turn for x < 0 *)
Record accurate_att (T : attlib) : Prop := {
  at_math : accurate_math (t_math T);
  at_dot : forall a b, sum_of (pairs a b) (t_dot T a b);
  at_zero : forall y x, fin y -> fin x -> val y = 0 -> val x <= 0 ->
    one_ulp (g_atan2 (t_math T) y x) PI \/ one_ulp (g_atan2 (t_math T) y x) (- PI) \/ val x = 0 /\ fin (g_atan2 (t_math T) y x) /\ val (g_atan2 (t_math T) y x) = 0
}.
