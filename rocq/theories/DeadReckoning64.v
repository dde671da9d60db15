(** Model of opendis/DeadReckoning.py in IEEE binary64 arithmetic, operation by operation, in the order in which Python and numpy evaluate.
    What the language does not determine is a parameter of the model, the record [platform]: the results of math.cos, math.sin and math.tan, of ** 2,
    and the order in which numpy's @ adds the products of a row (and whether it fuses multiplication and addition). [accurate] says what is assumed of it.
    SIMPLIFICATION: arguments are triples of floats and dt is a float (numpy's conversion of other sequences and of ints is not modelled). *)
From Coq Require Import Reals ZArith List Permutation.
From Flocq Require Import Core Binary Bits.
From Verif Require Import Float64.
Import ListNotations.
Local Open Scope R_scope.

(** numpy arrays of shape (3,) and (3, 3) *)
Record fvec := FV { fx : f64; fy : f64; fz : f64 }.
Record fmat := FM { f1 : fvec; f2 : fvec; f3 : fvec }.
Definition fmap2 (f : f64 -> f64 -> f64) (a b : fvec) : fvec := FV (f (fx a) (fx b)) (f (fy a) (fy b)) (f (fz a) (fz b)).
Definition fmap1 (f : f64 -> f64) (a : fvec) : fvec := FV (f (fx a)) (f (fy a)) (f (fz a)).

(** outcomes: a value, OverflowError of a float ** 2, or ValueError of math.cos, math.sin or math.tan of an infinity *)
Inductive fres (A : Type) := FRet (a : A) | FOverflow | FDomain.
Arguments FRet {A} _. Arguments FOverflow {A}. Arguments FDomain {A}.
Definition fbind {A B} (x : fres A) (k : A -> fres B) : fres B := match x with FRet a => k a | FOverflow => FOverflow | FDomain => FDomain end.
Notation "x <-~ e ; k" := (fbind e (fun x => k)) (at level 61, e at next level, right associativity).

(** the literals 0, 0.5 and 1e-6 (the double nearest to 10^-6, bit pattern 3eb0c6f7a0b5ed8d) *)
Definition f_zero : f64 := b64_of_bits 0.
Definition f_half : f64 := b64_of_bits 4602678819172646912.
Definition f_tiny : f64 := b64_of_bits 4517329193108106637.

(** what depends on the machine: the mathematical functions, squaring, and matrix times vector *)
Record platform := { l_cos : f64 -> f64; l_sin : f64 -> f64; l_tan : f64 -> f64; l_square : f64 -> f64; l_matvec : fmat -> fvec -> fvec }.

Section Machine.
Variable L : platform.

(** math.cos, math.sin, math.tan: ValueError for an infinity *)
Definition on_finite (f : f64 -> f64) (x : f64) : fres f64 := match x with B754_infinity _ _ _ => FDomain | _ => FRet (f x) end.
Definition mcos := on_finite (l_cos L).
Definition msin := on_finite (l_sin L).
Definition mtan := on_finite (l_tan L).
(** dt ** 2 of a Python float: OverflowError if the square of a finite float is infinite *)
Definition square (x : f64) : fres f64 :=
  match x, l_square L x with
  | B754_infinity _ _ _, y => FRet y
  | _, B754_infinity _ _ _ => FOverflow
  | _, y => FRet y
  end.
(** abs(c) < 1e-6, false if c is a NaN *)
Definition below_tiny (c : f64) : bool := match b64_compare (b64_abs c) f_tiny with Some Lt => true | _ => false end.

(** DeadReckoning.py:44-84 get_rotation_matrix *)
Definition get_rotation_matrix64 (psi theta phi : f64) : fres fmat :=
  c_psi <-~ mcos psi ; s_psi <-~ msin psi ;
  c_theta <-~ mcos theta ; s_theta <-~ msin theta ;
  c_phi <-~ mcos phi ; s_phi <-~ msin phi ;
  let r11 := fmul c_psi c_theta in
  let r12 := fsub (fmul (fmul c_psi s_theta) s_phi) (fmul s_psi c_phi) in
  let r13 := fadd (fmul (fmul c_psi s_theta) c_phi) (fmul s_psi s_phi) in
  let r21 := fmul s_psi c_theta in
  let r22 := fadd (fmul (fmul s_psi s_theta) s_phi) (fmul c_psi c_phi) in
  let r23 := fsub (fmul (fmul s_psi s_theta) c_phi) (fmul c_psi s_phi) in
  let r31 := fneg s_theta in
  let r32 := fmul c_theta s_phi in
  let r33 := fmul c_theta c_phi in
  FRet (FM (FV r11 r12 r13) (FV r21 r22 r23) (FV r31 r32 r33)).

(** DeadReckoning.py:103-114 drm_static *)
Definition drm_static64 (position orientation : fvec) : fvec * fvec := (position, orientation).

(** pos + vel * dt (DeadReckoning.py:140, 165) *)
Definition linear64 (pos vel : fvec) (dt : f64) : fvec := fmap2 fadd pos (fmap1 (fun v => fmul v dt) vel).
(** vel * dt + 0.5 * acc * (dt ** 2) (DeadReckoning.py:355, 385) *)
Definition shift64 (vel acc : fvec) (dt sq : f64) : fvec :=
  fmap2 fadd (fmap1 (fun v => fmul v dt) vel) (fmap1 (fun a => fmul (fmul f_half a) sq) acc).
(** pos + vel * dt + 0.5 * acc * (dt ** 2) (DeadReckoning.py:232, 261): the additions associate to the left *)
Definition quadratic64 (pos vel acc : fvec) (dt sq : f64) : fvec :=
  fmap2 fadd (linear64 pos vel dt) (fmap1 (fun a => fmul (fmul f_half a) sq) acc).

(** DeadReckoning.py:116-141 drm_fpw *)
Definition drm_fpw64 (position velocity : fvec) (dt : f64) (orientation : fvec) : fvec * fvec := (linear64 position velocity dt, orientation).

(** DeadReckoning.py:143-207 drm_rpw *)
Definition drm_rpw64 (position velocity : fvec) (dt : f64) (orientation angular_velocity : fvec) : fres (fvec * fvec) :=
  let new_position := linear64 position velocity dt in
  let psi := fx orientation in let theta := fy orientation in let phi := fz orientation in
  let p := fx angular_velocity in let q := fy angular_velocity in let r := fz angular_velocity in
  c_phi <-~ mcos phi ;
  s_phi <-~ msin phi ;
  c_theta <-~ mcos theta ;
  t_theta <-~ mtan theta ;
  let '(d_psi, d_theta, d_phi) :=
    if below_tiny c_theta
    then (f_zero, fsub (fmul q c_phi) (fmul r s_phi), p)
    else (fdiv (fadd (fmul q s_phi) (fmul r c_phi)) c_theta,
          fsub (fmul q c_phi) (fmul r s_phi),
          fadd p (fmul (fadd (fmul q s_phi) (fmul r c_phi)) t_theta)) in
  FRet (new_position, FV (fadd psi (fmul d_psi dt)) (fadd theta (fmul d_theta dt)) (fadd phi (fmul d_phi dt))).

(** DeadReckoning.py:209-237 drm_rvw *)
Definition drm_rvw64 (position velocity acceleration : fvec) (dt : f64) (orientation angular_velocity : fvec) : fres (fvec * fvec) :=
  sq <-~ square dt ;
  r <-~ drm_rpw64 position velocity dt orientation angular_velocity ;
  FRet (quadratic64 position velocity acceleration dt sq, snd r).

(** DeadReckoning.py:239-262 drm_fvw *)
Definition drm_fvw64 (position velocity acceleration : fvec) (dt : f64) (orientation : fvec) : fres (fvec * fvec) :=
  sq <-~ square dt ;
  FRet (quadratic64 position velocity acceleration dt sq, orientation).

(** DeadReckoning.py:264-289 drm_fpb *)
Definition drm_fpb64 (position velocity : fvec) (dt : f64) (orientation : fvec) : fres (fvec * fvec) :=
  R_wb <-~ get_rotation_matrix64 (fx orientation) (fy orientation) (fz orientation) ;
  FRet (linear64 position (l_matvec L R_wb velocity) dt, orientation).

(** DeadReckoning.py:291-325 drm_rpb *)
Definition drm_rpb64 (position velocity : fvec) (dt : f64) (orientation angular_velocity : fvec) : fres (fvec * fvec) :=
  r <-~ drm_rpw64 position (FV f_zero f_zero f_zero) dt orientation angular_velocity ;
  R_wb <-~ get_rotation_matrix64 (fx orientation) (fy orientation) (fz orientation) ;
  FRet (linear64 position (l_matvec L R_wb velocity) dt, snd r).

(** DeadReckoning.py:327-361 drm_rvb *)
Definition drm_rvb64 (position velocity acceleration : fvec) (dt : f64) (orientation angular_velocity : fvec) : fres (fvec * fvec) :=
  r <-~ drm_rpw64 position (FV f_zero f_zero f_zero) dt orientation angular_velocity ;
  R_wb <-~ get_rotation_matrix64 (fx orientation) (fy orientation) (fz orientation) ;
  sq <-~ square dt ;
  FRet (fmap2 fadd position (l_matvec L R_wb (shift64 velocity acceleration dt sq)), snd r).

(** DeadReckoning.py:363-391 drm_fvb *)
Definition drm_fvb64 (position velocity acceleration : fvec) (dt : f64) (orientation : fvec) : fres (fvec * fvec) :=
  R_wb <-~ get_rotation_matrix64 (fx orientation) (fy orientation) (fz orientation) ;
  sq <-~ square dt ;
  FRet (fmap2 fadd position (l_matvec L R_wb (shift64 velocity acceleration dt sq)), orientation).
End Machine.

(** ** What is assumed of the platform *)
(** x is a floating-point value of the sum of the products of the pairs in l: the products are added in any order, with or without fused multiply-add *)
Inductive sum_of : list (f64 * f64) -> f64 -> Prop :=
| sum_one a b : sum_of [(a, b)] (fmul a b)
| sum_first a b : sum_of [(a, b)] (fadd f_zero (fmul a b))
| sum_first_fma a b : sum_of [(a, b)] (ffma a b f_zero)
| sum_add l l1 l2 x y : Permutation l (l1 ++ l2) -> sum_of l1 x -> sum_of l2 y -> sum_of l (fadd x y)
| sum_fma l l1 a b x : Permutation l ((a, b) :: l1) -> sum_of l1 x -> sum_of l (ffma a b x).
Definition pairs (a b : fvec) : list (f64 * f64) := [(fx a, fx b); (fy a, fy b); (fz a, fz b)].

(** a result within one unit in the last place of the exact one *)
Definition one_ulp (x : f64) (exact : R) : Prop := fin x /\ Rabs (val x - exact) <= 2 * u * Rabs exact + 2 * eta.

(** cos, sin, tan and squaring within one unit in the last place; 0 ** 2 = 0; matrix times vector by adding up products *)
Record accurate (L : platform) : Prop := {
  acc_cos : forall x, fin x -> one_ulp (l_cos L x) (cos (val x));
  acc_sin : forall x, fin x -> one_ulp (l_sin L x) (sin (val x));
  acc_tan : forall x, fin x -> Rabs (tan (val x)) <= huge -> one_ulp (l_tan L x) (tan (val x));
  acc_square : forall x, fin x -> Rabs (val x * val x) <= huge -> one_ulp (l_square L x) (val x * val x);
  acc_square0 : forall x, fin x -> val x = 0 -> val (l_square L x) = 0;
  acc_matvec : forall m v, sum_of (pairs (f1 m) v) (fx (l_matvec L m v)) /\ sum_of (pairs (f2 m) v) (fy (l_matvec L m v)) /\ sum_of (pairs (f3 m) v) (fz (l_matvec L m v))
}.
