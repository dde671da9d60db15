(** Model of opendis/DeadReckoning.py over the reals.
    SIMPLIFICATION: arguments are real triples (numpy's conversion and broadcasting of other sequences is not modelled); arithmetic is exact;
    a division by zero is an error value (numpy scalars would give inf or nan and a warning). *)
From Coq Require Import Reals.
From Verif Require Import Real3.
Local Open Scope R_scope.

(** DeadReckoning.py:40-42 _to_numpy *)
Definition to_numpy (v : vec) : vec := v.

(** DeadReckoning.py:44-84 get_rotation_matrix *)
Definition get_rotation_matrix (psi theta phi : R) : mat :=
  let c_psi := cos psi in let s_psi := sin psi in
  let c_theta := cos theta in let s_theta := sin theta in
  let c_phi := cos phi in let s_phi := sin phi in
  let r11 := c_psi * c_theta in
  let r12 := c_psi * s_theta * s_phi - s_psi * c_phi in
  let r13 := c_psi * s_theta * c_phi + s_psi * s_phi in
  let r21 := s_psi * c_theta in
  let r22 := s_psi * s_theta * s_phi + c_psi * c_phi in
  let r23 := s_psi * s_theta * c_phi - c_psi * s_phi in
  let r31 := - s_theta in
  let r32 := c_theta * s_phi in
  let r33 := c_theta * c_phi in
  Mat (V r11 r12 r13) (V r21 r22 r23) (V r31 r32 r33).

(** DeadReckoning.py:86-101 get_angular_velocity_matrix *)
Definition get_angular_velocity_matrix (omega : vec) : mat :=
  let wx := vx omega in let wy := vy omega in let wz := vz omega in
  Mat (V 0 (- wz) wy) (V wz 0 (- wx)) (V (- wy) wx 0).

(** DeadReckoning.py:103-114 drm_static *)
Definition drm_static (position orientation : vec) : vec * vec := (to_numpy position, to_numpy orientation).

(** DeadReckoning.py:116-141 drm_fpw *)
Definition drm_fpw (position velocity : vec) (dt : R) (orientation : vec) : vec * vec :=
  let pos := to_numpy position in
  let vel := to_numpy velocity in
  let new_position := vadd pos (vscale dt vel) in
  (new_position, to_numpy orientation).

(** DeadReckoning.py:143-207 drm_rpw *)
Definition drm_rpw (position velocity : vec) (dt : R) (orientation angular_velocity : vec) : py (vec * vec) :=
  let pos := to_numpy position in
  let vel := to_numpy velocity in
  let ori := to_numpy orientation in
  let ang_vel := to_numpy angular_velocity in
  let new_position := vadd pos (vscale dt vel) in
  let psi := vx ori in let theta := vy ori in let phi := vz ori in
  let p := vx ang_vel in let q := vy ang_vel in let r := vz ang_vel in
  let c_phi := cos phi in
  let s_phi := sin phi in
  let c_theta := cos theta in
  let t_theta := tan theta in
  rates <-? (if Rlt_dec (Rabs c_theta) (1 / 1000000)
             then let d_phi := p in
                  let d_theta := q * c_phi - r * s_phi in
                  let d_psi := 0 in
                  Ret (d_psi, d_theta, d_phi)
             else let d_phi := p + (q * s_phi + r * c_phi) * t_theta in
                  let d_theta := q * c_phi - r * s_phi in
                  d_psi <-? pdiv (q * s_phi + r * c_phi) c_theta ;
                  Ret (d_psi, d_theta, d_phi)) ;
  let '(d_psi, d_theta, d_phi) := rates in
  let new_orientation := V (psi + d_psi * dt) (theta + d_theta * dt) (phi + d_phi * dt) in
  Ret (new_position, new_orientation).

(** DeadReckoning.py:209-237 drm_rvw *)
Definition drm_rvw (position velocity acceleration : vec) (dt : R) (orientation angular_velocity : vec) : py (vec * vec) :=
  let pos := to_numpy position in
  let vel := to_numpy velocity in
  let acc := to_numpy acceleration in
  let new_position := vadd (vadd pos (vscale dt vel)) (vscale (dt ^ 2) (vscale (1 / 2) acc)) in
  r <-? drm_rpw position velocity dt orientation angular_velocity ;
  Ret (new_position, snd r).

(** DeadReckoning.py:239-262 drm_fvw *)
Definition drm_fvw (position velocity acceleration : vec) (dt : R) (orientation : vec) : vec * vec :=
  let pos := to_numpy position in
  let vel := to_numpy velocity in
  let acc := to_numpy acceleration in
  let ori := to_numpy orientation in
  let new_position := vadd (vadd pos (vscale dt vel)) (vscale (dt ^ 2) (vscale (1 / 2) acc)) in
  (new_position, ori).

(** DeadReckoning.py:264-289 drm_fpb *)
Definition drm_fpb (position velocity : vec) (dt : R) (orientation : vec) : vec * vec :=
  let pos := to_numpy position in
  let vel := to_numpy velocity in
  let ori := to_numpy orientation in
  let R_wb := get_rotation_matrix (vx ori) (vy ori) (vz ori) in
  let velocity_world := mapply R_wb vel in
  let new_position := vadd pos (vscale dt velocity_world) in
  (new_position, ori).

(** DeadReckoning.py:291-325 drm_rpb *)
Definition drm_rpb (position velocity : vec) (dt : R) (orientation angular_velocity : vec) : py (vec * vec) :=
  let pos := to_numpy position in
  let vel := to_numpy velocity in
  let ori := to_numpy orientation in
  r <-? drm_rpw position vzero dt orientation angular_velocity ;
  let new_orientation := snd r in
  let R_wb := get_rotation_matrix (vx ori) (vy ori) (vz ori) in
  let velocity_world := mapply R_wb vel in
  let new_position := vadd pos (vscale dt velocity_world) in
  Ret (new_position, new_orientation).

(** DeadReckoning.py:327-361 drm_rvb *)
Definition drm_rvb (position velocity acceleration : vec) (dt : R) (orientation angular_velocity : vec) : py (vec * vec) :=
  let pos := to_numpy position in
  let vel := to_numpy velocity in
  let acc := to_numpy acceleration in
  let ori := to_numpy orientation in
  r <-? drm_rpw position vzero dt orientation angular_velocity ;
  let new_orientation := snd r in
  let R_wb := get_rotation_matrix (vx ori) (vy ori) (vz ori) in
  let displacement_body := vadd (vscale dt vel) (vscale (dt ^ 2) (vscale (1 / 2) acc)) in
  let displacement_world := mapply R_wb displacement_body in
  let new_position := vadd pos displacement_world in
  Ret (new_position, new_orientation).

(** DeadReckoning.py:363-391 drm_fvb *)
Definition drm_fvb (position velocity acceleration : vec) (dt : R) (orientation : vec) : vec * vec :=
  let pos := to_numpy position in
  let vel := to_numpy velocity in
  let acc := to_numpy acceleration in
  let ori := to_numpy orientation in
  let R_wb := get_rotation_matrix (vx ori) (vy ori) (vz ori) in
  let displacement_body := vadd (vscale dt vel) (vscale (dt ^ 2) (vscale (1 / 2) acc)) in
  let displacement_world := mapply R_wb displacement_body in
  let new_position := vadd pos displacement_world in
  (new_position, ori).
