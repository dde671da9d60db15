(** * Model of examples/dis_dead_reckoning.py

    The program composed from the interpreted library (the Entity State PDU), the double-precision model of DeadReckoning.py and that of RangeCoordinates.py.
    SIMPLIFICATIONS: printing is left out, and what is printed is a value; the numbers that the program has as literals are parameters (only the step of half a second is kept);
    an uncaught exception is [Failed]; loops that have not ended after k iterations are [Looping]; the components of numpy arrays are doubles like any other. *)
From Coq Require Import ZArith String List.
From Coq Require Import Strings.Byte.
From Flocq Require Import Core Binary Bits.
From Verif Require Import Lang Bytes Interp ProgDis Prog Api PropFactory Assign Float64 DeadReckoning64 Range64 Attitude64 Utm64 PropEnd Examples.
Import ListNotations.
Open Scope string_scope. Open Scope Z_scope. Open Scope list_scope.

(** dis_dead_reckoning.py:18-44: the Entity State PDU with the given state *)
Definition demo_pdu (n : nat) (m : motion) : M Interp.val :=
  pdu <~ new the_prog n "EntityStatePdu" [] ;
  _ <~ put_float n pdu ["entityLocation"] "x" (fx (m_loc m)) ;
  _ <~ put_float n pdu ["entityLocation"] "y" (fy (m_loc m)) ;
  _ <~ put_float n pdu ["entityLocation"] "z" (fz (m_loc m)) ;
  _ <~ put_float n pdu ["entityLinearVelocity"] "x" (fx (m_vel m)) ;
  _ <~ put_float n pdu ["entityLinearVelocity"] "y" (fy (m_vel m)) ;
  _ <~ put_float n pdu ["entityLinearVelocity"] "z" (fz (m_vel m)) ;
  _ <~ put_float n pdu ["deadReckoningParameters"; "entityLinearAcceleration"] "x" (fx (m_acc m)) ;
  _ <~ put_float n pdu ["deadReckoningParameters"; "entityLinearAcceleration"] "y" (fy (m_acc m)) ;
  _ <~ put_float n pdu ["deadReckoningParameters"; "entityLinearAcceleration"] "z" (fz (m_acc m)) ;
  _ <~ put_float n pdu ["entityOrientation"] "psi" (fx (m_ori m)) ;
  _ <~ put_float n pdu ["entityOrientation"] "theta" (fy (m_ori m)) ;
  _ <~ put_float n pdu ["entityOrientation"] "phi" (fz (m_ori m)) ;
  _ <~ put_float n pdu ["deadReckoningParameters"; "entityAngularVelocity"] "x" (fx (m_spin m)) ;
  _ <~ put_float n pdu ["deadReckoningParameters"; "entityAngularVelocity"] "y" (fy (m_spin m)) ;
  _ <~ put_float n pdu ["deadReckoningParameters"; "entityAngularVelocity"] "z" (fz (m_spin m)) ;
  Interp.ret pdu.

(** dis_dead_reckoning.py:51-63: the lists taken from the PDU *)
Definition readp (n : nat) (s : st) (o : Interp.val) (path : list string) (x y z : string) : option fvec :=
  match read_float n s o (path ++ [x]), read_float n s o (path ++ [y]), read_float n s o (path ++ [z]) with Some x, Some y, Some z => Some (FV x y z) | _, _, _ => None end.
Definition read_motion (n : nat) (s : st) (o : Interp.val) : option motion :=
  match readp n s o ["entityLocation"] "x" "y" "z", readp n s o ["entityLinearVelocity"] "x" "y" "z",
        readp n s o ["deadReckoningParameters"; "entityLinearAcceleration"] "x" "y" "z", readp n s o ["entityOrientation"] "psi" "theta" "phi",
        readp n s o ["deadReckoningParameters"; "entityAngularVelocity"] "x" "y" "z" with
  | Some loc, Some vel, Some acc, Some ori, Some spin => Some {| m_loc := loc; m_vel := vel; m_acc := acc; m_ori := ori; m_spin := spin |}
  | _, _, _, _, _ => None
  end.

(** dis_dead_reckoning.py:76-95: while current_sim_time <= simulation_duration, from the time t; the times and positions printed, None when k iterations do not suffice *)
Fixpoint frames (L : platform) (k : nat) (m : motion) (t duration : f64) : option (fres (list (f64 * fvec))) :=
  if fle t duration then
    match k with
    | O => None
    | S k =>
        match drm_rvw64 L (m_loc m) (m_vel m) (m_acc m) t (m_ori m) (m_spin m) with
        | FRet (new_pos, _) =>
            match frames L k m (fadd t f_half) duration with
            | Some (FRet l) => Some (FRet ((t, new_pos) :: l))
            | other => other
            end
        | FOverflow => Some FOverflow
        | FDomain => Some FDomain
        end
    end
  else Some (FRet []).

(** what is printed: the frames, the start and the end of the second run as Earth-centred coordinates, the end as latitude, longitude and altitude *)
Inductive shown :=
| Shown (frames : list (f64 * fvec)) (start final lla : fvec)
| Failed
| Looping.

(** dis_dead_reckoning.py:16-145 run_demo; new_pos after a loop without iterations is unbound *)
Definition run_demo (L : platform) (K : mathlib) (n k : nat) (m : motion) (duration : f64) (start_lla : fvec) : shown :=
  match demo_pdu n m (mkst [] [] [] []) with
  | (Exc _, _) => Failed
  | (Ok pdu, s) =>
      match read_motion n s pdu with
      | None => Failed
      | Some m =>
          match frames L k m f_zero duration with
          | None => Looping
          | Some FOverflow | Some FDomain => Failed
          | Some (FRet l) =>
              match rev l with
              | [] => Failed
              | (_, new_pos) :: _ =>
                  match lla2ecef64 K start_lla with
                  | GRaise _ => Failed
                  | GRet start_ecef =>
                      let final := FV (fadd (fx start_ecef) (fx new_pos)) (fadd (fy start_ecef) (fy new_pos)) (fadd (fz start_ecef) (fz new_pos)) in
                      match ecef2lla64 K k final f_nano with
                      | None => Looping
                      | Some (GRaise _) => Failed
                      | Some (GRet lla) => Shown l start_ecef final lla
                      end
                  end
              end
          end
      end
  end.
