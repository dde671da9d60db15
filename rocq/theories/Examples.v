(** * Model of examples/dis_sender.py and examples/dis_receiver.py

    The two programs, composed from the interpreted library (codec) and the double-precision model of RangeCoordinates.py.
    SIMPLIFICATIONS: a datagram is the list of its bytes; sockets, printing and time.sleep are left out, and what is printed is a value; the numbers the sender has as literals are parameters, given as doubles;
    an uncaught exception is [Crash]; a loop of ecef2lla that has not ended after k iterations is [Running]. *)
From Coq Require Import ZArith String List.
From Coq Require Import Strings.Byte.
From Flocq Require Import Core Binary Bits.
From Verif Require Import Lang Bytes Interp ProgDis Prog Api PropFactory Assign Float64 DeadReckoning64 Range64 Attitude64.
Import ListNotations.
Open Scope string_scope. Open Scope Z_scope. Open Scope list_scope.

(** o.path.a = v *)
Definition put (n : nat) (o : Interp.val) (path : list string) (a : string) (v : Interp.val) : M unit := assign n o (map Attr path) (TAttr a) v.
Definition put_float (n : nat) (o : Interp.val) (path : list string) (a : string) (x : f64) : M unit := put n o path a (VFloat (bits_of_b64 x)).
Notation "x <~ a ; b" := (Interp.bind a (fun x => b)) (at level 90, right associativity).

(** examples/dis_sender.py:24-29, 40-45: the PDU with the position e and the Euler angles a *)
Definition sender_pdu (n : nat) (e a : fvec) : M Interp.val :=
  pdu <~ new the_prog n "EntityStatePdu" [] ;
  _ <~ put n pdu ["entityID"] "entityNumber" (VInt 42) ;
  _ <~ put n pdu ["entityID"; "simulationAddress"] "site" (VInt 17) ;
  _ <~ put n pdu ["entityID"; "simulationAddress"] "application" (VInt 23) ;
  m <~ getattr n pdu "marking" ;
  _ <~ call_method the_prog n m "setString" [VStr (codes "Igor3d")] ;
  _ <~ put_float n pdu ["entityLocation"] "x" (fx e) ;
  _ <~ put_float n pdu ["entityLocation"] "y" (fy e) ;
  _ <~ put_float n pdu ["entityLocation"] "z" (fz e) ;
  _ <~ put_float n pdu ["entityOrientation"] "psi" (fx a) ;
  _ <~ put_float n pdu ["entityOrientation"] "theta" (fy a) ;
  _ <~ put_float n pdu ["entityOrientation"] "phi" (fz a) ;
  Interp.ret pdu.

(** examples/dis_sender.py:23-57 send: the datagram it sends again and again, None after an exception *)
Definition send (T : attlib) (n : nat) (lat lon alt roll pitch yaw : f64) : option (list byte) :=
  match llarpy2ecef64 T lat lon alt roll pitch yaw with
  | GRaise _ => None
  | GRet (e, a) =>
      match (pdu <~ sender_pdu n e a ; serialize n pdu) (mkst [] [] [] []) with
      | (Ok _, s) => Some (out s)
      | (Exc _, _) => None
      end
  end.

(** what the receiver prints; the values of [EntityState] are named by the labels *)
Inductive display :=
| EntityState (cls : string) (Id : Interp.val) (Latitude Longitude Altitude Yaw Pitch Roll : f64)
| Other (cls : string) (size : nat)
| Crash
| Running.

(** type(pdu).__name__ *)
Definition class_name (s : st) (o : Interp.val) : string := match o with VRef l => match nth_error (heap s) l with Some (HInst c _) => c | _ => "" end | _ => "NoneType" end.
(** the double o.path *)
Definition read_float (n : nat) (s : st) (o : Interp.val) (path : list string) : option f64 :=
  match fst (reach n o (map Attr path) s) with Ok (VFloat b) => Some (b64_of_bits b) | _ => None end.
Definition read3 (n : nat) (s : st) (o : Interp.val) (a x y z : string) : option fvec :=
  match read_float n s o [a; x], read_float n s o [a; y], read_float n s o [a; z] with Some x, Some y, Some z => Some (FV x y z) | _, _, _ => None end.

(** examples/dis_receiver.py:24-54 recv, for a datagram that arrives when the objects of h exist; recv(1024) drops what is beyond 1024 bytes *)
Definition recv (T : attlib) (n k : nat) (h : list hobj) (datagram : list byte) : display :=
  let data := firstn 1024 datagram in
  match factory n h data with
  | (Exc _, _) => Crash
  | (Ok pdu, s) =>
      match fst (getattr n pdu "pduType" s) with
      | Ok (VInt 1) =>
          match read3 n s pdu "entityLocation" "x" "y" "z", read3 n s pdu "entityOrientation" "psi" "theta" "phi" with
          | Some loc, Some ori =>
              match ecef2llarpy64 T k loc (fx ori) (fy ori) (fz ori) with
              | None => Running
              | Some (GRaise _) => Crash
              | Some (GRet (body012, body345)) =>
                  match fst (reach n pdu (map Attr ["entityID"; "entityNumber"]) s) with
                  | Ok id => EntityState (class_name s pdu) id (rad2deg64 (fx body012)) (rad2deg64 (fy body012)) (fz body012) (rad2deg64 (fx body345)) (rad2deg64 (fy body345)) (rad2deg64 (fz body345))
                  | Exc _ => Crash
                  end
              end
          | _, _ => Crash
          end
      | Ok _ => Other (class_name s pdu) (length data)
      | Exc _ => Crash
      end
  end.
