(** Model of opendis/RangeCoordinates.py over the reals.
    SIMPLIFICATION: arithmetic is exact; points are real triples; the geoOrigin string of lla2gcc is given already split and converted;
    a while loop runs with a step budget and yields None when the budget is used up. *)
From Coq Require Import Reals ZArith List Ascii String DecimalString.
From Verif Require Import Real3.
Import ListNotations.
Local Open Scope R_scope.

(** RangeCoordinates.py:49-51 deg2rad *)
Definition deg2rad (deg : R) : R := deg * PI / 180.

(** RangeCoordinates.py:54-56 rad2deg *)
Definition rad2deg (rad : R) : R := rad * 180 / PI.

(** RangeCoordinates.py:59-69 euclideanDistance: the loop over the indices of data from i on; dataRef[index] raises IndexError beyond its end *)
Fixpoint distance_loop (data : list R) (dataRef : option (list R)) (i : nat) (total : R) : py R :=
  match data with
  | [] => Ret total
  | x :: rest =>
      match dataRef with
      | None => distance_loop rest dataRef (S i) (total + x ^ 2)
      | Some r => match nth_error r i with
                  | Some y => distance_loop rest dataRef (S i) (total + (x - y) ^ 2)
                  | None => Raise BadIndex
                  end
      end
  end.
Definition euclideanDistance (data : list R) (dataRef : option (list R)) : py R :=
  total <-? distance_loop data dataRef 0 0 ; psqrt total.

(** RangeCoordinates.py:72-97 WGS84 *)
Definition wgs84_a : R := 6378137.
Definition wgs84_b : R := 63567523142 / 10000.
Definition wgs84_f : R := (wgs84_a - wgs84_b) / wgs84_a.
Definition wgs84_e : R := sqrt (wgs84_f * (2 - wgs84_f)).

(** RangeCoordinates.py:99-107 WGS84.g0 *)
Definition g0 (L : R) : py R :=
  d <-? psqrt (1 - 66943800229 / 10000000000000 * sin L ^ 2) ;
  pdiv (97803267715 / 10000000000 * (1 + 1931851353 / 1000000000000 * sin L ^ 2)) d.

(** round(x, 2): the nearest multiple of 1/100, ties to even (SIMPLIFICATION: of the real number, not of its double) *)
Definition round_even (x : R) : Z :=
  let n := Int_part x in
  if Rlt_dec (x - IZR n) (1 / 2) then n else if Rlt_dec (1 / 2) (x - IZR n) then (n + 1)%Z else if Z.even n then n else (n + 1)%Z.
Definition round2 (x : R) : R := IZR (round_even (100 * x)) / 100.

(** RangeCoordinates.py:149-154 the loop of GPS.ecef2lla, at most n further iterations *)
Definition lla_step (p z lat N alt : R) : py (R * R * R) :=
  sinLat <-? pdiv z (N * (1 - wgs84_e ^ 2) + alt) ;
  q <-? pdiv (z + wgs84_e ^ 2 * N * sinLat) p ;
  let lat := atan q in
  d <-? psqrt (1 - (wgs84_e * sinLat) ^ 2) ;
  N <-? pdiv wgs84_a d ;
  h <-? pdiv p (cos lat) ;
  let alt := h - N in
  Ret (lat, N, alt).
Fixpoint lla_loop (n : nat) (tolerance p z lat previousLat N alt : R) : option (py (R * R)) :=
  if Rle_dec tolerance (Rabs (lat - previousLat)) then
    match n with
    | O => None
    | S n' => match lla_step p z lat N alt with
              | Raise e => Some (Raise e)
              | Ret (lat', N', alt') => lla_loop n' tolerance p z lat' lat N' alt'
              end
    end
  else Some (Ret (lat, alt)).

(** x == y *)
Definition equal (x y : R) : bool := if Req_EM_T x y then true else false.

(** RangeCoordinates.py:117-157 GPS.ecef2lla *)
Definition ecef2lla (n : nat) (ecef : vec) (tolerance : R) : option (py vec) :=
  let x := vx ecef in
  let y := vy ecef in
  let z := vz ecef in
  let lon := atan2 y x in
  let alt := 0 in
  let N := wgs84_a in
  match psqrt (x ^ 2 + y ^ 2) with
  | Raise e => Some (Raise e)
  | Ret p =>
      let lat := 0 in
      let previousLat := 90 in
      if andb (equal x 0) (equal y 0) then
        Some (if Rlt_dec 0 z then Ret (V 90 69 (round2 (z - wgs84_b)))
              else if Rlt_dec z 0 then Ret (V (-90) 69 (round2 (- z - wgs84_b)))
              else Raise PlainException)
      else match lla_loop n tolerance p z lat previousLat N alt with
           | None => None
           | Some (Raise e) => Some (Raise e)
           | Some (Ret (lat, alt)) => Some (Ret (V (rad2deg lat) (rad2deg lon) alt))
           end
  end.
(** the default of the tolerance parameter *)
Definition default_tolerance : R := 1 / 1000000000.

(** RangeCoordinates.py:269-290 GPS.ecefvec2nedvec *)
Definition ecefvec2nedvec (lat lon : R) : mat :=
  Mat (V (- sin lat * cos lon) (- sin lat * sin lon) (cos lat))
      (V (- sin lon) (cos lon) 0)
      (V (- cos lat * cos lon) (- cos lat * sin lon) (- sin lat)).

(** continue with the coordinates of the origin *)
Definition at_origin {A} (n : nat) (origin : vec) (k : R -> R -> py A) : option (py A) :=
  match ecef2lla n origin default_tolerance with
  | None => None
  | Some (Raise e) => Some (Raise e)
  | Some (Ret lla) => Some (k (deg2rad (vx lla)) (deg2rad (vy lla)))
  end.

(** RangeCoordinates.py:235-248 GPS.ecef2ned *)
Definition ecef2ned (n : nat) (ecef origin : vec) : option (py vec) :=
  at_origin n origin (fun lat lon =>
    let Re2t := Mat (V (- sin lat * cos lon) (- sin lat * sin lon) (cos lat))
                    (V (- sin lon) (cos lon) 0)
                    (V (- cos lat * cos lon) (- cos lat * sin lon) (- sin lat)) in
    Ret (mapply Re2t (vsub ecef origin))).

(** RangeCoordinates.py:479-492 GPS.ned2ecef *)
Definition ned2ecef (n : nat) (ned origin : vec) : option (py vec) :=
  at_origin n origin (fun lat lon =>
    let Rt2e := Mat (V (- sin lat * cos lon) (- sin lon) (- cos lat * cos lon))
                    (V (- sin lat * sin lon) (cos lon) (- cos lat * sin lon))
                    (V (cos lat) 0 (- sin lat)) in
    Ret (vadd (mapply Rt2e ned) origin)).

(** RangeCoordinates.py:494-503 GPS.ned2pae *)
Definition ned2pae (ned : vec) : py vec :=
  p <-? euclideanDistance [vx ned; vy ned; vz ned] None ;
  let alpha := atan2 (vy ned) (vx ned) in
  h <-? psqrt (vx ned ^ 2 + vy ned ^ 2) ;
  let epsilon := atan2 (- vz ned) h in
  Ret (V p (rad2deg alpha) (rad2deg epsilon)).

(** RangeCoordinates.py:251-260 GPS.ecef2pae *)
Definition ecef2pae (n : nat) (ecef origin : vec) : option (py vec) :=
  match ecef2ned n ecef origin with
  | None => None
  | Some (Raise e) => Some (Raise e)
  | Some (Ret ned) => Some (ned2pae ned)
  end.

(** RangeCoordinates.py:293-313 GPS.lla2ecef *)
Definition lla2ecef (lla : vec) : py vec :=
  let lat := deg2rad (vx lla) in
  let lon := deg2rad (vy lla) in
  let alt := vz lla in
  d <-? psqrt (1 - (wgs84_e * sin lat) ^ 2) ;
  N <-? pdiv wgs84_a d ;
  let x := (N + alt) * cos lat * cos lon in
  let y := (N + alt) * cos lat * sin lon in
  let z := (N * (1 - wgs84_e ^ 2) + alt) * sin lat in
  Ret (V x y z).

(** RangeCoordinates.py:316-329 GPS.lla2gcc; geoOrigin: lon0, lat0, a0 *)
Definition lla2gcc (lla : vec) (geoOrigin : option (R * R * R)) : py vec :=
  o <-? match geoOrigin with
        | Some (lon0, lat0, a0) => lla2ecef (V lat0 lon0 a0)
        | None => Ret (V 0 0 0)
        end ;
  q <-? lla2ecef lla ;
  Ret (V (vx q - vx o) (vy q - vy o) (vz q - vz o)).

(** int(x) of a float *)
Definition pyint (x : R) : Z := if Rlt_dec x 0 then (- Int_part (- x))%Z else Int_part x.

(** lo <= x < hi *)
Definition between (lo x hi : R) : bool := if Rle_dec lo x then if Rlt_dec x hi then true else false else false.

(** RangeCoordinates.py:542-564 GPS.utmLetterDesignator *)
Definition utmLetterDesignator (lat : R) : ascii :=
  if between (-80) lat (-72) then "C"%char
  else if between (-72) lat (-64) then "D"%char
  else if between (-64) lat (-56) then "E"%char
  else if between (-56) lat (-48) then "F"%char
  else if between (-48) lat (-40) then "G"%char
  else if between (-40) lat (-32) then "H"%char
  else if between (-32) lat (-24) then "J"%char
  else if between (-24) lat (-16) then "K"%char
  else if between (-16) lat (-8) then "L"%char
  else if between (-8) lat 0 then "M"%char
  else if between 0 lat 8 then "N"%char
  else if between 8 lat 16 then "P"%char
  else if between 16 lat 24 then "Q"%char
  else if between 24 lat 32 then "R"%char
  else if between 32 lat 40 then "S"%char
  else if between 40 lat 48 then "T"%char
  else if between 48 lat 56 then "U"%char
  else if between 56 lat 64 then "V"%char
  else if between 64 lat 72 then "W"%char
  else if between 72 lat 80 then "X"%char
  else "Z"%char.

(** RangeCoordinates.py:346-355 the zone number computed by GPS.lla2utm *)
Definition utm_zone (lat lon : R) : Z :=
  let zoneNumber := (pyint ((lon + 180) / 6) + 1)%Z in
  let zoneNumber := if between 56 lat 64 then if between 3 lon 12 then 32%Z else zoneNumber else zoneNumber in
  if between 72 lat 84 then
    if between 0 lon 9 then 31%Z
    else if between 9 lon 21 then 33%Z
    else if between 21 lon 33 then 35%Z
    else if between 33 lon 42 then 37%Z
    else zoneNumber
  else zoneNumber.

Record utm_result := UTM { utm_x : R; utm_y : R; utm_alt : R; utm_zone_name : string; utm_k : R }.
Definition k0 : R := 9996 / 10000.

(** RangeCoordinates.py:332-400 GPS.lla2utm *)
Definition lla2utm (lla : vec) : py utm_result :=
  let lat := vx lla in
  let lon := vy lla in
  let alt := vz lla in
  let zoneNumber := utm_zone lat lon in
  let zone := append (NilZero.string_of_int (Z.to_int zoneNumber)) (String (utmLetterDesignator lat) EmptyString) in
  let lonOrigin := ((zoneNumber - 1) * 6 - 180 + 3)%Z in
  let latRad := deg2rad lat in
  let lonRad := deg2rad lon in
  let lonOriginRad := deg2rad (IZR lonOrigin) in
  let eSquared := wgs84_e ^ 2 in
  ePrimeSquared <-? pdiv eSquared (1 - eSquared) ;
  d <-? psqrt (1 - eSquared * sin latRad ^ 2) ;
  N <-? pdiv wgs84_a d ;
  let T := tan latRad ^ 2 in
  let C := ePrimeSquared * cos latRad ^ 2 in
  let A := (lonRad - lonOriginRad) * cos latRad in
  let M := wgs84_a * (
      (1 - eSquared / 4 - 3 * eSquared ^ 2 / 64 - 5 * eSquared ^ 3 / 256) * latRad -
      (3 * eSquared / 8 + 3 * eSquared ^ 2 / 32 + 45 * eSquared ^ 3 / 1024) * sin (2 * latRad) +
      (15 * eSquared ^ 2 / 256 + 45 * eSquared ^ 3 / 1024) * sin (4 * latRad) -
      (35 * eSquared ^ 3 / 3072) * sin (6 * latRad)) in
  let M0 := 0 in
  let x := k0 * N * (
      A + (1 - T + C) * A ^ 3 / 6 +
      (5 - 18 * T + T ^ 2 + 72 * C - 58 * ePrimeSquared) * A ^ 5 / 120) + 500000 in
  let y := k0 * (
      M - M0 + N * tan latRad * (
          A ^ 2 / 2 +
          (5 - T + 9 * C + 4 * C ^ 2) * A ^ 4 / 24 +
          (61 - 58 * T + T ^ 2 + 600 * C - 330 * ePrimeSquared) * A ^ 6 / 720)) in
  let k := k0 * (1 +
      (1 + C) * A ^ 2 / 2 +
      (5 - 4 * T + 42 * C + 13 * C ^ 2 - 28 * ePrimeSquared) * A ^ 4 / 24 +
      (61 - 148 * T + 16 * T ^ 2) * A ^ 6 / 720) in
  Ret (UTM x y alt zone k).

(** RangeCoordinates.py:263-266 GPS.ecef2utm *)
Definition ecef2utm (n : nat) (ecef : vec) : option (py utm_result) :=
  match ecef2lla n ecef default_tolerance with
  | None => None
  | Some (Raise e) => Some (Raise e)
  | Some (Ret lla) => Some (lla2utm lla)
  end.

(** RangeCoordinates.py:506-530 GPS.rotate_3x3; nnt[i][j] = normal_vec[j] * normal_vec[i] (GPS.transpose, 533-539, makes the column) *)
Definition rotate_3x3 (theta : R) (normal_vec : vec) : mat :=
  let n_x := Mat (V 0 (- vz normal_vec) (vy normal_vec))
                 (V (vz normal_vec) 0 (- vx normal_vec))
                 (V (- vy normal_vec) (vx normal_vec) 0) in
  let nnt := Mat (vscale (vx normal_vec) normal_vec) (vscale (vy normal_vec) normal_vec) (vscale (vz normal_vec) normal_vec) in
  madd (madd (mscale (1 - cos theta) nnt) (mscale (cos theta) ident)) (mscale (sin theta) n_x).

(** RangeCoordinates.py:466-474 (and 221-229): the angles of the frame (x3, y3) against the reference axes X0, Y0, Z0 *)
Definition frame_angles (x3 y3 X0 Y0 Z0 : vec) : py (R * R * R) :=
  let psi := atan2 (vdot x3 Y0) (vdot x3 X0) in
  h <-? psqrt (vdot x3 X0 ^ 2 + vdot x3 Y0 ^ 2) ;
  let theta := atan2 (- vdot x3 Z0) h in
  let Y2 := mapply (rotate_3x3 psi Z0) Y0 in
  let Z2 := mapply (rotate_3x3 theta Y2) Z0 in
  let phi := atan2 (vdot y3 Z2) (vdot y3 Y2) in
  Ret (psi, theta, phi).

(** RangeCoordinates.py:437-459 (and 191-213): the frame x0, y0, z0 turned about z0 by a, the new y by b, the new x by c *)
Definition turn_frame (x0 y0 z0 : vec) (a b c : R) : vec * vec * vec :=
  let rot_array_1 := rotate_3x3 a z0 in
  let x1 := mapply rot_array_1 x0 in
  let y1 := mapply rot_array_1 y0 in
  let z1 := mapply rot_array_1 z0 in
  let rot_array_2 := rotate_3x3 b y1 in
  let x2 := mapply rot_array_2 x1 in
  let y2 := mapply rot_array_2 y1 in
  let z2 := mapply rot_array_2 z1 in
  let rot_array_3 := rotate_3x3 c x2 in
  let x3 := mapply rot_array_3 x2 in
  let y3 := mapply rot_array_3 y2 in
  let z3 := mapply rot_array_3 z2 in
  (x3, y3, z3).

(** RangeCoordinates.py:403-476 GPS.llarpy2ecef: the position and (psi, theta, phi) *)
Definition llarpy2ecef (lat lon alt roll pitch yaw : R) : py (vec * vec) :=
  XYZ <-? lla2ecef (V (rad2deg lat) (rad2deg lon) alt) ;
  let a0 := ecefvec2nedvec lat lon in
  let '(x3, y3, z3) := turn_frame (r1 a0) (r2 a0) (r3 a0) yaw pitch roll in
  a <-? frame_angles x3 y3 (V 1 0 0) (V 0 1 0) (V 0 0 1) ;
  let '(psi, theta, phi) := a in
  Ret (XYZ, V psi theta phi).

(** RangeCoordinates.py:160-232 GPS.ecef2llarpy: (lat, lon, alt) and (roll, pitch, yaw) *)
Definition ecef2llarpy (n : nat) (XYZ : vec) (psi theta phi : R) : option (py (vec * vec)) :=
  match ecef2lla n XYZ default_tolerance with
  | None => None
  | Some (Raise e) => Some (Raise e)
  | Some (Ret lla) =>
      let '(x3, y3, z3) := turn_frame (V 1 0 0) (V 0 1 0) (V 0 0 1) psi theta phi in
      let a0 := ecefvec2nedvec (deg2rad (vx lla)) (deg2rad (vy lla)) in
      Some (a <-? frame_angles x3 y3 (r1 a0) (r2 a0) (r3 a0) ;
            let '(yaw, pitch, roll) := a in
            Ret (V (deg2rad (vx lla)) (deg2rad (vy lla)) (vz lla), V roll pitch yaw))
  end.
