(** Model of auv_cal/plane_fitting.py: Plane.from_coeffs, distance, ray_intersection, and
    laser_calibrator.py: build_plane, plane_through_3_points, over the reals.  A division by
    zero (inf or nan in numpy) is not modelled: the theorems exclude it. *)
From Coq Require Import List.
From Verif Require Import FramesModel.
Import ListNotations.
Open Scope R_scope.

Definition dot (u v : vec) : R := vx u * vx v + vy u * vy v + vz u * vz v.
Definition norm (u : vec) : R := sqrt (dot u u).
Definition scale (k : R) (u : vec) : vec := (k * vx u, k * vy u, k * vz u).
Definition add (u v : vec) : vec := (vx u + vx v, vy u + vy v, vz u + vz v).
Definition sub (u v : vec) : vec := (vx u - vx v, vy u - vy v, vz u - vz v).
Definition cross (u v : vec) : vec := (vy u * vz v - vz u * vy v, vz u * vx v - vx u * vz v, vx u * vy v - vy u * vx v).

(** A numpy buffer of four cells.  [x /= n] on the view of its first [k] cells. *)
Definition buffer : Type := (R * R * R * R)%type.
Definition cells (b : buffer) : list R := let '(p, q, r, s) := b in [p; q; r; s].
Definition view3 (b : buffer) : vec := fst b.
Definition div_view3 (b : buffer) (n : R) : buffer := let '(p, q, r, s) := b in (p / n, q / n, r / n, s).
Definition div_all (b : buffer) (n : R) : buffer := let '(p, q, r, s) := b in (p / n, q / n, r / n, s / n).

(** plane_fitting.py:26-40: coeffs is a fresh copy, normal a view of it (28), so both in-place
    divisions (30 and 31) act on the first three cells. *)
Record plane := mkplane { coeffs : buffer; point : vec }.
Definition normal (p : plane) : vec := view3 (coeffs p).
Definition offset4 (p : plane) : R := snd (coeffs p).
Definition from_coeffs (given : buffer) : plane :=
  let n := norm (view3 given) in
  let b := div_view3 given n in
  let b := div_all b n in
  mkplane b (- ((1 * vy (view3 b) + 10 * vz (view3 b) + snd b) / vx (view3 b)), 1, 10).

(** 42-45. *)
Definition distance (pl : plane) (p : vec) : R := Rabs (dot (normal pl) p + offset4 pl).

(** 135-142; the ray is normalised in place. *)
Definition ray_intersection (pl : plane) (ray_point ray_vec : vec) : option vec :=
  let v := scale (/ norm ray_vec) ray_vec in
  if Req_EM_T (dot (normal pl) v) 0 then None
  else let num := dot (normal pl) (point pl) - dot (normal pl) ray_point in
       let den := dot (normal pl) v in
       Some (add ray_point (scale (num / den) v)).

(** laser_calibrator.py:27-56; the plane and the unit normal. *)
Definition build_plane (pitch yaw : R) (p : vec) : buffer * vec :=
  let b := tan (yaw * deg_to_rad) in
  let c := tan (pitch * deg_to_rad) in
  let normal := scale (/ norm (1, b, c)) (1, b, c) in
  let d := - dot normal p in
  ((1, b, c, d), normal).

(** laser_calibrator.py:59-83. *)
Definition plane_through_3_points (p0 p1 p2 : vec) : buffer :=
  let n := cross (sub p1 p0) (sub p2 p0) in
  let d := - dot n p0 in
  let b := (vx n, vy n, vz n, d) in
  if Req_EM_T (vx n) 0 then b else div_all b (vx n).
