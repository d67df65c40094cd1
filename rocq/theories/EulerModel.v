(** Model of auv_cal/euler_angles_from_rotation_matrix.py over the reals. *)
From Coq Require Import Reals Lra.
Open Scope R_scope.

(** math.atan2 (y, x) without signed zeros. *)
Definition atan2 (y x : R) : R :=
  if Rlt_dec 0 x then atan (y / x)
  else if Rlt_dec x 0 then (if Rle_dec 0 y then atan (y / x) + PI else atan (y / x) - PI)
  else if Rlt_dec 0 y then PI / 2
  else if Rlt_dec y 0 then - (PI / 2)
  else 0.

(** 8-9: with rtol 1e-5 and atol 1e-8. *)
Definition isclose (x y : R) : bool := if Rle_dec (Rabs (x - y)) (1 / 100000000 + 1 / 100000 * Rabs y) then true else false.

Record mat := mkmat { r00 : R; r01 : R; r02 : R; r10 : R; r11 : R; r12 : R; r20 : R; r21 : R; r22 : R }.

(** 12-29: psi, theta, phi. *)
Definition euler_angles (m : mat) : R * R * R :=
  if isclose (r20 m) (- 1) then (atan2 (r01 m) (r02 m), PI / 2, 0)
  else if isclose (r20 m) 1 then (atan2 (- r01 m) (- r02 m), - (PI / 2), 0)
  else
    let theta := - asin (r20 m) in
    let cos_theta := cos theta in
    (atan2 (r21 m / cos_theta) (r22 m / cos_theta), theta, atan2 (r10 m / cos_theta) (r00 m / cos_theta)).
