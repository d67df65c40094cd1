(** auv_cal/cone_fitting.py over the reals: rotation_matrix (20-37), build_matrix (46-69), _distance (80-115), _from_coeffs (123-130),
    ray_intersection (199-226).  The optimiser (fit) and the plots are left out; a division by zero in ray_intersection is [Undefined], the
    others are excluded by the tests before them or by the theorems. *)
From Coq Require Import Reals Lra.
From Verif Require Import FramesModel EulerModel PlaneModel.
Open Scope R_scope.

Definition unit_of (v : vec) : vec := scale (/ norm v) v.
Definition mulv (m : mat) (v : vec) : vec :=
  (r00 m * vx v + r01 m * vy v + r02 m * vz v, r10 m * vx v + r11 m * vy v + r12 m * vz v, r20 m * vx v + r21 m * vy v + r22 m * vz v).
(** 20-37 *)
Definition rotation_matrix (axis : vec) (theta : R) : mat :=
  let axis := unit_of axis in
  let a := cos (theta / 2) in
  let s := sin (theta / 2) in
  let b := - vx axis * s in let c := - vy axis * s in let d := - vz axis * s in
  mkmat (a * a + b * b - c * c - d * d) (2 * (b * c + a * d)) (2 * (b * d - a * c))
        (2 * (b * c - a * d)) (a * a + c * c - b * b - d * d) (2 * (c * d + a * b))
        (2 * (b * d + a * c)) (2 * (c * d - a * b)) (a * a + d * d - b * b - c * c).
(** 64-69 and the transposition of 112: the coordinates in the normalised columns *)
Definition coordinates (v1 v2 v3 w : vec) : vec := (dot (unit_of v1) w, dot (unit_of v2) w, dot (unit_of v3) w).
(** 94-115 *)
Definition cone_distance (point apex axis : vec) (theta : R) : R :=
  let w := sub point apex in
  if Req_EM_T (norm w) 0 then 0
  else
    let w := unit_of w in
    let wxv := cross w axis in
    if Req_EM_T (norm wxv) 0 then norm (sub point apex) * cos theta
    else
      let n1 := unit_of wxv in
      let u := mulv (rotation_matrix n1 (- theta)) axis in
      let n2 := unit_of (cross u n1) in
      Rabs (vz (coordinates u n1 n2 w)).
(** 124-130: apex, axis and angle; the axis is a view of the coefficients, so this is also what the coefficients are afterwards. *)
Definition from_coeffs (apex axis : vec) (theta : R) : vec * vec * R :=
  let axis := unit_of axis in
  (apex, (if Rlt_dec (vx axis) 0 then scale (- 1) axis else axis), theta).
(** 199-226 *)
Inductive hits := NoHit | OneHit (p : vec) | TwoHits (p q : vec) | Undefined.
Definition ray_intersection (apex axis : vec) (theta : R) (ray_point ray_vec : vec) : hits :=
  let cos2 := cos theta * cos theta in
  let co := sub ray_point apex in
  let ray_vec := unit_of ray_vec in
  let d_v := dot ray_vec axis in
  let co_v := dot co axis in
  let d_co := dot ray_vec co in
  let co_co := dot co co in
  let a := d_v * d_v - cos2 in
  let b := 2 * (d_v * co_v - d_co * cos2) in
  let c := co_v * co_v - co_co * cos2 in
  let discriminant := b * b - 4 * a * c in
  if Rlt_dec discriminant 0 then NoHit
  else if Req_EM_T a 0 then Undefined
  else if Req_EM_T discriminant 0 then OneHit (add ray_point (scale (- b / (2 * a)) ray_vec))
  else TwoHits (add ray_point (scale ((- b - sqrt discriminant) / (2 * a)) ray_vec))
               (add ray_point (scale ((- b + sqrt discriminant) / (2 * a)) ray_vec)).
