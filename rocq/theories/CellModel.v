(** Model of orthogonalization_matrix (auv_nav/tools/transformations.py:850-879) over the reals: the matrix from the coordinates of a cell to right-angled ones.
    The last row and column of the 4x4 matrix, those of the identity, are left out. *)
From Coq Require Import Reals.
Open Scope R_scope.

Definition row := (R * R * R)%type.
Definition matrix := (row * row * row)%type.
(** numpy.radians *)
Definition radians (d : R) : R := d * (PI / 180).
(** [None]: math.sqrt of a negative number is a ValueError, and a division by zero gives inf or nan, with which there is no matrix either *)
Definition orthogonalization_matrix (a b c alpha beta gamma : R) : option matrix :=
  let sina := sin (radians alpha) in let sinb := sin (radians beta) in
  let cosa := cos (radians alpha) in let cosb := cos (radians beta) in let cosg := cos (radians gamma) in
  if Req_EM_T (sina * sinb) 0 then None else
  let co := (cosa * cosb - cosg) / (sina * sinb) in
  if Rlt_dec (1 - co * co) 0 then None else
  Some ((a * sinb * sqrt (1 - co * co), 0, 0), (- a * sinb * co, b * sina, 0), (a * cosb, b * cosa, c)).
