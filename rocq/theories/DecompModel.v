(** auv_nav/tools/transformations.py: shear_matrix (635-663), decompose_matrix (711-793) and compose_matrix (796-847), over the reals.  A matrix is the
    [homog] of TransfModel: its 3x3 block, last column, last row and last corner.  numpy.linalg.inv and det are exact. *)
From Coq Require Import Ascii String Reals List Bool.
From Verif Require Import FramesModel EulerModel QuatModel TransfModel.
Open Scope R_scope.

(** 656-663; [None] is the ValueError. *)
Definition shear_matrix (angle : R) (direction point normal : vec) : option affine :=
  let normal := unit_vector normal in
  let direction := unit_vector direction in
  if Rlt_dec (1 / 1000000) (Rabs (vdot normal direction)) then None
  else let angle := tan angle in
    Some (mkaffine (madd identity (mscale angle (outer direction normal))) (vscale (- angle * vdot point normal) direction)).

(** * 796-847 *)
Definition hmul (a b : homog) : homog :=
  let vm (v : vec) (m : mat) : vec := (vx v * r00 m + vy v * r10 m + vz v * r20 m, vx v * r01 m + vy v * r11 m + vz v * r21 m, vx v * r02 m + vy v * r12 m + vz v * r22 m) in
  mkhomog (madd (mmul (h_lin a) (h_lin b)) (outer (h_col a) (h_row b)))
          (vadd (mdot (h_lin a) (h_col b)) (vscale (h_last b) (h_col a)))
          (vadd (vm (h_row a) (h_lin b)) (vscale (h_last a) (h_row b)))
          (vdot (h_row a) (h_col b) + h_last a * h_last b).
Definition hlin (m : mat) : homog := mkhomog m (0, 0, 0) (0, 0, 0) 1.
Definition hid : homog := hlin identity.
Definition given {A} (o : option A) (f : A -> homog) (m : homog) : homog := match o with Some a => hmul m (f a) | None => m end.
Definition hdiv (h : homog) (d : R) : homog :=
  mkhomog (lift2 (fun x _ => x / d) (h_lin h) (h_lin h)) (vx (h_col h) / d, vy (h_col h) / d, vz (h_col h) / d)
          (vx (h_row h) / d, vy (h_row h) / d, vz (h_row h) / d) (h_last h / d).
(** 832: "sxyz" is a known name *)
Definition sxyz (a : vec) : mat := match euler_matrix (Named "sxyz") (vx a) (vy a) (vz a) with Some m => m | None => identity end.
(** [None]: the last division is by zero (inf and nan in numpy). *)
Definition compose_matrix (scale shear angles translate : option vec) (perspective : option (vec * R)) : option homog :=
  let m := given perspective (fun p => mkhomog identity (0, 0, 0) (fst p) (snd p)) hid in
  let m := given translate (fun t => mkhomog identity t (0, 0, 0) 1) m in
  let m := given angles (fun a => hlin (sxyz a)) m in
  let m := given shear (fun z => hlin (mkmat 1 (vx z) (vy z) 0 1 (vz z) 0 0 1)) m in
  let m := given scale (fun s => hlin (mkmat (vx s) 0 0 0 (vy s) 0 0 0 (vz s))) m in
  if Req_EM_T (h_last m) 0 then None else Some (hdiv m (h_last m)).

(** * 711-793 *)
Record parts := mkparts { p_scale : vec; p_shear : vec; p_angles : vec; p_translate : vec; p_perspective : vec * R }.
Definition vdiv (v : vec) (k : R) : vec := (vx v / k, vy v / k, vz v / k).
Definition vcross (a b : vec) : vec := (vy a * vz b - vz a * vy b, vz a * vx b - vx a * vz b, vx a * vy b - vy a * vx b).
Definition vector_norm (v : vec) : R := sqrt (vdot v v).
(** row[0], row[1], row[2]: the columns of the matrix *)
Definition column (m : mat) (j : nat) : vec := (get m 0 j, get m 1 j, get m 2 j).
Definition det (m : mat) : R := vdot (column m 0) (vcross (column m 1) (column m 2)).
(** numpy.dot(row, inv(m)): by the adjugate *)
Definition times_inverse (r : vec) (m : mat) : vec :=
  let c0 := column m 0 in let c1 := column m 1 in let c2 := column m 2 in
  let d := det m in
  let i0 := vdiv (vcross c1 c2) d in let i1 := vdiv (vcross c2 c0) d in let i2 := vdiv (vcross c0 c1) d in
  (vx r * vx i0 + vy r * vx i1 + vz r * vx i2, vx r * vy i0 + vy r * vy i1 + vz r * vy i2, vx r * vz i0 + vy r * vz i1 + vz r * vz i2).
Definition any_above (r : vec) : bool :=
  let big x := if Rlt_dec eps (Rabs x) then true else false in (big (vx r) || big (vy r) || big (vz r))%bool.
(** 758-776: scale, shear and rows *)
Definition orthogonalise (row0 row1 row2 : vec) : vec * vec * (vec * vec * vec) :=
  let scale0 := vector_norm row0 in
  let row0 := vdiv row0 scale0 in
  let shear0 := vdot row0 row1 in
  let row1 := vsub row1 (vscale shear0 row0) in
  let scale1 := vector_norm row1 in
  let row1 := vdiv row1 scale1 in
  let shear0 := shear0 / scale1 in
  let shear1 := vdot row0 row2 in
  let row2 := vsub row2 (vscale shear1 row0) in
  let shear2 := vdot row1 row2 in
  let row2 := vsub row2 (vscale shear2 row1) in
  let scale2 := vector_norm row2 in
  let row2 := vdiv row2 scale2 in
  ((scale0, scale1, scale2), (shear0, shear1 / scale2, shear2 / scale2), (row0, row1, row2)).
(** 782-791 *)
Definition angles_of (row0 row1 row2 : vec) : vec :=
  let a1 := asin (- vz row0) in
  if Req_EM_T (cos a1) 0 then (atan2 (- vy row2) (vy row1), a1, 0) else (atan2 (vz row1) (vz row2), a1, atan2 (vy row0) (vx row0)).
(** [None] is the ValueError. *)
Definition decompose_matrix (h : homog) : option parts :=
  if Rlt_dec (Rabs (h_last h)) eps then None
  else
    let m := hdiv h (h_last h) in
    if Req_EM_T (det (h_lin m)) 0 then None
    else
      let perspective := if any_above (h_row m)
        then let p := times_inverse (h_row m) (h_lin m) in (p, h_last m - vdot p (h_col m))
        else ((0, 0, 0), 1) in
      let '(scale, shear, (row0, row1, row2)) := orthogonalise (column (h_lin m) 0) (column (h_lin m) 1) (column (h_lin m) 2) in
      let '(scale, row0, row1, row2) :=
        if Rlt_dec (vdot row0 (vcross row1 row2)) 0 then (vscale (- 1) scale, vscale (- 1) row0, vscale (- 1) row1, vscale (- 1) row2)
        else (scale, row0, row1, row2) in
      Some (mkparts scale shear (angles_of row0 row1 row2) (h_col m) perspective).
