(** Model of the frame conversions and lever-arm correction over the reals. *)
From Coq Require Export Reals Lra.
Open Scope R_scope.

Definition vec : Type := (R * R * R)%type.
Definition vx (v : vec) : R := fst (fst v).
Definition vy (v : vec) : R := snd (fst v).
Definition vz (v : vec) : R := snd v.

(** body_to_inertial.py:18 and inertial_to_body.py:19; [math.radians]. *)
Definition deg_to_rad : R := PI / 180.

(** body_to_inertial.py:21-58 [body_to_inertial]. *)
Definition body_to_inertial (roll pitch yaw : R) (old : vec) : vec :=
  let roll := roll * deg_to_rad in
  let pitch := pitch * deg_to_rad in
  let yaw := yaw * deg_to_rad in
  let '(old_x, old_y, old_z) := old in
  let new_x := (cos yaw * cos pitch) * old_x
               + (- sin yaw * cos roll + cos yaw * sin pitch * sin roll) * old_y
               + (sin yaw * sin roll + (cos yaw * cos roll * sin pitch)) * old_z in
  let new_y := (sin yaw * cos pitch) * old_x
               + (cos yaw * cos roll + sin roll * sin pitch * sin yaw) * old_y
               + (- cos yaw * sin roll + sin yaw * cos roll * sin pitch) * old_z in
  let new_z := (- sin pitch * old_x)
               + (cos pitch * sin roll) * old_y
               + (cos pitch * cos roll) * old_z in
  (new_x, new_y, new_z).

(** inertial_to_body.py:22-74 [inertial_to_body]; the coefficient of [old_y] in
    [new_z] (line 70) is [-cy*sr + sy*sp*sr]. *)
Definition inertial_to_body (roll pitch yaw : R) (old : vec) : vec :=
  let roll := roll * deg_to_rad in
  let pitch := pitch * deg_to_rad in
  let yaw := yaw * deg_to_rad in
  let cr := cos roll in let sr := sin roll in
  let cp := cos pitch in let sp := sin pitch in
  let cy := cos yaw in let sy := sin yaw in
  let '(old_x, old_y, old_z) := old in
  let new_x := (cy * cp) * old_x + (sy * cp) * old_y + (- sp) * old_z in
  let new_y := (- sy * cr + cy * sp * sr) * old_x
               + (cy * cr + sy * sp * sr) * old_y
               + (cp * sr) * old_z in
  let new_z := (sy * sr + cy * sp * cr) * old_x
               + (- cy * sr + sy * sp * sr) * old_y
               + (cp * cr) * old_z in
  (new_x, new_y, new_z).

(** dvl_level_arm.py:12-38 [correct_lever_arm]. *)
Definition correct_lever_arm (linear angular lever : vec) : vec :=
  let '(vx, vy, vz) := linear in
  let '(wx, wy, wz) := angular in
  let wx := wx * deg_to_rad in
  let wy := wy * deg_to_rad in
  let wz := wz * deg_to_rad in
  let '(x_offset, y_offset, z_offset) := lever in
  (vx + (wy * z_offset - wz * y_offset),
   vy + (- wx * z_offset + wz * x_offset),
   vz + (wx * y_offset - wy * x_offset)).
