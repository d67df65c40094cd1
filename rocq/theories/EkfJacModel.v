(** Model of the EKF's motion model and its Jacobian over the reals
    (auv_nav/localisation/ekf.py:667-782).  State components by Index
    (ekf.py:23-36): 0 X, 1 Y, 2 Z, 3 ROLL, 4 PITCH, 5 YAW, 6 VX, 7 VY, 8 VZ,
    9 VROLL, 10 VPITCH, 11 VYAW; angles in radians. *)
From Coq Require Import Reals List.
Open Scope R_scope.

Definition state := nat -> R.

Definition eye (i j : nat) : R := if Nat.eqb i j then 1 else 0.

(** ekf.py:667-698 [compute_transfer_function]. *)
Definition transfer (delta : R) (s : state) (i j : nat) : R :=
  let cr := cos (s 3%nat) in let sr := sin (s 3%nat) in
  let cp := cos (s 4%nat) in let sp := sin (s 4%nat) in
  let cy := cos (s 5%nat) in let sy := sin (s 5%nat) in
  let cpi := 1 / cp in
  let tp := sp * cpi in
  match i, j with
  | 0%nat, 6%nat => cy * cp * delta
  | 0%nat, 7%nat => (cy * sp * sr - sy * cr) * delta
  | 0%nat, 8%nat => (cy * sp * cr + sy * sr) * delta
  | 1%nat, 6%nat => sy * cp * delta
  | 1%nat, 7%nat => (sy * sp * sr + cy * cr) * delta
  | 1%nat, 8%nat => (sy * sp * cr - cy * sr) * delta
  | 2%nat, 6%nat => - sp * delta
  | 2%nat, 7%nat => cp * sr * delta
  | 2%nat, 8%nat => cp * cr * delta
  | 3%nat, 9%nat => delta
  | 3%nat, 10%nat => sr * tp * delta
  | 3%nat, 11%nat => cr * tp * delta
  | 4%nat, 10%nat => cr * delta
  | 4%nat, 11%nat => - sr * delta
  | 5%nat, 10%nat => sr * cpi * delta
  | 5%nat, 11%nat => cr * cpi * delta
  | _, _ => eye i j
  end.

(** ekf.py:700-782 [compute_transfer_function_jacobian]. *)
Definition jacobian (delta : R) (s : state) (i j : nat) : R :=
  let vx := s 6%nat in let vy := s 7%nat in let vz := s 8%nat in
  let vpitch := s 10%nat in let vyaw := s 11%nat in
  let cr := cos (s 3%nat) in let sr := sin (s 3%nat) in
  let cp := cos (s 4%nat) in let sp := sin (s 4%nat) in
  let cy := cos (s 5%nat) in let sy := sin (s 5%nat) in
  let cpi := 1 / cp in
  let tp := sp * cpi in
  match i, j with
  | 0%nat, 3%nat => ((cy * sp * cr + sy * sr) * vy + (- cy * sp * sr + sy * cr) * vz) * delta
  | 0%nat, 4%nat => (- cy * sp * vx + cy * cp * sr * vy + cy * cp * cr * vz) * delta
  | 0%nat, 5%nat => (- sy * cp * vx + (- sy * sp * sr - cy * cr) * vy + (- sy * sp * cr + cy * sr) * vz) * delta
  | 1%nat, 3%nat => ((sy * sp * cr - cy * sr) * vy + (- sy * sp * sr - cy * cr) * vz) * delta
  | 1%nat, 4%nat => (- sy * sp * vx + sy * cp * sr * vy + sy * cp * cr * vz) * delta
  | 1%nat, 5%nat => (cy * cp * vx + (cy * sp * sr - sy * cr) * vy + (cy * sp * cr + sy * sr) * vz) * delta
  | 2%nat, 3%nat => (cp * cr * vy + - cp * sr * vz) * delta
  | 2%nat, 4%nat => (- cp * vx + - sp * sr * vy + - sp * cr * vz) * delta
  | 3%nat, 3%nat => 1 + (cr * tp * vpitch - sr * tp * vyaw) * delta
  | 3%nat, 4%nat => (cpi * cpi * sr * vpitch + cpi * cpi * cr * vyaw) * delta
  | 4%nat, 3%nat => (- sr * vpitch - cr * vyaw) * delta
  | 5%nat, 3%nat => (cr * cpi * vpitch - sr * cpi * vyaw) * delta
  | 5%nat, 4%nat => (sr * tp * cpi * vpitch + cr * tp * cpi * vyaw) * delta
  | _, _ => transfer delta s i j
  end.

(** ekf.py:508 [self.state = f @ self.state]. *)
Definition DIM : nat := 12.
Definition motion (delta : R) (s : state) (i : nat) : R :=
  fold_right (fun j a => transfer delta s i j * s j + a) 0 (seq 0 DIM).
