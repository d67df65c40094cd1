(** auv_cal/laser_calibrator.py: triangulation (205-235), the change to north-east-down (86-91), angles of a plane (94-128), the
    uncertainty planes of fit_and_save (843-890) and the two lasers of cal (1173, 1195), over the reals.  numpy.linalg.svd is its
    contract: the last right singular vector is a unit vector that minimises the length of the product.  float32 is left out. *)
From Coq Require Import Reals Lra List.
From Verif Require Import FramesModel EulerModel PlaneModel.
Import ListNotations.
Open Scope R_scope.

(** * Triangulation *)
(** A 3x4 matrix by rows; a pixel is (row, column). *)
Definition proj : Type := (buffer * buffer * buffer)%type.
Definition row0 (P : proj) : buffer := fst (fst P).
Definition row1 (P : proj) : buffer := snd (fst P).
Definition row2 (P : proj) : buffer := snd P.
Definition pixel : Type := (R * R)%type.
Definition dot4 (r v : buffer) : R := let '(a, b, c, d) := r in let '(x, y, z, w) := v in a * x + b * y + c * z + d * w.
Definition squares (l : list R) : R := fold_right (fun a s => a * a + s) 0 l.
(** 208-212: M v for v = (V, l1, l2) *)
Definition lst_rows (x1 x2 : pixel) (P1 P2 : proj) (v : buffer * R * R) : list R :=
  let '(V, l1, l2) := v in
  [dot4 (row0 P1) V - l1 * snd x1; dot4 (row1 P1) V - l1 * fst x1; dot4 (row2 P1) V - l1;
   dot4 (row0 P2) V - l2 * snd x2; dot4 (row1 P2) V - l2 * fst x2; dot4 (row2 P2) V - l2].
Definition cells6 (v : buffer * R * R) : list R := let '(V, l1, l2) := v in (cells V ++ [l1; l2])%list.
(** 213: [V[-1, :]] *)
Definition last_singular {A} (cells : A -> list R) (M : A -> list R) (v : A) : Prop :=
  squares (cells v) = 1 /\ forall u, squares (cells u) = 1 -> squares (M v) <= squares (M u).
(** 214-215 *)
Definition normalise (V : buffer) : vec := let '(x, y, z, w) := V in (x / w, y / w, z / w).
Definition triangulate_lst (x1 x2 : pixel) (P1 P2 : proj) (X : vec) : Prop :=
  exists v, last_singular cells6 (lst_rows x1 x2 P1 P2) v /\ snd (fst (fst v)) <> 0 /\ X = normalise (fst (fst v)).
(** 227-235 *)
Definition minus4 (k : R) (r s : buffer) : buffer := let '(a, b, c, d) := r in let '(a', b', c', d') := s in (k * a - a', k * b - b', k * c - c', k * d - d').
Definition dlt_rows (p1 p2 : pixel) (P1 P2 : proj) (V : buffer) : list R :=
  [dot4 (minus4 (snd p1) (row2 P1) (row0 P1)) V; dot4 (minus4 (fst p1) (row2 P1) (row1 P1)) V;
   dot4 (minus4 (snd p2) (row2 P2) (row0 P2)) V; dot4 (minus4 (fst p2) (row2 P2) (row1 P2)) V].
Definition triangulate_dlt (p1 p2 : pixel) (P1 P2 : proj) (X : vec) : Prop :=
  exists V, last_singular cells (dlt_rows p1 p2 P1 P2) V /\ snd V <> 0 /\ X = normalise V.

(** 86-91 *)
Definition opencv_to_ned (p : vec) : vec := (- vy p, vx p, vz p).

(** * Angles *)
Definition degrees (x : R) : R := x * 180 / PI.
(** 94-106 *)
Definition get_angle (normal reference : vec) : R :=
  let u := scale (/ norm normal) normal in
  let u := if Rlt_dec (vx u) 0 then scale (-1) u else u in
  let r := scale (/ norm reference) reference in
  degrees (atan2 (norm (cross u r)) (dot u r)).
Definition fold90 (a : R) : R :=
  let a := if Rlt_dec 90 a then a - 180 else a in
  if Rlt_dec a (-90) then a + 180 else a.
(** 109-128: plane, pitch and yaw angle *)
Definition get_angles (normal : vec) : R * R * R :=
  let n := scale (/ norm normal) normal in
  (get_angle n (1, 0, 0), fold90 (degrees (atan2 (vz n) (vx n))), fold90 (degrees (atan2 (vy n) (vx n)))).

(** * Uncertainty planes *)
Definition triple : Type := (vec * vec * vec)%type.
Definition yz_norm (p q : vec) : R := sqrt ((vy q - vy p) * (vy q - vy p) + (vz q - vz p) * (vz q - vz p)).
Definition yz_cross (p q r : vec) : R := (vy q - vy p) * (vz r - vz p) - (vz q - vz p) * (vy r - vy p).
(** 851-886; a division by zero (three equal points and min_dist = 0) is excluded in the theorems *)
Definition accepted (min_dist : R) (t : triple) : bool :=
  let '(p0, p1, p2) := t in
  if Rlt_dec (yz_norm p0 p1) min_dist then false
  else if Rlt_dec (yz_norm p0 p2) min_dist then false
  else if Rlt_dec (yz_norm p1 p2) min_dist then false
  else if Rlt_dec (Rabs (yz_cross p0 p1 p2) / (yz_norm p0 p1 * yz_norm p0 p2)) (866 / 1000) then false
  else true.
(** 846-890: [samples] are the random samples in order; [None]: the loop is still running after them. *)
Fixpoint gather (min_dist : R) (num : nat) (planes : list buffer) (samples : list triple) : option (list buffer) :=
  if Nat.ltb (length planes) num then
    match samples with
    | [] => None
    | t :: samples =>
        gather min_dist num (if accepted min_dist t then (planes ++ [let '(p0, p1, p2) := t in plane_through_3_points p0 p1 p2])%list else planes) samples
    end
  else Some planes.
(** 659, 1173, 1195: self.uncertainty_planes is emptied once, in the constructor; the planes written for the top and the bottom laser. *)
Definition two_lasers (dist_top dist_bottom : R) (num : nat) (top bottom : list triple) : option (list buffer * list buffer) :=
  match gather dist_top num [] top with
  | Some a => match gather dist_bottom num a bottom with Some b => Some (a, b) | None => None end
  | None => None
  end.
(** 802-804 *)
Definition scaled (plane : buffer) : buffer := let '(a, b, c, d) := plane in let s := 1 / a in (a * s, b * s, c * s, d * s).
