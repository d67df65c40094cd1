(** Model of the class Arcball (auv_nav/tools/transformations.py:1402-1512) and its helpers
    arcball_map_to_sphere (1515-1530), arcball_constrain_to_axis (1533-1547) and
    arcball_nearest_axis (1550-1562), over the reals.  [None] is an exception or a vector of NaN. *)
From Coq Require Import Reals List.
From Verif Require Import FramesModel QuatModel TransfModel DecompModel.
Import ListNotations.
Open Scope R_scope.

(** transformations.py:1515-1530; a zero radius is a ZeroDivisionError. *)
Definition map_to_sphere (point center : R * R) (radius : R) : option vec :=
  if Req_EM_T radius 0 then None else
  let x := (fst point - fst center) / radius in
  let y := (snd center - snd point) / radius in
  let n := x * x + y * y in
  if Rlt_dec 1 n then Some (x / sqrt n, y / sqrt n, 0) else Some (x, y, sqrt (1 - n)).

(** transformations.py:1668-1672 [unit_vector]; that of the zero vector is NaN. *)
Definition unit_of (v : vec) : option vec :=
  if Req_EM_T (vdot v v) 0 then None else Some (unit_vector v).

(** transformations.py:1533-1547. *)
Definition constrain_to_axis (point axis : vec) : option vec :=
  let v := vsub point (vscale (vdot axis point) axis) in
  let n := vector_norm v in
  if Rlt_dec eps n then
    let v := if Rlt_dec (vz v) 0 then vscale (-1) v else v in
    Some (vx v / n, vy v / n, vz v / n)
  else if Req_EM_T (vz axis) 1 then Some (1, 0, 0)
  else unit_of (- vy axis, vx axis, 0).

(** transformations.py:1550-1562, the loop from [nearest] and [mx]; comparisons with NaN are false. *)
Fixpoint nearest_from (point : vec) (axes : list vec) (nearest : option vec) (mx : R) : option vec :=
  match axes with
  | [] => nearest
  | axis :: rest =>
    match constrain_to_axis point axis with
    | Some c => if Rlt_dec mx (vdot c point) then nearest_from point rest (Some axis) (vdot c point)
                else nearest_from point rest nearest mx
    | None => nearest_from point rest nearest mx
    end
  end.
Definition nearest_axis (point : vec) (axes : list vec) : option vec := nearest_from point axes None (-1).

(** transformations.py:1425-1450: the attributes, and the ball of a given start, the quaternion that
    [initial] stands for after its normalization or conversion; other shapes are left out. *)
Record ball := mkball { axis_ : option vec; axes_ : option (list vec); radius_ : R; center_ : R * R;
  vdown : vec; constrain_ : bool; qdown : quat; qnow : quat; qpre : quat }.
Definition new_ball (initial : quat) : ball :=
  mkball None None 1 (0, 0) (0, 0, 1) false initial initial initial.

Inductive op :=
| Place (center : R * R) (radius : R)
| SetAxes (axes : list vec)
| SetConstrain (constrain : bool)
| Down (point : R * R)
| Drag (point : R * R)
| Next (acceleration : R).

Fixpoint units (l : list vec) : option (list vec) :=
  match l with
  | [] => Some []
  | v :: r => match unit_of v, units r with Some u, Some us => Some (u :: us) | _, _ => None end
  end.

(** transformations.py:1452-1462. *)
Definition place (b : ball) (c : R * R) (r : R) : ball :=
  mkball (axis_ b) (axes_ b) r c (vdown b) (constrain_ b) (qdown b) (qnow b) (qpre b).
(** transformations.py:1464-1469: the arguments are a tuple, which is never None. *)
Definition setaxes (b : ball) (l : list vec) : option ball :=
  match units l with
  | Some us => Some (mkball (axis_ b) (Some us) (radius_ b) (center_ b) (vdown b) (constrain_ b) (qdown b) (qnow b) (qpre b))
  | None => None
  end.
(** transformations.py:1471-1473. *)
Definition setconstrain (b : ball) (c : bool) : ball :=
  mkball (axis_ b) (axes_ b) (radius_ b) (center_ b) (vdown b) c (qdown b) (qnow b) (qpre b).
(** transformations.py:1479-1488; with no nearest axis the constrained point is NaN. *)
Definition down (b : ball) (p : R * R) : option ball :=
  match map_to_sphere p (center_ b) (radius_ b) with
  | None => None
  | Some v =>
    let after a v := mkball a (axes_ b) (radius_ b) (center_ b) v (constrain_ b) (qnow b) (qnow b) (qnow b) in
    match constrain_ b, axes_ b with
    | true, Some l =>
      match nearest_axis v l with
      | Some a => match constrain_to_axis v a with Some w => Some (after (Some a) w) | None => None end
      | None => None
      end
    | _, _ => Some (after None v)
    end
  end.
(** transformations.py:1490-1504. *)
Definition drag (b : ball) (p : R * R) : option ball :=
  match map_to_sphere p (center_ b) (radius_ b) with
  | None => None
  | Some v =>
    match (match axis_ b with Some a => constrain_to_axis v a | None => Some v end) with
    | None => None
    | Some vnow =>
      let t := vcross (vdown b) vnow in
      let q := if Rlt_dec (vdot t t) eps then qdown b
               else quaternion_multiply (mkquat (vx t) (vy t) (vz t) (vdot (vdown b) vnow)) (qdown b) in
      Some (mkball (axis_ b) (axes_ b) (radius_ b) (center_ b) (vdown b) (constrain_ b) (qdown b) q (qnow b))
    end
  end.
(** transformations.py:1506-1509: [False] is the fourth argument of [quaternion_slerp], [spin], which
    then is 0; [shortestpath] keeps its default. *)
Definition next (b : ball) (a : R) : ball :=
  mkball (axis_ b) (axes_ b) (radius_ b) (center_ b) (vdown b) (constrain_ b) (qdown b)
    (quaternion_slerp (qpre b) (qnow b) (2 + a) 0 true) (qnow b).

Definition step (b : ball) (o : op) : option ball :=
  match o with
  | Place c r => Some (place b c r)
  | SetAxes l => setaxes b l
  | SetConstrain c => Some (setconstrain b c)
  | Down p => down b p
  | Drag p => drag b p
  | Next a => Some (next b a)
  end.
Fixpoint run (b : ball) (l : list op) : option ball :=
  match l with
  | [] => Some b
  | o :: r => match step b o with Some b' => run b' r | None => None end
  end.
