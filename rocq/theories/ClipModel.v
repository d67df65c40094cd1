(** Model of clip_matrix (auv_nav/tools/transformations.py:579-632) over the rationals: the matrix that
    takes the points of a frustrum to normalized device coordinates.  The bounds are exact numbers
    instead of doubles; [None] is the ValueError. *)
From Verif Require Import PyBase.
Open Scope Q_scope.

(** transformations.py:1566 [_EPS = numpy.finfo(float).eps * 4.0]. *)
Definition clip_eps : Q := 1 # 1125899906842624.

Definition row : Type := (Q * Q * Q * Q)%type.
Definition mat : Type := (row * row * row * row)%type.

(** transformations.py:626-631: the matrix of a box. *)
Definition clip_box (left right bottom top near far : Q) : mat :=
  ((2 / (right - left), 0, 0, (right + left) / (left - right)),
   (0, 2 / (top - bottom), 0, (top + bottom) / (bottom - top)),
   (0, 0, 2 / (far - near), (far + near) / (near - far)),
   (0, 0, 0, 1)).

(** transformations.py:618-624: the matrix of a truncated pyramid. *)
Definition clip_pyramid (left right bottom top near far : Q) : mat :=
  let t := 2 * near in
  ((- t / (right - left), 0, (right + left) / (right - left), 0),
   (0, - t / (top - bottom), (top + bottom) / (top - bottom), 0),
   (0, 0, - (far + near) / (far - near), t * far / (far - near)),
   (0, 0, - (1), 0)).

(** transformations.py:613-632. *)
Definition clip_matrix (left right bottom top near far : Q) (perspective : bool) : option mat :=
  if Qle_bool right left || Qle_bool top bottom || Qle_bool far near then None
  else if perspective then
    if Qle_bool near clip_eps then None
    else Some (clip_pyramid left right bottom top near far)
  else Some (clip_box left right bottom top near far).

(** [numpy.dot(M, [x, y, z, 1.0])] and the division by the last coordinate, as the docstring
    (lines 592-610) has the callers do it. *)
Definition row_dot (r : row) (x y z : Q) : Q :=
  let '(a, b, c, d) := r in a * x + b * y + c * z + d.

Definition mat_dot (m : mat) (x y z : Q) : Q * Q * Q * Q :=
  let '(r0, r1, r2, r3) := m in
  (row_dot r0 x y z, row_dot r1 x y z, row_dot r2 x y z, row_dot r3 x y z).

Definition dehomog (v : Q * Q * Q * Q) : Q * Q * Q :=
  let '(x, y, z, w) := v in (x / w, y / w, z / w).
