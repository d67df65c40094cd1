(** Model of oplab/camera_models.py: MonoCamera and StereoCamera, their downsizing and
    project_point.  Exact arithmetic.  np.float, used by project_point, is taken to exist
    (numpy before 1.24). *)
From Coq Require Import Qround.
From Verif Require Import PyBase.
Open Scope Q_scope.

Definition row4 : Type := (Q * Q * Q * Q)%type.
Definition row3 : Type := (Q * Q * Q)%type.
Record mono := mkmono { K : row3 * row3 * row3; P : row4 * row4 * row4; image_width : Z; image_height : Z }.

Definition times3 (r : Q) (x : row3) : row3 := let '(a, b, c) := x in (r * a, r * b, r * c).
Definition times4 (r : Q) (x : row4) : row4 := let '(a, b, c, d) := x in (r * a, r * b, r * c, r * d).
(** 40-45: the whole matrices are multiplied. *)
Definition downsize (r : Q) (m : mono) : mono :=
  let '(k0, k1, k2) := K m in
  let '(p0, p1, p2) := P m in
  mkmono (times3 r k0, times3 r k1, times3 r k2) (times4 r p0, times4 r p1, times4 r p2)
    (Qfloor (inject_Z (image_width m) * r)) (Qfloor (inject_Z (image_height m) * r)).
(** 23-38: [file] is the calibration read, if a file name was given. *)
Definition no_camera : mono := mkmono ((0, 0, 0), (0, 0, 0), (0, 0, 0)) ((0, 0, 0, 0), (0, 0, 0, 0), (0, 0, 0, 0)) 0 0.
Definition make_mono (file : option mono) (ratio : option Q) : mono :=
  match file with
  | None => no_camera
  | Some m => match ratio with None => m | Some r => downsize r m end
  end.

(** 169-176. *)
Definition return_valid (m : mono) (p : Q * Q) : option (Q * Q) :=
  let '(x, y) := p in
  if (Qltb 0 x && Qltb x (inject_Z (image_width m)) && Qltb 0 y && Qltb y (inject_Z (image_height m)))%bool then Some p else None.

(** One camera of project_point, 319-334. *)
Definition times_point (r : row4) (p : Q * Q * Q) : Q := let '(a, b, c, d) := r in let '(x, y, z) := p in a * x + b * y + c * z + d.
Definition pixel (m : mono) (p : Q * Q * Q) : Q * Q :=
  let '(p0, p1, p2) := P m in (times_point p0 p / times_point p2 p, times_point p1 p / times_point p2 p).
Definition project (m : mono) (p : Q * Q * Q) : option (Q * Q) := return_valid m (pixel m p).

(** The intrinsics read from K by distort_point and undistort_point, 179-182 and 206-209: fx, cx, fy, cy. *)
Definition intrinsics (m : mono) : Q * Q * Q * Q :=
  let '((fx, _, cx), (_, fy, cy), _) := K m in (fx, cx, fy, cy).

(** StereoCamera, 234-257: from a stereo file the two cameras are read again after having been
    made; otherwise from the files of the two.  [None] is the ZeroDivisionError of [aspect_ratio]
    (46-48) for a camera without height, such as one made without a file.  The extrinsics are
    left out. *)
Definition make_stereo (file : option (mono * mono)) (left right : option mono) (ratio : option Q) : option (mono * mono) :=
  let lr := match file with Some lr => lr | None => (make_mono left ratio, make_mono right ratio) end in
  if ((image_height (fst lr) =? 0) || (image_height (snd lr) =? 0))%Z%bool then None else Some lr.
