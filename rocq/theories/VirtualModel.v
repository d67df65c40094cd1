(** Stereo camera geometry of oplab/camera_models.py:169-226, 302-345 and the virtual images of a laser line in
    scripts/laser_plane_virtual_image_generator.py:60-119, over the reals.  A pixel is (x, y) here.  np.float, which these functions use, is
    taken to exist (numpy before 1.24).  The lens of distort_point and undistort_point has no distortion: then cv2.undistortPoints gives
    ((x - cx) / fx, (y - cy) / fy) and cv2.projectPoints the inverse.  StereoCamera.triangulate_point (302-312) has the matrix of
    triangulate_lst in laser_calibrator.py (TriModel), with the pixel's cells the other way round. *)
From Coq Require Import Reals Lra List ZArith.
From Verif Require Import FramesModel EulerModel PlaneModel TriModel.
Import ListNotations.
Open Scope R_scope.

(** * oplab/camera_models.py *)
Record cam := mkcam { c_K : vec * vec * vec; c_R : vec * vec * vec; c_P : proj; c_width : Z; c_height : Z }.
Definition point2 : Type := (R * R)%type.
Definition below (a b : R) : bool := if Rlt_dec a b then true else false.
(** 169-176 *)
Definition return_valid (c : cam) (p : point2) : option point2 :=
  if (below 0 (fst p) && below (fst p) (IZR (c_width c)) && below 0 (snd p) && below (snd p) (IZR (c_height c)))%bool then Some p else None.
(** 319-334 for one of the cameras *)
Definition project (P : proj) (X : vec) : point2 :=
  let v := (vx X, vy X, vz X, 1) in (dot4 (row0 P) v / dot4 (row2 P) v, dot4 (row1 P) v / dot4 (row2 P) v).
Definition project_point (l r : cam) (X : vec) : option point2 * option point2 :=
  (return_valid l (project (c_P l) X), return_valid r (project (c_P r) X)).
(** 302-312 *)
Definition triangulate_point (l r : cam) (p q : point2) (X : vec) : Prop := triangulate_lst (snd p, fst p) (snd q, fst q) (c_P l) (c_P r) X.
(** 193-212 *)
Definition undistort_point (c : cam) (p : point2) : option point2 :=
  let '(k0, k1, _) := c_K c in
  let px := (fst p - vz k0) / vx k0 in let py := (snd p - vz k1) / vy k1 in
  return_valid c (px * vx k0 + vz k0, py * vy k1 + vz k1).
(** 214-221 *)
Definition undistort_and_rectify_point (c : cam) (p : point2) : option point2 :=
  match undistort_point c p with
  | None => None
  | Some p => let '(r0, r1, _) := c_R c in let u := (fst p, snd p, 1) in return_valid c (dot r0 u, dot r1 u)
  end.

(** * scripts/laser_plane_virtual_image_generator.py *)
Definition floor (x : R) : Z := Int_part x.
Definition ceil (x : R) : Z := (- Int_part (- x))%Z.
(** Python's round: the nearest whole number, of two the even one. *)
Definition round (x : R) : Z :=
  let n := Int_part (x + 1 / 2) in if Req_EM_T (IZR n) (x + 1 / 2) then if Z.odd n then (n - 1)%Z else n else n.
(** An image: its rows and columns, and a value for each row and column.  Rows and columns here are not negative. *)
Record image := mkimage { rows : Z; columns : Z; pixels : Z -> Z -> Z }.
Definition put (r c v : Z) (i : image) : image :=
  mkimage (rows i) (columns i) (fun r' c' => if ((r' =? r) && (c' =? c))%bool%Z then v else pixels i r' c').
(** 60-71; [None] is IndexError. *)
Definition draw (i : image) (column : Z) (y : R) : option image :=
  if (column <? columns i)%Z then
    if ((ceil y <? rows i) && (floor y <? rows i))%bool%Z then
      Some (put (floor y) column (floor ((IZR (ceil y) - y) * 255)) (put (ceil y) column (floor ((y - IZR (floor y)) * 255)) i))
    else None
  else Some i.
(** 79-83; linspace for one or more values *)
Definition linspace (a b : R) (n : nat) : list R := match n with
  | O => []
  | S O => [a]
  | S m => map (fun i => a + INR i * ((b - a) / INR m)) (seq 0 n)
  end.
Definition altitudes (amin amax step : R) : list R := linspace amin amax (Z.to_nat (floor ((amax - amin) / step) + 1)).
(** 105; the plane as a, b, c, d *)
Definition plane_point (plane : buffer) (alt x : R) : vec := let '(_, _, _, d) := plane in (x, - d, alt).
(** 104-119 *)
Fixpoint paint (l r : cam) (points : list vec) (limg rimg : image) : option (image * image) :=
  match points with
  | [] => Some (limg, rimg)
  | X :: points =>
      match project_point l r X with
      | (Some p, Some q) =>
          if ((c_width l <=? round (fst p)) || (c_width r <=? round (fst q)))%bool%Z then paint l r points limg rimg
          else match draw limg (round (fst p)) (snd p) with
            | Some limg => match draw rimg (round (fst q)) (snd q) with Some rimg => paint l r points limg rimg | None => None end
            | None => None
            end
      | _ => paint l r points limg rimg
      end
  end.
(** 100-103 *)
Definition black (c : cam) : image := mkimage (c_height c) (c_width c) (fun _ _ => 0%Z).
Definition virtual_images (l r : cam) (plane : buffer) (alt : R) (xs : list R) : option (image * image) :=
  paint l r (map (plane_point plane alt) xs) (black l) (black l).
Definition swath (width : Z) (alt : R) : list R := linspace (- (0.75 * alt)) (0.75 * alt) (Z.to_nat (floor (1.5 * IZR width))).
