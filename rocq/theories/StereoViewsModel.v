(** Model of StereoCalibrator.collect_corners and Calibrator.get_corners (auv_cal/camera_calibrator.py:1159-1238, 420-455): the pairs of images of a board
    that a stereo calibration from images uses.

    An image that cv2.imread cannot read is [None].  The right image is taken after it was fitted to the size of the left one (1169-1170).  OpenCV's search
    for a board is an argument, as are the sharpness (SharpModel) and the parameters of a view (ViewsModel); that they may raise is left out.  The lists of
    inliers, the debug images and last_frame_corners, which is_good_sample does not look at, are left out too. *)
From Verif Require Import PyBase ViewsModel.

Section Stereo.
Context {image corners board : Type}.
(** _get_corners or _get_circles, 134-218 and 245-292 *)
Variable detect : image -> board -> option corners.
Variable sharp : image -> corners -> board -> bool.
Variable par : corners -> board -> params.

(** 430-455: the first board that is found *)
Fixpoint get_corners (boards : list board) (img : image) : option (corners * board) :=
  match boards with
  | [] => None
  | b :: boards => match detect img b with Some c => Some (c, b) | None => get_corners boards img end
  end.

(** An entry of good_corners: left and right corners and the left board (1184) *)
Definition entry := (corners * corners * board)%type.
(** 1171-1184, for images that were read *)
Definition step (boards : list board) (c : calibrator entry) (l r : image) : calibrator entry :=
  match get_corners boards l, get_corners boards r with
  | Some (lc, lb), Some (rc, rb) =>
      let p := par lc lb in
      if is_good_sample (db c) p then
        if (sharp l lc lb && sharp r rc rb)%bool then mkcalibrator (db c ++ [p]) (good c ++ [(lc, rc, lb)]) else c
      else c
  | _, _ => c
  end.
(** 1166-1235; [None]: an image that was not read has no shape, an AttributeError (136, with at least one board) *)
Fixpoint pairs (boards : list board) (c : calibrator entry) (l : list (option image * option image)) : option (calibrator entry) :=
  match l with
  | [] => Some c
  | (Some a, Some b) :: l => pairs boards (step boards c a b) l
  | _ => None
  end.
(** [Raises c]: CalibrationException of 1236-1237 *)
Inductive outcome := Crashes | Raises (c : calibrator entry) | Collected (c : calibrator entry).
(** 1165-1237; [zip] stops at the shorter list.  1165 empties good_corners and leaves db. *)
Definition collect (boards : list board) (c : calibrator entry) (ls rs : list (option image)) : outcome :=
  match pairs boards (mkcalibrator (db c) []) (combine ls rs) with
  | None => Crashes
  | Some c => match good c with [] => Raises c | _ => Collected c end
  end.
End Stereo.
Arguments entry : clear implicits.
Arguments outcome : clear implicits.
