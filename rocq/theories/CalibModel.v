(** auv_cal/camera_calibrator.py: MonoCalibrator.cal_fromcorners (685-810) and StereoCalibrator.cal_fromcorners (1240-1347): solve, leave
    out bad views, solve again, report the best of at most five solutions.  Real numbers; OpenCV's solver and the detection of corners
    are arguments. *)
From Verif Require Import PyBase.
From Coq Require Import Reals Lra.
Open Scope R_scope.

Definition sum (l : list R) : R := fold_right Rplus 0 l.
(** numpy.mean, numpy.std (population) *)
Definition mean (l : list R) : R := sum l / INR (length l).
Definition std (l : list R) : R := sqrt (mean (map (fun x => (x - mean l) * (x - mean l)) l)).

(** An entry of [self.calibrations]: what the solver found (distortion, intrinsics, R, P ... or R, T, E, F), the error, the number of views. *)
Record calibration (C : Type) := mkcalibration { found : C; avg_reprojection_error : R; num_images : nat }.
Arguments mkcalibration {C}.
Arguments found {C}.
Arguments avg_reprojection_error {C}.
Arguments num_images {C}.
Fixpoint put {A} (i : nat) (a : A) (l : list A) : list A :=
  match l, i with [], _ => [] | _ :: l, O => a :: l | x :: l, S i => x :: put i a l end.
(** 786-794, 1329-1337: the first entry with the least error *)
Definition better {C} (best : option (calibration C)) (cal : option (calibration C)) : option (calibration C) :=
  match cal, best with
  | None, _ => best
  | Some c, None => Some c
  | Some c, Some b => if Rlt_dec (avg_reprojection_error c) (avg_reprojection_error b) then Some c else best
  end.
Definition pick {C} (cals : list (option (calibration C))) : option (calibration C) := fold_left better cals None.

Section Mono.
  Context {view C : Type}.
  (** cv2.calibrateCameraExtended on the views: solution, average error, one error per view *)
  Variable solve : list view -> C * R * list R.
  Definition solution (views : list view) : C := fst (fst (solve views)).
  Definition rms (views : list view) : R := snd (fst (solve views)).
  Definition errors (views : list view) : list R := snd (solve views).

  (** 759-762 *)
  Definition acceptable (views : list view) : R := Rmax (rms views + 2 * std (errors views)) (1 / 4).
  Definition exceeds (t e : R) : bool := if Rlt_dec t e then true else false.
  (** 777-781 *)
  Definition within (views : list view) : list view :=
    map fst (filter (fun ce => negb (exceeds (acceptable views) (snd ce))) (combine views (errors views))).
  (** What is left behind: [good_corners], [calibrations], the reported calibration, and the solution that the undistortion maps of [remap]
      were made from (set_alpha, 743, 845-852).  The inner call sets the reported fields to the best entry; the outer call does it again
      from the same entries. *)
  Record state := mkstate { good_corners : list view; calibrations : list (option (calibration C)); reported : option (calibration C); maps : C }.
  (** [more] = max_iterations - 1 - iteration, with max_iterations = 5 *)
  Fixpoint cal_fromcorners (more : nat) (views : list view) (cals : list (option (calibration C))) : state :=
    let cals := put (4 - more) (Some (mkcalibration (solution views) (rms views) (length views))) cals in
    let done := mkstate views cals (pick cals) (solution views) in
    if existsb (exceeds (acceptable views)) (errors views) then
      match more with O => done | S more => cal_fromcorners more (within views) cals end
    else done.
  (** A calibrator's first call (516-517, 524, 557), and a call on a calibrator whose [calibrations] are those of an earlier one *)
  Definition calibrate (views : list view) : state := cal_fromcorners 4 views [None; None; None; None; None].
  Definition calibrate_again (earlier : state) (views : list view) : state := cal_fromcorners 4 views (calibrations earlier).
End Mono.

Section Stereo.
  Context {pair C : Type}.
  (** cv2.stereoCalibrate with fixed intrinsics (so the solution depends on the pairs only): solution and error *)
  Variable solve : list pair -> C * R.
  (** epipolar_error_from_images (1557-1583) with the rectification of a solution: [None] when the pattern is not found again *)
  Variable epipolar : C -> pair -> option R.
  Definition errors_of (c : C) (db : list pair) : list R := map (fun p => match epipolar c p with Some e => e | None => 1000 end) db.
  Definition below (t e : R) : bool := if Rlt_dec e t then true else false.
  (** 1314-1321: [db] has the pairs as they were added, [good] the ones still in use *)
  Definition inliers (es : list R) (good : list pair) : list pair :=
    map fst (filter (fun ce => below (mean es + 2 * std es) (snd ce)) (combine good es)).
  (** The result: the reported calibration, and the solution that R and P of the two cameras were computed from by set_alpha (1289,
      1403-1413); yaml() writes both.  [None]: Console.quit (1255-1256). *)
  Record stereo_state := mkstereo { pairs_left : list pair; stereo_calibrations : list (option (calibration C)); stereo_reported : option (calibration C); rectified : C }.
  Fixpoint stereo_fromcorners (more : nat) (db good : list pair) (cals : list (option (calibration C))) : option stereo_state :=
    if (length good <? 8)%nat then None
    else
      let (c, e) := solve good in
      let cals := put (4 - more) (Some (mkcalibration c e (length good))) cals in
      let done := Some (mkstereo good cals (pick cals) c) in
      match more with
      | O => done
      | S more => if Rlt_dec (6 / 10) e then stereo_fromcorners more db (inliers (errors_of c db) good) cals else done
      end.
  (** 1139-1142 on a new calibrator: every pair used is in [db] too *)
  Definition stereo_calibrate (good : list pair) : option stereo_state := stereo_fromcorners 4 good good [None; None; None; None; None].
End Stereo.
