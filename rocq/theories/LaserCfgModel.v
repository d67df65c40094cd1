(** The laser section of calibration.yaml: the settings that LaserCalibrator takes from it (auv_cal/laser_calibrator.py:594-638) and the files that
    calibrate_laser writes once the planes are fitted (auv_cal/calibration.py:223-246).  YAML as in MissionModel. *)
From Coq Require Import List String QArith Bool.
From Verif Require Import MissionModel.
Import ListNotations.
Open Scope string_scope.

Inductive outcome (A : Type) := Ok (a : A) | Quits | Raises.
Arguments Ok {A} _. Arguments Quits {A}. Arguments Raises {A}.

Record settings := mkset {
  k : yaml; min_greenness_ratio : yaml; num_columns : yaml; remap : yaml; start_row : yaml; end_row : yaml; start_row_b : yaml; end_row_b : yaml; two_lasers : yaml;
  min_z_m : yaml; max_z_m : yaml; number_of_bins : yaml; max_points_per_bin : yaml;
  max_point_cloud_size : yaml; mdt : yaml; ssp : yaml; gip : yaml; max_iterations : yaml }.

(** config.get(name, {}), on which get is called: only a dictionary has it. *)
Definition section_ (name : string) (config : node) : option node := as_map (get_or name (YMap []) config).

(** 609-638 *)
Definition load (config : node) : outcome settings :=
  match get "filter" config with
  | Some YNull | None =>
      match section_ "detection" config, section_ "stratify" config, section_ "ransac" config with
      | Some d, Some s, Some r =>
          Ok (mkset (get_or "window_size" (YNum 5) d) (get_or "min_greenness_ratio" (YNum (1 # 100)) d) (get_or "num_columns" (YNum 1024) d)
                    (get_or "remap" (YBool true) d) (get_or "start_row" (YNum 0) d) (get_or "end_row" (YNum (-1)) d)
                    (get_or "start_row_b" (YNum 0) d) (get_or "end_row_b" (YNum (-1)) d) (get_or "two_lasers" (YBool false) d)
                    (get_or "min_z_m" (YNum 1) s) (get_or "max_z_m" (YNum 20) s) (get_or "number_of_bins" (YNum 5) s) (get_or "max_bin_elements" (YNum 300) s)
                    (get_or "max_cloud_size" (YNum 10000) r) (get_or "min_distance_threshold" (YNum (2 # 1000)) r) (get_or "sample_size_ratio" (YNum (8 # 10)) r)
                    (get_or "goal_inliers_ratio" (YNum (999 # 1000)) r) (get_or "max_iterations" (YNum 5000) r))
      | _, _, _ => Raises
      end
  | Some _ => Quits
  end.

(** Python's truth value *)
Definition truthy (y : yaml) : bool :=
  match y with YNull => false | YNum q => negb (Qeq_bool q 0) | YBool b => b | YStr s => negb (String.eqb s "") | YSeq l => match l with [] => false | _ => true end | YMap l => match l with [] => false | _ => true end end.

Inductive file := Top | Bottom.
(** calibration.py:237-246, after cal: the files written, and whether an exception follows *)
Definition finish (config : node) : list file * bool :=
  match get "detection" config with
  | None => ([Top], true)
  | Some (YMap d) => match get "two_lasers" d with None => ([Top], false) | Some y => if truthy y then ([Top; Bottom], false) else ([Top], false) end
  | Some _ => ([Top], true)
  end.
(** 231-246; [fitted]: the planes that cal fits (laser_calibrator.py:1173, 1195), the bottom one if two_lasers is true *)
Definition calibrate_laser (config : node) : outcome (list file * list file * bool) :=
  match load config with
  | Ok s => let (written, raised) := finish config in Ok ((if truthy (two_lasers s) then [Top; Bottom] else [Top]), written, raised)
  | Quits => Quits
  | Raises => Raises
  end.

(** auv_cal/default_yaml/default_calibration.yaml: laser_calibration *)
Definition shipped : node :=
  [("laser_camera", YStr "LM165");
   ("detection", YMap [("window_size", YNum 5); ("min_greenness_ratio", YNum (1 # 100)); ("num_columns", YNum 1024); ("remap", YBool true); ("start_row", YNum 0); ("end_row", YNum (-1));
                       ("start_row_b", YNum 0); ("end_row_b", YNum (-1)); ("two_lasers", YBool false)]);
   ("stratify", YMap [("min_z_m", YNum 1); ("max_z_m", YNum 20); ("number_of_bins", YNum 38); ("max_points_per_bin", YNum 300)]);
   ("ransac", YMap [("max_cloud_size", YNum 10000); ("min_distance_threshold", YNum (2 # 1000)); ("sample_size_ratio", YNum (8 # 10)); ("goal_inliers_ratio", YNum (999 # 1000)); ("max_iterations", YNum 5000)])].
