(** Reading the configuration of a dive: load_configuration_and_camera_system (correct_images/correct_images.py:355-561), CorrectConfig
    (correct_images/parser.py:15-324) and CameraSystem and CameraEntry (oplab/camera_system.py:77-146, 248-315).  A YAML file is the tree
    that yaml.safe_load makes of it (MissionModel); a text or a list where a mapping is expected is an exception here. *)
From Coq Require Import Ascii String.
From Verif Require Import PyBase MissionModel.
Open Scope string_scope.
Open Scope list_scope.
Open Scope Q_scope.

(** A value, Console.quit, or an exception. *)
Inductive res (A : Type) := Ok (a : A) | Quit | Raised.
Arguments Ok {A} _. Arguments Quit {A}. Arguments Raised {A}.
Definition then_ {A B} (r : res A) (f : A -> res B) : res B := match r with Ok a => f a | Quit => Quit | Raised => Raised end.
Notation "'do' x <- a ; b" := (then_ a (fun x => b)) (at level 200, x pattern, a at level 100, b at level 200).
Definition item (k : string) (n : node) : res yaml := match get k n with Some v => Ok v | None => Raised end.
Definition mapping (y : yaml) : res node := match y with YMap l => Ok l | _ => Raised end.
Definition has_key (k : string) (n : node) : bool := match get k n with Some _ => true | None => false end.
Fixpoint each {A B} (f : A -> res B) (l : list A) : res (list B) :=
  match l with [] => Ok [] | a :: l => do b <- f a; do r <- each f l; Ok (b :: r) end.
Definition among (l : list string) (y : yaml) : bool := match y with YStr s => existsb (String.eqb s) l | _ => false end.

(** * correct_images.yaml: parser.py *)
Record colour := mkcolour { distance_metric : string; metric_path : yaml; parse_min : yaml; parse_max : yaml; process_min : yaml; process_max : yaml;
  smoothing : yaml; window_size : yaml }.
(** 39-97 *)
Definition colour_load (y : yaml) : res colour :=
  do n <- mapping y;
  do m <- item "distance_metric" n;
  let m := match m with YStr s => if String.eqb s "none" then YStr "uniform" else m | _ => m end in
  if negb (among ["uniform"; "altitude"; "depth_map"] m) then Quit
  else
    do p <- item "metric_path" n;
    do a <- item "altitude_filter" n;
    do a <- mapping a;
    do r <- (if has_key "parse" a && has_key "process" a then
               do x <- item "parse" a; do x <- mapping x; do x1 <- item "min_m" x; do x2 <- item "max_m" x;
               do z <- item "process" a; do z <- mapping z; do z1 <- item "min_m" z; do z2 <- item "max_m" z;
               Ok (x1, x2, z1, z2)
             else if has_key "min_m" a && has_key "max_m" a then
               do x1 <- item "min_m" a; do x2 <- item "max_m" a; Ok (x1, x2, x1, x2)
             else Quit);
    do s <- item "smoothing" n;
    do w <- item "window_size" n;
    let '(x1, x2, z1, z2) := r in
    Ok (mkcolour (match m with YStr s => s | _ => "" end) p x1 x2 z1 z2 s w).

Record camconf := mkcamconf { camera_name : yaml; list_parse : yaml; list_process : yaml; brightness : yaml; contrast : yaml;
  subtractors : yaml; gains : yaml }.
Definition identity : yaml := YSeq [YSeq [YNum 1; YNum 0; YNum 0]; YSeq [YNum 0; YNum 1; YNum 0]; YSeq [YNum 0; YNum 0; YNum 1]].
(** 121-165.  The numpy arrays of 147-148 are lists here. *)
Definition camconf_load (y : yaml) : res camconf :=
  do n <- mapping y;
  do name <- item "camera_name" n;
  do l <- match get "image_file_list" n with
          | None | Some YNull => Ok (YStr "none", YStr "none")
          | Some z => do m <- mapping z; Ok (get_or "parse" (YStr "none") m, get_or "process" (YStr "none") m)
          end;
  do c <- match get "colour_correction" n with
          | None => Ok (YNum 30, YNum 3)
          | Some z => do m <- mapping z; Ok (get_or "brightness" (YNum 30) m, get_or "contrast" (YNum 3) m)
          end;
  do b <- match get "manual_balance" n with
          | None => Ok (YSeq [YNum 0; YNum 0; YNum 0], identity)
          | Some z => do m <- mapping z; Ok (get_or "subtractors_rgb" (YSeq [YNum 0; YNum 0; YNum 0]) m, get_or "colour_gain_matrix_rgb" identity m)
          end;
  Ok (mkcamconf name (fst l) (snd l) (fst c) (snd c) (fst b) (snd b)).
(** 182-194 and 248-260: len(node) and node[i] *)
Definition elements (y : yaml) : res (list yaml) :=
  match y with YSeq l => Ok l | YMap [] | YStr "" => Ok [] | _ => Raised end.

Record rescaling := mkrescaling { r_camera : yaml; r_path : yaml; r_distance : yaml; r_method : yaml; r_target : Q; r_maintain : yaml; r_output : yaml }.
(** 218-236, 249-260; target_pixel_size / 100 *)
Definition number (y : yaml) : res Q := match y with YNum q => Ok q | YBool b => Ok (if b then 1 else 0) | _ => Raised end.
Definition rescaling_load (y : yaml) : res rescaling :=
  do n <- mapping y;
  do c <- item "camera_name" n; do p <- item "path" n; do d <- item "distance_path" n; do i <- item "interpolate_method" n;
  do t <- item "target_pixel_size" n; do m <- item "maintain_pixels" n; do o <- item "output_folder" n;
  do t <- number t;
  Ok (mkrescaling c p d i (t / 100) m o).

Record config := mkconfig { version : yaml; method : string; color_correction : option colour; configs : list camconf; undistort : yaml;
  compression : yaml; camerarescale : option (list rescaling) }.
(** 285-324 *)
Definition optional {A} (k : string) (n : node) (f : yaml -> res A) : res (option A) :=
  match get k n with None => Ok None | Some y => do a <- f y; Ok (Some a) end.
Definition config_load (y : yaml) : res config :=
  do n <- mapping y;
  match get "version" n with
  | None => Quit
  | Some v =>
      do m <- item "method" n;
      match m with
      | YStr s =>
          if negb (among ["manual_balance"; "colour_correction"] m) then Quit
          else
            do c <- optional "colour_correction" n colour_load;
            do l <- item "cameras" n; do l <- elements l; do l <- each camconf_load l;
            do o <- item "output_settings" n; do o <- mapping o; do u <- item "undistort" o; do z <- item "compression_parameter" o;
            do r <- optional "rescale" n (fun y => do l <- elements y; each rescaling_load l);
            Ok (mkconfig v s c l u z r)
      | _ => Quit
      end
  end.

(** * camera.yaml: camera_system.py *)
Record camera := mkcamera { name : string; topic : string; type : string; bit_depth : yaml; path : yaml; extension : yaml; dates : option node }.
(** 98-101: the characters after the first, with "_" for "/" *)
Fixpoint replaced (s : string) : string :=
  match s with EmptyString => EmptyString | String c s => String (if Ascii.eqb c "/" then "_" else c)%char (replaced s) end.
Fixpoint slash (s : string) : bool := match s with EmptyString => false | String c s => Ascii.eqb c "/" || slash s end.
Definition entry_name (s : string) : string := if slash s then match s with EmptyString => EmptyString | String _ s => replaced s end else s.
Definition allowed_types : list string := ["grayscale"; "rgb"; "bgr"; "rggb"; "grbg"; "bggr"; "gbrg"].
Definition null (y : option yaml) : bool := match y with None | Some YNull => true | _ => false end.
Section Load.
  (** FilenameToDate (filename_to_date.py:24-41) made of filename_to_date, timestamp_file and columns of a camera: it reads the timestamp
      file, if there is one, in the raw folder. *)
  Variable dated : node -> res unit.
  (** 90-143.  [dates]: convert_filename. *)
  Definition camera_load (y : yaml) : res camera :=
    do n <- mapping y;
    do s <- item "name" n;
    match s with
    | YStr s =>
        do t <- item "type" n;
        if negb (among allowed_types t) then Quit
        else
          do b <- item "bit_depth" n; do p <- item "path" n; do e <- item "extension" n;
          let c := mkcamera (entry_name s) s (match t with YStr t => t | _ => "" end) b p e in
          if among ["bag"] e then Ok (c None)
          else if null (get "timestamp_file" n) && null (get "filename_to_date" n) then Quit
          else do _ <- dated n; Ok (c (Some n))
    | _ => Raised
    end.
  Record system := mksystem { camera_system : yaml; cameras : list camera }.
  (** 303-315 *)
  Definition system_load (y : yaml) : res system :=
    do n <- mapping y;
    match get "camera_system" n with
    | None => Quit
    | Some s =>
        match get "cameras" n with
        | None => Quit
        | Some (YSeq l) => do l <- each camera_load l; Ok (mksystem s l)
        | Some (YMap []) | Some (YStr "") => Ok (mksystem s [])
        | Some _ => Raised
        end
    end.

  (** * The files of one dive.  [Log] is the copy of the configuration in the folder log of the processed folder, named after the time. *)
  Inductive place := MissionYaml | RawCamera | ConfigCamera | ConfigFile (name : string) | Log (stamp : string).
  Definition place_eqb (p q : place) : bool :=
    match p, q with
    | MissionYaml, MissionYaml | RawCamera, RawCamera | ConfigCamera, ConfigCamera => true
    | ConfigFile a, ConfigFile b | Log a, Log b => String.eqb a b
    | _, _ => false
    end.
  Definition disk : Type := place -> option yaml.
  Definition write (d : disk) (p : place) (y : yaml) : disk := fun q => if place_eqb p q then Some y else d q.

  (** The files that come with the package, by their path in it. *)
  Variable package : string -> option yaml.
  (** correct_images.py:410-428 *)
  Definition default_config (format : string) : option string :=
    match find (fun e => String.eqb format (fst e))
      [("acfr_standard", "correct_images/default_yaml/acfr/correct_images.yaml"); ("seaxerocks_3", "correct_images/default_yaml/sx3/correct_images.yaml");
       ("biocam", "correct_images/default_yaml/biocam/correct_images.yaml"); ("biocam4000_15c", "correct_images/default_yaml/biocam4000_15c/correct_images.yaml");
       ("hybis", "correct_images/default_yaml/hybis/correct_images.yaml"); ("ntnu_stereo", "correct_images/default_yaml/ntnu_stereo/correct_images.yaml");
       ("stereo_gopro", "correct_images/default_yaml/stereo_gopro/correct_images.yaml"); ("voyis", "correct_images/default_yaml/voyis/correct_images.yaml");
       ("rosbag", "correct_images/default_yaml/rosbag/correct_images.yaml")] with Some e => Some (snd e) | None => None end.
  (** 436-478 *)
  Definition default_camera (format : string) : option string :=
    match find (fun e => String.eqb format (fst e))
      [("acfr_standard", "auv_nav/default_yaml/ts1/SSK17-01/camera.yaml"); ("seaxerocks_3", "auv_nav/default_yaml/ae2000/YK17-23C/camera.yaml");
       ("biocam", "auv_nav/default_yaml/as6/DY109/camera.yaml"); ("biocam4000_15c", "auv_nav/default_yaml/alr/jc220/camera.yaml");
       ("hybis", "auv_nav/default_yaml/hybis/camera.yaml"); ("ntnu_stereo", "auv_nav/default_yaml/ntnu_stereo/tautra21/camera.yaml");
       ("stereo_gopro", "auv_nav/default_yaml/smarty200/stereo_gopro/camera.yaml"); ("voyis", "auv_nav/default_yaml/smarty200/voyis/camera.yaml");
       ("rosbag", "auv_nav/default_yaml/rosbag/grassmap/camera.yaml")] with Some e => Some (snd e) | None => None end.
  (** 430-498: the file that is read, and the disk, to which the default for rosbag is copied; a file missing from the package is an
      exception when it is copied, and quits when it is read (camera_system.py:278-280). *)
  Definition camera_yaml (d : disk) (format : string) : res (yaml * disk) :=
    match d RawCamera, d ConfigCamera with
    | None, None =>
        match default_camera format with
        | Some p => match package p with
                    | Some y => Ok (y, if String.eqb format "rosbag" then write d ConfigCamera y else d)
                    | None => if String.eqb format "rosbag" then Raised else Quit
                    end
        | None => Quit
        end
    | Some y, None => Ok (y, d)
    | _, Some y => Ok (y, d)
    end.
  (** 509-515 *)
  Definition config_file (suffix : option string) : string :=
    match suffix with None | Some "" => "correct_images.yaml" | Some s => "correct_images_" ++ s ++ ".yaml" end.

  (** The image section of mission.yaml: its format and its cameras; without the section, no format and no camera (mission.py:171-177).  [frames]
      are those of vehicle.yaml.  Mission files of version 0 and formats that are not texts are not modelled. *)
  Variable frames : list string.
  Definition mission_image (y : yaml) : res (string * list yaml) :=
    match y with
    | YMap n =>
        match mission_load frames n with
        | Some m => match m_image m with
                    | None => Ok ("", [])
                    | Some i => match i_format i with YStr f => Ok (f, map c_name (i_cameras i)) | _ => Raised end
                    end
        | None => Raised
        end
    | _ => Raised
    end.
  Definition named (y : yaml) (c : camera) : bool := match y with YStr s => String.eqb s (name c) | _ => false end.
  (** What is returned (561), and the cameras of the mission that 545-553 warns about.  The comparison of the types, 531-543, needs a type
      in the mission, which is always None (mission.py:107, 112-116). *)
  Record loaded := mkloaded { correct_config : config; cam_system : system; warned : list yaml }.

  (** 355-561, with the files as they are left. *)
  Definition load (stamp : string) (suffix : option string) (d : disk) : disk * res loaded :=
    match d MissionYaml with
    | None => (d, Quit)
    | Some m =>
        match mission_image m with
        | Quit => (d, Quit)
        | Raised => (d, Raised)
        | Ok (format, cams) =>
            match camera_yaml d format with
            | Quit => (d, Quit)
            | Raised => (d, Raised)
            | Ok (y, d) =>
                match system_load y with
                | Quit => (d, Quit)
                | Raised => (d, Raised)
                | Ok s =>
                    if negb (among [format] (camera_system s)) then (d, Quit)
                    else
                      let file := ConfigFile (config_file suffix) in
                      match (match d file with
                             | Some c => Ok (c, d)
                             | None => match default_config format with
                                       | Some p => match package p with Some c => Ok (c, write d file c) | None => Raised end
                                       | None => Raised
                                       end
                             end) with
                      | Quit => (d, Quit)
                      | Raised => (d, Raised)
                      | Ok (c, d) =>
                          match config_load c with
                          | Quit => (d, Quit)
                          | Raised => (d, Raised)
                          | Ok k => (write d (Log stamp) c, Ok (mkloaded k s (filter (fun n => negb (existsb (named n) (cameras s))) cams)))
                          end
                      end
                end
            end
        end
    end.
End Load.

(** * corrector.py:240-244, 434-444: the name of the output folder of a camera balanced by hand takes the diagonal of the gain matrix and
    the three subtractors; elsewhere an IndexError. *)
Definition entry_of (y : yaml) (i j : nat) : bool :=
  match y with
  | YSeq l => match nth_error l i with Some (YSeq r) => match nth_error r j with Some _ => true | None => false end | _ => false end
  | _ => false
  end.
Definition element_of (y : yaml) (i : nat) : bool := match y with YSeq l => match nth_error l i with Some _ => true | None => false end | _ => false end.
Definition folder_named (c : camconf) : bool :=
  forallb (fun i => entry_of (gains c) i i && element_of (subtractors c) i) [0; 1; 2]%nat.
