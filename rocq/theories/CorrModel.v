(** The correct_images commands over several dives and cameras: correct_images/correct_images.py:45-330 and correct_images/corrector.py:151-488,
    with the files written at 863-1010.  Texts are lists of code points, a folder or file is the list of the names on its path, the disk is the
    list of its files (the last written first): empty folders, the .png plots and the log files are left out. *)
From Coq Require Import Ascii String.
From Verif Require Export PyBase NmeaModel LatlonModel BagModel.
Open Scope Q_scope.

Definition txt (s : string) : text := map N_of_ascii (list_ascii_of_string s).

Definition place := list text.
Definition place_eqb (p q : place) : bool := if list_eq_dec (list_eq_dec N.eq_dec) p q then true else false.
Section Disk.
Context {A : Type}.
Definition disk := list (place * A).
Fixpoint lookup (fs : disk) (p : place) : option A :=
  match fs with [] => None | (q, a) :: fs => if place_eqb q p then Some a else lookup fs p end.
Definition write (fs : disk) (p : place) (a : A) : disk := (p, a) :: fs.
(** Path.glob in a folder: is there a file directly in it whose name satisfies [ok]? *)
Definition globbed (ok : text -> bool) (fs : disk) (folder : place) : bool :=
  existsb (fun f => match rev (fst f) with n :: p => place_eqb (rev p) folder && ok n | [] => false end) fs.
End Disk.
Arguments disk : clear implicits.

(** parser.py:262-324; [meth] is one of valid_methods.  [gain_texts] and [subtractor_texts] are str() of the three gains and of the three
    subtractors.  [colour]: the section colour_correction, which may be absent (318-319). *)
Inductive method := Colour | Manual.
Record camcfg := mkcamcfg { cc_name : text; brightness : Q; contrast : Q; gain_texts : list text; subtractor_texts : list text }.
Record colours := mkcol { metric : text; smoothing : text; window : Q; parse_range : Q * Q; process_range : Q * Q }.
Record config := mkcfg { meth : method; colour : option colours; cams : list camcfg }.
(** A camera of camera.yaml, with the number of its images; a camera of mission.yaml with its attribute topic, which cameras of a mission
    file of version 0 do not have (mission.py:101-136, 194-219). *)
Record camera := mkcamera { cam_name : text; extension : text; cam_images : nat }.
Definition mission_cameras := list (text * option (option text)).
(** What load_configuration_and_camera_system (correct_images.py:345-561) finds at a path, with the processed folder of that path. *)
Record dive := mkdive { processed : place; cfg : config; mission : mission_cameras; system : text; cameras : list camera }.

(** parser.py:326-405; None: AttributeError, for a configuration without colour_correction.  The comparison of the number of cameras and
    of their names is one of the lists. *)
Definition names_of (c : config) : list text := map cc_name (cams c).
Definition method_eqb (a b : method) : bool := match a, b with Colour, Colour | Manual, Manual => true | _, _ => false end.
Definition is_equivalent (a b : config) : option bool :=
  if negb (method_eqb (meth a) (meth b)) then Some false else
  match colour a, colour b with
  | Some x, Some y => Some (text_eqb (metric x) (metric y) && text_eqb (smoothing x) (smoothing y) && Qeq_bool (window x) (window y)
                            && place_eqb (names_of a) (names_of b))%bool
  | _, _ => None
  end.

(** corrector.py:490-504 *)
Definition find_camera (c : config) (name : text) : option camcfg := find (fun cc => text_eqb (cc_name cc) name) (cams c).
(** 173-177: does the loop end without AttributeError? *)
Fixpoint topic_found (l : mission_cameras) (name : text) : bool :=
  match l with
  | [] => true
  | (n, topic) :: l => if text_eqb n name then match topic with None => false | Some None => topic_found l name | Some (Some _) => true end
                       else topic_found l name
  end.

(** 418-456.  str(int(x)) *)
Definition truncated (q : Q) : Z := Z.quot (Qnum q) (Zpos (Qden q)).
Definition show_int (z : Z) : text := match z with Zneg p => 45%N :: show (Npos p) | _ => show (Z.to_N z) end.
Definition suffixed (name suffix : text) : text := match suffix with [] => name | _ => name ++ [95%N] ++ suffix end.
Fixpoint joined (l : list text) : text := match l with [] => [] | [a] => a | a :: l => a ++ [95%N] ++ joined l end.
Definition params_name (c : config) (col : colours) (suffix : text) : text :=
  suffixed (match meth c with Colour => txt "params_" ++ metric col | Manual => txt "params_manual" end) suffix.
Definition developed_name (c : config) (col : colours) (cc : camcfg) (suffix : text) : text :=
  suffixed (match meth c with
            | Colour => txt "corrected_" ++ metric col ++ txt "_mean_" ++ show_int (truncated (brightness cc)) ++ txt "_std_" ++ show_int (truncated (contrast cc))
            | Manual => txt "corrected_manual_gain_" ++ joined (gain_texts cc) ++ txt "_sub_" ++ joined (subtractor_texts cc)
            end) suffix.
Definition camera_folder (d : dive) (name : text) : place := processed d ++ [txt "image"; name].
Definition params_folder (d : dive) (col : colours) (suffix name : text) : place := camera_folder d name ++ [params_name (cfg d) col suffix].
Definition developed_folder (d : dive) (col : colours) (cc : camcfg) (suffix name : text) : place :=
  camera_folder d name ++ [developed_name (cfg d) col cc suffix].
(** The patterns "*.npy" and "*.*" *)
Definition is_npy (n : text) : bool := (4 <=? length n)%nat && text_eqb (last_of 4 n) (txt ".npy").
Definition is_any (n : text) : bool := existsb (N.eqb 46) n.

(** 187-276 with 456-488.  [NotFound]: camera_found is False. *)
Inductive mode := MParse | MProcess.
Inductive loaded := Ready (col : colours) (cc : camcfg) | NotFound | Stop | Broken.
Definition load_configuration {A} (fs : disk A) (m : mode) (force : bool) (suffix : text) (d : dive) (c : camera) : loaded :=
  match colour (cfg d) with
  | None => Broken
  | Some col =>
    match find_camera (cfg d) (cam_name c) with
    | None => NotFound
    | Some cc =>
      let full := match m with
                  | MParse => globbed is_npy fs (params_folder d col suffix (cam_name c))
                  | MProcess => globbed is_any fs (developed_folder d col cc suffix (cam_name c))
                  end in
      if (full && negb force)%bool then Stop
      else if text_eqb (extension c) (txt "bag") then Broken  (* 271-274: mission.image has no attribute timeoffset *)
      else Ready col cc
    end
  end.

Inductive status := Finished | Quits | Crashes.
Definition uniform := txt "uniform".
Definition altitude := txt "altitude".
Definition depth_map := txt "depth_map".
Definition n_images := txt "images_map.npy".
Definition n_distances := txt "distances_map.npy".
Definition n_attenuation := txt "attenuation_parameters.npy".
Definition n_gains := txt "correction_gains.npy".
Definition n_mean := txt "image_corrected_mean.npy".
Definition n_std := txt "image_corrected_std.npy".
Definition n_raw_mean := txt "image_raw_mean.npy".
Definition n_raw_std := txt "image_raw_std.npy".

Section Correct.
Variables I A : Type.
(** get_imagelist (508-679) for the images of a dive and camera (SelectModel.v); None: it quits. *)
Variable listing : mode -> place -> config -> text -> option (list I).
(** get_altitude_and_depth_maps (681-726) for depth maps: the images that have one; None: it quits. *)
Variable with_depth_map : place -> list I -> option (list I).
(** The contents of a parameter file; for the images of a run with that configuration (BinModel.v, AttenModel.v, StatsModel.v). *)
Variable value : text -> config -> list I -> A.
(** process_image (1308-1407): the name and the contents of the corrected image (PipeModel.v). *)
Variable out_name : I -> text.
Variable develop : config -> camcfg -> list (option A) -> I -> A.

(** 681-726 *)
Definition depth_maps (d : dive) (col : colours) (l : list I) : option (list I) :=
  if text_eqb (metric col) depth_map then with_depth_map (processed d) l else Some l.

(** 730-1010: the files of generate_attenuation_correction_parameters, in order.  784-805: distances exist for depth maps and for altitudes;
    the curve fits and plots in between are taken to succeed. *)
Definition measured (col : colours) (images : list I) : bool :=
  (text_eqb (metric col) depth_map || text_eqb (metric col) altitude) && negb (match images with [] => true | _ => false end).
Definition produced (col : colours) (images : list I) : list text :=
  if measured col images then [n_images; n_distances; n_attenuation; n_gains; n_mean; n_std] else [n_raw_mean; n_raw_std].
Definition write_params (fs : disk A) (folder : place) (c : config) (names : list text) (images : list I) : disk A :=
  fold_left (fun fs n => write fs (folder ++ [n]) (value n c images)) names fs.

(** 64-78 and 320-334 *)
Definition copied : list text := [n_attenuation; n_gains; n_mean; n_std; n_raw_mean; n_raw_std].
Definition copy_if_exists (source dest : place) (fs : disk A) (n : text) : disk A :=
  match lookup fs (source ++ [n]) with Some a => write fs (dest ++ [n]) a | None => fs end.
Definition copy_params (source dest : place) (fs : disk A) : disk A :=
  if place_eqb dest source then fs else fold_left (copy_if_exists source dest) copied fs.

(** 284-299.  The files do not change; each dive replaces the list of images (511-516, 604-665), so the lists of the last one count.  A camera
    missing in the configuration has no list of image files either: [path / None] is a TypeError (588-589) unless images are balanced by hand. *)
Fixpoint dives_loaded (fs : disk A) (force : bool) (suffix : text) (c : camera) (ds : list dive) : status :=
  match ds with
  | [] => Finished
  | d :: ds =>
    if topic_found (mission d) (cam_name c) then
      match load_configuration fs MParse force suffix d c with
      | Broken => Crashes
      | Stop => Quits
      | NotFound => match meth (cfg d) with Colour => Crashes | Manual => dives_loaded fs force suffix c ds end
      | Ready _ _ =>
        match meth (cfg d), listing MParse (processed d) (cfg d) (cam_name c) with
        | Colour, None => Quits
        | _, _ => dives_loaded fs force suffix c ds
        end
      end
    else Crashes
  end.

(** 278-336; the dives are not empty.  323-325: the folder of the last dive relative to its processed folder is put under the processed
    folder of each dive. *)
Definition parse_camera (fs : disk A) (force : bool) (suffix : text) (first : dive) (rest : list dive) (c : camera) : disk A * status :=
  match dives_loaded fs force suffix c (first :: rest) with
  | Finished =>
    let d := last rest first in
    match meth (cfg d), colour (cfg d), listing MParse (processed d) (cfg d) (cam_name c) with
    | Colour, Some col, Some images =>
      if Nat.ltb (length images) 3 then (fs, Quits) else
      match depth_maps d col images with
      | None => (fs, Quits)
      | Some images =>
        let relative := [txt "image"; cam_name c; params_name (cfg d) col suffix] in
        let source := params_folder d col suffix (cam_name c) in
        let fs := write_params fs source (cfg d) (produced col images) images in
        (fold_left (fun fs x => copy_params source (processed x ++ relative) fs) (first :: rest) fs, Finished)
      end
    | _, _, _ => (fs, Finished)
    end
  | s => (fs, s)
  end.

(** correct_images.py:240-268.  [memmap]: the arguments include memmap_location, as those of parse do and those of correct do not (46-62);
    without it the call of Corrector.parse is an AttributeError. *)
Fixpoint parse_cameras (fs : disk A) (memmap force : bool) (suffix : text) (first : dive) (rest : list dive) (cs : list camera) : disk A * status :=
  match cs with
  | [] => (fs, Finished)
  | c :: cs =>
    if existsb (text_eqb (cam_name c)) (names_of (cfg first)) then
      if memmap then
        let '(fs, s) := parse_camera fs force suffix first rest c in
        match s with Finished => parse_cameras fs memmap force suffix first rest cs | _ => (fs, s) end
      else (fs, Crashes)
    else parse_cameras fs memmap force suffix first rest cs
  end.

(** 226-238 *)
Fixpoint all_equivalent (first : config) (ds : list dive) : status :=
  match ds with
  | [] => Finished
  | d :: ds => match is_equivalent first (cfg d) with None => Crashes | Some false => Quits | Some true => all_equivalent first ds end
  end.
(** 163-268.  [resolve] is what is found at a path; None: there is no such folder (176-180), or no dive in it (374-377), and the program ends.
    208-224: the camera systems are compared by name. *)
Variable resolve : text -> option dive.
Fixpoint resolved (paths : list text) : option (list dive) :=
  match paths with
  | [] => Some []
  | p :: paths => match resolve p, resolved paths with Some d, Some ds => Some (d :: ds) | _, _ => None end
  end.
Definition call_parse (fs : disk A) (memmap force : bool) (suffix : text) (paths : list text) : disk A * status :=
  match resolved paths with
  | None => (fs, Quits)
  | Some [] => (fs, Crashes)
  | Some (first :: rest) =>
    if forallb (fun d => text_eqb (system first) (system d)) rest then
      match (match rest with [] => Finished | _ => all_equivalent (cfg first) (first :: rest) end) with
      | Finished => parse_cameras fs memmap force suffix first rest (cameras first)
      | s => (fs, s)
      end
    else (fs, Quits)
  end.

(** corrector.py:351-404: the parameters read from disk, None for one that is not there (or, for the last two, is not wanted); None if one
    that is needed is missing. *)
Definition read_params (fs : disk A) (folder : place) (col : colours) : option (list (option A)) :=
  let get n := lookup fs (folder ++ [n]) in
  if text_eqb (metric col) uniform then
    match get n_raw_mean, get n_raw_std with
    | Some a, Some b => Some [get n_attenuation; get n_gains; get n_mean; get n_std; Some a; Some b]
    | _, _ => None
    end
  else
    match get n_attenuation, get n_gains, get n_mean, get n_std with
    | Some a, Some b, Some c, Some d => Some [Some a; Some b; Some c; Some d; None; None]
    | _, _, _, _ => None
    end.
Definition write_images (fs : disk A) (folder : place) (c : config) (cc : camcfg) (params : list (option A)) (images : list I) : disk A :=
  fold_left (fun fs i => write fs (folder ++ [out_name i]) (develop c cc params i)) images fs.

(** corrector.py:338-412 after the constructor in mode "process" (136-153), and filelist.csv (FilesModel.v) left out *)
Definition process_camera (fs : disk A) (force : bool) (suffix : text) (d : dive) (c : camera) : disk A * status :=
  if topic_found (mission d) (cam_name c) then
    match load_configuration fs MProcess force suffix d c with
    | Broken => (fs, Crashes)
    | Stop => (fs, Quits)
    | NotFound => (fs, Finished)
    | Ready col cc =>
      match listing MProcess (processed d) (cfg d) (cam_name c) with
      | None => (fs, Quits)
      | Some images =>
        match meth (cfg d) with
        | Colour =>
          match depth_maps d col images with
          | None => (fs, Quits)
          | Some images =>
            match read_params fs (params_folder d col suffix (cam_name c)) col with
            | None => (fs, Quits)
            | Some params => (write_images fs (developed_folder d col cc suffix (cam_name c)) (cfg d) cc params images, Finished)
            end
          end
        | Manual => (write_images fs (developed_folder d col cc suffix (cam_name c)) (cfg d) cc [] images, Finished)
        end
      end
    end
  else (fs, Crashes).
(** correct_images.py:277-310 *)
Fixpoint process_cameras (fs : disk A) (force : bool) (suffix : text) (d : dive) (cs : list camera) : disk A * status :=
  match cs with
  | [] => (fs, Finished)
  | c :: cs =>
    if Nat.eqb (cam_images c) 0 then process_cameras fs force suffix d cs
    else let '(fs, s) := process_camera fs force suffix d c in
         match s with Finished => process_cameras fs force suffix d cs | _ => (fs, s) end
  end.
Definition call_process (fs : disk A) (force : bool) (suffix : text) (path : text) : disk A * status :=
  match resolve path with None => (fs, Quits) | Some d => process_cameras fs force suffix d (cameras d) end.

(** 313-322 with 48: the path of correct is one text, whose characters call_parse takes for paths (164). *)
Definition call_correct (fs : disk A) (force : bool) (suffix : text) (path : text) : disk A * status :=
  let '(fs, s) := call_parse fs false force suffix (map (fun x => [x]) path) in
  match s with Finished => call_process fs force suffix path | _ => (fs, s) end.
End Correct.
