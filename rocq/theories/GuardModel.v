(** Model of the overwrite guards of the commands: which files each command writes,
    and when.  A file system maps a path (list of components) to nothing, a directory
    or a file with its contents.  What is written (sensor data, plots) is a parameter
    of each command: only where and when it is written is modelled.
    Not modelled: failing system calls, links, file modes; directories that a command
    creates are never files. *)
From Coq Require Import Ascii String.
From Verif Require Import PyBase.
Local Open Scope string_scope.

Definition fpath := list string.
Inductive node := ADir | AFile (contents : string).
(** Path joining. *)
Notation "p /. q" := (@app string p q) (at level 40, left associativity).
Definition fsys := fpath -> option node.

Definition path_eqb (p q : fpath) : bool := if list_eq_dec string_dec p q then true else false.
Definition exists_in (fs : fsys) (p : fpath) : bool := match fs p with Some _ => true | None => false end.
Fixpoint is_prefix (p q : fpath) : bool :=
  match p, q with
  | [], _ => true
  | a :: p', b :: q' => String.eqb a b && is_prefix p' q'
  | _ :: _, [] => false
  end.

(** Path.mkdir(parents=True, exist_ok=True): creates the missing ones. *)
Definition mkdirs (fs : fsys) (p : fpath) : fsys :=
  fun q => match fs q with Some n => Some n | None => if is_prefix q p then Some ADir else None end.
(** open("w") and write. *)
Definition write (fs : fsys) (p : fpath) (c : string) : fsys :=
  fun q => if path_eqb q p then Some (AFile c) else fs q.
Fixpoint write_all (fs : fsys) (l : list (fpath * string)) : fsys :=
  match l with [] => fs | (p, c) :: l' => write_all (write fs p c) l' end.

(** How a command ends: normally, by Console.quit, or by an uncaught exception. *)
Inductive status := Done | Quit | Crash.

(** ** auv_nav parse *)
(** What parsing one dive computes: the time string of parse.py:215, the three
    configuration files (219-221), nav_standard.json before and after interlacing
    (773, 783), the two plots (785). *)
Record dive := mkDive {
  d_folder : fpath;  (* get_processed_folder(filepath) *)
  d_time : string;
  d_mission : string; d_vehicle : string; d_camera : string;
  d_nav : string; d_interlaced : string; d_info : string; d_history : string }.

(** parse.py:789-812 [check_output_files_exist]; line 793 joins the empty string, which
    is the folder itself. *)
Definition checked_files (d : fpath) : list fpath :=
  [ (d /. ["mission.yaml"]); (d /. ["vehicle.yaml"]); d;
    (d /. ["nav"; "nav_standard.json"]); (d /. ["nav"; "json_data_info.html"]);
    (d /. ["nav"; "timestamp_history.html"]) ].
Definition check_output_files_exist (fs : fsys) (d : fpath) : list fpath :=
  filter (exists_in fs) (checked_files d).

(** parse.py:215-221, 773, 783, 785: in the order they are written. *)
Definition parse_writes (d : dive) : list (fpath * string) :=
  let f := d_folder d in
  [ ((f /. ["log"; d_time d ++ "_mission.yaml"]), d_mission d);
    ((f /. ["log"; d_time d ++ "_vehicle.yaml"]), d_vehicle d);
    ((f /. ["log"; d_time d ++ "_camera.yaml"]), d_camera d);
    ((f /. ["nav"; "nav_standard.json"]), d_nav d);
    ((f /. ["nav"; "nav_standard.json"]), d_interlaced d);
    ((f /. ["nav"; "json_data_info.html"]), d_info d);
    ((f /. ["nav"; "timestamp_history.html"]), d_history d) ].

(** parse.py:179-786 [parse_single]: 184-197 the guard, then the directories (_copy in
    folder_structure.py:138-141 makes log; 229-233 makes nav, whose parent exists by
    then), then the files. *)
Definition parse_single (fs : fsys) (force : bool) (d : dive) : fsys :=
  if negb force && negb (match check_output_files_exist fs (d_folder d) with [] => true | _ => false end)
  then fs
  else write_all (mkdirs (mkdirs fs (d_folder d /. ["log"])) (d_folder d /. ["nav"])) (parse_writes d).

Fixpoint parse_dives (fs : fsys) (force : bool) (ds : list dive) : fsys :=
  match ds with [] => fs | d :: ds' => parse_dives (parse_single fs force d) force ds' end.

(** parse.py:106-176, the merge: [m] is the merged dive's folder
    (.../<first>_<last>_merged) and its contents.  158-166 copy the three configuration
    files from the first dive's processed folder; shutil.copyfile raises if one is
    missing. *)
Definition copy_file (fs : fsys) (src dst : fpath) : option fsys :=
  match fs src with Some (AFile c) => Some (write fs dst c) | _ => None end.
Definition merge_dives (fs : fsys) (first : dive) (m : dive) : fsys * status :=
  let f := d_folder m in
  let fs1 := write (mkdirs fs (f /. ["nav"])) (f /. ["nav"; "nav_standard.json"]) (d_nav m) in
  match copy_file fs1 (d_folder first /. ["mission.yaml"]) (f /. ["mission.yaml"]) with
  | None => (fs1, Crash)
  | Some fs2 =>
      match copy_file fs2 (d_folder first /. ["vehicle.yaml"]) (f /. ["vehicle.yaml"]) with
      | None => (fs2, Crash)
      | Some fs3 =>
          match copy_file fs3 (d_folder first /. ["camera.yaml"]) (f /. ["camera.yaml"]) with
          | None => (fs3, Crash)
          | Some fs4 =>
              (write_all fs4 [ ((f /. ["nav"; "nav_standard.json"]), d_interlaced m);
                               ((f /. ["nav"; "json_data_info.html"]), d_info m);
                               ((f /. ["nav"; "timestamp_history.html"]), d_history m) ], Done)
          end
      end
  end.

(** parse.py:100-176 [parse]; [merge = Some m] when the option is given. *)
Definition parse (fs : fsys) (force : bool) (merge : option dive) (ds : list dive) : fsys * status :=
  let fs' := parse_dives fs force ds in
  match merge, ds with
  | Some m, d0 :: _ :: _ => merge_dives fs' d0 m
  | _, _ => (fs', Done)
  end.

(** ** auv_nav convert *)
(** csv_tools.py:48-101 [write_csv] for a list of [n] elements: "{}.csv".format(name)
    and, when the first element has a covariance, "{}_cov.csv". *)
Record csv := mkCsv { c_len : nat; c_text : string; c_cov : option string }.
Definition write_csv (fs : fsys) (folder : fpath) (name : string) (x : csv) : fsys :=
  if (1 <? c_len x)%nat then
    let fs1 := write (mkdirs fs folder) (folder /. [name ++ ".csv"]) (c_text x) in
    match c_cov x with
    | Some cv => write fs1 (folder /. [name ++ "_cov.csv"]) cv
    | None => fs1
    end
  else fs.

(** convert.py:122-205 [acfr_to_oplab]: [vp] the dead reckoning of the vehicle pose
    file, [sp] the two camera lists of the stereo pose file, [laser] the laser file
    when a dive folder is given. *)
Definition convert_vehicle (fs : fsys) (force : bool) (folder : fpath) (vp : option csv) : fsys * status :=
  match vp with
  | None => (fs, Done)
  | Some dr =>
      if exists_in fs (folder /. ["auv_acfr_centre.csv"]) && negb force then (fs, Quit)
      else (write_csv fs folder "auv_acfr_centre.csv" dr, Done)
  end.
Definition convert_stereo (fs : fsys) (force : bool) (folder : fpath)
    (sp : option (csv * csv)) (laser : option string) : fsys * status :=
  match sp with
  | None => (fs, Done)
  | Some (cam1, cam2) =>
      if exists_in fs (folder /. ["auv_dr_LC.csv"]) && negb force then (fs, Quit)
      else
        let fs1 := write_csv (write_csv fs folder "auv_acfr_LC" cam1) folder "auv_acfr_RC" cam2 in
        match laser with
        | None => (fs1, Done)
        | Some l =>
            if exists_in fs1 (folder /. ["auv_acfr_laser.csv"]) && negb force then (fs1, Quit)
            else (write fs1 (folder /. ["auv_acfr_laser.csv"]) l, Done)
        end
  end.
Definition acfr_to_oplab (fs : fsys) (force : bool) (folder : fpath)
    (vp : option csv) (sp : option (csv * csv)) (laser : option string) : fsys * status :=
  match vp, sp with
  | None, None => (fs, Quit)
  | _, _ =>
      match convert_vehicle fs force folder vp with
      | (fs1, Done) => convert_stereo fs1 force folder sp laser
      | r => r
      end
  end.

(** convert.py:208-376 [oplab_to_acfr] for a mission with two cameras:
    217-221 the guard, 253 and 285 the pose files, 318 the writer of
    acfr_combined_raw.py:32-64 (mission.cfg and combined.RAW.auv). *)
Record acfr_out := mkAcfr { a_vehicle : string; a_stereo : string; a_cfg : string; a_raw : string }.
Definition oplab_to_acfr (fs : fsys) (force : bool) (f : fpath) (o : acfr_out) : fsys * status :=
  if (exists_in fs (f /. ["vehicle_pose_est.data"]) || exists_in fs (f /. ["stereo_pose_est.data"]))
     && negb force then (fs, Quit)
  else
    (write_all (mkdirs fs (f /. ["dRAWLOGS_cv"]))
       [ ((f /. ["vehicle_pose_est.data"]), a_vehicle o);
         ((f /. ["stereo_pose_est.data"]), a_stereo o);
         ((f /. ["mission.cfg"]), a_cfg o);
         ((f /. ["dRAWLOGS_cv"; "combined.RAW.auv"]), a_raw o) ], Done).

(** ** auv_nav process *)
(** process.py:558-580: the guard on the json_renav folder [r]; every later output goes
    below it ([outs], relative paths). *)
Definition process_guard (fs : fsys) (force relative_pose : bool) (r : fpath)
    (outs : list (fpath * string)) : fsys * status :=
  match fs r with
  | Some ADir =>
      if negb force && negb relative_pose then (fs, Quit)
      else (write_all fs (map (fun x => ((r /. fst x), snd x)) outs), Done)
  | _ => (write_all (mkdirs fs r) (map (fun x => ((r /. fst x), snd x)) outs), Done)
  end.

(** ** correct_images *)
(** str.endswith / glob patterns "*.npy" and "*.*" on a file name. *)
Fixpoint ends_with (suffix s : string) : bool :=
  String.eqb s suffix || match s with EmptyString => false | String _ s' => ends_with suffix s' end.
Fixpoint has_dot (s : string) : bool :=
  match s with EmptyString => false | String c s' => Ascii.eqb c "."%char || has_dot s' end.

(** corrector.py:456-488: the mode's output folder, the pattern its guard globs for and
    the files written directly inside it afterwards ([outs], names).  [names] lists the
    entries of the folder (Path.glob). *)
Inductive mode := MParse | MProcess.
Definition pattern (m : mode) : string -> bool :=
  match m with MParse => ends_with ".npy" | MProcess => has_dot end.
Definition correct_images (fs : fsys) (names : list string) (force : bool) (m : mode) (folder : fpath)
    (outs : list (string * string)) : fsys * status :=
  if exists_in fs folder && negb (match filter (pattern m) names with [] => true | _ => false end) && negb force
  then (fs, Quit)
  else (write_all (mkdirs fs folder) (map (fun x => ((folder /. [fst x]), snd x)) outs), Done).
