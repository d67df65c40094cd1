(** Model of parse_single after the mission is loaded: the choice of the parsers (parse.py:257-656) and the
    compilation of their results to nav_standard.json (parse.py:661-784).  A section of mission.yaml is its
    format, [None] when it is missing ([empty()]).  [None] as a whole is Console.quit or an exception, after
    which nav_standard.json is not complete.  The parsers, the tide parsers and the correction of the BioCam
    timestamps are arguments (BiocamModel, and the models of the parsers). *)
From Coq Require Import Ascii String.
From Verif Require Import PyBase TideModel InterlaceModel.
Open Scope string_scope.

Inductive section := Image | Usbl | Velocity | Orientation | Depth | Altitude.
(** The function given to the pool, and whether [True] is its sixth argument (parse.py:366). *)
Definition call : Type := string * bool.
Record mission := mkmission { m_image : option string; m_usbl : option string; m_velocity : option string;
  m_orientation : option string; m_depth : option string; m_altitude : option string; m_tide : option string }.
Definition format_of (m : mission) (s : section) : option string :=
  match s with Image => m_image m | Usbl => m_usbl m | Velocity => m_velocity m | Orientation => m_orientation m | Depth => m_depth m | Altitude => m_altitude m end.

Fixpoint choose (table : list (string * call)) (format : string) : option call :=
  match table with
  | [] => None
  | (f, c) :: table => if String.eqb format f then Some c else choose table format
  end.
Definition plain (f : string) : call := (f, false).
(** The chains of elif: parse.py:258-317, 319-405, 408-467, 470-531, 534-583, 586-645. *)
Definition table (s : section) : list (string * call) :=
  match s with
  | Image => [("acfr_standard", plain "parse_acfr_images"); ("unagi", plain "parse_acfr_images"); ("seaxerocks_3", plain "parse_seaxerocks_images");
      ("biocam", plain "parse_biocam_images"); ("biocam4000_15c", plain "parse_biocam_images"); ("ntnu_stereo", plain "parse_ntnu_stereo_images");
      ("rosbag_extracted_images", plain "parse_rosbag_extracted_images"); ("rosbag", plain "parse_rosbag");
      ("stereo_gopro", plain "parse_stereo_gopro_images"); ("voyis", plain "parse_voyis_images")]
  | Usbl => [("gaps", plain "parse_gaps"); ("usbl_dump", plain "parse_usbl_dump"); ("NOC_nmea", plain "parse_NOC_nmea"); ("eiva_navipac", plain "parse_eiva_navipac");
      ("rosbag", plain "parse_rosbag"); ("koyo21rov", plain "parse_koyo21rov"); ("alr", plain "parse_alr"); ("alr2", ("parse_alr", true));
      ("sonardyne_mrt", plain "parse_sonardyne_mrt"); ("sonardyne_gga", plain "parse_sonardyne_gga"); ("sonardyne_gga2", plain "parse_sonardyne_gga2");
      ("sonardyne_gga3", plain "parse_sonardyne_gga3"); ("sonardyne_gga4", plain "parse_sonardyne_gga4")]
  | Velocity => [("phins", plain "parse_phins"); ("ae2000", plain "parse_ae2000"); ("alr", plain "parse_alr"); ("autosub", plain "parse_autosub");
      ("rdi", plain "parse_rdi"); ("ntnu_dvl", plain "parse_ntnu_dvl"); ("rosbag", plain "parse_rosbag"); ("koyo21rov", plain "parse_koyo21rov")]
  | Orientation => [("phins", plain "parse_phins"); ("ae2000", plain "parse_ae2000"); ("alr", plain "parse_alr"); ("koyo21rov", plain "parse_koyo21rov");
      ("autosub", plain "parse_autosub"); ("rdi", plain "parse_rdi"); ("eiva_navipac", plain "parse_eiva_navipac"); ("rosbag", plain "parse_rosbag")]
  | Depth => [("phins", plain "parse_phins"); ("ae2000", plain "parse_ae2000"); ("alr", plain "parse_alr"); ("koyo21rov", plain "parse_koyo21rov");
      ("autosub", plain "parse_autosub"); ("gaps", plain "parse_gaps"); ("eiva_navipac", plain "parse_eiva_navipac"); ("rosbag", plain "parse_rosbag")]
  | Altitude => [("phins", plain "parse_phins"); ("ae2000", plain "parse_ae2000"); ("alr", plain "parse_alr"); ("koyo21rov", plain "parse_koyo21rov");
      ("autosub", plain "parse_autosub"); ("rdi", plain "parse_rdi"); ("ntnu_dvl", plain "parse_ntnu_dvl"); ("rosbag", plain "parse_rosbag")]
  end.
Definition sections : list section := [Image; Usbl; Velocity; Orientation; Depth; Altitude].
(** pool_list, in the order of the sections. *)
Fixpoint jobs_of (m : mission) (l : list section) : option (list (section * call)) :=
  match l with
  | [] => Some []
  | s :: l =>
      match format_of m s with
      | None => jobs_of m l
      | Some f =>
          match choose (table s) f, jobs_of m l with Some c, Some js => Some ((s, c) :: js) | _, _ => None end
      end
  end.
Definition jobs (m : mission) : option (list (section * call)) := jobs_of m sections.
(** parse.py:647-656 *)
Definition tide_call (m : mission) : option (option call) :=
  match m_tide m with
  | None => Some None
  | Some f => match choose [("NOC_polpred", plain "parse_NOC_polpred"); ("NOC_CTI", plain "parse_tide_CTI")] f with Some c => Some (Some c) | None => None end
  end.

Section Parse.
  Context {C : Type}.
  (** A record: time, depth, and category with everything else. *)
  Notation record := (result (string * C)).
  Definition category (r : record) : string := fst (r_rest r).
  (** What a parser returns ([None]: it raises, or returns None); an element may be None (parse.py:690). *)
  Variable run : section -> call -> option (list (option record)).
  Variable tide : call -> option (list (Q * Q)).
  (** correct_timestamps *)
  Variable correct_stamps : list record -> option (list record).
  Variable str_float : Q -> list N.
  Variable origin : string * C.

  Fixpoint all_some {A} (l : list (option A)) : option (list A) :=
    match l with
    | [] => Some []
    | Some x :: l => match all_some l with Some r => Some (x :: r) | None => None end
    | None :: _ => None
    end.
  (** parse.py:686-762 for one job: what is appended to the data list ([Some []] for [continue]).  A None
      that is not the first element is an exception, at the latest in the interlacer. *)
  Definition compile (biocam : bool) (tides : option (list (Q * Q))) (results : list (option record)) : option (list record) :=
    match results with
    | [] | None :: _ => Some []
    | Some first :: _ =>
        match all_some results with
        | None => None
        | Some rs =>
            match (if (biocam && String.eqb (category first) "image")%bool then correct_stamps rs else Some rs) with
            | None => None
            | Some rs =>
                match rs with
                | [] => None (* 700: results[0] *)
                | first :: _ =>
                    match tides with
                    | Some tl =>
                        if (String.eqb (category first) "depth" || String.eqb (category first) "usbl")%bool
                        then match tl with [] => None (* 749: tide_list[0] *) | _ => correct_tide tl rs end else Some rs
                    | None => Some rs
                    end
                end
            end
        end
    end.
  Fixpoint compile_all (biocam : bool) (tides : option (list (Q * Q))) (js : list (section * call)) : option (list record) :=
    match js with
    | [] => Some []
    | (s, c) :: js =>
        match run s c with
        | None => None
        | Some results =>
            match compile biocam tides results, compile_all biocam tides js with Some a, Some b => Some (app a b) | _, _ => None end
        end
    end.
  Definition is_biocam (m : mission) : bool := match m_image m with Some f => String.eqb f "biocam" | None => false end.
  (** parse.py:766-783: the file after the interlacer. *)
  Definition parse_single (m : mission) : option (list record) :=
    match jobs m, tide_call m with
    | Some js, Some tc =>
        match (match tc with None => Some None | Some c => match tide c with Some l => Some (Some l) | None => None end end) with
        | None => None
        | Some tides =>
            match compile_all (is_biocam m) tides js with
            | None => None
            | Some records =>
                match interlacer str_float (map (fun r => (r_t r, r)) (mkRes 0 0 origin :: records)) with
                | Some out => Some (map snd out)
                | None => None
                end
            end
        end
    | _, _ => None
    end.
End Parse.
