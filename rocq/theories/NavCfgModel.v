(** auv_nav process: reading auv_nav.yaml (auv_nav/process.py:192-345) and the files that are written for the settings in it (process.py:
    512-547, 752, 1564-1600, 1705-2101 with csv_tools.py:31-103, 236-352).  The tracks themselves are in other models (DrModel, PfModel,
    EkfModel, CameraModel); here each list has only its length when it is written.  A text or a list where a mapping is expected is an
    exception here. *)
From Coq Require Import Ascii String.
From Verif Require Import PyBase MissionModel LoadCfgModel.
Open Scope string_scope.
Open Scope list_scope.
Open Scope Q_scope.

(** * auv_nav.yaml *)
Definition truth (y : yaml) : bool :=
  match y with YNull => false | YNum q => negb (Qeq_bool q 0) | YBool b => b | YStr s => negb (String.eqb s "") | YSeq l => negb (length l =? 0)%nat | YMap l => negb (length l =? 0)%nat end.
Definition is_true (y : yaml) : bool := match y with YBool true => true | _ => false end.
(** d[k1][k2] *)
Definition item2 (k1 k2 : string) (n : node) : res yaml := do m <- item k1 n; do m <- mapping m; item k2 m.

(** 223-228 and 232-269: the uncertainty models; assigning to a key is putting it in front. *)
Definition alias (k old : string) (n : node) : res node := if has_key k n then Ok n else do v <- item old n; Ok ((k, v) :: n).
Definition modelled (k : string) (n : node) : res node :=
  match get k n with
  | None => Ok ((k, YMap [("model", YStr "sensor")]) :: n)
  | Some (YMap m) => if has_key "model" m then Ok n else Ok ((k, YMap (("model", YStr "sensor") :: m)) :: n)
  | Some _ => Raised
  end.
Definition std_load (y : option yaml) : res node :=
  do n <- match y with
          | Some y => do n <- mapping y; do n <- alias "position_xy" "usbl" n; do n <- alias "position_z" "depth" n; alias "speed" "dvl" n
          | None => Ok []
          end;
  do n <- modelled "position_xy" n; do n <- modelled "speed" n; do n <- modelled "position_z" n; modelled "orientation" n.

Section Load.
  (** float(s) of a text (safe_load reads 1e-9, which has no point, as a text); [None]: ValueError.  A null entry, of which numpy makes a NaN, is an
      exception here. *)
  Variable float_of : string -> option Q.
  Definition scalar (y : yaml) : res Q :=
    match y with
    | YNum q => Ok q
    | YBool b => Ok (if b then 1 else 0)
    | YStr s => match float_of s with Some q => Ok q | None => Raised end
    | _ => Raised
    end.
  Definition text (y : yaml) : bool := match y with YStr _ => true | _ => false end.
  Definition boolean (y : yaml) : bool := match y with YBool _ => true | _ => false end.
  (** np.asarray(…): a list of numbers, or a list of rows of one length.  Among texts a bool is the text "True" or "False", which is no number. *)
  Definition row (y : yaml) : option (list yaml) := match y with YSeq l => Some l | _ => None end.
  Fixpoint rows (l : list yaml) : option (list (list yaml)) :=
    match l with [] => Some [] | y :: l => match row y, rows l with Some r, Some rs => Some (r :: rs) | _, _ => None end end.
  Definition flat (l : list yaml) : res (list yaml) :=
    match l with
    | YSeq r :: _ =>
        match rows l with
        | Some rs => if forallb (fun x => (length x =? length r)%nat) rs then Ok (concat rs) else Raised
        | None => Raised
        end
    | _ => Ok l
    end.
  Definition numbers (l : list yaml) : res (list Q) := if existsb text l && existsb boolean l then Raised else each scalar l.
  Fixpoint cut (n w : nat) (l : list Q) : list (list Q) := match n with O => [] | S n => firstn w l :: cut n w (skipn w l) end.
  Definition matrix : Type := list (list Q).
  (** reshape((n, n)) *)
  Definition reshape (n : nat) (y : yaml) : res matrix :=
    do l <- match y with YSeq l => Ok l | _ => Raised end;
    do l <- flat l;
    if (length l =? n * n)%nat then do q <- numbers l; Ok (cut n n q) else Raised.
  (** 284-299 *)
  Definition covariances (process initial : yaml) : res (matrix * matrix) :=
    do l <- match process with YSeq l => Ok l | _ => Raised end;
    if negb (length l =? 144)%nat then
      do p <- reshape 15 process; do i <- reshape 15 initial;
      let top m := map (firstn 12) (firstn 12 m) in Ok (top p, top i)
    else do p <- reshape 12 process; do i <- reshape 12 initial; Ok (p, i).

  Record ekf := mkekf { ekf_activate : yaml; smoother : yaml; threshold : yaml; noise : option (matrix * matrix) }.
  (** 193-197, 270-302 *)
  Definition ekf_load (y : option yaml) : res ekf :=
    match y with
    | None => Ok (mkekf (YBool false) (YBool true) (YNum 3) None)
    | Some y =>
        do n <- mapping y;
        do a <- item "activate" n;
        do p <- item "process_noise_covariance" n; do i <- item "initial_estimate_covariance" n;
        do c <- covariances p i;
        Ok (mkekf a (get_or "activate_smoother" (YBool true) n) (get_or "mahalanobis_distance_threshold" (YNum 3) n) (Some c))
    end.

  (** The flags of one kind of solution: auv_centre, auv_dvl, camera_1, camera_2, camera_3, payload. *)
  Record flags := mkflags { f_centre : yaml; f_dvl : yaml; f_camera1 : yaml; f_camera2 : yaml; f_camera3 : yaml; f_payload : yaml }.
  (** 306-325.  There is no auv_dvl for the Kalman filter. *)
  Definition flags_load (dvl : bool) (k : string) (d : node) : res flags :=
    do n <- item k d; do n <- mapping n;
    do c <- item "auv_centre" n; do v <- (if dvl then item "auv_dvl" n else Ok (YBool false));
    do c1 <- item "camera_1" n; do c2 <- item "camera_2" n; do c3 <- item "camera_3" n;
    Ok (mkflags c v c1 c2 c3 (get_or "payload" (YBool true) n)).
  Record csv := mkcsv { csv_activate : yaml; csv_usbl : yaml; csv_dr : flags; csv_pf : flags; csv_ekf : flags }.
  Definition csv_load (y : yaml) : res csv :=
    do d <- mapping y; do a <- item "activate" d; do u <- item "usbl" d;
    do dr <- flags_load true "dead_reckoning" d; do pf <- flags_load true "particle_filter" d; do e <- flags_load false "ekf" d;
    Ok (mkcsv a u dr pf e).
  Record spp := mkspp { spp_activate : yaml; spp_1 : yaml; spp_2 : yaml; spp_3 : yaml }.
  (** 338-349: off without the Kalman filter *)
  Definition spp_load (on : yaml) (y : yaml) : res spp :=
    do d <- mapping y; do a <- item "activate" d;
    do c1 <- item2 "ekf" "camera_1" d; do c2 <- item2 "ekf" "camera_2" d; do c3 <- item2 "ekf" "camera_3" d;
    Ok (mkspp (if truth a && negb (truth on) then YBool false else a) c1 c2 c3).
  Record usbl_filter := mkusbl { u_activate : yaml; u_speed : yaml; u_sigma : yaml }.
  Record particles := mkparticles { p_activate : yaml; p_dvl : yaml; p_imu : yaml; p_usbl : yaml; p_number : yaml; p_interval : yaml }.

  (** [None]: the section is not in the file; then the variables of usbl_filter and of plot_output are never assigned, csv_output and spp_output
      are off (326-334, 350-357) and so is the particle filter (193). *)
  Record settings := mksettings { s_usbl : option usbl_filter; s_particles : option particles; s_std : node; s_ekf : ekf; s_csv : option csv;
    s_spp : option spp; s_plot : option (yaml * yaml) }.
  Definition usbl_load (y : yaml) : res usbl_filter :=
    do n <- mapping y; do a <- item "activate" n; do v <- item "max_auv_speed" n; do s <- item "sigma_factor" n; Ok (mkusbl a v s).
  Definition particles_load (y : yaml) : res particles :=
    do n <- mapping y; do a <- item "activate" n; do d <- item "dvl_noise_sigma_factor" n; do i <- item "imu_noise_sigma_factor" n;
    do u <- item "usbl_noise_sigma_factor" n; do c <- item "particles_number" n; do t <- item "particles_plot_time_interval" n;
    Ok (mkparticles a d i u c t).
  Definition plot_load (y : yaml) : res (yaml * yaml) := do n <- mapping y; do a <- item "activate" n; do h <- item "html_plot" n; Ok (a, h).
  (** 199-363 *)
  Definition settings_load (y : yaml) : res settings :=
    do n <- mapping y;
    do u <- optional "usbl_filter" n usbl_load;
    do p <- optional "particle_filter" n particles_load;
    do s <- std_load (get "std" n);
    do e <- ekf_load (get "ekf" n);
    do c <- optional "csv_output" n csv_load;
    do x <- optional "spp_output" n (spp_load (ekf_activate e));
    do t <- optional "plot_output" n plot_load;
    Ok (mksettings u p s e c x t).
End Load.

(** * The payloads *)
Fixpoint contains (p s : string) : bool := String.prefix p s || match s with EmptyString => false | String _ s => contains p s end.
(** s.replace(p, "") for a text [p] that is not empty; [skip] characters are part of an occurrence. *)
Fixpoint without (p : string) (skip : nat) (s : string) : string :=
  match s with
  | EmptyString => EmptyString
  | String c r =>
      match skip with
      | S k => without p k r
      | O => if String.prefix p s then without p (String.length p - 1) r else String c (without p 0 r)
      end
  end.
(** A dictionary of the lists of records, each named by the payload of vehicle.yaml that it is a copy of. *)
Definition dict : Type := list (string * string).
Fixpoint value (k : string) (d : dict) : option string := match d with [] => None | (k', v) :: d => if String.eqb k k' then Some v else value k d end.
(** {**a, **b} *)
Definition merged (a b : dict) : dict :=
  map (fun e => (fst e, match value (fst e) b with Some v => v | None => snd e end)) a ++
  filter (fun e => match value (fst e) a with Some _ => false | None => true end) b.
Definition plain (k : string) : bool := negb (contains "_pf" k) && negb (contains "_ekf" k).
(** 526-547 *)
Definition copies (suffix : string) (d : dict) : dict := map (fun e => (fst e ++ suffix, snd e))%string (filter (fun e => plain (fst e)) d).
Definition payload_dict (pf ekf : bool) (names : list string) : dict :=
  let d := map (fun s => (s, s)) names in
  let d := if pf then merged d (copies "_pf" d) else d in
  if ekf then merged d (copies "_ekf" d) else d.

(** * The run *)
(** What process has found: the names of the cameras in mission.yaml, of the payloads in vehicle.yaml, the lengths of the lists when they are
    written.  [n_usbl]: after the filter.  [n_pf]: the track of the particle filter; it is not run without usbl (1159).  [n_camera e i] and
    [n_payload k]: after those out of the range of the track are taken out.  [laser_stamped]: the first laser image has a time stamp (1239). *)
Inductive estimate := Dr | Pf | Ekf.
Record found := mkfound { camera_names : list string; payload_names : list string; n_usbl : nat; n_dr : nat; n_pf : nat; n_ekf : nat;
  n_camera : estimate -> nat -> nat; n_at_dvl : nat; n_payload : string -> nat; laser_stamped : bool }.
Inductive source := Centre | Dvl | Image (i : nat) | Laser | LaserAtDvl | OfPayload (name : string).
(** One thread.  [offset]: the payload whose place on the vehicle was used for the poses; [posed]: the records have been given poses of the track. *)
Inductive kind := Csv | Sidescan | Spp.
Record job := mkjob { j_kind : kind; folder : estimate; file : string; what : source; count : nat; flag : yaml; posed : bool }.
(** csv_tools.py:48, 237 and 243, 259 *)
Definition written (j : job) : bool :=
  match j_kind j with
  | Csv | Spp => is_true (flag j) && (1 <? count j)%nat
  | Sidescan => truth (flag j) && (0 <? count j)%nat
  end.

Section Run.
  Variable s : settings.
  Variable f : found.
  Definition pf_on : bool := match s_particles s with Some p => truth (p_activate p) | None => false end.
  Definition ekf_on : bool := truth (ekf_activate (s_ekf s)).
  Definition pf_length : nat := if pf_on && (0 <? n_usbl f)%nat then n_pf f else 0.
  Definition ekf_length : nat := if ekf_on then n_ekf f else 0.
  Definition payloads : dict := payload_dict pf_on ekf_on (payload_names f).
  Definition known (k : string) : bool := existsb (String.eqb k) (payload_names f).
  (** 1564-1595: payload_offset[…] of each; false: KeyError *)
  Definition offsets_known : bool :=
    forallb (fun e => let k := fst e in
      (if plain k then known k else true) &&
      (if (1 <? pf_length)%nat && contains "_pf" k then known (without "_pf" 0 k) else true) &&
      (if (1 <? ekf_length)%nat && contains "_ekf" k then known (without "_ekf" 0 k) else true)) payloads.
  Definition payload_posed (k : string) : bool :=
    plain k || ((1 <? pf_length)%nat && contains "_pf" k) || ((1 <? ekf_length)%nat && contains "_ekf" k).
  Definition camera (i : nat) : option string := nth_error (camera_names f) i.

  (** 1787-1824 *)
  Definition payload_job (c : csv) (e : string * string) : job :=
    let '(k, p) := e in
    if contains "_pf" k then mkjob Csv Pf k (OfPayload p) (n_payload f k) (f_payload (csv_pf c)) (payload_posed k)
    else if contains "_ekf" k then mkjob Csv Ekf k (OfPayload p) (n_payload f k) (f_payload (csv_ekf c)) (payload_posed k)
    else mkjob Csv Dr (k ++ "_dr")%string (OfPayload p) (n_payload f k) (f_payload (csv_dr c)) (payload_posed k).
  (** A camera whose name has to be there: [None] is an IndexError. *)
  Definition image_job (name : option string) (k : kind) (e : estimate) (prefix suffix : string) (w : source) (n : nat) (fl : yaml) (p : bool) : option job :=
    match name with Some c => Some (mkjob k e (prefix ++ c ++ suffix)%string w n fl p) | None => None end.
  Definition if_ {A} (b : bool) (l : list A) : list A := if b then l else [].
  (** 1826-1898: the first camera is looked up if there is one record of it, the second if there are two. *)
  Definition camera_jobs (c : csv) (i : nat) (fl : flags -> yaml) : list (option job) :=
    image_job (camera i) Csv Dr "auv_dr_" "" (Image i) (n_camera f Dr i) (fl (csv_dr c)) true ::
    if_ pf_on [image_job (camera i) Csv Pf "auv_pf_" "" (Image i) (n_camera f Pf i) (fl (csv_pf c)) (1 <? pf_length)%nat] ++
    if_ ekf_on [image_job (camera i) Csv Ekf "auv_ekf_" "" (Image i) (n_camera f Ekf i) (fl (csv_ekf c)) true].
  (** 1899-1999: the laser is on the third camera, or, of two, on the second. *)
  Definition laser_camera : option (option string) :=
    if (2 <? length (camera_names f))%nat then Some (camera 2) else if (length (camera_names f) =? 2)%nat then Some (camera 1) else None.
  Definition laser_jobs (c : csv) : list (option job) :=
    match laser_camera with
    | None => []
    | Some name =>
        image_job name Csv Dr "auv_dr_" "_laser" Laser (n_camera f Dr 2) (f_camera3 (csv_dr c)) (laser_stamped f) ::
        if_ pf_on [image_job name Csv Pf "auv_pf_" "_laser" Laser (n_camera f Pf 2) (f_camera3 (csv_pf c)) (1 <? pf_length)%nat] ++
        if_ ekf_on [image_job name Csv Ekf "auv_ekf_" "_laser" Laser (n_camera f Ekf 2) (f_camera3 (csv_ekf c)) true;
                    image_job name Csv Ekf "auv_ekf_" "_laser_at_dvl" LaserAtDvl (n_at_dvl f) (f_camera3 (csv_ekf c)) true]
    end.
  (** 1743-2030, the threads in order *)
  Definition csv_jobs (c : csv) : list (option job) :=
    [Some (mkjob Csv Dr "auv_dr_centre" Centre (n_dr f) (f_centre (csv_dr c)) true); Some (mkjob Csv Dr "auv_dr_dvl" Dvl (n_dr f) (f_dvl (csv_dr c)) true);
     Some (mkjob Csv Pf "auv_pf_centre" Centre pf_length (f_centre (csv_pf c)) true); Some (mkjob Csv Pf "auv_pf_dvl" Dvl pf_length (f_dvl (csv_pf c)) true);
     Some (mkjob Csv Ekf "auv_ekf_centre" Centre ekf_length (f_centre (csv_ekf c)) true)] ++
    map (fun e => Some (payload_job c e)) payloads ++
    if_ (0 <? n_camera f Dr 0)%nat (camera_jobs c 0 f_camera1) ++
    if_ (1 <? n_camera f Dr 1)%nat (camera_jobs c 1 f_camera2) ++
    if_ (1 <? n_camera f Dr 2)%nat (laser_jobs c) ++
    [Some (mkjob Sidescan Dr "auv_dr_centre_sss" Centre (n_dr f) (f_centre (csv_dr c)) true)] ++
    if_ pf_on [Some (mkjob Sidescan Pf "auv_pf_centre_sss" Centre pf_length (f_centre (csv_pf c)) true)] ++
    if_ ekf_on [Some (mkjob Sidescan Ekf "auv_ekf_centre_sss" Centre ekf_length (f_centre (csv_ekf c)) true)].
  (** 2050-2097; the poses of the first camera are made relative, which leaves one less (2049). *)
  Definition spp_jobs (x : spp) : list (option job) :=
    image_job (camera 0) Spp Ekf "auv_ekf_" "" (Image 0) (n_camera f Ekf 0 - 1) (spp_1 x) true ::
    image_job (camera 1) Spp Ekf "auv_ekf_" "" (Image 1) (n_camera f Ekf 1) (spp_2 x) true ::
    if_ (1 <? n_camera f Ekf 2)%nat (match laser_camera with
                                     | Some name => [image_job name Spp Ekf "auv_ekf_" "_laser" Laser (n_camera f Ekf 2) (spp_3 x) true]
                                     | None => []
                                     end).
  (** The threads that are started, and whether the end was reached: those started go on after an exception. *)
  Fixpoint started (l : list (option job)) : list job * bool :=
    match l with
    | [] => ([], true)
    | None :: _ => ([], false)
    | Some j :: l => let '(js, ok) := started l in (j :: js, ok)
    end.
  Definition all_jobs : list (option job) :=
    match s_csv s with Some c => if_ (truth (csv_activate c)) (csv_jobs c) | None => [] end ++
    match s_spp s with Some x => if_ (truth (spp_activate x) && ekf_on) (spp_jobs x) | None => [] end.
  (** The USBL file (1713-1740), the threads and the end of process from 749 on.  The plots (1598-1703) and the files of the raw sensors (595-638)
      are left out.  Images without a camera in mission.yaml are an exception at 1225 (one image: at 1831). *)
  Record outcome := mkoutcome { usbl_file : bool; jobs : list job; finished : bool }.
  Definition run : outcome :=
    match s_usbl s, s_plot s with
    | Some _, Some _ =>
        if offsets_known && negb ((1 <? n_camera f Dr 0)%nat && (length (camera_names f) =? 0)%nat) then
          let '(js, ok) := started all_jobs in
          mkoutcome (match s_csv s with Some c => truth (csv_activate c) && truth (csv_usbl c) && (1 <? n_usbl f)%nat | None => false end) js ok
        else mkoutcome false [] false
    | _, _ => mkoutcome false [] false
    end.
End Run.

(** process.py:1323-1332: the file of the poses that the relative uncertainties start from; [None]: IndexError.  1477-1499: the files they are
    written to. *)
Definition relative_from (names : list string) : option string :=
  match nth_error names 2 with Some c => Some ("auv_ekf_" ++ c ++ "_laser_at_dvl.csv")%string | None => None end.
Definition relative_to (names : list string) : option (string * string) :=
  match (if (2 <? length names)%nat then nth_error names 2 else if (length names =? 2)%nat then nth_error names 1 else None) with
  | Some c => Some ("auv_ekf_cov_based_on_ekf_propagation_" ++ c ++ "_laser_at_dvl.csv", "auv_ekf_cov_based_on_subtraction_" ++ c ++ "_laser_at_dvl.csv")%string
  | None => None
  end.
