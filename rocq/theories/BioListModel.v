(** The image files of BioCam: which of them parse_biocam_images.py takes for the stereo pair and which for the laser (129-169), the times in
    their names (32-89), the records made of them (174-267), and the position and the name under which process.py puts the laser images
    (process.py:377-412, 1242-1261 and 1279-1297, 1524-1548).  Pairing is in StereoModel, for the first dive of a run. *)
From Coq Require Import Ascii String.
From Verif Require Import PyBase NmeaModel CsvModel LatlonModel FilesModel TimeModel StereoModel.
Open Scope list_scope.
Open Scope Q_scope.

(** A file is the parts of its path below the folder [base] of the images; [line] is the path globbed (no part has a '/').  The names
    reported are relative to the dive's folder instead. *)
Definition file : Type := list text.
Definition line (base : text) (f : file) : text := base ++ slash :: join slash f.
(** glob: '*' takes no name that starts with '.', nor does '**'.  Neither the base nor the names of the cameras have one of "*?[". *)
Definition hidden (n : text) : bool := prefix (txt ".") n.
Definition suffixed (s n : text) : bool := text_eqb (skipn (length n - length s) n) s.
Definition matches (s n : text) : bool := (negb (hidden n) && suffixed s n)%bool.
(** dir/*s *)
Definition directly (dir s : text) (f : file) : bool :=
  match f with [d; n] => (text_eqb d dir && matches s n)%bool | _ => false end.
(** **/*s *)
Fixpoint below (s : text) (f : file) : bool :=
  match f with
  | [] => false
  | n :: [] => matches s n
  | d :: f => (negb (hidden d) && below s f)%bool
  end.
Definition anywhere (dir s : text) (f : file) : bool := match f with d :: f => (text_eqb d dir && below s f)%bool | [] => false end.

(** 131-143; [fs]: the files there are, each time in the order of the folder *)
Definition found (label : text) (fs : list file) : list file :=
  filter (directly (label ++ txt "_strobe") (txt ".tif")) fs ++
  filter (anywhere (label ++ txt "_laser") (txt ".jpg")) fs ++
  filter (directly (label ++ txt "_laser") (txt ".tif")) fs.
Section Lists.
  Variables (base label1 label2 : text) (fs : list file).
  Definition has (s : string) (f : file) : bool := contains (txt s) (line base f).
  (** 145-151 *)
  Definition camera1 : list file := filter (fun f => (negb (has ".txt" f) && negb (has "._" f))%bool) (found label1 fs).
  Definition camera2 : list file := filter (fun f => (negb (has ".txt" f) && negb (has ".jpg" f))%bool) (found label2 fs).
  Definition camera3 : list file := filter (has ".jpg") (found label2 fs).
End Lists.

(** int() of digits; signs, spaces and the like are errors here *)
Definition int_of (s : text) : option Z := match s with [] => None | _ => digits 0 s end.
(** 32-56; [None]: ValueError or UnboundLocalError.  [usec] stays unbound unless the last text has three or six characters. *)
Definition time_from_string (date time ms : text) (tz off : Q) : option Q :=
  bind (int_of (slice 0 4 date)) (fun yyyy => bind (int_of (slice 4 6 date)) (fun mm => bind (int_of (slice 6 8 date)) (fun dd =>
  bind (int_of (slice 0 2 time)) (fun hour => bind (int_of (slice 2 4 time)) (fun mins => bind (int_of (slice 4 6 time)) (fun secs =>
  bind (if (length ms =? 6)%nat then bind (int_of (slice 0 6 ms)) (fun u => Some (Some u))
        else if (length ms =? 3)%nat then bind (int_of (slice 0 3 ms)) (fun m => Some (Some (m * 1000)%Z))
        else Some None) (fun usec =>
  if (yyyy <? 2000)%Z then Some 0
  else bind (date_time_to_epoch yyyy mm dd hour mins secs tz 0) (fun t => bind usec (fun u => Some (t + inject_Z u / 1000000 + off)))))))))).
Definition underscore : N := 95.
(** 59-89: time of the computer, time of the camera *)
Definition stamps (tz off : Q) (name : text) : option (Q * Q) :=
  let p := split underscore (strip name) in
  let at_ i k := bind (nth_error p i) k in
  let both a b c a' b' c' := bind (time_from_string a b c tz off) (fun t => bind (time_from_string a' b' c' tz off) (fun t' => Some (t, t'))) in
  if (4 <? length p)%nat then
    at_ 0%nat (fun a => at_ 1%nat (fun b => at_ 2%nat (fun c => at_ 3%nat (fun a' => at_ 4%nat (fun b' => at_ 5%nat (fun c' => both a b c a' b' c'))))))
  else at_ 1%nat (fun a => at_ 2%nat (fun b => at_ 3%nat (fun c => both a b c a b c))).

(** An image in a record: its file, and the times of the computer and of the camera *)
Record shot := mkshot { s_file : file; s_cpu : Q; s_cam : Q }.
Inductive entry := Stereo (a b : shot) | Laser (c : shot).
Definition name_of (f : file) : text := last f [].
Fixpoint shots (tz off : Q) (fs : list file) : option (list shot) :=
  match fs with
  | [] => Some []
  | f :: fs => bind (stamps tz off (name_of f)) (fun t => bind (shots tz off fs) (fun l => Some (mkshot f (fst t) (snd t) :: l)))
  end.
Definition image_of (s : shot) : image (file * Q) := mkImg (s_cpu s) (s_file s, s_cam s).
Definition shot_of (i : image (file * Q)) : shot := mkshot (fst (i_name i)) (i_t i) (snd (i_name i)).
(** 174-267; [tz]: timezone_offset (110-124), [off]: timeoffset_s *)
Definition parse_images (tz off : Q) (base label1 label2 : text) (fs : list file) : option (list entry) :=
  bind (shots tz off (camera1 base label1 fs)) (fun l1 =>
  bind (shots tz off (camera2 base label2 fs)) (fun l2 =>
  bind (parse_alone BiocamImages tolerance (mkCams (map image_of l1) (map image_of l2))) (fun ps =>
  bind (shots tz off (camera3 base label2 fs)) (fun l3 =>
  Some (map (fun p => Stereo (shot_of (fst p)) (shot_of (snd p))) ps ++ map Laser l3))))).

(** * process.py *)
Record camera := mkcamera { c_name : text; records_laser : bool }.
(** 389-412: [o1], [o2], [o3] are the offsets of vehicle.camera1, camera2 and camera3 (VehicleModel); [None]: quit, or IndexError *)
Definition laser_offsets {A} (format : string) (cs : list camera) (o1 o2 o3 : A) : option A :=
  if String.eqb format "biocam" then
    bind (nth_error cs 0) (fun c => if records_laser c then Some o1 else bind (nth_error cs 1) (fun c => if records_laser c then Some o2 else None))
  else Some o3.
(** 1242-1261 = 1279-1297 = 1899-1999; [None]: no file *)
Definition laser_name (cs : list camera) : option text :=
  if (2 <? length cs)%nat then bind (nth_error cs 2) (fun c => Some (c_name c ++ txt "_laser"))
  else if (length cs =? 2)%nat then bind (nth_error cs 1) (fun c => Some (c_name c ++ txt "_laser"))
  else None.
(** The position on the vehicle and the name with which the laser images are written *)
Definition laser_poses {A} (format : string) (cs : list camera) (o1 o2 o3 : A) : option (A * text) :=
  bind (laser_offsets format cs o1 o2 o3) (fun o => bind (laser_name cs) (fun n => Some (o, n))).
