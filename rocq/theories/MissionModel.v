(** Model of oplab/mission.py: [write] of a mission that was built in memory
    (self.filename is None, 455-509) and [Mission(filename)] (298-447).  A YAML document is
    a tree of this type, and dumping and loading it is exact.  A KeyError, TypeError or
    AttributeError, and Console.quit, are [None].  Time zones are already numbers (names
    are in TimeModel).  A loaded file (self.filename set) is copied verbatim. *)
From Coq Require Import String.
From Verif Require Import PyBase.
Open Scope string_scope.

Inductive yaml := YNull | YNum (q : Q) | YBool (b : bool) | YStr (s : string) | YSeq (l : list yaml) | YMap (l : list (string * yaml)).
Definition node : Type := list (string * yaml).
Fixpoint get (k : string) (n : node) : option yaml :=
  match n with [] => None | (k', v) :: r => if String.eqb k k' then Some v else get k r end.
Definition get_or (k : string) (d : yaml) (n : node) : yaml := match get k n with Some v => v | None => d end.
Definition bind {A B} (x : option A) (f : A -> option B) : option B := match x with Some a => f a | None => None end.
Notation "'let*' x := a 'in' b" := (bind a (fun x => b)) (at level 200, x pattern, a at level 100, b at level 200).
Definition as_map (y : yaml) : option node := match y with YMap l => Some l | _ => None end.
Definition as_num (y : yaml) : option Q := match y with YNum q => Some q | _ => None end.

(** TimeZoneEntry, 40-75. *)
Record zone := mkzone { timezone : Q; timeoffset : Q }.
Definition zone_write (z : zone) : node := [("timezone", YNum (timezone z)); ("timeoffset", YNum (timeoffset z))].
Definition zone_load (n : node) : option zone :=
  let* t := as_num (get_or "timezone" (YNum 0) n) in
  let* o := as_num (get_or "timeoffset" (YNum 0) n) in
  Some (mkzone t o).

(** DefaultEntry, 235-292.  [e_origin] is the frame name. *)
Record entry := mkentry { e_zone : zone; e_format : yaml; e_filepath : yaml; e_filename : yaml; e_label : yaml; e_factor : yaml; e_offset : yaml;
  e_field : yaml; e_depth_filter : yaml; e_ne_filter : yaml; e_topic : yaml; e_origin : option yaml }.
(** 280-292; the node is empty, so 283-286 write nothing. *)
Definition entry_write (e : entry) : node :=
  (zone_write (e_zone e) ++
  [("format", e_format e); ("filepath", e_filepath e); ("filename", e_filename e); ("label", e_label e); ("id", e_label e);
   ("std_factor", e_factor e); ("std_offset", e_offset e)])%list.
(** 253-278 *)
Definition entry_load (n : node) : option entry :=
  let* z := zone_load n in
  let* f := get "format" n in
  Some (mkentry z f (get_or "filepath" (YStr "") n) (get_or "filename" (YStr "") n)
          (get_or "label" (get_or "id" (YNum 0) n) n) (get_or "std_factor" (YNum 0) n) (get_or "std_offset" (YNum 0) n)
          (get_or "field_id" (YNum 0) n) (get_or "apply_depth_filter" (YBool true) n) (get_or "apply_north_east_filter" (YBool true) n)
          (get_or "topic" YNull n) (get "origin" n)).
Definition with_origin (e : entry) (o : option yaml) : entry :=
  mkentry (e_zone e) (e_format e) (e_filepath e) (e_filename e) (e_label e) (e_factor e) (e_offset e) (e_field e) (e_depth_filter e)
          (e_ne_filter e) (e_topic e) o.
(** 342-396: a sensor that must be mounted on a frame of vehicle.yaml; [d] is its default
    frame. *)
Definition mounted (frames : list string) (d : string) (e : entry) : option entry :=
  let o := match e_origin e with Some o => o | None => YStr d end in
  match o with
  | YStr s => if existsb (String.eqb s) frames then Some (with_origin e (Some o)) else None
  | _ => None
  end.
Definition sensor_load (frames : list string) (d : string) (y : option yaml) : option (option entry) :=
  match y with
  | None => Some None
  | Some y => let* n := as_map y in let* e := entry_load n in let* e := mounted frames d e in Some (Some e)
  end.
Definition plain_load (y : option yaml) : option (option entry) :=
  match y with None => Some None | Some y => let* n := as_map y in let* e := entry_load n in Some (Some e) end.

(** CameraEntry, 102-144. *)
Record camera := mkcamera { c_name : yaml; c_laser : yaml; c_origin : yaml; c_path : yaml; c_topic : yaml; c_timeoffset : yaml; c_timeoffset_s : yaml }.
(** 137-144; self.type is always None. *)
Definition camera_write (c : camera) : node :=
  [("name", c_name c); ("origin", c_origin c); ("type", YNull); ("path", c_path c); ("records_laser", c_laser c); ("timeoffset", c_timeoffset c)].
(** 111-135; the warnings at 113-122 need the name to be a string, and so does 126, which
    needs the origin too. *)
Definition camera_load (n : node) : option camera :=
  let* name := get "name" n in
  let* _ := match get "type" n, name with Some _, YStr _ => Some tt | Some _, _ => None | None, _ => Some tt end in
  let* path := get "path" n in
  let* origin := match get "origin" n, name with
                 | Some (YStr o), YStr _ => Some (YStr o)
                 | Some _, _ => None
                 | None, _ => Some YNull
                 end in
  Some (mkcamera name (get_or "records_laser" (YBool false) n) origin path (get_or "topic" YNull n) (get_or "timeoffset" (YNum 0) n)
                 (get_or "timeoffset_s" YNull n)).
Fixpoint all_load {A} (f : yaml -> option A) (l : list yaml) : option (list A) :=
  match l with [] => Some [] | y :: l => let* a := f y in let* r := all_load f l in Some (a :: r) end.

(** ImageEntry, 171-232; loading is for version >= 1 files, which is what [write] makes. *)
Record image := mkimage { i_zone : zone; i_format : yaml; i_cameras : list camera }.
Definition image_write (i : image) : node :=
  (zone_write (i_zone i) ++ [("format", i_format i); ("cameras", YSeq (map (fun c => YMap (camera_write c)) (i_cameras i)))])%list.
Definition with_name_origin (c : camera) : camera :=
  mkcamera (c_name c) (c_laser c) (c_name c) (c_path c) (c_topic c) (c_timeoffset c) (c_timeoffset_s c).
Definition image_load (n : node) : option image :=
  let* z := zone_load n in
  let* f := get "format" n in
  let* cs := get "cameras" n in
  match cs with
  | YSeq l =>
      let* cams := all_load (fun y => let* m := as_map y in camera_load m) l in
      match l with
      | YMap first :: _ => Some (mkimage z f (match get "origin" first with Some _ => cams | None => map with_name_origin cams end))
      | _ => None
      end
  | _ => None
  end.
Definition on_frame (frames : list string) (c : camera) : bool :=
  match c_origin c with YStr s => existsb (String.eqb s) frames | _ => false end.
Definition images_load (frames : list string) (y : option yaml) : option (option image) :=
  match y with
  | None => Some None
  | Some y => let* n := as_map y in let* i := image_load n in if forallb (on_frame frames) (i_cameras i) then Some (Some i) else None
  end.

(** PayloadEntry, 150-168, and OriginEntry, 77-99. *)
Record payload := mkpayload { p_zone : zone; p_path : yaml; p_format : yaml; p_columns : yaml }.
Record origin := mkorigin { o_lat : yaml; o_lon : yaml; o_crs : yaml; o_date : yaml }.
Definition origin_write (o : origin) : node :=
  [("latitude", o_lat o); ("longitude", o_lon o); ("coordinate_reference_system", o_crs o); ("date", o_date o)].
Definition origin_load (n : node) : option origin :=
  let* a := get "latitude" n in let* b := get "longitude" n in let* c := get "coordinate_reference_system" n in let* d := get "date" n in
  Some (mkorigin a b c d).

(** Mission; an absent sensor is [None] ([empty()]). *)
Record mission := mkmission { m_origin : origin; m_velocity : option entry; m_orientation : option entry; m_depth : option entry;
  m_altitude : option entry; m_usbl : option entry; m_tide : option entry; m_dr : option entry; m_image : option image;
  m_payloads : list (string * payload) }.
Definition section (k : string) (w : option node) : node := match w with Some n => [(k, YMap n)] | None => [] end.
(** 466-509.  A payload entry is written by calling [write] on its name, a str
    (AttributeError); a single payload is not written. *)
Definition mission_write (m : mission) : option node :=
  match m_payloads m with
  | _ :: _ :: _ => None
  | _ =>
      Some ([("version", YNum 1); ("metadata", YMap []); ("origin", YMap (origin_write (m_origin m)))] ++
        section "velocity" (option_map entry_write (m_velocity m)) ++
        section "orientation" (option_map entry_write (m_orientation m)) ++
        section "depth" (option_map entry_write (m_depth m)) ++
        section "altitude" (option_map entry_write (m_altitude m)) ++
        section "usbl" (option_map entry_write (m_usbl m)) ++
        section "tide" (option_map entry_write (m_tide m)) ++
        section "dead_reckoning" (option_map entry_write (m_dr m)) ++
        section "image" (option_map image_write (m_image m)))%list
  end.
(** 336-437 without "payloads" (never written, see above). *)
Definition mission_load (frames : list string) (n : node) : option mission :=
  let* o := get "origin" n in
  let* o := as_map o in
  let* o := origin_load o in
  let* v := sensor_load frames "dvl" (get "velocity" n) in
  let* r := sensor_load frames "ins" (get "orientation" n) in
  let* d := sensor_load frames "depth" (get "depth" n) in
  let* a := sensor_load frames "dvl" (get "altitude" n) in
  let* u := sensor_load frames "usbl" (get "usbl" n) in
  let* t := plain_load (get "tide" n) in
  let* k := plain_load (get "dead_reckoning" n) in
  let* i := images_load frames (get "image" n) in
  Some (mkmission o v r d a u t k i []).
