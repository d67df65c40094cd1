(** Missions of the old format (version 0) and payloads: oplab/mission.py:150-160, 184-219 and 336-437, on top of MissionModel.  As there, a KeyError,
    TypeError or AttributeError, and leaving the program, are [None].  Joining two numbers for a path (which adds them) is not modelled: [None]. *)
From Coq Require Import String.
From Verif Require Import PyBase MissionModel.
Open Scope string_scope.

(** What is set of a camera of the old format, 194-219 after 103-109: it has no topic, it is not None but absent. *)
Record old_camera := mkold { oc_name : yaml; oc_origin : yaml; oc_path : yaml; oc_timeoffset : yaml }.
Record old_image := mkoldimage { oi_zone : zone; oi_format : yaml; oi_cameras : list old_camera }.
Definition as_str (y : yaml) : option string := match y with YStr s => Some s | _ => None end.
Definition text_at (k : string) (n : node) : option string := bind (get k n) as_str.
(** 184-219 for a version below 1 *)
Definition old_image_load (n : node) : option old_image :=
  let* z := zone_load n in
  let* f := get "format" n in
  let* cams :=
    match f with
    | YStr "seaxerocks_3" =>
        let* p := text_at "filepath" n in
        let* c1 := text_at "camera1" n in
        let* c2 := text_at "camera2" n in
        let* c3 := text_at "camera3" n in
        Some [mkold (YStr "fore") (YStr "camera1") (YStr (p ++ c1)) (YNum 0); mkold (YStr "aft") (YStr "camera2") (YStr (p ++ c2)) (YNum 0);
              mkold (YStr "laser") (YStr "camera3") (YStr (p ++ c3)) (YNum 0)]
    | YStr "acfr_standard" =>
        let* p := get "filepath" n in
        let* c1 := get "camera1" n in
        let* c2 := get "camera2" n in
        Some [mkold c1 (YStr "camera1") p (YNum 0); mkold c2 (YStr "camera2") p (YNum 0)]
    | _ => Some [mkold YNull YNull YNull YNull; mkold YNull YNull YNull YNull]
    end in
  Some (mkoldimage z f cams).
Definition old_on_frame (frames : list string) (c : old_camera) : bool :=
  match oc_origin c with YStr s => existsb (String.eqb s) frames | _ => false end.

(** 150-160 *)
Definition payload_load (n : node) : option payload :=
  let* z := zone_load n in let* p := get "path" n in let* f := get "format" n in Some (mkpayload z p f (get_or "columns" YNull n)).
(** 414-432; [known]: the payloads of vehicle.yaml, if it has them.  The names of a mapping are different. *)
Fixpoint payloads_load (known : option (list string)) (l : node) : option (list (string * payload)) :=
  match l with
  | [] => Some []
  | (k, y) :: l =>
      let* m := as_map y in
      let* p := payload_load m in
      let* names := known in
      if existsb (String.eqb k) names then let* r := payloads_load known l in Some ((k, p) :: r) else None
  end.

(** The whole file, 336-437: its version decides how the images are read. *)
Inductive images := NoImages | Old (i : old_image) | New (i : image).
Definition images_any (frames : list string) (version : yaml) (y : option yaml) : option images :=
  match y with
  | None => Some NoImages
  | Some y =>
      let* v := as_num version in
      if Qle_bool 1 v then let* i := images_load frames (Some y) in Some (match i with Some i => New i | None => NoImages end)
      else let* n := as_map y in
           let* i := old_image_load n in
           if forallb (old_on_frame frames) (oi_cameras i) then Some (Old i) else None
  end.
Definition mission_open (frames : list string) (known : option (list string)) (n : node) : option (mission * images) :=
  let* o := get "origin" n in
  let* o := as_map o in
  let* o := origin_load o in
  let* v := sensor_load frames "dvl" (get "velocity" n) in
  let* r := sensor_load frames "ins" (get "orientation" n) in
  let* d := sensor_load frames "depth" (get "depth" n) in
  let* a := sensor_load frames "dvl" (get "altitude" n) in
  let* u := sensor_load frames "usbl" (get "usbl" n) in
  let* t := plain_load (get "tide" n) in
  let* k := plain_load (get "dead_reckoning" n) in
  let* i := images_any frames (get_or "version" (YNum 0) n) (get "image" n) in
  let* ps := match get "payloads" n with
             | None => Some []
             | Some (YMap l) => payloads_load known l
             | Some (YSeq []) => Some []
             | Some _ => None
             end in
  Some (mkmission o v r d a u t k (match i with New i => Some i | _ => None end) ps, i).
