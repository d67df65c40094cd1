(** Model of the JSON export and import of the sensor records in sensors.py (lines cited
    at each definition).  An attribute that may be None is an [option Q]; json.dump and
    json.load are exact on this type.  A missing key or index, or an attribute of the wrong
    kind, raises: [None]. *)
From Coq Require Import Ascii String.
From Verif Require Import PyBase.
Open Scope Q_scope.

Inductive json :=
| JNull
| JNum (q : Q)
| JStr (s : string)
| JArr (l : list json)
| JObj (l : list (string * json)).

Fixpoint assoc (k : string) (l : list (string * json)) : option json :=
  match l with
  | [] => None
  | (k', v) :: r => if String.eqb k k' then Some v else assoc k r
  end.
Definition get (k : string) (j : json) : option json := match j with JObj l => assoc k l | _ => None end.
Definition idx (i : nat) (j : json) : option json := match j with JArr l => nth_error l i | _ => None end.
(** The value of a number or null. *)
Definition num (j : json) : option (option Q) :=
  match j with JNull => Some None | JNum q => Some (Some q) | _ => None end.
Definition str_of (j : json) : option string := match j with JStr s => Some s | _ => None end.

Definition bind {A B} (x : option A) (f : A -> option B) : option B := match x with Some a => f a | None => None end.
Notation "'let*' x := a 'in' b" := (bind a (fun x => b)) (at level 200, x pattern, a at level 100, b at level 200).
Definition field (i : nat) (k : string) (data : json) : option (option Q) :=
  let* e := idx i data in let* v := get k e in num v.
Definition top (k : string) (j : json) : option (option Q) := let* v := get k j in num v.

(** float_or_none (42-46) *)
Definition fon (x : option Q) : json := match x with Some q => JNum q | None => JNull end.
(** float(value), which raises on None. *)
Definition must (x : option Q) : option json := match x with Some q => Some (JNum q) | None => None end.
Definition two (k1 : string) (v1 : option Q) (k2 : string) (v2 : option Q) : json := JObj [(k1, fon v1); (k2, fon v2)].

(** The standard deviation model of the vehicle configuration: "sensor", "linear" with one
    factor and offset, or with one of each per axis (378-387, body velocity only); any other
    name quits. *)
Inductive std_model :=
| Sensor
| Linear (factor offset : Q)
| LinearAxes (factor_x offset_x factor_y offset_y factor_z offset_z : Q)
| Unsupported.
(** offset + factor * value; TypeError when the value is None. *)
Definition linear (f o : Q) (v : option Q) : option (option Q) := match v with Some q => Some (Some (o + f * q)) | None => None end.

Open Scope string_scope.

(** BodyVelocity: _to_json 431-454, from_json 367-400. *)
Record velocity := mkvelocity { bv_t : option Q; bv_dvl : option Q; bv_x : option Q; bv_y : option Q; bv_z : option Q;
  bv_xs : option Q; bv_ys : option Q; bv_zs : option Q }.
Definition velocity_json (sensor : string) (v : velocity) : json :=
  JObj [("epoch_timestamp", fon (bv_t v)); ("epoch_timestamp_dvl", fon (bv_dvl v)); ("class", JStr "measurement"); ("sensor", JStr sensor);
        ("frame", JStr "body"); ("category", JStr "velocity");
        ("data", JArr [two "x_velocity" (bv_x v) "x_velocity_std" (bv_xs v);
                       two "y_velocity" (bv_y v) "y_velocity_std" (bv_ys v);
                       two "z_velocity" (bv_z v) "z_velocity_std" (bv_zs v)])].
(** The attributes set by from_json; [epoch_timestamp_dvl] is not among them. *)
Definition velocity_from (j : json) (m : std_model) : option velocity :=
  let* t := top "epoch_timestamp_dvl" j in
  let* d := get "data" j in
  let* x := field 0 "x_velocity" d in
  let* y := field 1 "y_velocity" d in
  let* z := field 2 "z_velocity" d in
  match m with
  | Sensor =>
      let* xs := field 0 "x_velocity_std" d in
      let* ys := field 1 "y_velocity_std" d in
      let* zs := field 2 "z_velocity_std" d in
      Some (mkvelocity t None x y z xs ys zs)
  | Linear f o =>
      let* xs := linear f o x in
      let* ys := linear f o y in
      let* zs := linear f o z in
      Some (mkvelocity t None x y z xs ys zs)
  | LinearAxes fx ox fy oy fz oz =>
      let* xs := linear fx ox x in
      let* ys := linear fy oy y in
      let* zs := linear fz oz z in
      Some (mkvelocity t None x y z xs ys zs)
  | Unsupported => None
  end.

(** InertialVelocity: 545-567, 536-543. *)
Record inertial := mkinertial { iv_t : option Q; iv_n : option Q; iv_e : option Q; iv_d : option Q; iv_ns : option Q; iv_es : option Q; iv_ds : option Q }.
Definition inertial_json (sensor : string) (v : inertial) : option json :=
  let* t := must (iv_t v) in
  Some (JObj [("epoch_timestamp", t); ("class", JStr "measurement"); ("sensor", JStr sensor); ("frame", JStr "inertial"); ("category", JStr "velocity");
        ("data", JArr [two "north_velocity" (iv_n v) "north_velocity_std" (iv_ns v);
                       two "east_velocity" (iv_e v) "east_velocity_std" (iv_es v);
                       two "down_velocity" (iv_d v) "down_velocity_std" (iv_ds v)])]).
Definition inertial_from (j : json) : option inertial :=
  let* t := top "epoch_timestamp" j in
  let* d := get "data" j in
  let* n := field 0 "north_velocity" d in
  let* e := field 1 "east_velocity" d in
  let* dn := field 2 "down_velocity" d in
  let* ns := field 0 "north_velocity_std" d in
  let* es := field 1 "east_velocity_std" d in
  let* ds := field 2 "down_velocity_std" d in
  Some (mkinertial t n e dn ns es ds).

(** Orientation: 803-825, 756-772. *)
Record orientation := mkorientation { or_t : option Q; or_r : option Q; or_p : option Q; or_y : option Q; or_rs : option Q; or_ps : option Q; or_ys : option Q }.
Definition orientation_json (sensor : string) (v : orientation) : json :=
  JObj [("epoch_timestamp", fon (or_t v)); ("class", JStr "measurement"); ("sensor", JStr sensor); ("frame", JStr "body"); ("category", JStr "orientation");
        ("data", JArr [two "heading" (or_y v) "heading_std" (or_ys v);
                       two "roll" (or_r v) "roll_std" (or_rs v);
                       two "pitch" (or_p v) "pitch_std" (or_ps v)])].
Definition orientation_from (j : json) (m : std_model) : option orientation :=
  let* t := top "epoch_timestamp" j in
  let* d := get "data" j in
  let* r := field 1 "roll" d in
  let* p := field 2 "pitch" d in
  let* y := field 0 "heading" d in
  match m with
  | Sensor =>
      let* rs := field 1 "roll_std" d in
      let* ps := field 2 "pitch_std" d in
      let* ys := field 0 "heading_std" d in
      Some (mkorientation t r p y rs ps ys)
  | Linear f o =>
      let* rs := linear f o r in
      let* ps := linear f o p in
      let* ys := linear f o y in
      Some (mkorientation t r p y rs ps ys)
  | _ => None  (* KeyError: the per-axis names are not looked up; or quits *)
  end.

(** Depth: 965-980, 940-950. *)
Record depth := mkdepth { de_t : option Q; de_dt : option Q; de_d : option Q; de_s : option Q }.
Definition depth_json (sensor : string) (v : depth) : json :=
  JObj [("epoch_timestamp", fon (de_t v)); ("epoch_timestamp_depth", fon (de_dt v)); ("class", JStr "measurement"); ("sensor", JStr sensor);
        ("frame", JStr "inertial"); ("category", JStr "depth"); ("data", JArr [two "depth" (de_d v) "depth_std" (de_s v)])].
Definition depth_from (j : json) (m : std_model) : option depth :=
  let* t := top "epoch_timestamp" j in
  let* dt := top "epoch_timestamp_depth" j in
  let* d := get "data" j in
  let* v := field 0 "depth" d in
  match m with
  | Sensor => let* s := field 0 "depth_std" d in Some (mkdepth t dt v s)
  | Linear f o => let* s := linear f o v in Some (mkdepth t dt v s)
  | _ => None
  end.

(** Altitude: 1089-1110, 1078-1081 (the DVL timestamp and the sound velocity are written
    but not read). *)
Record altitude := mkaltitude { al_t : option Q; al_dvl : option Q; al_a : option Q; al_s : option Q; al_sv : option Q; al_svc : option Q }.
Definition altitude_json (sensor : string) (v : altitude) : json :=
  JObj [("epoch_timestamp", fon (al_t v)); ("epoch_timestamp_dvl", fon (al_dvl v)); ("class", JStr "measurement"); ("sensor", JStr sensor);
        ("frame", JStr "body"); ("category", JStr "altitude");
        ("data", JArr [two "altitude" (al_a v) "altitude_std" (al_s v); two "sound_velocity" (al_sv v) "sound_velocity_correction" (al_svc v)])].
Definition altitude_from (j : json) : option altitude :=
  let* t := top "epoch_timestamp" j in
  let* d := get "data" j in
  let* a := field 0 "altitude" d in
  let* s := field 0 "altitude_std" d in
  Some (mkaltitude t None a s None None).

(** Usbl: 1452-1494, 1360-1406. *)
Record usbl := mkusbl {
  us_t : option Q; us_lat : option Q; us_lon : option Q; us_n : option Q; us_e : option Q; us_d : option Q;
  us_lats : option Q; us_lons : option Q; us_ns : option Q; us_es : option Q; us_ds : option Q; us_dist : option Q;
  us_slat : option Q; us_slon : option Q; us_sn : option Q; us_se : option Q; us_sh : option Q }.
Definition usbl_json (sensor : string) (v : usbl) : json :=
  JObj [("epoch_timestamp", fon (us_t v)); ("class", JStr "measurement"); ("sensor", JStr sensor); ("frame", JStr "inertial"); ("category", JStr "usbl");
        ("data_ship", JArr [two "latitude" (us_slat v) "longitude" (us_slon v); two "northings" (us_sn v) "eastings" (us_se v); JObj [("heading", fon (us_sh v))]]);
        ("data_target", JArr [two "latitude" (us_lat v) "latitude_std" (us_lats v); two "longitude" (us_lon v) "longitude_std" (us_lons v);
                              two "northings" (us_n v) "northings_std" (us_ns v); two "eastings" (us_e v) "eastings_std" (us_es v);
                              two "depth" (us_d v) "depth_std" (us_ds v); JObj [("distance_to_ship", fon (us_dist v))]])].
(** 1399-1406: the ship pose.  The first value that is missing ends the block, leaving the
    later attributes at None (1141-1160). *)
Definition ship_pose (j : json) : option Q * option Q * option Q * option Q * option Q :=
  let get_ship i k := let* s := get "data_ship" j in field i k s in
  match get_ship 0%nat "latitude" with
  | None => (None, None, None, None, None)
  | Some la =>
      match get_ship 0%nat "longitude" with
      | None => (la, None, None, None, None)
      | Some lo =>
          match get_ship 1%nat "northings" with
          | None => (la, lo, None, None, None)
          | Some n =>
              match get_ship 1%nat "eastings" with
              | None => (la, lo, n, None, None)
              | Some e => (la, lo, n, e, match get_ship 2%nat "heading" with Some h => h | None => None end)
              end
          end
      end
  end.
(** 1360-1398.  [hypot a b] is sqrt(a**2 + b**2) (1384); [m2ll] is metres_to_latlon. *)
Definition usbl_from (hypot : Q -> Q -> Q) (m2ll : Q -> Q -> Q -> Q -> Q * Q) (j : json) (m : std_model) : option usbl :=
  let* t := top "epoch_timestamp" j in
  let* d := get "data_target" j in
  let* lat := field 0 "latitude" d in
  let* lon := field 1 "longitude" d in
  let* n := field 2 "northings" d in
  let* e := field 3 "eastings" d in
  let* dp := field 4 "depth" d in
  let* ds := field 4 "depth_std" d in
  let* di := field 5 "distance_to_ship" d in
  let* stds :=
    match m with
    | Sensor =>
        let* ls := field 0 "latitude_std" d in
        let* los := field 1 "longitude_std" d in
        let* ns := field 2 "northings_std" d in
        let* es := field 3 "eastings_std" d in
        Some (ls, los, ns, es)
    | Linear f o =>
        let* ns := linear f o di in
        let* es := linear f o di in
        let* ground := di in
        let* depth := dp in
        let* la := lat in
        let* lo := lon in
        let distance_std := (f * hypot ground depth + o)%Q in
        let '(la', lo') := m2ll (Qabs la) (Qabs lo) distance_std distance_std in
        Some (Some (Qabs (Qabs la - la')), Some (Qabs (Qabs lo - lo')), ns, es)
    | _ => None
    end in
  let '(ls, los, ns, es) := stds in
  let '(sla, slo, sn, se, sh) := ship_pose j in
  Some (mkusbl t lat lon n e dp ls los ns es ds di sla slo sn se sh).

(** Tide: 1572-1586, 1546-1557. *)
Record tide := mktide { ti_t : option Q; ti_h : option Q; ti_s : option Q }.
Definition tide_json (sensor : string) (v : tide) : json :=
  JObj [("epoch_timestamp", fon (ti_t v)); ("class", JStr "measurement"); ("sensor", JStr sensor); ("frame", JStr "inertial"); ("category", JStr "tide");
        ("data", JArr [two "height" (ti_h v) "height_std" (ti_s v)])].
Definition tide_from (j : json) (m : std_model) : option tide :=
  let* t := top "epoch_timestamp" j in
  let* d := get "data" j in
  let* h := field 0 "tide" d in
  match m with
  | Sensor => let* s := field 0 "tide_std" d in Some (mktide t h s)
  | Linear f o => let* s := linear f o h in Some (mktide t h s)
  | _ => None
  end.
(** Camera: 2054-2068, StereoCamera: 2102-2122, from_json 1915-1921. *)
Record image := mkimage { im_t : option Q; im_file : string }.
Definition image_obj (c : image) : option json :=
  let* t := must (im_t c) in
  Some (JObj [("epoch_timestamp", t); ("filename", JStr (im_file c))]).
Definition camera_json (sensor : string) (c : image) : option json :=
  let* t := must (im_t c) in
  let* o := image_obj c in
  Some (JObj [("epoch_timestamp", t); ("class", JStr "measurement"); ("sensor", JStr sensor); ("frame", JStr "body"); ("category", JStr "image");
              ("camera1", JArr [o])]).
Definition stereo_json (sensor : string) (l r : image) : option json :=
  let* t := must (im_t l) in
  let* ol := image_obj l in
  let* or := image_obj r in
  Some (JObj [("epoch_timestamp", t); ("class", JStr "measurement"); ("sensor", JStr sensor); ("frame", JStr "body"); ("category", JStr "image");
              ("camera1", JArr [ol]); ("camera2", JArr [or])]).
Definition camera_from (j : json) (cam : string) : option image :=
  match get cam j with
  | Some a =>
      let* e := idx 0 a in
      let* t := top "epoch_timestamp" e in
      let* f := get "filename" e in
      let* s := str_of f in
      Some (mkimage t s)
  | None =>
      match get "filename" j with
      | Some f => let* t := top "epoch_timestamp" j in let* s := str_of f in Some (mkimage t s)
      | None => Some (mkimage None "")
      end
  end.
