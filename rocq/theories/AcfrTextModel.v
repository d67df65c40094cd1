(** Model of the combined raw file of oplab_to_acfr as text: auv_nav/convert.py:298-377 (the records of nav_standard.json), auv_nav/parsers/acfr_combined_raw.py:66-103
    [AcfrCombinedRawWriter.add] and the [to_acfr] of auv_nav/sensors.py (lines at each definition).  str(float(x)) is an argument; numbers are reals, so the rounding of sqrt and
    atan2 is left out, and atan2 has no signed zeros.  Of a record only the values that are written are kept; a null where float() is applied raises and is left out, as are the
    standard deviations, which are copied ("model": "sensor").  The pose files are in AcfrModel. *)
From Coq Require Import Reals Ascii String.
From Verif Require Import PyBase NmeaModel CsvModel FilesModel EulerModel.
Local Open Scope R_scope.
Local Open Scope list_scope.

Record attitude := mkattitude { o_t : R; o_roll : R; o_pitch : R; o_yaw : R; o_roll_std : R; o_pitch_std : R; o_yaw_std : R }.
(** data_ship may be missing, and distance_to_ship null *)
Record fix_ := mkfix { u_t : R; u_north : R; u_east : R; u_depth : R; u_range : option R; u_ship_north : option R; u_ship_east : option R }.
Record photo := mkphoto { p_t : option R; p_file : text }.
(** An image record has entries camera1 and camera2, or a filename of its own. *)
Inductive content :=
| Velocity (dvl : option R) (x y z : R)
| InertialVelocity
| Attitude (o : attitude)
| DepthOf (t depth : option R)
| AltitudeOf (a : R)
| Fix (u : fix_)
| Image (camera1 camera2 own : option photo)
| Other.
Record item := mkitem { i_t : R; i_content : content }.

Definition newline : N := 10%N.

Section Text.
  Variable number : R -> text.
  (** float_or_none and str *)
  Definition maybe (x : option R) : text := match x with Some x => number x | None => txt "None" end.

  (** sensors.py:456-482 *)
  Definition rdi (t x y z alt : R) (o : attitude) : text :=
    txt "RDI: " ++ number t ++ txt " alt:" ++ number alt ++ txt " r1:0 r2:0 r3:0 r4:0 " ++ txt " h:" ++ number (o_yaw o) ++ txt " p:" ++ number (o_pitch o)
    ++ txt " r:" ++ number (o_roll o) ++ txt " vx:" ++ number x ++ txt " vy:" ++ number y ++ txt " vz:" ++ number z
    ++ txt " nx:0 ny:0 nz:0 COG:0 SOG:0 bt_status:0 " ++ txt " h_true:0 p_gimbal:0 " ++ txt " sv: " ++ number (-9999) ++ [newline].
  (** 827-845 *)
  Definition compass (o : attitude) : text :=
    txt "PHINS_COMPASS: " ++ number (o_t o) ++ txt " r: " ++ number (o_roll o) ++ txt " p: " ++ number (o_pitch o) ++ txt " h: " ++ number (o_yaw o)
    ++ txt " std_r: " ++ number (o_roll_std o) ++ txt " std_p: " ++ number (o_pitch_std o) ++ txt " std_h: " ++ number (o_yaw_std o) ++ [newline].
  (** 982-984 *)
  Definition parosci (t d : option R) : text := txt "PAROSCI: " ++ maybe t ++ txt " " ++ maybe d ++ [newline].
  (** 1497-1506; a negative radicand is the ValueError *)
  Definition horizontal (range : option R) (depth : R) : R :=
    match range with
    | None => -1
    | Some d => if Rlt_dec depth d then if Rlt_dec 0 d then if Rle_dec 0 (d ^ 2 - depth ^ 2) then sqrt (d ^ 2 - depth ^ 2) else -1 else -1 else -1
    end.
  (** 1507 *)
  Definition bearing (u : fix_) : R := atan2 (u_east u) (u_north u) * 180 / PI.
  (** 1508-1528 *)
  Definition ssbl (u : fix_) : text :=
    txt "SSBL_FIX: " ++ number (u_t u) ++ txt " ship_x: " ++ maybe (u_ship_north u) ++ txt " ship_y: " ++ maybe (u_ship_east u)
    ++ txt " target_x: " ++ number (u_north u) ++ txt " target_y: " ++ number (u_east u) ++ txt " target_z: " ++ number (u_depth u)
    ++ txt " target_hr: " ++ number (horizontal (u_range u) (u_depth u)) ++ txt " target_sr: " ++ maybe (u_range u)
    ++ txt " target_bearing: " ++ number (bearing u) ++ [newline].
  (** 1923-1933 *)
  Definition vis (p : photo) : text :=
    txt "VIS: " ++ maybe (p_t p) ++ txt " [" ++ maybe (p_t p) ++ txt "] " ++ p_file p ++ txt " exp: 0" ++ [newline].

  (** acfr_combined_raw.py:40-42, 66-103: the latest altitude and orientation, and the file so far *)
  Record writer := mkwriter { w_alt : option R; w_att : option attitude; w_file : text }.
  Definition put (w : writer) (s : text) : writer := mkwriter (w_alt w) (w_att w) (w_file w ++ s).
  (** 90-97 *)
  Definition add_photo (w : writer) (p : photo) : writer := if contains (txt "xxx") (p_file p) then w else put w (vis p).
  (** sensors.py:1915-1921; a new Camera has neither time nor name (1836-1840) *)
  Definition from_json (camera own : option photo) : photo :=
    match camera, own with Some p, _ => p | None, Some p => p | None, None => mkphoto None [] end.
  (** convert.py:325-376 *)
  Definition add (w : writer) (i : item) : writer :=
    match i_content i with
    | Velocity (Some dvl) x y z =>
        if Rlt_dec (Rabs (i_t i - dvl)) 1 then
          match w_alt w, w_att w with
          | Some a, Some o => mkwriter None None (w_file w ++ rdi dvl x y z a o)
          | _, _ => w
          end
        else w
    | Velocity None _ _ _ | InertialVelocity | Other => w
    | Attitude o => put (mkwriter (w_alt w) (Some o) (w_file w)) (compass o)
    | DepthOf t d => put w (parosci t d)
    | AltitudeOf a => mkwriter (Some a) (w_att w) (w_file w)
    | Fix u => put w (ssbl u)
    | Image c1 c2 own => add_photo (add_photo w (from_json c1 own)) (from_json c2 own)
    end.
  Definition within (lo hi : R) (i : item) : bool := if Rle_dec lo (i_t i) then if Rle_dec (i_t i) hi then true else false else false.
  (** 293-308, 318-377: from the time of the second record to that of the last; [None]: IndexError *)
  Definition combined (js : list item) : option text :=
    match js with
    | _ :: second :: _ => Some (w_file (fold_left (fun w i => if within (i_t second) (i_t (last js second)) i then add w i else w) js (mkwriter None None [])))
    | _ => None
    end.
End Text.
