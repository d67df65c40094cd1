(** Model of the CSV output and of its readers: csv_tools.py:31-103 [write_csv],
    106-233 [load_states], the [get_csv_header]/[to_csv_row] pairs of sensors.py (lines at
    each definition) and [from_df].  A line is the text without its newline.  A record maps
    an attribute to the text str() gives for it; reading back a number from its str() is
    exact, so a cell is compared as text.  pandas.read_csv is splitting at commas, with the
    first line naming the columns (quotes, and cells that pandas reads as NaN, are left
    out). *)
From Coq Require Import Ascii String.
From Verif Require Import PyBase NmeaModel.

Definition txt (s : string) : text := map (fun a => N_of_ascii a) (list_ascii_of_string s).
Definition attrs : Type := string -> text.

Definition row (cells : list text) : text := join comma cells.

(** A class: its header line and the attributes of its row. *)
Record class := mkclass { c_header : string; c_attrs : list string }.
Definition to_csv_row (c : class) (r : attrs) : text := row (map r (c_attrs c)).

(** ** write_csv.  [None]: the file is not touched. *)
Definition write_csv (c : class) (flag : bool) (data : list attrs) : option (list text) :=
  if (flag && (1 <? length data)%nat)%bool then Some (txt (c_header c) :: map (to_csv_row c) data) else None.

(** 70-77, 82-87: the covariance file, written if the first record has a covariance;
    a record without one writes nothing (sensors.py:2042-2052). *)
Definition write_cov {M} (line : M -> text) (header : text) (data : list (option M)) : option (list text) :=
  if (1 <? length data)%nat then
    match data with
    | Some _ :: _ => Some (header :: flat_map (fun m => match m with Some m => [line m] | None => [] end) data)
    | _ => None
    end
  else None.

Open Scope string_scope.
(** sensors.py:402-429 *)
Definition body_velocity : class := mkclass
  "epoch_timestamp,x_velocity,y_velocity,z_velocity,x_velocity_std,y_velocity_std,z_velocity_std"
  ["epoch_timestamp"; "x_velocity"; "y_velocity"; "z_velocity"; "x_velocity_std"; "y_velocity_std"; "z_velocity_std"].
(** 572-599 *)
Definition inertial_velocity : class := mkclass
  "epoch_timestamp,east_velocity,north_velocity,down_velocity,east_velocity_std,north_velocity_std,down_velocity_std"
  ["epoch_timestamp"; "east_velocity"; "north_velocity"; "down_velocity"; "east_velocity_std"; "north_velocity_std"; "down_velocity_std"].
(** 774-801 *)
Definition orientation : class := mkclass
  "epoch_timestamp,roll,pitch,yaw,roll_std,pitch_std,yaw_std"
  ["epoch_timestamp"; "roll"; "pitch"; "yaw"; "roll_std"; "pitch_std"; "yaw_std"].
(** 952-963 *)
Definition depth : class := mkclass "epoch_timestamp,depth,depth_std" ["epoch_timestamp"; "depth"; "depth_std"].
(** 1083-1087 *)
Definition altitude : class := mkclass "epoch_timestamp,altitude" ["epoch_timestamp"; "altitude"].
(** 1408-1450 *)
Definition usbl : class := mkclass
  "epoch_timestamp,latitude,longitude,northings,eastings,depth,distance_to_ship,latitude_std,longitude_std,northings_std,eastings_std,depth_std"
  ["epoch_timestamp"; "latitude"; "longitude"; "northings"; "eastings"; "depth"; "distance_to_ship"; "latitude_std"; "longitude_std";
   "northings_std"; "eastings_std"; "depth_std"].
(** 1559-1570 *)
Definition tide : class := mkclass "epoch_timestamp,height,height_std" ["epoch_timestamp"; "height"; "height_std"].
(** 1737-1748, 1785-1832 *)
Definition synced : class := mkclass
  "timestamp,northing [m],easting [m],depth [m],roll [deg],pitch [deg],heading [deg],altitude [m],latitude [deg],longitude [deg],vehicle_std_x [m],vehicle_std_y [m],vehicle_std_z [m],vehicle_std_roll [deg],vehicle_std_pitch [deg],vehicle_std_yaw [deg],vehicle_std_vx [m/s],vehicle_std_vy [m/s],vehicle_std_vz [m/s],vehicle_std_vroll [deg/s],vehicle_std_vpitch [deg/s],vehicle_std_vyaw [deg/s]"
  ["epoch_timestamp"; "northings"; "eastings"; "depth"; "roll"; "pitch"; "yaw"; "altitude"; "latitude"; "longitude";
   "northings_std"; "eastings_std"; "depth_std"; "roll_std"; "pitch_std"; "yaw_std"; "x_velocity_std"; "y_velocity_std"; "z_velocity_std";
   "vroll_std"; "vpitch_std"; "vyaw_std"].
(** 1935-1946, 1985-2040 *)
Definition camera : class := mkclass
  "relative_path,northing [m],easting [m],depth [m],roll [deg],pitch [deg],heading [deg],altitude [m],timestamp [s],latitude [deg],longitude [deg],x_velocity [m/s],y_velocity [m/s],z_velocity [m/s],vehicle_std_x [m],vehicle_std_y [m],vehicle_std_z [m],vehicle_std_roll [deg],vehicle_std_pitch [deg],vehicle_std_yaw [deg],vehicle_std_vx [m/s],vehicle_std_vy [m/s],vehicle_std_vz [m/s],vehicle_std_vroll [deg/s],vehicle_std_vpitch [deg/s],vehicle_std_vyaw [deg/s]"
  ["filename"; "northings"; "eastings"; "depth"; "roll"; "pitch"; "yaw"; "altitude"; "epoch_timestamp"; "latitude"; "longitude";
   "x_velocity"; "y_velocity"; "z_velocity";
   "northings_std"; "eastings_std"; "depth_std"; "roll_std"; "pitch_std"; "yaw_std"; "x_velocity_std"; "y_velocity_std"; "z_velocity_std";
   "vroll_std"; "vpitch_std"; "vyaw_std"].

(** from_df: which column each attribute is read from.  1957-1983 *)
Definition camera_columns : list (string * string) :=
  [("filename", "relative_path"); ("northings", "northing [m]"); ("eastings", "easting [m]"); ("depth", "depth [m]");
   ("roll", "roll [deg]"); ("pitch", "pitch [deg]"); ("yaw", "heading [deg]"); ("altitude", "altitude [m]");
   ("epoch_timestamp", "timestamp [s]"); ("latitude", "latitude [deg]"); ("longitude", "longitude [deg]");
   ("x_velocity", "x_velocity [m/s]"); ("y_velocity", "y_velocity [m/s]"); ("z_velocity", "z_velocity [m/s]");
   ("northings_std", "vehicle_std_x [m]"); ("eastings_std", "vehicle_std_y [m]"); ("depth_std", "vehicle_std_z [m]");
   ("roll_std", "vehicle_std_roll [deg]"); ("pitch_std", "vehicle_std_pitch [deg]"); ("yaw_std", "vehicle_std_yaw [deg]");
   ("x_velocity_std", "vehicle_std_vx [m/s]"); ("y_velocity_std", "vehicle_std_vy [m/s]"); ("z_velocity_std", "vehicle_std_vz [m/s]");
   ("vroll_std", "vehicle_std_vroll [deg/s]"); ("vpitch_std", "vehicle_std_vpitch [deg/s]"); ("vyaw_std", "vehicle_std_vyaw [deg/s]")].
(** 1713-1735 *)
Definition synced_columns : list (string * string) :=
  [("epoch_timestamp", "timestamp"); ("northings", "northing [m]"); ("eastings", "easting [m]"); ("depth", "depth [m]");
   ("roll", "roll [deg]"); ("pitch", "pitch [deg]"); ("yaw", "heading [deg]"); ("altitude", "altitude [m]");
   ("latitude", "latitude [deg]"); ("longitude", "longitude [deg]");
   ("northings_std", "vehicle_std_x [m]"); ("eastings_std", "vehicle_std_y [m]"); ("depth_std", "vehicle_std_z [m]");
   ("roll_std", "vehicle_std_roll [deg]"); ("pitch_std", "vehicle_std_pitch [deg]"); ("yaw_std", "vehicle_std_yaw [deg]");
   ("x_velocity_std", "vehicle_std_vx [m/s]"); ("y_velocity_std", "vehicle_std_vy [m/s]"); ("z_velocity_std", "vehicle_std_vz [m/s]");
   ("vroll_std", "vehicle_std_vroll [deg/s]"); ("vpitch_std", "vehicle_std_vpitch [deg/s]"); ("vyaw_std", "vehicle_std_vyaw [deg/s]")].
Close Scope string_scope.

Fixpoint lookup (k : text) (l : list (text * text)) : option text :=
  match l with [] => None | (k', v) :: r => if text_eqb k k' then Some v else lookup k r end.
(** One row of the data frame. *)
Definition df_row (header line : text) : list (text * text) := combine (split comma header) (split comma line).
Definition read_csv (file : list text) : list (list (text * text)) :=
  match file with [] => [] | h :: rows => map (df_row h) rows end.
(** [None]: KeyError. *)
Definition read_attr (columns : list (string * string)) (df : list (text * text)) (attr : string) : option text :=
  match find (fun c => String.eqb attr (fst c)) columns with
  | Some c => lookup (txt (snd c)) df
  | None => None
  end.

(** ** Payload rows, sensors.py:2134-2169.  The data is a dictionary, a data frame (its
    column names and str() of its values) or anything else. *)
Inductive payload_data := Dict (items : list (text * text)) | Frame (columns : list text) (values : text) | Value (s : text).
Definition payload_cells : list string := ["northings"; "eastings"; "depth"; "altitude"; "latitude"; "longitude"]%string.
Definition payload_names : list text :=
  map txt ["northing [m]"; "easting [m]"; "depth [m]"; "altitude [m]"; "latitude [deg]"; "longitude [deg]"]%string.
Definition payload_header (d : payload_data) : text :=
  row payload_names ++ comma :: match d with
                              | Dict items => row (map fst items)
                              | Frame cols _ => row cols
                              | Value _ => txt "data"
                              end.
Definition payload_row (r : attrs) (d : payload_data) : text :=
  row (map r payload_cells) ++
  match d with
  | Dict items => flat_map (fun kv => comma :: snd kv) items
  | Frame _ values => row (map (fun c => [c]) values)
  | Value s => comma :: s
  end.

(** ** load_states, 174-206: the rows from the first one named [start] to the first one
    named [stop] (both included). *)
Section LoadStates.
  Context {R : Type}.
  Variable name : R -> text.
  Variables start stop : text.
  Fixpoint load (use : bool) (rows : list R) : list R :=
    match rows with
    | [] => []
    | r :: rest =>
        let use := (use || text_eqb (name r) start)%bool in
        let out := if use then [r] else [] in
        if text_eqb (name r) stop then out else out ++ load use rest
    end.
  Definition load_states (rows : list R) : list R := load false rows.
End LoadStates.
