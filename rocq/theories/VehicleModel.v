(** Model of oplab/vehicle.py: SensorOffset.load (34-61) and Vehicle(filename) (88-210).  YAML trees and missions
    are those of MissionModel; [None] is a KeyError or TypeError or Console.quit.  [data] is vehicle.yaml, [mission]
    the tree of mission.yaml, [cameras] mission.image.cameras as loaded. *)
From Coq Require Import String.
From Verif Require Import PyBase MissionModel.
Open Scope string_scope.

(** 34-42 *)
Record offset := mkoffset { surge : yaml; sway : yaml; heave : yaml; roll : yaml; pitch : yaml; yaw : yaml; empty : bool }.
Definition zero : yaml := YNum 0.
Definition no_offset : offset := mkoffset zero zero zero zero zero zero true.
(** 47-61; [heading]: the mission node, if given. *)
Definition offset_load (n : node) (heading : option node) : option offset :=
  match get "surge_m" n with
  | Some x =>
      let* y := get "sway_m" n in let* z := get "heave_m" n in
      let* r := get "roll_deg" n in let* p := get "pitch_deg" n in let* w := get "yaw_deg" n in
      Some (mkoffset x y z r p w false)
  | None =>
      match get "x_offset" n with
      | Some x =>
          let* y := get "y_offset" n in let* z := get "z_offset" n in
          let w := match heading with Some h => get_or "headingoffset" zero h | None => zero end in
          Some (mkoffset x y z zero zero w false)
      | None => Some (mkoffset zero zero zero zero zero zero false)
      end
  end.
Definition frame_load (y : yaml) (heading : option node) : option offset := let* n := as_map y in offset_load n heading.
(** A frame that need not be there. *)
Definition optional (k : string) (data : node) (heading : option node) : option offset :=
  match get k data with None => Some no_offset | Some y => frame_load y heading end.

(** 133-135: the name under which a camera is looked up. *)
Definition camera_frame (c : camera) : yaml := match c_origin c with YNull => c_name c | o => o end.
Definition camera_offset (data : node) (c : camera) : option offset :=
  match camera_frame c with
  | YStr s => let* y := get s data in frame_load y None
  | _ => None
  end.
Definition nth_camera (data : node) (cameras : list camera) (i : nat) : option offset :=
  match nth_error cameras i with None => Some no_offset | Some c => camera_offset data c end.

Record vehicle := mkvehicle { v_origin : offset; v_ins : offset; v_dvl : offset; v_depth : offset; v_usbl : offset;
  v_camera1 : offset; v_camera2 : offset; v_camera3 : offset; v_payloads : list (string * offset) }.
Fixpoint payloads_load (l : node) : option (list (string * offset)) :=
  match l with
  | [] => Some []
  | (k, y) :: l => let* o := frame_load y None in let* r := payloads_load l in Some ((k, o) :: r)
  end.
(** 113-202.  The mission's nodes are looked at only for the old format of the origin (115-117). *)
Definition vehicle_load (data mission : node) (cameras : list camera) : option vehicle :=
  let old := match get "origin" data with Some (YMap o) => match get "x_offset" o with Some _ => true | None => false end | _ => false end in
  let heading (k : string) (sensor : string) : option (option node) :=
    match get sensor data with
    | None => Some None
    | Some _ => if old then let* y := get k mission in let* n := as_map y in Some (Some n) else Some None
    end in
  let* origin := optional "origin" data None in
  let* h := heading "orientation" "ins" in
  let* ins := optional "ins" data h in
  let* h := heading "velocity" "dvl" in
  let* dvl := optional "dvl" data h in
  let* depth := optional "depth" data None in
  let* usbl := optional "usbl" data None in
  let* c1 := nth_camera data cameras 0 in
  let* c2 := nth_camera data cameras 1 in
  let* c3 := nth_camera data cameras 2 in
  let* ps := match get "payloads" data with None => Some [] | Some y => let* l := as_map y in payloads_load l end in
  Some (mkvehicle origin ins dvl depth usbl c1 c2 c3 ps).
