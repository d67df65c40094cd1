(** Images in ROS bags, from auv_nav to correct_images: Camera.from_ros, valid, clear and _to_json (auv_nav/sensors.py:1842-1847, 2053-2098) within
    rosbag_topic_worker (RosModel), the image loader of correct_images/loaders/rosbag.py:23-57 and Loader (loaders/loader.py), and the loader that
    correct_images/corrector.py:262-277 sets up from the mission (oplab/mission.py:40-71, 171-181).

    Over the reals: the time goes through the csv file as it is.  A message's image is what cv_bridge or cv2.imdecode make of it.  rospy.Time
    (which rounds to nanoseconds and refuses negative times) is left out.  The name of the file is the text of the time, here the time itself
    (the file is never written, 2097). *)
From Coq Require Import List NArith QArith String Reals Lra.
From Verif Require Import RosModel LoaderModel.
Import ListNotations.
Open Scope R_scope.

(** A message of a bag: its topic, the time at which it was recorded, its header's stamp, and its image *)
Record message := mkmessage { m_topic : string; m_recorded : R; m_stamp : stamp; m_image : list N }.

(** * auv_nav *)
Record camera := mkcam { cam_t : option R; cam_file : option R }.
Definition camera_new : camera := mkcam None None.
Definition camera_from_ros (tz : R) (_ : camera) (m : message) : outcome camera :=
  let t := ros_stamp_to_epoch (m_stamp m) - tz in Done (mkcam (Some t) (Some t)).
Definition camera_valid (c : camera) : bool := is (cam_file c) && is (cam_t c).
Definition camera_clear (_ : camera) : camera := mkcam None None.
(** parse_rosbag.py:67-68: the messages of one topic *)
Definition on_topic (topic : string) (bag : list message) : list message := filter (fun m => String.eqb (m_topic m) topic) bag.
Definition parse_images (f : format) (topic : string) (tz : R) (bags : list (option (list message))) : list camera :=
  topic_worker (camera_from_ros tz) camera_valid (fun c => c) camera_clear f camera_new (map (option_map (on_topic topic)) bags) [].

(** * correct_images/loaders/rosbag.py *)
Inductive loaded := Image (values : list Q) | Missing | Failure.
Definition TOL : R := 5 / 1000.
Definition SEARCH_TOL : R := 1 / 2.
(** 34-53: bag.read_messages gives the messages of the topic recorded between the two times, the ends included. *)
Fixpoint search (bits : N) (topic : string) (tz t : R) (bag : list message) : option (list Q) :=
  match bag with
  | [] => None
  | m :: bag =>
      if String.eqb (m_topic m) topic then
        if Rle_dec (t - SEARCH_TOL + tz) (m_recorded m) then
          if Rle_dec (m_recorded m) (t + SEARCH_TOL + tz) then
            if Rlt_dec (Rabs (ros_stamp_to_epoch (m_stamp m) - tz - t)) TOL then Some (map (rosbag_value bits) (m_image m))
            else search bits topic tz t bag
          else search bits topic tz t bag
        else search bits topic tz t bag
      else search bits topic tz t bag
  end.
(** 23-57; [None] is a bag that cannot be opened, which raises. *)
Fixpoint load_from (bits : N) (topic : string) (tz t : R) (bags : list (option (list message))) : loaded :=
  match bags with
  | [] => Missing
  | None :: _ => Failure
  | Some bag :: bags => match search bits topic tz t bag with Some v => Image v | None => load_from bits topic tz t bags end
  end.

(** * Which loader, with what *)
Inductive kind := Xviii | Default | Rosbag.
Record loader := mkloader { l_kind : kind; l_bits : option N; l_tz : R }.
(** A mission's image entry: the attributes with a number that it has once loaded, mission.py:40-71. *)
Definition image_entry (timezone timeoffset : R) : list (string * R) :=
  [("timezone", timezone); ("timeoffset_s", timeoffset); ("timezone_s", timezone * 60 * 60); ("offset_s", offset_s timezone timeoffset)]%string.
Fixpoint attribute (name : string) (entry : list (string * R)) : option R :=
  match entry with [] => None | (n, v) :: entry => if String.eqb n name then Some v else attribute name entry end.
(** corrector.py:262-277; [None] is AttributeError. *)
Definition set_up (extension : string) (bits : option N) (entry : list (string * R)) : option loader :=
  if String.eqb extension "raw" then Some (mkloader Xviii bits 0)
  else if String.eqb extension "bag" then
    match attribute "timezone" entry with
    | Some z => match attribute "timeoffset" entry with Some o => Some (mkloader Rosbag bits (z * 60 + o)) | None => None end
    | None => None
    end
  else Some (mkloader Default bits 0).
(** loader.py:40-54 for the files of the other two, [Failure] for Console.quit: a file is its depth and its values (default) or its bytes (xviii). *)
Definition call_default (l : loader) (read_bit : N) (values : list N) : loaded :=
  match l_bits l with
  | Some b => match l_kind l with Default => Image (map (default_value read_bit b) values) | _ => Failure end
  | None => Failure
  end.
Definition call_rosbag (l : loader) (topic : string) (bags : list (option (list message))) (t : R) : loaded :=
  match l_bits l with
  | Some b => match l_kind l with Rosbag => load_from b topic (l_tz l) t bags | _ => Failure end
  | None => Failure
  end.
