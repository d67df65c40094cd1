(** Model of the time window of process.py:424-502: which records of nav_standard.json are
    used, and the time stamp each gets.  A record is reduced to its time stamp, its
    category, the DVL time stamp of a body velocity, and the time stamps under its
    "camera1"/"camera2"/"camera3" and "filename" keys (the payload is in SensorModel).  A
    record that json gave as null is [None].  The tests ["x" in category] are on one of the
    category names that the parsers write, none of which contains another. *)
From Verif Require Import PyBase.

Inductive category := Origin | Body | Inertial | Orient | Depth | Altitude | Usbl | Image | Laser | Other.
Definition cat_eqb (a b : category) : bool :=
  match a, b with
  | Origin, Origin | Body, Body | Inertial, Inertial | Orient, Orient | Depth, Depth | Altitude, Altitude | Usbl, Usbl | Image, Image
  | Laser, Laser | Other, Other => true
  | _, _ => false
  end.
Record item := mkitem { it_t : Q; it_cat : category; it_dvl : option Q; it_cam1 : option Q; it_cam2 : option Q; it_cam3 : option Q;
                        it_file : bool (* has a "filename" key of its own *); it_id : nat }.
(** What is kept: the stamp it gets and the record it came from. *)
Definition used : Type := (option Q * item)%type.
Record lists := mklists { l_body : list used; l_inertial : list used; l_orient : list used; l_depth : list used; l_alt : list used;
                          l_usbl : list used; l_cam1 : list used; l_cam2 : list used; l_cam3 : list used }.
Definition empty : lists := mklists [] [] [] [] [] [] [] [] [].

(** Camera.from_json, sensors.py:1915-1922: the attributes keep their initial None when no
    key is there. *)
Definition cam_stamp (cam : option Q) (r : item) : option Q :=
  match cam with Some t => Some t | None => if it_file r then Some (it_t r) else None end.

(** Lines 443-502 for one record inside the window. *)
Definition take (two_cameras : bool) (ls : lists) (r : item) : lists :=
  let '(mklists b i o d a u c1 c2 c3) := ls in
  match it_cat r with
  | Body =>
      match it_dvl r with
      | Some dvl => if Qltb (Qabs (it_t r - dvl)) 1 then mklists (b ++ [(Some dvl, r)]) i o d a u c1 c2 c3 else ls
      | None => ls
      end
  | Inertial => mklists b (i ++ [(Some (it_t r), r)]) o d a u c1 c2 c3
  | Orient => mklists b i (o ++ [(Some (it_t r), r)]) d a u c1 c2 c3
  | Depth => mklists b i o (d ++ [(Some (it_t r), r)]) a u c1 c2 c3
  | Altitude => mklists b i o d (a ++ [(Some (it_t r), r)]) u c1 c2 c3
  | Usbl => mklists b i o d a (u ++ [(Some (it_t r), r)]) c1 c2 c3
  | Image =>
      let c1 := c1 ++ [(cam_stamp (it_cam1 r) r, r)] in
      match it_cam2 r with
      | Some _ => if two_cameras then mklists b i o d a u c1 (c2 ++ [(it_cam2 r, r)]) c3 else mklists b i o d a u c1 c2 c3
      | None => mklists b i o d a u c1 c2 c3
      end
  | Laser => mklists b i o d a u c1 c2 (c3 ++ [(cam_stamp (it_cam1 r) r, r)])
  | Origin | Other => ls
  end.

(** 438-442 *)
Definition inside (lo hi : Q) (r : item) : bool := (Qle_bool lo (it_t r) && Qle_bool (it_t r) hi)%bool.
Definition scan (two : bool) (lo hi : Q) (data : list (option item)) : lists :=
  fold_left (fun ls r => match r with None => ls | Some r => if inside lo hi r then take two ls r else ls end) data empty.

(** 424-434: a missing bound is the stamp of record 1, or of the last record.  [None]:
    IndexError or TypeError (null). *)
Definition bound (given : option Q) (r : option (option item)) : option Q :=
  match given with Some t => Some t | None => match r with Some (Some r) => Some (it_t r) | _ => None end end.
Definition process_window (two : bool) (start finish : option Q) (data : list (option item)) : option lists :=
  match bound start (py_nth data 1), bound finish (py_nth data (-1)) with
  | Some lo, Some hi => Some (scan two lo hi data)
  | _, _ => None
  end.
