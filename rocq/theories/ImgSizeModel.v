(** Model of the size of a camera's images: get_image_size, rosbag_image_loader and CameraEntry.image_properties of oplab/camera_system.py:31-73, 221-250,
    and the start of the corrector, which looks up the camera's topic and unpacks the size (correct_images/corrector.py:171-183).

    An image is its numpy shape.  Files are given by what is in them: the shape that imageio.imread returns, or the messages of a bag in order, each with
    its topic and the shape of the image that cv_bridge or cv2.imdecode make of it.  A message that cannot be decoded is not modelled. *)
From Coq Require Import List NArith String Bool.
Import ListNotations.
Open Scope string_scope.

Definition shape := list N.
Inductive file := Picture (s : shape) | Bag (msgs : list (string * shape)).
(** [Fails]: an exception or Console.quit *)
Inductive result (A : Type) := Fails | Ok (a : A).
Arguments Fails {A}. Arguments Ok {A} _.

(** 65-73 *)
Definition get_image_size (s : shape) : result (list N) :=
  match s with
  | [h; w; c] => Ok [h; w; c]
  | h :: w :: _ => Ok [h; w; 1%N]
  | _ => Fails
  end.

(** 31-62: the first message of the topic *)
Definition rosbag_image_loader (topic : string) (f : file) : result (option shape) :=
  match f with
  | Bag msgs => Ok (option_map snd (find (fun m => fst m =? topic) msgs))
  | Picture _ => Fails
  end.

(** 240-247 *)
Fixpoint bags (topic : string) (before : list N) (l : list file) : result (list N) :=
  match l with
  | [] => Ok before
  | f :: l =>
      match rosbag_image_loader topic f with
      | Fails => Fails
      | Ok None => bags topic before l
      | Ok (Some s) => get_image_size s
      end
  end.

(** 221-250; [before]: self._image_properties, [] at first *)
Definition image_properties (ext topic : string) (images : list file) (before : list N) : result (list N) :=
  match images with
  | [] => Fails
  | f :: _ =>
      if (ext =? "tif") || (ext =? "jpg") || (ext =? "JPG") || (ext =? "png") || (ext =? "PNG") then
        match f with Picture s => get_image_size s | Bag _ => Fails end
      else if ext =? "raw" then Ok [1024%N; 1280%N; 1%N]
      else if ext =? "bag" then bags topic before images
      else Fails
  end.

(** corrector.py:174-177: a camera of the mission is its name and its topic *)
Definition topic_of (name own : string) (mission : list (string * option string)) : string :=
  match find (fun c => (fst c =? name) && match snd c with Some _ => true | None => false end) mission with
  | Some (_, Some t) => t
  | _ => own
  end.
(** 171-183 *)
Definition set_up (name own ext : string) (mission : list (string * option string)) (images : list file) : result (N * N * N) :=
  match image_properties ext (topic_of name own mission) images [] with
  | Ok (h :: w :: c :: _) => Ok (h, w, c)
  | _ => Fails
  end.
