(** Model of correct_images/parser.py: CorrectConfig.is_equivalent, and of its use on a list of
    dives (correct_images.py:229-236).  The warnings are left out. *)
From Coq Require Import Ascii String.
From Verif Require Import PyBase.
Local Open Scope Q_scope.
Local Open Scope list_scope.

(** Scalars of a YAML file; python's == on them: a nan differs from itself. *)
Inductive scalar := Str (s : string) | Num (q : Q) | NaN.
Definition scalar_eqb (a b : scalar) : bool :=
  match a, b with
  | Str s, Str t => String.eqb s t
  | Num x, Num y => Qeq_bool x y
  | _, _ => false
  end.

(** parser.py:37-94. *)
Record colour := mkcolour { distance_metric : scalar; metric_path : scalar; parse_altitude_min : Q; parse_altitude_max : Q;
  process_altitude_min : Q; process_altitude_max : Q; smoothing : scalar; window_size : scalar }.
(** 121-165; the image lists and the manual balance are left out. *)
Record camera_config := mkcam { camera_name : scalar; brightness : Q; contrast : Q }.
(** 265-324: color_correction stays None without its section. *)
Record config := mkconf { method : scalar; color_correction : option colour; cameras : list camera_config }.

(** 394-405: range(num_cameras), both lists of that length by then. *)
Fixpoint same_names (a b : list camera_config) : bool :=
  match a, b with
  | x :: a, y :: b => scalar_eqb (camera_name x) (camera_name y) && same_names a b
  | _, _ => true
  end.
(** 326-407; [None]: AttributeError on a missing colour section. *)
Definition is_equivalent (a b : config) : option bool :=
  if negb (scalar_eqb (method a) (method b)) then Some false
  else match color_correction a, color_correction b with
       | Some x, Some y =>
           if negb (scalar_eqb (distance_metric x) (distance_metric y)) then Some false
           else if negb (scalar_eqb (smoothing x) (smoothing y)) then Some false
           else if negb (scalar_eqb (window_size x) (window_size y)) then Some false
           else if negb (List.length (cameras a) =? List.length (cameras b))%nat then Some false
           else Some (same_names (cameras a) (cameras b))
       | _, _ => None
       end.

(** correct_images.py:229-236: every dive against the first; [Some true]: parsing goes on. *)
Fixpoint all_equivalent (first : config) (l : list config) : option bool :=
  match l with
  | [] => Some true
  | c :: l => match is_equivalent first c with Some true => all_equivalent first l | r => r end
  end.
Definition accepted (dives : list config) : option bool :=
  match dives with c :: _ :: _ => all_equivalent c dives | _ => Some true end.
