(** auv_cal/camera_calibrator.py: which views of the calibration board are used (is_good_sample, MonoCalibrator.collect_corners
    and cal_from_json, StereoCalibrator.cal_from_json) and how left and right views are matched (find_common_filenames). *)
From Coq Require Import Ascii String.
From Verif Require Import PyBase TimeModel LaserCalModel.
Open Scope Q_scope.

(** [params = [p_x, p_y, p_size, skew]] of get_parameters (351-369); the numbers are exact. *)
Record params := mkparams { p_x : Q; p_y : Q; p_size : Q; skew : Q }.
Definition listed (p : params) : list Q := [p_x p; p_y p; p_size p; skew p].
(** 393-394 *)
Definition param_distance (p1 p2 : params) : Q :=
  fold_left Qplus (map (fun ab => Qabs (fst ab - snd ab)) (combine (listed p1) (listed p2))) 0.
(** Python [min] of a list: the first smallest; [None] is ValueError. *)
Fixpoint least (l : list Q) : option Q :=
  match l with
  | [] => None
  | a :: l => match least l with None => Some a | Some b => Some (if Qle_bool a b then a else b) end
  end.
(** 385-400; [last_frame_corners] is not used by the code *)
Definition is_good_sample (db : list params) (p : params) : bool :=
  match least (map (param_distance p) db) with None => true | Some d => Qltb (12 # 100) d end.

(** What a calibrator remembers: [self.db] (its parameters) and [self.good_corners]. *)
Record calibrator (view : Type) := mkcalibrator { db : list params; good : list view }.
Arguments mkcalibrator {view}.
Arguments db {view}.
Arguments good {view}.
Definition fresh {view} : calibrator view := mkcalibrator [] [].
(** The loops 632-661, 535-555, 1106-1140: the same test and the same two appends. *)
Fixpoint take {view} (par : view -> params) (c : calibrator view) (views : list view) : calibrator view :=
  match views with
  | [] => c
  | v :: views =>
      take par (if is_good_sample (db c) (par v) then mkcalibrator (db c ++ [par v]) (good c ++ [v]) else c) views
  end.
(** 574-576, 632-661: [views] are the sharp detections in the order of the images; the JSON written afterwards (calibration.py 103-106)
    has all of them.  [None]: CalibrationException 673-674.  Parameters are computed from corners, board and size, which are all in
    the JSON (float32 corners are written and read exactly). *)
Definition collect_corners {view} (par : view -> params) (views : list view) : option (calibrator view * list view) :=
  let c := take par fresh views in
  match good c with [] => None | _ => Some (c, views) end.
(** 527-556: [good_corners] is emptied, [db] is not.  An empty list of images (IndexError) is left out. *)
Definition from_json {view} (par : view -> params) (c : calibrator view) (json : list view) : calibrator view :=
  take par (mkcalibrator (db c) []) json.
(** 1105-1140: pairs, by the parameters of the left view *)
Definition pairs_from_json {view} (par : view -> params) (c : calibrator (view * view)) (common : list (view * view)) : calibrator (view * view) :=
  take (fun p => par (fst p)) (mkcalibrator (db c) []) common.

(** * find_common_filenames (960-1037) *)
Definition name := list ascii.
Definition text (s : string) : name := list_ascii_of_string s.
Definition slice (a b : nat) (s : name) : name := firstn (b - a) (skipn a s).
Inductive format := Acfr | Seaxerocks3 | Biocam.
(** 966-980; [None]: [lf[0]] or [rf[0]] of an empty list (rf is only looked at in the else branch). *)
Definition common_format (lf rf : list name) : option (format * list name * list name) :=
  match lf with
  | [] => None
  | l0 :: _ =>
      if existsb (fun w => text_eqb (slice 23 25 l0) (text w)) ["LC"; "RC"; "FC"; "AC"]%string then Some (Acfr, lf, rf)
      else
        let lf' := if text_eqb (slice 0 5 l0) (text "image") then map (skipn 5) lf else lf in
        match rf with
        | [] => None
        | r0 :: _ =>
            let rf' := if text_eqb (slice 0 5 r0) (text "image") then map (skipn 5) rf else rf in
            Some (if (26 <? length (hd [] lf'))%nat then Biocam else Seaxerocks3, lf', rf')
        end
  end.
Fixpoint indexes {A B} (i : nat) (l : list A) (f : nat -> A -> list B) : list B :=
  match l with [] => [] | a :: l => f i a ++ indexes (S i) l f end.
(** Pairs of positions.  [biocam] and [acfr] are the time stamps read from the names (the pc stamp for biocam); the error they raise on
    a name of another form is left out.  [sync_times] is the loop 1005-1013 = 1026-1034, the same as in laser_calibrator.py. *)
Definition find_common (biocam acfr : name -> Q) (lf rf : list name) : option (list (nat * nat)) :=
  bind (common_format lf rf) (fun r =>
  let '(f, lf, rf) := r in
  match f with
  | Seaxerocks3 => Some (indexes 0 lf (fun i l => indexes 0 rf (fun j r => if text_eqb l r then [(i, j)] else [])))
  | Biocam => sync_times 0 (map biocam lf) (map biocam rf)
  | Acfr => sync_times 0 (map acfr lf) (map acfr rf)
  end).
