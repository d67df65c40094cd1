(** scripts/adjust_alr_to_biocam_time.py: the polls read from BioCam's serial logs (53-78), the names of the corrected files (34-51) and the correction
    of whole files (131-185), on top of AlrModel.  A line is given without its end (which int() ignores); a csv file is its header and rows of numbers
    (columns that are not used are carried along); names are texts and the same file has one name.  Messages and the plot are left out. *)
From Coq Require Import Ascii String.
From Verif Require Import PyBase TimeModel AlrModel.
From Verif Require Ae2000Model.
Open Scope Q_scope.

Notation text := (list ascii).
Definition txt (s : string) : text := list_ascii_of_string s.
Fixpoint same (a b : text) : bool :=
  match a, b with [], [] => true | x :: a, y :: b => (Ascii.eqb x y && same a b)%bool | _, _ => false end.
Fixpoint starts (w s : text) : bool :=
  match w, s with [], _ => true | x :: w, y :: s => (Ascii.eqb x y && starts w s)%bool | _ :: _, [] => false end.
(** w in s *)
Fixpoint contains (w s : text) : bool := (starts w s || match s with [] => false | _ :: s => contains w s end)%bool.

(** * Logs *)
(** 69-74; [None]: an exception *)
Definition read_line (line : text) : option (list poll) :=
  if contains (txt "poll_time:") line then
    let f := Ae2000Model.split_at ","%char line in
    bind (bind (nth_error f 1) py_int) (fun a => bind (bind (nth_error f 5) py_int) (fun b => bind (bind (nth_error f 7) py_int) (fun c => Some [mkpoll a b c])))
  else Some [].
Fixpoint read_lines (lines : list text) : option (list poll) :=
  match lines with [] => Some [] | l :: lines => bind (read_line l) (fun p => bind (read_lines lines) (fun ps => Some (p ++ ps)%list)) end.
(** 58-67: a log that does not exist quits *)
Fixpoint read_logs (logs : list (option (list text))) : option (list poll) :=
  match logs with
  | [] => Some []
  | None :: _ => None
  | Some l :: logs => bind (read_lines l) (fun p => bind (read_logs logs) (fun ps => Some (p ++ ps)%list))
  end.

(** * Names *)
(** name.replace(".csv", "_corrected.csv"); [skip] counts the letters of a match still to drop. *)
Fixpoint replace_from (skip : nat) (s : text) : text :=
  match s with
  | [] => []
  | c :: r =>
      match skip with
      | S n => replace_from n r
      | O => if starts (txt ".csv") s then (txt "_corrected.csv" ++ replace_from 3 r)%list else c :: replace_from 0 r
      end
  end.
Definition output_name (name : text) : text := replace_from 0 name.
(** name[-4:] *)
Definition last4 (name : text) : text := skipn (length name - 4) name.

(** * Files *)
Record table := mktable { header : list text; body : list (list Q) }.
Definition disk := text -> option table.
Definition write (d : disk) (name : text) (t : table) : disk := fun n => if same n name then Some t else d n.
Fixpoint index (name : text) (l : list text) : option nat :=
  match l with [] => None | x :: l => if same x name then Some 0%nat else option_map S (index name l) end.
Definition new_column : text := txt "corrected_timestamp".
Fixpoint correct_rows (c : corrector) (divisions : Q) (i : nat) (rows : list (list Q)) : option (list (list Q)) :=
  match rows with
  | [] => Some []
  | r :: rows => bind (correct c divisions (nth i r 0)) (fun y => bind (correct_rows c divisions i rows) (fun out => Some ((y :: r) :: out)))
  end.
(** 168-183 for one file; without rows [0] is a KeyError, and insert refuses a column that is there *)
Definition correct_table (c : corrector) (divisions : Q) (column : text) (t : table) : option table :=
  bind (index column (header t)) (fun i =>
  match body t with
  | [] => None
  | _ => match index new_column (header t) with
      | Some _ => None
      | None => bind (correct_rows c divisions i (body t)) (fun rows => Some (mktable (new_column :: header t) rows))
      end
  end).
(** The disk in the end, and whether the script ended with its last line *)
Inductive result := Finished (d : disk) | Stopped (d : disk).
(** 167-185; one name of each group *)
Fixpoint correct_files (c : corrector) (divisions : Q) (column : text) (names : list text) (d : disk) : result :=
  match names with
  | [] => Finished d
  | n :: names =>
      match bind (d n) (correct_table c divisions column) with
      | None => Stopped d
      | Some t => correct_files c divisions column names (write d (output_name n) t)
      end
  end.
(** 34-51, 53-93, 162-185, 241-243: [groups] are the names after each -a, one or more; [None]: no -a *)
Definition run (logs : list (option (list text))) (groups : option (list (text * list text))) (column : text) (divisions : Q) (force : bool) (d : disk) : result :=
  let names := match groups with None => [] | Some g => map fst g end in
  if negb (forallb (fun n => same (last4 n) (txt ".csv")) names) then Stopped d
  else if (negb force && existsb (fun n => match d (output_name n) with Some _ => true | None => false end) names)%bool then Stopped d
  else match read_logs logs with
    | None => Stopped d
    | Some ps => match analyse ps with Ready c => correct_files c divisions column names d | _ => Stopped d end
    end.
