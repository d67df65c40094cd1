(** Model of auv_nav/parsers/hybis.py. *)
From Coq Require Import Ascii String.
From Verif Require Import PyBase NmeaModel CsvModel InterpModel VoyisModel.
Local Open Scope Q_scope.
Local Open Scope list_scope.

(** A row of the navigation file (84-95); the numbers and the time stamp (63-75) are already read, the
    coordinates are text. *)
Record row := mkrow { w_ts : Q; w_roll : Q; w_pitch : Q; w_heading : Q; w_depth : Q; w_altitude : Q; w_lon : text; w_lat : text }.
(** A [HyBisPos] (21-47). *)
Record pos := mkpos { h_ts : Q; h_roll : Q; h_pitch : Q; h_heading : Q; h_depth : Q; h_altitude : Q; h_lon : Q; h_lat : Q }.
Definition none_p : pos := mkpos 0 0 0 0 0 0 0 0.

Definition W : N := 87.
Definition S_ : N := 83.

Section Hybis.
(** Python's float() on text; [None]: ValueError. *)
Variable num : text -> option Q.

(** 49-61; [None]: ValueError or IndexError. *)
Definition convert_latlon (s : text) : option Q :=
  let final := if (length s =? 11)%nat then 1%nat else 0%nat in
  match num (slice 0 (3 - final) s), num (slice (3 - final) (11 - final) s), nth_error s (11 - final) with
  | Some deg, Some minutes, Some zone =>
      let decdeg := deg + minutes / 60 in
      Some (if (N.eqb zone W || N.eqb zone S_)%bool then - decdeg else decdeg)
  | _, _, _ => None
  end.

(** 99-115. *)
Fixpoint read_rows (rows : list row) : option (list pos) :=
  match rows with
  | [] => Some []
  | w :: rows =>
      if (length (w_lon w) <? 11)%nat then read_rows rows
      else match convert_latlon (w_lon w), convert_latlon (w_lat w) with
           | Some lon, Some lat => option_map (cons (mkpos (w_ts w) (w_roll w) (w_pitch w) (w_heading w) (w_depth w) (w_altitude w) lon lat)) (read_rows rows)
           | _, _ => None
           end
  end.
End Hybis.

(** [l[i] = x]. *)
Fixpoint set_nth {A} (i : nat) (x : A) (l : list A) : list A :=
  match l, i with
  | [], _ => []
  | _ :: l, O => x :: l
  | y :: l, S i => y :: set_nth i x l
  end.
(** 117-133 for one of the two fields (the two are independent): [ts] are the time stamps, [vs] the
    values of the field.  Index -1 is the last record. *)
Definition fill_at (ts vs : list Q) (i : nat) : list Q :=
  if Qeq_bool (nth i vs 0) 0 then
    let p := match i with O => (length vs - 1)%nat | S k => k end in
    set_nth i (interpolate (nth i ts 0) (nth p ts 0) (nth (S i) ts 0) (nth p vs 0) (nth (S i) vs 0)) vs
  else vs.
Definition fill_gaps (ts vs : list Q) : list Q := fold_left (fill_at ts) (seq 0 (length vs - 1)) vs.
Definition with_filled (ps : list pos) : list pos :=
  map (fun x => match x with (p, (alt, dep)) => mkpos (h_ts p) (h_roll p) (h_pitch p) (h_heading p) dep alt (h_lon p) (h_lat p) end)
    (combine ps (combine (fill_gaps (map h_ts ps) (map h_altitude ps)) (fill_gaps (map h_ts ps) (map h_depth ps)))).

(** 135-143; [None]: IndexError. *)
Definition reference (lat lon : Q) (ps : list pos) : option (Q * Q) :=
  if (Qeq_bool lon 0 || Qeq_bool lat 0)%bool then
    option_map (fun p => (h_lat p, h_lon p)) (find (fun p => negb (Qeq_bool (h_lat p) 0)) ps)
  else Some (lat, lon).

(** 167-172. *)
Fixpoint search (fuel : nat) (ps : list pos) (t : Q) (i : nat) : nat :=
  match fuel with
  | O => i
  | S fuel => if ((i + 2 <? length ps)%nat && Qltb (h_ts (nth i ps none_p)) t)%bool then search fuel ps t (S i) else i
  end.
(** 174-222; [None]: IndexError. *)
Definition interp_at (ps : list pos) (t : Q) : option pos :=
  let i := search (length ps) ps t 0 in
  match nth_error ps i, nth_error ps (S i) with
  | Some a, Some b =>
      let f g := interpolate t (h_ts a) (h_ts b) (g a) (g b) in
      Some (mkpos t (f h_roll) (f h_pitch) (f h_heading) (f h_depth) (f h_altitude) (f h_lon) (f h_lat))
  | _, _ => None
  end.

(** A line of the output (230-255): image number, position north and east of the reference, the
    interpolated record and the file name. *)
Record line := mkline { l_number : nat; l_ne : Q * Q; l_pos : pos; l_file : text }.

Section Parser.
Variable num : text -> option Q.
(** 224-228: [latlon_to_metres] and the sine and cosine of the bearing (LatlonModel.v). *)
Variable ne : Q -> Q -> Q -> Q -> Q * Q.

(** 160-255 for the images from number [k] on. *)
Fixpoint lines (ps : list pos) (rlat rlon : Q) (k : nat) (images : list (text * Q)) : option (list line) :=
  match images with
  | [] => Some []
  | (file, t) :: images =>
      match interp_at ps t with
      | Some p => option_map (cons (mkline k (ne (h_lat p) (h_lon p) rlat rlon) p file)) (lines ps rlat rlon (S k) images)
      | None => None
      end
  end.
(** 81-257: the output lines and [start_epoch], [finish_epoch]. *)
Definition parser (rows : list row) (images : list (text * Q)) (rlat rlon : Q) : option (list line * Q * Q) :=
  match read_rows num rows with
  | None => None
  | Some ps =>
      let ps := with_filled ps in
      match reference rlat rlon ps with
      | None => None
      | Some (rlat, rlon) =>
          match lines ps rlat rlon 0 images, ps with
          | Some ls, p :: _ => Some (ls, h_ts p, h_ts (last ps none_p))
          | _, _ => None
          end
      end
  end.
End Parser.
