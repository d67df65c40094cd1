(** Calibration files: the text written by MonoCalibrator.yaml (auv_cal/camera_calibrator.py:881-958), StereoCalibrator.yaml (1446-1551),
    MonoCamera.to_str and StereoCamera.to_str (oplab/camera_models.py:81-163, 266-306), and what MonoCamera and StereoCamera read from it
    (35-38, 71-79, 241-246, 259-264).  Texts are lists of code points, numbers exact (reading a decimal rounds to a double: left out).
    The reader is the part of OpenCV's FileStorage needed for these files: lines "key: value" nested by indentation; a line it cannot
    parse, a missing entry and a matrix whose data do not fill it are [None] (an exception, or an empty entry for a missing one). *)
From Coq Require Import Ascii String Qround.
From Verif Require Import PyBase NmeaModel LatlonModel BagModel CorrModel.
Open Scope Q_scope.
Open Scope list_scope.

Definition bind {A B} (o : option A) (f : A -> option B) : option B := match o with Some a => f a | None => None end.

(** * Numbers: "%8f" *)
(** The number of millionths, rounded to the nearest, ties to even. *)
Definition millionths (x : Q) : Z :=
  let y := Qabs x * 1000000 in
  let f := Qfloor y in
  let r := y - inject_Z f in
  if Qltb r (1 # 2) then f else if Qltb (1 # 2) r then (f + 1)%Z else if Z.even f then f else (f + 1)%Z.
Definition space : N := 32.
Definition percent8f (x : Q) : text :=
  let n := Z.to_N (millionths x) in
  let s := (if Qltb x 0 then [45%N] else []) ++ show (n / 1000000)%N ++ [46%N] ++ skipn 1 (show (1000000 + n mod 1000000)%N) in
  repeat space (8 - length s) ++ s.
Fixpoint ltrim (s : text) : text := match s with c :: r => if (c =? space)%N then ltrim r else s | [] => [] end.
Definition trim (s : text) : text := rev (ltrim (rev (ltrim s))).
Definition number (s : text) : option Q :=
  match trim s with
  | 45%N :: r => option_map Qopp (decimal r)
  | r => decimal r
  end.

(** * Writing *)
(** An array of rows x columns, row after row. *)
Record matrix := mkmat { rows : nat; cols : nat; entries : list Q }.
Record camera := mkcam { width : N; height : N; cam : text; K : matrix; d : matrix; rect : matrix; proj : matrix }.
Record extrinsic := mkext { rot : matrix; trans : matrix; fund : matrix; ess : matrix }.

Definition line (indent : nat) (key : text) (value : text) : text := repeat space indent ++ key ++ [58%N] ++ value.
Definition tagged : text := txt " !!opencv-matrix".
Fixpoint joined (l : list text) : text := match l with [] => [] | [a] => a | a :: l => a ++ [44%N; space] ++ joined l end.
Definition data_text (l : list Q) : text := txt " [" ++ joined (map percent8f l) ++ txt "]".
Definition num (n : nat) : text := space :: show (N.of_nat n).
(** The five lines of a matrix; [r] and [c] are written as they are, whatever the data. *)
Definition mat_lines (t : nat) (key : string) (r c : nat) (data : list Q) : list text :=
  [ line t (txt key) tagged; line (t + 2) (txt "rows") (num r); line (t + 2) (txt "cols") (num c); line (t + 2) (txt "dt") (txt " d");
    line (t + 2) (txt "data") (data_text data) ].
(** reshape(1, n)[0]: an exception unless there are n entries. *)
Definition flat (n : nat) (m : matrix) : option (list Q) := if (length (entries m) =? n)%nat then Some (entries m) else None.
(** [m[i, 0] for i in range(m.shape[0])] and [m[0, i] for i in range(m.shape[1])] *)
Definition first_column (m : matrix) : list Q := map (fun i => nth (i * cols m) (entries m) 0) (seq 0 (rows m)).
Definition first_row (m : matrix) : list Q := map (fun i => nth i (entries m) 0) (seq 0 (cols m)).
Definition model_of (m : matrix) : text := txt (if (5 <? length (entries m))%nat then " rational_polynomial" else " plumb_bob").

(** The lines from image_width to projection_matrix, with indentation [t]: camera_calibrator.py:892-932, 1463-1489 (and 1490-1516) and
    camera_models.py:95-157; [ds] are the distortion coefficients written. *)
Definition camera_lines (t : nat) (ds : list Q) (c : camera) : option (list text) :=
  bind (flat 9 (K c)) (fun k => bind (flat 9 (rect c)) (fun r => bind (flat 12 (proj c)) (fun p => Some (
    [ line t (txt "image_width") (space :: show (width c)); line t (txt "image_height") (space :: show (height c)); line t (txt "camera_name") (space :: cam c) ]
    ++ mat_lines t "camera_matrix" 3 3 k
    ++ [ line t (txt "distortion_model") (model_of (d c)) ]
    ++ mat_lines t "distortion_coefficients" 1 5 ds
    ++ mat_lines t "rectification_matrix" 3 3 r
    ++ mat_lines t "projection_matrix" 3 4 p)))).
(** date, user, host and version, between quotation marks; the number of images and the error as they are printed. *)
Record metadata := mkmeta { date : text; user : text; host : text; version : text }.
Definition quoted (s : text) : text := [space; 34%N] ++ s ++ [34%N; space].
Definition meta_lines (m : metadata) : list text :=
  [ line 0 (txt "date") (quoted (date m)); line 0 (txt "user") (quoted (user m)); line 0 (txt "host") (quoted (host m)); line 0 (txt "version") (quoted (version m)) ].
Definition result_lines (images error : text) : list text :=
  [ line 0 (txt "number_of_images") (space :: images); line 0 (txt "avg_reprojection_error") (space :: error) ].
Definition header : text := txt "%YAML:1.0".
Definition file_of (lines : list text) : text := flat_map (fun l => l ++ [10%N]) lines.

(** camera_calibrator.py:881-958; [stdev]: the entries of stdev_intrinsics, of which there are nine at least. *)
Definition mono_yaml (c : camera) (stdev : list Q) (m : metadata) (images error : text) : option text :=
  if (length stdev <? 9)%nat then None else
  bind (camera_lines 0 (first_column (d c)) c) (fun l =>
  Some (file_of ([header] ++ l ++ mat_lines 0 "stdev_intrinsics" 1 9 (firstn 9 stdev) ++ meta_lines m ++ result_lines images error))).
(** 1446-1551 *)
Definition stereo_yaml (l r : camera) (e : extrinsic) (m : metadata) (images error : text) : option text :=
  bind (camera_lines 2 (first_row (d l)) l) (fun ll => bind (camera_lines 2 (first_row (d r)) r) (fun rl =>
  bind (flat 9 (rot e)) (fun rm => bind (flat 3 (trans e)) (fun tv => bind (flat 9 (fund e)) (fun fm => bind (flat 9 (ess e)) (fun em =>
  Some (file_of ([header; line 0 (txt "left") []] ++ ll ++ [line 0 (txt "right") []] ++ rl ++ [line 0 (txt "extrinsics") []]
    ++ mat_lines 2 "rotation_matrix" 3 3 rm ++ mat_lines 2 "translation_vector" 3 1 tv ++ mat_lines 2 "fundamental_matrix" 3 3 fm
    ++ mat_lines 2 "essential_matrix" 3 3 em ++ meta_lines m ++ result_lines images error)))))))).
(** camera_models.py:81-163, with the header, not nested; Console.write_metadata writes the lines of [meta_lines]. *)
Definition mono_to_str (c : camera) (m : metadata) : option text :=
  bind (camera_lines 0 (first_column (d c)) c) (fun l => Some (file_of ([header] ++ l ++ meta_lines m))).
(** camera_models.py:266-306: no tag, no dt, and the first key is on the line of "extrinsics:". *)
Definition plain_lines (key : string) (r c : nat) (data : list Q) : list text :=
  [ line 2 (txt key) []; line 4 (txt "rows") (num r); line 4 (txt "cols") (num c); line 4 (txt "data") (data_text data) ].
Definition stereo_to_str (l r : camera) (e : extrinsic) (m : metadata) : option text :=
  bind (camera_lines 2 (first_column (d l)) l) (fun ll => bind (camera_lines 2 (first_column (d r)) r) (fun rl =>
  bind (flat 9 (rot e)) (fun rm => bind (flat 9 (fund e)) (fun fm => bind (flat 9 (ess e)) (fun em =>
  Some (file_of ([header; line 0 (txt "left") []] ++ ll ++ [line 0 (txt "right") []] ++ rl
    ++ [line 0 (txt "extrinsics") (txt "  rotation_matrix:"); line 4 (txt "rows") (num 3); line 4 (txt "cols") (num 3); line 4 (txt "data") (data_text rm)]
    ++ plain_lines "translation_vector" 1 3 (first_column (trans e)) ++ plain_lines "fundamental_matrix" 3 3 fm ++ plain_lines "essential_matrix" 3 3 em
    ++ meta_lines m))))))).

(** * Reading *)
(** A line: its indentation, its key and its value without the blanks around it.  A value that is not quoted may not contain a colon. *)
Definition entry := (nat * text * text)%type.
Fixpoint indent_of (s : text) : nat := match s with c :: r => if (c =? space)%N then S (indent_of r) else O | [] => O end.
Fixpoint cut_at (c : N) (s : text) : option (text * text) :=
  match s with
  | [] => None
  | x :: r => if (x =? c)%N then Some ([], r) else option_map (fun p => (x :: fst p, snd p)) (cut_at c r)
  end.
Definition parse_line (s : text) : option entry :=
  bind (cut_at 58 (ltrim s)) (fun p =>
  let v := trim (snd p) in
  if ((match v with 34%N :: _ => true | _ => false end) || negb (existsb (N.eqb 58) v))%bool then Some (indent_of s, fst p, v) else None).
Fixpoint parse_lines (l : list text) : option (list entry) :=
  match l with
  | [] => Some []
  | [] :: l => parse_lines l
  | s :: l => bind (parse_line s) (fun e => bind (parse_lines l) (fun es => Some (e :: es)))
  end.
Definition opened (t : text) : option (list entry) :=
  match split 10 t with
  | h :: l => if text_eqb h header then parse_lines l else None
  | [] => None
  end.
(** getNode: the value of the first entry with that key and the lines below it. *)
Fixpoint below (n : nat) (es : list entry) : list entry :=
  match es with (m, k, v) :: es => if (n <? m)%nat then (m, k, v) :: below n es else [] | [] => [] end.
Fixpoint get (n : nat) (key : text) (es : list entry) : option (text * list entry) :=
  match es with
  | [] => None
  | (m, k, v) :: es => if ((m =? n)%nat && text_eqb k key)%bool then Some (v, below n es) else get n key es
  end.
Definition node (es : list entry) (key : string) : option (text * list entry) :=
  match es with [] => None | (n, _, _) :: _ => get n (txt key) es end.
Definition int_of (t : text) : option N := match t with [] => None | _ => option_map Z.to_N (digits 0 t) end.
Fixpoint numbers (l : list text) : option (list Q) :=
  match l with [] => Some [] | s :: l => bind (number s) (fun q => bind (numbers l) (fun qs => Some (q :: qs))) end.
Definition data_of (t : text) : option (list Q) :=
  match t with
  | 91%N :: r => match rev r with 93%N :: r => numbers (split 44 (rev r)) | _ => None end
  | _ => None
  end.
(** FileNode.mat() *)
Definition mat_of (es : list entry) (key : string) : option matrix :=
  bind (node es key) (fun n => let sub := snd n in
  bind (node sub "rows") (fun r => bind (int_of (fst r)) (fun r =>
  bind (node sub "cols") (fun c => bind (int_of (fst c)) (fun c =>
  bind (node sub "dt") (fun t => if negb (text_eqb (fst t) (txt "d")) then None else
  bind (node sub "data") (fun l => bind (data_of (fst l)) (fun l =>
  if (length l =? N.to_nat r * N.to_nat c)%nat then Some (mkmat (N.to_nat r) (N.to_nat c) l) else None)))))))).
(** A name that does not begin with a letter may be taken for a number or a tag: left out. *)
Definition letter (c : N) : bool := ((65 <=? c) && (c <=? 90) || (97 <=? c) && (c <=? 122))%N%bool.
Definition name_of (t : text) : option text := match t with c :: _ => if letter c then Some t else None | [] => None end.
(** camera_models.py:71-79 *)
Definition camera_of (es : list entry) : option camera :=
  bind (node es "camera_name") (fun n => bind (name_of (fst n)) (fun n => bind (node es "image_width") (fun w => bind (int_of (fst w)) (fun w =>
  bind (node es "image_height") (fun h => bind (int_of (fst h)) (fun h =>
  bind (mat_of es "camera_matrix") (fun k => bind (mat_of es "distortion_coefficients") (fun dd =>
  bind (mat_of es "rectification_matrix") (fun r => bind (mat_of es "projection_matrix") (fun p =>
  Some (mkcam w h n k dd r p))))))))))).
Definition read_mono (t : text) : option camera := bind (opened t) camera_of.
(** 241-246, 259-264 *)
Definition read_stereo (t : text) : option (camera * camera * extrinsic) :=
  bind (opened t) (fun es =>
  bind (node es "left") (fun l => bind (camera_of (snd l)) (fun l =>
  bind (node es "right") (fun r => bind (camera_of (snd r)) (fun r =>
  bind (node es "extrinsics") (fun x => let x := snd x in
  bind (mat_of x "rotation_matrix") (fun rm => bind (mat_of x "translation_vector") (fun tv =>
  bind (mat_of x "fundamental_matrix") (fun fm => bind (mat_of x "essential_matrix") (fun em =>
  Some (l, r, mkext rm tv fm em))))))))))).
