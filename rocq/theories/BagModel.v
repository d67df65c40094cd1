(** Images extracted from ROS bags: scripts/extract_rosbag_images.py writes them, parse_rosbag_extracted_images (parse_rosbag.py:228-334)
    reads their names; parse_stereo_gopro.py.  Texts are lists of code points.  A file in the folder is its name and its image.  float()
    is [decimal] of LatlonModel.v: exact, without rounding, signs, blanks and exponents. *)
From Verif Require Export PyBase NmeaModel LatlonModel.
Open Scope Q_scope.

(** str() of a non-negative integer. *)
Fixpoint show_digits (fuel : nat) (n : N) (acc : text) : text :=
  match fuel with
  | O => acc
  | S fuel => let acc := (48 + n mod 10)%N :: acc in if (n / 10 =? 0)%N then acc else show_digits fuel (n / 10) acc
  end.
Definition show (n : N) : text := show_digits (S (N.to_nat (N.log2 n))) n [].
(** s[:-k] and s[-k:] for k > 0 *)
Definition but_last (k : nat) (s : text) : text := firstn (length s - k) s.
Definition last_of (k : nat) (s : text) : text := skipn (length s - k) s.

Definition str_frame : text := [102; 114; 97; 109; 101]%N.
Definition str_png : text := [46; 112; 110; 103]%N.
Definition str_txt : text := [46; 116; 120; 116]%N.
Definition str_dot_underscore : text := [46; 95]%N.

(** extract_rosbag_images.py:28-32; str() of a stamp is its number of nanoseconds *)
Definition frame_name (stamp : N) : text := let s := show stamp in str_frame ++ but_last 9 s ++ [46%N] ++ last_of 9 s ++ str_png.
(** 23-35: imwrite replaces a file of the same name.  The folder of one call over all bags, in the order of the messages. *)
Definition store {I} (folder : list (text * I)) (name : text) (i : I) : list (text * I) :=
  filter (fun f => negb (text_eqb (fst f) name)) folder ++ [(name, i)].
Definition extract {I} (messages : list (N * I)) : list (text * I) :=
  fold_left (fun folder m => store folder (frame_name (fst m)) (snd m)) messages [].

(** Python's "a in b" for texts *)
Fixpoint begins (a b : text) : bool :=
  match a, b with
  | [], _ => true
  | x :: a, y :: b => (x =? y)%N && begins a b
  | _ :: _, [] => false
  end.
Fixpoint within (a b : text) : bool := begins a b || match b with [] => false | _ :: b => within a b end.

(** parse_rosbag.py:245-250; the same for both cameras *)
Definition image_files (listing : list text) : list text := filter (fun l => negb (within str_txt l) && negb (within str_dot_underscore l)) listing.
(** 268-273; name[5:-5] *)
Definition stamp_text (name : text) : text := skipn 5 (but_last 5 name).

(** 284-285: the smallest pair of (difference, index) *)
Fixpoint nearest (values : list Q) (k : nat) : option (Q * nat) :=
  match values with
  | [] => None
  | v :: rest => match nearest rest (S k) with
                 | None => Some (v, k)
                 | Some (w, j) => Some (if Qle_bool v w then (v, k) else (w, j))
                 end
  end.

Record entry := mkentry { e_t : Q; e_name : text }.
Record record := mkrecord { rec_t : Q; camera1 : entry; camera2 : entry }.
Fixpoint stamps (names : list text) : option (list Q) :=
  match names with
  | [] => Some []
  | n :: names => match decimal (stamp_text n), stamps names with Some q, Some qs => Some (q :: qs) | _, _ => None end
  end.
(** 275-311, for "oplab"; [files]: what is left of the first list with its times *)
Fixpoint pairs_of (tolerance : Q) (all files : list (text * Q)) : option (list record) :=
  match files with
  | [] => Some []
  | (n, t) :: files =>
      match nearest (map (fun f => Qabs (t - snd f)) all) 0 with
      | None => None                                                    (* min() of nothing *)
      | Some (d, k) =>
          match nth_error all k, pairs_of tolerance all files with
          | Some (n', t'), Some out => Some (if Qle_bool d tolerance then mkrecord t (mkentry t n) (mkentry t' n') :: out else out)
          | _, _ => None
          end
      end
  end.
(** 228-334; [None]: ValueError.  The folder's path before each name is left out.  float() is called in the loop (279-280), for all names
    if there is one. *)
Definition parse_extracted (listing : list text) : option (list record) :=
  let names := image_files listing in
  match stamps names with
  | None => None
  | Some ts => let all := combine names ts in pairs_of (5 # 100) all all
  end.
(** 312-332, for "acfr": two lines for a pair *)
Definition parse_extracted_acfr (listing : list text) : option (list entry) :=
  option_map (flat_map (fun r => [camera1 r; camera2 r])) (parse_extracted listing).

(** parse_stereo_gopro.py:33-64; [left_exists] and [right_exists]: is there such a file in the folder of the camera? *)
Record gopro_row := mkrow { g_epoch : Q; g_left : text; g_right : text }.
Fixpoint parse_gopro (left_exists right_exists : text -> bool) (rows : list gopro_row) : list record :=
  match rows with
  | [] => []
  | r :: rows =>
      let out := parse_gopro left_exists right_exists rows in
      if left_exists (g_left r) then
        if right_exists (g_right r) then mkrecord (g_epoch r) (mkentry (g_epoch r) (g_left r)) (mkentry (g_epoch r) (g_right r)) :: out else out
      else out
  end.
