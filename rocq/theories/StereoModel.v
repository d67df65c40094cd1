(** Model of the stereo pairing of parse_acfr_images.py:90-186,
    parse_ntnu_stereo.py:89-172 and parse_biocam_images.py:171-221 (ftype "oplab").
    An image is its timestamp and its name.  The timestamps are kept in module-level
    lists (parse_acfr_images.py:19-20, parse_ntnu_stereo.py:17-18,
    parse_biocam_images.py:23-26) which outlive a call.  str(float) followed by
    float(str) is the identity.  BioCam's stamp_cam1/2 are handled like stamp_pc1/2
    and left out; its camera3 records do not use module state. *)
From Verif Require Import PyBase.
Open Scope Q_scope.

Section Stereo.
  Context {N : Type}.
  Record image := mkImg { i_t : Q; i_name : N }.
  (** The pair's left and right image, with the timestamps reported for them. *)
  Definition pair : Type := image * image.
  Record cameras := mkCams { left_images : list image; right_images : list image }.

  (** The module-level lists: epoch_timestamp_camera1 and ...camera2. *)
  Definition globals : Type := list Q * list Q.

  (** min((v, k) for k, v in enumerate(values)): the least value, at its first index;
      [None] is the ValueError of an empty sequence. *)
  Fixpoint argmin (vs : list Q) : option (Q * nat) :=
    match vs with
    | [] => None
    | v :: vs' =>
        match argmin vs' with
        | Some (w, k) => if Qltb w v then Some (w, S k) else Some (v, O)
        | None => Some (v, O)
        end
    end.

  (** parse_acfr_images.py:136 skips when difference > tolerance, also
      parse_ntnu_stereo.py:124; parse_biocam_images.py:194 pairs when
      difference < tolerance. *)
  Inductive flavour := AcfrImages | NtnuImages | BiocamImages.
  Definition accepts (k : flavour) (tol diff : Q) : bool :=
    match k with
    | AcfrImages | NtnuImages => negb (Qltb tol diff)
    | BiocamImages => Qltb diff tol
    end.

  (** parse_acfr_images.py:124-161: left image [a] has index [i]; only the first
      len(camera2_filename) global right timestamps are compared. *)
  Fixpoint pair_loop (k : flavour) (tol : Q) (g : globals) (rights : list image)
      (i : nat) (lefts : list image) : option (list pair) :=
    match lefts with
    | [] => Some []
    | a :: lefts' =>
        match nth_error (fst g) i with
        | None => None
        | Some t =>
            let values := map (fun u => Qabs (t - u)) (firstn (length rights) (snd g)) in
            match argmin values with
            | None => None
            | Some (diff, j) =>
                match pair_loop k tol g rights (S i) lefts' with
                | None => None
                | Some ps =>
                    if accepts k tol diff then
                      match nth_error (snd g) j, nth_error rights j with
                      | Some u, Some b => Some ((mkImg t (i_name a), mkImg u (i_name b)) :: ps)
                      | _, _ => None
                      end
                    else Some ps
                end
            end
        end
    end.

  (** parse_acfr_images.py:103-106: an empty right camera is replaced by the left. *)
  Definition right_list (k : flavour) (c : cameras) : list image :=
    match k, right_images c with
    | AcfrImages, [] => left_images c
    | _, r => r
    end.

  (** One call: the timestamps are appended (112-122), then the images are paired. *)
  Definition parse_images (k : flavour) (tol : Q) (g : globals) (c : cameras) : globals * option (list pair) :=
    let rights := right_list k c in
    let g' := (fst g ++ map i_t (left_images c), snd g ++ map i_t rights)%list in
    (g', pair_loop k tol g' rights 0 (left_images c)).

  (** parse.py:102-104: the dives of one invocation share the module. *)
  Fixpoint parse_all (k : flavour) (tol : Q) (g : globals) (ds : list cameras) : list (option (list pair)) :=
    match ds with
    | [] => []
    | c :: ds' => let '(g', r) := parse_images k tol g c in r :: parse_all k tol g' ds'
    end.
  (** A dive parsed alone. *)
  Definition parse_alone (k : flavour) (tol : Q) (c : cameras) : option (list pair) :=
    snd (parse_images k tol ([], []) c).
End Stereo.
Arguments image : clear implicits.
Arguments pair : clear implicits.
Arguments cameras : clear implicits.

(** parse_acfr_images.py:23, parse_ntnu_stereo.py:21, parse_biocam_images.py:29. *)
Definition tolerance : Q := 5 # 100.
