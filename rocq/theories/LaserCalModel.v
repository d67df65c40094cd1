(** auv_cal/laser_calibrator.py: LaserCalibrator.cal up to the plane fit, and what it calls: pairing of images, choice of at
    most 500 pairs, the cached laser detections, pairing of detections, stratified sampling.  Exact rationals. *)
From Coq Require Import Qround Ascii String.
From Verif Require Import PyBase TimeModel.
Open Scope Q_scope.

(** * Pairing of detections (pointcloud_from_peaks, 714-765) *)
Record peak := mkpeak { row : Q; col : Q }.
(** [while i2 < len(pk2)]: the rest of pk2 from i2 on *)
Fixpoint skip (c : Q) (pk2 : list peak) : list peak :=
  match pk2 with [] => [] | q :: r => if Qle_bool c (col q) then pk2 else skip c r end.
Fixpoint pairs (pk1 pk2 : list peak) : list (peak * peak) :=
  match pk1 with
  | [] => []
  | p :: pk1 =>
      let pk2 := skip (col p) pk2 in
      match pk2 with
      | q :: _ => if Qltb (Qabs (col q - col p)) 1 then (p, q) :: pairs pk1 pk2 else pairs pk1 pk2
      | [] => pairs pk1 pk2
      end
  end.
Definition point := (Q * Q * Q)%type.
(** 743-765: [triangulate] is triangulate_lst with the two projection matrices, [unrectify] is left.R.T or nothing. *)
Definition cloud_of (triangulate : peak -> peak -> point) (unrectify : point -> point) (pk1 pk2 : list peak) : list point * nat * nat :=
  fold_left (fun s pq =>
      let '(cloud, count, inversed) := s in
      let p := triangulate (fst pq) (snd pq) in
      if Qltb (snd p) 0 then (cloud, count, S inversed) else ((cloud ++ [unrectify p])%list, S count, inversed))
    (pairs pk1 pk2) ([], 0%nat, 0%nat).

(** * Stratified sampling (662-712) *)
Record strata := mkstrata { min_z : Q; max_z : Q; bins : nat; max_points : nat }.
(** bins[i] is None or a list, of which only the length matters. *)
Fixpoint put (s : strata) (counts : list (option nat)) (i : nat) : option (bool * list (option nat)) :=
  match counts, i with
  | [], _ => None
  | c :: counts, S i => bind (put s counts i) (fun r => Some (fst r, c :: snd r))
  | None :: counts, O => Some (true, Some 1%nat :: counts)
  | Some n :: counts, O => Some (if (n <? max_points s)%nat then (true, Some (S n) :: counts) else (false, Some n :: counts))
  end.
(** 685-706, for an already shuffled cloud; [None]: an exception. *)
Fixpoint stratify (s : strata) (counts : list (option nat)) (cloud : list point) : option (list point) :=
  match cloud with
  | [] => Some []
  | p :: cloud =>
      let z := snd p in
      if (Qle_bool (min_z s) z && Qltb z (max_z s))%bool then
        let i := Qfloor ((z - min_z s) / ((max_z s - min_z s) / inject_Z (Z.of_nat (bins s)))) in
        bind (if (i <? 0)%Z then None else put s counts (Z.to_nat i)) (fun r =>
        bind (stratify s (snd r) cloud) (fun out => Some (if fst r then p :: out else out)))
      else stratify s counts cloud
  end.
(** number_of_bins = 0 divides by zero. *)
Definition z_stratified (s : strata) (cloud : list point) : option (list point) :=
  if (bins s =? 0)%nat then None else stratify s (repeat None (bins s)) cloud.

(** * Pairing of images (984-1039) *)
Fixpoint text_eqb (a b : list ascii) : bool :=
  match a, b with [], [] => true | x :: a, y :: b => (Ascii.eqb x y && text_eqb a b)%bool | _, _ => false end.
Fixpoint starts (w s : list ascii) : bool :=
  match w, s with [], _ => true | x :: w, y :: s => (Ascii.eqb x y && starts w s)%bool | _, [] => false end.
Fixpoint contains (w s : list ascii) : bool := (starts w s || match s with [] => false | _ :: s => contains w s end)%bool.
(** 988-996, for stems *)
Definition left_key (name : list ascii) : list ascii := if contains (list_ascii_of_string "image") name then skipn 5 name else name.
Definition sync_names (lefts rights : list (list ascii)) : list (list ascii * list ascii) :=
  flat_map (fun l => flat_map (fun r => if text_eqb (left_key l) r then [(l, r)] else []) rights) lefts.
(** [min((v, k) for k, v in enumerate(values))]: the smallest value, the first such index *)
Fixpoint nearest (t : Q) (rights : list Q) : option (Q * nat) :=
  match rights with
  | [] => None
  | r :: rights =>
      match nearest t rights with
      | None => Some (Qabs (t - r), 0%nat)
      | Some (v, k) => if Qle_bool (Qabs (t - r)) v then Some (Qabs (t - r), 0%nat) else Some (v, S k)
      end
  end.
(** 1011-1024; pairs of indexes; [None]: min() of nothing. *)
Fixpoint sync_times (i : nat) (lefts rights : list Q) : option (list (nat * nat)) :=
  match lefts with
  | [] => Some []
  | t :: lefts =>
      bind (nearest t rights) (fun vk => bind (sync_times (S i) lefts rights) (fun out =>
      Some (if Qltb (fst vk) (1 # 20) then (i, snd vk) :: out else out)))
  end.
(** 1030-1032 *)
Definition selection (m n : nat) : list nat := map (fun i => (i * n / m + n / (2 * m))%nat) (seq 0 m).
Fixpoint collect {A} (l : list A) (idx : list nat) : option (list A) :=
  match idx with
  | [] => Some []
  | i :: idx => bind (nth_error l i) (fun x => bind (collect l idx) (fun r => Some (x :: r)))
  end.
(** 1026-1039: the pairs that are processed. *)
Definition chosen {A} (lefts rights : list A) (synced : list (A * A)) : option (list (A * A)) :=
  if (500 <? length lefts)%nat then collect synced (selection 500 (length lefts)) else Some (combine lefts rights).

(** * Cached detections (354-518) *)
(** The yaml document written: "top: \n- [..]\n- [..]\n"; without detections the list has one empty entry
    (if a second laser follows, an entry [bottom: null] takes its place: the subscript fails too).  float32 conversion is left out: columns
    are whole numbers. *)
Record document := mkdocument { top : list (option peak); bottom : option (list (option peak)) }.
Definition entries (l : list peak) : list (option peak) := match l with [] => [None] | _ => map Some l end.
Definition written (two_lasers : bool) (t b : list peak) : document := mkdocument (entries t) (if two_lasers then Some (entries b) else None).
(** 484-500: [None]: subscript of an empty entry. *)
Fixpoint all_points (l : list (option peak)) : option (list peak) :=
  match l with [] => Some [] | None :: _ => None | Some p :: l => bind (all_points l) (fun r => Some (p :: r)) end.
Definition read_back (two_lasers : bool) (d : document) : option (list peak * list peak) :=
  bind (all_points (top d)) (fun t =>
  if two_lasers then bind (all_points (match bottom d with Some b => b | None => [] end)) (fun b => Some (t, b)) else Some (t, [])).
(** 466-518 *)
Definition get_laser_pixels (overwrite two_lasers : bool) (cached : option document) (found : list peak * list peak) : option (list peak * list peak) :=
  let detected := (fst found, if two_lasers then snd found else []) in
  match cached with
  | Some d => if overwrite then Some detected else read_back two_lasers d
  | None => Some detected
  end.
