(** Model of the image selection in correct_images/corrector.py: Corrector.parse,
    get_imagelist, get_altitude_and_depth_maps and the altitude bins of
    generate_attenuation_correction_parameters and compute_distance_bin. *)
From Coq Require Import Qround.
From Verif Require Import PyBase.
Open Scope Q_scope.

Section Select.
Variable P : Type.

(** A row of the navigation file: the image, whether it exists on disk, and its altitude
    ([None]: "None", or empty and so NaN). *)
Record nav_row := mkrow { image : P; exists_ : bool; alt : option Q }.

(** 604-657: existing images, rows without altitude dropped, strict bounds; both lists are
    appended to together.  (The messages and [quit] for empty lists are left out.) *)
Definition selected (lo hi : Q) (r : nav_row) : bool :=
  (exists_ r && match alt r with Some a => Qltb lo a && Qltb a hi | None => false end)%bool.
Fixpoint get_lists (lo hi : Q) (rows : list nav_row) : list P * list Q :=
  match rows with
  | [] => ([], [])
  | r :: rows =>
      let '(images, alts) := get_lists lo hi rows in
      match alt r with
      | Some a => if selected lo hi r then (image r :: images, a :: alts) else (images, alts)
      | None => (images, alts)
      end
  end.

(** Corrector.parse, 285-299, for colour correction: get_imagelist replaces the lists (511-516)
    and only the other branch (667-679) puts the earlier ones back. *)
Definition state : Type := list P * list Q.
Definition parse_colour (lo hi : Q) (dives : list (list nav_row)) : state :=
  fold_left (fun (_ : state) rows => get_lists lo hi rows) dives ([], []).

(** For manual balance the corrector's list is the camera's own list object: after the first
    dive [extend] appends the list to itself.  The camera is that of the first dive for all
    dives.  State: the camera's list and whether the corrector's list is that object. *)
Definition manual_step (s : list P * option (list P)) : list P * option (list P) :=
  let '(camera, own) := s in
  match own with Some previous => (camera ++ previous, None) | None => (camera ++ camera, None) end.
Definition parse_manual (camera : list P) (n : nat) : list P := fst (Nat.iter n manual_step (camera, Some [])).

(** get_altitude_and_depth_maps, 692-726: [has_map] says whether the depth map of an image
    exists; [del] from the last index to drop to the first. *)
Fixpoint delete {A} (i : nat) (l : list A) : list A :=
  match l, i with [], _ => [] | _ :: l, O => l | x :: l, S i => x :: delete i l end.
Fixpoint to_drop (has_map : P -> bool) (i : nat) (images : list P) : list nat :=
  match images with [] => [] | p :: images => (if has_map p then [] else [i]) ++ to_drop has_map (S i) images end.
Record lists := mklists { images_l : list P; maps_l : list P; alts_l : list Q }.
Definition depth_maps (has_map : P -> bool) (l : lists) : lists :=
  mklists (fold_left (fun l i => delete i l) (rev (to_drop has_map 0 (images_l l))) (images_l l))
    (maps_l l ++ filter has_map (images_l l)) (alts_l l).

(** The bins, 776-781: np.arange(min, max + 0.05, 0.1), exact. *)
Definition n_edges (lo hi : Q) : nat := Z.to_nat (Qceiling ((hi + (1 # 20) - lo) * 10)).
Definition edge (lo : Q) (k : nat) : Q := lo + inject_Z (Z.of_nat k) * (1 # 10).
(** np.digitize(x, bins) for increasing bins: the number of edges up to and including x; 1 is
    subtracted at 806. *)
Definition digitize (lo hi x : Q) : Z :=
  Z.of_nat (length (filter (fun k => Qle_bool (edge lo k) x) (seq 0 (n_edges lo hi)))) - 1.
(** The bins processed are 0 to len(hist_bins) - 2 (862); 1129: those with ten images. *)
Definition bin_members (lo hi : Q) (alts : list Q) (b : nat) : list nat :=
  filter (fun i => (digitize lo hi (nth i alts 0%Q) =? Z.of_nat b)%Z) (seq 0 (length alts)).
Definition bins_used (lo hi : Q) (alts : list Q) : list (nat * list nat) :=
  filter (fun p => (10 <=? length (snd p))%nat) (map (fun b => (b, bin_members lo hi alts b)) (seq 0 (n_edges lo hi - 1))).
End Select.
Arguments mkrow {P}. Arguments image {P}. Arguments exists_ {P}. Arguments alt {P}.
Arguments mklists {P}. Arguments images_l {P}. Arguments maps_l {P}. Arguments alts_l {P}.
