(** scripts/pixel_stats_folder.py: the images of a folder brought to one brightness and contrast, pixel by pixel.  Exact rationals in the place of
    float32 and float64; [root] is math.sqrt. *)
From Coq Require Import Qround.
From Verif Require Import PyBase StatsModel PixelModel.
Open Scope Q_scope.

(** An image as imageio.imread gives it: rows, columns and channels ([None]: an array of two dimensions); levels at row, column, channel. *)
Record image := mkimage { rows : nat; columns : nat; channels : option nat; level : nat -> nat -> nat -> Z }.
Definition plane := nat -> nat -> Q.
(** cv2.resize: the third argument is the output array, so that the interpolation is the default, linear, with the centres of the pixels at halves and the
    border continued.  One direction, from [n] to [m] pixels: *)
Definition stretch (n m : nat) (f : nat -> Q) (i : nat) : Q :=
  let p := ((2 * q i + 1) * q n / q m - 1) / 2 in
  let k := Qfloor p in
  if (k <? 0)%Z then f 0%nat
  else if (Z.of_nat n - 1 <=? k)%Z then f (n - 1)%nat
  else let t := p - inject_Z k in f (Z.to_nat k) * (1 - t) + f (S (Z.to_nat k)) * t.
(** from [h] rows and [w] columns to [h'] and [w'] *)
Definition resize (h w h' w' : nat) (a : plane) : plane := fun y x => stretch h h' (fun r => stretch w w' (a r) x) y.

(** Parameters, 19-24 *)
Definition brightness : Q := 25.
Definition contrast : Q := 7.
(** int(scale_factor * float(n)), 155-156 *)
Definition scaled (n : nat) : nat := (n / 2)%nat.

(** 178-180: how many images fit in 200 Gb, eight bytes a value *)
Definition capacity (h w c : nat) : Z := Qfloor (200 / (q (h * w * c) * 8 / 1073741824)).
(** 190-202; [draw]: random.sample; [random]: use_random_sample, which is True.  The loop 198-200 takes every increment-th image. *)
Fixpoint every {A} (fuel increment : nat) (l : list A) : list A :=
  match fuel, l with S fuel, a :: _ => a :: every fuel increment (skipn increment l) | _, _ => [] end.
Definition sampled {A} (random : bool) (draw : list A -> nat -> list A) (n : Z) (l : list A) : list A :=
  if (Z.of_nat (length l) <=? n)%Z then l
  else if random then draw l (Z.to_nat n)
  else every (length l) (length l / Z.to_nat n + 1) l.

(** 82-86: levels over 256, at the small size [h] by [w] *)
Definition loaded (h w : nat) (im : image) (k : nat) : plane :=
  resize (rows im) (columns im) h w (fun y x => inject_Z (level im y x k) / 256).
Section Run.
  Variable root : Q -> Q.
  (** 58-79, 235-245 *)
  Definition small_mean (h w : nat) (sample : list image) (k : nat) : plane := fun y x => fst (array_stats (map (fun im => loaded h w im k y x) sample)).
  Definition small_std (h w : nat) (sample : list image) (k : nat) : plane := fun y x => root (snd (array_stats (map (fun im => loaded h w im k y x) sample))).
  (** 247-259: resized to (orig_image_height, orig_image_width), which for cv2 are width and height, then transpose(2, 1, 0) *)
  Definition enlarge (h w height width : nat) (a : plane) : plane := fun y x => resize h w width height a x y.
  (** pixel_stat 49-54; division by 0 gives an infinity, which is clipped, or ([None]) NaN *)
  Definition pixel (m s x : Q) : option Q :=
    if Qeq_bool s 0 then if Qltb m x then Some 1 else if Qltb x m then Some 0 else None
    else Some (pixel_stat m s brightness contrast x).
  (** 124-125: times 256, as np.uint8 (the conversion of 256 is modulo 256, as compilers do it; C leaves it open) *)
  Definition to_uint8 (v : Q) : Z := (Qfloor (v * 256) mod 256)%Z.
  (** 89-126 for one pixel of an image of the size of the first; [None] for one pixel is NaN *)
  Definition corrected (h w height width : nat) (sample : list image) (im : image) (y x k : nat) : option Z :=
    match pixel (enlarge h w height width (small_mean h w sample k) y x) (enlarge h w height width (small_std h w sample k) y x)
                (inject_Z (level im y x k) / 256) with
    | Some v => Some (to_uint8 v)
    | None => None
    end.
  (** The whole script.  [None]: an exception: no image, an image without three channels, (100, 52) one of another size than the first, (179) a side of
      one pixel or (196, 222) none that fits. *)
  Definition three (im : image) : bool := match channels im with Some c => (c =? 3)%nat | None => false end.
  Definition same_size (a b : image) : bool := ((rows a =? rows b)%nat && (columns a =? columns b)%nat)%bool.
  Definition run (random : bool) (draw : list image -> nat -> list image) (images : list image) : option (list (image * (nat -> nat -> nat -> option Z))) :=
    match images with
    | [] => None
    | first :: _ =>
        let h := scaled (rows first) in
        let w := scaled (columns first) in
        if (forallb (fun im => (three im && same_size first im)%bool) images && (1 <=? h)%nat && (1 <=? w)%nat && (1 <=? capacity h w 3)%Z)%bool then
          let sample := sampled random draw (capacity h w 3) images in
          Some (map (fun im => (im, corrected h w (rows first) (columns first) sample im)) images)
        else None
    end.
End Run.
