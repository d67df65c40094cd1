(** Colour correction over whole arrays, from the means of the altitude bins to the normalised image: correct_images/corrector.py:742-975
    (generate_attenuation_correction_parameters), 1075-1114, 1230-1235 and 1308-1364 (process_image up to pixel_stat),
    corrections/attenuation.py:23-243, corrections/pixel_stat.py and RunningMeanStd of tools/numerical.py:21-65.

    An array is numpy's: a shape and its elements with the last index running fastest.  Real arithmetic; NaN and the rounding to float32 are
    not modelled.  [None] is an exception.  [fit] is curve_fitting (tools/curve_fitting.py; the position of the pixel and the path only go
    to its messages and figure).  joblib returns results in the order of the calls.  Figures are left out except for their names. *)
From Coq Require Import Reals List Arith Lia.
Import ListNotations.
Open Scope R_scope.

Record array := mkarray { shape : list nat; data : list R }.
Definition size (sh : list nat) : nat := fold_right Nat.mul 1%nat sh.
Fixpoint flat (sh idx : list nat) : nat :=
  match sh, idx with _ :: sh, i :: idx => (i * size sh + flat sh idx)%nat | _, _ => 0%nat end.
Definition get (a : array) (idx : list nat) : R := nth (flat (shape a) idx) (data a) 0.
(** all indices in the order of the elements *)
Fixpoint indices (sh : list nat) : list (list nat) :=
  match sh with [] => [[]] | n :: sh => flat_map (fun i => map (cons i) (indices sh)) (seq 0 n) end.
Definition build (sh : list nat) (f : list nat -> R) : array := mkarray sh (map f (indices sh)).
(** ndarray.reshape, squeeze, fill *)
Definition reshape (sh : list nat) (a : array) : option array := if (size sh =? length (data a))%nat then Some (mkarray sh (data a)) else None.
Definition squeeze (a : array) : array := mkarray (filter (fun n => negb (n =? 1)%nat) (shape a)) (data a).
Definition filled (sh : list nat) (x : R) : array := mkarray sh (repeat x (size sh)).
(** Broadcasting of two arrays; shapes reversed *)
Fixpoint common_shape (a b : list nat) : option (list nat) :=
  match a, b with
  | [], b => Some b
  | a, [] => Some a
  | n :: a, m :: b =>
      match common_shape a b with
      | Some sh => if (n =? m)%nat then Some (n :: sh) else if (n =? 1)%nat then Some (m :: sh) else if (m =? 1)%nat then Some (n :: sh) else None
      | None => None
      end
  end.
Fixpoint pick (sh idx : list nat) : list nat :=
  match sh, idx with n :: sh, i :: idx => (if (n =? 1)%nat then 0%nat else i) :: pick sh idx | _, _ => [] end.
Definition seen (a : array) (idx : list nat) : R := get a (pick (shape a) (skipn (length idx - length (shape a)) idx)).
Definition broadcast (f : R -> R -> R) (a b : array) : option array :=
  option_map (fun sh => build (rev sh) (fun idx => f (seen a idx) (seen b idx))) (common_shape (rev (shape a)) (rev (shape b))).
Definition mapped (f : R -> R) (a : array) : array := mkarray (shape a) (map f (data a)).
(** [a op= b]: the result has the shape of [a]. *)
Definition in_place (f : R -> R -> R) (a b : array) : option array :=
  match broadcast f a b with Some r => if list_eq_dec Nat.eq_dec (shape r) (shape a) then Some r else None | None => None end.

Notation "'let?' x := a 'in' b" := (match a with Some x => b | None => None end) (at level 200, x pattern, a at level 100, b at level 200).
Fixpoint each {A B} (f : A -> option B) (l : list A) : option (list B) :=
  match l with [] => Some [] | x :: l => let? y := f x in let? ys := each f l in Some (y :: ys) end.

Section Camera.
Variable fit : list R -> list R -> R * R * R.
Variables height width channels : nat.

(** 819-835, 1230-1235: row by row, zeros where a bin has too few images.  A bin is its mean distance and its mean image. *)
Definition row (n : nat) (a : option array) : option (list R) :=
  match a with Some a => if (n =? length (data a))%nat then Some (data a) else None | None => Some (repeat 0 n) end.
Definition images_map (bins : list (option (array * array))) : option array :=
  let? rows := each (fun b => row (height * width * channels) (option_map snd b)) bins in
  Some (mkarray [length bins; height * width; channels]%nat (concat rows)).
Definition distances_map (bins : list (option (array * array))) : option array :=
  let? rows := each (fun b => row (height * width) (option_map fst b)) bins in
  Some (mkarray [length bins; height * width]%nat (concat rows)).

(** calculate_attenuation_parameters, attenuation.py:123-243 *)
Definition fit_pixel (images distances : array) (channel pixel : nat) : list R :=
  let bins := seq 0 (hd 0%nat (shape distances)) in
  let '(a, b, c) := fit (map (fun k => get distances [k; pixel]) bins) (map (fun k => get images [k; pixel; channel]) bins) in [a; b; c].
Definition attenuation_parameters (images distances : array) : array :=
  mkarray [channels; height; width; 3%nat] (concat (map (fun ch => concat (map (fit_pixel images distances ch) (seq 0 (height * width)))) (seq 0 channels))).
(** calculate_correction_gains, 89-119 *)
Definition curve (p : array) (channel y x : nat) (d : R) : R :=
  get p [channel; y; x; 0%nat] * exp (get p [channel; y; x; 1%nat] * d) + get p [channel; y; x; 2%nat].
Definition correction_gains (target : R) (p : array) : array :=
  build [channels; height; width] (fun idx => match idx with [ch; y; x] => curve p ch y x target | _ => 0 end).
(** attenuation_correct, 23-83.  Images and distances must have the height and the width of the camera; numpy would accept a height or width of 1 too. *)
Definition attenuation_correct (img dist p gain : array) : option array :=
  if list_eq_dec Nat.eq_dec (shape dist) [height; width] then
    match shape img with
    | [h; w; k] =>
        if ((h =? height) && (w =? width) && (channels <=? k))%nat%bool then
          Some (build [h; w; k] (fun idx => match idx with
            | [y; x; ch] => if (ch <? channels)%nat then get gain [ch; y; x] / curve p ch y x (get dist [y; x]) * get img [y; x; ch] else get img [y; x; ch]
            | _ => 0 end))
        else None
    | [h; w] =>
        if ((h =? height) && (w =? width))%nat%bool then
          Some (build [h; w] (fun idx => match idx with
            | [y; x] => get gain [0%nat; y; x] / curve p 0 y x (get dist [y; x]) * get img [y; x]
            | _ => 0 end))
        else None
    | _ => None
    end
  else None.

(** RunningMeanStd, numerical.py:21-65 *)
Record runner := mkrunner { r_count : nat; r_mean : array; r_mean2 : array }.
Definition new_runner : runner := mkrunner 0 (squeeze (filled [height; width; channels] 0)) (squeeze (filled [height; width; channels] 0)).
Definition Rltb (x y : R) : bool := if Rlt_dec x y then true else false.
Definition compute (r : runner) (image : array) : option runner :=
  let image := squeeze image in
  if (length (data image) =? length (data (r_mean r)))%nat then
    let image := mkarray (shape image) (map (fun p => if Rltb (95 / 100) (fst p) then snd p else fst p) (combine (data image) (data (r_mean r)))) in
    let? delta := broadcast Rminus image (r_mean r) in
    let? mean := in_place Rplus (r_mean r) (mapped (fun x => x / INR (S (r_count r))) delta) in
    let? rest := broadcast Rminus image mean in
    let? product := broadcast Rmult delta rest in
    let? mean2 := in_place Rplus (r_mean2 r) product in
    Some (mkrunner (S (r_count r)) mean mean2)
  else None.
Definition std_of (count : nat) (m2 : R) : R := let s := sqrt (m2 / INR count) in if Rltb s (1 / 1000000) then 1 / 1000000 else s.

Record trained := mktrained { t_params : array; t_gains : array; t_mean : array; t_std : array }.
Fixpoint run (r : runner) (images : list array) : option runner :=
  match images with [] => Some r | i :: images => let? r := compute r i in run r images end.

(** 736-975.  [images]: every image of the list with its matrix of distances; [target]: the mean of the distances.
    1081-1085: the pixels plotted are range(0, n, n // 100), an error for a step of 0. *)
Definition train (bins : list (option (array * array))) (target : R) (images : list (array * array)) : option trained :=
  let? im := images_map bins in
  let? dm := distances_map bins in
  let p := attenuation_parameters im dm in
  if (height * width / 100 =? 0)%nat then None else
  let g := correction_gains target p in
  let? corrected := each (fun i => attenuation_correct (fst i) (snd i) p g) images in
  let? r := run new_runner corrected in
  if (1 <? r_count r)%nat then
    let? mean := reshape [height; width; channels] (r_mean r) in
    let? std := reshape [height; width; channels] (mapped (std_of (r_count r)) (r_mean2 r)) in
    Some (mktrained p g mean std)
  else None.

(** 355-378 and 1324-1364, pixel_stat.py:16-46; brightness and contrast are percentages. *)
Definition clip01 (x : R) : R := if Rlt_dec x 0 then 0 else if Rlt_dec 1 x then 1 else x.
Definition pixel_stat (img mean std : array) (brightness contrast : R) : option array :=
  let? centred := broadcast Rminus img mean in
  let? ratio := broadcast Rdiv centred std in
  Some (mapped (fun x => clip01 (x * (contrast / 100) + brightness / 100)) ratio).
Definition develop (t : trained) (brightness contrast : R) (img dist : array) : option array :=
  let? corrected := attenuation_correct img dist (t_params t) (t_gains t) in
  pixel_stat corrected (squeeze (t_mean t)) (squeeze (t_std t)) brightness contrast.
End Camera.

(** attenuation.py:152-166: the number of jobs *)
Definition jobs (available required cpu_count : Z) : Z :=
  let n := (available / required * 2)%Z in
  let cpus := (cpu_count - 1)%Z in
  if (n >? cpus)%Z then cpus else if (n <=? 0)%Z then 1%Z else n.
(** 180-193: the pixels whose curves are drawn; [round] is to the nearest, to the even of two (the quotient is exact here). *)
Definition round_half_even (num den : nat) : nat :=
  let q := (num / den)%nat in
  let r := (num mod den)%nat in
  if (2 * r <? den)%nat then q else if (den <? 2 * r)%nat then S q else if Nat.even q then q else S q.
Definition drawn (height width : nat) : list (nat * nat) :=
  flat_map (fun y => map (fun x => (y, x)) (filter (fun x => (x =? round_half_even (y * width) height)%nat) (seq 0 width))) (seq 0 height).
