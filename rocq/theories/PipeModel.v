(** Model of the colour correction of one image from the loaded pixels to the 8-bit levels:
    Corrector.process_image, correct_images/corrector.py:1308-1407, for correction_method
    colour_correction.  An image is the list of its values (all pixels, all channels) and every value has
    the parameters of its own pixel and channel.  Real arithmetic; NaN is not modelled.  What happens to the
    normalised values before gamma (debayering, exchange of channels, undistortion) is the argument [rest]:
    these are OpenCV functions of the values (corrector.py:1365-1399). *)
From Coq Require Import Reals List ZArith.
From Verif Require Import AttenModel PixelModel.
Import ListNotations.
Open Scope R_scope.

(** The parameters of one value: attenuation curve and gain, mean and standard deviation of the
    corrected training images (image_attenuation_parameters, correction_gains,
    image_corrected_mean, image_corrected_std), and of the raw ones (image_raw_mean, image_raw_std). *)
Record params := mkparams { p_a : R; p_b : R; p_c : R; p_gain : R; p_mean : R; p_std : R; p_raw_mean : R; p_raw_std : R }.

(** np.clip and pixel_stat.py:41-46 over the reals; brightness and contrast are percentages. *)
Definition clip01 (x : R) : R := if Rlt_dec x 0 then 0 else if Rlt_dec 1 x then 1 else x.
Definition stat (m s brightness contrast x : R) : R := clip01 ((x - m) / s * (contrast / 100) + brightness / 100).

(** corrector.py:1323-1364: with a distance (depth map or altitude) or without. *)
Definition normalise (brightness contrast : R) (p : params) (distance : option R) (x : R) : R :=
  match distance with
  | Some h => stat (p_mean p) (p_std p) brightness contrast (attenuation_correct (p_a p) (p_b p) (p_c p) (p_gain p) h x)
  | None => stat (p_raw_mean p) (p_raw_std p) brightness contrast x
  end.
(** corrector.py:1406-1407 *)
Definition level (x : R) : Z := Int_part (final_level x).

(** The values with their parameters and distances. *)
Definition pixel := (params * option R * R)%type.
Definition process_image (rest : list R -> list R) (brightness contrast : R) (image : list pixel) : list Z :=
  map level (gamma_correct (rest (map (fun q => normalise brightness contrast (fst (fst q)) (snd (fst q)) (snd q)) image))).
