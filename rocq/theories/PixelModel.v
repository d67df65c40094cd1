(** Model of correct_images/corrections/pixel_stat.py, gamma.py, manual_balance.py and the
    8-bit conversion of Corrector.process_image, pixel by pixel.  Exact arithmetic; NaN
    pixels are not modelled. *)
From Coq Require Import Reals Qround.
From Verif Require Import PyBase.

Open Scope Q_scope.
Definition clip (lo hi x : Q) : Q := if Qltb x lo then lo else if Qltb hi x then hi else x.
(** pixel_stat.py:41-46 before and after np.clip. *)
Definition stretched (m s target_mean target_std x : Q) : Q := (x - m) / s * (target_std / 100) + target_mean / 100.
Definition pixel_stat (m s target_mean target_std x : Q) : Q := clip 0 1 (stretched m s target_mean target_std x).
(** corrector.py:1406-1407: [*= 255], [clip(0, 255)], [astype(np.uint8)] (truncation). *)
Definition to_8bit (x : Q) : Z := Qfloor (clip 0 255 (x * 255)).
(** manual_balance.py:43-58, one pixel: the gain matrix times the pixel minus the offset. *)
Definition dot (u v : Q * Q * Q) : Q := let '(u1, u2, u3) := u in let '(v1, v2, v3) := v in u1 * v1 + u2 * v2 + u3 * v3.
Definition minus (u v : Q * Q * Q) : Q * Q * Q := let '(u1, u2, u3) := u in let '(v1, v2, v3) := v in (u1 - v1, u2 - v2, u3 - v3).
Definition balance_rgb (g1 g2 g3 offset x : Q * Q * Q) : Q * Q * Q := let d := minus x offset in (dot g1 d, dot g2 d, dot g3 d).
Definition balance_grey (gain offset x : Q) : Q := (x - offset) * gain.
(** Corrector.process_image, corrector.py:1365-1390: what the type of the camera makes of the
    channels before manual balance and after pixel_stat.  A pixel is the array's three
    channels; a grey image has two dimensions and [image_rgb[:, :, [0, 1, 2]]] raises
    ([None]).  The debayered image is taken as given. *)
Inductive image_type := Grayscale | RGB | BGR | Bayer.
Definition swap (x : Q * Q * Q) : Q * Q * Q := let '(a, b, c) := x in (c, b, a).
Definition manual_channels (t : image_type) (x : Q * Q * Q) : option (Q * Q * Q) :=
  match t with Bayer => Some x | BGR => Some x | RGB => Some (swap x) | Grayscale => None end.
Definition colour_channels (t : image_type) (x : Q * Q * Q) : option (Q * Q * Q) :=
  match t with Bayer => Some x | RGB => Some (swap x) | BGR | Grayscale => Some x end.
Definition manual (t : image_type) (g1 g2 g3 offset x : Q * Q * Q) : option (Q * Q * Q) :=
  match manual_channels t x with Some y => Some (balance_rgb g1 g2 g3 offset y) | None => None end.

Open Scope R_scope.
(** np.power for a non-negative base and a positive exponent. *)
Definition power (x y : R) : R := if Req_EM_T x 0 then 0 else Rpower x y.
Definition dark_gamma (x : R) : R := 12.92 * x.
Definition bright_gamma (x : R) : R := 1.055 * power x (1 / 1.5) - 0.055.
(** gamma_correct, gamma.py:27-31: one formula for the whole image. *)
Definition is_dark (x : R) : bool := if Rlt_dec x 0.0031308 then true else false.
Definition gamma_correct (image : list R) : list R :=
  if forallb is_dark image then map dark_gamma image else map bright_gamma image.
(** The clipped value of the final image (before truncation to an integer). *)
Definition final_level (x : R) : R := Rmax 0 (Rmin 255 (x * 255)).
