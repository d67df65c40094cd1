(** Model of correct_images/corrections/attenuation.py and tools/curve_fitting.py for one
    pixel and one channel (every operation there is element by element).  Real arithmetic;
    float32 rounding is not modelled. *)
From Coq Require Import Reals List.
Import ListNotations.
Open Scope R_scope.

(** exp_curve, curve_fitting.py:18-37; also inlined in attenuation.py. *)
Definition exp_curve (a b c x : R) : R := a * exp (b * x) + c.
(** calculate_correction_gains, attenuation.py:89-126. *)
Definition gain (a b c target : R) : R := a * exp (b * target) + c.
(** attenuation_correct, 23-83. *)
Definition attenuation_correct (a b c g altitude x : R) : R := g / (a * exp (b * altitude) + c) * x.

(** A float: finite, infinite or NaN. *)
Inductive float := Fin (r : R) | PInf | MInf | NaN.
Definition is_finite (f : float) : bool := match f with Fin _ => true | _ => false end.
Definition Rgtb (x y : R) : bool := if Rlt_dec y x then true else false.
Definition positive (f : float) : bool := match f with Fin r => Rgtb r 0 | PInf => true | _ => false end.

(** The selection of samples in curve_fitting, 88-131: non-finite entries are removed from
    each list, then the two are zipped and pairs with a non-positive member dropped. *)
Definition samples (alts ints : list float) : list (float * float) :=
  filter (fun p => (positive (fst p) && positive (snd p))%bool)
    (combine (filter is_finite alts) (filter is_finite ints)).

(** The starting point of the fit, 153-181, for finite positive samples [alt_0], [int_0] and
    [alt_1], [int_1] and [low] the smallest intensity.  The division by [alt_0 - alt_1] is
    numpy's: x/0 is an infinity with the sign of x, 0/0 is NaN; exp(-inf) is 0.
    [b = +inf] and NaN are replaced, as is [a <= 0]. *)
Definition initial (low int_0 int_1 alt_0 alt_1 : R) : float * float * float :=
  let c := low * / 2 in
  let l := ln ((int_0 - c) / (int_1 - c)) in
  let replaced := (Fin (101 / 100), Fin (- 1 / 100), Fin c) in
  if Req_EM_T (alt_0 - alt_1) 0 then
    if Rlt_dec l 0 then (PInf, MInf, Fin c) else replaced
  else
    let b := l / (alt_0 - alt_1) in
    let a := (int_1 - c) / exp (b * alt_1) in
    if Rle_dec a 0 then replaced else if Rlt_dec 0 b then replaced else (Fin a, Fin b, Fin c).
