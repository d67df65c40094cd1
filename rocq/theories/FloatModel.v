(** The arithmetic Python does with [float], bit for bit, for the expressions
    where rounding decides what the pipeline does.

    The other models compute with exact rationals or reals. Here a Python float
    is Flocq's IEEE 754 binary64 number (signed zeros, infinities and one NaN
    included) and every operation rounds to nearest, ties to even, as CPython
    and numpy do on every supported platform.

    - src/auv_nav/sensors.py:22-38, 631-639
    - src/oplab/filename_to_date.py:118-130
    - src/auv_nav/parsers/parse_phins.py:29-35 (the same expression in
      parse_gaps.py:127, parse_usbl_dump.py:80, parse_ae2000.py:123,
      parse_seaxerocks_images.py:142, parse_acfr_images.py:47, ...)
    - src/auv_nav/parsers/koyo20rov.py:108-130, 160-187
    - src/auv_nav/tools/time_conversions.py:17-31
    - src/auv_nav/process.py:1340-1349
    - src/auv_nav/tools/interpolate.py:20-27
    - src/auv_nav/localisation/dead_reckoning.py:11-27, process.py:932-950
    - src/auv_cal/laser_calibrator.py:662-712

    Simplification: a decimal literal or text is read as the binary64 number
    nearest to it (what CPython's float() guarantees), written here as the
    rounded quotient of two integers that are floats themselves. *)
From Coq Require Import ZArith Reals List Bool.
From Flocq Require Import Core IEEE754.BinarySingleNaN.
Import ListNotations.
Open Scope Z_scope.

Definition b64 := binary_float 53 1024.

#[global] Instance prec53 : Prec_gt_0 53 := eq_refl.
#[global] Instance emax1024 : Prec_lt_emax 53 1024 := eq_refl.

Definition fadd (x y : b64) : b64 := Bplus mode_NE x y.
Definition fsub (x y : b64) : b64 := Bminus mode_NE x y.
Definition fmul (x y : b64) : b64 := Bmult mode_NE x y.
Definition fdiv (x y : b64) : b64 := Bdiv mode_NE x y.

(** float(z) of an integer: the nearest binary64. CPython raises OverflowError
    from 2^1024 on; the integers here are far smaller. *)
Definition of_int (z : Z) : b64 := binary_normalize 53 1024 eq_refl eq_refl mode_NE z 0 false.

Definition feq (x y : b64) : bool := Beqb x y.
Definition flt (x y : b64) : bool := Bltb x y.
Definition fle (x y : b64) : bool := Bleb x y.

(** x / y on Python floats: ZeroDivisionError on a zero divisor. *)
Definition pdiv (x y : b64) : option b64 := if feq y (of_int 0) then None else Some (fdiv x y).

(** math.floor and int of a float: exact; ValueError / OverflowError on NaN and
    infinities. *)
Definition fl_floor (x : b64) : option Z :=
  match x with
  | B754_zero _ => Some 0
  | B754_finite s m e _ =>
      let c := cond_Zopp s (Zpos m) in
      Some (if 0 <=? e then c * 2 ^ e else c / 2 ^ (- e))
  | _ => None
  end.

Definition fl_int (x : b64) : option Z :=
  match x with
  | B754_zero _ => Some 0
  | B754_finite s m e _ =>
      let c := cond_Zopp s (Zpos m) in
      Some (if 0 <=? e then c * 2 ^ e else Z.quot c (2 ^ (- e)))
  | _ => None
  end.

(** The literals of the expressions below. *)
Definition lit_1em9 : b64 := fdiv (of_int 1) (of_int 1000000000).
Definition lit_1em6 : b64 := fdiv (of_int 1) (of_int 1000000).

(** sensors.py:36-38: [secs + nsecs * 1e-9]. *)
Definition ros_stamp (secs nsecs : Z) : b64 := fadd (of_int secs) (fmul (of_int nsecs) lit_1em9).

(** filename_to_date.py:129-130: [stamp + microsecond * 1e-6]. *)
Definition name_stamp (secs us : Z) : b64 := fadd (of_int secs) (fmul (of_int us) lit_1em6).

(** parse_phins.py:35: [epoch_time + msec / 1000 + self.offset], epoch_time the
    whole seconds as a float. *)
Definition ms_stamp (secs ms : Z) (offset : b64) : b64 :=
  fadd (fadd (of_int secs) (fdiv (of_int ms) (of_int 1000))) offset.

(** koyo20rov.py:116, 173: [int(float(text) * 1000)] where text is the number of
    milliseconds with three decimals, k thousandths of a millisecond in all. *)
Definition koyo_us (k : Z) : option Z := fl_int (fmul (fdiv (of_int k) (of_int 1000)) (of_int 1000)).

(** process.py:1349: [epoch_timestamp -= 0.000001]. *)
Definition ekf_start (t : b64) : b64 := fsub t lit_1em6.

(** sensors.py:636-639, after the rotation of the angles. *)
Definition yaw_wrap (yaw : b64) : b64 :=
  let yaw := if flt (of_int 360) yaw then fsub yaw (of_int 360) else yaw in
  if flt yaw (of_int 0) then fadd yaw (of_int 360) else yaw.

(** interpolate.py:20-27. None: ZeroDivisionError. *)
Definition finterpolate (x_query x_lower x_upper y_lower y_upper : b64) : option b64 :=
  if feq x_upper x_lower then Some y_lower
  else match pdiv (fsub y_upper y_lower) (fsub x_upper x_lower) with
       | None => None
       | Some slope => Some (fadd (fmul slope (fsub x_query x_lower)) y_lower)
       end.

(** dead_reckoning.py:21-26, one coordinate:
    [((t - t_prev) * (v_prev + v)) / 2 + pos_prev]. *)
Definition dr_step (t t_prev v v_prev pos_prev : b64) : b64 :=
  fadd (fdiv (fmul (fsub t t_prev) (fadd v_prev v)) (of_int 2)) pos_prev.

(** process.py:932-950: the positions of all fixes from 0. *)
Fixpoint dr_from (t v pos : b64) (fixes : list (b64 * b64)) : list b64 :=
  match fixes with
  | [] => []
  | (t', v') :: more => let pos' := dr_step t' t v' v pos in pos' :: dr_from t' v' pos' more
  end.
Definition dr_track (fixes : list (b64 * b64)) : list b64 :=
  match fixes with
  | [] => []
  | (t, v) :: more => of_int 0 :: dr_from t v (of_int 0) more
  end.

(** laser_calibrator.py:685-702: the layer of one point. [Outside]: not between
    min_z and max_z, skipped. *)
Inductive layer := Outside | Layer (i : Z) | Index_error | Float_error.
Definition layer_of (min_z max_z : b64) (bins : Z) (z : b64) : layer :=
  match pdiv (fsub max_z min_z) (of_int bins) with
  | None => Float_error
  | Some size =>
      if fle min_z z && flt z max_z then
        match pdiv (fsub z min_z) size with
        | None => Float_error
        | Some q => match fl_floor q with
                    | None => Float_error
                    | Some i => if i <? bins then Layer i else Index_error
                    end
        end
      else Outside
  end.

(** time_conversions.py:17-31: [datetime(...).timestamp()] of an aware datetime is
    timedelta.total_seconds(): the whole number of microseconds over 10**6, an
    int / int division that CPython rounds correctly. *)
Definition utc_stamp (secs us : Z) : b64 := fdiv (of_int (secs * 1000000 + us)) (of_int 1000000).
