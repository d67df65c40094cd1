(** Model of correct_images/loaders: xviii.py, default.py and the scaling in rosbag.py.  A
    file is a list of bytes.  numba does not check array bounds: a file that is too short and
    a width that is not a multiple of four are [None] here. *)
From Coq Require Import List NArith ZArith QArith.
Import ListNotations.
Open Scope N_scope.

(** xviii.py:35-54 *)
Definition pixel (hi mid lo : N) : N := N.lor (N.lor (N.shiftl (N.land hi 255) 16) (N.shiftl (N.land mid 255) 8)) (N.land lo 255).
Definition decode_chunk (c : list N) : list N :=
  let b i := nth i c 0 in
  [pixel (b 3%nat) (b 2%nat) (b 1%nat); pixel (b 0%nat) (b 7%nat) (b 6%nat); pixel (b 5%nat) (b 4%nat) (b 11%nat); pixel (b 10%nat) (b 9%nat) (b 8%nat)].
Fixpoint decode_groups (n : nat) (data : list N) : option (list N) :=
  match n with
  | O => Some []
  | S n => if (length data <? 12)%nat then None else
      match decode_groups n (skipn 12 data) with Some l => Some (decode_chunk (firstn 12 data) ++ l) | None => None end
  end.
(** The rows one after the other. *)
Definition decode (height width : nat) (data : list N) : option (list N) :=
  if (width mod 4 =? 0)%nat then decode_groups (height * (width / 4)) data else None.

(** numpy's conversion of a non-negative integer to float32: 24 significant bits, to nearest,
    ties to even. *)
Definition round_f32 (v : N) : N :=
  if v <? 2 ^ 24 then v else
    let u := 2 ^ (N.log2 v - 23) in
    let d := v / u in let r := v mod u in
    (if (2 * r <? u) || ((2 * r =? u) && N.even d) then d else d + 1)%bool * u.
(** The value times 2^-src_bit, exact in float32. *)
Definition scaled (v src_bit : N) : Q := inject_Z (Z.of_N v) / inject_Z (2 ^ Z.of_N src_bit).
(** xviii.py:57-78 for one pixel *)
Definition xviii_value (p src_bit : N) : Q := scaled (round_f32 p) src_bit.
(** default.py:44-61; [read_bit] is 8, 16, 32 or 64. *)
Definition default_value (read_bit src_bit v : N) : Q :=
  if src_bit <? read_bit then scaled (round_f32 (N.shiftr v (read_bit - src_bit))) src_bit else scaled (round_f32 v) src_bit.
(** rosbag.py: [image.astype(float) * 2 ** (-src_bit)] (exact below 2^53). *)
Definition rosbag_value (src_bit v : N) : Q := scaled v src_bit.
