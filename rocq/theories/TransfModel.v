(** Model of auv_nav/tools/transformations.py: rotations as Euler angles, matrices and
    quaternions, over the reals (no rounding). A homogeneous matrix whose last row is that of the
    identity is the pair of its 3x3 block and its last column; where that column is 0 only the
    block is kept. *)
From Coq Require Import Ascii String Reals List Bool Arith.
From Verif Require Import FramesModel EulerModel QuatModel.
Import ListNotations.
Open Scope R_scope.

(** [M[i, j]] and [M[i, j] = v] for indices below 3. *)
Definition get (m : mat) (i j : nat) : R := match i, j with
  | 0, 0 => r00 m | 0, 1 => r01 m | 0, _ => r02 m
  | 1, 0 => r10 m | 1, 1 => r11 m | 1, _ => r12 m
  | _, 0 => r20 m | _, 1 => r21 m | _, _ => r22 m end%nat.
Definition set_at (i j : nat) (v : R) (m : mat) : mat :=
  let e a b := if Nat.eqb a i && Nat.eqb b j then v else get m a b in
  mkmat (e 0%nat 0%nat) (e 0%nat 1%nat) (e 0%nat 2%nat) (e 1%nat 0%nat) (e 1%nat 1%nat) (e 1%nat 2%nat) (e 2%nat 0%nat) (e 2%nat 1%nat) (e 2%nat 2%nat).
(** The same for a quaternion, x y z w. *)
Definition qget (q : quat) (i : nat) : R := match i with 0 => qx q | 1 => qy q | 2 => qz q | _ => qw q end%nat.
Definition qset (i : nat) (v : R) (q : quat) : quat :=
  let e a := if Nat.eqb a i then v else qget q a in mkquat (e 0%nat) (e 1%nat) (e 2%nat) (e 3%nat).

(** ** transformations.py:1569-1600: the tables *)
(** inner axis, parity, repetition, frame *)
Definition code : Type := (nat * nat * nat * nat)%type.
Definition code_eqb (a b : code) : bool :=
  let '(a1, a2, a3, a4) := a in let '(b1, b2, b3, b4) := b in
  Nat.eqb a1 b1 && Nat.eqb a2 b2 && Nat.eqb a3 b3 && Nat.eqb a4 b4.
Definition next_axis : list nat := [1; 2; 0; 1]%nat.
Definition axes2tuple : list (string * code) :=
  [("sxyz", (0, 0, 0, 0)); ("sxyx", (0, 0, 1, 0)); ("sxzy", (0, 1, 0, 0)); ("sxzx", (0, 1, 1, 0));
   ("syzx", (1, 0, 0, 0)); ("syzy", (1, 0, 1, 0)); ("syxz", (1, 1, 0, 0)); ("syxy", (1, 1, 1, 0));
   ("szxy", (2, 0, 0, 0)); ("szxz", (2, 0, 1, 0)); ("szyx", (2, 1, 0, 0)); ("szyz", (2, 1, 1, 0));
   ("rzyx", (0, 0, 0, 1)); ("rxyx", (0, 0, 1, 1)); ("ryzx", (0, 1, 0, 1)); ("rxzx", (0, 1, 1, 1));
   ("rxzy", (1, 0, 0, 1)); ("ryzy", (1, 0, 1, 1)); ("rzxy", (1, 1, 0, 1)); ("ryxy", (1, 1, 1, 1));
   ("ryxz", (2, 0, 0, 1)); ("rzxz", (2, 0, 1, 1)); ("rxyz", (2, 1, 0, 1)); ("rzyz", (2, 1, 1, 1))]%string%nat.

(** The argument [axes]: a string or a tuple. *)
Inductive axes := Named (s : string) | Coded (t : code).
Fixpoint find_axes (l : list (string * code)) (s : string) : option code :=
  match l with [] => None | (k, t) :: r => if String.eqb k s then Some t else find_axes r s end.
(** transformations.py:1004-1008: what is no key of [_AXES2TUPLE] is looked up in [_TUPLE2AXES],
    which raises a KeyError (None) unless it is one of the tuples. *)
Definition decode (a : axes) : option code := match a with
  | Named s => find_axes axes2tuple s
  | Coded t => if existsb (fun kt => code_eqb (snd kt) t) axes2tuple then Some t else None end.
(** [axes.lower()], ASCII only. *)
Definition lower_ascii (c : ascii) : ascii :=
  let n := nat_of_ascii c in if Nat.leb 65 n && Nat.leb n 90 then ascii_of_nat (n + 32) else c.
Fixpoint lower (s : string) : string := match s with
  | EmptyString => EmptyString | String c r => String (lower_ascii c) (lower r) end.
(** transformations.py:1067-1071 and 1128-1132: the same after [lower]. *)
Definition decode_lower (a : axes) : option code := match a with Named s => decode (Named (lower s)) | _ => decode a end.

Definition axis_j (i parity : nat) : nat := nth (i + parity) next_axis 0%nat.
Definition axis_k (i parity : nat) : nat := nth (i + 1 - parity) next_axis 0%nat.
(** [if flag:] *)
Definition flag (n : nat) : bool := negb (Nat.eqb n 0).

(** transformations.py:1004-1045 [euler_matrix]; all nine entries are set. *)
Definition euler_matrix (ax : axes) (ai aj ak : R) : option mat :=
  match decode ax with
  | None => None
  | Some (i, parity, repetition, frame) =>
    let j := axis_j i parity in let k := axis_k i parity in
    let '(ai, ak) := if flag frame then (ak, ai) else (ai, ak) in
    let '(ai, aj, ak) := if flag parity then (- ai, - aj, - ak) else (ai, aj, ak) in
    let si := sin ai in let sj := sin aj in let sk := sin ak in
    let ci := cos ai in let cj := cos aj in let ck := cos ak in
    let cc := ci * ck in let cs := ci * sk in
    let sc := si * ck in let ss := si * sk in
    Some (if flag repetition
          then set_at k k (cj * cc - ss) (set_at k j (cj * sc + cs) (set_at k i (- sj * ck)
              (set_at j k (- cj * cs - sc) (set_at j j (- cj * ss + cc) (set_at j i (sj * sk)
              (set_at i k (sj * ci) (set_at i j (sj * si) (set_at i i cj identity))))))))
          else set_at k k (cj * ci) (set_at k j (cj * si) (set_at k i (- sj)
              (set_at j k (sj * cs - sc) (set_at j j (sj * ss + cc) (set_at j i (cj * sk)
              (set_at i k (sj * cc + ss) (set_at i j (sj * sc - cs) (set_at i i (cj * ck) identity)))))))))
  end.

(** transformations.py:1067-1103 [euler_from_matrix]. *)
Definition euler_from_matrix (m : mat) (ax : axes) : option (R * R * R) :=
  match decode_lower ax with
  | None => None
  | Some (i, parity, repetition, frame) =>
    let j := axis_j i parity in let k := axis_k i parity in
    let M a b := get m a b in
    let '(ax, ay, az) :=
      if flag repetition then
        let sy := sqrt (M i j * M i j + M i k * M i k) in
        if Rlt_dec eps sy
        then (atan2 (M i j) (M i k), atan2 sy (M i i), atan2 (M j i) (- M k i))
        else (atan2 (- M j k) (M j j), atan2 sy (M i i), 0)
      else
        let cy := sqrt (M i i * M i i + M j i * M j i) in
        if Rlt_dec eps cy
        then (atan2 (M k j) (M k k), atan2 (- M k i) cy, atan2 (M j i) (M i i))
        else (atan2 (- M j k) (M j j), atan2 (- M k i) cy, 0) in
    let '(ax, ay, az) := if flag parity then (- ax, - ay, - az) else (ax, ay, az) in
    Some (if flag frame then (az, ay, ax) else (ax, ay, az))
  end.

(** transformations.py:1106-1114 [euler_from_quaternion]. *)
Definition euler_from_quaternion (q : quat) (ax : axes) : option (R * R * R) :=
  euler_from_matrix (quaternion_matrix q) ax.

(** transformations.py:1128-1171 [quaternion_from_euler]; all four entries are set. *)
Definition quaternion_from_euler (ax : axes) (ai aj ak : R) : option quat :=
  match decode_lower ax with
  | None => None
  | Some (i, parity, repetition, frame) =>
    let j := axis_j i parity in let k := axis_k i parity in
    let '(ai, ak) := if flag frame then (ak, ai) else (ai, ak) in
    let aj := if flag parity then - aj else aj in
    let ai := ai / 2 in let aj := aj / 2 in let ak := ak / 2 in
    let ci := cos ai in let si := sin ai in
    let cj := cos aj in let sj := sin aj in
    let ck := cos ak in let sk := sin ak in
    let cc := ci * ck in let cs := ci * sk in
    let sc := si * ck in let ss := si * sk in
    let q0 := mkquat 0 0 0 0 in
    let q := if flag repetition
      then qset 3 (cj * (cc - ss)) (qset k (sj * (cs - sc)) (qset j (sj * (cc + ss)) (qset i (cj * (cs + sc)) q0)))
      else qset 3 (cj * cc + sj * ss) (qset k (cj * cs - sj * sc) (qset j (cj * ss + sj * cc) (qset i (cj * sc - sj * cs) q0))) in
    Some (if flag parity then qset j (qget q j * - 1) q else q)
  end.

(** transformations.py:1231-1260 [quaternion_from_matrix] of a matrix with last row and column
    those of the identity: [M[3, 3]] is 1 and counts in the trace. *)
Definition quaternion_from_matrix (m : mat) : quat :=
  let M a b := get m a b in
  let t := r00 m + r11 m + r22 m + 1 in
  let '(t, q) :=
    if Rlt_dec 1 t
    then (t, mkquat (r21 m - r12 m) (r02 m - r20 m) (r10 m - r01 m) t)
    else
      let '(i, j, k) := if Rlt_dec (r00 m) (r11 m) then (1, 2, 0)%nat else (0, 1, 2)%nat in
      let '(i, j, k) := if Rlt_dec (M i i) (r22 m) then (2, 0, 1)%nat else (i, j, k) in
      let t := M i i - (M j j + M k k) + 1 in
      (t, qset 3 (M k j - M j k) (qset k (M k i + M i k) (qset j (M i j + M j i) (qset i t (mkquat 0 0 0 0))))) in
  let f := / 2 / sqrt (t * 1) in
  mkquat (qx q * f) (qy q * f) (qz q * f) (qw q * f).

(** transformations.py:1263-1281 [quaternion_multiply]. *)
Definition quaternion_multiply (q1 q0 : quat) : quat :=
  let '(mkquat x0 y0 z0 w0) := q0 in let '(mkquat x1 y1 z1 w1) := q1 in
  mkquat (x1 * w0 + y1 * z0 - z1 * y0 + w1 * x0)
         (- x1 * z0 + y1 * w0 + z1 * x0 + w1 * y0)
         (x1 * y0 - y1 * x0 + z1 * w0 + w1 * z0)
         (- x1 * x0 - y1 * y0 - z1 * z0 + w1 * w0).
(** transformations.py:1284-1296. *)
Definition quaternion_conjugate (q : quat) : quat := mkquat (- qx q) (- qy q) (- qz q) (qw q).
(** [numpy.dot] of two quaternions. *)
Definition qdot (a b : quat) : R := qx a * qx b + qy a * qy b + qz a * qz b + qw a * qw b.
Definition qscale (k : R) (q : quat) : quat := mkquat (qx q * k) (qy q * k) (qz q * k) (qw q * k).
Definition qadd (a b : quat) : quat := mkquat (qx a + qx b) (qy a + qy b) (qz a + qz b) (qw a + qw b).
(** transformations.py:1299-1308. *)
Definition quaternion_inverse (q : quat) : quat :=
  let c := quaternion_conjugate q in let n := qdot q q in
  mkquat (qx c / n) (qy c / n) (qz c / n) (qw c / n).
(** transformations.py:1174-1188 [quaternion_about_axis]; the fourth entry is 0 when the length is
    taken. *)
Definition quaternion_about_axis (angle : R) (axis : vec) : quat :=
  let q := mkquat (vx axis) (vy axis) (vz axis) 0 in
  let qlen := sqrt (qdot q q) in
  let q := if Rlt_dec eps qlen then qscale (sin (angle / 2) / qlen) q else q in
  qset 3 (cos (angle / 2)) q.
(** transformations.py:1668-1672 [unit_vector] of a quaternion. *)
Definition qunit (q : quat) : quat := let n := sqrt (qdot q q) in mkquat (qx q / n) (qy q / n) (qz q / n) (qw q / n).
(** transformations.py:1311-1349 [quaternion_slerp]; [spin] is an integer or any other number. *)
Definition quaternion_slerp (quat0 quat1 : quat) (fraction spin : R) (shortestpath : bool) : quat :=
  let q0 := qunit quat0 in let q1 := qunit quat1 in
  if Req_EM_T fraction 0 then q0 else
  if Req_EM_T fraction 1 then q1 else
  let d := qdot q0 q1 in
  if Rlt_dec (Rabs (Rabs d - 1)) eps then q0 else
  let '(d, q1) := if shortestpath then (if Rlt_dec d 0 then (- d, qscale (- 1) q1) else (d, q1)) else (d, q1) in
  let angle := acos d + spin * PI in
  if Rlt_dec (Rabs angle) eps then q0 else
  let isin := 1 / sin angle in
  qadd (qscale (sin ((1 - fraction) * angle) * isin) q0) (qscale (sin (fraction * angle) * isin) q1).
(** transformations.py:1368-1384 [random_quaternion] of three given numbers. *)
Definition random_quaternion (u0 u1 u2 : R) : quat :=
  let r1 := sqrt (1 - u0) in let r2 := sqrt u0 in
  let pi2 := PI * 2 in let t1 := pi2 * u1 in let t2 := pi2 * u2 in
  mkquat (sin t1 * r1) (cos t1 * r1) (sin t2 * r2) (cos t2 * r2).

(** ** Transformations about a line, a plane or a point *)
Record affine := mkaffine { lin : mat; col : vec }.
Definition vdot (a b : vec) : R := vx a * vx b + vy a * vy b + vz a * vz b.
Definition vscale (k : R) (a : vec) : vec := (k * vx a, k * vy a, k * vz a).
Definition vsub (a b : vec) : vec := (vx a - vx b, vy a - vy b, vz a - vz b).
(** [numpy.dot(R, point)] *)
Definition mdot (m : mat) (v : vec) : vec :=
  (r00 m * vx v + r01 m * vy v + r02 m * vz v,
   r10 m * vx v + r11 m * vy v + r12 m * vz v,
   r20 m * vx v + r21 m * vy v + r22 m * vz v).
(** [numpy.outer] *)
Definition outer (a b : vec) : mat :=
  mkmat (vx a * vx b) (vx a * vy b) (vx a * vz b)
        (vy a * vx b) (vy a * vy b) (vy a * vz b)
        (vz a * vx b) (vz a * vy b) (vz a * vz b).
Definition lift2 (f : R -> R -> R) (a b : mat) : mat :=
  mkmat (f (r00 a) (r00 b)) (f (r01 a) (r01 b)) (f (r02 a) (r02 b))
        (f (r10 a) (r10 b)) (f (r11 a) (r11 b)) (f (r12 a) (r12 b))
        (f (r20 a) (r20 b)) (f (r21 a) (r21 b)) (f (r22 a) (r22 b)).
Definition madd := lift2 Rplus.
Definition msub := lift2 Rminus.
Definition mscale (k : R) (a : mat) : mat := lift2 (fun x _ => x * k) a a.
(** transformations.py:1668-1672 [unit_vector] *)
Definition unit_vector (v : vec) : vec := let n := sqrt (vdot v v) in (vx v / n, vy v / n, vz v / n).

(** transformations.py:195-205 and 208-217. *)
Definition translation_matrix (direction : vec) : affine := mkaffine identity direction.
Definition translation_from_matrix (a : affine) : vec := col a.

(** transformations.py:240-244 [reflection_matrix]. *)
Definition reflection_matrix (point normal : vec) : affine :=
  let normal := unit_vector normal in
  mkaffine (msub identity (mscale 2 (outer normal normal))) (vscale (2 * vdot point normal) normal).

(** transformations.py:296-321 [rotation_matrix]. *)
Definition rotation_matrix (angle : R) (direction : vec) (point : option vec) : affine :=
  let sina := sin angle in let cosa := cos angle in
  let direction := unit_vector direction in
  let R0 := mkmat cosa 0 0 0 cosa 0 0 0 cosa in
  let R0 := madd R0 (mscale (1 - cosa) (outer direction direction)) in
  let d := vscale sina direction in
  let R0 := madd R0 (mkmat 0 (- vz d) (vy d) (vz d) 0 (- vx d) (- vy d) (vx d) 0) in
  mkaffine R0 (match point with None => (0, 0, 0) | Some p => vsub p (mdot R0 p) end).

(** transformations.py:352-361: the angle of [rotation_from_matrix] for the direction that the
    eigenvectors gave. *)
Definition rotation_angle (m : mat) (direction : vec) : R :=
  let cosa := (r00 m + r11 m + r22 m - 1) / 2 in
  let sina := if Rlt_dec (1 / 100000000) (Rabs (vz direction))
    then (r10 m + (cosa - 1) * vx direction * vy direction) / vz direction
    else if Rlt_dec (1 / 100000000) (Rabs (vy direction))
    then (r02 m + (cosa - 1) * vx direction * vz direction) / vy direction
    else (r21 m + (cosa - 1) * vy direction * vz direction) / vx direction in
  atan2 sina cosa.

(** transformations.py:381-403 [scale_matrix]. *)
Definition scale_matrix (factor : R) (origin direction : option vec) : affine :=
  match direction with
  | None => mkaffine (mkmat factor 0 0 0 factor 0 0 0 factor)
      (match origin with None => (0, 0, 0) | Some o => (vx o * (1 - factor), vy o * (1 - factor), vz o * (1 - factor)) end)
  | Some d =>
    let d := unit_vector d in
    let factor := 1 - factor in
    mkaffine (msub identity (mscale factor (outer d d)))
      (match origin with None => (0, 0, 0) | Some o => vscale (factor * vdot o d) d end)
  end.

(** transformations.py:494-504 [projection_matrix] without a perspective point; [unit_vector] is
    only applied to the normal. *)
Definition projection_matrix (point normal : vec) (direction : option vec) : affine :=
  let normal := unit_vector normal in
  match direction with
  | Some d => let scale := vdot d normal in
      mkaffine (msub identity (mscale (/ scale) (outer d normal))) (vscale (vdot point normal / scale) d)
  | None => mkaffine (msub identity (outer normal normal)) (vscale (vdot point normal) normal)
  end.

(** transformations.py:479-492 [projection_matrix] with a perspective point: the last row is not
    that of the identity, so it is kept too. *)
Record homog := mkhomog { h_lin : mat; h_col : vec; h_row : vec; h_last : R }.
Definition perspective_matrix (point normal perspective : vec) (pseudo : bool) : homog :=
  let normal := unit_vector normal in
  let s := vdot (vsub perspective point) normal in
  let m := msub (mkmat s 0 0 0 s 0 0 0 s) (outer perspective normal) in
  let m := if pseudo then msub m (outer normal normal) else m in
  let c := if pseudo
    then vscale (vdot point normal) (vx perspective + vx normal, vy perspective + vy normal, vz perspective + vz normal)
    else vscale (vdot point normal) perspective in
  mkhomog m c (- vx normal, - vy normal, - vz normal) (vdot perspective normal).

(** transformations.py:1718-1731 [concatenate_matrices], for matrices with the last row of the
    identity. *)
Definition mmul (a b : mat) : mat :=
  let e i j := get a i 0%nat * get b 0%nat j + get a i 1%nat * get b 1%nat j + get a i 2%nat * get b 2%nat j in
  mkmat (e 0%nat 0%nat) (e 0%nat 1%nat) (e 0%nat 2%nat) (e 1%nat 0%nat) (e 1%nat 1%nat) (e 1%nat 2%nat) (e 2%nat 0%nat) (e 2%nat 1%nat) (e 2%nat 2%nat).
Definition vadd (a b : vec) : vec := (vx a + vx b, vy a + vy b, vz a + vz b).
Definition acompose (a b : affine) : affine := mkaffine (mmul (lin a) (lin b)) (vadd (mdot (lin a) (col b)) (col a)).
Definition concatenate_matrices (l : list affine) : affine := fold_left acompose l (mkaffine identity (0, 0, 0)).

(** transformations.py:1743-1747 [is_same_transform], numpy.allclose with its default tolerances;
    with numbers that are not 0 in the last corner. *)
Definition close (a b : R) : bool := if Rle_dec (Rabs (a - b)) (1 / 100000000 + 1 / 100000 * Rabs b) then true else false.
Definition numbers (h : homog) : list R :=
  let m := h_lin h in let c := h_col h in let r := h_row h in
  [r00 m; r01 m; r02 m; vx c; r10 m; r11 m; r12 m; vy c; r20 m; r21 m; r22 m; vz c; vx r; vy r; vz r; h_last h].
Definition is_same_transform (a b : homog) : bool :=
  forallb (fun xy => close (fst xy / h_last a) (snd xy / h_last b)) (combine (numbers a) (numbers b)).
