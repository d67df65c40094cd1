(** Vocabulary for reading the interpolation theorems; independent of the
    model's search loops and formulas. *)
From Verif Require Import PyBase InterpModel.
Open Scope Q_scope.

(** [x] lies between [a] and [b], in whichever order they come. *)
Definition between (a b x : Q) : Prop := (a <= x <= b) \/ (b <= x <= a).

(** The point (t, v) is on the straight line through (ta, va) and (tb, vb)
    (division-free form). *)
Definition on_line (ta va tb vb t v : Q) : Prop :=
  v * (tb - ta) == va * (tb - t) + vb * (t - ta).

(** Equal headings modulo a whole number of turns. *)
Definition same_heading (a b : Q) : Prop := exists k : Z, a == b + inject_Z (360 * k).

(** [y] is on the way from heading [y1] (at ta) to heading [y2] (at tb), at time
    t, along an arc [d] of at most half a turn, at constant rate. *)
Definition on_short_arc (ta y1 tb y2 t y : Q) : Prop :=
  exists d, Qabs d <= 180 /\ same_heading (y1 + d) y2 /\
            exists v, same_heading y v /\ on_line ta y1 tb (y1 + d) t v.

(** Time-ordered lists. *)
Definition increasing {A} (f : A -> Q) (l : list A) : Prop :=
  forall i j a b, (i < j)%nat -> nth_error l i = Some a -> nth_error l j = Some b -> f a < f b.
Definition nondecreasing {A} (f : A -> Q) (l : list A) : Prop :=
  forall i j a b, (i < j)%nat -> nth_error l i = Some a -> nth_error l j = Some b -> f a <= f b.

(** [a] and [b] are neighbours in [l]. *)
Definition adjacent {A} (l : list A) (a b : A) : Prop :=
  exists k, nth_error l k = Some a /\ nth_error l (S k) = Some b.

Definition is_last {A} (l : list A) (a : A) : Prop := exists l', l = l' ++ [a].
Definition is_first {A} (l : list A) (a : A) : Prop := exists l', l = a :: l'.

(** Pose of a sensor mounted at [so] on a vehicle whose reference point (at [oo])
    moves on the segment from [a] to [b]: attitude and velocity are on the line
    between the two samples, and so is the position once the mounting offset,
    rotated by the sensor's own attitude, is put back. *)
Section SensorPose.
  Variable b2i : Q -> Q -> Q -> Q -> Q -> Q -> Q * Q * Q.
  Variable m2ll : Q -> Q -> Q -> Q -> Q * Q.
  Variable oo so : Q * Q * Q.
  Variable lat lon : Q.

  Definition off (p : sample) : Q * Q * Q :=
    b2i (s_roll p) (s_pitch p) (s_yaw p)
        (fst (fst oo) - fst (fst so)) (snd (fst oo) - snd (fst so)) (snd oo - snd so).

  Definition pose_on_segment (a b p : sample) : Prop :=
    (forall g, In g [s_roll; s_pitch; s_vx; s_vy; s_vz] ->
       on_line (s_t a) (g a) (s_t b) (g b) (s_t p) (g p)) /\
    on_line (s_t a) (s_north a) (s_t b) (s_north b) (s_t p) (s_north p + fst (fst (off p))) /\
    on_line (s_t a) (s_east a) (s_t b) (s_east b) (s_t p) (s_east p + snd (fst (off p))) /\
    on_line (s_t a) (s_depth a) (s_t b) (s_depth b) (s_t p) (s_depth p + snd (off p)) /\
    on_line (s_t a) (s_alt a) (s_t b) (s_alt b) (s_t p) (s_alt p - snd (off p)) /\
    (s_lat p, s_lon p) = m2ll lat lon (s_east p) (s_north p).

End SensorPose.

(** Heading, standard deviations (known where both samples know them) and covariance
    (entry by entry, wherever the later sample has one) of a pose between two samples. *)
Definition known (l : list (option Q)) (i : nat) (x : Q) : Prop := nth_error l i = Some (Some x).
Definition uncertainty_on_segment (a b p : sample) : Prop :=
  (0 <= s_yaw a <= 360 -> 0 <= s_yaw b <= 360 ->
     0 <= s_yaw p <= 360 /\ on_short_arc (s_t a) (s_yaw a) (s_t b) (s_yaw b) (s_t p) (s_yaw p)) /\
  (forall i x y, known (s_stds a) i x -> known (s_stds b) i y ->
     exists z, known (s_stds p) i z /\ on_line (s_t a) x (s_t b) y (s_t p) z) /\
  (forall i z, known (s_stds p) i z -> exists x y, known (s_stds a) i x /\ known (s_stds b) i y) /\
  (s_cov p = None <-> s_cov b = None) /\
  (forall cb cp, s_cov b = Some cb -> s_cov p = Some cp ->
     exists ca, s_cov a = Some ca /\
       forall i x y, nth_error ca i = Some x -> nth_error cb i = Some y ->
         exists z, nth_error cp i = Some z /\ on_line (s_t a) x (s_t b) y (s_t p) z).
