(** Vocabulary of C233 and C234. *)
From Verif Require Import TrackModel PlaceProps.
Open Scope R_scope.

Definition ascending {A} (f : A -> R) (l : list A) : Prop :=
  forall i j a b, (i < j)%nat -> nth_error l i = Some a -> nth_error l j = Some b -> f a < f b.
Definition in_order {A} (f : A -> R) (l : list A) : Prop :=
  forall i j a b, (i < j)%nat -> nth_error l i = Some a -> nth_error l j = Some b -> f a <= f b.

Definition adjacent {A} (l : list A) (a b : A) : Prop := exists i, nth_error l i = Some a /\ nth_error l (S i) = Some b.
(** The orientations in the span of the velocities. *)
Definition spanned (os : list orientation) (v0 vl : velocity) : list orientation :=
  filter (fun o => (negb (rlt (o_t o) (v_t v0)) && negb (rlt (v_t vl) (o_t o)))%bool) os.
(** Logs that can be used: increasing times, enough records; [v0] and [vl] are the first and last velocity. *)
Record readable (os : list orientation) (vs : list velocity) (alts depths : list reading) (v0 vl : velocity) : Prop := mkreadable {
  r_os : ascending o_t os; r_vs : ascending v_t vs; r_alts : ascending fst alts; r_depths : ascending fst depths;
  r_3 : (3 <= length os)%nat; r_2v : (2 <= length vs)%nat; r_2a : (2 <= length alts)%nat; r_2d : (2 <= length depths)%nat;
  r_0 : nth_error vs 0 = Some v0; r_l : nth_error vs (length vs - 1) = Some vl }.

(** Where the vehicle's zero is at time [t]: constant acceleration, constant attitude [w]. *)
Record motion := mkmotion { place0 : vec; speed0 : vec; acceleration : vec; heading : attitude; seafloor : R }.
Definition position (M : motion) (t : R) : vec := vadd (place0 M) (vadd (vscale t (speed0 M)) (vscale (t * t / 2) (acceleration M))).
Definition speed (M : motion) (t : R) : vec := vadd (speed0 M) (vscale t (acceleration M)).

(** The sensors tell the truth about the motion: the attitude, the velocity seen from the vehicle, the depth of the depth sensor, the
    altitude of the DVL. *)
Definition truthful (M : motion) (m : mounting) (os : list orientation) (vs : list velocity) (alts depths : list reading) : Prop :=
  (forall o, In o os -> o_att o = heading M) /\
  (forall v, In v vs -> place (0, 0, 0) (heading M) (v_body v) = speed M (v_t v)) /\
  (forall a, In a alts -> snd a = seafloor M - vz (place (position M (fst a)) (heading M) (m_dvl m))) /\
  (forall d, In d depths -> snd d = vz (place (position M (fst d)) (heading M) (m_depth m))).
