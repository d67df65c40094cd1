(** C65: the EKF's Jacobian is the derivative of its motion model, and the motion
    model is rigid-body kinematics. *)
From Coq Require Import Reals List Lra Lia Nsatz.
From Coquelicot Require Import Coquelicot.
From Verif Require Import FramesModel FramesSpec FramesProofs EkfJacModel EkfJacProofs.
Open Scope R_scope.

(** Away from gimbal lock, entry (i, j) of [compute_transfer_function_jacobian] is
    the partial derivative of component i of the predicted state with respect to
    component j of the state. *)
Theorem C65_jacobian_is_derivative : forall delta s i j,
  cos (s 4%nat) <> 0 -> (i < 12)%nat -> (j < 12)%nat ->
  is_derive (fun h => motion delta (fun k => if Nat.eqb k j then h else s k) i)
            (s j) (jacobian delta s i j).
Proof. exact jacobian_correct. Qed.
Print Assumptions C65_jacobian_is_derivative.

(** The predicted position is the old position plus the body velocity, rotated by
    the frame conversion used everywhere else in auv_nav, times the time step. *)
Lemma position_step delta s roll pitch yaw :
  s 3%nat = degrees_to_radians roll -> s 4%nat = degrees_to_radians pitch ->
  s 5%nat = degrees_to_radians yaw ->
  (motion delta s 0, motion delta s 1, motion delta s 2) =
  vadd (s 0%nat, s 1%nat, s 2%nat)
       (vscale delta (body_to_inertial roll pitch yaw (s 6%nat, s 7%nat, s 8%nat))).
Proof.
  intros Hr Hp Hy. rewrite b2i_composition, <- Hr, <- Hp, <- Hy.
  destruct (motion_forms delta s) as (M0 & M1 & M2 & _). rewrite M0, M1, M2.
  unfold vadd, vscale, rot_z, rot_y, rot_x; cbn [vx vy vz fst snd].
  unfold vx, vy, vz; cbn [fst snd].
  f_equal; [f_equal|]; ring.
Qed.

Theorem C65_position_step : forall delta s roll pitch yaw,
  s 3%nat = degrees_to_radians roll -> s 4%nat = degrees_to_radians pitch ->
  s 5%nat = degrees_to_radians yaw ->
  (motion delta s 0, motion delta s 1, motion delta s 2) =
  vadd (s 0%nat, s 1%nat, s 2%nat)
       (vscale delta (body_to_inertial roll pitch yaw (s 6%nat, s 7%nat, s 8%nat))).
Proof. exact position_step. Qed.
Print Assumptions C65_position_step.

(** The attitude rows are the exact Euler-angle rates of a body turning at the body
    rates (s 9, s 10, s 11): along any attitude history whose angles change at the
    model's rates, every body-fixed vector u moves with velocity w x u. *)
Definition attitude (roll pitch yaw : R) (u : vec) : vec :=
  rot_z yaw (rot_y pitch (rot_x roll u)).

Lemma euler_rates s (phi theta psi : R -> R) t u :
  cos (s 4%nat) <> 0 ->
  phi t = s 3%nat -> theta t = s 4%nat -> psi t = s 5%nat ->
  is_derive phi t (motion 1 s 3 - s 3%nat) ->
  is_derive theta t (motion 1 s 4 - s 4%nat) ->
  is_derive psi t (motion 1 s 5 - s 5%nat) ->
  let velocity := attitude (s 3%nat) (s 4%nat) (s 5%nat) (cross (s 9%nat, s 10%nat, s 11%nat) u) in
  is_derive (fun z => vx (attitude (phi z) (theta z) (psi z) u)) t (vx velocity) /\
  is_derive (fun z => vy (attitude (phi z) (theta z) (psi z) u)) t (vy velocity) /\
  is_derive (fun z => vz (attitude (phi z) (theta z) (psi z) u)) t (vz velocity).
Proof.
  intros C E3 E4 E5 D3 D4 D5 velocity.
  destruct (motion_forms 1 s) as (_ & _ & _ & M3 & M4 & M5 & _).
  rewrite M3 in D3; rewrite M4 in D4; rewrite M5 in D5.
  assert (X3 : ex_derive phi t) by (eexists; exact D3).
  assert (X4 : ex_derive theta t) by (eexists; exact D4).
  assert (X5 : ex_derive psi t) by (eexists; exact D5).
  pose proof (is_derive_unique _ _ _ D3) as U3.
  pose proof (is_derive_unique _ _ _ D4) as U4.
  pose proof (is_derive_unique _ _ _ D5) as U5.
  pose proof (sin2_cos2 (s 4%nat)) as T. unfold Rsqr in T.
  pose proof (sin2_cos2 (s 3%nat)) as T3. unfold Rsqr in T3.
  unfold velocity, attitude, rot_z, rot_y, rot_x, cross, vx, vy, vz; cbn [fst snd].
  destruct u as [[ux uy] uz]; cbn [fst snd].
  split; [|split].
  all: auto_derive; [repeat split; assumption|].
  all: replace (Derive (fun x => phi x) t) with (Derive phi t) by reflexivity.
  all: replace (Derive (fun x => theta x) t) with (Derive theta t) by reflexivity.
  all: replace (Derive (fun x => psi x) t) with (Derive psi t) by reflexivity.
  all: rewrite ?U3, ?U4, ?U5, ?E3, ?E4, ?E5.
  all: set (cr := cos (s 3%nat)) in *; set (sr := sin (s 3%nat)) in *.
  all: set (cp := cos (s 4%nat)) in *; set (sp := sin (s 4%nat)) in *.
  all: set (cy := cos (s 5%nat)) in *; set (sy := sin (s 5%nat)) in *.
  all: unfold Rdiv; set (k := / cp).
  all: assert (K : cp * k = 1) by (unfold k; field; exact C).
  all: clearbody k cr sr cp sp cy sy; generalize dependent (s 9%nat); intros wx **.
  all: generalize dependent (s 10%nat); intros wy **; generalize dependent (s 11%nat); intros wz **.
  all: clear - T T3 K.
  all: nsatz.
Qed.

Theorem C65_euler_rates : forall s (phi theta psi : R -> R) t u,
  cos (s 4%nat) <> 0 ->
  phi t = s 3%nat -> theta t = s 4%nat -> psi t = s 5%nat ->
  is_derive phi t (motion 1 s 3 - s 3%nat) ->
  is_derive theta t (motion 1 s 4 - s 4%nat) ->
  is_derive psi t (motion 1 s 5 - s 5%nat) ->
  let velocity := attitude (s 3%nat) (s 4%nat) (s 5%nat) (cross (s 9%nat, s 10%nat, s 11%nat) u) in
  is_derive (fun z => vx (attitude (phi z) (theta z) (psi z) u)) t (vx velocity) /\
  is_derive (fun z => vy (attitude (phi z) (theta z) (psi z) u)) t (vy velocity) /\
  is_derive (fun z => vz (attitude (phi z) (theta z) (psi z) u)) t (vz velocity).
Proof. exact euler_rates. Qed.
Print Assumptions C65_euler_rates.

(** Velocities and body rates are predicted unchanged. *)
Theorem C65_rates_constant : forall delta s i, (6 <= i < 12)%nat -> motion delta s i = s i.
Proof. intros delta s. apply motion_forms. Qed.
Print Assumptions C65_rates_constant.

(** Level vehicle, heading 0, 2 m/s ahead, pitching at 1 rad/s: the position moves
    ahead, the pitch grows by the step, and depth reacts to pitch with slope -2. *)
Example C65_example :
  let s := fun k : nat => match k with 6%nat => 2 | 10%nat => 1 | _ => 0 end in
  motion (1/2) s 0 = 1 /\ motion (1/2) s 2 = 0 /\ motion (1/2) s 4 = 1/2 /\
  jacobian (1/2) s 2 4 = -1.
Proof.
  cbn zeta. destruct (motion_forms (1/2) (fun k : nat => match k with 6%nat => 2 | 10%nat => 1 | _ => 0 end))
    as (M0 & _ & M2 & _ & M4 & _). rewrite M0, M2, M4. unfold jacobian.
  rewrite cos_0, sin_0. repeat split; field.
Qed.
