(** C51: downsizing a camera model. *)
From Coq Require Import Qround Qfield.
From Verif Require Import PyBase CameraModel.
Open Scope Q_scope.

(** ** Specification *)
Definition same (p q : Q * Q) : Prop := fst p == fst q /\ snd p == snd q.
Definition scaled (r : Q) (p : Q * Q) : Q * Q := (r * fst p, r * snd p).
(** The perspective image of a point: proportional to P applied to its homogeneous coordinates. *)
Definition row_at (r : row4) (p : Q * Q * Q) : Q := fst (fst (fst r)) * fst (fst p) + snd (fst (fst r)) * snd (fst p) + snd (fst r) * snd p + snd r * 1.
Definition depth (m : mono) (p : Q * Q * Q) : Q := row_at (snd (P m)) p.
Definition image_of (m : mono) (p : Q * Q * Q) (q : Q * Q) : Prop :=
  fst q * depth m p == row_at (fst (fst (P m))) p /\ snd q * depth m p == row_at (snd (fst (P m))) p.
Definition inside (m : mono) (q : Q * Q) : Prop := 0 < fst q < inject_Z (image_width m) /\ 0 < snd q < inject_Z (image_height m).
(** The pinhole projection with given intrinsics. *)
Definition pinhole (k : Q * Q * Q * Q) (p : Q * Q * Q) : Q * Q := let '(fx, cx, fy, cy) := k in let '(x, y, z) := p in (fx * (x / z) + cx, fy * (y / z) + cy).

Lemma times_row : forall r p, times_point r p == row_at r p.
Proof. intros [[[a b] c] d] [[x y] z]. unfold times_point, row_at. cbn [fst snd]. ring. Qed.
(** What the projection is: the perspective image, if that is strictly inside the image. *)
Theorem C51_project : forall m p, ~ depth m p == 0 ->
  match project m p with
  | Some q => image_of m p q /\ inside m q
  | None => forall q, image_of m p q -> ~ inside m q
  end.
Proof.
  intros m p D. unfold project, return_valid. assert (image_of m p (pixel m p)) as I.
  { unfold image_of, depth, pixel in *. destruct (P m) as [[r0 r1] r2]. cbn [fst snd] in *. rewrite !times_row. split; field; exact D. }
  destruct (pixel m p) as [u v] eqn:E. destruct (Qltb 0 u && Qltb u (inject_Z (image_width m)) && Qltb 0 v && Qltb v (inject_Z (image_height m)))%bool eqn:B.
  - split; [exact I|]. rewrite !andb_true_iff, !Qltb_lt in B. unfold inside. cbn [fst snd]. tauto.
  - intros [a b] [A1 A2] [N1 N2]. destruct I as [I1 I2]. cbn [fst snd] in *. assert (a == u) as EA by (apply (Qmult_inj_r _ _ _ D); now rewrite A1, I1).
    assert (b == v) as EB by (apply (Qmult_inj_r _ _ _ D); now rewrite A2, I2). rewrite EA in N1. rewrite EB in N2. apply Bool.not_true_iff_false in B. apply B. rewrite !andb_true_iff, !Qltb_lt. tauto.
Qed.
Print Assumptions C51_project.

Lemma times_times : forall r row p, times_point (times4 r row) p == r * times_point row p.
Proof. intros r [[[a b] c] d] [[x y] z]. unfold times_point, times4. ring. Qed.
Lemma downsize_P : forall r m p0 p1 p2, P m = (p0, p1, p2) -> P (downsize r m) = (times4 r p0, times4 r p1, times4 r p2).
Proof. intros r m p0 p1 p2 E. unfold downsize. rewrite E. destruct (K m) as [[k0 k1] k2]. reflexivity. Qed.
(** ** C51 *)
(** The image size is the scaled one, rounded down. *)
Theorem C51_size : forall r m, let m' := downsize r m in
  inject_Z (image_width m') <= inject_Z (image_width m) * r < inject_Z (image_width m') + 1 /\
  inject_Z (image_height m') <= inject_Z (image_height m) * r < inject_Z (image_height m') + 1.
Proof.
  intros r m. unfold downsize. destruct (K m) as [[k0 k1] k2], (P m) as [[p0 p1] p2]. cbn [image_width image_height].
  assert (forall x, inject_Z (Qfloor x) <= x < inject_Z (Qfloor x) + 1) as F.
  { intros x. split; [apply Qfloor_le|]. change 1 with (inject_Z 1). rewrite <- inject_Z_plus. apply Qlt_floor. }
  split; apply F.
Qed.
Print Assumptions C51_size.
(** The intrinsics are scaled, and with them the pinhole projection of every point. *)
Theorem C51_intrinsics : forall r m p, ~ snd p == 0 -> same (pinhole (intrinsics (downsize r m)) p) (scaled r (pinhole (intrinsics m) p)).
Proof.
  intros r m [[x y] z] Z. cbn [snd] in Z. unfold downsize, intrinsics. destruct (K m) as [[[[k00 k01] k02] [[k10 k11] k12]] [[k20 k21] k22]], (P m) as [[p0 p1] p2].
  cbn [K times3]. unfold same, scaled, pinhole. cbn [fst snd]. split; field; exact Z.
Qed.
Print Assumptions C51_intrinsics.
(** But the projection by project_point is the unscaled one, for every ratio. *)
Theorem C151_projection_unchanged : forall r m p, ~ r == 0 -> ~ depth m p == 0 -> same (pixel (downsize r m) p) (pixel m p).
Proof.
  intros r m p R D. unfold depth in D. rewrite <- times_row in D. unfold pixel. destruct (P m) as [[p0 p1] p2] eqn:E. rewrite (downsize_P r m _ _ _ E). cbn [snd] in D. unfold same. cbn [fst snd].
  rewrite !times_times. split; field; auto.
Qed.
Print Assumptions C151_projection_unchanged.
Definition camera : mono := mkmono ((1000, 0, 500), (0, 1000, 400), (0, 0, 1)) ((1000, 0, 500, 0), (0, 1000, 400, 0), (0, 0, 1, 0)) 1000 800.
Theorem C151_projection_refuted : exists m r p q, 0 < r /\ 0 < depth m p /\ project m p = Some q /\ project (downsize r m) p = None /\
  return_valid (downsize r m) (scaled r q) <> None /\ ~ same (pixel (downsize r m) p) (scaled r q).
Proof.
  exists camera, (1 # 2), (1 # 5, 1 # 5, 1), (pixel camera (1 # 5, 1 # 5, 1)). split; [reflexivity|]. split; [reflexivity|]. split; [reflexivity|]. split; [reflexivity|].
  split; [vm_compute; discriminate|]. intros [C _]. vm_compute in C. discriminate.
Qed.
Print Assumptions C151_projection_refuted.
(** In general it is the scaled projection only for the ratio 1 or a point in the image
    corner. *)
Theorem C151_scaled : forall r m p, ~ r == 0 -> ~ depth m p == 0 -> (same (pixel (downsize r m) p) (scaled r (pixel m p)) <-> r == 1 \/ same (pixel m p) (0, 0)).
Proof.
  intros r m p R D. destruct (C151_projection_unchanged r m p R D) as [A B]. unfold same, scaled. cbn [fst snd]. rewrite A, B. destruct (pixel m p) as [u v]. cbn [fst snd]. split.
  - intros [U V]. destruct (Qeq_dec r 1) as [E|E]; [now left|right]. assert (~ 1 - r == 0) as N by (intro; apply E; lra).
    assert ((1 - r) * u == 0) as U' by lra. assert ((1 - r) * v == 0) as V' by lra. apply Qmult_integral in U'. apply Qmult_integral in V'. intuition.
  - intros [E|[U V]]; [rewrite E; split; ring|]. rewrite U, V. split; ring.
Qed.
Print Assumptions C151_scaled.
(** A stereo camera read from a stereo file ignores the ratio. *)
Theorem C151_stereo_refuted : exists lr r, make_stereo (Some lr) None None (Some r) = Some lr /\ ~ r == 1 /\ image_width (fst lr) <> image_width (downsize r (fst lr)).
Proof. exists (camera, camera), (1 # 2). split; [reflexivity|]. split; [discriminate|]. vm_compute. discriminate. Qed.
Print Assumptions C151_stereo_refuted.
Example C51_ex : image_width (downsize (1 # 3) camera) = 333%Z /\ image_height (downsize (1 # 3) camera) = 266%Z /\
  same (pinhole (intrinsics (downsize (1 # 2) camera)) (1, 1, 4)) (375, 325) /\ same (pinhole (intrinsics camera) (1, 1, 4)) (750, 650).
Proof. repeat split. Qed.
