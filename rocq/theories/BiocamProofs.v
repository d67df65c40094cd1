(** Facts about the BioCam timestamp correction. *)
From Verif Require Import PyBase BiocamModel.
Open Scope Q_scope.

(** ** Specification *)
(** One record and its corrected timestamps, for clock models [f] (camera 1) and [g]
    (cameras 2 and 3): each estimate belongs to the record it was computed from and is
    never later than the computer's own time. *)
Inductive corrected (f g : Q -> Q) : frame -> stamped -> Prop :=
| corrected_stereo : forall p1 c1 p2 c2, f c1 <= p1 -> g c2 <= p2 ->
    corrected f g (StereoFrame p1 c1 p2 c2) (StampStereo (f c1) (f c1) (g c2))
| corrected_laser : forall p3 c3, g c3 <= p3 -> corrected f g (LaserFrame p3 c3) (StampLaser (g c3) (g c3))
| corrected_other : corrected f g OtherFrame Untouched.
(** The bound is attained. *)
Definition tight1 (f : Q -> Q) (x : frame) : Prop :=
  match x with StereoFrame p1 c1 _ _ => f c1 == p1 | _ => False end.
Definition tight2 (g : Q -> Q) (x : frame) : Prop :=
  match x with StereoFrame _ _ p2 c2 => g c2 == p2 | LaserFrame p3 c3 => g c3 == p3 | OtherFrame => False end.
Definition affine (f : Q -> Q) (m : Q) : Prop := forall x y, f x - f y == (m + 1) * (x - y).

(** ** Proofs *)
Lemma np_min_spec : forall l v, np_min l = Some v -> In v l /\ forall x, In x l -> v <= x.
Proof.
  induction l as [|x l IH]; intros v H; [discriminate|]. cbn in H.
  destruct (np_min l) as [y|] eqn:E.
  - destruct (IH y eq_refl) as [I M]. injection H as <-. destruct (Qltb y x) eqn:C.
    + apply Qltb_lt in C. split; [now right|]. intros z [<-|Z]; [lra|auto].
    + apply Qltb_ge in C. split; [now left|]. intros z [<-|Z]; [lra|]. specialize (M z Z). lra.
  - injection H as <-. split; [now left|]. intros z [<-|Z]; [lra|].
    destruct l as [|a l]; [destruct Z|]. cbn in E. destruct (np_min l); discriminate.
Qed.
Lemma np_min_some : forall x l, exists v, np_min (x :: l) = Some v.
Proof. intros. cbn. destruct (np_min l); eauto. Qed.

Section Facts.
  Variable linregress : list Q -> list Q -> Q * Q.
  Notation line_fit := (line_fit linregress).

  Lemma line_fit_spec : forall xs ys m c, line_fit xs ys = Some (m, c) ->
    (forall x y, In (x, y) (combine xs ys) -> predict m c x <= y + x) /\
    (exists x y, In (x, y) (combine xs ys) /\ predict m c x == y + x) /\ m = fst (linregress xs ys).
  Proof.
    intros xs ys m c H. unfold BiocamModel.line_fit in H. destruct (linregress xs ys) as [m0 c0].
    destruct (np_min _) as [d|] eqn:E; [|discriminate]. injection H as <- <-.
    destruct (np_min_spec _ _ E) as [I M]. split; [|split; [|reflexivity]].
    - intros x y XY. unfold predict. specialize (M (y - m0 * x - c0)).
      assert (d <= y - m0 * x - c0) as L by (apply M; apply in_map_iff; now exists (x, y)).
      setoid_replace ((m0 + 1) * x + (c0 + d)) with (m0 * x + x + c0 + d) by ring. lra.
    - apply in_map_iff in I as [[x y] [D XY]]. cbn [fst snd] in D. exists x, y. split; [exact XY|]. rewrite <- D. unfold predict. ring.
  Qed.

  Lemma predict_affine : forall m c, affine (predict m c) m.
  Proof. intros m c x y. unfold predict. ring. Qed.

  Lemma combine_app : forall (X Y : Type) (a b : list X) (c d : list Y), length a = length c ->
    combine (a ++ b) (c ++ d) = (combine a c ++ combine b d)%list.
  Proof. induction a as [|x a IH]; intros b [|y c] d H; try discriminate; [reflexivity|]. cbn. now rewrite IH by (cbn in H; lia). Qed.
  Lemma combine1 : forall l, combine (cam1_times l) (cam1_offsets l) =
    flat_map (fun f => match f with StereoFrame p1 c1 _ _ => [(c1, p1 - c1)] | _ => [] end) l.
  Proof. induction l as [|[] l IH]; cbn; [reflexivity|f_equal; exact IH|exact IH|exact IH]. Qed.
  Lemma combine2 : forall l, combine (cam2_times l) (cam2_offsets l) =
    flat_map (fun f => match f with StereoFrame _ _ p2 c2 => [(c2, p2 - c2)] | _ => [] end) l.
  Proof. induction l as [|[] l IH]; cbn; [reflexivity|f_equal; exact IH|exact IH|exact IH]. Qed.
  Lemma combine3 : forall l, combine (cam3_times l) (cam3_offsets l) =
    flat_map (fun f => match f with LaserFrame p3 c3 => [(c3, p3 - c3)] | _ => [] end) l.
  Proof. induction l as [|[] l IH]; cbn; [reflexivity|exact IH|f_equal; exact IH|exact IH]. Qed.
  Lemma length2 : forall l, length (cam2_times l) = length (cam2_offsets l).
  Proof. induction l as [|[] l IH]; cbn; auto. Qed.
  Lemma length12 : forall l, length (cam1_times l) = length (cam2_times l).
  Proof. induction l as [|[] l IH]; cbn; auto. Qed.

  (** Writing back puts each prediction on its own record. *)
  Lemma write_back_spec : forall f g rest done, 
    write_back (map f (cam1_times (done ++ rest))) (map g (cam2_times (done ++ rest))) (map g (cam3_times (done ++ rest)))
      (length (cam1_times done)) (length (cam3_times done)) rest =
    Some (map (fun x => match x with
                        | StereoFrame _ c1 _ c2 => StampStereo (f c1) (f c1) (g c2)
                        | LaserFrame _ c3 => StampLaser (g c3) (g c3)
                        | OtherFrame => Untouched end) rest).
  Proof.
    intros f g rest. induction rest as [|x rest IH]; intros done; [reflexivity|].
    specialize (IH (done ++ [x])%list). rewrite <- app_assoc in IH. cbn [app] in IH.
    unfold cam1_times, cam2_times, cam3_times in *. rewrite !flat_map_app in *.
    destruct x as [p1 c1 p2 c2|p3 c3|]; cbn [flat_map app write_back map] in *.
    - rewrite !app_length in IH. cbn [length] in IH. rewrite Nat.add_1_r, Nat.add_0_r in IH. 
      rewrite !map_app. cbn [map app].
      rewrite !map_app in IH. cbn [map app] in IH.
      rewrite nth_error_app2 by (rewrite map_length; lia). rewrite map_length, Nat.sub_diag. cbn [nth_error].
      pose proof (length12 done) as L. unfold cam1_times, cam2_times in L. 
      rewrite nth_error_app2 by (rewrite map_length, L; lia). rewrite map_length, L, Nat.sub_diag. cbn [nth_error].
      rewrite L in IH. rewrite IH. reflexivity.
    - rewrite !app_length in IH. cbn [length] in IH. rewrite Nat.add_1_r, Nat.add_0_r in IH.
      rewrite !map_app in *. cbn [map app] in *.
      rewrite (nth_error_app2 (map g (flat_map _ done)) _ (n := length _)) by (rewrite map_length; lia).
      rewrite map_length, Nat.sub_diag. cbn [nth_error]. rewrite IH. reflexivity.
    - rewrite !app_length in IH. cbn [length] in IH. rewrite !Nat.add_0_r in IH. rewrite IH. reflexivity.
  Qed.

  Lemma correct_spec : forall l r, correct_timestamps linregress l = Some r ->
    exists m1 c1 m2 c2,
      m1 = fst (linregress (cam1_times l) (cam1_offsets l)) /\
      m2 = fst (linregress (cam2_times l ++ cam3_times l) (cam2_offsets l ++ cam3_offsets l)) /\
      Forall2 (corrected (predict m1 c1) (predict m2 c2)) l r /\
      (exists x, In x l /\ tight1 (predict m1 c1) x) /\ (exists x, In x l /\ tight2 (predict m2 c2) x).
  Proof.
    intros l r H. unfold correct_timestamps in H.
    destruct (line_fit (cam1_times l) _) as [[m1 c1]|] eqn:E1; [|discriminate].
    destruct (line_fit (cam2_times l ++ _) _) as [[m2 c2]|] eqn:E2; [|discriminate].
    destruct (nth_error (cam1_times l) 1); [|discriminate]. destruct (nth_error (cam2_times l) 1); [|discriminate].
    pose proof (write_back_spec (predict m1 c1) (predict m2 c2) l []) as W.
    change (length (cam1_times [])) with O in W. change (length (cam3_times [])) with O in W. cbn [app] in W.
    rewrite W in H. injection H as <-.
    apply line_fit_spec in E1 as (B1 & (x1 & y1 & I1 & T1) & M1). apply line_fit_spec in E2 as (B2 & (x2 & y2 & I2 & T2) & M2).
    rewrite combine1 in B1, I1. rewrite combine_app, combine2, combine3 in B2, I2 by apply length2.
    exists m1, c1, m2, c2. split; [exact M1|]. split; [exact M2|]. split; [|split].
    - assert (forall k, incl k l -> Forall2 (corrected (predict m1 c1) (predict m2 c2)) k
        (map (fun x => match x with
                        | StereoFrame _ a _ b => StampStereo (predict m1 c1 a) (predict m1 c1 a) (predict m2 c2 b)
                        | LaserFrame _ b => StampLaser (predict m2 c2 b) (predict m2 c2 b)
                        | OtherFrame => Untouched end) k)) as K.
      { induction k as [|x k IH]; intro IN; [constructor|]. cbn [map]. constructor; [|apply IH; intros z Z; apply IN; now right].
        assert (In x l) as X by (apply IN; now left).
        destruct x as [p1 a p2 b|p3 b|]; constructor.
        - assert (predict m1 c1 a <= p1 - a + a) as L
            by (apply B1; apply in_flat_map; exists (StereoFrame p1 a p2 b); split; [exact X|now left]). lra.
        - assert (predict m2 c2 b <= p2 - b + b) as L
            by (apply B2; apply in_app_iff; left; apply in_flat_map; exists (StereoFrame p1 a p2 b); split; [exact X|now left]). lra.
        - assert (predict m2 c2 b <= p3 - b + b) as L
            by (apply B2; apply in_app_iff; right; apply in_flat_map; exists (LaserFrame p3 b); split; [exact X|now left]). lra. }
      apply K. apply incl_refl.
    - apply in_flat_map in I1 as (x & X & I). exists x. split; [exact X|]. destruct x; try contradiction;
        destruct I as [I|[]]; injection I as <- <-; cbn; rewrite T1; ring.
    - apply in_app_iff in I2 as [I2|I2]; apply in_flat_map in I2 as (x & X & I); exists x; (split; [exact X|]);
        destruct x; try contradiction; destruct I as [I|[]]; injection I as <- <-; cbn; rewrite T2; ring.
  Qed.

  (** It succeeds exactly when there are two stereo pairs. *)
  Lemma correct_succeeds : forall l, (2 <= length (cam1_times l))%nat -> exists r, correct_timestamps linregress l = Some r.
  Proof.
    intros l H. unfold correct_timestamps.
    assert (forall xs ys, combine xs ys <> [] -> exists m c, line_fit xs ys = Some (m, c)) as LF.
    { intros xs ys NE. unfold BiocamModel.line_fit. destruct (linregress xs ys) as [m c].
      destruct (combine xs ys) as [|p q]; [now contradiction NE|]. cbn [map].
      destruct (np_min_some (snd p - m * fst p - c) (map (fun p => snd p - m * fst p - c) q)) as [v ->]. eauto. }
    assert (length (cam1_offsets l) = length (cam1_times l)) as LO.
    { clear. induction l as [|[] l IH]; cbn; auto. }
    pose proof (length12 l) as L12. pose proof (length2 l) as L2.
    destruct (LF (cam1_times l) (cam1_offsets l)) as (m1 & c1 & ->).
    { intro E. apply (f_equal (@length _)) in E. rewrite combine_length in E. cbn in E. lia. }
    destruct (LF (cam2_times l ++ cam3_times l)%list (cam2_offsets l ++ cam3_offsets l)%list) as (m2 & c2 & ->).
    { intro E. apply (f_equal (@length _)) in E. rewrite combine_length, !app_length in E. cbn in E. lia. }
    destruct (nth_error (cam1_times l) 1) eqn:N1; [|apply nth_error_None in N1; lia].
    destruct (nth_error (cam2_times l) 1) eqn:N2; [|apply nth_error_None in N2; lia].
    pose proof (write_back_spec (predict m1 c1) (predict m2 c2) l []) as W. 
    eexists. exact W.
  Qed.
  Lemma correct_needs_two : forall l, (length (cam1_times l) < 2)%nat -> correct_timestamps linregress l = None.
  Proof.
    intros l H. unfold correct_timestamps. destruct (line_fit (cam1_times l) _) as [[m1 c1]|]; [|reflexivity].
    destruct (line_fit (cam2_times l ++ _) _) as [[m2 c2]|]; [|reflexivity].
    assert (nth_error (cam1_times l) 1 = None) as -> by (apply nth_error_None; lia). reflexivity.
  Qed.
End Facts.
