(** Properties C221, C222: which solution a camera calibration reports. *)
From Verif Require Import PyBase CalibModel.
From Coq Require Import Reals Lra.
Open Scope R_scope.

(** * Independent description *)
(** Standard deviation of the errors, without square roots. *)
Definition deviation (es : list R) (s : R) : Prop :=
  0 <= s /\ exists m, m * INR (length es) = fold_right Rplus 0 es /\
    s * s * INR (length es) = fold_right Rplus 0 (map (fun x => (x - m) * (x - m)) es).
(** The members whose own error is kept by a test. *)
Inductive stays {A} (ok : R -> Prop) : list A -> list R -> list A -> Prop :=
| stays_nil : stays ok [] [] []
| stays_in v e vs es k : ok e -> stays ok vs es k -> stays ok (v :: vs) (e :: es) (v :: k)
| stays_out v e vs es k : ~ ok e -> stays ok vs es k -> stays ok (v :: vs) (e :: es) k.
Definition least_of {A} (err : A -> R) (l : list A) (k : nat) (a : A) : Prop :=
  nth_error l k = Some a /\ forall j b, nth_error l j = Some b -> err a <= err b /\ ((j < k)%nat -> err a < err b).

Lemma deviation_std : forall es, deviation es (std es).
Proof.
  intros es. unfold deviation, std. set (q := map (fun x => (x - mean es) * (x - mean es)) es).
  assert (Q0 : 0 <= mean q).
  { unfold mean. assert (Z : 0 <= sum q).
    { unfold q, sum. clear q. generalize (mean es). intros m. induction es as [|x es IH]; cbn [map fold_right]; [lra|]. pose proof (Rle_0_sqr (x - m)) as Q. unfold Rsqr in Q. lra. }
    destruct (Nat.eq_dec (length q) 0) as [E|E]; [rewrite E; cbn [INR]; unfold Rdiv; rewrite Rinv_0; lra|].
    apply Rmult_le_pos; [exact Z|]. apply Rlt_le, Rinv_0_lt_compat, lt_0_INR. lia. }
  split; [apply sqrt_pos|]. exists (mean es).
  assert (M : forall l, mean l * INR (length l) = sum l).
  { intros l. unfold mean. destruct l as [|x l]; [cbn; ring|]. field. apply not_0_INR. discriminate. }
  split; [apply M|]. rewrite sqrt_sqrt by exact Q0. fold q. replace (length es) with (length q) by (unfold q; apply map_length). apply M.
Qed.
Lemma stays_filter : forall {A} (ok : R -> Prop) (b : R -> bool) (vs : list A) es, (forall e, b e = true <-> ok e) -> length es = length vs ->
  stays ok vs es (map fst (filter (fun ce => b (snd ce)) (combine vs es))).
Proof.
  intros A ok b. induction vs as [|v vs IH]; intros [|e es] H L; try discriminate; cbn [combine filter map fst snd].
  - constructor.
  - destruct (b e) eqn:E; cbn [map fst].
    + constructor; [now apply H|]. apply IH; [exact H|]. now injection L.
    + constructor; [intros K; apply H in K; congruence|]. apply IH; [exact H|]. now injection L.
Qed.
Lemma pick_spec : forall {C} (l : list (option (calibration C))), match pick l with
  | None => forall c, ~ In (Some c) l
  | Some c => exists k, nth_error l k = Some (Some c) /\ forall j c', nth_error l j = Some (Some c') ->
      avg_reprojection_error c <= avg_reprojection_error c' /\ ((j < k)%nat -> avg_reprojection_error c < avg_reprojection_error c')
  end.
Proof.
  intros C l. unfold pick. induction l as [|x l IH] using rev_ind; cbn [fold_left]; [intros c []|]. rewrite fold_left_app. cbn [fold_left].
  destruct (fold_left better l None) as [b|].
  - destruct IH as (k & K & M). assert (KL : (k < length l)%nat) by (apply nth_error_Some; congruence). destruct x as [c|]; cbn [better].
    + destruct (Rlt_dec (avg_reprojection_error c) (avg_reprojection_error b)) as [D|D].
      * exists (length l). split; [rewrite nth_error_app2 by lia; now rewrite Nat.sub_diag|]. intros j c' J. destruct (Nat.lt_ge_cases j (length l)) as [JL|JL].
        -- rewrite nth_error_app1 in J by exact JL. destruct (M j c' J) as [P _]. split; intros; lra.
        -- rewrite nth_error_app2 in J by exact JL. destruct (j - length l)%nat eqn:E; [|destruct n; discriminate]. injection J as <-. split; [lra|lia].
      * exists k. split; [now rewrite nth_error_app1|]. intros j c' J. destruct (Nat.lt_ge_cases j (length l)) as [JL|JL].
        -- rewrite nth_error_app1 in J by exact JL. now apply M.
        -- rewrite nth_error_app2 in J by exact JL. destruct (j - length l)%nat eqn:E; [|destruct n; discriminate]. injection J as <-. split; [lra|lia].
    + exists k. split; [now rewrite nth_error_app1|]. intros j c' J. destruct (Nat.lt_ge_cases j (length l)) as [JL|JL].
      * rewrite nth_error_app1 in J by exact JL. now apply M.
      * rewrite nth_error_app2 in J by exact JL. destruct (j - length l)%nat as [|[|n]]; discriminate.
  - destruct x as [c|]; cbn [better].
    + exists (length l). split; [rewrite nth_error_app2 by lia; now rewrite Nat.sub_diag|]. intros j c' J. destruct (Nat.lt_ge_cases j (length l)) as [JL|JL].
      * rewrite nth_error_app1 in J by exact JL. exfalso. now apply (IH c'), (nth_error_In _ j).
      * rewrite nth_error_app2 in J by exact JL. destruct (j - length l)%nat eqn:E; [|destruct n; discriminate]. injection J as <-. split; [lra|lia].
    + intros c I. apply in_app_or in I. destruct I as [I|[I|[]]]; [now apply (IH c)|discriminate].
Qed.
Lemma put_slot : forall {A} (a : A) (done : list A) n, put (length done) (Some a) (map Some done ++ repeat None (S n)) = map Some (done ++ [a]) ++ repeat None n.
Proof. intros A a. induction done as [|x done IH]; intros n; [reflexivity|]. cbn [length map app put]. now rewrite IH. Qed.

(** ** A list of view sets and their entries *)
Lemma pick_entries : forall {A C} (entry : A -> calibration C) (sets : list A) n, sets <> [] ->
  exists k a, pick (map Some (map entry sets) ++ repeat None n) = Some (entry a) /\ least_of (fun x => avg_reprojection_error (entry x)) sets k a.
Proof.
  intros A C entry sets n N. pose proof (pick_spec (map Some (map entry sets) ++ repeat None n)) as P.
  assert (Nth : forall j c, nth_error (map Some (map entry sets) ++ repeat None n) j = Some (Some c) -> exists a, nth_error sets j = Some a /\ c = entry a).
  { intros j c J. destruct (Nat.lt_ge_cases j (length sets)) as [JL|JL].
    - rewrite nth_error_app1 in J by (now rewrite !map_length). rewrite !nth_error_map in J. destruct (nth_error sets j) as [a|]; [|discriminate]. injection J as <-. now exists a.
    - rewrite nth_error_app2 in J by (now rewrite !map_length). apply nth_error_In in J. apply repeat_spec in J. discriminate. }
  assert (Back : forall j a, nth_error sets j = Some a -> nth_error (map Some (map entry sets) ++ repeat None n) j = Some (Some (entry a))).
  { intros j a J. rewrite nth_error_app1 by (rewrite !map_length; apply nth_error_Some; congruence). now rewrite !nth_error_map, J. }
  destruct (pick (map Some (map entry sets) ++ repeat None n)) as [c|].
  - destruct P as (k & K & M). destruct (Nth k c K) as (a & Ka & ->). exists k, a. split; [reflexivity|]. split; [exact Ka|]. intros j b J. apply (M j (entry b)). now apply Back.
  - destruct sets as [|a sets]; [contradiction|]. exfalso. apply (P (entry a)). now left.
Qed.

(** * Monocular *)
Section Mono.
  Context {view C : Type}.
  Variable solve : list view -> C * R * list R.
  (** The largest error of a view that is accepted: rms plus twice the deviation of the errors, but at least a quarter pixel. *)
  Definition limit (vs : list view) (t : R) : Prop :=
    exists s, deviation (snd (solve vs)) s /\ snd (fst (solve vs)) + 2 * s <= t /\ 25 / 100 <= t /\ (t = snd (fst (solve vs)) + 2 * s \/ t = 25 / 100).
  (** The sets of views solved for, one after the other; at most n more after this one. *)
  Inductive rounds : nat -> list view -> list (list view) -> Prop :=
  | rounds_fine n vs t : limit vs t -> (forall e, In e (snd (solve vs)) -> e <= t) -> rounds n vs [vs]
  | rounds_stop vs : rounds 0 vs [vs]
  | rounds_again n vs t vs' sets : limit vs t -> (exists e, In e (snd (solve vs)) /\ t < e) -> stays (fun e => e <= t) vs (snd (solve vs)) vs' ->
      rounds n vs' sets -> rounds (S n) vs (vs :: sets).

  Hypothesis one_each : forall vs, length (snd (solve vs)) = length vs.
  Definition entry (vs : list view) : calibration C := mkcalibration (solution solve vs) (rms solve vs) (length vs).
  Lemma limit_acceptable : forall vs, limit vs (acceptable solve vs).
  Proof.
    intros vs. exists (std (errors solve vs)). split; [apply deviation_std|]. unfold acceptable. fold (rms solve vs). pose proof (Rmax_l (rms solve vs + 2 * std (errors solve vs)) (1 / 4)). pose proof (Rmax_r (rms solve vs + 2 * std (errors solve vs)) (1 / 4)).
    split; [assumption|]. split; [lra|]. unfold Rmax. destruct (Rle_dec (rms solve vs + 2 * std (errors solve vs)) (1 / 4)); [right; lra|now left].
  Qed.
  Lemma exceeds_iff : forall t e, exceeds t e = true <-> t < e.
  Proof. intros t e. unfold exceeds. destruct (Rlt_dec t e); split; intros; try congruence; contradiction. Qed.
  Lemma stays_within : forall vs, stays (fun e => e <= acceptable solve vs) vs (snd (solve vs)) (within solve vs).
  Proof.
    intros vs. unfold within. apply (stays_filter _ (fun e => negb (exceeds (acceptable solve vs) e))); [|apply one_each].
    intros e. unfold exceeds. destruct (Rlt_dec (acceptable solve vs) e); cbn [negb]; split; intros; try congruence; lra.
  Qed.
  Lemma existsb_exceeds : forall t es, if existsb (exceeds t) es then (exists e, In e es /\ t < e) else (forall e, In e es -> e <= t).
  Proof.
    intros t es. destruct (existsb (exceeds t) es) eqn:E.
    - apply existsb_exists in E. destruct E as (e & I & X). apply exceeds_iff in X. now exists e.
    - intros e I. apply Rnot_lt_le. intros K. apply exceeds_iff in K. assert (existsb (exceeds t) es = true) by (apply existsb_exists; now exists e). congruence.
  Qed.
  Lemma rounds_run : forall more views done, (length done + more = 4)%nat ->
    exists sets n, rounds more views sets /\ let st := cal_fromcorners solve more views (map Some (map entry done) ++ repeat None (S more)) in
      calibrations st = map Some (map entry (done ++ sets)) ++ repeat None n /\ reported st = pick (calibrations st) /\
      (exists before, sets = before ++ [good_corners st]) /\ maps st = solution solve (good_corners st).
  Proof.
    induction more as [|more IH]; intros views done L; cbn [cal_fromcorners].
    - replace (4 - 0)%nat with (length (map entry done)) by (rewrite map_length; lia). rewrite put_slot. change (mkcalibration (solution solve views) (rms solve views) (length views)) with (entry views).
      change [entry views] with (map entry [views]). rewrite <- map_app.
      exists [views], 0%nat. pose proof (existsb_exceeds (acceptable solve views) (errors solve views)) as X.
      destruct (existsb (exceeds (acceptable solve views)) (errors solve views)); (split; [constructor|]); cbn [calibrations reported good_corners maps]; repeat split; now exists [].
    - replace (4 - S more)%nat with (length (map entry done)) by (rewrite map_length; lia). rewrite put_slot. change (mkcalibration (solution solve views) (rms solve views) (length views)) with (entry views).
      change [entry views] with (map entry [views]). rewrite <- map_app.
      pose proof (existsb_exceeds (acceptable solve views) (errors solve views)) as X. destruct (existsb (exceeds (acceptable solve views)) (errors solve views)).
      + destruct (IH (within solve views) (done ++ [views])%list) as (sets & n & Rr & St); [rewrite app_length; cbn [length]; lia|].
        exists (views :: sets), n. split; [apply (rounds_again more views (acceptable solve views) (within solve views)); [apply limit_acceptable|exact X|apply stays_within|exact Rr]|].
        cbn zeta in St |- *. rewrite <- app_assoc in St. cbn [app] in St. destruct St as (E & P & (before & B) & M). repeat split; try assumption. exists (views :: before). now rewrite B.
      + exists [views], (S more). split; [apply (rounds_fine _ _ (acceptable solve views)); [apply limit_acceptable|exact X]|]. cbn [calibrations reported good_corners maps]. repeat split. now exists [].
  Qed.
  Lemma rounds_bound : forall n vs sets, rounds n vs sets -> sets <> [] /\ (length sets <= S n)%nat /\ nth_error sets 0 = Some vs.
  Proof.
    intros n vs sets H. induction H as [n vs t _ _|vs|n vs t vs' sets _ _ _ _ (N & L & _)]; cbn [length nth_error]; repeat split; try discriminate; lia.
  Qed.
  (** The reported calibration belongs to one of at most five sets of views, starting with all of them, each the part of the one
      before whose errors are acceptable; it is the first of those with the least error. *)
  Theorem C221_mono : forall views, exists sets k vs, rounds 4 views sets /\ (length sets <= 5)%nat /\ nth_error sets 0 = Some views /\
    least_of (fun s => snd (fst (solve s))) sets k vs /\
    reported (calibrate solve views) = Some (mkcalibration (fst (fst (solve vs))) (snd (fst (solve vs))) (length vs)) /\
    exists before, sets = before ++ [good_corners (calibrate solve views)].
  Proof.
    intros views. destruct (rounds_run 4 views [] eq_refl) as (sets & n & Rr & E & P & B & _). fold (calibrate solve views) in E, P, B. cbn [app map] in E, P, B. change (repeat None 5) with (@repeat (option (calibration C)) None 5) in *.
    destruct (rounds_bound _ _ _ Rr) as (N & L & H0). destruct (pick_entries entry sets n N) as (k & a & Pk & Least). exists sets, k, a. repeat (split; [assumption|]). split; [|exact B].
    unfold calibrate in E, P |- *. cbn [repeat] in E, P. rewrite P, E, Pk. reflexivity.
  Qed.
  (** If in every set some view's error is at most the rms, views are never all left out, and each set is smaller than the one before. *)
  Lemma stays_length : forall {A} ok (vs : list A) es k, stays ok vs es k -> (length k <= length vs)%nat /\ ((exists e, In e es /\ ok e) -> k <> []) /\ ((exists e, In e es /\ ~ ok e) -> (length k < length vs)%nat).
  Proof.
    intros A ok vs es k H. induction H as [|v e vs es k O H (L & N & S')|v e vs es k O H (L & N & S')]; cbn [length].
    - repeat split; [lia|intros (e & [] & _)|intros (e & [] & _)].
    - repeat split; [lia|discriminate|]. intros (e' & [<-|I] & O'); [contradiction|]. assert (length k < length vs)%nat by (apply S'; now exists e'). lia.
    - repeat split; [lia| |intros _; lia]. intros (e' & [<-|I] & O'); [contradiction|]. apply N. now exists e'.
  Qed.
  Theorem C221_shrink : (forall vs, vs <> [] -> exists e, In e (snd (solve vs)) /\ e <= snd (fst (solve vs))) ->
    forall n views sets, views <> [] -> rounds n views sets -> (forall vs, In vs sets -> vs <> []) /\
      forall i a b, nth_error sets i = Some a -> nth_error sets (S i) = Some b -> (length b < length a)%nat.
  Proof.
    intros Some_fine n views sets N H. induction H as [n vs t _ _|vs|n vs t vs' sets Lt X St Rr IH].
    - split; [intros v [<-|[]]; exact N|]. intros [|i] a b _ J; cbn in J; [discriminate|destruct i; discriminate].
    - split; [intros v [<-|[]]; exact N|]. intros [|i] a b _ J; cbn in J; [discriminate|destruct i; discriminate].
    - destruct (stays_length _ _ _ _ St) as (_ & Ne & Sh). assert (N' : vs' <> []).
      { apply Ne. destruct (Some_fine vs N) as (e & I & E). exists e. split; [exact I|]. destruct Lt as (s & (S0 & _) & B & _). lra. }
      specialize (IH N'). destruct IH as [I1 I2]. split; [intros v [<-|V]; [exact N|now apply I1]|]. intros [|i] a b A0 B0.
      + injection A0 as <-. change (nth_error sets 0 = Some b) in B0. destruct (rounds_bound _ _ _ Rr) as (_ & _ & H0). rewrite H0 in B0. injection B0 as <-. apply Sh. destruct X as (e & I & E). exists e. split; [exact I|lra].
      + now apply (I2 i).
  Qed.
End Mono.
Print Assumptions C221_mono.
Print Assumptions C221_shrink.

(** * Stereo *)
Inductive part {A} : list A -> list A -> Prop :=
| part_nil : part [] []
| part_keep a l k : part l k -> part (a :: l) (a :: k)
| part_drop a l k : part l k -> part (a :: l) k.
Lemma part_filter : forall {A} (b : A * R -> bool) (vs : list A) es, part vs (map fst (filter b (combine vs es))).
Proof.
  intros A b. assert (Nil : forall vs : list A, part vs []) by (induction vs; now constructor). induction vs as [|v vs IH]; intros [|e es]; cbn [combine filter map]; try apply Nil.
  destruct (b (v, e)); cbn [map fst]; constructor; apply IH.
Qed.
Lemma part_refl : forall {A} (l : list A), part l l.
Proof. induction l; now constructor. Qed.
Section Stereo.
  Context {pair C : Type}.
  Variable solve : list pair -> C * R.
  Variable epipolar : C -> pair -> option R.
  (** Mean plus twice the deviation. *)
  Definition outlying (es : list R) (t : R) : Prop := exists m s, m * INR (length es) = fold_right Rplus 0 es /\ deviation es s /\ t = m + 2 * s.
  (** The error of a pair under a solution; 1000 if the pattern is not found again. *)
  Definition own_error (c : C) (p : pair) (e : R) : Prop := epipolar c p = Some e \/ (epipolar c p = None /\ e = 1000).
  Definition stereo_entry (vs : list pair) : calibration C := mkcalibration (fst (solve vs)) (snd (solve vs)) (length vs).
  Lemma below_iff : forall t e, below t e = true <-> e < t.
  Proof. intros t e. unfold below. destruct (Rlt_dec e t); split; intros; try congruence; contradiction. Qed.

  Lemma stereo_run : forall more db good done st, (length done + more = 4)%nat ->
    stereo_fromcorners solve epipolar more db good (map Some (map stereo_entry done) ++ repeat None (S more)) = Some st ->
    exists sets n, nth_error sets 0 = Some good /\ (length sets <= S more)%nat /\ (forall s, In s sets -> (8 <= length s)%nat) /\
      (forall i a b, nth_error sets i = Some a -> nth_error sets (S i) = Some b -> part a b /\ 6 / 10 < snd (solve a)) /\
      (forall b, nth_error sets 1 = Some b -> b = inliers (errors_of epipolar (fst (solve good)) db) good) /\
      stereo_calibrations st = map Some (map stereo_entry (done ++ sets)) ++ repeat None n /\ stereo_reported st = pick (stereo_calibrations st) /\
      (exists before, sets = before ++ [pairs_left st]) /\ rectified st = fst (solve (pairs_left st)) /\
      (length sets = S more \/ snd (solve (pairs_left st)) <= 6 / 10).
  Proof.
    assert (One : forall (x : list pair), nth_error [x] 1 = None) by reflexivity.
    induction more as [|more IH]; intros db good done st L; cbn [stereo_fromcorners]; destruct (Nat.ltb_spec (length good) 8) as [G|G]; try discriminate; rewrite (surjective_pairing (solve good)).
    - replace (4 - 0)%nat with (length (map stereo_entry done)) by (rewrite map_length; lia). rewrite put_slot. change (mkcalibration (fst (solve good)) (snd (solve good)) (length good)) with (stereo_entry good).
      change [stereo_entry good] with (map stereo_entry [good]). rewrite <- map_app. intros H. injection H as <-. cbn [stereo_calibrations stereo_reported pairs_left rectified].
      exists [good], 0%nat. split; [reflexivity|]. split; [cbn; lia|]. split; [intros s [<-|[]]; exact G|]. split; [intros [|i] a b _ J; cbn in J; [discriminate|destruct i; discriminate]|]. split; [intros b J; discriminate|].
      repeat split; [now exists []|now left].
    - replace (4 - S more)%nat with (length (map stereo_entry done)) by (rewrite map_length; lia). rewrite put_slot. change (mkcalibration (fst (solve good)) (snd (solve good)) (length good)) with (stereo_entry good).
      change [stereo_entry good] with (map stereo_entry [good]). rewrite <- map_app. destruct (Rlt_dec (6 / 10) (snd (solve good))) as [D|D]; intros H.
      + apply IH in H; [|rewrite app_length; cbn [length]; lia]. destruct H as (sets & n & H0 & Le & E8 & Pr & _ & Ca & Re & (before & B) & Rc & Fin). rewrite <- app_assoc in Ca. cbn [app] in Ca.
        exists (good :: sets), n. split; [reflexivity|]. split; [cbn [length]; lia|]. split; [intros s [<-|I]; [exact G|now apply E8]|]. split.
        { intros [|i] a b X Y; [|now apply (Pr i)]. injection X as <-. change (nth_error sets 0 = Some b) in Y. rewrite H0 in Y. injection Y as <-. split; [apply part_filter|exact D]. }
        split; [intros b Y; change (nth_error sets 0 = Some b) in Y; rewrite H0 in Y; now injection Y|].
        repeat (split; [assumption|]). split; [exists (good :: before); now rewrite B|]. split; [exact Rc|]. destruct Fin as [F|F]; [left; cbn [length]; lia|now right].
      + injection H as <-. cbn [stereo_calibrations stereo_reported pairs_left rectified]. exists [good], (S more). split; [reflexivity|]. split; [cbn; lia|]. split; [intros s [<-|[]]; exact G|].
        split; [intros [|i] a b _ J; cbn in J; [discriminate|destruct i; discriminate]|]. split; [intros b J; discriminate|]. repeat split; [now exists []|right; lra].
  Qed.
  (** A stereo calibration that ends reports the first least error of at most five sets of at least eight pairs: all pairs, then those with
      an error below mean plus twice the deviation, then parts of these; it goes on as long as the error is above 0.6. *)
  Theorem C221_stereo : forall good st, stereo_calibrate solve epipolar good = Some st -> exists sets k s, nth_error sets 0 = Some good /\ (length sets <= 5)%nat /\
    (forall s, In s sets -> (8 <= length s)%nat) /\
    (forall i a b, nth_error sets i = Some a -> nth_error sets (S i) = Some b -> part a b /\ 6 / 10 < snd (solve a)) /\
    (forall b, nth_error sets 1 = Some b -> exists es t, Forall2 (own_error (fst (solve good))) good es /\ outlying es t /\ stays (fun e => e < t) good es b) /\
    (exists before, sets = before ++ [pairs_left st]) /\ (length sets = 5%nat \/ snd (solve (pairs_left st)) <= 6 / 10) /\
    least_of (fun s => snd (solve s)) sets k s /\ stereo_reported st = Some (mkcalibration (fst (solve s)) (snd (solve s)) (length s)).
  Proof.
    intros good st H. unfold stereo_calibrate in H. destruct (stereo_run 4 good good [] st eq_refl H) as (sets & n & H0 & Le & E8 & Pr & Sec & Ca & Re & B & _ & Fin). cbn [app] in Ca.
    assert (N : sets <> []) by (intros ->; discriminate). destruct (pick_entries stereo_entry sets n N) as (k & a & Pk & Least). exists sets, k, a. repeat (split; [assumption|]). split.
    { intros b Y. rewrite (Sec b Y). set (c := fst (solve good)). exists (errors_of epipolar c good), (mean (errors_of epipolar c good) + 2 * std (errors_of epipolar c good)). split.
      - unfold errors_of. clearbody c. clear. induction good as [|p good IH]; cbn [map]; constructor; [|exact IH]. unfold own_error. destruct (epipolar c p); [now left|right; now split].
      - split; [|unfold inliers; apply (stays_filter _ (fun e => below _ e)); [intros e; apply below_iff|unfold errors_of; apply map_length]].
        exists (mean (errors_of epipolar c good)), (std (errors_of epipolar c good)). split; [|split; [apply deviation_std|reflexivity]].
        unfold mean, sum. set (l := errors_of epipolar c good). destruct l as [|x l]; [cbn; ring|]. field. apply not_0_INR. discriminate. }
    repeat (split; [assumption|]). rewrite Re, Ca, Pk. reflexivity.
  Qed.
  (** With at least eight pairs and an error of at most 0.6 the first solution is final, and the rectification belongs to it. *)
  Theorem C221_stereo_once : forall good, (8 <= length good)%nat -> snd (solve good) <= 6 / 10 -> exists st, stereo_calibrate solve epipolar good = Some st /\
    pairs_left st = good /\ stereo_reported st = Some (mkcalibration (fst (solve good)) (snd (solve good)) (length good)) /\ rectified st = fst (solve good).
  Proof.
    intros good L E. unfold stereo_calibrate. cbn [stereo_fromcorners]. destruct (Nat.ltb_spec (length good) 8); [lia|]. rewrite (surjective_pairing (solve good)). destruct (Rlt_dec (6 / 10) (snd (solve good))); [lra|].
    eexists. split; [reflexivity|]. repeat split.
  Qed.
  (** Fewer than eight pairs: the program ends. *)
  Theorem C221_stereo_few : forall good, (length good < 8)%nat -> stereo_calibrate solve epipolar good = None.
  Proof. intros good L. unfold stereo_calibrate. cbn [stereo_fromcorners]. destruct (Nat.ltb_spec (length good) 8); [reflexivity|lia]. Qed.
End Stereo.
Print Assumptions C221_stereo.
Print Assumptions C221_stereo_once.
Print Assumptions C221_stereo_few.

(** * What does not hold *)
Lemma std_one : std [10; 0; 0; 0; 0; 0; 0; 0; 0; 0] = 3 /\ mean [10; 0; 0; 0; 0; 0; 0; 0; 0; 0] = 1.
Proof.
  assert (M : mean [10; 0; 0; 0; 0; 0; 0; 0; 0; 0] = 1) by (unfold mean, sum; cbn [fold_right length]; replace (INR 10) with 10 by (cbn; lra); lra).
  split; [|exact M]. unfold std. rewrite M. cbn [map]. unfold mean, sum. cbn [fold_right length]. replace (INR 10) with 10 by (cbn; lra). replace (_ / 10) with (3 * 3) by field. apply sqrt_square. lra.
Qed.
Lemma std_half : std [0; 1; 0; 1; 0; 1; 0; 1; 0; 1] = 1 / 2 /\ mean [0; 1; 0; 1; 0; 1; 0; 1; 0; 1] = 1 / 2.
Proof.
  assert (M : mean [0; 1; 0; 1; 0; 1; 0; 1; 0; 1] = 1 / 2) by (unfold mean, sum; cbn [fold_right length]; replace (INR 10) with 10 by (cbn; lra); lra).
  split; [|exact M]. unfold std. rewrite M. cbn [map]. unfold mean, sum. cbn [fold_right length]. replace (INR 10) with 10 by (cbn; lra). replace (_ / 10) with (1 / 2 * (1 / 2)) by field. apply sqrt_square. lra.
Qed.
Lemma std_same : forall x n, std (repeat x n) = 0 /\ (n <> O -> mean (repeat x n) = x).
Proof.
  intros x n. assert (S' : sum (repeat x n) = INR n * x) by (induction n as [|n IH]; [cbn; ring|]; cbn [repeat]; unfold sum in *; cbn [fold_right]; rewrite IH, S_INR; ring).
  assert (M : n <> O -> mean (repeat x n) = x) by (intros N; unfold mean; rewrite S', repeat_length; field; now apply not_0_INR).
  split; [|exact M]. destruct n as [|n]; [unfold std, mean; cbn; unfold Rdiv; rewrite Rmult_0_l; apply sqrt_0|]. unfold std. rewrite M by discriminate.
  assert (Z : forall n, sum (map (fun y => (y - x) * (y - x)) (repeat x n)) = 0) by (clear; induction n as [|n IH]; [reflexivity|]; cbn [repeat map]; unfold sum in *; cbn [fold_right]; rewrite IH; ring).
  unfold mean. rewrite Z. unfold Rdiv. rewrite Rmult_0_l. apply sqrt_0.
Qed.
(** One round at a time. *)
Lemma stereo_again : forall {pair C} (solve : list pair -> C * R) epipolar more db good cals c e, (8 <= length good)%nat -> solve good = (c, e) -> 6 / 10 < e ->
  stereo_fromcorners solve epipolar (S more) db good cals =
  stereo_fromcorners solve epipolar more db (inliers (errors_of epipolar c db) good) (put (4 - S more) (Some (mkcalibration c e (length good))) cals).
Proof. intros pair C solve epipolar more db good cals c e L E H. cbn [stereo_fromcorners]. destruct (Nat.ltb_spec (length good) 8); [lia|]. rewrite E. destruct (Rlt_dec (6 / 10) e); [reflexivity|contradiction]. Qed.
Lemma stereo_end : forall {pair C} (solve : list pair -> C * R) epipolar more db good cals c e, (8 <= length good)%nat -> solve good = (c, e) -> more = O \/ e <= 6 / 10 ->
  stereo_fromcorners solve epipolar more db good cals =
  Some (mkstereo good (put (4 - more) (Some (mkcalibration c e (length good))) cals) (pick (put (4 - more) (Some (mkcalibration c e (length good))) cals)) c).
Proof. intros pair C solve epipolar more db good cals c e L E H. destruct more; cbn [stereo_fromcorners]; (destruct (Nat.ltb_spec (length good) 8); [lia|]); rewrite E; [reflexivity|]. destruct (Rlt_dec (6 / 10) e); [destruct H; [discriminate|lra]|reflexivity]. Qed.
Lemma mono_again : forall {view C} (solve : list view -> C * R * list R) more views cals c e es, solve views = (c, e, es) -> (exists x, In x es /\ acceptable solve views < x) ->
  cal_fromcorners solve (S more) views cals = cal_fromcorners solve more (within solve views) (put (4 - S more) (Some (mkcalibration c e (length views))) cals).
Proof.
  intros view C solve more views cals c e es E (x & I & X). cbn [cal_fromcorners]. assert (K : existsb (exceeds (acceptable solve views)) (errors solve views) = true).
  { apply existsb_exists. exists x. unfold errors. rewrite E. split; [exact I|]. now apply exceeds_iff. } rewrite K. unfold solution, rms. rewrite E. reflexivity.
Qed.
Lemma mono_end : forall {view C} (solve : list view -> C * R * list R) more views cals c e es, solve views = (c, e, es) -> (forall x, In x es -> x <= acceptable solve views) ->
  cal_fromcorners solve more views cals = mkstate views (put (4 - more) (Some (mkcalibration c e (length views))) cals) (pick (put (4 - more) (Some (mkcalibration c e (length views))) cals)) c.
Proof.
  intros view C solve more views cals c e es E H. pose proof (existsb_exceeds (acceptable solve views) (errors solve views)) as X.
  assert (K : existsb (exceeds (acceptable solve views)) (errors solve views) = false).
  { destruct (existsb (exceeds (acceptable solve views)) (errors solve views)); [|reflexivity]. destruct X as (x & I & X). unfold errors in I. rewrite E in I. specialize (H x I). lra. }
  destruct more; cbn [cal_fromcorners]; rewrite K; unfold solution, rms; rewrite E; reflexivity.
Qed.
Definition one_of_ten : list R := [10; 0; 0; 0; 0; 0; 0; 0; 0; 0].
Lemma inliers_ten : forall a b c d e f g h i j : nat, inliers one_of_ten [a; b; c; d; e; f; g; h; i; j] = [b; c; d; e; f; g; h; i; j] /\ inliers one_of_ten [b; c; d; e; f; g; h; i; j] = [c; d; e; f; g; h; i; j].
Proof.
  intros. unfold inliers. unfold one_of_ten at 1 2 4 5. destruct std_one as [S' M]. rewrite S', M. unfold one_of_ten. cbn [combine filter snd map fst]. unfold below.
  destruct (Rlt_dec 10 (1 + 2 * 3)) as [X|X]; [exfalso; lra|]. destruct (Rlt_dec 0 (1 + 2 * 3)) as [Y|Y]; [|exfalso; lra]. split; reflexivity.
Qed.

(** A pair is left out only for its own error: no.  The errors are those of the pairs first used, but from the second round on they are
    matched with the pairs that remain; here pair 1, without any error, is left out in place of pair 0, which had already gone. *)
Definition ten : list nat := [0; 1; 2; 3; 4; 5; 6; 7; 8; 9]%nat.
Definition one_bad (c : unit) (p : nat) : option R := Some (if (p =? 0)%nat then 10 else 0).
Lemma one_bad_errors : errors_of one_bad tt ten = one_of_ten.
Proof. reflexivity. Qed.
Theorem C222_alignment_refuted : exists (solve : list nat -> unit * R) (epipolar : unit -> nat -> option R) st,
  stereo_calibrate solve epipolar ten = Some st /\ epipolar tt 1%nat = Some 0 /\ pairs_left st = [2; 3; 4; 5; 6; 7; 8; 9]%nat.
Proof.
  exists (fun l => (tt, if (length l =? 8)%nat then 1 / 2 else 1)), one_bad. eexists. split; [|split; [reflexivity|]].
  - unfold stereo_calibrate. rewrite (stereo_again _ _ 3 _ ten _ tt 1); [|cbn; lia|reflexivity|lra]. rewrite one_bad_errors. unfold ten at 2. rewrite (proj1 (inliers_ten _ _ _ _ _ _ _ _ _ _)).
    rewrite (stereo_again _ _ 2 _ _ _ tt 1); [|cbn; lia|reflexivity|lra]. rewrite one_bad_errors. rewrite (proj2 (inliers_ten 0%nat _ _ _ _ _ _ _ _ _)). rewrite (stereo_end _ _ 2 _ _ _ tt (1 / 2)); [reflexivity|cbn; lia|reflexivity|right; lra].
  - reflexivity.
Qed.
Print Assumptions C222_alignment_refuted.
(** Pairs that are equally good are all kept: no, they are all left out, and the program ends without any calibration. *)
Theorem C222_equal_refuted : exists (solve : list nat -> unit * R) (epipolar : unit -> nat -> option R),
  (forall c p, epipolar c p = Some 1) /\ (forall l, solve l = (tt, 7 / 10)) /\ stereo_calibrate solve epipolar ten = None.
Proof.
  exists (fun _ => (tt, 7 / 10)), (fun _ _ => Some 1). split; [reflexivity|]. split; [reflexivity|]. unfold stereo_calibrate. rewrite (stereo_again _ _ 3 _ ten _ tt (7 / 10)); [|cbn; lia|reflexivity|lra].
  replace (inliers _ ten) with (@nil nat); [reflexivity|]. replace (errors_of _ tt ten) with (repeat 1 10) by reflexivity. destruct (std_same 1 10) as [S' M]. unfold inliers, below. rewrite S', M by discriminate. cbn [combine ten repeat filter snd].
  destruct (Rlt_dec 1 (1 + 2 * 0)); [exfalso; lra|reflexivity].
Qed.
Print Assumptions C222_equal_refuted.
(** A solution that was found is reported: no, if leaving out a pair leaves fewer than eight, nothing is. *)
Theorem C222_lost_refuted : exists (solve : list nat -> unit * R) (epipolar : unit -> nat -> option R) good, length good = 8%nat /\ solve good = (tt, 7 / 10) /\
  epipolar tt 0%nat = Some 10 /\ (forall p, p <> 0%nat -> epipolar tt p = Some 0) /\ stereo_calibrate solve epipolar good = None.
Proof.
  exists (fun _ => (tt, 7 / 10)), one_bad, [0; 1; 2; 3; 4; 5; 6; 7]%nat. split; [reflexivity|]. split; [reflexivity|]. split; [reflexivity|]. split; [intros [|p] N; [contradiction|reflexivity]|]. unfold stereo_calibrate. rewrite (stereo_again _ _ 3 _ _ _ tt (7 / 10)); [|cbn; lia|reflexivity|lra].
  replace (errors_of _ tt _) with [10; 0; 0; 0; 0; 0; 0; 0] by reflexivity.
  assert (M : mean [10; 0; 0; 0; 0; 0; 0; 0] = 5 / 4) by (unfold mean, sum; cbn [fold_right length]; replace (INR 8) with 8 by (cbn; lra); lra).
  assert (B : 0 <= std [10; 0; 0; 0; 0; 0; 0; 0] <= 4).
  { unfold std. rewrite M. split; [apply sqrt_pos|]. apply Rle_trans with (sqrt (4 * 4)); [|rewrite sqrt_square; lra]. apply sqrt_le_1_alt. cbn [map]. unfold mean, sum. cbn [fold_right length]. replace (INR 8) with 8 by (cbn; lra). lra. }
  replace (inliers _ _) with [1; 2; 3; 4; 5; 6; 7]%nat; [reflexivity|]. unfold inliers. rewrite M. set (s := std _) in *. cbn [combine filter snd]. unfold below. destruct (Rlt_dec 10 (5 / 4 + 2 * s)); [exfalso; lra|]. destruct (Rlt_dec 0 (5 / 4 + 2 * s)); [reflexivity|exfalso; lra].
Qed.
Print Assumptions C222_lost_refuted.
(** The written rectification and projection matrices belong to the written rotation and translation: no. *)
Theorem C222_rectified_refuted : exists (solve : list nat -> nat * R) (epipolar : nat -> nat -> option R) st c,
  stereo_calibrate solve epipolar ten = Some st /\ stereo_reported st = Some c /\ found c = 0%nat /\ rectified st = 1%nat.
Proof.
  exists (fun l => if (length l =? 10)%nat then (0%nat, 7 / 10) else (1%nat, 8 / 10)), (fun c p => Some (if (c =? 0)%nat then (if (p =? 0)%nat then 10 else 0) else if Nat.odd p then 1 else 0)). eexists. exists (mkcalibration 0%nat (7 / 10) 10). split.
  - unfold stereo_calibrate. rewrite (stereo_again _ _ 3 _ ten _ 0%nat (7 / 10)); [|cbn; lia|reflexivity|lra]. replace (errors_of _ 0%nat ten) with one_of_ten by reflexivity. unfold ten at 2. rewrite (proj1 (inliers_ten _ _ _ _ _ _ _ _ _ _)).
    assert (Same : inliers [0; 1; 0; 1; 0; 1; 0; 1; 0; 1] [1; 2; 3; 4; 5; 6; 7; 8; 9]%nat = [1; 2; 3; 4; 5; 6; 7; 8; 9]%nat).
    { unfold inliers. destruct std_half as [S2 M2]. rewrite S2, M2. cbn [combine filter snd]. unfold below. destruct (Rlt_dec 0 (1 / 2 + 2 * (1 / 2))); [|exfalso; lra]. destruct (Rlt_dec 1 (1 / 2 + 2 * (1 / 2))); [reflexivity|exfalso; lra]. }
    do 3 (rewrite (stereo_again _ _ _ _ _ _ 1%nat (8 / 10)); [|cbn; lia|reflexivity|lra]; replace (errors_of _ 1%nat ten) with [0; 1; 0; 1; 0; 1; 0; 1; 0; 1] by reflexivity; rewrite Same).
    rewrite (stereo_end _ _ 0 _ _ _ 1%nat (8 / 10)); [reflexivity|cbn; lia|reflexivity|now left].
  - cbn [stereo_reported rectified put Nat.sub length ten]. unfold pick. cbn [fold_left better avg_reprojection_error]. repeat (match goal with |- context [Rlt_dec ?a ?b] => destruct (Rlt_dec a b); [exfalso; cbn in *; lra|] end; cbn [avg_reprojection_error]). repeat split.
Qed.
Print Assumptions C222_rectified_refuted.
(** The first of ten views is bad; the others are fine. *)
Lemma within_ten : forall C (solve : list nat -> C * R * list R) c e, solve ten = (c, e, one_of_ten) -> 0 <= e <= 3 ->
  within solve ten = [1; 2; 3; 4; 5; 6; 7; 8; 9]%nat /\ exists x, In x one_of_ten /\ acceptable solve ten < x.
Proof.
  intros C solve c e E B. destruct std_one as [S' _]. assert (A : acceptable solve ten = e + 6). { unfold acceptable, rms, errors. rewrite E. cbn [fst snd]. unfold one_of_ten. rewrite S'. rewrite Rmax_left by lra. lra. }
  split.
  - unfold within. rewrite A. unfold errors. rewrite E. cbn [snd ten one_of_ten combine filter]. unfold exceeds. destruct (Rlt_dec (e + 6) 10); [|exfalso; lra]. destruct (Rlt_dec (e + 6) 0); [exfalso; lra|reflexivity].
  - rewrite A. exists 10. split; [now left|lra].
Qed.
Lemma fine_same : forall {view C} (solve : list view -> C * R * list R) views c e, solve views = (c, e, repeat 0 (length views)) -> forall x, In x (repeat 0 (length views)) -> x <= acceptable solve views.
Proof. intros view C solve views c e E x I. apply repeat_spec in I. subst x. unfold acceptable. pose proof (Rmax_r (rms solve views + 2 * std (errors solve views)) (1 / 4)). lra. Qed.
(** The maps used by remap belong to the reported intrinsics: no, to the last ones found. *)
Theorem C222_maps_refuted : exists (solve : list nat -> nat * R * list R) c, (forall l, length (snd (solve l)) = length l) /\
  reported (calibrate solve ten) = Some c /\ found c = 0%nat /\ maps (calibrate solve ten) = 1%nat.
Proof.
  set (sv := fun l : list nat => if (length l =? 10)%nat then (0%nat, 1, one_of_ten) else (1%nat, 2, repeat 0 (length l))). exists sv. eexists. split.
  - intros l. unfold sv. destruct (Nat.eqb_spec (length l) 10) as [->|N]; [reflexivity|apply repeat_length].
  - unfold calibrate. destruct (within_ten nat sv 0%nat 1 eq_refl) as [W X]; [lra|]. rewrite (mono_again sv 3 ten _ 0%nat 1 one_of_ten eq_refl X), W. rewrite (mono_end sv 3 [1; 2; 3; 4; 5; 6; 7; 8; 9]%nat _ 1%nat 2 (repeat 0 9) eq_refl) by (apply (fine_same sv [1; 2; 3; 4; 5; 6; 7; 8; 9]%nat 1%nat 2 eq_refl)).
    cbn [reported maps put Nat.sub length ten]. unfold pick. cbn [fold_left better avg_reprojection_error]. destruct (Rlt_dec 2 1); [exfalso; lra|]. repeat split.
Qed.
Print Assumptions C222_maps_refuted.
(** A second calibration with the same calibrator reports a solution for its own views: no, it may report one of the first. *)
Theorem C222_stale_refuted : exists (solve : list nat -> nat * R * list R) first second c, (forall l, length (snd (solve l)) = length l) /\
  reported (calibrate_again solve (calibrate solve first) second) = Some c /\ num_images c = 9%nat /\ length second = 12%nat /\ good_corners (calibrate_again solve (calibrate solve first) second) = second.
Proof.
  set (sv := fun l : list nat => if (length l =? 10)%nat then (0%nat, 1, one_of_ten) else if (length l =? 9)%nat then (1%nat, 1 / 10, repeat 0 (length l)) else (2%nat, 1 / 2, repeat 0 (length l))). exists sv, ten, (ten ++ [10; 11])%nat%list. eexists. split.
  - intros l. unfold sv. destruct (Nat.eqb_spec (length l) 10) as [->|N]; [reflexivity|]. destruct (length l =? 9)%nat; apply repeat_length.
  - unfold calibrate_again, calibrate. destruct (within_ten nat sv 0%nat 1 eq_refl) as [W X]; [lra|]. rewrite (mono_again sv 3 ten _ 0%nat 1 one_of_ten eq_refl X), W. rewrite (mono_end sv 3 [1; 2; 3; 4; 5; 6; 7; 8; 9]%nat _ 1%nat (1 / 10) (repeat 0 9) eq_refl) by (apply (fine_same sv [1; 2; 3; 4; 5; 6; 7; 8; 9]%nat 1%nat (1 / 10) eq_refl)).
    rewrite (mono_end sv 4 (ten ++ [10; 11])%nat%list _ 2%nat (1 / 2) (repeat 0 12) eq_refl) by (apply (fine_same sv (ten ++ [10; 11])%nat%list 2%nat (1 / 2) eq_refl)). cbn [reported calibrations good_corners put Nat.sub length ten]. unfold pick. cbn [fold_left better avg_reprojection_error]. destruct (Rlt_dec (1 / 10) (1 / 2)); [|exfalso; lra]. repeat split.
Qed.
Print Assumptions C222_stale_refuted.

(** Tests: a run that leaves one view out. *)
Definition sample (l : list nat) : nat * R * list R :=
  if (length l =? 10)%nat then (0%nat, 3, one_of_ten) else (1%nat, 1 / 10, repeat 0 (length l)).
Example sample_run : good_corners (calibrate sample ten) = [1; 2; 3; 4; 5; 6; 7; 8; 9]%nat /\ reported (calibrate sample ten) = Some (mkcalibration 1%nat (1 / 10) 9).
Proof.
  unfold calibrate. destruct (within_ten nat sample 0%nat 3 eq_refl) as [W X]; [lra|]. rewrite (mono_again sample 3 ten _ 0%nat 3 one_of_ten eq_refl X), W. rewrite (mono_end sample 3 [1; 2; 3; 4; 5; 6; 7; 8; 9]%nat _ 1%nat (1 / 10) (repeat 0 9) eq_refl) by (apply (fine_same sample [1; 2; 3; 4; 5; 6; 7; 8; 9]%nat 1%nat (1 / 10) eq_refl)).
  cbn [good_corners reported put Nat.sub length ten]. unfold pick. cbn [fold_left better avg_reprojection_error]. destruct (Rlt_dec (1 / 10) 3); [|exfalso; lra]. repeat split.
Qed.
Example eight_pairs : exists st, stereo_calibrate (fun l : list nat => (length l, 1 / 2)) (fun _ _ => None) [0; 1; 2; 3; 4; 5; 6; 7]%nat = Some st /\ rectified st = 8%nat.
Proof. eexists. split; [unfold stereo_calibrate; rewrite (stereo_end _ _ 4 _ _ _ 8%nat (1 / 2)); [reflexivity|cbn; lia|reflexivity|right; lra]|reflexivity]. Qed.
