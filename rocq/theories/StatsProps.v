(** C42: streaming statistics; C73: RANSAC statistics; C74: trimmed statistics. *)
From Coq Require Import Permutation Qfield.
From Verif Require Import PyBase InterpSpec SortQ StatsModel.
Open Scope Q_scope.

(** ** Specification: the mean and the population variance of a list *)
Definition total (f : Q -> Q) (xs : list Q) : Q := fold_right (fun x s => f x + s) 0 xs.
Definition size (xs : list Q) : Q := inject_Z (Z.of_nat (length xs)).
Definition is_mean (xs : list Q) (m : Q) : Prop := m * size xs == total (fun x => x) xs.
Definition is_variance (xs : list Q) (v : Q) : Prop := forall m, is_mean xs m -> v * size xs == total (fun x => (x - m) * (x - m)) xs.

Lemma total_app : forall f a b, total f (a ++ b) == total f a + total f b.
Proof. induction a as [|x a IH]; intros b; [cbn [app]; unfold total at 2; cbn [fold_right]; rewrite Qplus_0_l; reflexivity|]. change (f x + total f (a ++ b) == f x + total f a + total f b). rewrite IH. ring. Qed.
Lemma total_cons : forall f x a, total f (x :: a) = f x + total f a.
Proof. reflexivity. Qed.
Lemma total_perm : forall f a b, Permutation a b -> total f a == total f b.
Proof.
  intros f a b P. induction P; rewrite ?total_cons.
  - reflexivity. - rewrite IHP. reflexivity. - ring. - now rewrite IHP1.
Qed.
Lemma q_S : forall n, q (S n) == q n + 1.
Proof. intros n. unfold q. rewrite Nat2Z.inj_succ. unfold Z.succ. rewrite inject_Z_plus. reflexivity. Qed.
Lemma q_pos : forall n, 0 < q (S n).
Proof. intros n. unfold q, Qlt. cbn [inject_Z Qnum Qden]. lia. Qed.
Lemma size_app : forall a x, size (a ++ [x]) == size a + 1.
Proof. intros a x. unfold size. rewrite app_length. cbn [length]. rewrite Nat.add_1_r. apply q_S. Qed.

Definition good (xs : list Q) (a : acc) : Prop :=
  count a = length xs /\ mean a * size xs == total (fun x => x) xs /\ m2 a == total (fun x => x * x) xs - mean a * total (fun x => x) xs.
Lemma step_good : forall xs a x, good xs a -> good (xs ++ [x]) (step a x).
Proof.
  intros xs a x (C & M & V). unfold step, good. cbn [count mean m2].
  assert (forall f, total f (xs ++ [x]) == total f xs + f x) as T by (intros f; rewrite total_app; cbn; ring).
  assert (0 < q (S (count a))) as P by apply q_pos.
  assert (size xs == q (S (count a)) - 1) as SZ by (rewrite q_S, C; unfold size, q; ring).
  set (n := q (S (count a))) in *. set (m' := mean a + (x - mean a) / n).
  assert (m' * n == mean a * (n - 1) + x) as MM by (unfold m'; field; lra).
  split; [rewrite app_length; cbn; lia|]. split.
  - rewrite size_app, SZ, T, <- M, SZ. rewrite <- MM. ring.
  - rewrite !T, V, <- M, SZ. setoid_replace (mean a * (n - 1) + x) with (m' * n) by now rewrite MM.
    assert (x == m' * n - mean a * (n - 1)) as X by (rewrite MM; ring). rewrite X. ring.
Qed.
Lemma fold_good : forall f xs, (forall a x, In x xs -> f a x = step a x) -> good xs (fold_left f xs start).
Proof.
  intros f xs. induction xs as [|x xs IH] using rev_ind; intros H.
  - repeat split; reflexivity.
  - rewrite fold_left_app. cbn [fold_left]. rewrite H by (apply in_app_iff; right; now left).
    apply step_good, IH. intros a y I. apply H, in_app_iff. now left.
Qed.
Lemma total_sq : forall m xs, total (fun x => (x - m) * (x - m)) xs == total (fun x => x * x) xs - 2 * m * total (fun x => x) xs + m * m * size xs.
Proof.
  intros m. induction xs as [|x xs IH]; [unfold size; cbn; ring|]. cbn [total fold_right].
  fold (total (fun x => (x - m) * (x - m)) xs). fold (total (fun x => x * x) xs). fold (total (fun x => x) xs). rewrite IH.
  assert (size (x :: xs) == size xs + 1) as -> by apply q_S. ring.
Qed.
Lemma good_stats : forall xs a, xs <> [] -> good xs a -> is_mean xs (mean a) /\ is_variance xs (m2 a / q (count a)).
Proof.
  intros xs a N (C & M & V). split; [exact M|]. intros m H. unfold is_mean in H. rewrite total_sq.
  assert (q (count a) == size xs) as E by (rewrite C; reflexivity).
  assert (0 < size xs) as P by (destruct xs as [|x xs]; [congruence|apply q_pos]).
  assert (m == mean a) as -> by (apply Qmult_inj_r with (size xs); [lra|]; rewrite H, M; reflexivity).
  rewrite E. setoid_replace (m2 a / size xs * size xs) with (m2 a) by (field; lra). rewrite V, <- M. ring.
Qed.

(** ** C42 *)
(** Images without saturated pixels: the running statistics are those of the whole
    sequence (with the floor of 1e-6 on the deviation). *)
Theorem C42_running : forall clip xs, (2 <= length xs)%nat -> (forall x, In x xs -> x <= clip) ->
  exists m v v', running_mean clip xs = Some m /\ is_mean xs m /\ is_variance xs v /\
    running_variance clip xs = Some v' /\ (v' == v /\ 1 # 1000000000000 <= v \/ v' == 1 # 1000000000000 /\ v < 1 # 1000000000000).
Proof.
  intros clip xs L H. assert (good xs (running clip xs)) as G.
  { apply fold_good. intros a x I. unfold compute. specialize (H x I). apply Qltb_ge in H. now rewrite H. }
  assert (xs <> []) as N by (destruct xs; [cbn in L; lia|discriminate]).
  destruct (good_stats xs _ N G) as [M V]. destruct G as (C & _).
  unfold running_mean, running_variance. rewrite C. destruct (Nat.ltb_spec 1 (length xs)); [|lia].
  eexists _, _, _. split; [reflexivity|]. split; [exact M|]. split; [exact V|]. split; [reflexivity|]. rewrite C.
  destruct (Qltb _ _) eqn:E; [right; apply Qltb_lt in E|left; apply Qltb_ge in E]; (split; [reflexivity|exact E]).
Qed.
Print Assumptions C42_running.
(** mean_std_array and running_mean_std (without ignore_zeroes, or without zeroes): always. *)
Theorem C42_array : forall xs, xs <> [] -> is_mean xs (fst (array_stats xs)) /\ is_variance xs (snd (array_stats xs)).
Proof.
  intros xs N. assert (good xs (fold_left step xs start)) as G by now apply fold_good.
  destruct (good_stats xs _ N G) as [M V]. destruct G as (C & _). unfold array_stats. cbn [fst snd]. split; [exact M|]. now rewrite <- C.
Qed.
Print Assumptions C42_array.
Theorem C42_files : forall ignore xs, xs <> [] -> (ignore = false \/ forall x, In x xs -> ~ x == 0) ->
  is_mean xs (fst (file_stats ignore xs)) /\ is_variance xs (snd (file_stats ignore xs)).
Proof.
  intros ignore xs N Z. assert (good xs (fold_left (file_step ignore) xs start)) as G.
  { apply fold_good. intros a x I. unfold file_step. destruct Z as [->|Z]; [reflexivity|]. destruct (Qeq_bool x 0) eqn:E; [apply Qeq_bool_iff in E; now elim (Z x I)|]. now rewrite andb_false_r. }
  destruct (good_stats xs _ N G) as [M V]. pose proof G as (C & _ & V2). unfold file_stats. cbn [fst snd]. split; [exact M|].
  rewrite C in *. destruct (Nat.ltb_spec 1 (length xs)) as [_|L]; [exact V|]. destruct xs as [|x [|y xs]]; [congruence| |cbn in L; lia].
  intros m H. unfold is_mean in H. assert (size [x] == 1) as S1 by reflexivity. rewrite S1 in H |- *. rewrite total_cons in *. cbn [total fold_right] in *. assert (m == x) as -> by lra. ring.
Qed.
Print Assumptions C42_files.
(** The batch statistics exist, are unique and do not depend on the order. *)
Theorem C42_order_free : forall xs ys m v, Permutation xs ys -> is_mean xs m -> is_variance xs v -> is_mean ys m /\ is_variance ys v.
Proof.
  intros xs ys m v P M V. assert (size ys == size xs) as E by (unfold size; now rewrite (Permutation_length P)).
  split; [unfold is_mean in *; rewrite E, M; now apply total_perm|]. intros k K. rewrite E, (V k).
  - now apply total_perm.
  - unfold is_mean in *. rewrite <- E, K. symmetry. now apply total_perm.
Qed.
Print Assumptions C42_order_free.
Theorem C42_unique : forall xs m m' v v', xs <> [] -> is_mean xs m -> is_mean xs m' -> is_variance xs v -> is_variance xs v' -> m == m' /\ v == v'.
Proof.
  intros xs m m' v v' N M M' V V'. assert (0 < size xs) as P by (destruct xs as [|x xs]; [congruence|apply q_pos]).
  split; apply Qmult_inj_r with (size xs); try lra.
  - unfold is_mean in *. now rewrite M, M'.
  - now rewrite (V m M), (V' m M).
Qed.
Print Assumptions C42_unique.
(** With saturated pixels the result is not the mean and depends on the order. *)
Theorem C142_saturated_refuted : exists clip xs ys m m', Permutation xs ys /\ running_mean clip xs = Some m /\ running_mean clip ys = Some m' /\
  ~ is_mean xs m /\ ~ m == m'.
Proof.
  exists (95 # 100), [1; 1 # 2], [1 # 2; 1]. eexists. eexists. split; [apply perm_swap|]. split; [reflexivity|]. split; [reflexivity|].
  split; [intros H; vm_compute in H; discriminate|intros H; vm_compute in H; discriminate].
Qed.
Print Assumptions C142_saturated_refuted.
Theorem C142_ignore_zeroes_refuted : exists xs, ~ is_mean xs (fst (file_stats true xs)) /\ ~ is_mean (filter (fun x => negb (Qeq_bool x 0)) xs) (fst (file_stats true xs)).
Proof. exists [1; 0; 4]. split; intros H; vm_compute in H; discriminate. Qed.
Print Assumptions C142_ignore_zeroes_refuted.

Example C42_example : running_mean 1 [1 # 10; 2 # 10; 6 # 10] = Some (mean (running 1 [1 # 10; 2 # 10; 6 # 10])) /\
  mean (running 1 [1 # 10; 2 # 10; 6 # 10]) == 3 # 10 /\ fst (array_stats [1; 2; 6]) == 3 /\ snd (array_stats [1; 2; 6]) == 14 # 3 /\
  running_mean 1 [1 # 2] = None.
Proof. repeat split. Qed.

(** ** C73 *)
(** The sample kept is the first one with the smallest signed error. *)
Lemma ransac_min : forall data thr samples best e idx,
  fold_left (ransac_step data thr) samples best = Some (e, idx) ->
  (forall s, In s samples -> e <= ransac_error data thr s) /\
  match best with Some (b, i) => e <= b /\ ((e = b /\ idx = i) \/ (In idx samples /\ e = ransac_error data thr idx /\ e < b)) | None => In idx samples /\ e = ransac_error data thr idx end.
Proof.
  intros data thr. induction samples as [|s samples IH]; intros best e idx H; cbn [fold_left] in H.
  - subst best. split; [intros s []|]. split; [apply Qle_refl|now left].
  - apply IH in H as [H1 H2]. unfold ransac_step in H2. destruct best as [[b i]|].
    + destruct (Qltb (ransac_error data thr s) b) eqn:E.
      * apply Qltb_lt in E. destruct H2 as [L O]. split; [intros t [<-|I]; [exact L|now apply H1]|]. split; [lra|]. right.
        destruct O as [[-> ->]|(I & -> & L')]; [split; [now left|split; [reflexivity|exact E]]|].
        split; [now right|]. split; [reflexivity|lra].
      * apply Qltb_ge in E. destruct H2 as [L O]. split; [intros t [<-|I]; [lra|now apply H1]|]. split; [exact L|].
        destruct O as [O|(I & -> & L')]; [now left|]. right. split; [now right|]. now split.
    + destruct H2 as [L O]. split; [intros t [<-|I]; [exact L|now apply H1]|].
      destruct O as [[-> ->]|(I & -> & _)]; [split; [now left|reflexivity]|]. split; [now right|reflexivity].
Qed.
Theorem C73_smallest_signed_error : forall data thr samples e idx, ransac_best data thr samples = Some (e, idx) ->
  In idx samples /\ forall s, In s samples -> ransac_error data thr idx <= ransac_error data thr s.
Proof. intros data thr samples e idx H. destruct (ransac_min _ _ _ _ _ _ H) as [H1 [H2 ->]]. now split. Qed.
Print Assumptions C73_smallest_signed_error.
(** What is returned: the mean of the data closer than the threshold to the mean of the kept
    sample. *)
Definition drawn (data : list Q) (idx : list nat) : list Q := map (fun i => nth i data 0) idx.
Lemma split_by : forall (f : Q -> bool) l, Permutation l (filter f l ++ filter (fun x => negb (f x)) l).
Proof.
  intros f. induction l as [|x l IH]; [constructor|]. cbn [filter]. destruct (f x); cbn [negb app]; [now constructor|]. now apply Permutation_cons_app.
Qed.
Theorem C73_mean_of_inliers : forall data thr samples m, ransac_mean data thr samples = Some m ->
  exists e idx, ransac_best data thr samples = Some (e, idx) /\ In idx samples /\
    forall c, is_mean (drawn data idx) c -> idx <> [] -> exists near far, Permutation data (near ++ far) /\
      (forall x, In x near -> Qabs (x - c) < thr) /\ (forall x, In x far -> thr <= Qabs (x - c)) /\ is_mean near m.
Proof.
  intros data thr samples m H. unfold ransac_mean in H. destruct (ransac_best data thr samples) as [[e idx]|] eqn:B; [|discriminate]. exists e, idx. split; [reflexivity|].
  split; [now apply (C73_smallest_signed_error data thr samples e)|]. intros c C N.
  assert (sample_mean data idx == c) as E.
  { unfold is_mean, size, drawn in C. rewrite map_length in C. unfold sample_mean. change (q (length idx)) with (inject_Z (Z.of_nat (length idx))). assert (0 < inject_Z (Z.of_nat (length idx))) as P by (destruct idx; [congruence|apply q_pos]).
    change (sum (map (fun i => nth i data 0) idx)) with (total (fun x => x) (map (fun i => nth i data 0) idx)). set (n := inject_Z (Z.of_nat (length idx))) in *. set (t := total _ _) in *. setoid_replace t with (c * n) by (symmetry; exact C). field. lra. }
  exists (inliers data thr (sample_mean data idx)), (filter (fun x => negb (Qltb (Qabs (x - sample_mean data idx)) thr)) data).
  split; [apply split_by|]. split; [|split].
  - intros x I. apply filter_In in I as [_ I]. apply Qltb_lt in I. now rewrite <- E.
  - intros x I. apply filter_In in I as [_ I]. destruct (Qltb _ _) eqn:F in I; [discriminate|]. apply Qltb_ge in F. now rewrite <- E.
  - unfold np_mean in H. destruct (inliers data thr (sample_mean data idx)) as [|x l]; [discriminate|]. assert (m = sum (x :: l) / q (length (x :: l))) as -> by congruence. unfold is_mean.
    change (sum (x :: l)) with (total (fun x => x) (x :: l)). change (q (length (x :: l))) with (size (x :: l)). assert (0 < size (x :: l)) by apply q_pos. set (t := total _ _). set (n := size _) in *. clearbody t n. field. lra.
Qed.
Print Assumptions C73_mean_of_inliers.
(** So it is not the best fit: a sample whose inliers all lie below it wins against one
    with no error and more inliers. *)
Theorem C173_best_fit_refuted : exists data thr samples e idx s, ransac_best data thr samples = Some (e, idx) /\ In s samples /\
  ransac_error data thr s == 0 /\ e < 0 /\ (length (inliers data thr (sample_mean data idx)) < length (inliers data thr (sample_mean data s)))%nat.
Proof.
  exists [0; 2; 1; 10; 9], (3 # 2), [[0; 1]; [3; 3]]%nat. eexists. eexists. exists [0; 1]%nat.
  split; [reflexivity|]. split; [now left|]. split; [reflexivity|]. split; [reflexivity|]. vm_compute. lia.
Qed.
Print Assumptions C173_best_fit_refuted.
(** One sample suffices to be kept. *)
Example C73_example : ransac_mean [0; 2; 1; 10; 9] (3 # 2) [[0; 1]%nat] = Some (3 / 3) /\ ransac_mean [0; 2; 1; 10; 9] (3 # 2) [[0; 1]; [3; 3]]%nat = Some (19 / 2).
Proof. split; vm_compute; reflexivity. Qed.

(** ** C74 *)
Lemma nd_split : forall (a b : list Q), nondecreasing (fun x => x) (a ++ b) -> forall x y, In x a -> In y b -> x <= y.
Proof.
  induction a as [|z a IH]; intros b H x y; [intros []|]. cbn [app] in H. apply nd_cons_iff in H. destruct H as [H1 H2].
  intros [<-|I] J; [apply H1, in_app_iff; now right|]. now apply (IH b).
Qed.
(** The trimmed mean of a row of values is the mean of what is left after removing the
    smallest and the largest. *)
Theorem C74_trimmed : forall rate data, 0 < rate -> rate <= 1 -> exists low mid high,
  Permutation data (low ++ mid ++ high) /\
  (forall x y, In x low -> In y mid -> x <= y) /\ (forall x y, In x mid -> In y high -> x <= y) /\
  length low = Nat.min (length data) (trunc (size data * rate / 2)) /\
  (length low + length mid)%nat = Nat.min (length data) (Nat.max (length low) (trunc (size data * (1 - rate / 2)))) /\
  match trimmed_1d rate data with Some m => is_mean mid m | None => mid = [] end.
Proof.
  intros rate data _ _. set (s := qsort (fun x => x) data).
  set (l := trunc (size data * rate / 2)). set (r := trunc (size data * (1 - rate / 2))).
  exists (firstn l s), (firstn (r - l) (skipn l s)), (skipn (r - l) (skipn l s)).
  assert (length s = length data) as L by apply qsort_length.
  rewrite firstn_skipn, firstn_skipn. split; [apply qsort_perm|].
  assert (nondecreasing (fun x => x) s) as ND by apply qsort_sorted.
  split; [|split; [|split; [|split]]].
  - intros x y I J. apply (nd_split (firstn l s) (skipn l s)); [now rewrite firstn_skipn|exact I|].
    rewrite <- (firstn_skipn (r - l)). apply in_app_iff. now left.
  - intros x y I J. apply (nd_split (firstn l s ++ firstn (r - l) (skipn l s)) (skipn (r - l) (skipn l s))).
    + now rewrite <- app_assoc, !firstn_skipn.
    + apply in_app_iff. now right.
    + exact J.
  - rewrite firstn_length, L. lia.
  - rewrite !firstn_length, skipn_length, L. lia.
  - change (trimmed_1d rate data) with (np_mean (firstn (r - l) (skipn l s))).
    destruct (firstn (r - l) (skipn l s)) as [|x mid]; [exact eq_refl|]. unfold np_mean, is_mean.
    assert (sum (x :: mid) = total (fun x => x) (x :: mid)) as -> by reflexivity.
    change (q (length (x :: mid))) with (size (x :: mid)). assert (0 < size (x :: mid)) by apply q_pos. field. lra.
Qed.
Print Assumptions C74_trimmed.
Example C74_example : trimmed_1d (4 # 10) [9; 1; 5; 4; 100; 2; 3; 6; 7; 8] = Some (33 / 6).
Proof. vm_compute. reflexivity. Qed.
(** Over a stack of images the selection has one row, so nothing is left: NaN everywhere,
    whatever the images. *)
Lemma trunc_small : forall x, 0 <= x -> x < 1 -> trunc x = 0%nat.
Proof. intros [n d] H1 H2. unfold trunc. cbn [Qnum Qden]. unfold Qle, Qlt in *. cbn [Qnum Qden] in *. rewrite Z.div_small; [reflexivity|lia]. Qed.
Lemma image_nan : forall rate xs, 0 < rate -> rate < 2 -> image_trimmed rate xs = None.
Proof.
  intros rate xs H1 H2. unfold image_trimmed, trimmed_2d, cut. cbn [length].
  assert (q 1 == 1) as Q1 by reflexivity.
  assert (q 1 * (1 - rate / 2) == 1 - rate * (1 # 2)) as E by (rewrite Q1; field).
  rewrite (trunc_small (q 1 * (1 - rate / 2))) by (rewrite E; lra). reflexivity.
Qed.
Theorem C174_images_refuted : exists rate, 0 < rate /\ rate <= 1 /\ forall xs, image_trimmed rate xs = None.
Proof. exists (1 # 5). split; [lra|]. split; [lra|]. intros xs. apply image_nan; lra. Qed.
Print Assumptions C174_images_refuted.
Theorem C174_images_nan : forall rate xs, 0 < rate -> rate < 2 -> image_trimmed rate xs = None.
Proof. exact image_nan. Qed.
Print Assumptions C174_images_nan.
