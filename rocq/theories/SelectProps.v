(** C49: training images are selected by their own altitude; C57: all dives contribute. *)
From Coq Require Import Qround.
From Verif Require Import PyBase PfProofs SelectModel.
Open Scope Q_scope.

(** ** Specification *)
Definition usable {P} (lo hi : Q) (r : nav_row P) (a : Q) : Prop := exists_ r = true /\ alt r = Some a /\ lo < a /\ a < hi.

(** ** C49 *)
Lemma selected_usable : forall P lo hi (r : nav_row P) a, alt r = Some a -> (selected P lo hi r = true <-> usable lo hi r a).
Proof.
  intros P lo hi r a E. unfold selected, usable. rewrite E. rewrite !Bool.andb_true_iff, !Qltb_lt. intuition.
Qed.
Lemma selected_some : forall P lo hi (r : nav_row P), selected P lo hi r = true -> exists a, usable lo hi r a.
Proof.
  intros P lo hi r H. destruct (alt r) as [a|] eqn:A; [exists a; now apply selected_usable|]. unfold selected in H. rewrite A, Bool.andb_false_r in H. discriminate.
Qed.
Lemma get_lists_eq : forall P lo hi (rows : list (nav_row P)) images alts, get_lists P lo hi rows = (images, alts) ->
  images = map image (filter (selected P lo hi) rows) /\ Forall2 (fun r a => alt r = Some a) (filter (selected P lo hi) rows) alts.
Proof.
  intros P lo hi. induction rows as [|r rows IH]; intros images alts E; cbn [get_lists] in E.
  - injection E as <- <-. split; [reflexivity|constructor].
  - destruct (get_lists P lo hi rows) as [im al]. destruct (IH im al eq_refl) as (-> & F). cbn [filter].
    destruct (alt r) as [a|] eqn:A.
    + destruct (selected P lo hi r); injection E as <- <-; split; try reflexivity; try assumption. now constructor.
    + assert (selected P lo hi r = false) as -> by (unfold selected; rewrite A; apply Bool.andb_false_r). injection E as <- <-. now split.
Qed.
(** The two lists are the images and the altitudes of exactly the usable rows, in order. *)
Theorem C49_selection : forall P lo hi (rows : list (nav_row P)) images alts, get_lists P lo hi rows = (images, alts) ->
  exists kept, images = map image kept /\ Forall2 (fun r a => alt r = Some a) kept alts /\
    (exists keep, kept = filter keep rows) /\ forall r, In r kept <-> In r rows /\ exists a, usable lo hi r a.
Proof.
  intros P lo hi rows images alts E. destruct (get_lists_eq _ _ _ _ _ _ E) as [I F]. exists (filter (selected P lo hi) rows).
  split; [exact I|]. split; [exact F|]. split; [now exists (selected P lo hi)|]. intros r. rewrite filter_In. split; intros [J K]; (split; [exact J|]).
  - now apply selected_some.
  - destruct K as (a & U). apply (selected_usable P lo hi r a); [apply U|exact U].
Qed.
Print Assumptions C49_selection.

(** Dropping the images without depth map keeps the others in order, each with its map. *)
Lemma delete_app : forall A (l : list A) m x, delete (length l) (l ++ x :: m) = l ++ m.
Proof. induction l as [|y l IH]; intros m x; [reflexivity|]. cbn. now rewrite IH. Qed.
Lemma drop_all : forall P (f : P -> bool) images before,
  fold_left (fun l i => delete i l) (rev (to_drop P f (length before) images)) (before ++ images) = before ++ filter f images.
Proof.
  intros P f. induction images as [|p images IH]; intros before; [reflexivity|]. cbn [to_drop filter].
  assert (before ++ p :: images = (before ++ [p]) ++ images) as E by now rewrite <- app_assoc.
  assert (S (length before) = length (before ++ [p])) as L by (rewrite app_length; cbn; lia).
  rewrite rev_app_distr, fold_left_app, L, E, IH. destruct (f p); cbn [rev app fold_left].
  - now rewrite <- app_assoc.
  - rewrite <- app_assoc. cbn [app]. now rewrite delete_app.
Qed.
Theorem C49_depth_maps : forall P has_map (l : lists P), maps_l l = [] -> images_l (depth_maps P has_map l) = filter has_map (images_l l) /\
  maps_l (depth_maps P has_map l) = images_l (depth_maps P has_map l).
Proof.
  intros P f l M. unfold depth_maps. cbn [images_l maps_l]. pose proof (drop_all P f (images_l l) []) as D. cbn [app length] in D. rewrite D, M. now split.
Qed.
Print Assumptions C49_depth_maps.
(** The altitude list is not shortened with it: the second image gets the altitude of the
    first. *)
Theorem C149_aligned_refuted : exists lo hi (rows : list (nav_row nat)) has_map images alts r,
  get_lists nat lo hi rows = (images, alts) /\ In r rows /\
  let l := depth_maps nat has_map (mklists images [] alts) in
  nth_error (images_l l) 0 = Some (image r) /\ nth_error (alts_l l) 0 <> Some 5 /\ alt r = Some 5 /\ length (images_l l) <> length (alts_l l).
Proof.
  exists 2, 8, [mkrow 1%nat true (Some 4); mkrow 2%nat true (Some 5)], (fun p => Nat.eqb p 2). eexists. eexists. exists (mkrow 2%nat true (Some 5)).
  split; [reflexivity|]. split; [right; now left|]. cbv zeta. split; [reflexivity|]. split; [discriminate|]. split; [reflexivity|discriminate].
Qed.
Print Assumptions C149_aligned_refuted.

(** *** Bins *)
Lemma edge_S : forall lo k, edge lo (S k) == edge lo k + (1 # 10).
Proof. intros lo k. unfold edge. rewrite Nat2Z.inj_succ. unfold Z.succ. rewrite inject_Z_plus. change (inject_Z 1) with 1. ring. Qed.
Lemma edge_mono : forall lo j k, (j <= k)%nat -> edge lo j <= edge lo k.
Proof. intros lo j k H. induction H; [apply Qle_refl|]. rewrite edge_S. lra. Qed.
Lemma filter_all : forall A (f : A -> bool) l, (forall x, In x l -> f x = true) -> filter f l = l.
Proof. induction l as [|x l IH]; intros H; [reflexivity|]. cbn. rewrite H by now left. f_equal. apply IH. intros y I. apply H. now right. Qed.
Lemma filter_none : forall A (f : A -> bool) l, (forall x, In x l -> f x = false) -> filter f l = [].
Proof. induction l as [|x l IH]; intros H; [reflexivity|]. cbn. rewrite H by now left. apply IH. intros y I. apply H. now right. Qed.
Lemma count_edges : forall lo n x c, (c <= n)%nat -> (forall k, (k < c)%nat -> edge lo k <= x) -> (forall k, (c <= k < n)%nat -> x < edge lo k) ->
  length (filter (fun k => Qle_bool (edge lo k) x) (seq 0 n)) = c.
Proof.
  intros lo n x c C L H. replace n with (c + (n - c))%nat by lia. rewrite seq_app, filter_app. rewrite filter_all, filter_none, app_nil_r; [apply seq_length| |].
  - intros k I. apply in_seq in I. destruct (Qle_bool (edge lo k) x) eqn:E; [|reflexivity]. apply Qle_bool_iff in E. specialize (H k). exfalso. assert (x < edge lo k) by (apply H; lia). lra.
  - intros k I. apply in_seq in I. apply Qle_bool_iff, L. lia.
Qed.
Definition in_bin (lo hi x : Q) (b : nat) : Prop := (b < n_edges lo hi - 1)%nat /\ edge lo b <= x /\ x < edge lo (S b).
(** An altitude is assigned to a processed bin exactly when it lies between its edges. *)
Lemma locate : forall lo x n, lo <= x -> exists c, (c <= n)%nat /\ (forall k, (k < c)%nat -> edge lo k <= x) /\ (forall k, (c <= k < n)%nat -> x < edge lo k) /\ ((0 < n)%nat -> (0 < c)%nat).
Proof.
  intros lo x n H. induction n as [|n (c & C1 & C2 & C3 & C4)]; [exists O; repeat split; intros; lia|].
  destruct (Qlt_le_dec x (edge lo n)) as [G|G].
  - exists c. split; [lia|]. split; [exact C2|]. split; [|intros _; destruct n; [|apply C4; lia]].
    + intros k K. apply Qlt_le_trans with (edge lo c); [|apply edge_mono; lia]. destruct (Nat.eq_dec c n) as [->|]; [exact G|]. apply C3. lia.
    + exfalso. unfold edge in G. change (inject_Z (Z.of_nat 0)) with 0 in G. lra.
  - exists (S n). split; [lia|]. split; [intros k K; apply Qle_trans with (edge lo n); [apply edge_mono; lia|exact G]|]. split; intros; lia.
Qed.
Theorem C49_bins : forall lo hi x b, lo <= x -> (b < n_edges lo hi - 1)%nat -> (digitize lo hi x = Z.of_nat b <-> in_bin lo hi x b).
Proof.
  intros lo hi x b H B. unfold digitize, in_bin. destruct (locate lo x (n_edges lo hi) H) as (c & C1 & C2 & C3 & C4).
  rewrite (count_edges lo (n_edges lo hi) x c C1 C2 C3). split.
  - intros E. assert (c = S b) as -> by lia. split; [exact B|]. split; [apply C2; lia|apply C3; lia].
  - intros (_ & L & G). assert (c = S b) as ->; [|lia].
    destruct (Nat.lt_trichotomy c (S b)) as [K|[K|K]]; [|exact K|].
    + assert (x < edge lo b) by (apply C3; lia). lra.
    + assert (edge lo (S b) <= x) by (apply C2; lia). lra.
Qed.
Print Assumptions C49_bins.
(** The bins the curve is fitted to: those with ten images, each with the images whose
    altitude lies between its edges. *)
Theorem C49_bins_used : forall lo hi alts b members, (forall a, In a alts -> lo <= a) -> In (b, members) (bins_used lo hi alts) ->
  (b < n_edges lo hi - 1)%nat /\ (10 <= length members)%nat /\ NoDup members /\
  forall i, In i members <-> exists a, nth_error alts i = Some a /\ in_bin lo hi a b.
Proof.
  intros lo hi alts b members H I. unfold bins_used in I. apply filter_In in I as [I T]. cbn [snd] in T. apply Nat.leb_le in T.
  apply in_map_iff in I as (b' & E & J). injection E as -> <-. apply in_seq in J. split; [lia|]. split; [exact T|].
  split; [apply NoDup_filter, seq_NoDup|]. intros i. unfold bin_members. rewrite filter_In, in_seq, Z.eqb_eq. split.
  - intros [L D]. destruct (nth_error alts i) as [a|] eqn:N; [|apply nth_error_None in N; lia]. exists a. split; [reflexivity|].
    rewrite (nth_error_nth _ _ _ N) in D. apply C49_bins in D; [exact D| |lia]. apply H. now apply nth_error_In in N.
  - intros (a & N & B). assert (i < length alts)%nat by (apply nth_error_Some; congruence). split; [lia|]. rewrite (nth_error_nth _ _ _ N).
    apply C49_bins; [apply H; now apply nth_error_In in N|lia|exact B].
Qed.
Print Assumptions C49_bins_used.
(** No altitude is in two bins. *)
Theorem C49_one_bin : forall lo hi x b b', in_bin lo hi x b -> in_bin lo hi x b' -> b = b'.
Proof.
  intros lo hi x b b' (_ & L & G) (_ & L' & G'). destruct (Nat.lt_trichotomy b b') as [K|[K|K]]; [|exact K|]; exfalso.
  - assert (edge lo (S b) <= edge lo b') by (apply edge_mono; lia). lra.
  - assert (edge lo (S b') <= edge lo b) by (apply edge_mono; lia). lra.
Qed.
Print Assumptions C49_one_bin.
(** When the range is a whole number of bins every selected altitude is in one. *)
Theorem C49_every_image_binned : forall lo hi x m, hi == lo + inject_Z (Z.of_nat m) * (1 # 10) -> lo < x -> x < hi -> exists b, in_bin lo hi x b.
Proof.
  intros lo hi x m E L G.
  assert (n_edges lo hi = S m) as N.
  { unfold n_edges. assert ((hi + (1 # 20) - lo) * 10 == inject_Z (Z.of_nat m) + (1 # 2)) as Q by (rewrite E; ring).
    rewrite (Qceiling_comp _ _ Q). assert (Qceiling (inject_Z (Z.of_nat m) + (1 # 2)) = Z.of_nat m + 1)%Z as ->; [|lia].
    pose proof (Qle_ceiling (inject_Z (Z.of_nat m) + (1 # 2))) as A. pose proof (Qceiling_lt (inject_Z (Z.of_nat m) + (1 # 2))) as B.
    set (c := Qceiling (inject_Z (Z.of_nat m) + (1 # 2))) in *.
    destruct (Z.lt_trichotomy c (Z.of_nat m + 1)) as [K|[K|K]]; [|exact K|]; exfalso.
    - assert (c <= Z.of_nat m)%Z as K' by lia. rewrite Zle_Qle in K'. lra.
    - assert (Z.of_nat m + 1 <= c - 1)%Z as K' by lia. rewrite Zle_Qle, inject_Z_plus in K'. change (inject_Z 1) with 1 in K'. lra. }
  destruct (locate lo x (S m) ltac:(lra)) as (c & C1 & C2 & C3 & C4). specialize (C4 ltac:(lia)).
  assert (c <= m)%nat as CM. { destruct (Nat.le_gt_cases c m) as [|K]; [assumption|]. assert (edge lo m <= x) as Z by (apply C2; lia). unfold edge in Z. rewrite <- E in Z. lra. }
  exists (c - 1)%nat. unfold in_bin. rewrite N. split; [lia|]. replace (S (c - 1)) with c by lia. split; [apply C2; lia|apply C3; lia].
Qed.
Print Assumptions C49_every_image_binned.
(** Otherwise the images just below the maximum may be in no bin. *)
Theorem C149_top_images_refuted : exists lo hi x, lo < x /\ x < hi /\ forall b, ~ in_bin lo hi x b.
Proof.
  exists 2, (213 # 100), (212 # 100). split; [reflexivity|]. split; [reflexivity|]. intros b (B & L & G). assert (n_edges 2 (213 # 100) = 2%nat) as N by reflexivity. rewrite N in B.
  assert (b = 0)%nat as -> by lia. unfold Qlt in G. cbn in G. lia.
Qed.
Print Assumptions C149_top_images_refuted.
Example C49_example : get_lists nat 2 8 [mkrow 1%nat true (Some 5); mkrow 2%nat true None; mkrow 3%nat true (Some 8); mkrow 4%nat false (Some 5); mkrow 5%nat true (Some (27 # 10))] = ([1; 5]%nat, [5; 27 # 10]) /\
  digitize 2 8 (27 # 10) = 7%Z /\ n_edges 2 8 = 61%nat.
Proof. repeat split. Qed.

(** ** C57 *)
(** Colour correction keeps the images of the last dive only. *)
Theorem C57_only_last_dive : forall P lo hi (dives : list (list (nav_row P))) d, parse_colour P lo hi (dives ++ [d]) = get_lists P lo hi d.
Proof. intros. unfold parse_colour. now rewrite fold_left_app. Qed.
Print Assumptions C57_only_last_dive.
Theorem C157_all_dives_refuted : exists lo hi (d1 d2 : list (nav_row nat)) r a, In r d1 /\ usable lo hi r a /\ ~ In (image r) (fst (parse_colour nat lo hi [d1; d2])).
Proof.
  exists 2, 8, [mkrow 1%nat true (Some 5)], [mkrow 2%nat true (Some 5)], (mkrow 1%nat true (Some 5)), 5. split; [now left|]. split; [repeat split|].
  cbn. intros [H|[]]. discriminate.
Qed.
Print Assumptions C157_all_dives_refuted.
Theorem C57_one_dive : forall P lo hi (d : list (nav_row P)), parse_colour P lo hi [d] = get_lists P lo hi d.
Proof. reflexivity. Qed.
Print Assumptions C57_one_dive.
(** Manual balance: the list of the first dive, doubled for every further dive. *)
Theorem C57_manual_doubles : forall P (eq_dec : forall x y : P, {x = y} + {x <> y}) (camera : list P) n x,
  count_occ eq_dec (parse_manual P camera (S n)) x = (2 ^ n * count_occ eq_dec camera x)%nat.
Proof.
  intros P D camera n x. unfold parse_manual.
  assert (snd (Nat.iter (S n) (manual_step P) (camera, Some [])) = None /\ count_occ D (fst (Nat.iter (S n) (manual_step P) (camera, Some []))) x = (2 ^ n * count_occ D camera x)%nat) as [_ H]; [|exact H].
  induction n as [|n IH]; [cbn; now rewrite app_nil_r, Nat.add_0_r|]. change (Nat.iter (S (S n)) (manual_step P) (camera, Some [])) with (manual_step P (Nat.iter (S n) (manual_step P) (camera, Some []))).
  destruct (Nat.iter (S n) (manual_step P) (camera, Some [])) as [c o]. cbn [fst snd] in IH. destruct IH as [-> IH]. cbn [manual_step fst snd].
  split; [reflexivity|]. rewrite count_occ_app, IH. cbn [Nat.pow]. lia.
Qed.
Print Assumptions C57_manual_doubles.
Theorem C157_each_once_refuted : exists (camera : list nat) n, NoDup camera /\ ~ NoDup (parse_manual nat camera n).
Proof. exists [1%nat], 2%nat. split; [repeat constructor; intros []|]. cbn. intros H. inversion_clear H as [|? ? H1 H2]. apply H1. now left. Qed.
Print Assumptions C157_each_once_refuted.
Example C57_example : parse_manual nat [1; 2]%nat 1 = [1; 2]%nat /\ parse_manual nat [1; 2]%nat 3 = [1; 2; 1; 2; 1; 2; 1; 2]%nat.
Proof. split; reflexivity. Qed.
