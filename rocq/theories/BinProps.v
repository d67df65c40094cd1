(** C209, C210: the samples of the attenuation curves. *)
From Coq Require Import Qround Permutation.
From Verif Require Import PyBase StatsModel StatsProps BinModel.
Open Scope Q_scope.

(** ** Spec *)
(** Lower edge of bin [b]: tenths of a metre above the smallest altitude. *)
Definition edge (s : setting) (b : nat) : Q := parse_min s + inject_Z (Z.of_nat b) / 10.
Definition in_bin (s : setting) (b : nat) (h : shot) : Prop := exists d, distance h = Some d /\ edge s b <= d /\ d < edge s (S b).

Lemma band_edge : forall s b, parse_min s + q b * band == edge s b.
Proof. intros s b. unfold edge, q, band. field. Qed.
Lemma q_lt : forall a b, (a < b)%nat -> q a + 1 <= q b.
Proof. intros a b L. unfold q. change 1 with (inject_Z 1). rewrite <- inject_Z_plus, <- Zle_Qle. lia. Qed.
Lemma edge_mono : forall s a b, (a <= b)%nat -> edge s a <= edge s b.
Proof.
  intros s a b L. rewrite <- !band_edge. unfold band. assert (q a <= q b) by (unfold q; rewrite <- Zle_Qle; lia). lra.
Qed.
Lemma edge_S : forall s b, edge s (S b) == edge s b + (1 # 10).
Proof. intros s b. rewrite <- !band_edge. unfold band. rewrite q_S. ring. Qed.

Lemma digitize_spec : forall s n k x, (forall i, digitize (Some x) (map (fun i => parse_min s + q i * band) (seq k n)) = i ->
  (i <= n)%nat /\ (forall j, (k <= j < k + i)%nat -> edge s j <= x) /\ ((i < n)%nat -> x < edge s (k + i))).
Proof.
  intros s. induction n as [|n IH]; intros k x i E; cbn [seq map digitize] in E.
  - subst i. split; [lia|]. split; [intros j J; lia|lia].
  - destruct (Qle_bool (parse_min s + q k * band) x) eqn:L.
    + destruct i as [|i]; [discriminate|]. injection E as E. destruct (IH (S k) x i E) as (A & B & C). apply Qle_bool_iff in L. rewrite band_edge in L. split; [lia|]. split.
      * intros j J. destruct (Nat.eq_dec j k) as [->|Nj]; [exact L|apply B; lia].
      * intros I. replace (k + S i)%nat with (S k + i)%nat by lia. apply C. lia.
    + subst i. split; [lia|]. split; [intros j J; lia|]. intros _. rewrite Nat.add_0_r. apply Qnot_le_lt. rewrite <- band_edge. intros K. apply Qle_bool_iff in K. congruence.
Qed.
Lemma digitize_nan : forall l, digitize None l = length l.
Proof. induction l as [|e l IH]; [reflexivity|]. cbn. now rewrite IH. Qed.
(** An image is in bin [b] exactly when its distance lies between the edges of the bin. *)
Theorem C209_bins : forall s b shots h, (b < bin_count s)%nat -> (In h (members s b shots) <-> In h shots /\ in_bin s b h).
Proof.
  intros s b shots h B. unfold members. rewrite filter_In, Z.eqb_eq. unfold bin_of, hist_bins, bin_count, in_bin in *. set (n := edge_count _ _) in *.
  destruct (distance h) as [x|].
  - set (l := map _ _). destruct (digitize_spec s n 0 x (digitize (Some x) l) eq_refl) as (A & L & U). set (i := digitize (Some x) l) in *. clearbody i. split; intros [I E]; (split; [exact I|]).
    + exists x. split; [reflexivity|]. split; [apply L; lia|]. replace (S b) with (0 + i)%nat by lia. apply U. lia.
    + destruct E as (d & D & E1 & E2). injection D as <-. enough (i = S b) by lia. destruct (lt_eq_lt_dec i (S b)) as [[K|K]|K]; [|exact K|].
      * exfalso. assert (i < n)%nat as I' by lia. specialize (U I'). cbn in U. pose proof (edge_mono s i b ltac:(lia)). lra.
      * exfalso. specialize (L (S b) ltac:(lia)). lra.
  - rewrite digitize_nan, map_length, seq_length. split; [intros [I E]; lia|]. intros [I (d & D & _)]. discriminate.
Qed.
Print Assumptions C209_bins.
(** The bins cover the altitudes up to a last edge at most half a bin from the largest altitude, each by one bin. *)
Theorem C209_cover : forall s, parse_min s <= parse_max s ->
  parse_max s - (1 # 20) <= edge s (bin_count s) /\ edge s (bin_count s) < parse_max s + (1 # 20) /\
  forall x, parse_min s <= x -> x < edge s (bin_count s) -> exists b, (b < bin_count s)%nat /\ edge s b <= x < edge s (S b) /\
    forall b', edge s b' <= x < edge s (S b') -> b' = b.
Proof.
  intros s R. unfold bin_count. set (y := (parse_max s + (1 # 2) * band - parse_min s) / band). pose proof (Qle_ceiling y) as C1. pose proof (Qceiling_lt y) as C2.
  assert (Y : parse_max s == parse_min s + y * (1 # 10) - (1 # 20)) by (unfold y, band; field).
  assert (Y0 : 0 < y) by lra. assert (P : (0 < Qceiling y)%Z) by (rewrite Zlt_Qlt; change (inject_Z 0) with 0; lra).
  assert (E : edge s (edge_count (parse_min s) (parse_max s) - 1) == parse_min s + (inject_Z (Qceiling y) - 1) * (1 # 10)).
  { unfold edge, edge_count. fold y. rewrite Nat2Z.inj_sub by lia. rewrite Z2Nat.id by lia. change (Z.of_nat 1) with 1%Z. unfold Z.sub. rewrite inject_Z_plus. change (inject_Z (- (1))) with (-(1)). field. }
  unfold Z.sub in C2. rewrite inject_Z_plus in C2. change (inject_Z (- (1))) with (-(1)) in C2. rewrite E. split; [lra|]. split; [lra|].
  intros x X1 X2. revert X2. generalize (edge_count (parse_min s) (parse_max s) - 1)%nat. intros n X2.
  assert (U : forall b b', edge s b <= x < edge s (S b) -> edge s b' <= x < edge s (S b') -> b' = b).
  { intros b b' B B'. destruct (lt_eq_lt_dec b b') as [[K|K]|K]; [|auto|]; exfalso; [pose proof (edge_mono s (S b) b' K)|pose proof (edge_mono s (S b') b K)]; lra. }
  induction n as [|n IH].
  - exfalso. assert (edge s 0 == parse_min s) by (unfold edge; cbn; field). lra.
  - destruct (Qlt_le_dec x (edge s n)) as [K|K]; [destruct (IH K) as (b & B & B1 & B2); exists b; split; [lia|now split]|].
    exists n. split; [lia|]. split; [lra|]. intros b' B'. apply (U n b'); [lra|exact B'].
Qed.
Print Assumptions C209_cover.

(** ** One bin *)
Lemma sum_total : forall l, sum l == total (fun x => x) l.
Proof. induction l as [|x l IH]; [reflexivity|]. cbn. rewrite IH. reflexivity. Qed.
Lemma mean_between : forall xs m a b, xs <> [] -> is_mean xs m -> (forall x, In x xs -> a <= x < b) -> a <= m < b.
Proof.
  intros xs m a b N M H. unfold is_mean in M.
  assert (G : a * size xs <= total (fun x => x) xs /\ (total (fun x => x) xs < b * size xs \/ xs = [])).
  { clear M N. unfold size. induction xs as [|x xs IH]; [split; [change (a * 0 <= 0); lra|now right]|]. destruct (IH (fun y Y => H y (or_intror Y))) as [G1 G2]. specialize (H x (or_introl eq_refl)).
    rewrite total_cons. cbn [length]. rewrite Nat2Z.inj_succ, <- Z.add_1_r, inject_Z_plus. change (inject_Z 1) with 1. split; [lra|left].
    destruct G2 as [G2| ->]; [lra|]. change (x + 0 < b * (0 + 1)). lra. }
  destruct G as [G1 [G2|G2]]; [|contradiction]. assert (S : 0 < size xs). { unfold size. change 0 with (inject_Z 0). rewrite <- Zlt_Qlt. destruct xs; [contradiction|cbn [length]; lia]. }
  split; [apply Qnot_lt_le|apply Qnot_le_lt]; intros K.
  - assert (m * size xs < a * size xs) by (apply Qmult_lt_compat_r; assumption). lra.
  - assert (b * size xs <= m * size xs) by (apply Qmult_le_compat_r; lra). lra.
Qed.
Definition distances (l : list shot) : list Q := map (fun h => match distance h with Some d => d | None => 0 end) l.
Lemma mean_distance_mean : forall l, l <> [] -> is_mean (distances l) (mean_distance l).
Proof.
  intros l N. unfold is_mean, mean_distance, size, distances. rewrite sum_total, map_length. unfold q. field. intros K. change 0 with (inject_Z 0) in K. rewrite inject_Z_injective in K. destruct l; [contradiction|cbn [length] in K; lia].
Qed.
(** A bin of fewer than ten images is left out; of the others the row is written with the mean distance of its images, which
    lies within the bin, and (smoothing "mean") the mean of their values. *)
Theorem C209_small_bin : forall s shots b, (length (members s b shots) < 10)%nat <-> compute_bin s shots b = None.
Proof. intros s shots b. unfold compute_bin. destruct (10 <=? length _)%nat eqn:E; [apply Nat.leb_le in E|apply Nat.leb_gt in E]; split; intros; try discriminate; auto; lia. Qed.
Print Assumptions C209_small_bin.
Theorem C209_distance : forall s shots b d v, (b < bin_count s)%nat -> 0 < parse_min s -> use_depths s = false -> compute_bin s shots b = Some (d, v) ->
  is_mean (distances (members s b shots)) d /\ edge s b <= d < edge s (S b).
Proof.
  intros s shots b d v B P U H. unfold compute_bin in H. destruct (10 <=? length _)%nat eqn:E; [|discriminate]. apply Nat.leb_le in E. rewrite U in H. injection H as H _.
  assert (N : members s b shots <> []) by (intros K; rewrite K in E; cbn in E; lia). pose proof (mean_distance_mean _ N) as M.
  assert (R : edge s b <= mean_distance (members s b shots) < edge s (S b)).
  { apply (mean_between (distances (members s b shots))); [unfold distances; intros K; apply map_eq_nil in K; contradiction|exact M|]. intros x X. unfold distances in X. apply in_map_iff in X. destruct X as (h & <- & X).
    apply C209_bins in X; [|exact B]. destruct X as (_ & d' & -> & D). exact D. }
  assert (edge s 0 <= edge s b) by (apply edge_mono; lia). assert (edge s 0 == parse_min s) by (unfold edge; cbn; field).
  destruct (Qle_bool _ 0) eqn:L in H; [apply Qle_bool_iff in L; lra|]. subst d. now split.
Qed.
Print Assumptions C209_distance.
Theorem C209_value : forall s shots b d v, plain_mean s = true -> compute_bin s shots b = Some (d, v) -> is_mean (map value (members s b shots)) v.
Proof.
  intros s shots b d v P H. unfold compute_bin in H. destruct (10 <=? length _)%nat eqn:E; [|discriminate]. apply Nat.leb_le in E. rewrite P in H. cbn [negb andb] in H. injection H as _ <-.
  apply (C42_files false); [|now left]. intros K. apply map_eq_nil in K. rewrite K in E. cbn in E. lia.
Qed.
Print Assumptions C209_value.
(** The other smoothings get the values of the bin, or of a sample of them when they do not fit in memory. *)
Theorem C209_smoothed : forall s shots b d v, plain_mean s = false -> compute_bin s shots b = Some (d, v) ->
  v = smooth s (map value (members s b shots)) /\ (length (members s b shots) <= max_bin_size s)%nat \/
  v = smooth s (sample s (max_bin_size s) (map value (members s b shots))) /\ (max_bin_size s < length (members s b shots))%nat.
Proof.
  intros s shots b d v P H. unfold compute_bin in H. destruct (10 <=? length _)%nat; [|discriminate]. rewrite P in H. cbn [negb andb] in H. injection H as _ <-.
  destruct (max_bin_size s <? _)%nat eqn:E; [apply Nat.ltb_lt in E; right|apply Nat.ltb_ge in E; left]; now split.
Qed.
Print Assumptions C209_smoothed.
(** With depth maps the distance is the mean depth at the pixel, when no depth there is zero. *)
Theorem C209_depth : forall s shots b d v, use_depths s = true -> (forall h, In h shots -> ~ depth h == 0) -> compute_bin s shots b = Some (d, v) ->
  is_mean (map depth (members s b shots)) d.
Proof.
  intros s shots b d v P Z H. unfold compute_bin in H. destruct (10 <=? length _)%nat eqn:E; [|discriminate]. apply Nat.leb_le in E. rewrite P in H. injection H as <- _.
  apply (C42_files true); [intros K; apply map_eq_nil in K; rewrite K in E; cbn in E; lia|]. right. intros x X. apply in_map_iff in X. destruct X as (h & <- & X). apply Z. unfold members in X. now apply filter_In in X.
Qed.
Print Assumptions C209_depth.

(** ** All bins *)
Lemma write_nth : forall {A} (m : list A) b x k, nth_error (write b x m) k = if Nat.eqb b k then match nth_error m k with Some _ => Some x | None => None end else nth_error m k.
Proof.
  induction m as [|y m IH]; intros b x k; [destruct b, k; cbn [write nth_error]; destruct (Nat.eqb _ _); reflexivity|]. destruct b as [|b], k as [|k]; cbn [write nth_error Nat.eqb]; try reflexivity. apply IH.
Qed.
(** The rows do not depend on the order in which the jobs run: row [b] is that of bin [b], zero when left out. *)
Lemma fill_nth : forall s shots order m k, NoDup order ->
  nth_error (fold_left (fun m b => match compute_bin s shots b with Some r => write b r m | None => m end) order m) k =
  match nth_error m k with
  | None => None
  | Some z => Some (if in_dec Nat.eq_dec k order then match compute_bin s shots k with Some r => r | None => z end else z)
  end.
Proof.
  intros s shots. induction order as [|b order IH]; intros m k N; [cbn; destruct (nth_error m k); reflexivity|]. inversion N as [|? ? Nb No]; subst. cbn [fold_left]. rewrite IH by exact No.
  assert (E : nth_error (match compute_bin s shots b with Some r => write b r m | None => m end) k =
    match nth_error m k with None => None | Some z => Some (if Nat.eqb b k then match compute_bin s shots k with Some r => r | None => z end else z) end).
  { destruct (compute_bin s shots b) as [r|] eqn:C; [rewrite write_nth|]; destruct (Nat.eqb b k) eqn:E; destruct (nth_error m k); try reflexivity; apply Nat.eqb_eq in E; subst; now rewrite C. }
  rewrite E. destruct (nth_error m k) as [z|]; [|reflexivity]. f_equal. destruct (Nat.eqb b k) eqn:Q.
  - apply Nat.eqb_eq in Q. subst b. destruct (in_dec Nat.eq_dec k order) as [I|I]; [contradiction|]. destruct (in_dec Nat.eq_dec k (k :: order)) as [J|J]; [reflexivity|]. exfalso. apply J. now left.
  - apply Nat.eqb_neq in Q. destruct (in_dec Nat.eq_dec k order) as [I|I], (in_dec Nat.eq_dec k (b :: order)) as [J|J]; try reflexivity; exfalso; [apply J; now right|destruct J; congruence].
Qed.
Theorem C209_any_order : forall s shots order, Permutation order (seq 0 (bin_count s)) ->
  fill_maps s shots order = map (fun b => match compute_bin s shots b with Some r => r | None => (0, 0) end) (seq 0 (bin_count s)).
Proof.
  intros s shots order P. assert (N : NoDup order) by (apply Permutation_NoDup with (seq 0 (bin_count s)); [now apply Permutation_sym|apply seq_NoDup]).
  assert (G : forall (a b : list (Q * Q)), (forall k, nth_error a k = nth_error b k) -> a = b).
  { induction a as [|x a IH]; intros [|y b] H; [reflexivity|specialize (H 0%nat); discriminate|specialize (H 0%nat); discriminate|]. pose proof (H 0%nat) as H0. injection H0 as ->. f_equal. apply IH. intros k. apply (H (S k)). }
  apply G. intros k. unfold fill_maps. rewrite fill_nth by exact N. destruct (lt_dec k (bin_count s)) as [L|L].
  - rewrite (nth_error_repeat _ L). rewrite nth_error_map. rewrite (nth_error_nth' _ 0%nat) by (now rewrite seq_length). rewrite seq_nth by exact L. cbn [option_map Nat.add].
    destruct (in_dec Nat.eq_dec k order) as [I|I]; [reflexivity|]. exfalso. apply I. apply Permutation_in with (seq 0 (bin_count s)); [now apply Permutation_sym|]. apply in_seq. lia.
  - rewrite (proj2 (nth_error_None (repeat (0, 0) (bin_count s)) k)) by (rewrite repeat_length; lia). symmetry. apply nth_error_None. rewrite map_length, seq_length. lia.
Qed.
Print Assumptions C209_any_order.
(** The samples the curves are fitted to: one per bin of at least ten images, of increasing distance, each inside its bin
    with the means of exactly its images.  [rows s shots b l]: [l] are the samples of the bins from [b] on. *)
Inductive rows (s : setting) (shots : list shot) : nat -> list (Q * Q) -> Prop :=
| rows_end : rows s shots (bin_count s) []
| rows_few b l : (b < bin_count s)%nat -> (length (members s b shots) < 10)%nat -> rows s shots (S b) l -> rows s shots b l
| rows_bin b d v l : (b < bin_count s)%nat -> (10 <= length (members s b shots))%nat -> edge s b <= d < edge s (S b) ->
    is_mean (distances (members s b shots)) d -> is_mean (map value (members s b shots)) v -> rows s shots (S b) l -> rows s shots b ((d, v) :: l).
Lemma positive_mean : forall xs m, xs <> [] -> is_mean xs m -> (forall x, In x xs -> 0 < x) -> 0 < m.
Proof.
  intros xs m N M H. unfold is_mean in M. assert (T : 0 < total (fun x => x) xs \/ xs = []).
  { clear M N. induction xs as [|x xs IH]; [now right|]. left. rewrite total_cons. specialize (IH (fun y Y => H y (or_intror Y))). specialize (H x (or_introl eq_refl)). destruct IH as [IH| ->]; [lra|cbn; lra]. }
  destruct T as [T|T]; [|contradiction]. assert (S : 0 <= size xs) by (unfold size; change 0 with (inject_Z 0); rewrite <- Zle_Qle; lia).
  apply Qnot_le_lt. intros K. assert (m * size xs <= 0 * size xs) by (apply Qmult_le_compat_r; assumption). lra.
Qed.
Theorem C209_samples : forall s shots order out, 0 < parse_min s -> use_depths s = false -> plain_mean s = true -> (forall h, In h shots -> 0 < value h) ->
  Permutation order (seq 0 (bin_count s)) -> training_pairs s shots order = Some out -> rows s shots 0 out.
Proof.
  intros s shots order out P U M V O H. unfold training_pairs in H. destruct (length shots <? 3)%nat; [discriminate|]. injection H as <-. rewrite (C209_any_order s shots order O).
  assert (G : forall n b, (b + n = bin_count s)%nat -> rows s shots b (filter (fun p => (Qltb 0 (fst p) && Qltb 0 (snd p))%bool) (map (fun b => match compute_bin s shots b with Some r => r | None => (0, 0) end) (seq b n)))).
  { induction n as [|n IH]; intros b E; cbn [seq map filter]; [rewrite Nat.add_0_r in E; subst b; constructor|]. destruct (compute_bin s shots b) as [[d v]|] eqn:C.
    - destruct (C209_distance s shots b d v ltac:(lia) P U C) as [D1 D2]. pose proof (C209_value s shots b d v M C) as W.
      assert (L : (10 <= length (members s b shots))%nat). { destruct (le_lt_dec 10 (length (members s b shots))) as [K|K]; [exact K|]. apply C209_small_bin in K. congruence. }
      assert (D0 : 0 < d). { assert (edge s 0 <= edge s b) by (apply edge_mono; lia). assert (edge s 0 == parse_min s) by (unfold edge; cbn; field). lra. }
      assert (V0 : 0 < v). { apply (positive_mean (map value (members s b shots))); [intros K; apply map_eq_nil in K; rewrite K in L; cbn in L; lia|exact W|]. intros x X. apply in_map_iff in X. destruct X as (h & <- & X). apply V. unfold members in X. now apply filter_In in X. }
      cbn [fst snd]. rewrite (proj2 (Qltb_lt 0 d) D0), (proj2 (Qltb_lt 0 v) V0). cbn [andb]. apply rows_bin; auto; [lia|]. apply IH. lia.
    - cbn [fst snd Qltb]. change (Qltb 0 0) with false. cbn [andb]. apply rows_few; [lia|now apply C209_small_bin|]. apply IH. lia. }
  now apply G.
Qed.
Print Assumptions C209_samples.
Theorem C209_increasing : forall s shots b l, rows s shots b l -> (forall p, In p l -> edge s b <= fst p) /\ forall i j p p', (i < j)%nat -> nth_error l i = Some p -> nth_error l j = Some p' -> fst p < fst p'.
Proof.
  intros s shots b l R. induction R as [|b l B F R [IH1 IH2]|b d v l B F D MD MV R [IH1 IH2]].
  - split; [intros p []|]. intros i j p p' _ H. destruct i; discriminate.
  - split; [|exact IH2]. intros p I. specialize (IH1 p I). pose proof (edge_mono s b (S b) ltac:(lia)). lra.
  - split.
    + intros p [<-|I]; [cbn; lra|]. specialize (IH1 p I). pose proof (edge_mono s b (S b) ltac:(lia)). lra.
    + intros [|i] [|j] p p' L H H'; try lia; [|apply (IH2 i j); auto; lia]. injection H as <-. cbn [fst]. cbn [nth_error] in H'. apply nth_error_In in H'. specialize (IH1 p' H'). lra.
Qed.
Print Assumptions C209_increasing.
Theorem C209_too_few : forall s shots order, training_pairs s shots order = None <-> (length shots < 3)%nat.
Proof. intros s shots order. unfold training_pairs. destruct (length shots <? 3)%nat eqn:E; [apply Nat.ltb_lt in E|apply Nat.ltb_ge in E]; split; intros; try discriminate; auto; lia. Qed.
Print Assumptions C209_too_few.

Definition S0 := mksetting 2 (12 # 5) 2 false true 100 (fun n l => firstn n l) (fun l => 0).
Definition shots0 : list shot := (repeat (mkshot (Some (205 # 100)) 0 50) 5 ++ repeat (mkshot (Some (23 # 10)) 0 20) 9 ++ repeat (mkshot (Some (207 # 100)) 0 40) 5 ++ repeat (mkshot (Some (221 # 100)) 0 30) 10 ++ repeat (mkshot None 0 30) 10)%list.
Example ex_bins : bin_count S0 = 4%nat /\ match training_pairs S0 shots0 [3; 0; 2; 1]%nat with Some [(d, v); (d', v')] => d == 206 # 100 /\ v == 45 /\ d' == 221 # 100 /\ v' == 30 | _ => False end.
Proof. split; [reflexivity|]. vm_compute. repeat split. Qed.

(** * C210 *)
(** Every image between the smallest and largest altitude is used: not at the largest, ... *)
Theorem C210_largest_refuted : exists s shots h, In h shots /\ distance h = Some (parse_max s) /\ parse_min s < parse_max s /\ (forall h', In h' shots -> h' = h) /\ (10 <= length shots)%nat /\
  forall b, (b < bin_count s)%nat -> compute_bin s shots b = None.
Proof.
  exists S0, (repeat (mkshot (Some (12 # 5)) 0 50) 10), (mkshot (Some (12 # 5)) 0 50). split; [now left|]. split; [reflexivity|]. split; [reflexivity|]. split; [intros h' I; now apply repeat_spec in I|]. split; [cbn; lia|].
  intros b B. change (bin_count S0) with 4%nat in B. destruct b as [|[|[|[|b]]]]; [reflexivity..|lia].
Qed.
Print Assumptions C210_largest_refuted.
(** ... nor below it when the range is no multiple of ten centimetres, ... *)
Theorem C210_range_refuted : exists s shots h x, In h shots /\ distance h = Some x /\ parse_min s < x < parse_max s /\ (10 <= length shots)%nat /\ (forall h', In h' shots -> h' = h) /\
  forall b, (b < bin_count s)%nat -> compute_bin s shots b = None.
Proof.
  exists (mksetting 2 (212 # 100) 2 false true 100 (fun n l => firstn n l) (fun l => 0)), (repeat (mkshot (Some (211 # 100)) 0 50) 10), (mkshot (Some (211 # 100)) 0 50), (211 # 100).
  split; [now left|]. split; [reflexivity|]. split; [split; reflexivity|]. split; [cbn; lia|]. split; [intros h' I; now apply repeat_spec in I|].
  intros b B. change (bin_count _) with 1%nat in B. destruct b; [reflexivity|lia].
Qed.
Print Assumptions C210_range_refuted.
(** ... and with nine images in every bin nothing is left to fit. *)
Theorem C210_nine_refuted : exists s shots, (36 <= length shots)%nat /\ (forall h, In h shots -> exists b, (b < bin_count s)%nat /\ in_bin s b h) /\ training_pairs s shots (seq 0 (bin_count s)) = Some [].
Proof.
  exists S0, (repeat (mkshot (Some (205 # 100)) 0 50) 9 ++ repeat (mkshot (Some (215 # 100)) 0 50) 9 ++ repeat (mkshot (Some (225 # 100)) 0 50) 9 ++ repeat (mkshot (Some (235 # 100)) 0 50) 9)%list.
  split; [cbn; lia|]. split; [|reflexivity]. intros h I. rewrite !in_app_iff in I.
  destruct I as [I|[I|[I|I]]]; apply repeat_spec in I; subst h; [exists 0%nat|exists 1%nat|exists 2%nat|exists 3%nat]; (split; [cbn; lia|]); (eexists; split; [reflexivity|split; [apply Qle_bool_iff; reflexivity|apply Qltb_lt; reflexivity]]).
Qed.
Print Assumptions C210_nine_refuted.
(** The distance belongs to the images used: not when a sample of the bin is taken.  Here the value 50 of images at 2.01 m
    is paired with 2.05 m. *)
Theorem C210_sample_refuted : exists s shots d v, compute_bin s shots 0 = Some (d, v) /\ (forall n l, incl (sample s n l) l /\ (length (sample s n l) <= n)%nat) /\
  (forall l, l <> [] -> is_mean l (smooth s l)) /\ (forall h, In h shots -> distance h = Some (201 # 100) /\ value h = 50 \/ distance h = Some (209 # 100) /\ value h = 20) /\ v == 50 /\ d == 205 # 100.
Proof.
  exists (mksetting 2 (12 # 5) 2 false false 5 (fun n l => firstn n l) (fun l => sum l / q (length l))), (repeat (mkshot (Some (201 # 100)) 0 50) 5 ++ repeat (mkshot (Some (209 # 100)) 0 20) 5)%list.
  eexists. eexists. split; [reflexivity|]. split; [|split; [|split; [|split; reflexivity]]].
  - intros n l. split; [|cbn; rewrite firstn_length; lia]. intros x X. cbn in X. rewrite <- (firstn_skipn n l). apply in_or_app. now left.
  - intros l N. unfold is_mean. cbn [smooth]. rewrite sum_total. unfold size, q. field. intros K. change 0 with (inject_Z 0) in K. rewrite inject_Z_injective in K. destruct l; [contradiction|cbn [length] in K; lia].
  - intros h I. apply in_app_or in I. destruct I as [I|I]; apply repeat_spec in I; subst h; [left|right]; now split.
Qed.
Print Assumptions C210_sample_refuted.
(** The distance of a bin lies in the bin: not when the mean is zero, the altitudes starting at zero. *)
Theorem C210_fallback_refuted : exists s shots d v, compute_bin s shots 0 = Some (d, v) /\ (forall h, In h shots -> in_bin s 0 h) /\ edge s 1 < d.
Proof.
  exists (mksetting 0 1 2 false false 100 (fun n l => firstn n l) (fun l => 0)), (repeat (mkshot (Some 0) 0 50) 10). eexists. eexists. split; [reflexivity|]. split.
  - intros h I. apply repeat_spec in I. subst h. exists 0. split; [reflexivity|]. split; [apply Qle_bool_iff; reflexivity|apply Qltb_lt; reflexivity].
  - apply Qltb_lt. vm_compute. reflexivity.
Qed.
Print Assumptions C210_fallback_refuted.
