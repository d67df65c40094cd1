(** C273/C274: the mean image of an altitude bin (BinImgModel). *)
From Coq Require Import Reals List Arith Lia Lra Psatz Permutation Sorted.
From Verif Require Import TrainModel TrainProofs TrainProps BinImgModel.
Import ListNotations.
Open Scope R_scope.

(** ** What a median is *)
Definition middle (l : list R) (m : R) : Prop :=
  exists s, Permutation l s /\ StronglySorted Rle s /\ m = (nth ((length l - 1) / 2) s 0 + nth (length l / 2) s 0) / 2.

(** ** Sorting *)
Lemma insert_perm : forall x l, Permutation (x :: l) (insert x l).
Proof.
  intros x l. induction l as [|y l IH]; [apply Permutation_refl|]. cbn [insert]. destruct (Rle_dec x y); [apply Permutation_refl|].
  eapply perm_trans; [apply perm_swap|]. now apply perm_skip.
Qed.
Lemma sort_perm : forall l, Permutation l (sort l).
Proof. induction l as [|x l IH]; [constructor|]. cbn [sort]. eapply perm_trans; [apply perm_skip, IH|apply insert_perm]. Qed.
Lemma insert_sorted : forall x l, StronglySorted Rle l -> StronglySorted Rle (insert x l).
Proof.
  intros x l H. induction H as [|y l S IH F]; [repeat constructor|]. cbn [insert]. destruct (Rle_dec x y) as [L|L].
  - constructor; [now constructor|]. constructor; [exact L|]. apply Forall_forall. intros z I. rewrite Forall_forall in F. specialize (F z I). lra.
  - constructor; [exact IH|]. apply Forall_forall. intros z I. apply (Permutation_in z (Permutation_sym (insert_perm x l))) in I.
    destruct I as [<-|I]; [lra|]. rewrite Forall_forall in F. now apply F.
Qed.
Lemma sort_sorted : forall l, StronglySorted Rle (sort l).
Proof. induction l as [|x l IH]; [constructor|]. now apply insert_sorted. Qed.
Lemma sorted_unique : forall s t, StronglySorted Rle s -> StronglySorted Rle t -> Permutation s t -> s = t.
Proof.
  intros s t S. revert t. induction S as [|x s S IH F]; intros t T P; [apply Permutation_nil in P; now subst|].
  destruct t as [|y t]; [apply Permutation_sym, Permutation_nil in P; discriminate|]. inversion T as [|? ? T' G]; subst.
  assert (x = y) as ->.
  { rewrite Forall_forall in F, G.
    assert (In x (y :: t)) as I by (apply (Permutation_in _ P); now left). assert (In y (x :: s)) as J by (apply (Permutation_in _ (Permutation_sym P)); now left).
    destruct I as [->|I]; [reflexivity|]. destruct J as [->|J]; [reflexivity|]. specialize (F y J). specialize (G x I). lra. }
  f_equal. apply IH; [exact T'|]. now apply Permutation_cons_inv in P.
Qed.
Lemma median_middle : forall l, l <> [] -> middle l (median l).
Proof.
  intros l N. exists (sort l). split; [apply sort_perm|]. split; [apply sort_sorted|]. unfold median. set (n := length l).
  assert (n <> 0)%nat as P by (destruct l; [congruence|discriminate]). destruct (Nat.even n) eqn:E.
  - apply Nat.even_spec in E. destruct E as (k & K). rewrite K in *. replace (2 * k / 2)%nat with k by (rewrite Nat.mul_comm, Nat.div_mul; lia).
    replace ((2 * k - 1) / 2)%nat with (k - 1)%nat; [reflexivity|]. replace (2 * k - 1)%nat with (1 + (k - 1) * 2)%nat by lia. rewrite Nat.div_add by lia. reflexivity.
  - assert (Nat.odd n = true) as O by (unfold Nat.odd; now rewrite E). apply Nat.odd_spec in O. destruct O as (k & K). rewrite K in *.
    replace ((2 * k + 1) / 2)%nat with k by (rewrite Nat.add_comm, Nat.mul_comm, Nat.div_add by lia; reflexivity).
    replace ((2 * k + 1 - 1) / 2)%nat with k by (replace (2 * k + 1 - 1)%nat with (k * 2)%nat by lia; rewrite Nat.div_mul; lia). field.
Qed.
Lemma middle_unique : forall l l' m m', Permutation l l' -> middle l m -> middle l' m' -> m = m'.
Proof.
  intros l l' m m' P (s & P1 & S1 & ->) (t & P2 & S2 & ->). rewrite <- (Permutation_length P).
  rewrite (sorted_unique s t S1 S2); [reflexivity|]. eapply perm_trans; [apply Permutation_sym, P1|]. eapply perm_trans; [exact P|exact P2].
Qed.

(** Values of more than half of the images decide: a median lies between any two bounds that hold more than half of the values. *)
Fixpoint inside (a b : R) (l : list R) : nat :=
  match l with [] => 0%nat | x :: l => ((if Rle_dec a x then if Rle_dec x b then 1 else 0 else 0) + inside a b l)%nat end.
Lemma inside_perm : forall a b l l', Permutation l l' -> inside a b l = inside a b l'.
Proof. intros a b l l' P. induction P; cbn [inside]; lia. Qed.
Lemma inside_app : forall a b l m, inside a b (l ++ m) = (inside a b l + inside a b m)%nat.
Proof. intros a b l m. induction l as [|x l IH]; [reflexivity|]. cbn [inside app]. lia. Qed.
Lemma inside_le : forall a b l, (inside a b l <= length l)%nat.
Proof. intros a b l. induction l as [|x l IH]; [reflexivity|]. cbn [inside length]. destruct (Rle_dec a x); [destruct (Rle_dec x b)|]; lia. Qed.
Lemma inside_none : forall a b l, (forall x, In x l -> x < a \/ b < x) -> inside a b l = 0%nat.
Proof.
  intros a b l. induction l as [|x l IH]; intros H; [reflexivity|]. cbn [inside]. rewrite IH by (intros; apply H; now right).
  destruct (H x (or_introl eq_refl)); destruct (Rle_dec a x); try destruct (Rle_dec x b); try lra; reflexivity.
Qed.
Lemma sorted_nth : forall s i j, StronglySorted Rle s -> (i <= j)%nat -> (j < length s)%nat -> nth i s 0 <= nth j s 0.
Proof.
  intros s i j S. revert i j. induction S as [|x s S IH F]; intros i j L J; cbn [length] in J; [lia|]. destruct i as [|i], j as [|j]; cbn [nth]; try lia; [lra| |apply IH; lia].
  rewrite Forall_forall in F. apply F. apply nth_In. lia.
Qed.
Lemma few_below : forall a b s k, StronglySorted Rle s -> (k < length s)%nat -> nth k s 0 < a -> (inside a b s <= length s - (k + 1))%nat.
Proof.
  intros a b s k S K L. rewrite <- (firstn_skipn (k + 1) s) at 1. rewrite inside_app, (inside_none a b (firstn (k + 1) s)).
  - pose proof (inside_le a b (skipn (k + 1) s)) as B. rewrite skipn_length in B. lia.
  - intros x I. left. apply In_nth with (d := 0) in I. destruct I as (i & I & <-). rewrite firstn_length in I.
    assert (nth i (firstn (k + 1) s) 0 = nth i s 0) as ->.
    { rewrite <- (firstn_skipn (k + 1) s) at 2. rewrite app_nth1; [reflexivity|]. rewrite firstn_length. lia. }
    pose proof (sorted_nth s i k S). lra || (assert (nth i s 0 <= nth k s 0) by (apply sorted_nth; [exact S|lia|lia]); lra).
Qed.
Lemma few_above : forall a b s k, StronglySorted Rle s -> (k < length s)%nat -> b < nth k s 0 -> (inside a b s <= k)%nat.
Proof.
  intros a b s k S K L. rewrite <- (firstn_skipn k s) at 1. rewrite inside_app, (inside_none a b (skipn k s)).
  - pose proof (inside_le a b (firstn k s)) as B. rewrite firstn_length in B. lia.
  - intros x I. right. apply In_nth with (d := 0) in I. destruct I as (i & I & <-). rewrite skipn_length in I.
    assert (nth i (skipn k s) 0 = nth (k + i) s 0) as ->.
    { rewrite <- (firstn_skipn k s) at 2. rewrite app_nth2; rewrite firstn_length; [|lia]. f_equal. lia. }
    assert (nth k s 0 <= nth (k + i) s 0) by (apply sorted_nth; [exact S|lia|lia]). lra.
Qed.
Theorem C273_majority : forall l m a b, middle l m -> (length l < 2 * inside a b l)%nat -> a <= m <= b.
Proof.
  intros l m a b (s & P & S & ->) H. rewrite (inside_perm a b l s P) in H. pose proof (inside_le a b s) as B. rewrite (Permutation_length P) in *. set (n := length s) in *.
  pose proof (Nat.div_mod n 2) as D1. pose proof (Nat.mod_upper_bound n 2) as D2. pose proof (Nat.div_mod (n - 1) 2) as D3. pose proof (Nat.mod_upper_bound (n - 1) 2) as D4.
  set (lo := ((n - 1) / 2)%nat) in *. set (hi := (n / 2)%nat) in *.
  assert (lo < n /\ hi < n /\ n <= 2 * (lo + 1) /\ 2 * hi <= n /\ n <= 2 * hi + 1 /\ 2 * lo + 1 <= n /\ lo <= hi)%nat as (L1 & L2 & L3 & L4 & L5 & L6 & L7) by lia.
  assert (a <= nth lo s 0) as A1. { destruct (Rle_dec a (nth lo s 0)) as [K|K]; [exact K|]. pose proof (few_below a b s lo S L1 ltac:(lra)). fold n in H0. lia. }
  assert (nth hi s 0 <= b) as A2. { destruct (Rle_dec (nth hi s 0) b) as [K|K]; [exact K|]. pose proof (few_above a b s hi S L2 ltac:(lra)). lia. }
  pose proof (sorted_nth s lo hi S L7 L2). lra.
Qed.
Print Assumptions C273_majority.

(** ** The memory map *)
Section Camera.
Variable resize : array -> nat -> nat -> array.
Variables h w c : nat.
Hypothesis C1 : (1 <= c)%nat.
Notation sh := (flat_shape h w c).
Lemma shape_eq : memmap_shape h w c = sh.
Proof. reflexivity. Qed.
Lemma same_data : forall a b, like sh a -> like sh b -> (forall idx, valid sh idx -> get a idx = get b idx) -> data a = data b.
Proof.
  intros a b (SA & LA) (SB & LB) G. apply nth_ext with (d := 0) (d' := 0); [congruence|]. intros i I. rewrite LA in I.
  assert (exists idx, valid sh idx /\ flat sh idx = i) as (idx & V & <-).
  { rewrite flat_size in I. set (ch := (i mod c)%nat). set (p := (i / c)%nat). assert (i = p * c + ch)%nat as E by (unfold p, ch; pose proof (Nat.div_mod i c); lia).
    assert (ch < c)%nat as CH by (unfold ch; apply Nat.mod_upper_bound; lia). assert (p < h * w)%nat as P by (unfold p; apply Nat.div_lt_upper_bound; nia).
    assert (w <> 0)%nat as W by (intros ->; nia). set (x := (p mod w)%nat). set (y := (p / w)%nat). assert (p = y * w + x)%nat as F by (unfold y, x; pose proof (Nat.div_mod p w); lia).
    exists (at_pixel c y x ch). split; [apply at_valid; [unfold y; apply Nat.div_lt_upper_bound; nia|unfold x; apply Nat.mod_upper_bound; lia|exact CH]|].
    rewrite flat_at by exact CH. now rewrite <- F, <- E. }
  specialize (G idx V). unfold get in G. now rewrite SA, SB in G.
Qed.
Lemma row_right : forall img, right_size h w c img -> exists r, memmap_row resize h w c (Some img) = Some r /\ like sh r /\ data r = data img.
Proof.
  intros img R. pose proof (right_like h w c img R) as L. destruct L as (S & N). unfold memmap_row. 
  assert (exists rest, shape img = h :: w :: rest) as (rest & E) by (rewrite S; unfold flat_shape; destruct (c =? 1)%nat; eexists; reflexivity).
  rewrite E, !Nat.eqb_refl. cbn [andb]. rewrite shape_eq.
  destruct (in_place_same (fun _ v => v) sh (filled sh 0) img (filled_like _ _)) as (r & F & RL & G); [now split|].
  exists r. split; [exact F|]. split; [exact RL|]. apply same_data; [exact RL|now split|exact G].
Qed.
Lemma rows_right : forall images, (forall i, In i images -> right_size h w c i) ->
  exists rows, each (memmap_row resize h w c) (map Some images) = Some rows /\ Forall2 (fun i r => data r = data i) images rows.
Proof.
  induction images as [|i images IH]; intros H; [exists []; split; [reflexivity|constructor]|].
  destruct (row_right i (H i (or_introl eq_refl))) as (r & E & _ & D). destruct IH as (rows & F & G); [intros; apply H; now right|].
  exists (r :: rows). split; [|now constructor]. cbn [map each]. rewrite E. cbn beta iota. rewrite F. reflexivity.
Qed.
Lemma memmap_right : forall images, (forall i, In i images -> right_size h w c i) ->
  create_memmap resize h w c (map Some images) = Some (mkarray (length images :: sh) (concat (map data images))).
Proof.
  intros images H. destruct (rows_right images H) as (rows & E & F). unfold create_memmap. rewrite E, map_length. do 3 f_equal. clear E H.
  induction F as [|i r images rows D F IH]; [reflexivity|]. cbn [map]. now rewrite D, IH.
Qed.
Lemma series_values : forall images y x ch, (forall i, In i images -> right_size h w c i) -> (y < h)%nat -> (x < w)%nat -> (ch < c)%nat ->
  series (mkarray (length images :: sh) (concat (map data images))) (at_pixel c y x ch) = map (fun i => value w c i y x ch) images.
Proof.
  intros images y x ch H Y X CH. unfold series. cbn [shape hd]. apply (map_seq_nth images) with (d := filled sh 0). intros k K.
  unfold get. cbn [shape data flat]. pose proof (flat_bound _ _ (at_valid h w c y x ch Y X CH)) as B.
  rewrite (nth_concat (size sh)).
  - rewrite (nth_indep _ [] (data (filled sh 0))) by now rewrite map_length. rewrite map_nth. unfold value. now rewrite flat_at.
  - intros r I. apply in_map_iff in I. destruct I as (i & <- & I). rewrite flat_size. now destruct (H i I).
  - now rewrite map_length.
  - exact B.
Qed.

(** ** C273 *)
Definition brightness (images : list array) (y x ch : nat) : list R := map (fun i => value w c i y x ch) images.
Lemma built_right : forall f, right_size h w c (build sh f).
Proof. intros f. destruct (build_like sh f) as (S & L). split; [exact S|]. now rewrite L, flat_size. Qed.
Lemma median_image : forall images, (forall i, In i images -> right_size h w c i) ->
  exists a, image_sample resize h w c Median (map Some images) = Image a /\ right_size h w c a /\
    forall y x ch, (y < h)%nat -> (x < w)%nat -> (ch < c)%nat -> value w c a y x ch = median (brightness images y x ch).
Proof.
  intros images H. unfold image_sample. rewrite (memmap_right images H). set (a := mkarray _ _).
  assert (median_array a = Some (build sh (fun idx => median (series a idx)))) as ->.
  { unfold median_array, a. cbn [shape]. unfold flat_shape. destruct (c =? 1)%nat; reflexivity. }
  cbn [returned]. eexists. split; [reflexivity|]. split; [apply built_right|]. intros y x ch Y X CH.
  rewrite <- (get_value h w c) by (try exact CH; apply build_like). rewrite get_build by now apply at_valid. unfold a. now rewrite series_values.
Qed.
(** The mean image by "median": the median of the images' values, pixel by pixel and channel by channel. *)
Theorem C273_median : forall images, images <> [] -> (forall i, In i images -> right_size h w c i) ->
  exists a, image_sample resize h w c Median (map Some images) = Image a /\ right_size h w c a /\
    forall y x ch, (y < h)%nat -> (x < w)%nat -> (ch < c)%nat -> middle (brightness images y x ch) (value w c a y x ch).
Proof.
  intros images N H. destruct (median_image images H) as (a & E & R & V). exists a. split; [exact E|]. split; [exact R|]. intros y x ch Y X CH. rewrite V by assumption.
  apply median_middle. destruct images; [congruence|discriminate].
Qed.
(** The order of the images does not matter. *)
Theorem C273_order : forall images images', (forall i, In i images -> right_size h w c i) -> Permutation images images' ->
  image_sample resize h w c Median (map Some images') = image_sample resize h w c Median (map Some images).
Proof.
  intros images images' H P. destruct images as [|i0 images0]; [apply Permutation_nil in P; now subst|]. set (images := i0 :: images0) in *.
  assert (forall i, In i images' -> right_size h w c i) as H' by (intros i I; apply H; now apply (Permutation_in _ (Permutation_sym P))).
  assert (images' <> []) as N' by (intros ->; apply Permutation_sym, Permutation_nil in P; discriminate).
  destruct (C273_median images ltac:(discriminate) H) as (a & E & R & V). destruct (C273_median images' N' H') as (b & F & Q & W). rewrite E, F. f_equal.
  assert (data b = data a) as D.
  { apply same_data; [now apply right_like|now apply right_like|]. intros idx I.
    assert (exists y x ch, (y < h /\ x < w /\ ch < c)%nat /\ idx = at_pixel c y x ch) as (y & x & ch & (Y & X & CH) & ->).
    { unfold at_pixel. unfold flat_shape in I. destruct (Nat.eqb_spec c 1) as [O|O].
      - inversion I as [|? y ? r Y I1]; subst. inversion I1 as [|? x ? r1 X I2]; subst. inversion I2; subst. exists y, x, 0%nat. repeat split; auto; lia.
      - inversion I as [|? y ? r Y I1]; subst. inversion I1 as [|? x ? r1 X I2]; subst. inversion I2 as [|? ch ? r2 CH I3]; subst. inversion I3; subst. exists y, x, ch. repeat split; auto. }
    rewrite !(get_value h w c) by (try exact CH; now apply right_like). apply (middle_unique (brightness images' y x ch) (brightness images y x ch)).
    - apply Permutation_map. now apply Permutation_sym.
    - now apply W.
    - now apply V. }
  destruct R as (R & _), Q as (Q & _). destruct a, b; cbn in *; congruence.
Qed.

(** ** Running mean *)
Lemma step_right : forall ignore count mean v, like sh mean -> like sh v -> exists r, file_step ignore (S count) mean v = Some r /\ like sh r /\
  forall idx, valid sh idx -> get r idx = get mean idx + ((if (ignore && if Req_EM_T (get v idx) 0 then true else false)%bool then get mean idx else get v idx) - get mean idx) / INR (S count).
Proof.
  intros ignore count mean v M V. unfold file_step.
  assert (exists u, (if ignore then if list_eq_dec Nat.eq_dec (shape v) (shape mean) then broadcast (fun v m => if Req_EM_T v 0 then m else v) v mean else None else Some v) = Some u /\ like sh u /\
    forall idx, valid sh idx -> get u idx = if (ignore && if Req_EM_T (get v idx) 0 then true else false)%bool then get mean idx else get v idx) as (u & -> & U & G).
  { destruct ignore.
    - destruct M as (SM & LM), V as (SV & LV). destruct (list_eq_dec Nat.eq_dec (shape v) (shape mean)) as [_|N]; [|congruence].
      destruct (broadcast_same (fun v m => if Req_EM_T v 0 then m else v) sh v mean (conj SV LV) (conj SM LM)) as (u & E & L & G). exists u. split; [exact E|]. split; [exact L|].
      intros idx I. rewrite G by exact I. cbn [andb]. now destruct (Req_EM_T (get v idx) 0).
    - exists v. split; [reflexivity|]. split; [exact V|]. reflexivity. }
  destruct (broadcast_same Rminus sh u mean U M) as (d & -> & D & GD). 
  destruct (in_place_same Rplus sh mean (mapped (fun x => x / INR (S count)) d) M (mapped_like _ _ _ D)) as (r & E & R & GR).
  exists r. split; [exact E|]. split; [exact R|]. intros idx I. rewrite GR by exact I. rewrite (get_mapped _ sh) by assumption. rewrite GD by exact I. now rewrite G.
Qed.
Lemma loop_right : forall files seen mean ignore, like sh mean -> (forall v, In v files -> like sh v) ->
  exists r, file_loop ignore (length seen) mean files = Some r /\ like sh r /\
    forall idx, valid sh idx -> (ignore = false \/ forall v, In v files -> get v idx <> 0) -> get mean idx = average (map (fun v => get v idx) seen) ->
    get r idx = average (map (fun v => get v idx) (seen ++ files)).
Proof.
  induction files as [|v files IH]; intros seen mean ignore M F.
  - exists mean. split; [reflexivity|]. split; [exact M|]. intros idx I _ E. now rewrite app_nil_r.
  - destruct (step_right ignore (length seen) mean v M (F v (or_introl eq_refl))) as (m & E & L & G).
    destruct (IH (seen ++ [v]) m ignore L) as (r & E' & R & G'); [intros; apply F; now right|].
    exists r. cbn [file_loop]. rewrite E. rewrite app_length in E'. cbn [length] in E'. rewrite Nat.add_1_r in E'. split; [exact E'|]. split; [exact R|].
    intros idx I Z A. replace (seen ++ v :: files) with ((seen ++ [v]) ++ files) by (now rewrite <- app_assoc). apply G'; [exact I| |].
    + destruct Z as [Z|Z]; [now left|right]. intros; apply Z; now right.
    + rewrite G by exact I. rewrite map_app. cbn [map]. rewrite average_snoc, map_length, <- A.
      assert ((ignore && (if Req_EM_T (get v idx) 0 then true else false))%bool = false) as ->; [|reflexivity].
      destruct Z as [->|Z]; [reflexivity|]. destruct (Req_EM_T (get v idx) 0) as [Q|_]; [exfalso; apply (Z v); [now left|exact Q]|apply Bool.andb_false_r].
Qed.
Lemma mean_image : forall ignore images, images <> [] -> (forall i, In i images -> right_size h w c i) ->
  exists a, running_mean ignore images = Some a /\ right_size h w c a /\
    forall y x ch, (y < h)%nat -> (x < w)%nat -> (ch < c)%nat -> (ignore = false \/ ~ In 0 (brightness images y x ch)) ->
    value w c a y x ch = average (brightness images y x ch).
Proof.
  intros ignore images N H. destruct images as [|i0 rest]; [congruence|]. set (images := i0 :: rest) in *.
  assert (forall i, In i images -> like sh i) as L by (intros; apply right_like; auto).
  destruct (loop_right images [] (filled sh 0) ignore (filled_like _ _) L) as (a & E & A & G).
  exists a. split; [|split].
  - unfold running_mean, images. fold images. destruct (L i0 (or_introl eq_refl)) as (-> & _). exact E.
  - destruct A as (S & LA). split; [exact S|]. now rewrite LA, flat_size.
  - intros y x ch Y X CH Z. rewrite <- (get_value h w c) by assumption. rewrite G.
    + cbn [app]. unfold brightness. f_equal. apply map_ext_in. intros i I. apply (get_value h w c); auto.
    + now apply at_valid.
    + destruct Z as [Z|Z]; [now left|right]. intros v I Q. apply Z. unfold brightness. apply in_map_iff. exists v. split; [|exact I]. rewrite <- Q. symmetry. apply (get_value h w c); auto.
    + unfold get, filled. cbn [shape data map]. rewrite nth_zero. unfold average, total. cbn. unfold Rdiv. ring.
Qed.
(** By "mean": the mean of the images' values. *)
Theorem C273_mean : forall images, images <> [] -> (forall i, In i images -> right_size h w c i) ->
  exists a, image_sample resize h w c Mean (map Some images) = Image a /\ right_size h w c a /\
    forall y x ch, (y < h)%nat -> (x < w)%nat -> (ch < c)%nat -> value w c a y x ch = average (brightness images y x ch).
Proof.
  intros images N H. destruct (mean_image false images N H) as (a & E & R & V). exists a. split; [|split; [exact R|]].
  - unfold image_sample. rewrite (each_some (fun i => i) (fun i => match i with Some i => i | None => filled [] 0 end)).
    + rewrite map_map, map_id. now rewrite E.
    + intros i I. apply in_map_iff in I. now destruct I as (j & <- & _).
  - intros. apply V; auto.
Qed.
End Camera.
Print Assumptions C273_median.
Print Assumptions C273_order.
Print Assumptions C273_mean.

(** What one bin of at least ten images contributes, without depth maps and with them; fewer images: nothing.  [used] are the images counted: all of
    them for the mean, at most [most] of them for the median. *)
Definition fair (choose : nat -> list (option array) -> list (option array)) : Prop :=
  forall n l, (n <= length l)%nat -> incl (choose n l) l /\ length (choose n l) = n.
Definition summary (s : smoothing) (l : list R) (m : R) : Prop := match s with Mean => m = average l | Median => middle l m | _ => False end.
Theorem C273_bin : forall resize h w c choose s most fallback images distances,
  (1 <= c)%nat -> (1 <= most)%nat -> fair choose -> s = Mean \/ s = Median -> (forall i, In i images -> right_size h w c i) ->
  ((length images < 10)%nat -> forall depths, compute_bin resize h w c choose s most fallback (map Some images) distances depths = TooFew) /\
  ((10 <= length images)%nat ->
   exists used a, incl used images /\ length used = (if match s with Mean => true | _ => false end then length images else Nat.min most (length images)) /\
     right_size h w c a /\ (forall y x ch, (y < h)%nat -> (x < w)%nat -> (ch < c)%nat -> summary s (brightness w c used y x ch) (value w c a y x ch)) /\
     (exists d, compute_bin resize h w c choose s most fallback (map Some images) distances None = Filled d a /\ right_size h w 1 d /\
        forall y x, (y < h)%nat -> (x < w)%nat -> value w 1 d y x 0 = if Rle_dec (average distances) 0 then fallback else average distances) /\
     (forall maps, maps <> [] -> (forall m, In m maps -> right_size h w 1 m) ->
        exists d, compute_bin resize h w c choose s most fallback (map Some images) distances (Some maps) = Filled d a /\ right_size h w 1 d /\
          forall y x, (y < h)%nat -> (x < w)%nat -> ~ In 0 (brightness w 1 maps y x 0) -> value w 1 d y x 0 = average (brightness w 1 maps y x 0))).
Proof.
  intros resize h w c choose s most fallback images distances C M FC S H. split.
  - intros L depths. unfold compute_bin. rewrite map_length. destruct (Nat.leb_spec 10 (length images)); [lia|reflexivity].
  - intros L.
    set (chosen := if (match s with Mean => false | _ => (most <? length images)%nat end) then choose most (map Some images) else map Some images).
    assert (exists used, chosen = map Some used /\ incl used images /\ length used = (if match s with Mean => true | _ => false end then length images else Nat.min most (length images))) as (used & CU & IU & LU).
    { assert (forall b, b = (match s with Mean => false | _ => (most <? length images)%nat end) -> b = true -> (most < length images)%nat) as K.
      { intros b -> Q. destruct S as [ -> | -> ]; [discriminate|]. now apply Nat.ltb_lt. }
      unfold chosen. destruct (match s with Mean => false | _ => (most <? length images)%nat end) eqn:Q.
      - specialize (K true eq_refl eq_refl). destruct (FC most (map Some images)) as (I & N); [rewrite map_length; lia|].
        exists (map (fun o => match o with Some i => i | None => filled [] 0 end) (choose most (map Some images))). split; [|split].
        + rewrite map_map. symmetry. erewrite map_ext_in; [apply map_id|]. intros o O. apply I in O. apply in_map_iff in O. now destruct O as (i & <- & _).
        + intros i J. apply in_map_iff in J. destruct J as (o & <- & O). apply I in O. apply in_map_iff in O. now destruct O as (j & <- & J).
        + rewrite map_length, N. destruct S as [ -> | -> ]; [discriminate|]. lia.
      - exists images. split; [reflexivity|]. split; [apply incl_refl|]. destruct S as [ -> | -> ]; [reflexivity|]. apply Nat.ltb_ge in Q. lia. }
    assert (used <> []) as NU. { intros ->. cbn [length] in LU. destruct s; lia. }
    assert (forall i, In i used -> right_size h w c i) as HU by (intros; apply H; now apply IU).
    assert (exists a, image_sample resize h w c s chosen = Image a /\ right_size h w c a /\
      forall y x ch, (y < h)%nat -> (x < w)%nat -> (ch < c)%nat -> summary s (brightness w c used y x ch) (value w c a y x ch)) as (a & E & R & V).
    { rewrite CU. destruct S as [ -> | -> ]; [exact (C273_mean resize h w c used NU HU)|exact (C273_median resize h w c C used NU HU)]. }
    exists used, a. split; [exact IU|]. split; [exact LU|]. split; [exact R|]. split; [exact V|]. split.
    + exists (filled [h; w] (if Rle_dec (average distances) 0 then fallback else average distances)). split; [|split].
      * unfold compute_bin. rewrite map_length. destruct (Nat.leb_spec 10 (length images)); [|lia]. fold chosen. rewrite E. reflexivity.
      * apply plain_right.
      * intros y x Y X. now apply (plain_value h w).
    + intros maps NM HM. destruct (mean_image h w 1 true maps NM HM) as (d & ED & RD & VD). exists d. split; [|split; [exact RD|]].
      * unfold compute_bin. rewrite map_length. destruct (Nat.leb_spec 10 (length images)); [|lia]. fold chosen. rewrite ED, E. reflexivity.
      * intros y x Y X Z. apply VD; try assumption; [lia|now right].
Qed.
Print Assumptions C273_bin.

(** Bins made so can always be trained on (C255). *)
Definition kept_bin (b : bin) : option (array * array) := match b with Filled d i => Some (d, i) | _ => None end.
Theorem C273_train : forall resize fit h w c choose s most fallback groups target images,
  (2 <= h)%nat -> (2 <= w)%nat -> (1 <= c)%nat -> (100 <= h * w)%nat -> (2 <= length images)%nat -> (1 <= most)%nat -> fair choose -> s = Mean \/ s = Median ->
  (forall g i, In g groups -> In i (fst g) -> right_size h w c i) ->
  (forall i, In i images -> right_size h w c (fst i) /\ right_size h w 1 (snd i)) ->
  (forall g, In g groups -> compute_bin resize h w c choose s most fallback (map Some (fst g)) (snd g) None <> Error) /\
  exists t, train fit h w c (map (fun g => kept_bin (compute_bin resize h w c choose s most fallback (map Some (fst g)) (snd g) None)) groups) target images = Some t.
Proof.
  intros resize fit h w c choose s most fallback groups target images H W C N L M FC S G I.
  assert (forall g, In g groups -> let b := compute_bin resize h w c choose s most fallback (map Some (fst g)) (snd g) None in
    b = TooFew \/ exists d a, b = Filled d a /\ right_size h w 1 d /\ right_size h w c a) as K.
  { intros g J. destruct (C273_bin resize h w c choose s most fallback (fst g) (snd g) C M FC S (fun i => G g i J)) as (A & B).
    destruct (Nat.lt_ge_cases (length (fst g)) 10) as [Q|Q]; [left; now apply A|]. right. destruct (B Q) as (used & a & _ & _ & R & _ & (d & E & RD & _) & _). exists d, a. auto. }
  split. { intros g J E. destruct (K g J) as [F|(d & a & F & _)]; rewrite E in F; discriminate. }
  destruct (C255_pixel fit h w c (map (fun g => kept_bin (compute_bin resize h w c choose s most fallback (map Some (fst g)) (snd g) None)) groups) target images H W C N L) as (t & T & _).
  - intros d i J. apply in_map_iff in J. destruct J as (g & E & J). destruct (K g J) as [F|(d' & a & F & R1 & R2)]; rewrite F in E; cbn in E; [discriminate|]. injection E as <- <-. auto.
  - exact I.
  - now exists t.
Qed.
Print Assumptions C273_train.

(** ** Examples *)
Definition shrink (a : array) (width height : nat) : array := filled (height :: width :: skipn 2 (shape a)) (nth 0 (data a) 0).
Definition first_ones (n : nat) (l : list (option array)) : list (option array) := firstn n l.
Definition grey (v : R) : array := filled [1; 1]%nat v.
Definition red (v : R) : array := mkarray [1; 1; 3]%nat [v; 0; 0].
Lemma ordered : forall l, StronglySorted Rle l -> sort l = l.
Proof. intros l S. apply sorted_unique; [apply sort_sorted|exact S|apply Permutation_sym, sort_perm]. Qed.
Ltac rising := repeat (constructor; [|repeat (constructor; [lra|]); constructor]); constructor.
(** A single bright image among three does not show in their median. *)
Example median_example : image_sample shrink 1 1 1 Median (map (fun v => Some (grey v)) [9; 1; 2]) = Image (mkarray [1; 1]%nat [2]).
Proof.
  destruct (median_image shrink 1 1 1 (le_n 1) [grey 9; grey 1; grey 2]) as (a & E & (S & L) & V). { intros i [<-|[<-|[<-|[]]]]; apply plain_right. }
  cbn [map] in *. rewrite E. f_equal. specialize (V 0%nat 0%nat 0%nat ltac:(lia) ltac:(lia) ltac:(lia)). destruct a as [sh d]. cbn in S, L, V. subst sh.
  destruct d as [|v [|? ?]]; try discriminate. unfold value in V. cbn [nth Nat.mul Nat.add data] in V. rewrite V. do 2 f_equal. change (nth 1 (sort [9; 1; 2]) 0 = 2).
  assert (sort [9; 1; 2] = [1; 2; 9]) as ->; [|reflexivity]. rewrite <- (ordered [1; 2; 9]) by rising.
  apply sorted_unique; try apply sort_sorted. eapply perm_trans; [apply Permutation_sym, sort_perm|]. eapply perm_trans; [|apply sort_perm].
  eapply perm_trans; [apply perm_swap|]. apply perm_skip. apply perm_swap.
Qed.
Example middle_even : middle [4; 1; 3; 8] (7 / 2).
Proof.
  exists [1; 3; 4; 8]. split; [|split; [rising|cbn; lra]]. eapply perm_trans; [apply perm_swap|]. apply perm_skip. apply perm_swap.
Qed.
Example inside_example : inside 1 2 [9; 1; 2] = 2%nat.
Proof. cbn [inside]. destruct (Rle_dec 1 9), (Rle_dec 9 2), (Rle_dec 1 1), (Rle_dec 1 2), (Rle_dec 2 2); try lra; reflexivity. Qed.
Lemma first_fair : fair first_ones.
Proof. intros n l H. split; [intros x I; apply (firstn_In _ _ _ I) || (unfold first_ones in I; rewrite <- (firstn_skipn n l); apply in_or_app; now left)|now apply firstn_length_le]. Qed.
Example bin_example : exists a, compute_bin shrink 1 1 1 first_ones Median 3 1 (map Some (map grey [9; 1; 2; 4; 4; 4; 4; 4; 4; 4])) [5; 7] None = Filled (mkarray [1; 1]%nat [6]) a.
Proof.
  unfold compute_bin. cbn [map length Nat.leb Nat.ltb first_ones firstn]. pose proof median_example as M. cbn [map] in M. rewrite M.
  eexists. f_equal. unfold filled. cbn [size fold_right Nat.mul Nat.add repeat]. do 2 f_equal. cbn [length INR]. destruct (Rle_dec _ 0); lra.
Qed.

(** ** C274 *)
(** A camera of one channel: the mean by "mean_trimmed" fails, whatever the images. *)
Theorem C274_one_channel_refuted : exists resize h w c choose most fallback images distances,
  (1 <= c)%nat /\ (10 <= length images)%nat /\ (forall i, In i images -> right_size h w c i) /\
  compute_bin resize h w c choose MeanTrimmed most fallback (map Some images) distances None = Error.
Proof.
  exists shrink, 1%nat, 1%nat, 1%nat, first_ones, 100%nat, 1, (repeat (grey (1 / 2)) 10), (repeat 5 10). split; [lia|]. split; [cbn; lia|].
  assert (forall i, In i (repeat (grey (1 / 2)) 10) -> right_size 1 1 1 i) as H by (intros i I; apply repeat_spec in I; subst; apply plain_right). split; [exact H|].
  unfold compute_bin, image_sample. cbn [length repeat map Nat.leb Nat.ltb].
  pose proof (memmap_right shrink 1 1 1 (le_n 1) (repeat (grey (1 / 2)) 10) H) as E. cbn [repeat map] in E. rewrite E. reflexivity.
Qed.
Print Assumptions C274_one_channel_refuted.
(** A camera of three channels: the mean is not a number anywhere. *)
Theorem C274_colour_refuted : exists resize h w c choose most fallback images distances,
  (1 <= c)%nat /\ (10 <= length images)%nat /\ (forall i, In i images -> right_size h w c i) /\
  compute_bin resize h w c choose MeanTrimmed most fallback (map Some images) distances None = Undefined.
Proof.
  exists shrink, 1%nat, 1%nat, 3%nat, first_ones, 100%nat, 1, (repeat (red (1 / 2)) 10), (repeat 5 10). split; [lia|]. split; [cbn; lia|].
  assert (forall i, In i (repeat (red (1 / 2)) 10) -> right_size 1 1 3 i) as H by (intros i I; apply repeat_spec in I; subst; split; reflexivity). split; [exact H|].
  unfold compute_bin, image_sample. cbn [length repeat map Nat.leb Nat.ltb].
  pose proof (memmap_right shrink 1 1 3 ltac:(lia) (repeat (red (1 / 2)) 10) H) as E. cbn [repeat map] in E. rewrite E. reflexivity.
Qed.
Print Assumptions C274_colour_refuted.
(** An entry without an image stops everything. *)
Theorem C274_missing_refuted : exists resize h w c choose most fallback images distances,
  (10 <= length (filter (fun i => match i with Some _ => true | None => false end) images))%nat /\ (forall i, In (Some i) images -> right_size h w c i) /\
  compute_bin resize h w c choose Median most fallback images distances None = Error.
Proof.
  exists shrink, 1%nat, 1%nat, 1%nat, first_ones, 100%nat, 1, (None :: repeat (Some (grey (1 / 2))) 10), (repeat 5 11). split; [cbn; lia|]. split.
  - intros i [E|I]; [discriminate|]. apply repeat_spec in I. injection I as ->. apply plain_right.
  - reflexivity.
Qed.
Print Assumptions C274_missing_refuted.
(** Colour images of a camera configured with one channel cannot be used. *)
Theorem C274_channels_refuted : exists resize h w choose most fallback images distances,
  (10 <= length images)%nat /\ (forall i, In i images -> right_size h w 3 i) /\
  compute_bin resize h w 1 choose Median most fallback (map Some images) distances None = Error.
Proof.
  exists shrink, 1%nat, 1%nat, first_ones, 100%nat, 1, (repeat (red (1 / 2)) 10), (repeat 5 10). split; [cbn; lia|]. split.
  - intros i I. apply repeat_spec in I. subst. split; reflexivity.
  - reflexivity.
Qed.
Print Assumptions C274_channels_refuted.
