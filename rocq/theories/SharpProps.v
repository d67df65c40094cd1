(** C295, C296: which views of a board are taken for sharp. *)
From Verif Require Import PyBase SharpModel.
From Coq Require Import Setoid Lqa Qround.
Open Scope Q_scope.

(** * Specification *)
(** A pixel of the board's part of an image: at most as far as the whole part of the corners, the last row and column left out. *)
Definition inside (ul ur dr dl : point) (r c : nat) : Prop :=
  let ps := [ul; ur; dr; dl] in
  (exists p, In p ps /\ (Qfloor (snd p) <= Z.of_nat r)%Z) /\ (exists p, In p ps /\ (Z.of_nat r < Qfloor (snd p))%Z) /\
  (exists p, In p ps /\ (Qfloor (fst p) <= Z.of_nat c)%Z) /\ (exists p, In p ps /\ (Z.of_nat c < Qfloor (fst p))%Z).
(** All corners are in the image. *)
Definition in_image (g : image) (ps : list point) : Prop :=
  forall p, In p ps -> 0 <= fst p /\ fst p <= inject_Z (Z.of_nat (cols g)) /\ 0 <= snd p /\ snd p <= inject_Z (Z.of_nat (rows g)).

(** * Lemmas *)
Lemma int_floor : forall q, 0 <= q -> int q = Qfloor q.
Proof. intros [n d] H. unfold int, Qfloor. cbn [Qnum Qden]. unfold Qle in H. cbn in H. apply Z.quot_div_nonneg; lia. Qed.
Lemma qmin_spec : forall a b, qmin a b <= a /\ qmin a b <= b /\ (qmin a b = a \/ qmin a b = b).
Proof.
  intros a b. unfold qmin. destruct (Qle_bool a b) eqn:E; [apply Qle_bool_iff in E; repeat split; try apply Qle_refl; tauto|].
  assert (b <= a). { apply Qnot_lt_le. intros L. apply Qlt_le_weak, Qle_bool_iff in L. congruence. } repeat split; try apply Qle_refl; tauto.
Qed.
Lemma qmax_spec : forall a b, a <= qmax a b /\ b <= qmax a b /\ (qmax a b = a \/ qmax a b = b).
Proof.
  intros a b. unfold qmax. destruct (Qle_bool a b) eqn:E; [apply Qle_bool_iff in E; repeat split; try apply Qle_refl; tauto|].
  assert (b <= a). { apply Qnot_lt_le. intros L. apply Qlt_le_weak, Qle_bool_iff in L. congruence. } repeat split; try apply Qle_refl; tauto.
Qed.
Lemma min4_spec : forall f (ul ur dr dl : point), let m := min4 (f ul) (f ur) (f dr) (f dl) in let ps := [ul; ur; dr; dl] in (forall p, In p ps -> m <= f p) /\ exists p, In p ps /\ m = f p.
Proof.
  intros f ul ur dr dl m ps. unfold m, min4. destruct (qmin_spec (f ul) (f ur)) as (A1 & A2 & A3). destruct (qmin_spec (qmin (f ul) (f ur)) (f dr)) as (B1 & B2 & B3).
  destruct (qmin_spec (qmin (qmin (f ul) (f ur)) (f dr)) (f dl)) as (C1 & C2 & C3). split.
  - intros p [ <- |[ <- |[ <- |[ <- |[]]]]]; lra.
  - unfold ps. destruct C3 as [ -> | -> ]; [destruct B3 as [ -> | -> ]; [destruct A3 as [ -> | -> ]; [exists ul|exists ur]|exists dr]|exists dl]; cbn; tauto.
Qed.
Lemma max4_spec : forall f (ul ur dr dl : point), let m := max4 (f ul) (f ur) (f dr) (f dl) in let ps := [ul; ur; dr; dl] in (forall p, In p ps -> f p <= m) /\ exists p, In p ps /\ m = f p.
Proof.
  intros f ul ur dr dl m ps. unfold m, max4. destruct (qmax_spec (f ul) (f ur)) as (A1 & A2 & A3). destruct (qmax_spec (qmax (f ul) (f ur)) (f dr)) as (B1 & B2 & B3).
  destruct (qmax_spec (qmax (qmax (f ul) (f ur)) (f dr)) (f dl)) as (C1 & C2 & C3). split.
  - intros p [ <- |[ <- |[ <- |[ <- |[]]]]]; lra.
  - unfold ps. destruct C3 as [ -> | -> ]; [destruct B3 as [ -> | -> ]; [destruct A3 as [ -> | -> ]; [exists ul|exists ur]|exists dr]|exists dl]; cbn; tauto.
Qed.
Lemma bound_in : forall i n, (0 <= i <= Z.of_nat n)%Z -> Z.of_nat (bound i n) = i.
Proof. intros i n H. unfold bound. destruct (i <? 0)%Z eqn:E; [apply Z.ltb_lt in E; lia|]. lia. Qed.
Lemma floor_in : forall q n, 0 <= q -> q <= inject_Z (Z.of_nat n) -> (0 <= Qfloor q <= Z.of_nat n)%Z.
Proof. intros q n A B. split; [change 0%Z with (Qfloor 0); now apply Qfloor_resp_le|]. rewrite <- (Qfloor_Z (Z.of_nat n)). now apply Qfloor_resp_le. Qed.

Lemma total_eq : forall {A} (f g : A -> Q) l, (forall a, In a l -> f a == g a) -> total (map f l) == total (map g l).
Proof. intros A f g l. induction l as [|a l IH]; intros H; [reflexivity|]. cbn [map total fold_right]. fold (total (map f l)) (total (map g l)). rewrite (H a (or_introl eq_refl)), IH by (intros; apply H; now right). reflexivity. Qed.
Lemma total_scale : forall {A} s (f : A -> Q) l, total (map (fun a => s * f a) l) == s * total (map f l).
Proof. intros A s f l. induction l as [|a l IH]; [cbn; ring|]. cbn [map total fold_right]. fold (total (map f l)) (total (map (fun a => s * f a) l)). rewrite IH. ring. Qed.
Lemma mean_scale : forall {A} s (f g : A -> Q) l, (forall a, In a l -> f a == s * g a) -> mean (map f l) == s * mean (map g l).
Proof.
  intros A s f g l H. unfold mean. rewrite !map_length. rewrite (total_eq f (fun a => s * g a) l H), total_scale. unfold Qdiv. ring.
Qed.
Lemma var_scale : forall {A} s (f g : A -> Q) l, (forall a, In a l -> f a == s * g a) -> var (map f l) == s * s * var (map g l).
Proof.
  intros A s f g l H. unfold var. rewrite !map_map. apply mean_scale. intros a I. rewrite (H a I), (mean_scale s f g l H). ring.
Qed.
Lemma places_in : forall g r c k, In (r, c, k) (places g) <-> (r < rows g /\ c < cols g /\ k < chans g)%nat.
Proof. intros g r c k. unfold places. rewrite !in_prod_iff, !in_seq. lia. Qed.
Lemma before_in : forall i n, (i < n)%nat -> (before i n < n)%nat.
Proof. intros [|i] n H; cbn [before]; [destruct (n <=? 1)%nat eqn:E; [lia|apply Nat.leb_gt in E; lia]|lia]. Qed.
Lemma after_in : forall i n, (i < n)%nat -> (after i n < n)%nat.
Proof. intros i n H. unfold after. destruct (S i <? n)%nat eqn:E; [now apply Nat.ltb_lt in E|lia]. Qed.

Definition roi (g : image) (ul ur dr dl : point) : image :=
  crop g (int (min4 (snd ul) (snd ur) (snd dr) (snd dl))) (int (max4 (snd ul) (snd ur) (snd dr) (snd dl)))
         (int (min4 (fst ul) (fst ur) (fst dr) (fst dl))) (int (max4 (fst ul) (fst ur) (fst dr) (fst dl))).
Lemma is_sharp_roi : forall g ul ur dr dl, is_sharp g ul ur dr dl = match values (roi g ul ur dr dl) with [] => None | l => Some (negb (Qle_bool (var l) (26 # 100))) end.
Proof. reflexivity. Qed.
Definition top (g : image) (ul ur dr dl : point) : nat := bound (int (min4 (snd ul) (snd ur) (snd dr) (snd dl))) (rows g).
Definition left (g : image) (ul ur dr dl : point) : nat := bound (int (min4 (fst ul) (fst ur) (fst dr) (fst dl))) (cols g).
Lemma roi_at : forall g ul ur dr dl r c k, at_ (roi g ul ur dr dl) r c k = at_ g (top g ul ur dr dl + r) (left g ul ur dr dl + c) k.
Proof. reflexivity. Qed.
(** The pixels of the part are those inside. *)
Lemma roi_pixels : forall g ul ur dr dl, in_image g [ul; ur; dr; dl] ->
  (forall r c, (r < rows (roi g ul ur dr dl) /\ c < cols (roi g ul ur dr dl))%nat -> inside ul ur dr dl (top g ul ur dr dl + r) (left g ul ur dr dl + c)) /\
  (forall r c, inside ul ur dr dl r c -> (0 < rows (roi g ul ur dr dl) /\ 0 < cols (roi g ul ur dr dl))%nat).
Proof.
  intros g ul ur dr dl I. destruct (min4_spec snd ul ur dr dl) as (A1 & pa & A2 & A3). destruct (max4_spec snd ul ur dr dl) as (B1 & pb & B2 & B3). destruct (min4_spec fst ul ur dr dl) as (C1 & pc & C2 & C3). destruct (max4_spec fst ul ur dr dl) as (D1 & pd & D2 & D3).
  unfold roi, crop, top, left. cbn [rows cols at_]. set (ma := min4 (snd ul) _ _ _) in *. set (mb := max4 (snd ul) _ _ _) in *. set (mc := min4 (fst ul) _ _ _) in *. set (md := max4 (fst ul) _ _ _) in *. clearbody ma mb mc md. subst ma mb mc md.
  destruct (I pa A2) as (_ & _ & Ha1 & Ha2). destruct (I pb B2) as (_ & _ & Hb1 & Hb2). destruct (I pc C2) as (Hc1 & Hc2 & _). destruct (I pd D2) as (Hd1 & Hd2 & _).
  rewrite !int_floor by assumption. pose proof (floor_in _ _ Ha1 Ha2) as Fa. pose proof (floor_in _ _ Hb1 Hb2) as Fb. pose proof (floor_in _ _ Hc1 Hc2) as Fc. pose proof (floor_in _ _ Hd1 Hd2) as Fd.
  pose proof (bound_in _ _ Fa) as Ga. pose proof (bound_in _ _ Fb) as Gb. pose proof (bound_in _ _ Fc) as Gc. pose proof (bound_in _ _ Fd) as Gd. split.
  - intros r c [Hr Hc]. unfold inside. cbv zeta. repeat split; [exists pa|exists pb|exists pc|exists pd]; split; try assumption; lia.
  - intros r c ((p1 & P1 & Q1) & (p2 & P2 & Q2) & (p3 & P3 & Q3) & (p4 & P4 & Q4)).
    pose proof (Qfloor_resp_le _ _ (A1 p1 P1)). pose proof (Qfloor_resp_le _ _ (B1 p2 P2)). pose proof (Qfloor_resp_le _ _ (C1 p3 P3)). pose proof (Qfloor_resp_le _ _ (D1 p4 P4)). split; lia.
Qed.
Lemma values_nil : forall g, values g = [] <-> (rows g = 0 \/ cols g = 0 \/ chans g = 0)%nat.
Proof.
  intros g. unfold values. split.
  - intros H. apply map_eq_nil in H. destruct (rows g) as [|r] eqn:R; [tauto|]. destruct (cols g) as [|c] eqn:C; [tauto|]. destruct (chans g) as [|k] eqn:K; [tauto|]. exfalso.
    assert (X : In (0%nat, 0%nat, 0%nat) (places g)) by (apply places_in; lia). now rewrite H in X.
  - intros H. destruct (places g) as [|[[r c] k] l] eqn:E; [reflexivity|]. assert (X : In (r, c, k) (places g)) by (rewrite E; now left). apply places_in in X. lia.
Qed.
(** Pixels that are [s] times others and an offset of the channel. *)
Lemma values_scale : forall g g' ul ur dr dl s (off : nat -> Q), rows g = rows g' -> cols g = cols g' -> chans g = chans g' -> in_image g [ul; ur; dr; dl] ->
  (forall r c k, inside ul ur dr dl r c -> (k < chans g)%nat -> at_ g r c k == s * at_ g' r c k + off k) ->
  (values (roi g ul ur dr dl) = [] <-> values (roi g' ul ur dr dl) = []) /\ var (values (roi g ul ur dr dl)) == s * s * var (values (roi g' ul ur dr dl)).
Proof.
  intros g g' ul ur dr dl s off R C K I H. destruct (roi_pixels g ul ur dr dl I) as (IN & _).
  assert (R1 : rows (roi g' ul ur dr dl) = rows (roi g ul ur dr dl)) by (unfold roi, crop; cbn [rows]; now rewrite R). assert (C1 : cols (roi g' ul ur dr dl) = cols (roi g ul ur dr dl)) by (unfold roi, crop; cbn [cols]; now rewrite C).
  assert (K1 : chans (roi g ul ur dr dl) = chans g) by reflexivity. assert (K2 : chans (roi g' ul ur dr dl) = chans g') by reflexivity.
  assert (T : top g' ul ur dr dl = top g ul ur dr dl) by (unfold top; now rewrite R). assert (L : left g' ul ur dr dl = left g ul ur dr dl) by (unfold left; now rewrite C).
  assert (AT : forall r c k, (r < rows (roi g ul ur dr dl))%nat -> (c < cols (roi g ul ur dr dl))%nat -> (k < chans g)%nat -> at_ (roi g ul ur dr dl) r c k == s * at_ (roi g' ul ur dr dl) r c k + off k).
  { intros r c k Hr Hc Hk. rewrite !roi_at, T, L. apply H; [now apply IN|exact Hk]. }
  split; [rewrite !values_nil, R1, C1, K1, K2, K; tauto|]. unfold values. assert (PL : places (roi g' ul ur dr dl) = places (roi g ul ur dr dl)) by (unfold places; now rewrite R1, C1, K1, K2, K). rewrite PL.
  apply var_scale. intros [[r c] k] X. apply places_in in X. rewrite K1 in X. destruct X as (Hr & Hc & Hk). cbn [fst snd]. unfold laplacian. rewrite R1, C1.
  rewrite !AT by (try assumption; try (apply before_in; assumption); try (apply after_in; assumption)). ring.
Qed.

(** * C295 *)
(** There is an answer exactly if the part with the board has a pixel. *)
Theorem C295_defined : forall g ul ur dr dl, in_image g [ul; ur; dr; dl] -> (0 < chans g)%nat -> (is_sharp g ul ur dr dl <> None <-> exists r c, inside ul ur dr dl r c).
Proof.
  intros g ul ur dr dl I K. rewrite is_sharp_roi. destruct (roi_pixels g ul ur dr dl I) as [IN OUT]. pose proof (values_nil (roi g ul ur dr dl)) as V. change (chans (roi g ul ur dr dl)) with (chans g) in V. split.
  - intros H. assert (N : values (roi g ul ur dr dl) <> []) by (intros E; rewrite E in H; congruence). exists (top g ul ur dr dl + 0)%nat, (left g ul ur dr dl + 0)%nat. apply IN.
    destruct (rows (roi g ul ur dr dl)); [exfalso; tauto|]. destruct (cols (roi g ul ur dr dl)); [exfalso; tauto|]. lia.
  - intros (r & c & H). apply OUT in H. destruct (values (roi g ul ur dr dl)); [|discriminate]. exfalso. destruct (proj1 V eq_refl) as [E|[E|E]]; lia.
Qed.
(** Only the pixels inside matter, and brightness added to a channel does not. *)
Theorem C295_brightness : forall g g' ul ur dr dl (off : nat -> Q), rows g = rows g' -> cols g = cols g' -> chans g = chans g' -> in_image g [ul; ur; dr; dl] ->
  (forall r c k, inside ul ur dr dl r c -> (k < chans g)%nat -> at_ g r c k == at_ g' r c k + off k) -> is_sharp g ul ur dr dl = is_sharp g' ul ur dr dl.
Proof.
  intros g g' ul ur dr dl off R C K I H. destruct (values_scale g g' ul ur dr dl 1 off R C K I) as [N V]. { intros r c k A B. rewrite (H r c k A B). ring. }
  rewrite !is_sharp_roi. destruct (values (roi g ul ur dr dl)) as [|a l]; destruct (values (roi g' ul ur dr dl)) as [|a' l']; [reflexivity|discriminate (proj1 N eq_refl)|discriminate (proj2 N eq_refl)|].
  rewrite V. replace (Qle_bool (1 * 1 * var (a' :: l')) (26 # 100)) with (Qle_bool (var (a' :: l')) (26 # 100)); [reflexivity|]. apply eq_true_iff_eq. rewrite !Qle_bool_iff. split; lra.
Qed.
(** More contrast never makes a sharp view blurred. *)
Theorem C295_contrast : forall g g' ul ur dr dl s (off : nat -> Q), rows g = rows g' -> cols g = cols g' -> chans g = chans g' -> in_image g [ul; ur; dr; dl] -> 1 <= s \/ s <= -(1) ->
  (forall r c k, inside ul ur dr dl r c -> (k < chans g)%nat -> at_ g r c k == s * at_ g' r c k + off k) -> is_sharp g' ul ur dr dl = Some true -> is_sharp g ul ur dr dl = Some true.
Proof.
  intros g g' ul ur dr dl s off R C K I S1 H. destruct (values_scale g g' ul ur dr dl s off R C K I H) as [N V].
  rewrite !is_sharp_roi. destruct (values (roi g ul ur dr dl)) as [|a l]; destruct (values (roi g' ul ur dr dl)) as [|a' l']; try discriminate; [discriminate (proj1 N eq_refl)|].
  intros E. injection E as E. apply negb_true_iff, not_true_iff_false in E. apply f_equal, negb_true_iff, not_true_iff_false. intros L. apply E. apply Qle_bool_iff in L. apply Qle_bool_iff. rewrite V in L.
  assert (1 <= s * s) by (destruct S1; nra). destruct (Qlt_le_dec (26 # 100) (var (a' :: l'))) as [X|X]; [|exact X]. nra.
Qed.
(** A part of one colour is not sharp. *)
Theorem C295_plain : forall g ul ur dr dl (colour : nat -> Q), in_image g [ul; ur; dr; dl] -> (0 < chans g)%nat -> (exists r c, inside ul ur dr dl r c) ->
  (forall r c k, inside ul ur dr dl r c -> (k < chans g)%nat -> at_ g r c k == colour k) -> is_sharp g ul ur dr dl = Some false.
Proof.
  intros g ul ur dr dl colour I K EX H. destruct (values_scale g g ul ur dr dl 0 colour eq_refl eq_refl eq_refl I) as [_ V]. { intros r c k A B. rewrite (H r c k A B). ring. }
  pose proof (proj2 (C295_defined g ul ur dr dl I K) EX) as D. rewrite is_sharp_roi in *. destruct (values (roi g ul ur dr dl)) as [|a l]; [congruence|]. rewrite V. apply f_equal, negb_false_iff, Qle_bool_iff. lra.
Qed.
(** The picture of a board that fills the image is as sharp mirrored or upside down. *)
From Coq Require Import Permutation.
Lemma total_perm : forall l l', Permutation l l' -> total l == total l'.
Proof. intros l l' P. induction P as [|x l l' P IH|x y l|l l' l'' P1 IH1 P2 IH2]; unfold total in *; cbn [fold_right]; [reflexivity|now rewrite IH|ring|now rewrite IH1]. Qed.
Lemma mean_perm : forall l l', Permutation l l' -> mean l == mean l'.
Proof. intros l l' P. unfold mean. now rewrite (total_perm l l' P), (Permutation_length P). Qed.
Lemma var_perm : forall l l', Permutation l l' -> var l == var l'.
Proof.
  intros l l' P. unfold var. rewrite (mean_perm _ _ (Permutation_map (fun x => (x - mean l) * (x - mean l)) P)).
  transitivity (1 * mean (map (fun x => (x - mean l') * (x - mean l')) l')); [|ring]. apply mean_scale. intros a _. rewrite (mean_perm l l' P). ring.
Qed.
Lemma NoDup_prod : forall {A B} (l : list A) (m : list B), NoDup l -> NoDup m -> NoDup (list_prod l m).
Proof.
  intros A B l m L M. induction L as [|a l N L IH]; [constructor|]. cbn. assert (forall x y, NoDup x -> NoDup y -> (forall z : A * B, In z x -> ~ In z y) -> NoDup (x ++ y)) as J.
  { clear. induction x as [|z x IH]; intros y X Y D; [exact Y|]. inversion X; subst. cbn. constructor; [|apply IH; trivial; intros; apply D; now right]. rewrite in_app_iff. intros [I|I]; [easy|]. apply (D z); [now left|exact I]. }
  apply J; [|exact IH|].
  - clear - M. induction M as [|b m N M IH]; [constructor|]. cbn. constructor; [|exact IH]. rewrite in_map_iff. intros (b' & E & I). injection E as ->. easy.
  - intros [x y] I1 I2. apply in_map_iff in I1 as (b & E & _). injection E as <- <-. apply in_prod_iff in I2 as [I2 _]. easy.
Qed.
Lemma values_turned : forall g g' (F : nat * nat * nat -> nat * nat * nat), rows g' = rows g -> cols g' = cols g -> chans g' = chans g ->
  (forall p, In p (places g) -> In (F p) (places g) /\ F (F p) = p) ->
  (forall p, In p (places g) -> laplacian g' (fst (fst p)) (snd (fst p)) (snd p) == laplacian g (fst (fst (F p))) (snd (fst (F p))) (snd (F p))) ->
  (values g' = [] <-> values g = []) /\ var (values g') == var (values g).
Proof.
  intros g g' F R C K I L. split; [now rewrite !values_nil, R, C, K|].
  assert (places g' = places g) as P by (unfold places; now rewrite R, C, K).
  set (lap := fun g (p : nat * nat * nat) => laplacian g (fst (fst p)) (snd (fst p)) (snd p)). change (var (map (lap g') (places g')) == var (map (lap g) (places g))). rewrite P.
  rewrite (var_scale 1 (lap g') (fun p => lap g (F p)) (places g)) by (intros p J; rewrite Qmult_1_l; now apply L). ring_simplify.
  rewrite <- (map_map F (lap g)). apply var_perm, Permutation_map.
  assert (NoDup (places g)) as N by (unfold places; repeat apply NoDup_prod; apply seq_NoDup).
  assert (map F (map F (places g)) = places g) as E. { rewrite map_map, <- (map_id (places g)) at 1. rewrite map_id. rewrite <- (map_id (places g)) at 2. apply map_ext_in. intros p J. now apply I. }
  apply NoDup_Permutation; [apply (NoDup_map_inv F); now rewrite E|exact N|]. intros p. split.
  - intros J. apply in_map_iff in J as (q & <- & J). now apply I.
  - intros J. apply in_map_iff. exists (F p). split; now apply I.
Qed.
Lemma before_after : forall i n, (i < n)%nat -> (n - 1 - before i n = after (n - 1 - i) n /\ n - 1 - after i n = before (n - 1 - i) n)%nat.
Proof.
  intros i n H. unfold before, after. split.
  - destruct i as [|i].
    + replace (S (n - 1 - 0) <? n)%nat with false by (symmetry; apply Nat.ltb_ge; lia). destruct (n <=? 1)%nat eqn:E; [apply Nat.leb_le in E|apply Nat.leb_gt in E]; lia.
    + replace (S (n - 1 - S i) <? n)%nat with true by (symmetry; apply Nat.ltb_lt; lia). lia.
  - destruct (S i <? n)%nat eqn:X; [apply Nat.ltb_lt in X|apply Nat.ltb_ge in X]; destruct (n - 1 - i)%nat as [|j] eqn:J; try lia.
    destruct (n <=? 1)%nat eqn:E; [apply Nat.leb_le in E|apply Nat.leb_gt in E]; lia.
Qed.
Lemma whole : forall g, exists e, roi g (0, 0) (inject_Z (Z.of_nat (cols g)), 0) (inject_Z (Z.of_nat (cols g)), inject_Z (Z.of_nat (rows g))) (0, inject_Z (Z.of_nat (rows g))) = e /\
  rows e = rows g /\ cols e = cols g /\ chans e = chans g /\ forall r c k, at_ e r c k = at_ g r c k.
Proof.
  intros g. eexists. split; [reflexivity|]. unfold roi, crop. cbn [fst snd rows cols chans at_].
  assert (forall n, int (min4 0 0 (inject_Z (Z.of_nat n)) (inject_Z (Z.of_nat n))) = 0%Z /\ int (max4 0 0 (inject_Z (Z.of_nat n)) (inject_Z (Z.of_nat n))) = Z.of_nat n /\
                    int (min4 0 (inject_Z (Z.of_nat n)) (inject_Z (Z.of_nat n)) 0) = 0%Z /\ int (max4 0 (inject_Z (Z.of_nat n)) (inject_Z (Z.of_nat n)) 0) = Z.of_nat n) as M.
  { intros n. assert (Qle_bool 0 (inject_Z (Z.of_nat n)) = true) as A by (apply Qle_bool_iff; unfold Qle; cbn; lia). assert (Qle_bool (inject_Z (Z.of_nat n)) (inject_Z (Z.of_nat n)) = true) as B by (apply Qle_bool_iff, Qle_refl).
    assert (int (inject_Z (Z.of_nat n)) = Z.of_nat n) as D by (unfold int; cbn; apply Z.quot_1_r).
    unfold min4, max4, qmin, qmax. change (Qle_bool 0 0) with true. cbv iota. rewrite A. cbv iota. rewrite ?B, ?A. cbv iota. change (Qle_bool 0 0) with true. cbv iota. change (int 0) with 0%Z.
    repeat split; try exact D. destruct (Qle_bool (inject_Z (Z.of_nat n)) 0) eqn:X; [|exact D]. apply Qle_bool_iff in X. unfold Qle in X. cbn in X. change (int 0) with 0%Z. lia. }
  destruct (M (rows g)) as (M1 & M2 & _). destruct (M (cols g)) as (_ & _ & M3 & M4). rewrite M1, M2, M3, M4.
  assert (forall n, bound 0 n = 0%nat /\ bound (Z.of_nat n) n = n) as B by (intros n; unfold bound; destruct (Z.of_nat n <? 0)%Z eqn:E; [apply Z.ltb_lt in E; lia|cbn [Z.ltb Z.compare]; lia]).
  destruct (B (rows g)) as [B1 B2]. destruct (B (cols g)) as [B3 B4]. rewrite B1, B2, B3, B4. repeat split; lia.
Qed.
Theorem C295_mirror : forall g g' w h, w = inject_Z (Z.of_nat (cols g)) -> h = inject_Z (Z.of_nat (rows g)) -> rows g' = rows g -> cols g' = cols g -> chans g' = chans g ->
  (forall r c k, (r < rows g)%nat -> (c < cols g)%nat -> at_ g' r c k == at_ g r (cols g - 1 - c) k) \/ (forall r c k, (r < rows g)%nat -> (c < cols g)%nat -> at_ g' r c k == at_ g (rows g - 1 - r) c k) ->
  is_sharp g' (0, 0) (w, 0) (w, h) (0, h) = is_sharp g (0, 0) (w, 0) (w, h) (0, h).
Proof.
  intros g g' w h -> -> R C K H. destruct (whole g) as (e & E & R1 & C1 & K1 & A1). destruct (whole g') as (e' & E' & R2 & C2 & K2 & A2). rewrite R, C in E'.
  rewrite !is_sharp_roi, E, E'. clear E E'.
  assert ((values e' = [] <-> values e = []) /\ var (values e') == var (values e)) as [N V].
  { destruct H as [H|H].
    - apply (values_turned e e' (fun p => (fst (fst p), (cols g - 1 - snd (fst p))%nat, snd p))); try congruence.
      + intros [[r c] k] I. apply places_in in I. rewrite R1, C1, K1 in I. cbn [fst snd]. split; [apply places_in; rewrite R1, C1, K1; lia|]. f_equal; f_equal; lia.
      + intros [[r c] k] I. apply places_in in I. rewrite R1, C1, K1 in I. destruct I as (I1 & I2 & I3). cbn [fst snd]. unfold laplacian. rewrite !A1, !A2, R1, R2, C1, C2, R, C.
        destruct (before_after c (cols g) I2) as [B1 B2]. rewrite !H by (trivial; try (now apply before_in); now apply after_in). rewrite B1, B2. ring.
    - apply (values_turned e e' (fun p => ((rows g - 1 - fst (fst p))%nat, snd (fst p), snd p))); try congruence.
      + intros [[r c] k] I. apply places_in in I. rewrite R1, C1, K1 in I. cbn [fst snd]. split; [apply places_in; rewrite R1, C1, K1; lia|]. f_equal; f_equal; lia.
      + intros [[r c] k] I. apply places_in in I. rewrite R1, C1, K1 in I. destruct I as (I1 & I2 & I3). cbn [fst snd]. unfold laplacian. rewrite !A1, !A2, R1, R2, C1, C2, R, C.
        destruct (before_after r (rows g) I1) as [B1 B2]. rewrite !H by (trivial; try (now apply before_in); now apply after_in). rewrite B1, B2. ring. }
  destruct (values e') as [|a l] eqn:E1; destruct (values e) as [|a' l'] eqn:E2; [reflexivity|discriminate (proj1 N eq_refl)|discriminate (proj2 N eq_refl)|].
  f_equal. f_equal. destruct (Qle_bool (var (a :: l)) (26 # 100)) eqn:X; symmetry; [apply Qle_bool_iff; apply Qle_bool_iff in X; now rewrite <- V|].
  apply Bool.not_true_is_false. intros Y. apply Qle_bool_iff in Y. rewrite <- V in Y. apply Qle_bool_iff in Y. congruence.
Qed.
Print Assumptions C295_mirror.
Example mirrored : let g := mkimage 1 4 1 (fun _ c _ => inject_Z (Z.of_nat (c * c))) in let g' := mkimage 1 4 1 (fun _ c _ => inject_Z (Z.of_nat ((3 - c) * (3 - c)))) in
  is_sharp g (0, 0) (4, 0) (4, 1) (0, 1) = Some true /\ is_sharp g' (0, 0) (4, 0) (4, 1) (0, 1) = Some true /\ var (values g) == var (values g') /\ var (values g) == 27 .
Proof. vm_compute. repeat split; reflexivity. Qed.

Print Assumptions C295_defined. Print Assumptions C295_brightness. Print Assumptions C295_contrast. Print Assumptions C295_plain.

(** Not vacuous: squares of one pixel, black and of ten, are sharp; of one grey they are not. *)
Definition squares : image := mkimage 6 6 3 (fun r c _ => if Nat.even (r + c) then 10 else 0).
Definition even_gray : image := mkimage 6 6 3 (fun r c k => if (k =? 0)%nat then 7 else 9).
Example C295_example : in_image squares [(5 # 4, 1); (9 # 2, 1); (9 # 2, 5); (5 # 4, 5)] /\ inside (5 # 4, 1) (9 # 2, 1) (9 # 2, 5) (5 # 4, 5) 1 3 /\
  is_sharp squares (5 # 4, 1) (9 # 2, 1) (9 # 2, 5) (5 # 4, 5) = Some true /\ is_sharp even_gray (5 # 4, 1) (9 # 2, 1) (9 # 2, 5) (5 # 4, 5) = Some false.
Proof.
  split; [intros p H; cbn in H; destruct H as [ <- |[ <- |[ <- |[ <- |[]]]]]; repeat split; vm_compute; discriminate|]. split; [|split; vm_compute; reflexivity].
  unfold inside. cbv zeta. repeat split; [exists (5 # 4, 1)|exists (9 # 2, 5)|exists (5 # 4, 1)|exists (9 # 2, 5)]; (split; [cbn; tauto|vm_compute; first [reflexivity|discriminate]]).
Qed.

(** * C296: the claims without the conditions *)
(** "A view has an answer": not one with a corner just outside the image, though the board is seen. *)
Theorem C296_outside_refuted : exists g, is_sharp g (-(1), 1) (4, 1) (4, 5) (-(1), 5) = None /\ is_sharp g (0, 1) (4, 1) (4, 5) (0, 5) = Some true.
Proof. exists squares. split; vm_compute; reflexivity. Qed.
(** "Contrast does not matter": a tenth of it and the same edge is blurred. *)
Definition edge (a : Q) : image := mkimage 12 12 3 (fun _ c _ => if (c <? 6)%nat then 0 else a).
Theorem C296_contrast_refuted : exists g g', (forall r c k, at_ g' r c k == at_ g r c k * (1 # 10)) /\ is_sharp g (0, 0) (12, 0) (12, 12) (0, 12) = Some true /\ is_sharp g' (0, 0) (12, 0) (12, 12) (0, 12) = Some false.
Proof. exists (edge 10), (edge 1). split; [|split; vm_compute; reflexivity]. intros r c k. cbn [at_ edge]. destruct (c <? 6)%nat; reflexivity. Qed.
(** "What has no edge is not sharp": an even slope of brightness is. *)
Theorem C296_slope_refuted : exists g, (forall r c k, at_ g r (S c) k - at_ g r c k == 2) /\ is_sharp g (0, 0) (8, 0) (8, 8) (0, 8) = Some true.
Proof.
  exists (mkimage 8 8 3 (fun r c k => 2 * inject_Z (Z.of_nat c))). split; [|vm_compute; reflexivity]. intros r c k. cbn [at_]. rewrite Nat2Z.inj_succ. unfold Z.succ. rewrite inject_Z_plus. ring.
Qed.
Print Assumptions C296_outside_refuted. Print Assumptions C296_contrast_refuted. Print Assumptions C296_slope_refuted.
