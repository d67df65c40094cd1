(** C58: laser line detection. *)
From Coq Require Import Qfield.
From Verif Require Import PyBase LaserModel.
Open Scope Q_scope.

(** ** Specification *)
Fixpoint sum_upto (n : nat) (f : nat -> Q) : Q := match n with O => 0 | S n => sum_upto n f + f n end.
(** The tent over [k] rows, and the weighted sum of the window starting at row [w]. *)
Definition tent (k i : nat) : Q := (qn k - Qabs (qn k - 1 - 2 * qn i)) / qn k.
Definition wsum (col : nat -> Q) (k w : nat) : Q := sum_upto k (fun i => tent k i * col (w + i)%nat).
(** The centroid of the intensities of a window. *)
Definition centroid (col : nat -> Q) (k w : nat) (r : Q) : Prop :=
  (r - qn w) * sum_upto k (fun i => col (w + i)%nat) == sum_upto k (fun i => qn i * col (w + i)%nat).
Definition bright (col : nat -> Q) : Prop := forall v, 0 <= col v.

Lemma qn_S : forall n, qn (S n) == qn n + 1.
Proof. intros n. unfold qn. rewrite Nat2Z.inj_succ, <- Z.add_1_r, inject_Z_plus. reflexivity. Qed.
Lemma qn_add : forall a b, qn (a + b) == qn a + qn b.
Proof. intros a b. unfold qn. rewrite Nat2Z.inj_add, inject_Z_plus. reflexivity. Qed.
Lemma qn_nonneg : forall n, 0 <= qn n.
Proof. intros n. unfold qn. change 0 with (inject_Z 0). rewrite <- Zle_Qle. lia. Qed.
Lemma qn_lt : forall a b, (a < b)%nat -> qn a + 1 <= qn b.
Proof. intros a b H. rewrite <- qn_S. unfold qn. rewrite <- Zle_Qle. lia. Qed.
Lemma sum_ext : forall n f g, (forall i, (i < n)%nat -> f i == g i) -> sum_upto n f == sum_upto n g.
Proof. induction n as [|n IH]; intros f g H; cbn; [reflexivity|]. rewrite (IH f g), (H n) by (intros; try apply H; lia). reflexivity. Qed.
Lemma sum_le : forall n f g, (forall i, (i < n)%nat -> f i <= g i) -> sum_upto n f <= sum_upto n g.
Proof. induction n as [|n IH]; intros f g H; cbn; [apply Qle_refl|]. apply Qplus_le_compat; [apply IH; intros; apply H; lia|apply H; lia]. Qed.
Lemma sum_nonneg : forall n f, (forall i, (i < n)%nat -> 0 <= f i) -> 0 <= sum_upto n f.
Proof. intros n f H. assert (sum_upto n (fun _ => 0) == 0) as <- by (clear; induction n as [|n IH]; cbn; [reflexivity|]; rewrite IH; reflexivity). now apply sum_le. Qed.
Lemma sum_scale : forall n c f, sum_upto n (fun i => c * f i) == c * sum_upto n f.
Proof. induction n as [|n IH]; intros c f; cbn; [ring|]. rewrite IH. ring. Qed.

Lemma weight_tent : forall k vw i, (0 < k)%nat -> weight k vw (vw + i) == tent k i.
Proof.
  intros k vw i K. unfold weight, tent. assert (~ qn k == 0) as N by (pose proof (qn_lt 0 k K) as H; change (qn 0) with 0 in H; lra). rewrite qn_add.
  assert (2 * Qabs (qn vw + (qn k - 1) / 2 - (qn vw + qn i)) == Qabs (qn k - 1 - 2 * qn i)) as ->.
  { change 2 with (Qabs 2) at 1. rewrite <- Qabs_Qmult. apply Qabs_wd. field. }
  field. exact N.
Qed.
Lemma tent_bound : forall k i, (i < k)%nat -> 0 < tent k i <= 1.
Proof.
  intros k i H. unfold tent. pose proof (qn_lt i k H) as A. pose proof (qn_nonneg i) as B. assert (0 < qn k) as K by lra.
  assert (Qabs (qn k - 1 - 2 * qn i) <= qn k - 1) as C by (apply Qabs_Qle_condition; lra). pose proof (Qabs_nonneg (qn k - 1 - 2 * qn i)).
  split; [apply Qlt_shift_div_l; [exact K|lra]|apply Qle_shift_div_r; [exact K|lra]].
Qed.
Lemma window_spec : forall col k vw, let '(gt, gt_m, gt_mv) := window col k vw in
  gt == wsum col k vw /\ gt_m == sum_upto k (fun i => col (vw + i)%nat) /\ gt_mv == sum_upto k (fun i => qn i * col (vw + i)%nat).
Proof.
  intros col k vw. unfold window.
  assert (forall n, (n <= k)%nat -> let '(gt, gt_m, gt_mv) := fold_left (accumulate col k vw) (seq vw n) (0, 0, 0) in
    gt == sum_upto n (fun i => tent k i * col (vw + i)%nat) /\ gt_m == sum_upto n (fun i => col (vw + i)%nat) /\ gt_mv == sum_upto n (fun i => qn i * col (vw + i)%nat)) as G; [|now apply (G k)].
  induction n as [|n IH]; intros L; [repeat split; reflexivity|]. specialize (IH ltac:(lia)). rewrite seq_S, fold_left_app. cbn [fold_left].
  destruct (fold_left (accumulate col k vw) (seq vw n) (0, 0, 0)) as [[a b] c]. destruct IH as (A & B & C). unfold accumulate. cbn [sum_upto].
  rewrite (weight_tent k vw n) by lia. rewrite A, B, C, qn_add. split; [reflexivity|]. split; [reflexivity|]. ring.
Qed.
(** The row of the window. *)
Lemma window_row : forall col k vw gt gt_m gt_mv, bright col -> window col k vw = (gt, gt_m, gt_mv) -> 0 < gt ->
  centroid col k vw (qn vw + gt_mv / gt_m) /\ qn vw <= qn vw + gt_mv / gt_m <= qn vw + qn k - 1.
Proof.
  intros col k vw gt gt_m gt_mv B E P. pose proof (window_spec col k vw) as W. rewrite E in W. destruct W as (W1 & W2 & W3).
  assert (gt <= gt_m) as GM.
  { rewrite W1, W2. unfold wsum. apply sum_le. intros i I. pose proof (tent_bound k i I). pose proof (B (vw + i)%nat). rewrite <- (Qmult_1_l (col (vw + i)%nat)) at 2. apply Qmult_le_compat_r; [lra|assumption]. }
  assert (0 < gt_m) as M by lra.
  assert (0 <= gt_mv) as L by (rewrite W3; apply sum_nonneg; intros i I; apply Qmult_le_0_compat; [apply qn_nonneg|apply B]).
  assert (gt_mv <= (qn k - 1) * gt_m) as U.
  { rewrite W2, W3, <- sum_scale. apply sum_le. intros i I. apply Qmult_le_compat_r; [pose proof (qn_lt i k I); lra|apply B]. }
  split.
  - unfold centroid. rewrite <- W2, <- W3. field. lra.
  - assert (0 <= gt_mv / gt_m) by (apply Qle_shift_div_l; [exact M|lra]). assert (gt_mv / gt_m <= qn k - 1) by (apply Qle_shift_div_r; [exact M|exact U]). lra.
Qed.
(** The scan keeps the first best window. *)
Lemma scan_spec : forall col k n start, bright col -> let '(gmax, row) := fold_left (step col k) (seq start n) (0, None) in
  0 <= gmax /\ (forall w, (start <= w < start + n)%nat -> wsum col k w <= gmax) /\
  match row with
  | None => gmax = 0
  | Some r => exists w, (start <= w < start + n)%nat /\ gmax == wsum col k w /\ 0 < gmax /\ centroid col k w r /\ qn w <= r <= qn w + qn k - 1 /\
      forall w', (start <= w' < w)%nat -> wsum col k w' < gmax
  end.
Proof.
  intros col k n start B. induction n as [|n IH].
  - cbn. split; [apply Qle_refl|]. split; [lia|reflexivity].
  - rewrite seq_S, fold_left_app. cbn [fold_left]. destruct (fold_left (step col k) (seq start n) (0, None)) as [gmax row]. destruct IH as (P & M & R). unfold step.
    pose proof (window_spec col k (start + n)) as W. destruct (window col k (start + n)) as [[gt gt_m] gt_mv] eqn:EW. destruct W as (W1 & _ & _). destruct (Qltb gmax gt) eqn:L.
    + apply Qltb_lt in L. assert (0 < gt) as G by lra. destruct (window_row _ _ _ _ _ _ B EW G) as [C D]. split; [lra|]. split.
      * intros w H. destruct (Nat.eq_dec w (start + n)) as [->|N]; [rewrite W1; apply Qle_refl|]. apply Qle_trans with gmax; [apply M; lia|lra].
      * exists (start + n)%nat. split; [lia|]. split; [exact W1|]. split; [exact G|]. split; [exact C|]. split; [exact D|]. intros w' H. apply Qle_lt_trans with gmax; [apply M; lia|exact L].
    + apply Qltb_ge in L. split; [exact P|]. split.
      * intros w H. destruct (Nat.eq_dec w (start + n)) as [->|N]; [rewrite <- W1; exact L|apply M; lia].
      * destruct row as [r|]; [|exact R]. destruct R as (w & W & R). exists w. split; [lia|exact R].
Qed.

(** ** C58 *)
(** A detection is the intensity centroid of the first of the windows with the largest weighted
    sum among those starting before end_row - k, and lies in its rows. *)
Theorem C58_best : forall col k start stop h r, bright col -> detect col k start stop h = Some r ->
  exists w, (start <= w)%nat /\ (w + k < stop)%nat /\ h < wsum col k w /\ centroid col k w r /\ qn w <= r <= qn w + qn k - 1 /\
    (forall w', (start <= w')%nat -> (w' + k < stop)%nat -> wsum col k w' <= wsum col k w) /\ forall w', (start <= w' < w)%nat -> wsum col k w' < wsum col k w.
Proof.
  intros col k start stop h r B E. unfold detect, scan in E. pose proof (scan_spec col k (stop - k - start) start B) as S.
  destruct (fold_left (step col k) (seq start (stop - k - start)) (0, None)) as [gmax row]. destruct (Qltb h gmax) eqn:L; [|discriminate]. apply Qltb_lt in L. subst row.
  destruct S as (_ & M & w & W & G & P & C & D & F). exists w. split; [lia|]. split; [lia|]. rewrite <- G. split; [exact L|]. split; [exact C|]. split; [exact D|]. split.
  - intros w' A A'. rewrite <- G. apply M. lia.
  - intros w' A. rewrite <- G. now apply F.
Qed.
Print Assumptions C58_best.
(** There is a detection exactly when one of these windows is above the threshold. *)
Theorem C58_detected : forall col k start stop h, bright col -> 0 <= h ->
  ((exists r, detect col k start stop h = Some r) <-> exists w, (start <= w)%nat /\ (w + k < stop)%nat /\ h < wsum col k w).
Proof.
  intros col k start stop h B H. split.
  - intros (r & E). destruct (C58_best _ _ _ _ _ _ B E) as (w & W1 & W2 & W3 & _). now exists w.
  - intros (w & W1 & W2 & W3). unfold detect, scan. pose proof (scan_spec col k (stop - k - start) start B) as S.
    destruct (fold_left (step col k) (seq start (stop - k - start)) (0, None)) as [gmax row]. destruct S as (P & M & R). specialize (M w ltac:(lia)).
    assert (Qltb h gmax = true) as -> by (apply Qltb_lt; lra). destruct row as [r|]; [now exists r|]. subst gmax. lra.
Qed.
Print Assumptions C58_detected.
(** The detected row is a row of the search range. *)
Theorem C58_inside : forall col k start stop h r, bright col -> detect col k start stop h = Some r -> qn start <= r <= qn stop - 2.
Proof.
  intros col k start stop h r B E. destruct (C58_best _ _ _ _ _ _ B E) as (w & W1 & W2 & _ & _ & D & _).
  assert (qn start <= qn w) by (unfold qn; rewrite <- Zle_Qle; lia). pose proof (qn_lt _ _ W2) as A. rewrite qn_add in A. lra.
Qed.
Print Assumptions C58_inside.
(** The window that ends at the last row of the range is not tried: a laser line there is
    missed or reported too high. *)
Definition line_at (row v : nat) : Q := if (v =? row)%nat then 100 else 0.
Theorem C158_last_refuted : exists col k start stop h w, bright col /\ 0 <= h /\ (start <= w)%nat /\ (w + k <= stop)%nat /\ h < wsum col k w /\ detect col k start stop h = None.
Proof.
  exists (line_at 9), 3%nat, 0%nat, 10%nat, 20, 7%nat. split; [intros v; unfold line_at; destruct (v =? 9)%nat; discriminate|]. split; [discriminate|]. split; [lia|]. split; [lia|]. split; reflexivity.
Qed.
Print Assumptions C158_last_refuted.
Definition two_lines (v : nat) : Q := if (v =? 3)%nat then 50 else if (v =? 9)%nat then 100 else 0.
Theorem C158_best_refuted : exists col k start stop h r w, bright col /\ 0 <= h /\ detect col k start stop h = Some r /\ (start <= w)%nat /\ (w + k <= stop)%nat /\
  (forall w', (start <= w')%nat -> (w' + k <= stop)%nat -> w' <> w -> wsum col k w' < wsum col k w) /\ r < qn w.
Proof.
  exists two_lines, 2%nat, 0%nat, 10%nat, 10. eexists. exists 8%nat. split; [intros v; unfold two_lines; destruct (v =? 3)%nat; [discriminate|]; destruct (v =? 9)%nat; discriminate|].
  split; [discriminate|]. split; [reflexivity|]. split; [lia|]. split; [lia|]. split; [|reflexivity].
  intros w' _ L N. do 8 (destruct w' as [|w']; [reflexivity|]). destruct w' as [|w']; [now destruct N|]. lia.
Qed.
Print Assumptions C158_best_refuted.
(** ** Columns *)
Lemma every_incl : forall incr l n x, In x (every incr n l) -> In x l.
Proof. induction l as [|y l IH]; intros [|n] x H; cbn in *; try tauto; [destruct H as [<-|H]; [now left|]|]; right; eapply IH; exact H. Qed.
Lemma every_nodup : forall incr l n, NoDup l -> NoDup (every incr n l).
Proof. induction l as [|y l IH]; intros [|n] H; cbn; try constructor; inversion H; subst; auto. intro I. apply every_incl in I. contradiction. Qed.
Theorem C58_columns : forall width num, NoDup (columns width num) /\ forall u, In u (columns width num) -> (80 <= u /\ u + 80 < width)%nat.
Proof.
  intros width num. assert (NoDup (width_array width)) as N by apply seq_NoDup. assert (forall u, In u (width_array width) -> (80 <= u /\ u + 80 < width)%nat) as I by (intros u U; apply in_seq in U; lia).
  unfold columns. destruct (0 <? num)%nat; [|now split]. split; [now apply every_nodup|]. intros u U. apply I. eapply every_incl. exact U.
Qed.
Print Assumptions C58_columns.
(** The columns are those 80, 80 + s, 80 + 2 s ... left of the last 80, for a step s of one column,
    or of one less than the width over the number of columns asked for. *)
Lemma every_seq : forall incr len n x u, (1 <= incr)%nat ->
  (In u (every incr n (seq x len)) <-> exists j, (u = x + n + j * incr)%nat /\ (u < x + len)%nat).
Proof.
  intros incr len. induction len as [|len IH]; intros n x u I; cbn [seq every].
  - split; [intros []|]. intros (j & A & B). destruct n; nia.
  - destruct n as [|n]; cbn [In]; rewrite (IH _ _ _ I).
    + split.
      * intros [<-|(j & A & B)]; [exists 0%nat; lia|]. exists (S j). cbn [Nat.mul]. lia.
      * intros ([|j] & A & B); [left; lia|]. right. exists j. cbn [Nat.mul] in A. lia.
    + split; intros (j & A & B); exists j; lia.
Qed.
Theorem C58_which_columns : forall width num u,
  In u (columns width num) <->
  exists j s, (u = 80 + j * s)%nat /\ (u + 80 < width)%nat /\
    (num = 0 -> s = 1)%nat /\ (num <> 0 -> s = Nat.max 1 ((width - 160) / num - 1))%nat.
Proof.
  intros width num u. unfold columns, width_array. rewrite seq_length. destruct (0 <? num)%nat eqn:N.
  - apply Nat.ltb_lt in N. rewrite every_seq by lia. split.
    + intros (j & A & B). exists j. eexists. split; [exact A|]. split; [lia|]. split; [lia|]. intros _. lia.
    + intros (j & s & A & B & _ & S). specialize (S ltac:(lia)). subst s. exists j. rewrite Nat.max_comm in A. lia.
  - apply Nat.ltb_ge in N. rewrite in_seq. split.
    + intros H. exists (u - 80)%nat, 1%nat. lia.
    + intros (j & s & A & B & S & _). specialize (S ltac:(lia)). lia.
Qed.
Print Assumptions C58_which_columns.
Example C58_columns_example : columns 172 3 = [80; 83; 86; 89]%nat /\ columns 164 0 = [80; 81; 82; 83]%nat /\ columns 164 9 = [80; 81; 82; 83]%nat.
Proof. repeat split. Qed.
(** One row at most for each column, the detection of that column. *)
Theorem C58_one : forall img k start stop h cols, NoDup cols -> NoDup (map snd (find_laser img k start stop h cols)) /\
  forall r u, In (r, u) (find_laser img k start stop h cols) <-> In u cols /\ detect (fun v => img v u) k start stop h = Some r.
Proof.
  intros img k start stop h cols. 
  assert (forall cols r u, In (r, u) (find_laser img k start stop h cols) <-> In u cols /\ detect (fun v => img v u) k start stop h = Some r) as G.
  { clear cols. induction cols as [|c cols IH]; intros r u; cbn [find_laser]; [split; [intros []|intros [[] _]]|].
    destruct (detect (fun v => img v c) k start stop h) as [s|] eqn:D; cbn [In].
    - rewrite IH. split; [intros [E|[A B]]; [injection E as <- <-; auto|auto]|]. intros [[->|A] B]; [left; congruence|auto].
    - rewrite IH. split; [intros [A B]; auto|]. intros [[->|A] B]; [congruence|auto]. }
  intros N. split; [|apply G]. induction N as [|c cols I N IH]; cbn [find_laser]; [constructor|].
  destruct (detect (fun v => img v c) k start stop h) as [s|] eqn:D; [|exact IH]. cbn [map snd]. constructor; [|exact IH]. intros X. apply in_map_iff in X. destruct X as ([r u] & E & X). cbn in E. subst u. apply G in X. tauto.
Qed.
Print Assumptions C58_one.
Example C58_ex : option_map Qred (detect (fun v => if (v =? 5)%nat then 100 else if (v =? 6)%nat then 50 else 0) 3 0 12 20) = Some (16 # 3).
Proof. reflexivity. Qed.
