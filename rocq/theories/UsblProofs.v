From Coq Require Import Reals Qreals Lra.
From Verif Require Import PyBase InterpModel InterpSpec InterpProofs UsblModel UsblSpec.

Lemma subseq_refl {A} (l : list A) : subseq l l.
Proof. induction l; constructor; assumption. Qed.

Lemma subseq_trans {A} (a b c : list A) : subseq a b -> subseq b c -> subseq a c.
Proof.
  intros H1 H2. revert a H1. induction H2 as [l|x s l H IH|x s l H IH]; intros a H1.
  - inversion H1. constructor.
  - inversion H1; subst; constructor; now apply IH.
  - apply sub_skip. now apply IH.
Qed.

Lemma filter_subseq {A} (f : A -> bool) l : subseq (filter f l) l.
Proof. induction l; cbn; [constructor|]. destruct (f a); now constructor. Qed.

Lemma subseq_In {A} (s l : list A) x : subseq s l -> In x s -> In x l.
Proof. induction 1; cbn; intro H'; [destruct H'|destruct H'; [now left|right; auto]|right; auto]. Qed.

Lemma depth_kept_subseq sigma us : forall ds, subseq (depth_kept us ds sigma) us.
Proof.
  unfold depth_kept. induction us as [|u us IH]; intros [|d ds]; cbn; [constructor|constructor|constructor|].
  destruct (depth_filter _ _ _ _); cbn; [apply sub_keep|apply sub_skip]; apply IH.
Qed.

(** ** Distance loop *)
Section Dist.
  Context {A : Type} (near : A -> A -> bool).
  Variable l : list A.

  Definition nearb (i m : nat) : bool :=
    match nth_error l i, nth_error l m with Some a, Some b => near a b | _, _ => false end.
  Definition keepb (i : nat) : bool :=
    (nearb i (i - 2) && nearb i (i - 1) && nearb i (i + 1) && nearb i (i + 2))%bool.
  Definition kept (is : list nat) : list A :=
    flat_map (fun i => if keepb i then match nth_error l i with Some a => [a] | None => [] end else []) is.

  Lemma nth_ok i : (i < length l)%nat -> exists a, nth_error l i = Some a.
  Proof. intro H. destruct (nth_error l i) eqn:E; [eauto|]. apply nth_error_None in E. lia. Qed.

  Lemma dist_loop_spec : forall m i acc fuel, (length l - 2 - i <= m)%nat -> (2 <= i)%nat ->
    (4 * m + 1 <= fuel)%nat ->
    dist_loop near fuel l (Z.of_nat i) (-2) acc = Some (acc ++ kept (seq i (length l - 2 - i))).
  Proof.
    induction m as [|m IH]; intros i acc fuel Hm Hi Hf.
    - destruct fuel as [|f]; [lia|]. cbn [dist_loop].
      destruct (Z.ltb_spec (Z.of_nat i) (Z.of_nat (length l) - 2)); [lia|].
      replace (length l - 2 - i)%nat with 0%nat by lia. cbn. now rewrite app_nil_r.
    - destruct (le_lt_dec (length l - 2) i) as [L|L].
      { destruct fuel as [|f]; [lia|]. cbn [dist_loop].
        destruct (Z.ltb_spec (Z.of_nat i) (Z.of_nat (length l) - 2)); [lia|].
        replace (length l - 2 - i)%nat with 0%nat by lia. cbn. now rewrite app_nil_r. }
      do 4 (destruct fuel as [|fuel]; [lia|]).
      destruct (nth_ok i ltac:(lia)) as [a Ea].
      destruct (nth_ok (i - 2) ltac:(lia)) as [b1 E1]. destruct (nth_ok (i - 1) ltac:(lia)) as [b2 E2].
      destruct (nth_ok (i + 1) ltac:(lia)) as [b3 E3]. destruct (nth_ok (i + 2) ltac:(lia)) as [b4 E4].
      assert (N1 : py_nth l (Z.of_nat i + -2) = Some b1) by (replace (Z.of_nat i + -2)%Z with (Z.of_nat (i - 2)) by lia; now rewrite py_nth_nat).
      assert (N2 : py_nth l (Z.of_nat i + -1) = Some b2) by (replace (Z.of_nat i + -1)%Z with (Z.of_nat (i - 1)) by lia; now rewrite py_nth_nat).
      assert (N3 : py_nth l (Z.of_nat i + 1) = Some b3) by (replace (Z.of_nat i + 1)%Z with (Z.of_nat (i + 1)) by lia; now rewrite py_nth_nat).
      assert (N4 : py_nth l (Z.of_nat i + 2) = Some b4) by (replace (Z.of_nat i + 2)%Z with (Z.of_nat (i + 2)) by lia; now rewrite py_nth_nat).
      assert (N0 : py_nth l (Z.of_nat i) = Some a) by now rewrite py_nth_nat.
      assert (Hlt : (Z.of_nat i <? Z.of_nat (length l) - 2)%Z = true) by (apply Z.ltb_lt; lia).
      assert (Es : seq i (length l - 2 - i) = i :: seq (S i) (length l - 2 - S i)).
      { replace (length l - 2 - i)%nat with (S (length l - 2 - S i)) by lia. reflexivity. }
      assert (Kb : keepb i = (near a b1 && near a b2 && near a b3 && near a b4)%bool).
      { unfold keepb, nearb. now rewrite Ea, E1, E2, E3, E4. }
      rewrite Es. unfold kept. cbn [flat_map]. fold (kept (seq (S i) (length l - 2 - S i))). rewrite Ea.
      assert (next : forall f acc', (4 * m + 1 <= f)%nat ->
        dist_loop near f l (Z.of_nat i + 1) (-2) acc' = Some (acc' ++ kept (seq (S i) (length l - 2 - S i)))).
      { intros f acc' Hf'. replace (Z.of_nat i + 1)%Z with (Z.of_nat (S i)) by lia. apply IH; lia. }
      remember (S fuel) as f1. remember (S f1) as f2. remember (S f2) as f3.
      cbn [dist_loop]. rewrite Hlt, N0, N1.
      destruct (near a b1) eqn:T1; [|rewrite Kb; cbn [andb app]; apply next; lia].
      change (-2 + 1)%Z with (-1)%Z. change (-1 =? 0)%Z with false. cbv iota zeta. change (2 <? -1)%Z with false. cbv iota.
      rewrite Heqf3. cbn [dist_loop]. rewrite Hlt, N0, N2.
      destruct (near a b2) eqn:T2; [|rewrite Kb; cbn [andb app]; apply next; lia].
      change (-1 + 1)%Z with 0%Z. change (0 =? 0)%Z with true. cbv iota zeta. change (0 + 1)%Z with 1%Z. change (2 <? 1)%Z with false. cbv iota.
      rewrite Heqf2. cbn [dist_loop]. rewrite Hlt, N0, N3.
      destruct (near a b3) eqn:T3; [|rewrite Kb; cbn [andb app]; apply next; lia].
      change (1 + 1)%Z with 2%Z. change (2 =? 0)%Z with false. cbv iota zeta. change (2 <? 2)%Z with false. cbv iota.
      rewrite Heqf1. cbn [dist_loop]. rewrite Hlt, N0, N4.
      destruct (near a b4) eqn:T4; [|rewrite Kb; cbn [andb app]; apply next; lia].
      change (2 + 1)%Z with 3%Z. change (3 =? 0)%Z with false. cbv iota zeta. change (2 <? 3)%Z with true. cbv iota.
      rewrite Kb. cbn [andb]. rewrite next by lia. now rewrite <- app_assoc.
  Qed.

  Lemma dist_kept_spec : dist_kept near l = Some (kept (seq 2 (length l - 4))).
  Proof.
    unfold dist_kept. change 2%Z with (Z.of_nat 2).
    rewrite (dist_loop_spec (length l)) by lia. cbn [app]. do 3 f_equal. lia.
  Qed.

  Lemma kept_subseq k n : (k + n <= length l)%nat -> subseq (kept (seq k n)) (skipn k l).
  Proof.
    revert k. induction n as [|n IH]; intros k H; [constructor|].
    destruct (nth_ok k ltac:(lia)) as [a Ea].
    assert (Es : skipn k l = a :: skipn (S k) l).
    { clear -Ea. revert l Ea. induction k as [|k IH]; intros [|x l] E; cbn in *; try discriminate; [congruence|]. now apply IH. }
    rewrite Es. cbn [seq]. unfold kept. cbn [flat_map]. fold (kept (seq (S k) n)). rewrite Ea.
    destruct (keepb k); cbn [app]; [apply sub_keep|apply sub_skip]; apply IH; lia.
  Qed.

  Lemma kept_In a k n : (2 <= k)%nat -> (k + n + 2 <= length l)%nat -> In a (kept (seq k n)) <->
    exists i, (k <= i < k + n)%nat /\ nth_error l i = Some a /\
      forall m, (m = i - 2 \/ m = i - 1 \/ m = i + 1 \/ m = i + 2)%nat ->
        exists b, nth_error l m = Some b /\ near a b = true.
  Proof.
    intros Hk Hn. unfold kept. rewrite in_flat_map. split.
    - intros (i & Hi & Ha). apply in_seq in Hi. destruct (keepb i) eqn:K; [|destruct Ha].
      destruct (nth_error l i) as [x|] eqn:E; [|destruct Ha]. destruct Ha as [->|[]].
      exists i. split; [exact Hi|]. split; [exact E|].
      unfold keepb, nearb in K. rewrite E in K.
      apply andb_prop in K. destruct K as [K K4]. apply andb_prop in K. destruct K as [K K3].
      apply andb_prop in K. destruct K as [K1 K2].
      intros m [->|[->|[->| ->]]]; [destruct (nth_error l (i - 2)) as [b|] | destruct (nth_error l (i - 1)) as [b|]
        | destruct (nth_error l (i + 1)) as [b|] | destruct (nth_error l (i + 2)) as [b|]]; try discriminate; eauto.
    - intros (i & Hi & E & H). exists i. split; [apply in_seq; lia|].
      assert (K : keepb i = true).
      { unfold keepb, nearb. rewrite E.
        destruct (H (i - 2)%nat ltac:(tauto)) as (b1 & -> & ->). destruct (H (i - 1)%nat ltac:(tauto)) as (b2 & -> & ->).
        destruct (H (i + 1)%nat ltac:(tauto)) as (b3 & -> & ->). destruct (H (i + 2)%nat ltac:(tauto)) as (b4 & -> & ->). reflexivity. }
      rewrite K, E. now left.
  Qed.
End Dist.

Lemma skipn_subseq {A} k (l : list A) : subseq (skipn k l) l.
Proof. revert l. induction k; intros [|x l]; try apply subseq_refl. cbn. apply sub_skip. apply IHk. Qed.

Lemma dist_kept_subseq {A} (near : A -> A -> bool) l r : dist_kept near l = Some r -> subseq r l.
Proof.
  rewrite dist_kept_spec. intro H. injection H as <-.
  destruct (le_lt_dec (length l) 4) as [L|L].
  - replace (length l - 4)%nat with 0%nat by lia. constructor.
  - eapply subseq_trans; [apply kept_subseq; lia|apply skipn_subseq].
Qed.

Lemma distance_filter_iff a b s v : distance_filter a b s v = true <-> reachable s v a b.
Proof.
  unfold distance_filter, reachable, dist_euc.
  assert (E : forall x y, sqrt (Rsqr (0 - x) + Rsqr (0 - y)) = sqrt (x ^ 2 + y ^ 2)).
  { intros. f_equal. unfold Rsqr. ring. }
  rewrite !E.
  assert (F : sqrt ((u_n a - u_n b) ^ 2 + (u_e a - u_e b) ^ 2) = sqrt (Rsqr (u_n a - u_n b) + Rsqr (u_e a - u_e b))).
  { f_equal. unfold Rsqr. ring. }
  rewrite F. destruct (Rle_dec _ _); split; congruence || intuition.
Qed.

(** ** Depth scan *)
Open Scope Q_scope.
Lemma advance_spec depth t : forall fuel j, increasing d_t depth -> (j < length depth)%nat ->
  (length depth - j <= fuel)%nat ->
  let j' := advance fuel depth t j in
  (j <= j' < length depth)%nat /\
  (forall k d, (j <= k < j')%nat -> nth_error depth k = Some d -> d_t d < t) /\
  ((j' = length depth - 1)%nat \/ exists d, nth_error depth j' = Some d /\ t <= d_t d).
Proof.
  induction fuel as [|f IH]; intros j Inc Hj Hf; [lia|]. cbn [advance].
  destruct (nth_error depth j) as [d|] eqn:E; [|apply nth_error_None in E; lia].
  destruct (Nat.ltb_spec j (length depth - 1)) as [L|L]; cbn [andb].
  - destruct (Qltb (d_t d) t) eqn:T.
    + specialize (IH (S j) Inc ltac:(lia) ltac:(lia)). cbv zeta in *. destruct IH as (A & B & C).
      split; [lia|]. split; [|exact C]. intros k d' Hk Ed. destruct (Nat.eq_dec k j) as [->|N].
      * rewrite E in Ed. injection Ed as <-. now apply Qltb_lt.
      * apply (B k d'); [lia|exact Ed].
    + cbv zeta. split; [lia|]. split; [intros; lia|]. right. exists d. split; [exact E|now apply Qltb_ge].
  - cbv zeta. split; [lia|]. split; [intros; lia|]. left. lia.
Qed.

Lemma depth_at_spec depth : forall us j, increasing d_t depth -> nondecreasing u_t us ->
  (j < length depth)%nat ->
  (forall u k d, In u us -> (k < j)%nat -> nth_error depth k = Some d -> d_t d < u_t u) ->
  (forall u, In u us -> exists f l, nth_error depth 0 = Some f /\ nth_error depth (length depth - 1) = Some l /\
     d_t f < u_t u /\ u_t u <= d_t l) ->
  length (depth_at depth us j) = length us /\
  forall n u p, nth_error us n = Some u -> nth_error (depth_at depth us j) n = Some p ->
    exists a b, adjacent depth a b /\ d_t a <= u_t u <= d_t b /\
      p = (interpolate (u_t u) (d_t a) (d_t b) (d_d a) (d_d b), interpolate (u_t u) (d_t a) (d_t b) (d_std a) (d_std b)).
Proof.
  induction us as [|u us IH]; intros j Inc Nd Hj Hpre Hin.
  - split; [reflexivity|]. intros [|n] ? ? H; discriminate.
  - cbn [depth_at].
    destruct (advance_spec depth (u_t u) (length depth) j Inc Hj ltac:(lia)) as (A & B & C).
    cbv zeta. remember (advance (length depth) depth (u_t u) j) as j' eqn:Hj'. clear Hj'.
    destruct (Hin u (or_introl eq_refl)) as (f & l & Ef & El & Lf & Ll).
    assert (J : (1 <= j')%nat).
    { destruct j' as [|j'']; [|lia]. exfalso. destruct C as [C|(d & Ed & Ld)].
      - rewrite <- C in El. rewrite Ef in El. injection El as <-. apply (Qlt_irrefl (u_t u)). exact (Qle_lt_trans _ _ _ Ll Lf).
      - rewrite Ef in Ed. injection Ed as <-. apply (Qlt_irrefl (u_t u)). exact (Qle_lt_trans _ _ _ Ld Lf). }
    destruct (nth_error depth (j' - 1)) as [a|] eqn:Ea; [|apply nth_error_None in Ea; lia].
    destruct (nth_error depth j') as [b|] eqn:Eb; [|apply nth_error_None in Eb; lia].
    assert (La : d_t a < u_t u).
    { destruct (le_lt_dec j (j' - 1)) as [K|K]; [apply (B (j' - 1)%nat a); [lia|exact Ea]|].
      apply (Hpre u (j' - 1)%nat a); [now left|lia|exact Ea]. }
    assert (Lb : u_t u <= d_t b).
    { destruct C as [C|(d & Ed & Ld)]; [|injection Ed as <-; exact Ld]. rewrite <- C in El. rewrite Eb in El. injection El as <-. exact Ll. }
    assert (IH' := IH j' Inc).
    destruct IH' as [IL IN].
    + intros p q x y Hpq Hx Hy. apply (Nd (S p) (S q) x y); [lia|exact Hx|exact Hy].
    + lia.
    + intros u' k d Hu' Hk Ed. apply Qlt_le_trans with (u_t u).
      * destruct (le_lt_dec j k) as [K|K]; [apply (B k d); [lia|exact Ed]|]. apply (Hpre u k d); [now left|lia|exact Ed].
      * apply In_nth_error in Hu'. destruct Hu' as [q Hq]. apply (Nd 0%nat (S q) u u'); [lia|reflexivity|exact Hq].
    + intros u' Hu'. apply Hin. now right.
    + destruct j' as [|j'']; [lia|]. rewrite Ea, Eb. cbn [length]. split; [now rewrite IL|].
      intros [|n] u' p Hu Hp.
      * injection Hu as <-. injection Hp as <-. exists a, b. split.
        { exists j''. replace (S j'' - 1)%nat with j'' in Ea by lia. now split. }
        split; [split; [now apply Qlt_le_weak|exact Lb]|reflexivity].
      * now apply (IN n).
Qed.
