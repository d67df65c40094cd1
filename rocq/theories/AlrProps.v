(** C55: the ALR clock correction interpolates the polls. *)
From Coq Require Import Qfield.
From Verif Require Import PyBase AlrModel.
Open Scope Q_scope.

(** ** Specification *)
(** The knot of a poll, in seconds: the ALR time and the midpoint of the two BioCam times. *)
Definition knot (p : poll) (x y : Q) : Prop := x * 1000 == inject_Z (alr p) /\ 2 * (y * 1000) == inject_Z (bc0 p) + inject_Z (bc1 p).
(** [(t, y)] is on the straight line through the knots of two polls. *)
Definition on_line (p q : poll) (t y : Q) : Prop :=
  forall x1 y1 x2 y2, knot p x1 y1 -> knot q x2 y2 -> (y - y1) * (x2 - x1) == (t - x1) * (y2 - y1).
(** ALR times strictly increasing from poll to poll. *)
Fixpoint ticking (ps : list poll) : Prop := match ps with p :: (q :: _) as ps => (alr p < alr q)%Z /\ ticking ps | _ => True end.
Fixpoint forward (ps : list poll) : Prop :=
  match ps with p :: (q :: _) as ps => (bc0 p + bc1 p <= bc0 q + bc1 q)%Z /\ forward ps | _ => True end.

(** ** Facts *)
(** The last index passing a test. *)
Lemma seg_aux : forall (f : nat -> bool) n j0, let j := fold_left (fun j i => if f i then i else j) (seq 0 n) j0 in
  (j = j0 /\ (forall i, (i < n)%nat -> f i = false)) \/ ((j < n)%nat /\ f j = true /\ forall i, (j < i < n)%nat -> f i = false).
Proof.
  intros f. induction n as [|n IH]; intros j0; cbv zeta.
  - left. split; [reflexivity|]. intros i H. lia.
  - specialize (IH j0). cbv zeta in IH. rewrite seq_S, fold_left_app. cbn [fold_left Nat.add]. set (j := fold_left _ (seq 0 n) j0) in *. destruct (f n) eqn:F.
    + right. split; [lia|]. split; [exact F|]. intros i H. lia.
    + destruct IH as [[-> A]|(A & B & C)].
      * left. split; [reflexivity|]. intros i H. destruct (Nat.eq_dec i n) as [->|N]; [exact F|]. apply A. lia.
      * right. split; [lia|]. split; [exact B|]. intros i H. destruct (Nat.eq_dec i n) as [->|N]; [exact F|]. apply C. lia.
Qed.
Definition p0 : poll := mkpoll 0 0 0.
Lemma slopes_some : forall ps s, slopes_of ps = Some s -> length s = (length ps - 1)%nat /\
  forall j, (S j < length ps)%nat -> (alr (nth (S j) ps p0) - alr (nth j ps p0) <> 0)%Z /\
    nth_error s j = Some ((mean_ms (nth (S j) ps p0) - mean_ms (nth j ps p0)) / inject_Z (alr (nth (S j) ps p0) - alr (nth j ps p0))).
Proof.
  induction ps as [|p [|q ps] IH]; intros s E.
  - injection E as <-. split; [reflexivity|]. cbn. lia.
  - injection E as <-. split; [reflexivity|]. cbn. lia.
  - change (slopes_of (p :: q :: ps)) with (if (alr q - alr p =? 0)%Z then None else option_map (cons ((mean_ms q - mean_ms p) / inject_Z (alr q - alr p))) (slopes_of (q :: ps))) in E.
    destruct (alr q - alr p =? 0)%Z eqn:Z0; [discriminate|]. apply Z.eqb_neq in Z0. destruct (slopes_of (q :: ps)) as [s'|]; [|discriminate].
    cbn [option_map] in E. assert (s = ((mean_ms q - mean_ms p) / inject_Z (alr q - alr p)) :: s') as -> by congruence. destruct (IH s' eq_refl) as [L N].
    split; [cbn [length] in *; lia|]. intros [|j] H.
    + now split.
    + apply (N j). cbn [length] in *. lia.
Qed.
Lemma ticking_slopes : forall ps, ticking ps -> sorted (map alr ps) = true /\ exists s, slopes_of ps = Some s.
Proof.
  induction ps as [|p [|q ps] IH]; intros T; [now split; [|exists []]|now split; [|exists []]|]. destruct T as [H T]. destruct (IH T) as (S & s & E).
  change (sorted (map alr (p :: q :: ps))) with ((alr p <=? alr q)%Z && sorted (map alr (q :: ps))). rewrite S.
  change (slopes_of (p :: q :: ps)) with (if (alr q - alr p =? 0)%Z then None else option_map (cons ((mean_ms q - mean_ms p) / inject_Z (alr q - alr p))) (slopes_of (q :: ps))).
  rewrite E. destruct (Z.eqb_spec (alr q - alr p) 0); [lia|]. split; [|eexists; reflexivity]. apply andb_true_intro. split; [|reflexivity]. apply Z.leb_le. lia.
Qed.
Lemma ticking_nth : forall ps i j, ticking ps -> (i < j < length ps)%nat -> (alr (nth i ps p0) < alr (nth j ps p0))%Z.
Proof.
  induction ps as [|p ps IH]; intros i j T H; [cbn in H; lia|]. destruct j as [|j]; [lia|]. cbn [length] in H. destruct ps as [|q ps]; [cbn in H; lia|]. destruct T as [T1 T2].
  destruct i as [|i].
  - destruct j as [|j]; [exact T1|]. specialize (IH 0%nat (S j) T2 ltac:(lia)). change (nth 0 (q :: ps) p0) with q in IH.
    change (nth 0 (p :: q :: ps) p0) with p. change (nth (S (S j)) (p :: q :: ps) p0) with (nth (S j) (q :: ps) p0). lia.
  - apply (IH i j T2). lia.
Qed.
Lemma forward_nth : forall ps i j, forward ps -> (i <= j < length ps)%nat -> (bc0 (nth i ps p0) + bc1 (nth i ps p0) <= bc0 (nth j ps p0) + bc1 (nth j ps p0))%Z.
Proof.
  induction ps as [|p ps IH]; intros i j T H; [cbn in H; lia|]. cbn [length] in H. destruct (Nat.eq_dec i j) as [->|N]; [lia|]. destruct j as [|j]; [lia|]. destruct ps as [|q ps]; [cbn in H; lia|]. destruct T as [T1 T2].
  destruct i as [|i].
  - specialize (IH 0%nat j T2 ltac:(lia)). change (nth 0 (q :: ps) p0) with q in IH.
    change (nth 0 (p :: q :: ps) p0) with p. change (nth (S j) (p :: q :: ps) p0) with (nth j (q :: ps) p0). lia.
  - apply (IH i j T2). lia.
Qed.
Definition at_s (p : poll) : Q := inject_Z (alr p) / 1000.
Definition mid_s (p : poll) : Q := mean_ms p / 1000.
Lemma knot_eq : forall p x y, knot p x y <-> x == at_s p /\ y == mid_s p.
Proof.
  intros p x y. unfold knot, at_s, mid_s, mean_ms. split; intros [A B].
  - split; [rewrite <- A; field|]. assert (inject_Z (bc0 p) + inject_Z (bc1 p) == 2 * (y * 1000)) as -> by (rewrite B; reflexivity). field.
  - rewrite A, B. split; field.
Qed.
(** What the segment search finds. *)
Lemma analyse_ready : forall ps c, analyse ps = Ready c -> ps <> [] /\ exists s, slopes_of ps = Some s /\ c = mkcorr (map at_s ps) (map mid_s ps) s.
Proof.
  intros ps c E. unfold analyse in E. destruct ps as [|p ps]; [discriminate|]. split; [discriminate|]. set (l := p :: ps) in *.
  destruct (negb (sorted (map bc0 l))); [discriminate|]. destruct (negb (sorted (map alr l))); [discriminate|]. destruct (slopes_of l) as [s|]; [|discriminate].
  exists s. split; [reflexivity|]. apply (f_equal (fun a => match a with Ready c => c | _ => c end)) in E. symmetry. exact E.
Qed.
Lemma nth_at : forall ps i, (i < length ps)%nat -> nth i (map at_s ps) 0 = at_s (nth i ps p0).
Proof. intros ps i H. rewrite (nth_indep _ 0 (at_s p0)) by (now rewrite map_length). apply map_nth. Qed.
Lemma nth_mid : forall ps i, (i < length ps)%nat -> nth i (map mid_s ps) 0 = mid_s (nth i ps p0).
Proof. intros ps i H. rewrite (nth_indep _ 0 (mid_s p0)) by (now rewrite map_length). apply map_nth. Qed.
Lemma at_lt : forall p q, (alr p < alr q)%Z -> at_s p < at_s q.
Proof. intros p q H. unfold at_s. rewrite Zlt_Qlt in H. unfold Qdiv. apply Qmult_lt_r; [reflexivity|exact H]. Qed.
Lemma mid_le : forall p q, (bc0 p + bc1 p <= bc0 q + bc1 q)%Z -> mid_s p <= mid_s q.
Proof. intros p q H. unfold mid_s, mean_ms. rewrite Zle_Qle, !inject_Z_plus in H. unfold Qdiv. apply Qmult_le_r; [reflexivity|]. apply Qmult_le_r; [reflexivity|exact H]. Qed.
(** The corrected time is the value of the line of the segment [j]. *)
Definition line (p q : poll) (t : Q) : Q := mid_s p + (t - at_s p) * ((mid_s q - mid_s p) / (at_s q - at_s p)).
Lemma correct_seg : forall ps c d stamp, ticking ps -> (2 <= length ps)%nat -> analyse ps = Ready c ->
  exists j y, (S j < length ps)%nat /\ correct c d stamp = Some y /\ y == line (nth j ps p0) (nth (S j) ps p0) (stamp / d) /\
    (j = 0%nat \/ at_s (nth j ps p0) <= stamp / d) /\ (S (S j) = length ps \/ stamp / d < at_s (nth (S j) ps p0)).
Proof.
  intros ps c d stamp T L E. destruct (analyse_ready _ _ E) as (_ & s & SL & ->). destruct (slopes_some _ _ SL) as [LS NS]. unfold correct. cbn [times offsets slopes]. set (t := stamp / d).
  pose proof (seg_aux (fun i => Qle_bool (nth i (map at_s ps) 0) t) (length ps - 1) 0) as G. cbv zeta in G. unfold segment. cbn [times]. rewrite map_length. set (j := fold_left _ _ _) in *.
  assert (S j < length ps)%nat as J by (destruct G as [[-> _]|[G _]]; lia).
  destruct (NS j J) as [NZ NE]. rewrite NE. exists j. eexists. split; [exact J|]. split; [reflexivity|]. rewrite nth_at, nth_mid by lia. split; [|split].
  - unfold line. set (p := nth j ps p0) in *. set (q := nth (S j) ps p0) in *. unfold mid_s, at_s.
    assert (~ inject_Z (alr q) - inject_Z (alr p) == 0) as NQ by (intro Q0; apply NZ; apply inject_Z_injective; unfold Z.sub; rewrite inject_Z_plus, inject_Z_opp; exact Q0).
    unfold Z.sub. rewrite inject_Z_plus, inject_Z_opp. field. repeat split; first [exact NQ | intro Q0; apply NQ; rewrite <- Q0; field].
  - destruct G as [[-> _]|(_ & G & _)]; [now left|]. right. apply Qle_bool_iff in G. rewrite nth_at in G by lia. exact G.
  - destruct (Nat.eq_dec (S (S j)) (length ps)) as [H|H]; [now left|]. right.
    assert (Qle_bool (nth (S j) (map at_s ps) 0) t = false) as F by (destruct G as [[_ G]|(_ & _ & G)]; apply G; lia).
    rewrite nth_at in F by lia. apply Qnot_le_lt. intro W. apply Qle_bool_iff in W. congruence.
Qed.
Lemma line_on : forall p q t, at_s p < at_s q -> on_line p q t (line p q t).
Proof.
  intros p q t H x1 y1 x2 y2 K1 K2. apply knot_eq in K1. apply knot_eq in K2. destruct K1 as [-> ->], K2 as [-> ->]. unfold line. field. lra.
Qed.
Lemma on_line_morph : forall p q t y y', y == y' -> on_line p q t y' -> on_line p q t y.
Proof. intros p q t y y' E H x1 y1 x2 y2 K1 K2. rewrite E. now apply H. Qed.

(** ** C55 *)
(** Sorted logs with advancing ALR times give a corrector, and a lone poll cannot correct. *)
Theorem C55_ready : forall ps, ps <> [] -> ticking ps -> sorted (map bc0 ps) = true -> exists c, analyse ps = Ready c.
Proof.
  intros ps N T B. destruct (ticking_slopes _ T) as (A & s & E). unfold analyse. destruct ps as [|p ps]; [now destruct N|]. rewrite B, A. cbn [negb]. rewrite E. eexists. reflexivity.
Qed.
Print Assumptions C55_ready.
(** Every time gets a corrected time on the line of two neighbouring polls: those around it,
    or the first two for times before the first poll, or the last two after the last. *)
Theorem C55_piecewise : forall ps c d stamp, ticking ps -> (2 <= length ps)%nat -> analyse ps = Ready c ->
  exists y, correct c d stamp = Some y /\ exists l p q r, ps = l ++ p :: q :: r /\ on_line p q (stamp / d) y /\
    (l = [] \/ at_s p <= stamp / d) /\ (r = [] \/ stamp / d < at_s q).
Proof.
  intros ps c d stamp T L E. destruct (correct_seg ps c d stamp T L E) as (j & y & J & C & Y & A & B). exists y. split; [exact C|].
  exists (firstn j ps), (nth j ps p0), (nth (S j) ps p0), (skipn (S (S j)) ps).
  assert (forall k, (k < length ps)%nat -> skipn k ps = nth k ps p0 :: skipn (S k) ps) as SK.
  { clear. induction ps as [|p ps IH]; intros [|k] H; cbn [length] in H; try lia; [reflexivity|]. cbn [skipn nth]. apply IH. lia. }
  split; [rewrite <- SK by lia; rewrite <- SK by lia; symmetry; apply firstn_skipn|]. split.
  - apply (on_line_morph _ _ _ _ _ Y). apply line_on. apply at_lt. apply ticking_nth; [exact T|lia].
  - split.
    + destruct A as [->|A]; [now left|now right].
    + destruct B as [B|B]; [|now right]. left. apply length_zero_iff_nil. rewrite skipn_length. lia.
Qed.
Print Assumptions C55_piecewise.
(** At a poll the corrected time is the midpoint. *)
Theorem C55_polls : forall ps c d stamp p, ticking ps -> (2 <= length ps)%nat -> analyse ps = Ready c -> In p ps -> stamp / d * 1000 == inject_Z (alr p) ->
  exists y, correct c d stamp = Some y /\ 2 * (y * 1000) == inject_Z (bc0 p) + inject_Z (bc1 p).
Proof.
  intros ps c d stamp p T L E I K. destruct (correct_seg ps c d stamp T L E) as (j & y & J & C & Y & A & B). exists y. split; [exact C|].
  assert (stamp / d == at_s p) as KS by (unfold at_s; rewrite <- K; unfold Qdiv at 2; rewrite <- Qmult_assoc; change (1000 * / 1000) with (1000 * (1 # 1000)); setoid_replace (1000 * (1 # 1000)) with 1 by reflexivity; ring). clear K.
  apply (In_nth _ _ p0) in I. destruct I as (k & KL & <-).
  assert (y == mid_s (nth k ps p0)) as W.
  { rewrite Y. pose proof (at_lt _ _ (ticking_nth ps j (S j) T ltac:(lia))) as LT. unfold line. rewrite KS.
    destruct (lt_eq_lt_dec k j) as [[H|H]|H].
    - pose proof (at_lt _ _ (ticking_nth ps k j T ltac:(lia))). destruct A as [A|A]; [lia|]. lra.
    - subst k. field. lra.
    - destruct (Nat.eq_dec k (S j)) as [->|N]; [field; lra|].
      pose proof (at_lt _ _ (ticking_nth ps (S j) k T ltac:(lia))). destruct B as [B|B]; [lia|]. lra. }
  rewrite W. unfold mid_s, mean_ms. field.
Qed.
Print Assumptions C55_polls.
(** If the midpoints never go back, neither does the corrected time. *)
Lemma line_mono : forall p q s t, at_s p < at_s q -> mid_s p <= mid_s q -> s <= t -> line p q s <= line p q t.
Proof.
  intros p q s t A M H. unfold line. apply Qplus_le_r. apply Qmult_le_compat_r; [lra|]. apply Qle_shift_div_l; [lra|]. lra.
Qed.
Lemma line_left : forall p q, at_s p < at_s q -> line p q (at_s p) == mid_s p.
Proof. intros p q H. unfold line. field. lra. Qed.
Lemma line_right : forall p q, at_s p < at_s q -> line p q (at_s q) == mid_s q.
Proof. intros p q H. unfold line. field. lra. Qed.
Theorem C55_monotone : forall ps c d s t x y, ticking ps -> forward ps -> (2 <= length ps)%nat -> analyse ps = Ready c -> s / d <= t / d ->
  correct c d s = Some x -> correct c d t = Some y -> x <= y.
Proof.
  intros ps c d s t x y T F L E ST X Y. destruct (correct_seg ps c d s T L E) as (i & x' & I & X' & XE & IA & IB). destruct (correct_seg ps c d t T L E) as (j & y' & J & Y' & YE & JA & JB).
  rewrite X in X'. injection X' as <-. rewrite Y in Y'. injection Y' as <-. rewrite XE, YE. clear X Y XE YE.
  pose proof (at_lt _ _ (ticking_nth ps i (S i) T ltac:(lia))) as TI. pose proof (at_lt _ _ (ticking_nth ps j (S j) T ltac:(lia))) as TJ.
  pose proof (mid_le _ _ (forward_nth ps i (S i) F ltac:(lia))) as FI. pose proof (mid_le _ _ (forward_nth ps j (S j) F ltac:(lia))) as FJ.
  destruct (lt_eq_lt_dec i j) as [[H|H]|H].
  - destruct IB as [IB|IB]; [lia|]. destruct JA as [JA|JA]; [lia|].
    apply Qle_trans with (mid_s (nth (S i) ps p0)); [rewrite <- (line_right _ _ TI); apply line_mono; auto; lra|].
    apply Qle_trans with (mid_s (nth j ps p0)); [apply mid_le; apply forward_nth; [exact F|lia]|]. rewrite <- (line_left _ _ TJ) at 1. now apply line_mono.
  - subst j. now apply line_mono.
  - exfalso. destruct IA as [IA|IA]; [lia|]. destruct JB as [JB|JB]; [lia|].
    assert (at_s (nth (S j) ps p0) <= at_s (nth i ps p0)); [|lra]. destruct (Nat.eq_dec (S j) i) as [->|N]; [apply Qle_refl|]. apply Qlt_le_weak. apply at_lt. apply ticking_nth; [exact T|lia].
Qed.
Print Assumptions C55_monotone.
(** Only the times before the polls are checked: when the reply to the second poll came much
    faster, a later ALR time gets an earlier BioCam time. *)
Theorem C155_monotone_refuted : exists ps c s t x y, sorted (map bc0 ps) = true /\ ticking ps /\ (forall p, In p ps -> (bc0 p <= bc1 p)%Z) /\ analyse ps = Ready c /\
  s < t /\ correct c 1 s = Some x /\ correct c 1 t = Some y /\ y < x.
Proof.
  exists [mkpoll 0 1000 3000; mkpoll 1000 2000 1100]. eexists. exists 1, 2. do 2 eexists. split; [reflexivity|]. split; [now split|].
  split; [intros p [<-|[<-|[]]]; cbn; lia|]. split; [reflexivity|]. split; [reflexivity|]. split; [reflexivity|]. split; [reflexivity|]. reflexivity.
Qed.
Print Assumptions C155_monotone_refuted.
(** Two polls with one ALR time pass the checks and divide by zero; one poll gives a corrector
    that fails on every time. *)
Example C55_equal : analyse [mkpoll 0 1000 10; mkpoll 20 1000 30] = Crash. Proof. reflexivity. Qed.
Theorem C155_single_refuted : exists ps c, sorted (map bc0 ps) = true /\ ticking ps /\ analyse ps = Ready c /\ forall d t, correct c d t = None.
Proof. exists [mkpoll 0 1000 10]. eexists. repeat split. Qed.
Print Assumptions C155_single_refuted.
Example C55_ex : exists c, analyse [mkpoll 900 1000 1100; mkpoll 2000 2000 2200; mkpoll 3000 3000 3400] = Ready c /\
  option_map Qred (correct c 1000 500) = Some (9 # 20) /\ option_map Qred (correct c 1000 1500) = Some (31 # 20) /\ option_map Qred (correct c 1000 4000) = Some (43 # 10).
Proof. eexists. repeat split. Qed.
