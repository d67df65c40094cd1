From Verif Require Import PyBase InterpModel InterpSpec.
Open Scope Q_scope.

(** * interpolate *)

Lemma interpolate_eq xq xl xu yl yu :
  ~ xu == xl ->
  interpolate xq xl xu yl yu == (yu - yl) / (xu - xl) * (xq - xl) + yl.
Proof.
  intro H. unfold interpolate. destruct (Qeq_bool xu xl) eqn:E.
  - apply Qeq_bool_iff in E. contradiction.
  - reflexivity.
Qed.

Lemma interpolate_same xq xl xu yl yu : xu == xl -> interpolate xq xl xu yl yu = yl.
Proof.
  intro H. unfold interpolate. apply Qeq_bool_iff in H. now rewrite H.
Qed.

Lemma interpolate_on_line xq xl xu yl yu :
  ~ xu == xl -> on_line xl yl xu yu xq (interpolate xq xl xu yl yu).
Proof.
  intro H. unfold on_line. rewrite interpolate_eq by exact H. field.
  intro E; apply H. lra.
Qed.

Lemma interpolate_lower xl xu yl yu : interpolate xl xl xu yl yu == yl.
Proof.
  destruct (Qeq_dec xu xl) as [E|E].
  - now rewrite interpolate_same.
  - rewrite interpolate_eq by exact E. field. intro E'; apply E; lra.
Qed.

Lemma interpolate_upper xl xu yl yu : ~ xu == xl -> interpolate xu xl xu yl yu == yu.
Proof.
  intro E. rewrite interpolate_eq by exact E. field. intro E'; apply E; lra.
Qed.

Lemma interpolate_affine xq xl xu a b :
  ~ xu == xl -> interpolate xq xl xu (a * xl + b) (a * xu + b) == a * xq + b.
Proof.
  intro E. rewrite interpolate_eq by exact E. field. intro E'; apply E; lra.
Qed.

Lemma on_line_frac xl xu xq yl yu v :
  on_line xl yl xu yu xq v -> ~ xu == xl ->
  v == yl + (xq - xl) / (xu - xl) * (yu - yl).
Proof.
  unfold on_line. intros H E.
  assert (E' : ~ xu - xl == 0) by (intro; apply E; lra).
  setoid_replace v with ((v * (xu - xl)) / (xu - xl)) by (field; exact E').
  rewrite H. field. exact E'.
Qed.

Lemma frac_range xl xu xq :
  xl < xu -> xl <= xq <= xu -> 0 <= (xq - xl) / (xu - xl) <= 1.
Proof.
  intros H [H1 H2]. split.
  - apply Qle_shift_div_l; lra.
  - apply Qle_shift_div_r; lra.
Qed.

Lemma convex_between s a b : 0 <= s <= 1 -> between a b (a + s * (b - a)).
Proof.
  intros [H1 H2]. unfold between. destruct (Qlt_le_dec a b) as [H|H]; [left|right]; nra.
Qed.

Lemma interpolate_between xq xl xu yl yu :
  between xl xu xq -> between yl yu (interpolate xq xl xu yl yu).
Proof.
  intro H. destruct (Qeq_dec xu xl) as [E|E].
  - rewrite interpolate_same by exact E. unfold between.
    destruct (Qlt_le_dec yl yu); [left|right]; lra.
  - pose proof (on_line_frac _ _ _ _ _ _ (interpolate_on_line xq xl xu yl yu E) E) as F.
    assert (G : 0 <= (xq - xl) / (xu - xl) <= 1).
    { destruct H as [H|H].
      - apply frac_range; [lra|exact H].
      - assert (K : (xq - xl) / (xu - xl) == (xl - xq) / (xl - xu)).
        { field. split; intro K; apply E; lra. }
        rewrite K. split; [apply Qle_shift_div_l|apply Qle_shift_div_r]; lra. }
    apply (convex_between _ yl yu) in G. unfold between in *. lra.
Qed.

Lemma interpolate_monotone q1 q2 xl xu yl yu :
  xl < xu -> yl <= yu -> q1 <= q2 ->
  interpolate q1 xl xu yl yu <= interpolate q2 xl xu yl yu.
Proof.
  intros H Hy Hq. rewrite !interpolate_eq by lra.
  assert (0 <= (yu - yl) / (xu - xl)) by (apply Qle_shift_div_l; lra).
  nra.
Qed.

Lemma interpolate_antitone q1 q2 xl xu yl yu :
  xl < xu -> yu <= yl -> q1 <= q2 ->
  interpolate q2 xl xu yl yu <= interpolate q1 xl xu yl yu.
Proof.
  intros H Hy Hq. rewrite !interpolate_eq by lra.
  assert ((yu - yl) / (xu - xl) <= 0) by (apply Qle_shift_div_r; lra).
  nra.
Qed.

(** * yaw *)

Lemma same_heading_refl a : same_heading a a.
Proof. exists 0%Z. change (inject_Z (360 * 0)) with 0. ring. Qed.

Lemma same_heading_k a b k : a == b + 360 * inject_Z k -> same_heading a b.
Proof.
  intro H. exists k. rewrite H. rewrite inject_Z_mult. reflexivity.
Qed.

Lemma yaw_in_range_short_arc t t1 t2 y1 y2 :
  t1 < t2 -> t1 <= t <= t2 -> 0 <= y1 <= 360 -> 0 <= y2 <= 360 ->
  0 <= interpolate_yaw t t1 t2 y1 y2 <= 360 /\
  on_short_arc t1 y1 t2 y2 t (interpolate_yaw t t1 t2 y1 y2).
Proof.
  intros Ht Htt H1 H2.
  assert (E : ~ t2 == t1) by lra.
  pose proof (frac_range t1 t2 t Ht Htt) as F.
  unfold interpolate_yaw.
  destruct (Qltb 180 (Qabs (y2 - y1))) eqn:W.
  - apply Qltb_lt in W.
    destruct (Qltb y1 y2) eqn:L.
    + apply Qltb_lt in L. rewrite Qabs_pos in W by lra.
      pose proof (interpolate_on_line t t1 t2 y1 (y2 - 360) E) as OL.
      pose proof (on_line_frac _ _ _ _ _ _ OL E) as V.
      set (v := interpolate t t1 t2 y1 (y2 - 360)) in *.
      set (s := (t - t1) / (t2 - t1)) in *.
      assert (R : -180 <= v <= 360) by (split; nra).
      assert (A : on_short_arc t1 y1 t2 y2 t v).
      { exists (y2 - 360 - y1). split; [|split].
        - rewrite Qabs_neg by lra. lra.
        - apply (same_heading_k _ _ (-1)%Z). change (inject_Z (-1)) with (-1). ring.
        - exists v. split; [apply same_heading_refl|].
          unfold on_line in *. rewrite OL. ring. }
      destruct (Qltb v 0) eqn:N.
      * apply Qltb_lt in N. split; [lra|].
        destruct A as (d & D1 & D2 & w & W1 & W2). exists d. split; [exact D1|].
        split; [exact D2|]. exists w. split; [|exact W2].
        destruct W1 as [k K]. exists (k + 1)%Z. rewrite K.
        rewrite Z.mul_add_distr_l, inject_Z_plus. change (inject_Z (360 * 1)) with 360. ring.
      * apply Qltb_ge in N. destruct (Qltb 360 v) eqn:M.
        { apply Qltb_lt in M. exfalso. lra. }
        split; [lra|exact A].
    + apply Qltb_ge in L. rewrite Qabs_neg in W by lra.
      pose proof (interpolate_on_line t t1 t2 (y1 - 360) y2 E) as OL.
      pose proof (on_line_frac _ _ _ _ _ _ OL E) as V.
      set (v := interpolate t t1 t2 (y1 - 360) y2) in *.
      set (s := (t - t1) / (t2 - t1)) in *.
      assert (R : -180 <= v <= 360) by (split; nra).
      assert (A : on_short_arc t1 y1 t2 y2 t v).
      { exists (y2 + 360 - y1). split; [|split].
        - rewrite Qabs_pos by lra. lra.
        - apply (same_heading_k _ _ 1%Z). change (inject_Z 1) with 1. ring.
        - exists (v + 360). split.
          + apply (same_heading_k _ _ (-1)%Z). change (inject_Z (-1)) with (-1). ring.
          + unfold on_line in *.
            setoid_replace ((v + 360) * (t2 - t1)) with (v * (t2 - t1) + 360 * (t2 - t1)) by ring.
            rewrite OL. ring. }
      destruct (Qltb v 0) eqn:N.
      * apply Qltb_lt in N. split; [lra|].
        destruct A as (d & D1 & D2 & w & W1 & W2). exists d. split; [exact D1|].
        split; [exact D2|]. exists w. split; [|exact W2].
        destruct W1 as [k K]. exists (k + 1)%Z. rewrite K.
        rewrite Z.mul_add_distr_l, inject_Z_plus. change (inject_Z (360 * 1)) with 360. ring.
      * apply Qltb_ge in N. destruct (Qltb 360 v) eqn:M.
        { apply Qltb_lt in M. exfalso. lra. }
        split; [lra|exact A].
  - apply Qltb_ge in W.
    pose proof (interpolate_on_line t t1 t2 y1 y2 E) as OL.
    pose proof (interpolate_between t t1 t2 y1 y2) as B.
    set (v := interpolate t t1 t2 y1 y2) in *.
    assert (B' : between y1 y2 v) by (apply B; left; exact Htt).
    split; [unfold between in B'; lra|].
    exists (y2 - y1). split; [exact W|]. split.
    + apply (same_heading_k _ _ 0%Z). change (inject_Z 0) with 0. ring.
    + exists v. split; [apply same_heading_refl|]. unfold on_line in *. rewrite OL. ring.
Qed.

(** * sorted lists *)

Lemma first_not_before_spec cams t i0 :
  cams <> [] ->
  let i := first_not_before cams t i0 in
  (i0 <= i < i0 + length cams)%nat /\
  (forall k c, (k < i - i0)%nat -> nth_error cams k = Some c -> s_t c < t) /\
  (forall c, nth_error cams (i - i0) = Some c -> t <= s_t c \/ (i - i0 = length cams - 1)%nat).
Proof.
  revert i0. induction cams as [|c rest IH]; intros i0 Hne; [congruence|].
  destruct rest as [|c' rest'].
  - cbn. rewrite Nat.sub_diag. split; [lia|split].
    + intros k cc Hk. lia.
    + intros cc Hc. right; lia.
  - change (first_not_before (c :: c' :: rest') t i0) with
      (if Qle_bool t (s_t c) then i0 else first_not_before (c' :: rest') t (S i0)).
    destruct (Qle_bool t (s_t c)) eqn:E.
    + apply Qle_bool_iff in E. cbn zeta. rewrite Nat.sub_diag. split; [cbn; lia|split].
      * intros k cc Hk; lia.
      * intros cc Hc. cbn in Hc. injection Hc as <-. now left.
    + destruct (IH (S i0)) as (B & L & R); [congruence|].
      assert (Lt : s_t c < t).
      { apply Qnot_le_lt. intro H. apply Qle_bool_iff in H. congruence. }
      cbn zeta in *. set (i := first_not_before (c' :: rest') t (S i0)) in *.
      split; [cbn [length] in *; lia|]. split.
      * intros k cc Hk Hn. destruct k as [|k].
        { cbn in Hn. now injection Hn as <-. }
        { cbn in Hn. apply (L k); [lia|exact Hn]. }
      * intros cc Hn. replace (i - i0)%nat with (S (i - S i0)) in Hn by lia. cbn in Hn.
        destruct (R cc Hn) as [H|H]; [now left|right]. cbn [length] in *. lia.
Qed.

(** Camera interpolation: for a query after the second sample the result is
    between the two bracketing samples. *)
Lemma interpolate_camera_bracket t cams c :
  increasing s_t cams ->
  interpolate_camera t cams = Some c ->
  (exists b, nth_error cams 1 = Some b /\ s_t b < t) ->
  (exists b, In b cams /\ t <= s_t b) ->
  exists a b, adjacent cams a b /\ s_t a <= t <= s_t b /\ s_t c = t /\
    (forall g, In g [s_roll; s_pitch; s_yaw; s_vx; s_vy; s_vz; s_alt; s_north; s_east;
                     s_depth; s_lat; s_lon] ->
       on_line (s_t a) (g a) (s_t b) (g b) t (g c)).
Proof.
  intros Inc Hc (b1 & Hb1 & Lb1) (bl & Hbl & Lbl).
  unfold interpolate_camera in Hc.
  set (i := first_not_before cams t 0) in *.
  assert (Hne : cams <> []) by (intro; subst; destruct Hbl).
  destruct (first_not_before_spec cams t 0 Hne) as (B & L & R). cbn zeta in *.
  fold i in B, L, R. rewrite Nat.sub_0_r in *.
  destruct (nth_error cams i) as [c2|] eqn:E2; [|discriminate].
  assert (T2 : t <= s_t c2).
  { destruct (R c2 eq_refl) as [H|H]; [exact H|].
    apply In_nth_error in Hbl. destruct Hbl as [k Hk].
    assert (Hkl : (k < length cams)%nat) by (apply nth_error_Some; congruence).
    destruct (Nat.eq_dec k i) as [->|Hki]; [congruence|].
    exfalso. assert (Hlt : (k < i)%nat) by lia. specialize (L k bl Hlt Hk). lra. }
  assert (I1 : (1 < i)%nat).
  { destruct i as [|[|i']] eqn:Ei; [| |lia].
    - exfalso. assert (s_t c2 < s_t b1) by (apply (Inc 0 1)%nat; [lia|exact E2|exact Hb1]). lra.
    - exfalso. replace c2 with b1 in * by congruence. lra. }
  assert (Hi : (1 <? i)%nat = true) by (apply Nat.ltb_lt; exact I1).
  rewrite Hi in Hc.
  destruct (nth_error cams (i - 1)) as [c1|] eqn:E1.
  2:{ apply nth_error_None in E1. exfalso. lia. }
  assert (T1 : s_t c1 < t) by (apply (L (i - 1)%nat); [lia|exact E1]).
  assert (TT : ~ s_t c2 == s_t c1).
  { assert (s_t c1 < s_t c2) by (apply (Inc (i - 1)%nat i); [lia|exact E1|exact E2]). lra. }
  injection Hc as <-. exists c1, c2.
  split. { exists (i - 1)%nat. split; [exact E1|]. now replace (S (i - 1)) with i by lia. }
  split; [lra|]. split; [reflexivity|].
  intros g Hg. cbn in Hg.
  repeat (destruct Hg as [<-|Hg]; [cbn; apply interpolate_on_line; exact TT|]).
  destruct Hg.
Qed.

(** * interpolate_sensor_list *)

Lemma drop_before_filter {Nm} start (l : list (Q * Nm)) :
  nondecreasing fst l ->
  drop_before start l = filter (fun s => Qle_bool start (fst s)) l.
Proof.
  induction l as [|s l IH]; intro H; [reflexivity|].
  assert (Hl : nondecreasing fst l).
  { intros i j a b Hij Ha Hb. apply (H (S i) (S j) a b); [lia|exact Ha|exact Hb]. }
  cbn [drop_before filter]. unfold Qltb.
  destruct (Qle_bool start (fst s)) eqn:E; cbn [negb].
  - f_equal. symmetry. clear IH. apply Qle_bool_iff in E.
    assert (K : forall x, In x l -> Qle_bool start (fst x) = true).
    { intros x Hx. apply In_nth_error in Hx. destruct Hx as [n Hn].
      apply Qle_bool_iff. apply (Qle_trans _ (fst s)); [exact E|].
      apply (H 0%nat (S n)); [lia|reflexivity|exact Hn]. }
    clear H Hl E. induction l as [|y l IH]; [reflexivity|].
    cbn. rewrite (K y) by (left; reflexivity). f_equal. apply IH.
    intros x Hx. apply K. now right.
  - apply IH. exact Hl.
Qed.

Lemma combine_nth_error {A B} (l : list A) : forall (m : list B) i x y,
  nth_error l i = Some x -> nth_error m i = Some y -> nth_error (combine l m) i = Some (x, y).
Proof.
  induction l as [|u l IH]; intros [|v m] [|i] x y; cbn; try discriminate.
  - intros [= ->] [= ->]. reflexivity.
  - apply IH.
Qed.
Lemma combine_nth_error_inv {A B} (l : list A) : forall (m : list B) i x y,
  nth_error (combine l m) i = Some (x, y) -> nth_error l i = Some x /\ nth_error m i = Some y.
Proof.
  induction l as [|u l IH]; intros [|v m] [|i] x y; cbn; try discriminate.
  - intros [= -> ->]. now split.
  - apply IH.
Qed.

Lemma alt_search_spec data t : forall fuel i, (length data <= i + fuel)%nat -> (1 <= i)%nat ->
  let j := alt_search fuel data t i in
  (i <= j)%nat /\ (forall k d, (i <= k < j)%nat -> nth_error data k = Some d -> fst d < t) /\
  (forall d, nth_error data j = Some d -> t <= fst d) /\ (j <= Nat.max i (length data))%nat.
Proof.
  induction fuel as [|fuel IH]; intros i F I; cbn [alt_search].
  - split; [lia|]. split; [intros; lia|]. split; [|lia]. intros d N. assert (i < length data)%nat by (apply nth_error_Some; congruence). lia.
  - destruct (nth_error data i) as [d|] eqn:N.
    + assert (i < length data)%nat by (apply nth_error_Some; congruence). destruct (Qltb (fst d) t) eqn:L.
      * destruct (IH (S i)) as (A & B & C & D); [lia|lia|]. split; [lia|]. split; [|split; [exact C|lia]].
        intros k e K M. destruct (Nat.eq_dec k i) as [->|]; [|apply (B k); [lia|exact M]].
        apply Qltb_lt in L. congruence.
      * split; [lia|]. split; [intros; lia|]. split; [|lia]. intros e M. apply Qltb_ge in L. congruence.
    + split; [lia|]. split; [intros; lia|]. split; [|lia]. congruence.
Qed.

Lemma interpolate_altitude_bracket : forall data t first last,
  (2 <= length data)%nat -> increasing fst data -> is_first data first -> is_last data last -> fst first <= t <= fst last ->
  exists a b v, adjacent data a b /\ fst a <= t <= fst b /\ interpolate_altitude t data = Some v /\
    on_line (fst a) (snd a) (fst b) (snd b) t v.
Proof.
  intros data t first last Len Inc [l1 F] [l2 L] [T1 T2]. unfold interpolate_altitude.
  destruct (alt_search_spec data t (length data) 1) as (A & B & C & D); [lia|lia|]. set (j := alt_search (length data) data t 1) in *.
  assert (nth_error data (length data - 1) = Some last) as NL.
  { rewrite L, app_length. cbn [length]. rewrite nth_error_app2 by lia. now replace (length l2 + 1 - 1 - length l2)%nat with 0%nat by lia. }
  assert (j <= length data - 1)%nat as J.
  { destruct (Nat.le_gt_cases j (length data - 1)) as [K|K]; [exact K|]. specialize (B (length data - 1)%nat last ltac:(lia) NL). lra. }
  destruct (nth_error data j) as [b|] eqn:Nb; [|apply nth_error_None in Nb; lia].
  destruct (nth_error data (j - 1)) as [a|] eqn:Na; [|apply nth_error_None in Na; lia].
  exists a, b, (interpolate t (fst a) (fst b) (snd a) (snd b)).
  assert (fst a < fst b) as AB by (apply (Inc (j - 1)%nat j); [lia|exact Na|exact Nb]).
  split; [exists (j - 1)%nat; split; [exact Na|now replace (S (j - 1)) with j by lia]|].
  split; [split; [|now apply C]|split; [reflexivity|apply interpolate_on_line; lra]].
  destruct (Nat.eq_dec j 1) as [E|E].
  - rewrite E, F in Na. cbn in Na. injection Na as <-. exact T1.
  - apply Qlt_le_weak, (B (j - 1)%nat); [lia|exact Na].
Qed.

Section SL.
  Variable b2i : Q -> Q -> Q -> Q -> Q -> Q -> Q * Q * Q.
  Variable m2ll : Q -> Q -> Q -> Q -> Q * Q.
  Variable oo so : Q * Q * Q.
  Variable lat lon : Q.
  Notation pose_between := (pose_between b2i m2ll oo so lat lon).
  Notation scan := (scan b2i m2ll oo so lat lon).
  Notation isl := (interpolate_sensor_list b2i m2ll oo so lat lon).

  Notation off := (off b2i oo so).
  Notation pose_on_segment := (pose_on_segment b2i m2ll oo so lat lon).

  Lemma on_line_proper ta va tb vb t v w : v == w -> on_line ta va tb vb t v -> on_line ta va tb vb t w.
  Proof. unfold on_line. intros H E. rewrite <- H. exact E. Qed.

  Lemma pose_between_segment t a b p :
    ~ s_t b == s_t a -> pose_between t a b = Some p ->
    s_t p = t /\ pose_on_segment a b p /\
    s_yaw p = interpolate_yaw t (s_t a) (s_t b) (s_yaw a) (s_yaw b).
  Proof.
    intros E H. unfold InterpModel.pose_between in H. unfold InterpSpec.pose_on_segment, InterpSpec.off.
    destruct oo as [[ox oy] oz], so as [[sx sy] sz]. cbn [fst snd] in *.
    set (r := interpolate t (s_t a) (s_t b) (s_roll a) (s_roll b)) in *.
    set (pi := interpolate t (s_t a) (s_t b) (s_pitch a) (s_pitch b)) in *.
    set (y := interpolate_yaw t (s_t a) (s_t b) (s_yaw a) (s_yaw b)) in *.
    destruct (b2i r pi y (ox - sx) (oy - sy) (oz - sz)) as [[dx dy] dz] eqn:D.
    match type of H with match ?c with _ => _ end = _ => destruct c as [cv|]; [|discriminate] end.
    injection H as <-. cbn. rewrite D. cbn.
    split; [reflexivity|]. split; [|reflexivity]. split.
    { intros g Hg. cbn in Hg.
      repeat (destruct Hg as [<-|Hg]; [cbn; apply interpolate_on_line; exact E|]). destruct Hg. }
    pose proof (interpolate_on_line t (s_t a) (s_t b)) as OL.
    repeat split.
    - eapply on_line_proper; [|apply (OL (s_north a) (s_north b) E)]. ring.
    - eapply on_line_proper; [|apply (OL (s_east a) (s_east b) E)]. ring.
    - eapply on_line_proper; [|apply (OL (s_depth a) (s_depth b) E)]. ring.
    - eapply on_line_proper; [|apply (OL (s_alt a) (s_alt b) E)]. ring.
    - symmetry. apply surjective_pairing.
  Qed.

  Lemma pose_between_uncertainty t a b p :
    s_t a < s_t b -> s_t a <= t <= s_t b -> pose_between t a b = Some p -> uncertainty_on_segment a b p.
  Proof.
    intros L T H. assert (~ s_t b == s_t a) as E by lra.
    destruct (pose_between_segment t a b p E H) as (Et & _ & Y). unfold uncertainty_on_segment. rewrite Et. split.
    { intros Ya Yb. rewrite Y. now apply yaw_in_range_short_arc. }
    clear Et Y. unfold InterpModel.pose_between in H.
    destruct oo as [[ox oy] oz], so as [[sx sy] sz].
    match type of H with (let '(_, _) := ?c in _) = _ => destruct c as [[dx dy] dz] end.
    match type of H with match ?c with _ => _ end = _ => destruct c as [cv|] eqn:C; [|discriminate] end.
    injection H as <-. cbn [s_stds s_cov]. clear T. split; [|split; [|split]].
    - intros i x y A B. exists (interpolate t (s_t a) (s_t b) x y). split; [|now apply interpolate_on_line].
      unfold known in *. rewrite nth_error_map. rewrite (combine_nth_error _ _ _ _ _ A B). reflexivity.
    - intros i z A. unfold known in *. rewrite nth_error_map in A.
      destruct (nth_error (combine (s_stds a) (s_stds b)) i) as [[u v]|] eqn:N; [|discriminate].
      apply combine_nth_error_inv in N. destruct N as [N1 N2]. cbn in A.
      destruct u as [u|], v as [v|]; try discriminate. now exists u, v.
    - destruct (s_cov b) as [cb|]; [|injection C as <-; split; reflexivity].
      destruct (s_cov a); [|discriminate]. destruct (interpolate_covariance _ _ _ _ _); [|discriminate].
      injection C as <-. split; discriminate.
    - intros cb cp Eb Ep. rewrite Eb in C. destruct (s_cov a) as [ca|]; [|discriminate]. exists ca. split; [reflexivity|].
      intros i x y A B. unfold interpolate_covariance in C. destruct (Qeq_bool (s_t b) (s_t a)); [discriminate|].
      injection C as <-. injection Ep as <-. rewrite nth_error_map, (combine_nth_error _ _ _ _ _ A B). eexists. split; [reflexivity|].
      unfold on_line. cbn [fst snd]. field. intro K. apply E. lra.
  Qed.

  (** Index reached by the inner loop. *)
  Lemma advance_spec fuel centre t tlast j :
    (length centre <= j + fuel)%nat -> (j < length centre)%nat ->
    let j' := advance fuel centre t tlast j in
    (j <= j' < length centre)%nat /\
    (forall k c, (j <= k < j')%nat -> nth_error centre k = Some c -> s_t c < t) /\
    (forall k c, (j < k <= j')%nat -> nth_error centre k = Some c -> s_t c <= tlast) /\
    (forall c, nth_error centre j' = Some c -> s_t c < t ->
       forall c', nth_error centre (S j') = Some c' -> tlast < s_t c').
  Proof.
    revert j. induction fuel as [|fuel IH]; intros j Hf Hj; [lia|].
    cbn [advance]. destruct (nth_error centre j) as [c|] eqn:E.
    2:{ apply nth_error_None in E. lia. }
    destruct (Qltb (s_t c) t) eqn:L.
    2:{ apply Qltb_ge in L. cbn zeta. split; [lia|]. split; [intros; lia|]. split; [intros; lia|].
        intros c0 Hc0 Hlt. replace c0 with c in * by congruence. lra. }
    apply Qltb_lt in L.
    destruct (nth_error centre (S j)) as [c'|] eqn:E'.
    2:{ cbn zeta. split; [lia|]. split; [intros; lia|]. split; [intros; lia|].
        intros c0 Hc0 _ c1 Hc1. congruence. }
    destruct (Qltb tlast (s_t c')) eqn:L'.
    { apply Qltb_lt in L'. cbn zeta. split; [lia|]. split; [intros; lia|]. split; [intros; lia|].
      intros c0 Hc0 _ c1 Hc1. congruence. }
    apply Qltb_ge in L'.
    assert (Hs : (S j < length centre)%nat) by (apply nth_error_Some; congruence).
    destruct (IH (S j)) as (B & P1 & P2 & P3); [lia|exact Hs|].
    cbn zeta in *. set (j' := advance fuel centre t tlast (S j)) in *.
    split; [lia|]. split.
    { intros k c0 Hk Hn. destruct (Nat.eq_dec k j) as [->|Hkj]; [congruence|].
      apply (P1 k); [lia|exact Hn]. }
    split; [|exact P3].
    intros k c0 Hk Hn. destruct (Nat.eq_dec k (S j)) as [->|Hkj].
    { replace c0 with c' by congruence. exact L'. }
    { apply (P2 k); [lia|exact Hn]. }
  Qed.

  (** Invariant carried by the scan: everything before [j] is before the
      sensors still to come. *)
  Definition inv {Nm} (centre : list sample) (j : nat) (sensors : list (Q * Nm)) : Prop :=
    forall k c s, (k < j)%nat -> nth_error centre k = Some c -> In s sensors -> s_t c < fst s.

  Lemma nondecreasing_tl {A} (f : A -> Q) x l : nondecreasing f (x :: l) -> nondecreasing f l.
  Proof. intros H i j a b Hij Ha Hb. apply (H (S i) (S j) a b); [lia|exact Ha|exact Hb]. Qed.

  Lemma nondecreasing_hd {A} (f : A -> Q) x l y : nondecreasing f (x :: l) -> In y l -> f x <= f y.
  Proof.
    intros H Hy. apply In_nth_error in Hy. destruct Hy as [n Hn].
    apply (H 0%nat (S n)); [lia|reflexivity|exact Hn].
  Qed.

  Lemma scan_bracket {Nm} centre tlast (Inc : increasing s_t centre) c0 :
    nth_error centre 0 = Some c0 ->
    forall (sensors : list (Q * Nm)) j out,
    (j < length centre)%nat ->
    nondecreasing fst sensors ->
    (forall s, In s sensors -> s_t c0 <= fst s) ->
    inv centre j sensors ->
    (2 <= length centre)%nat ->
    scan centre tlast j sensors = Some out ->
    forall nm p, In (nm, p) out ->
      (exists c, In c centre /\ s_t p <= s_t c /\ s_t c <= tlast) ->
      (exists a b, adjacent centre a b /\ s_t a <= s_t p <= s_t b /\ pose_on_segment a b p /\
         (forall c, nth_error centre 0 = Some c -> s_t c < s_t p -> uncertainty_on_segment a b p)) /\
      In (s_t p, nm) sensors.
  Proof.
    intros H0. induction sensors as [|[t nm0] rest IH]; intros j out Hj Nd Hst Hinv Hlen Hs nm p Hin Hc.
    { cbn in Hs. injection Hs as <-. destruct Hin. }
    cbn [InterpModel.scan] in Hs.
    destruct (length centre - 1 <=? j)%nat eqn:Ej; [injection Hs as <-; destruct Hin|].
    apply Nat.leb_gt in Ej.
    destruct (advance_spec (length centre) centre t tlast j) as (B & P1 & P2 & P3); [lia|lia|].
    cbn zeta in *. set (j' := advance (length centre) centre t tlast j) in *.
    destruct (py_nth centre (Z.of_nat j' - 1)) as [a|] eqn:Ea; [|discriminate].
    destruct (nth_error centre j') as [b|] eqn:Eb; [|discriminate].
    destruct (pose_between t a b) as [q|] eqn:Eq; [|discriminate].
    destruct (scan centre tlast j' rest) as [out'|] eqn:Er; [|discriminate].
    injection Hs as <-.
    assert (Hinv' : inv centre j' rest).
    { intros k c s Hk Hn Hs. destruct (Nat.lt_ge_cases k j) as [Hkj|Hkj].
      - apply (Hinv k c s Hkj Hn). now right.
      - apply Qlt_le_trans with t; [apply (P1 k); [lia|exact Hn]|].
        apply (nondecreasing_hd fst (t, nm0) rest s Nd Hs). }
    destruct Hin as [Heq|Hin].
    2:{ assert (Hst' : forall s, In s rest -> s_t c0 <= fst s) by (intros s Hs; apply Hst; now right).
        assert (Hj' : (j' < length centre)%nat) by lia.
        destruct (IH j' out' Hj' (nondecreasing_tl _ _ _ Nd) Hst' Hinv' Hlen Er nm p Hin Hc)
          as [K1 K2].
        split; [exact K1|now right]. }
    injection Heq as -> ->.
    (* time of the pose *)
    assert (Hleft : forall k c, (k < j')%nat -> nth_error centre k = Some c -> s_t c < t).
    { intros k c Hk Hn. destruct (Nat.lt_ge_cases k j) as [Hkj|Hkj].
      - apply (Hinv k c (t, nm) Hkj Hn). now left.
      - apply (P1 k); [lia|exact Hn]. }
    assert (Tp : s_t p = t).
    { unfold InterpModel.pose_between in Eq. destruct oo as [[ox oy] oz], so as [[sx sy] sz].
      match type of Eq with (let '(_, _) := ?c in _) = _ => destruct c as [[dx dy] dz] end.
      match type of Eq with match ?c with _ => _ end = _ => destruct c; [|discriminate] end.
      now injection Eq as <-. }
    rewrite Tp in *. split; [|now left].
    destruct Hc as (cc & Hcc & Lcc & Lcc').
    (* the sensor time is not after centre[j'] *)
    assert (Tb : t <= s_t b).
    { apply Qnot_lt_le. intro Lb. apply In_nth_error in Hcc. destruct Hcc as [k Hk].
      assert (Hkl : (k < length centre)%nat) by (apply nth_error_Some; congruence).
      assert (j' < k)%nat.
      { destruct (Nat.lt_ge_cases j' k) as [K|K]; [exact K|exfalso].
        destruct (Nat.eq_dec k j') as [->|Kn].
        - replace cc with b in * by congruence. lra.
        - assert (s_t cc < s_t b) by (apply (Inc k j'); [lia|exact Hk|exact Eb]). lra. }
      destruct (nth_error centre (S j')) as [c'|] eqn:Es.
      2:{ apply nth_error_None in Es. lia. }
      pose proof (P3 b eq_refl Lb c' eq_refl) as K.
      destruct (Nat.eq_dec k (S j')) as [->|Kn].
      - replace cc with c' in * by congruence. lra.
      - assert (s_t c' < s_t cc) by (apply (Inc (S j') k); [lia|exact Es|exact Hk]). lra. }
    destruct j' as [|j''] eqn:Ej'.
    - (* sensor exactly at the first track sample: indices -1 and 0 *)
      replace b with c0 in * by congruence.
      assert (T0 : s_t c0 <= t) by (apply (Hst (t, nm)); now left).
      assert (Et : t == s_t c0) by lra.
      destruct (nth_error centre 1) as [c1|] eqn:E1.
      2:{ apply nth_error_None in E1. lia. }
      exists c0, c1. split; [exists 0%nat; split; assumption|].
      assert (T01 : s_t c0 < s_t c1) by (apply (Inc 0 1)%nat; [lia|exact H0|exact E1]).
      split; [lra|].
      (* the wrapped interpolation is exact at its upper end *)
      assert (En : ~ s_t c0 == s_t a).
      { destruct (py_nth_m1 centre) as [Hm|Hm].
        - change (Z.of_nat 0 - 1)%Z with (-1)%Z in Ea. rewrite Hm in Ea.
          assert (s_t c0 < s_t a) by (apply (Inc 0 (length centre - 1))%nat; [lia|exact H0|exact Ea]).
          lra.
        - rewrite Hm in Hlen. cbn in Hlen. lia. }
      destruct (pose_between_segment t a c0 p En Eq) as (_ & S & _).
      destruct S as (S1 & S2 & S3 & S4 & S5 & S6).
      assert (Conv : forall va v0 v1 v,
                 on_line (s_t a) va (s_t c0) v0 (s_t p) v -> on_line (s_t c0) v0 (s_t c1) v1 (s_t p) v).
      { intros va v0 v1 v Hl. rewrite Tp in *. unfold on_line in *. rewrite Et in *.
        assert (D : ~ s_t c0 - s_t a == 0) by (intro; apply En; lra).
        assert (V : v == v0).
        { apply (Qmult_inj_r _ _ _ D). rewrite Hl. ring. }
        rewrite V. ring. }
      split; [|intros c Ec Lc; replace c with c0 in Lc by congruence; lra].
      unfold InterpSpec.pose_on_segment. split.
      { intros g Hg. eapply Conv. apply S1. exact Hg. }
      split; [eapply Conv; exact S2|]. split; [eapply Conv; exact S3|].
      split; [eapply Conv; exact S4|]. split; [eapply Conv; exact S5|exact S6].
    - assert (Ea' : nth_error centre j'' = Some a).
      { rewrite py_nth_pred in Ea by lia. now replace (S j'' - 1)%nat with j'' in Ea by lia. }
      assert (Tab : s_t a < s_t b) by (apply (Inc j'' (S j'')); [lia|exact Ea'|exact Eb]).
      exists a, b. split; [exists j''; split; assumption|].
      split. { split; [|exact Tb]. apply Qlt_le_weak, (Hleft j''); [lia|exact Ea']. }
      destruct (pose_between_segment t a b p) as (_ & S & _); [lra|exact Eq|].
      split; [exact S|]. intros _ _ _. apply (pose_between_uncertainty t); [exact Tab| |exact Eq].
      split; [|exact Tb]. apply Qlt_le_weak, (Hleft j''); [lia|exact Ea'].
  Qed.

  (** What the main loop retains: a prefix, and everything dropped is later
      than the last but one track sample. *)
  Lemma scan_retained {Nm} centre tlast :
    forall (sensors : list (Q * Nm)) j out,
    (j < length centre)%nat ->
    nondecreasing fst sensors ->
    inv centre j sensors ->
    scan centre tlast j sensors = Some out ->
    exists dropped, sensors = map (fun np => (s_t (snd np), fst np)) out ++ dropped /\
      forall s k c, In s dropped -> (k < length centre - 1)%nat -> nth_error centre k = Some c ->
        s_t c < fst s.
  Proof.
    induction sensors as [|[t nm0] rest IH]; intros j out Hj Nd Hinv Hs.
    { cbn in Hs. injection Hs as <-. exists []. split; [reflexivity|intros s k c []]. }
    cbn [InterpModel.scan] in Hs.
    destruct (length centre - 1 <=? j)%nat eqn:Ej.
    { injection Hs as <-. apply Nat.leb_le in Ej. exists ((t, nm0) :: rest).
      split; [reflexivity|]. intros s k c Hin Hk Hn. apply (Hinv k c s); [lia|exact Hn|exact Hin]. }
    apply Nat.leb_gt in Ej.
    destruct (advance_spec (length centre) centre t tlast j) as (B & P1 & P2 & P3); [lia|lia|].
    cbn zeta in *. set (j' := advance (length centre) centre t tlast j) in *.
    destruct (py_nth centre (Z.of_nat j' - 1)) as [a|] eqn:Ea; [|discriminate].
    destruct (nth_error centre j') as [b|] eqn:Eb; [|discriminate].
    destruct (pose_between t a b) as [q|] eqn:Eq; [|discriminate].
    destruct (scan centre tlast j' rest) as [out'|] eqn:Er; [|discriminate].
    injection Hs as <-.
    assert (Hinv' : inv centre j' rest).
    { intros k c s Hk Hn Hs. destruct (Nat.lt_ge_cases k j) as [Hkj|Hkj].
      - apply (Hinv k c s Hkj Hn). now right.
      - apply Qlt_le_trans with t; [apply (P1 k); [lia|exact Hn]|].
        apply (nondecreasing_hd fst (t, nm0) rest s Nd Hs). }
    assert (Hj' : (j' < length centre)%nat) by lia.
    destruct (IH j' out' Hj' (nondecreasing_tl _ _ _ Nd) Hinv' Er) as (d & D1 & D2).
    exists d. split; [|exact D2].
    cbn. rewrite D1. f_equal. f_equal.
    unfold InterpModel.pose_between in Eq. destruct oo as [[ox oy] oz], so as [[sx sy] sz].
    match type of Eq with (let '(_, _) := ?c in _) = _ => destruct c as [[dx dy] dz] end.
    match type of Eq with match ?c with _ => _ end = _ => destruct c; [|discriminate] end.
    now injection Eq as <-.
  Qed.

  Lemma nondecreasing_filter {A} (f : A -> Q) pr l : nondecreasing f l -> nondecreasing f (filter pr l).
  Proof.
    induction l as [|x l IH]; intro H; [exact H|].
    specialize (IH (nondecreasing_tl _ _ _ H)). cbn. destruct (pr x); [|exact IH].
    intros i j a b Hij Ha Hb. destruct j as [|j]; [lia|]. cbn in Hb.
    destruct i as [|i].
    - cbn in Ha. injection Ha as <-. apply (nondecreasing_hd f x l b H).
      apply nth_error_In in Hb. apply filter_In in Hb. tauto.
    - apply (IH i j a b); [lia|exact Ha|exact Hb].
  Qed.

  Lemma isl_unfold {Nm} (sensors : list (Q * Nm)) centre out :
    nondecreasing fst sensors ->
    isl sensors centre = Interpolated out ->
    exists c0 sn, nth_error centre 0 = Some c0 /\ py_nth sensors (-1) = Some sn /\
      scan centre (fst sn) 0 (filter (fun s => Qle_bool (s_t c0) (fst s)) sensors) = Some out.
  Proof.
    intros Nd H. unfold interpolate_sensor_list in H.
    destruct (nth_error centre 0) as [c0|] eqn:E0; [|discriminate].
    destruct (py_nth centre (-1)) as [cn|]; [|discriminate].
    destruct (nth_error sensors 0) as [s0|]; [|discriminate].
    destruct (py_nth sensors (-1)) as [sn|] eqn:En; [|discriminate].
    destruct (orb _ _); [discriminate|].
    rewrite drop_before_filter in H by exact Nd.
    destruct (scan centre (fst sn) 0 _) as [o|] eqn:Es; [|discriminate].
    injection H as <-. exists c0, sn. auto.
  Qed.

  Lemma py_nth_m1_last {A} (l : list A) x : is_last l x -> py_nth l (-1) = Some x.
  Proof.
    intros [l' ->]. destruct (py_nth_m1 (l' ++ [x])) as [H|H].
    - rewrite H, app_length. cbn. rewrite nth_error_app2 by lia.
      now replace (length l' + 1 - 1 - length l')%nat with 0%nat by lia.
    - destruct l'; discriminate.
  Qed.

  Lemma isl_bracket {Nm} (sensors : list (Q * Nm)) centre out sn :
    increasing s_t centre -> nondecreasing fst sensors -> (2 <= length centre)%nat ->
    is_last sensors sn ->
    isl sensors centre = Interpolated out ->
    forall nm p, In (nm, p) out ->
      (exists c, In c centre /\ s_t p <= s_t c /\ s_t c <= fst sn) ->
      (exists a b, adjacent centre a b /\ s_t a <= s_t p <= s_t b /\ pose_on_segment a b p /\
         (forall c, nth_error centre 0 = Some c -> s_t c < s_t p -> uncertainty_on_segment a b p)) /\
      In (s_t p, nm) sensors.
  Proof.
    intros Inc Nd Hl Hlast H nm p Hin Hc.
    destruct (isl_unfold sensors centre out Nd H) as (c0 & sn' & E0 & En & Es).
    rewrite (py_nth_m1_last _ _ Hlast) in En. injection En as <-.
    destruct (scan_bracket centre (fst sn) Inc c0 E0
      (filter (fun s => Qle_bool (s_t c0) (fst s)) sensors) 0 out) with (nm := nm) (p := p)
      as [K1 K2]; try assumption.
    - lia.
    - apply nondecreasing_filter; exact Nd.
    - intros s Hs. apply filter_In in Hs. apply Qle_bool_iff. tauto.
    - intros k c s Hk. lia.
    - split; [exact K1|]. apply filter_In in K2. tauto.
  Qed.

  Lemma isl_retained {Nm} (sensors : list (Q * Nm)) centre out c0 :
    nondecreasing fst sensors -> is_first centre c0 ->
    isl sensors centre = Interpolated out ->
    exists dropped,
      filter (fun s => Qle_bool (s_t c0) (fst s)) sensors =
        map (fun np => (s_t (snd np), fst np)) out ++ dropped /\
      forall s k c, In s dropped -> (k < length centre - 1)%nat -> nth_error centre k = Some c ->
        s_t c < fst s.
  Proof.
    intros Nd [l' Hl] H.
    destruct (isl_unfold sensors centre out Nd H) as (c0' & sn' & E0 & En & Es).
    assert (c0' = c0) by (subst centre; cbn in E0; congruence). subst c0'.
    apply (scan_retained centre (fst sn') _ 0 out); try assumption.
    - subst centre. cbn. lia.
    - apply nondecreasing_filter; exact Nd.
    - intros k c s Hk. lia.
  Qed.

  (** The loop never raises when all track samples have a covariance, or none has. *)
  Definition same_covs (centre : list sample) : Prop :=
    (forall c, In c centre -> s_cov c = None) \/ (forall c, In c centre -> s_cov c <> None).

  Lemma pose_between_total t a b centre :
    same_covs centre -> In a centre -> In b centre -> ~ s_t b == s_t a -> exists p, pose_between t a b = Some p.
  Proof.
    intros C Ha Hb E. unfold InterpModel.pose_between. destruct oo as [[ox oy] oz], so as [[sx sy] sz].
    match goal with |- exists p, (let '(_, _) := ?c in _) = _ => destruct c as [[dx dy] dz] end.
    destruct C as [C|C].
    - rewrite (C b Hb). eexists. reflexivity.
    - pose proof (C a Ha). pose proof (C b Hb). destruct (s_cov a) as [ca|]; [|congruence]. destruct (s_cov b) as [cb|]; [|congruence].
      unfold interpolate_covariance. destruct (Qeq_bool (s_t b) (s_t a)) eqn:K; [apply Qeq_bool_iff in K; contradiction|]. eexists. reflexivity.
  Qed.

  Lemma scan_total {Nm} centre tlast (Inc : increasing s_t centre) :
    same_covs centre -> (2 <= length centre)%nat ->
    forall (sensors : list (Q * Nm)) j, (j < length centre)%nat -> exists out, scan centre tlast j sensors = Some out.
  Proof.
    intros C Hl. induction sensors as [|[t nm] rest IH]; intros j Hj; [eexists; reflexivity|].
    cbn [InterpModel.scan]. destruct (length centre - 1 <=? j)%nat eqn:Ej; [eexists; reflexivity|].
    destruct (advance_spec (length centre) centre t tlast j) as (B & _); [lia|lia|].
    cbn zeta in *. set (j' := advance (length centre) centre t tlast j) in *.
    destruct (nth_error centre j') as [b|] eqn:Eb; [|apply nth_error_None in Eb; lia].
    assert (exists k a, py_nth centre (Z.of_nat j' - 1) = Some a /\ nth_error centre k = Some a /\ k <> j') as (k & a & Ea & Ek & N).
    { destruct j' as [|j''].
      - destruct (py_nth_m1 centre) as [Hm|Hm]; [|rewrite Hm in Hl; cbn in Hl; lia].
        destruct (nth_error centre (length centre - 1)) as [a|] eqn:Ea; [|apply nth_error_None in Ea; lia].
        exists (length centre - 1)%nat, a. split; [exact Hm|split; [exact Ea|lia]].
      - destruct (nth_error centre j'') as [a|] eqn:Ea; [|apply nth_error_None in Ea; lia].
        exists j'', a. rewrite py_nth_pred by lia. replace (S j'' - 1)%nat with j'' by lia. split; [exact Ea|split; [exact Ea|lia]]. }
    rewrite Ea.
    destruct (pose_between_total t a b centre C (nth_error_In _ _ Ek) (nth_error_In _ _ Eb)) as [p Ep].
    { destruct (Nat.lt_ge_cases k j') as [K|K].
      - pose proof (Inc k j' a b K Ek Eb). lra.
      - assert (j' < k)%nat as K' by lia. pose proof (Inc j' k b a K' Eb Ek). lra. }
    rewrite Ep. destruct (IH j') as [out Ho]; [lia|]. rewrite Ho. eexists. reflexivity.
  Qed.

  Lemma isl_total {Nm} (sensors : list (Q * Nm)) centre c0 cn s0 sn :
    increasing s_t centre -> same_covs centre -> (2 <= length centre)%nat ->
    is_first centre c0 -> is_last centre cn -> is_first sensors s0 -> is_last sensors sn ->
    fst s0 <= s_t cn -> s_t c0 <= fst sn ->
    exists out, isl sensors centre = Interpolated out.
  Proof.
    intros Inc C Hl [r0 F0] Ln [q0 G0] Lm A B. unfold interpolate_sensor_list.
    assert (nth_error centre 0 = Some c0) as -> by (rewrite F0; reflexivity).
    rewrite (py_nth_m1_last _ _ Ln), (py_nth_m1_last _ _ Lm).
    assert (nth_error sensors 0 = Some s0) as -> by (rewrite G0; reflexivity).
    assert (Qltb (s_t cn) (fst s0) = false) as -> by now apply Qltb_ge.
    assert (Qltb (fst sn) (s_t c0) = false) as -> by now apply Qltb_ge. cbn [orb].
    destruct (scan_total centre (fst sn) Inc C Hl (drop_before (s_t c0) sensors) 0) as [out ->]; [lia|]. eexists. reflexivity.
  Qed.
End SL.
