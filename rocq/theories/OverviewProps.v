(** C285/C286: the overview that ends "auv_nav parse". *)
From Coq Require Import String Qround Permutation.
From Verif Require Import PyBase OverviewModel.
Open Scope Q_scope.
Local Open Scope list_scope.

(** * Specification *)
(** the records the overview is about *)
Fixpoint kept (data : list (option item)) : list item :=
  match data with
  | [] => []
  | None :: data => kept data
  | Some i :: data => if String.eqb (category i) "origin" then kept data else i :: kept data
  end.
(** the three lists of a category *)
Inductive sort := In_body | In_inertial | In_neither.
Definition is_in (s : sort) (f : frame) : bool :=
  match s, f with In_body, Body => true | In_inertial, Inertial => true | In_neither, Elsewhere _ => true | _, _ => false end.
Definition pick (l : list item) (c : string) (s : sort) : list item := filter (fun i => String.eqb (category i) c && is_in s (frame_of i)) l.
(** each name once, where it comes first *)
Definition firsts (l : list string) : list string := rev (nodup string_dec (rev l)).
Definition nonempty {A} (l : list A) : bool := match l with [] => false | _ => true end.
Definition expected (l : list item) : list (list item) :=
  filter nonempty (flat_map (fun c => [pick l c In_body; pick l c In_inertial; pick l c In_neither]) (firsts (map category l))).
(** two records of one category in neither frame *)
Definition crowded (l : list item) : Prop := exists c, (2 <= length (pick l c In_neither))%nat.

(** * Lemmas *)
Definition get (c : string) (acc : list (string * frames)) : frames :=
  match find (fun p => String.eqb (fst p) c) acc with Some p => snd p | None => ([], [], []) end.

Lemma get_cons : forall c d g acc, get c ((d, g) :: acc) = if String.eqb d c then g else get c acc.
Proof. intros. unfold get. cbn. destruct (String.eqb d c); reflexivity. Qed.
Lemma sort_in_get : forall i acc,
  match put i (get (category i) acc) with
  | None => sort_in i acc = None
  | Some g => exists acc', sort_in i acc = Some acc' /\ (forall c, get c acc' = if String.eqb (category i) c then g else get c acc) /\
      map fst acc' = if in_dec string_dec (category i) (map fst acc) then map fst acc else map fst acc ++ [category i]
  end.
Proof.
  intros i acc. induction acc as [|[d h] acc IH].
  - cbn [sort_in]. unfold get at 1. cbn [find]. destruct (put i ([], [], [])) as [g|] eqn:E; cbn [option_map]; [|reflexivity].
    eexists; split; [reflexivity|]. split; [|reflexivity].
    intros c. rewrite get_cons. reflexivity.
  - rewrite get_cons. cbn [sort_in].
    destruct (String.eqb d (category i)) eqn:E.
    + destruct (put i h) as [g|]; cbn [option_map]; [|reflexivity].
      eexists; split; [reflexivity|]. apply String.eqb_eq in E. subst d. split.
      * intros c. rewrite !get_cons. destruct (String.eqb (category i) c); reflexivity.
      * cbn [map fst]. destruct (in_dec string_dec (category i) (category i :: map fst acc)) as [_|n]; [reflexivity|]. exfalso; apply n; now left.
    + destruct (put i (get (category i) acc)) as [g|].
      * destruct IH as [acc' [H1 [H2 H3]]]. rewrite H1. cbn [option_map]. eexists; split; [reflexivity|]. split.
        -- intros c. rewrite !get_cons, H2. destruct (String.eqb d c) eqn:F; [|reflexivity].
           apply String.eqb_eq in F. subst d. destruct (String.eqb (category i) c) eqn:G; [|reflexivity].
           apply String.eqb_eq in G. subst c. rewrite String.eqb_refl in E. discriminate.
        -- cbn [map fst]. rewrite H3.
           apply String.eqb_neq in E.
           destruct (in_dec string_dec (category i) (map fst acc)) as [y|n], (in_dec string_dec (category i) (d :: map fst acc)) as [y'|n']; try reflexivity.
           ++ exfalso; apply n'; now right.
           ++ exfalso. destruct y' as [y'|y']; [now apply E|now apply n].
      * rewrite IH. reflexivity.
Qed.
Lemma firsts_snoc : forall l x, firsts (l ++ [x]) = if in_dec string_dec x (firsts l) then firsts l else firsts l ++ [x].
Proof.
  intros l x. unfold firsts. rewrite rev_app_distr. cbn [rev app nodup].
  destruct (in_dec string_dec x (rev l)) as [y|n], (in_dec string_dec x (rev (nodup string_dec (rev l)))) as [y'|n']; try reflexivity.
  - exfalso; apply n'. apply -> in_rev. now apply nodup_In.
  - exfalso; apply n. apply in_rev in y'. now apply nodup_In in y'.
Qed.
Lemma firsts_NoDup : forall l, NoDup (firsts l).
Proof. intros. unfold firsts. apply NoDup_rev, NoDup_nodup. Qed.
Lemma firsts_In : forall l x, In x (firsts l) <-> In x l.
Proof. intros. unfold firsts. rewrite <- in_rev, nodup_In, <- in_rev. reflexivity. Qed.

Definition trio (l : list item) (c : string) : frames := (pick l c In_body, pick l c In_inertial, pick l c In_neither).
Lemma pick_snoc : forall l i c s, pick (l ++ [i]) c s = if String.eqb (category i) c && is_in s (frame_of i) then pick l c s ++ [i] else pick l c s.
Proof. intros. unfold pick. rewrite filter_app. cbn [filter]. destruct (_ && _); [reflexivity|apply app_nil_r]. Qed.
Lemma pick_app : forall l m c s, pick (l ++ m) c s = pick l c s ++ pick m c s.
Proof. intros. unfold pick. apply filter_app. Qed.

Lemma collect_spec : forall data acc l,
  (forall c, get c acc = trio l c) -> map fst acc = firsts (map category l) -> ~ crowded l ->
  (crowded (l ++ kept data) /\ collect acc data = None) \/
  (~ crowded (l ++ kept data) /\ exists acc', collect acc data = Some acc' /\ (forall c, get c acc' = trio (l ++ kept data) c) /\
      map fst acc' = firsts (map category (l ++ kept data))).
Proof.
  induction data as [|[i|] data IH]; intros acc l H1 H2 H3; cbn [collect kept].
  - rewrite app_nil_r. right. split; [exact H3|]. exists acc. auto.
  - destruct (String.eqb (category i) "origin") eqn:O; [now apply IH|].
    pose proof (sort_in_get i acc) as HS. rewrite H1 in HS.
    destruct (put i (trio l (category i))) as [g|] eqn:P.
    + destruct HS as [acc' [S1 [S2 S3]]]. rewrite S1.
      replace (l ++ i :: kept data) with ((l ++ [i]) ++ kept data) by (rewrite <- app_assoc; reflexivity).
      apply IH.
      * intros c. rewrite S2, H1. unfold trio. rewrite !pick_snoc.
        destruct (String.eqb (category i) c) eqn:E; cbn [andb]; [|reflexivity].
        apply String.eqb_eq in E. subst c. unfold put, trio in P.
        destruct (frame_of i); cbn [is_in]; try (injection P as <-; reflexivity).
        destruct (pick l (category i) In_neither); [injection P as <-; reflexivity|discriminate].
      * rewrite S3, H2, map_app. cbn [map]. rewrite firsts_snoc. reflexivity.
      * intros [c Hc]. rewrite pick_snoc in Hc. destruct (String.eqb (category i) c) eqn:E; cbn [andb] in Hc; [|apply H3; now exists c].
        apply String.eqb_eq in E. subst c. unfold put, trio in P.
        destruct (frame_of i); cbn [is_in] in Hc; try (apply H3; now exists (category i)).
        destruct (pick l (category i) In_neither); [cbn in Hc; lia|discriminate].
    + rewrite HS. left. split; [|reflexivity]. exists (category i).
      unfold put, trio in P. destruct (frame_of i) eqn:F; try discriminate.
      rewrite pick_app. destruct (pick l (category i) In_neither) eqn:E; [discriminate|].
      cbn [pick filter]. unfold pick. cbn [filter]. rewrite String.eqb_refl, F. cbn [is_in andb]. rewrite app_length. cbn. lia.
  - now apply IH.
Qed.
Lemma groups_spec : forall data groups, collect [] data = Some groups ->
  flat_map (fun cg : string * frames => lists_of (snd cg)) groups =
  flat_map (fun c => [pick (kept data) c In_body; pick (kept data) c In_inertial; pick (kept data) c In_neither]) (firsts (map category (kept data))).
Proof.
  intros data groups H.
  destruct (collect_spec data [] []) as [[_ E]|[_ [acc [E [G M]]]]].
  - intros c. reflexivity.
  - reflexivity.
  - intros [c Hc]. cbn in Hc. lia.
  - congruence.
  - rewrite H in E. injection E as <-. cbn [app] in G, M.
    pose proof (firsts_NoDup (map category (kept data))) as ND. rewrite <- M in *. clear H M.
    assert (K : forall c g, In (c, g) groups -> g = trio (kept data) c).
    { intros c g HI. rewrite <- G. clear G. induction groups as [|[d h] groups IH]; [contradiction|].
      rewrite get_cons. cbn [map fst] in ND. inversion ND as [|x y N1 N2]; subst. destruct HI as [HI|HI].
      - injection HI as -> ->. rewrite String.eqb_refl. reflexivity.
      - destruct (String.eqb d c) eqn:E; [|now apply IH]. apply String.eqb_eq in E. subst d. exfalso. apply N1. apply in_map_iff. now exists (c, g). }
    clear G ND. induction groups as [|[d h] groups IH]; [reflexivity|].
    cbn [flat_map map fst snd]. rewrite (K d h (or_introl eq_refl)). unfold trio. cbn [lists_of app]. rewrite IH; [reflexivity|].
    intros c g HI. apply K. now right.
Qed.
Lemma not_crowded : forall data, crowded (kept data) <-> collect [] data = None.
Proof.
  intros data. destruct (collect_spec data [] []) as [[C E]|[C [acc [E _]]]]; try reflexivity.
  - intros [c Hc]. cbn in Hc. lia.
  - cbn [app] in C. tauto.
  - cbn [app] in C. rewrite E. split; [contradiction|discriminate].
Qed.

Lemma rows_of_records : forall ls rows, rows_of ls = Some rows -> map records rows = filter nonempty ls.
Proof.
  induction ls as [|j ls IH]; intros rows H; cbn [rows_of] in H; [injection H as <-; reflexivity|].
  destruct (data2trace j) as [r|] eqn:E; [|discriminate]. destruct (rows_of ls) as [rs|]; [|discriminate]. injection H as <-.
  rewrite map_app, (IH rs eq_refl). unfold data2trace in E. destruct j as [|i j]; [injection E as <-; reflexivity|].
  destruct (difference _); [|discriminate]. injection E as <-. reflexivity.
Qed.
Lemma rows_of_each : forall ls rows r, rows_of ls = Some rows -> In r rows ->
  exists td, difference (map epoch (records r)) = Some td /\ update_rate r = rate td /\ points r = map (fun i => label (epoch i)) (records r) /\
    exists i l, records r = i :: l /\ title r = (category i, frame_of i).
Proof.
  induction ls as [|j ls IH]; intros rows r H HI; cbn [rows_of] in H; [injection H as <-; contradiction|].
  destruct (data2trace j) as [r0|] eqn:E; [|discriminate]. destruct (rows_of ls) as [rs|]; [|discriminate]. injection H as <-.
  apply in_app_or in HI. destruct HI as [HI|HI]; [|now apply (IH rs)].
  unfold data2trace in E. destruct j as [|i j]; [injection E as <-; contradiction|].
  destruct (difference _) as [td|] eqn:D; [|discriminate]. injection E as <-. destruct HI as [<-|[]]. exists td. cbn. repeat split; eauto.
Qed.
Lemma rows_of_none : forall ls, rows_of ls = None <-> exists j, In j ls /\ difference (map epoch j) = None.
Proof.
  induction ls as [|j ls IH]; cbn [rows_of].
  - split; [discriminate|intros [j [[] _]]].
  - destruct (data2trace j) as [r|] eqn:E.
    + destruct (rows_of ls) as [rs|].
      * split; [discriminate|]. intros [k [[->|HI] D]].
        -- unfold data2trace in E. destruct k; [discriminate D|]. rewrite D in E. discriminate.
        -- assert (X : Some rs = None) by (apply IH; now exists k). discriminate.
      * split; [|reflexivity]. intros _. destruct (proj1 IH eq_refl) as [k [HI D]]. exists k. split; [now right|exact D].
    + split; [|reflexivity]. intros _. exists j. split; [now left|]. unfold data2trace in E. destruct j; [discriminate|]. destruct (difference _); [discriminate|reflexivity].
Qed.
Lemma pick_ext_perm : forall (l : list item) (cats : list string), NoDup cats -> (forall i, In i l -> In (category i) cats) ->
  Permutation (concat (flat_map (fun c => [pick l c In_body; pick l c In_inertial; pick l c In_neither]) cats)) l.
Proof.
  intros l. induction l as [|i l IH]; intros cats ND HI.
  - replace (concat _) with (@nil item); [constructor|]. clear. induction cats as [|c cats IH]; [reflexivity|]. cbn. exact IH.
  - specialize (IH cats ND (fun j H => HI j (or_intror H))).
    eapply perm_trans; [|apply perm_skip; exact IH]. clear IH.
    specialize (HI i (or_introl eq_refl)).
    assert (N : forall c, category i <> c -> forall s, pick (i :: l) c s = pick l c s).
    { intros c Hc s. unfold pick. cbn [filter]. apply String.eqb_neq in Hc. rewrite Hc. reflexivity. }
    induction cats as [|c cats IH]; [contradiction|]. inversion ND as [|x y N1 N2]; subst. cbn [flat_map].
    destruct (string_dec (category i) c) as [E|E].
    + subst c.
      assert (R : flat_map (fun c => [pick (i :: l) c In_body; pick (i :: l) c In_inertial; pick (i :: l) c In_neither]) cats =
                  flat_map (fun c => [pick l c In_body; pick l c In_inertial; pick l c In_neither]) cats).
      { clear IH HI ND N2. induction cats as [|d cats IH]; [reflexivity|]. cbn [flat_map]. rewrite IH by (intros X; apply N1; now right).
        rewrite !N by (intros X; apply N1; left; now symmetry). reflexivity. }
      rewrite R. rewrite !concat_app. cbn [app concat]. rewrite !app_nil_r. rewrite app_comm_cons. apply Permutation_app_tail.
      unfold pick. cbn [filter]. rewrite String.eqb_refl. destruct (frame_of i); cbn [andb is_in].
      * reflexivity.
      * symmetry. apply Permutation_middle.
      * rewrite !app_assoc. symmetry. apply Permutation_middle.
    + rewrite !N by exact E. rewrite !concat_app. cbn [app concat]. eapply perm_trans; [apply Permutation_app_head, IH|].
      * exact N2.
      * destruct HI as [HI|HI]; [now subst|exact HI].
      * symmetry. apply Permutation_middle.
Qed.
Lemma concat_nonempty : forall A (ls : list (list A)), concat (filter nonempty ls) = concat ls.
Proof. induction ls as [|[|a l] ls IH]; [reflexivity|exact IH|]. cbn. rewrite IH. reflexivity. Qed.

(** * C285: what is shown *)
(** The rows are the records by category, in the order in which the categories first appear, and within these by frame; nothing else is shown. *)
Theorem C285_rows : forall data s f rows, plot_parse_data data = Shown s f rows -> map records rows = expected (kept data).
Proof.
  intros data s f rows H. unfold plot_parse_data in H.
  destruct (nth_error data 1) as [[first|]|]; try discriminate. destruct (nth_error data (length data - 1)) as [[last|]|]; try discriminate.
  destruct (collect [] data) as [groups|] eqn:C; [|discriminate]. rewrite (groups_spec _ _ C) in H.
  destruct (rows_of _) as [rs|] eqn:R; [|discriminate]. injection H as _ _ <-. now apply rows_of_records in R.
Qed.
Print Assumptions C285_rows.

(** Every record is in one row, once. *)
Theorem C285_all : forall data s f rows, plot_parse_data data = Shown s f rows -> Permutation (concat (map records rows)) (kept data).
Proof.
  intros data s f rows H. rewrite (C285_rows _ _ _ _ H). unfold expected. rewrite concat_nonempty.
  apply pick_ext_perm; [apply firsts_NoDup|]. intros i HI. apply firsts_In, in_map, HI.
Qed.
Print Assumptions C285_all.

(** When it is shown, the duration is from the second entry to the last one. *)
Theorem C285_duration : forall data s f rows, plot_parse_data data = Shown s f rows ->
  exists a i l j m, data = a :: Some i :: l /\ data = m ++ [Some j] /\ s = epoch i /\ f = epoch j.
Proof.
  intros data s f rows H. unfold plot_parse_data in H.
  destruct (nth_error data 1) as [[first|]|] eqn:E1; try discriminate. destruct (nth_error data (length data - 1)) as [[last|]|] eqn:E2; try discriminate.
  destruct (collect [] data) as [groups|]; [|discriminate]. destruct (rows_of _) as [rs|]; [|discriminate]. injection H as <- <- _.
  destruct data as [|a [|x l]]; try discriminate. cbn in E1. injection E1 as ->.
  destruct (@exists_last _ (a :: Some first :: l)) as [m [z Hz]]; [discriminate|].
  rewrite Hz in E2. rewrite app_length in E2. cbn [length] in E2. rewrite Nat.add_sub in E2.
  rewrite nth_error_app2, Nat.sub_diag in E2 by lia. injection E2 as ->.
  exists a, first, l, last, m. auto.
Qed.
Print Assumptions C285_duration.

(** It ends in an error just when there is no second entry, it or the last one is null, or two records of one category are in neither frame. *)
Theorem C285_raises : forall data, plot_parse_data data = Raised <->
  (length data < 2)%nat \/ nth_error data 1 = Some None \/ nth_error data (length data - 1) = Some None \/ crowded (kept data).
Proof.
  intros data. unfold plot_parse_data. destruct (nth_error data 1) as [[first|]|] eqn:E1.
  - assert (L : (1 < length data)%nat) by (apply nth_error_Some; congruence).
    destruct (nth_error data (length data - 1)) as [[last|]|] eqn:E2.
    + rewrite not_crowded. destruct (collect [] data); [|tauto].
      destruct (rows_of _); (split; [discriminate|intros [H|[H|[H|H]]]; [lia|discriminate|discriminate|discriminate]]).
    + tauto.
    + exfalso. apply nth_error_None in E2. lia.
  - tauto.
  - apply nth_error_None in E1. split; [|reflexivity]. intros _. left. lia.
Qed.
Print Assumptions C285_raises.

(** ** The rate *)
(** [td] is the first of at most nine differences that is at least two milliseconds, or, of fewer than ten, the last. *)
Inductive typical (ds : list Q) (td : Q) : Prop :=
| Regular (l r : list Q) : ds = l ++ td :: r -> (length l <= 8)%nat -> Forall (fun d => d < 2 # 1000) l -> 2 # 1000 <= td -> typical ds td
| Short (l : list Q) : ds = l ++ [td] -> (length l <= 8)%nat -> Forall (fun d => d < 2 # 1000) (l ++ [td]) -> typical ds td.
Definition too_fast (ds : list Q) : Prop := (10 <= length ds)%nat /\ Forall (fun d => d < 2 # 1000) (firstn 9 ds).

Lemma search_spec : forall rest td n, (n <= 10)%nat ->
  match search td n rest with
  | Some x => (exists l r, td :: rest = l ++ x :: r /\ (length l <= 10 - n)%nat /\ Forall (fun d => d < 2 # 1000) l /\ 2 # 1000 <= x) \/
              (exists l, td :: rest = l ++ [x] /\ (length l <= 10 - n)%nat /\ Forall (fun d => d < 2 # 1000) (l ++ [x]))
  | None => (12 - n <= length (td :: rest))%nat /\ Forall (fun d => d < 2 # 1000) (firstn (11 - n) (td :: rest))
  end.
Proof.
  induction rest as [|d rest IH]; intros td n Hn; cbn [search].
  - destruct (Qle_bool (2 # 1000) td) eqn:E.
    + left. exists [], []. apply Qle_bool_iff in E. repeat split; auto. cbn; lia.
    + right. exists []. repeat split; [cbn; lia|]. constructor; [|constructor]. apply Qnot_le_lt. intros X. apply Qle_bool_iff in X. congruence.
  - destruct (Qle_bool (2 # 1000) td) eqn:E.
    + left. exists [], (d :: rest). apply Qle_bool_iff in E. repeat split; auto. cbn; lia.
    + assert (T : td < 2 # 1000) by (apply Qnot_le_lt; intros X; apply Qle_bool_iff in X; congruence).
      destruct (10 <? S n)%nat eqn:B.
      * apply Nat.ltb_lt in B. assert (n = 10%nat) by lia. subst n. cbn. split; [lia|]. repeat constructor. exact T.
      * apply Nat.ltb_ge in B. specialize (IH d (S n) B). destruct (search d (S n) rest) as [x|].
        -- destruct IH as [[l [r [A1 [A2 [A3 A4]]]]]|[l [A1 [A2 A3]]]].
           ++ left. exists (td :: l), r. rewrite A1. repeat split; auto. cbn [length]; lia.
           ++ right. exists (td :: l). rewrite A1. repeat split; [cbn [length]; lia|]. cbn [app]. now constructor.
        -- destruct IH as [A1 A2]. split; [cbn [length] in *; lia|].
           replace (11 - n)%nat with (S (11 - S n)) by lia. cbn [firstn]. constructor; assumption.
Qed.
Lemma difference_some : forall l td, difference l = Some td -> (steps l = [] /\ td == 0) \/ typical (steps l) td.
Proof.
  intros l td H. unfold difference in H. destruct (steps l) as [|d rest]; [injection H as <-; left; split; reflexivity|].
  right. pose proof (search_spec rest d 2 ltac:(lia)) as S. rewrite H in S.
  destruct S as [[a [b [A1 [A2 [A3 A4]]]]]|[a [A1 [A2 A3]]]]; [eapply Regular|eapply Short]; eauto.
Qed.
Lemma difference_none : forall l, difference l = None <-> too_fast (steps l).
Proof.
  intros l. unfold difference, too_fast. destruct (steps l) as [|d rest]; [split; [discriminate|intros [H _]; cbn in H; lia]|].
  pose proof (search_spec rest d 2 ltac:(lia)) as S. destruct (search d 2 rest) as [x|].
  - split; [discriminate|]. intros [L F]. exfalso. destruct S as [[a [b [A1 [A2 [A3 A4]]]]]|[a [A1 [A2 A3]]]]; rewrite A1 in *.
    + replace 9%nat with (length a + (9 - length a))%nat in F by lia. rewrite firstn_app_2 in F.
      apply Forall_app in F. destruct F as [_ F]. replace (9 - length a)%nat with (S (8 - length a)) in F by lia. cbn [firstn] in F.
      inversion F; subst. lra.
    + rewrite app_length in L. cbn in L. lia.
  - split; [|reflexivity]. intros _. exact S.
Qed.
(** [typical] determines the difference *)
Lemma typical_fun : forall ds a b, typical ds a -> typical ds b -> a = b.
Proof.
  assert (K : forall l r m s (a b : Q), l ++ a :: r = m ++ b :: s -> Forall (fun d => d < 2 # 1000) l -> Forall (fun d => d < 2 # 1000) m ->
    2 # 1000 <= a -> 2 # 1000 <= b -> a = b).
  { induction l as [|x l IH]; intros r [|y m] s a b E F G A B; cbn [app] in E; injection E as E1 E2.
    - exact E1.
    - subst. inversion G; subst. lra.
    - subst. inversion F; subst. lra.
    - inversion F; inversion G; subst. eapply IH; eauto. }
  intros ds a b [l r E _ F A|l E _ F] [m s E' _ G B|m E' _ G]; subst.
  - eapply K; eauto.
  - rewrite <- E' in G. apply Forall_app in G. destruct G as [_ G]. inversion G; subst. lra.
  - rewrite E' in F. apply Forall_app in F. destruct F as [_ F]. inversion F; subst. lra.
  - apply app_inj_tail in E'. symmetry. destruct E'. congruence.
Qed.

(** The rate of a row is one over a difference of its times, as they are in the file: the first that is at least 2 ms; there is none of a single
    record, nor if the difference is zero. *)
Theorem C285_rate : forall data s f rows r, plot_parse_data data = Shown s f rows -> In r rows ->
  exists i l, records r = i :: l /\ title r = (category i, frame_of i) /\
    ((l = [] /\ update_rate r = None) \/
     exists td, typical (steps (map epoch (records r))) td /\
       ((td == 0 /\ update_rate r = None) \/ exists h, update_rate r = Some h /\ h * td == 1)).
Proof.
  intros data s f rows r H HI. unfold plot_parse_data in H.
  destruct (nth_error data 1) as [[first|]|]; try discriminate. destruct (nth_error data (length data - 1)) as [[last|]|]; try discriminate.
  destruct (collect [] data) as [groups|] eqn:C; [|discriminate].
  destruct (rows_of _) as [rs|] eqn:R; [|discriminate]. injection H as _ _ <-.
  destruct (rows_of_each _ _ _ R HI) as [td [D [U [_ [i [l [E T]]]]]]]. exists i, l. split; [exact E|]. split; [exact T|].
  assert (Z : td == 0 -> update_rate r = None).
  { intros Z. rewrite U. unfold rate. apply Qeq_bool_iff in Z. rewrite Z. reflexivity. }
  destruct (difference_some _ _ D) as [[N Z0]|Y].
  - left. split; [|now apply Z]. rewrite E in N. destruct l as [|k l]; [reflexivity|]. discriminate N.
  - right. exists td. split; [exact Y|]. destruct (Qeq_dec td 0) as [e|n]; [left; split; [exact e|now apply Z]|]. right.
    rewrite U. unfold rate. destruct (Qeq_bool td 0) eqn:B; [apply Qeq_bool_iff in B; contradiction|]. exists (1 / td). split; [reflexivity|]. field. exact n.
Qed.
Print Assumptions C285_rate.

(** The program stops here just when some row has at least eleven records and the first ten of them are less than 2 ms apart. *)
Theorem C285_exits : forall data, plot_parse_data data = Exited <->
  plot_parse_data data <> Raised /\ exists j, In j (expected (kept data)) /\ too_fast (steps (map epoch j)).
Proof.
  intros data. unfold plot_parse_data.
  destruct (nth_error data 1) as [[first|]|]; try (split; [discriminate|tauto]).
  destruct (nth_error data (length data - 1)) as [[last|]|]; try (split; [discriminate|tauto]).
  destruct (collect [] data) as [groups|] eqn:C; [|split; [discriminate|tauto]].
  rewrite (groups_spec _ _ C). pose proof (rows_of_none (flat_map (fun c => [pick (kept data) c In_body; pick (kept data) c In_inertial; pick (kept data) c In_neither]) (firsts (map category (kept data))))) as N.
  destruct (rows_of _) as [rs|].
  - split; [discriminate|]. intros [_ [j [J F]]]. assert (X : Some rs = None); [|discriminate]. apply N. exists j. split.
    + unfold expected in J. apply filter_In in J. tauto.
    + now apply difference_none.
  - split; [|reflexivity]. intros _. split; [discriminate|]. destruct (proj1 N eq_refl) as [j [J D]]. exists j. split.
    + unfold expected. apply filter_In. split; [exact J|]. destruct j; [discriminate D|reflexivity].
    + now apply difference_none.
Qed.
Print Assumptions C285_exits.

(** ** The times of the points *)
Lemma floor_bounds : forall x, inject_Z (Qfloor x) <= x /\ x < inject_Z (Qfloor x) + 1.
Proof. intros x. split; [apply Qfloor_le|]. pose proof (Qlt_floor x) as H. rewrite inject_Z_plus in H. exact H. Qed.
Lemma nearest_close : forall x, Qabs (inject_Z (nearest x) - x) <= 1 # 2.
Proof.
  intros x. pose proof (floor_bounds x) as [A B]. unfold nearest. apply Qabs_Qle_condition.
  destruct (Qcompare_spec (x - inject_Z (Qfloor x)) (1 # 2)); [destruct (Z.even _)| |]; rewrite ?inject_Z_plus; change (inject_Z 1) with 1; split; lra.
Qed.
Lemma inject_lt : forall a b : Z, inject_Z a < inject_Z b -> (a < b)%Z.
Proof. intros a b H. now rewrite <- Zlt_Qlt in H. Qed.
Lemma nearest_range : forall x, 0 <= x -> x < 9999995 # 10 -> (0 <= nearest x < 1000000)%Z.
Proof.
  intros x A B. pose proof (floor_bounds x) as [F1 F2].
  assert (G : (0 <= Qfloor x)%Z). { change 0%Z with (Qfloor 0). now apply Qfloor_resp_le. }
  assert (L : (Qfloor x < 1000000)%Z). { apply inject_lt. change (inject_Z 1000000) with (1000000 # 1). lra. }
  unfold nearest. destruct (Qcompare_spec (x - inject_Z (Qfloor x)) (1 # 2)) as [E|E|E].
  - destruct (Z.even (Qfloor x)) eqn:V; [lia|]. assert (Qfloor x <> 999999)%Z; [|lia].
    intros X. rewrite X in E. change (inject_Z 999999) with (999999 # 1) in E. lra.
  - lia.
  - assert (Qfloor x <> 999999)%Z; [|lia].
    intros X. rewrite X in E. change (inject_Z 999999) with (999999 # 1) in E. lra.
Qed.

(** A point is drawn at the microsecond nearest to its time, unless that is the next full second. *)
Theorem C285_points : forall data s f rows r, plot_parse_data data = Shown s f rows -> In r rows ->
  length (points r) = length (records r) /\
  forall i p, In (i, p) (combine (records r) (points r)) ->
    (0 <= snd p < 1000000)%Z /\ inject_Z (fst p) <= epoch i < inject_Z (fst p) + 1 /\
    (epoch i - inject_Z (fst p) < 9999995 # 10000000 -> Qabs (inject_Z (fst p) + inject_Z (snd p) / 1000000 - epoch i) <= 1 # 2000000).
Proof.
  intros data s f rows r H HI. unfold plot_parse_data in H.
  destruct (nth_error data 1) as [[first|]|]; try discriminate. destruct (nth_error data (length data - 1)) as [[last|]|]; try discriminate.
  destruct (collect [] data) as [groups|] eqn:C; [|discriminate].
  destruct (rows_of _) as [rs|] eqn:R; [|discriminate]. injection H as _ _ <-.
  destruct (rows_of_each _ _ _ R HI) as [td [_ [_ [P _]]]]. rewrite P. split; [apply map_length|].
  intros i p HC. assert (E : p = label (epoch i)).
  { clear - HC. induction (records r) as [|k l IH]; [contradiction|]. cbn in HC. destruct HC as [HC|HC]; [congruence|now apply IH]. }
  subst p. unfold label. cbn [fst snd]. pose proof (floor_bounds (epoch i)) as [F1 F2].
  split; [apply Z.mod_pos_bound; lia|]. split; [split; assumption|]. intros L.
  set (x := (epoch i - inject_Z (Qfloor (epoch i))) * 1000000).
  assert (X : (0 <= nearest x < 1000000)%Z) by (apply nearest_range; unfold x; lra).
  rewrite Z.mod_small by exact X. pose proof (nearest_close x) as N. apply Qabs_Qle_condition in N. apply Qabs_Qle_condition.
  assert (Y : inject_Z (nearest x) / 1000000 == inject_Z (nearest x) * (1 # 1000000)) by (unfold Qdiv; reflexivity). rewrite Y.
  clear Y. set (m := inject_Z (nearest x)) in *. clearbody m. clear X. subst x. set (t := epoch i) in *. set (g := inject_Z (Qfloor t)) in *. clearbody g t.
  destruct N as [N1 N2]. split; lra.
Qed.
Print Assumptions C285_points.

(** * Examples *)
Definition origin : option item := Some (mkitem "origin" Inertial 0).
Definition mixed : list (option item) :=
  [origin; Some (mkitem "velocity" Body 100); Some (mkitem "depth" Inertial (1001 # 10)); None; Some (mkitem "velocity" Inertial (1002 # 10));
   Some (mkitem "velocity" Body (202 # 2)); Some (mkitem "usbl" (Elsewhere "ship") (10112345678 # 100000000)); Some (mkitem "depth" Inertial (1021 # 10))].
Example overview_1 :
  match plot_parse_data mixed with
  | Shown s f rows => (s, f, map (fun r => (title r, length (records r), option_map Qred (update_rate r), points r)) rows)
  | _ => (0, 0, [])
  end =
  (100, 1021 # 10,
   [(("velocity", Body), 2%nat, Some 1, [(100, 0); (101, 0)]%Z);
    (("velocity", Inertial), 1%nat, None, [(100, 200000)]%Z);
    (("depth", Inertial), 2%nat, Some (1 # 2), [(100, 100000); (102, 100000)]%Z);
    (("usbl", Elsewhere "ship"), 1%nat, None, [(101, 123457)]%Z)])%string.
Proof. vm_compute. reflexivity. Qed.
(** the first difference that is long enough *)
Example overview_2 : difference [1; 1; 1001 # 1000; 1101 # 1000; 2] = Some ((1101 # 1000) - (1001 # 1000)) /\ difference [1; 1] = Some (1 - 1).
Proof. vm_compute. auto. Qed.

(** * C286: not always shown, nor always rightly *)
(** A dive with data at 1 kHz (twelve samples, 1 ms apart) ends the program, with status 0 and nothing shown; so do eleven copies of one time although
    other records follow. *)
Theorem C286_fast_refuted : exists data, ~ crowded (kept data) /\ (forall i, In i data -> i <> None) /\ plot_parse_data data = Exited.
Proof.
  exists (origin :: map (fun k => Some (mkitem "depth" Inertial (100 + inject_Z (Z.of_nat k) * (1 # 1000)))) (seq 0 12)).
  split; [|split].
  - rewrite not_crowded. vm_compute. discriminate.
  - intros i H. cbn in H. repeat (destruct H as [<-|H]; [discriminate|]). contradiction.
  - vm_compute. reflexivity.
Qed.
Print Assumptions C286_fast_refuted.

(** Two records of one category in a third frame, which the code means to warn about, end it in an error. *)
Theorem C286_frame_refuted : exists data, length data = 3%nat /\ (forall i, In i data -> i <> None) /\ plot_parse_data data = Raised.
Proof.
  exists [origin; Some (mkitem "usbl" (Elsewhere "ship") 1); Some (mkitem "usbl" (Elsewhere "ship") 2)]%string. split; [reflexivity|]. split; [|vm_compute; reflexivity].
  intros i H. cbn in H. repeat (destruct H as [<-|H]; [discriminate|]). contradiction.
Qed.
Print Assumptions C286_frame_refuted.

(** A dive that gave no records, whose file has the origin alone, too. *)
Theorem C286_origin_refuted : exists data, data = [origin] /\ kept data = [] /\ plot_parse_data data = Raised.
Proof. exists [origin]. vm_compute. auto. Qed.
Print Assumptions C286_origin_refuted.

(** A point less than half a microsecond before a full second is drawn a second too early. *)
Theorem C286_second_refuted : exists data s f rows r i p, plot_parse_data data = Shown s f rows /\ In r rows /\ In (i, p) (combine (records r) (points r)) /\
  Qabs (inject_Z (fst p) + inject_Z (snd p) / 1000000 - epoch i) > 999 # 1000.
Proof.
  exists [origin; Some (mkitem "depth" Inertial (1009999996 # 10000000))]%string. do 6 eexists.
  split; [vm_compute; reflexivity|]. split; [left; reflexivity|]. split; [left; reflexivity|]. vm_compute. reflexivity.
Qed.
Print Assumptions C286_second_refuted.

(** The rate of a sensor whose first two records are close together can be that of the gap behind them, and a negative one of two that are out of order. *)
Theorem C286_rate_refuted : exists data s f r h, plot_parse_data data = Shown s f [r] /\ update_rate r = Some h /\ h < 0.
Proof.
  exists [origin; Some (mkitem "depth" Inertial 101); Some (mkitem "depth" Inertial 100)]%string. do 4 eexists.
  split; [vm_compute; reflexivity|]. split; [reflexivity|]. vm_compute. reflexivity.
Qed.
Print Assumptions C286_rate_refuted.
