(** C15: USBL filter. *)
From Coq Require Import Reals Qreals Lra.
From Verif Require Import PyBase InterpModel InterpSpec InterpProofs UsblModel UsblSpec UsblProofs.

(** Never an index error, for every list length and every setting. *)
Theorem C15_total : forall us depth sigma sigmaR speed ne don,
  exists a b, usbl_filter us depth sigma sigmaR speed ne don = Some (a, b).
Proof.
  intros us depth sigma sigmaR speed ne don. unfold usbl_filter. destruct depth as [|d0 dr]; [eauto|].
  destruct don, ne; eauto; rewrite dist_kept_spec; eauto.
Qed.
Print Assumptions C15_total.

(** Both returned lists are sub-sequences of the input, fixes unchanged. *)
Theorem C15_subsequence : forall us depth sigma sigmaR speed ne don a b,
  usbl_filter us depth sigma sigmaR speed ne don = Some (a, b) -> subseq a us /\ subseq b us.
Proof.
  intros us depth sigma sigmaR speed ne don a b. unfold usbl_filter.
  destruct depth as [|d0 dr]. { intro H. injection H as <- <-. split; constructor. }
  set (timed := filter _ us). assert (T : subseq timed us) by apply filter_subseq.
  destruct don, ne.
  - set (fl := depth_kept _ _ _). assert (D : subseq fl us) by (eapply subseq_trans; [apply depth_kept_subseq|exact T]).
    destruct (dist_kept _ fl) eqn:E; [|discriminate]. intro H. injection H as <- <-.
    split; [exact D|]. eapply subseq_trans; [eapply dist_kept_subseq; exact E|exact D].
  - intro H. injection H as <- <-. split; [exact T|]. eapply subseq_trans; [apply depth_kept_subseq|exact T].
  - destruct (dist_kept _ timed) eqn:E; [|discriminate]. intro H. injection H as <- <-.
    split; [exact T|]. eapply subseq_trans; [eapply dist_kept_subseq; exact E|exact T].
  - intro H. injection H as <- <-. split; [apply subseq_refl|exact T].
Qed.
Print Assumptions C15_subsequence.

Lemma is_last_nth {A} (l : list A) d : l <> [] -> is_last l (last l d).
Proof. intro H. exists (removelast l). now apply app_removelast_last. Qed.

Lemma last_nth_error {A} (l : list A) d : l <> [] -> nth_error l (length l - 1) = Some (last l d).
Proof.
  intro H. rewrite (app_removelast_last d H) at 1 2. rewrite app_length. cbn [length].
  rewrite nth_error_app2 by lia. replace (_ - _ - _)%nat with 0%nat by lia. reflexivity.
Qed.

Lemma in_time_iff f l t : in_time f l t = true <-> (f + 1 <= t)%Q /\ (t + 1 <= l)%Q.
Proof.
  unfold in_time. destruct (Qltb t (f + 1)) eqn:A; [split; [discriminate|]|].
  - intros [H _]. apply Qltb_lt in A. exfalso. apply (Qlt_irrefl t). eapply Qlt_le_trans; eassumption.
  - apply Qltb_ge in A. destruct (Qltb l (t + 1)) eqn:B.
    + apply Qltb_lt in B. split; [discriminate|]. intros [_ H]. exfalso. apply (Qlt_irrefl l). eapply Qlt_le_trans; eassumption.
    + apply Qltb_ge in B. tauto.
Qed.

Lemma nondecreasing_filter (f : usbl -> bool) us : nondecreasing u_t us -> nondecreasing u_t (filter f us).
Proof.
  induction us as [|u us IH]; intro H; [exact H|]. cbn.
  assert (H' : nondecreasing u_t us) by (intros i j a b L A B; apply (H (S i) (S j) a b); [lia|exact A|exact B]).
  destruct (f u); [|now apply IH].
  intros [|i] [|j] a b L A B; try lia.
  - injection A as <-. cbn in B. apply nth_error_In, filter_In in B. destruct B as [B _].
    apply In_nth_error in B. destruct B as [k K]. apply (H 0%nat (S k) u b); [lia|reflexivity|exact K].
  - apply (IH H' i j a b); [lia|exact A|exact B].
Qed.

(** A fix survives the time and depth stages exactly when it is one second
    inside the depth record and its depth agrees with the vehicle's depth at
    that time within sigma times the summed uncertainties. *)
Lemma stage_depth us depth sigma : increasing d_t depth -> nondecreasing u_t us -> depth <> [] ->
  forall d0 dr, depth = d0 :: dr ->
  let timed := filter (fun u => in_time (d_t d0) (d_t (last depth d0)) (u_t u)) us in
  forall u, In u (depth_kept timed (depth_at depth timed 0) sigma) ->
  In u us /\ inside depth (u_t u) /\ depth_agrees depth sigma u.
Proof.
  intros Inc Nd Ne d0 dr Ed timed u Hu.
  assert (T : forall v, In v timed -> In v us /\ (d_t d0 + 1 <= u_t v)%Q /\ (u_t v + 1 <= d_t (last depth d0))%Q).
  { intros v Hv. apply filter_In in Hv. rewrite in_time_iff in Hv. tauto. }
  destruct (depth_at_spec depth timed 0 Inc (nondecreasing_filter _ _ Nd)) as [L N].
  - rewrite Ed; cbn; lia.
  - intros; lia.
  - intros v Hv. destruct (T v Hv) as (_ & A & B). exists d0, (last depth d0). split; [now rewrite Ed|].
    split; [now apply last_nth_error|]. split; lra.
  - unfold depth_kept in Hu. apply in_flat_map in Hu. destruct Hu as ([v p] & Hp & Hk). cbn in Hk.
    destruct (depth_filter v (fst p) (snd p) sigma) eqn:F; [|destruct Hk]. destruct Hk as [->|[]].
    assert (Hn : exists n, nth_error timed n = Some u /\ nth_error (depth_at depth timed 0) n = Some p).
    { clear -Hp. revert Hp. generalize (depth_at depth timed 0). induction timed as [|x l IH]; intros [|y m] H; cbn in H; try destruct H.
      - injection H as -> ->. now exists 0%nat.
      - destruct (IH m H) as (n & A & B). now exists (S n). }
    destruct Hn as (n & A & B). destruct (T u (nth_error_In _ _ A)) as (I & T1 & T2).
    split; [exact I|]. split.
    + exists d0, (last depth d0). split; [now exists dr|]. split; [now apply is_last_nth|]. now split.
    + destruct (N n u p A B) as (a & b & Ab & Br & ->). cbn in F. apply Qle_bool_iff in F.
      assert (Nab : ~ (d_t b == d_t a)%Q).
      { destruct Ab as (k & Ka & Kb). intro E. pose proof (Inc k (S k) a b ltac:(lia) Ka Kb) as K. rewrite E in K. now apply Qlt_irrefl in K. }
      exists a, b. eexists. eexists. split; [exact Ab|]. split; [exact Br|].
      split; [apply interpolate_on_line; exact Nab|]. split; [apply interpolate_on_line; exact Nab|]. exact F.
Qed.

Theorem C15_kept_only_if_depth_agrees : forall us depth sigma sigmaR speed ne a b u,
  increasing d_t depth -> nondecreasing u_t us ->
  usbl_filter us depth sigma sigmaR speed ne true = Some (a, b) -> In u b ->
  inside depth (u_t u) /\ depth_agrees depth sigma u.
Proof.
  intros us depth sigma sigmaR speed ne a b u Inc Nd H Hu. unfold usbl_filter in H.
  destruct depth as [|d0 dr]; [injection H as _ <-; destruct Hu|].
  pose proof (stage_depth us (d0 :: dr) sigma Inc Nd ltac:(discriminate) d0 dr eq_refl) as S. cbv zeta in S.
  destruct ne.
  - destruct (dist_kept _ _) eqn:E in H; [|discriminate]. injection H as _ <-.
    apply dist_kept_subseq in E. apply (S u). eapply subseq_In; eassumption.
  - injection H as _ <-. now apply (S u).
Qed.
Print Assumptions C15_kept_only_if_depth_agrees.

(** With the distance filter on, a fix is kept exactly when it has two
    neighbours on each side, among the fixes that passed the earlier stages
    (the first returned list), and the vehicle could have travelled between
    it and each of the four at the given speed. *)
Theorem C15_kept_iff_reachable : forall us depth sigma sigmaR speed don a b u,
  usbl_filter us depth sigma sigmaR speed true don = Some (a, b) ->
  (In u b <-> exists k, four_neighbours sigmaR speed a k u).
Proof.
  intros us depth sigma sigmaR speed don a b u H.
  assert (G : forall fl r, dist_kept (fun x y => distance_filter x y sigmaR speed) fl = Some r ->
    (In u r <-> exists k, four_neighbours sigmaR speed fl k u)).
  { intros fl r E. rewrite dist_kept_spec in E. injection E as <-.
    destruct (le_lt_dec (length fl) 4) as [L|L].
    - replace (length fl - 4)%nat with 0%nat by lia. split; [intros []|].
      intros (k & K & A & B). destruct (B (k + 2)%nat ltac:(tauto)) as (v & Ev & _).
      assert (k + 2 < length fl)%nat by (apply nth_error_Some; rewrite Ev; discriminate). lia.
    - rewrite kept_In by lia. split.
      + intros (i & Hi & Ei & F). exists i. split; [lia|]. split; [exact Ei|].
        intros m Hm. destruct (F m Hm) as (v & Ev & R). exists v. split; [exact Ev|now apply distance_filter_iff].
      + intros (k & K & A & B). exists k. split.
        * destruct (B (k + 2)%nat ltac:(tauto)) as (v & Ev & _).
          assert (k + 2 < length fl)%nat by (apply nth_error_Some; rewrite Ev; discriminate). lia.
        * split; [exact A|]. intros m Hm. destruct (B m Hm) as (v & Ev & R). exists v. split; [exact Ev|now apply distance_filter_iff]. }
  unfold usbl_filter in H. destruct depth as [|d0 dr].
  - injection H as <- <-. split; [intros []|]. intros (k & _ & A & _). destruct k; discriminate.
  - destruct don; (destruct (dist_kept _ _) eqn:E in H; [|discriminate]; injection H as <- <-; now apply G).
Qed.
Print Assumptions C15_kept_iff_reachable.

(** The first two and last two fixes are always lost: fewer than five fixes
    leave none. *)
Theorem C15_short_records_vanish : forall us depth sigma sigmaR speed don a b,
  (length us < 5)%nat -> usbl_filter us depth sigma sigmaR speed true don = Some (a, b) -> b = [].
Proof.
  intros us depth sigma sigmaR speed don a b L H.
  destruct b as [|u b]; [reflexivity|exfalso].
  destruct (proj1 (C15_kept_iff_reachable _ _ _ _ _ _ _ _ u H) (or_introl eq_refl)) as (k & K & A & B).
  destruct (B (k + 2)%nat ltac:(tauto)) as (v & Ev & _).
  assert (k + 2 < length a)%nat by (apply nth_error_Some; rewrite Ev; discriminate).
  destruct (C15_subsequence _ _ _ _ _ _ _ _ _ H) as [S _].
  assert (length a <= length us)%nat.
  { clear -S. induction S; cbn; lia. }
  lia.
Qed.
Print Assumptions C15_short_records_vanish.

(** A record of five fixes of a vehicle at rest: the middle one is kept. *)
Definition still (t : Q) : usbl := mkUsbl t 10 1 0 0 1 1.
Example C15_example : exists a b,
  usbl_filter [still 2; still 3; still 4; still 5; still 6] [mkDepth 0 10 0; mkDepth 100 10 0] 2 2 1 true true = Some (a, b) /\
  In (still 4) b /\ length a = 5%nat.
Proof.
  assert (E : usbl_filter [still 2; still 3; still 4; still 5; still 6] [mkDepth 0 10 0; mkDepth 100 10 0] 2 2 1 true true =
    match dist_kept (fun a b => distance_filter a b 2 1) [still 2; still 3; still 4; still 5; still 6] with
    | Some r => Some ([still 2; still 3; still 4; still 5; still 6], r) | None => None end) by (vm_compute; reflexivity).
  rewrite dist_kept_spec in E. eexists. eexists. split; [exact E|]. split; [|reflexivity].
  apply (proj2 (C15_kept_iff_reachable _ _ _ _ _ _ _ _ _ E)).
  assert (R : forall s t, reachable 2 1 (still s) (still t)).
  { intros s t. unfold reachable, dist_euc. cbn.
    assert (Z : sqrt (Rsqr (0 - 0) + Rsqr (0 - 0)) = 0%R) by (replace (Rsqr (0 - 0) + Rsqr (0 - 0))%R with 0%R by (unfold Rsqr; ring); apply sqrt_0).
    rewrite Z. pose proof (sqrt_pos (Rsqr (0 - 1) + Rsqr (0 - 1))%R). pose proof (Rabs_pos (Q2R s - Q2R t)%R). Lra.lra. }
  exists 2%nat. split; [lia|]. split; [reflexivity|].
  intros m [->|[->|[->| ->]]]; eexists; (split; [reflexivity|apply R]).
Qed.
