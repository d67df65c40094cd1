(** C21, C22, C24, C67: the particle filter. *)
From Coq Require Import Permutation Qround Reals.
From Verif Require Import PyBase InterpSpec ListFacts SortQ PfModel PfProofs PfRunProofs PfLik.
Open Scope Q_scope.

(** ** C21: weights. *)

(** The history of the weights: contents change by propagation, weights by
    measurements (each possibly followed by resampling). *)
Inductive wop (A : Type) := WMove (f : A -> A) | WMeasure (lik : A -> Q) (u : Q).
Arguments WMove {A}. Arguments WMeasure {A}.
Definition wexec {A} (o : wop A) (l : list (A * Q)) : option (list (A * Q)) :=
  match o with
  | WMove f => Some (map (fun p => (f (fst p), snd p)) l)
  | WMeasure lik u => update lik u l
  end.
Fixpoint wexecs {A} (os : list (wop A)) (l : list (A * Q)) : option (list (A * Q)) :=
  match os with [] => Some l | o :: os' => match wexec o l with Some l' => wexecs os' l' | None => None end end.
Definition likelihoods_ok {A} (os : list (wop A)) : Prop :=
  forall lik u, In (WMeasure lik u) os -> forall a, 0 <= lik a.

Lemma resample_length {A} u (l l' : list (A * Q)) : resample u l = Some l' -> length l' = length l /\ forall p, In p l' -> In p l.
Proof.
  intro H. destruct (resample_spec u l l' H) as (idx & E & F & _).
  assert (L : length idx = length l) by (apply Forall2_length in F; rewrite seq_length in F; now symmetry).
  split.
  - apply (f_equal (@length _)) in E. rewrite !map_length in E. congruence.
  - intros p Hp. apply (in_map Some) in Hp. rewrite E in Hp. apply in_map_iff in Hp. destruct Hp as (i & Hi & _).
    eapply nth_error_In; eauto.
Qed.

Lemma wexecs_ok {A} (os : list (wop A)) : forall l l', likelihoods_ok os -> (forall p, In p l -> 0 <= weight p) ->
  wexecs os l = Some l' -> length l' = length l /\ forall p, In p l' -> 0 <= weight p.
Proof.
  induction os as [|o os IH]; intros l l' LK H E; cbn in E; [injection E as <-; now split|].
  destruct (wexec o l) as [l1|] eqn:E1; [|discriminate].
  assert (S1 : length l1 = length l /\ forall p, In p l1 -> 0 <= weight p).
  { destruct o as [f|lik u]; cbn in E1.
    - injection E1 as <-. split; [apply map_length|]. intros p Hp. apply in_map_iff in Hp. destruct Hp as (q & <- & Hq). now apply (H q).
    - assert (HM : forall p, In p (measure lik l) -> 0 <= weight p)
        by (apply measure_nonneg; [exact H|apply (LK lik u); now left]).
      unfold update in E1. destruct (should_resample (measure lik l)).
      + destruct (resample_length _ _ _ E1) as [L I]. rewrite L, measure_length. split; [reflexivity|]. intros p Hp. apply HM, I, Hp.
      + injection E1 as <-. split; [apply measure_length|exact HM]. }
  destruct S1 as [L1 N1]. destruct (IH l1 l') as [L2 N2]; auto; [intros lik u I; apply (LK lik u); now right|].
  split; [congruence|exact N2].
Qed.

(** After any history, a further measurement leaves nonnegative weights that sum to
    one, provided the products of weight and likelihood do not all but vanish. *)
Theorem C21_distribution : forall (A : Type) n (prior : A) os l lik,
  likelihoods_ok os -> (forall a, 0 <= lik a) ->
  wexecs os (set_prior n prior) = Some l ->
  (1 # 100000000000000000000) <= total (map (fun p => (fst p, snd p * lik (fst p))) l) ->
  length (measure lik l) = n /\ (forall p, In p (measure lik l) -> 0 <= weight p) /\ total (measure lik l) == 1.
Proof.
  intros A n prior os l lik LK HL E T.
  assert (P0 : forall p, In p (set_prior n prior) -> 0 <= weight p).
  { intros p Hp. apply repeat_spec in Hp. subst. unfold weight; cbn [snd].
    destruct n as [|n]; [cbn; discriminate|]. apply Qle_shift_div_l; [change 0 with (inject_Z 0); rewrite <- Zlt_Qlt; lia|lra]. }
  destruct (wexecs_ok os _ l LK P0 E) as [L N]. rewrite measure_length.
  split; [rewrite L; apply repeat_length|]. split; [now apply measure_nonneg|]. now apply measure_total.
Qed.
Print Assumptions C21_distribution.

(** When they do, the weights do not sum to one; in the example they sum to less
    than a half and the computed effective sample size is too large to resample. *)
Theorem C121_sum_to_one_refuted : exists (l : list (nat * Q)) (lik : nat -> Q),
  (forall p, In p l -> 0 < weight p) /\ total l == 1 /\ (forall a, 0 < lik a) /\
  ~ total (measure lik l) == 1 /\ total (measure lik l) < 1 # 2 /\ should_resample (measure lik l) = false.
Proof.
  exists [(0%nat, 1 # 2); (1%nat, 1 # 2)], (fun _ => 1 # 1000000000000000000000).
  split; [|split; [|split; [|split; [|split]]]]; try reflexivity.
  - intros p [<-|[<-|[]]]; reflexivity.
  - vm_compute. discriminate.
Qed.
Print Assumptions C121_sum_to_one_refuted.

(** Such likelihoods do occur: all particles twenty standard deviations away. *)
Theorem C21_likelihood : forall std ox oy oz x y z, std <> 0%R ->
  (0 < likelihood std ox oy oz x y z)%R /\
  (forall x' y' z',
     ((ox - x) * (ox - x) + (oy - y) * (oy - y) + (oz - z) * (oz - z) <
      (ox - x') * (ox - x') + (oy - y') * (oy - y') + (oz - z') * (oz - z'))%R ->
     (likelihood std ox oy oz x' y' z' < likelihood std ox oy oz x y z)%R) /\
  (gaussian_pdf 0 1 20 < / 100000000000000000000)%R.
Proof.
  intros. split; [now apply likelihood_pos|]. split; [intros; now apply likelihood_closer|exact far_likelihood].
Qed.
Print Assumptions C21_likelihood.

(** No particle is lost or duplicated by a measurement, the weights are proportional
    to old weight times likelihood, and the best particle comes first. *)
Theorem C21_reordered : forall (A : Type) (lik : A -> Q) l,
  (forall p, In p l -> 0 <= weight p) -> (forall a, 0 <= lik a) ->
  Permutation (map fst l) (map fst (measure lik l)) /\
  (exists k, 0 < k /\ Permutation (measure lik l) (map (fun p => (fst p, weight p * lik (fst p) / k)) l)) /\
  forall i j p q, (i < j)%nat -> nth_error (measure lik l) i = Some p ->
    nth_error (measure lik l) j = Some q -> weight q <= weight p.
Proof.
  intros A lik l H HL. split; [apply measure_contents|]. split; [|now apply measure_sorted].
  destruct (measure_ratio lik l) as (k & K & P). exists k. split; [exact K|now apply P].
Qed.
Print Assumptions C21_reordered.

Theorem C21_neff : forall (A : Type) (l : list (A * Q)),
  (forall p, In p l -> 0 <= weight p) -> total l == 1 ->
  exists x, neff l = Some x /\ 1 <= x <= inject_Z (Z.of_nat (length l)).
Proof. intro A. exact neff_bounds. Qed.
Print Assumptions C21_neff.

Example C21_example :
  let l := measure (fun a : nat => match a with 0%nat => 1 # 10 | 1%nat => 3 # 10 | _ => 1 # 10 end)
                   (set_prior 1 7%nat ++ [(0%nat, 1); (1%nat, 2)]) in
  map fst l = [1%nat; 7%nat; 0%nat] /\ map (fun p => Qred (weight p)) l = [3 # 4; 1 # 8; 1 # 8] /\
  option_map Qred (neff l) = Some (32 # 19).
Proof. vm_compute. repeat split. Qed.

(** ** C22: systematic resampling. *)

Theorem C22_same_size_copies : forall (A : Type) u (l l' : list (A * Q)), resample u l = Some l' ->
  length l' = length l /\ forall p, In p l' -> In p l.
Proof. intro A. exact resample_length. Qed.
Print Assumptions C22_same_size_copies.

(** The i-th particle is copied floor(N w) or ceil(N w) times: [idx] lists the
    positions copied. *)
Theorem C22_proportional : forall (A : Type) u (l l' : list (A * Q)), resample u l = Some l' ->
  (forall p, In p l -> 0 <= weight p) -> total l == 1 -> 0 < u -> u < 1 ->
  exists idx, map Some l' = map (nth_error l) idx /\
    forall i p, nth_error l i = Some p ->
      let c := Z.of_nat (length (filter (Nat.eqb i) idx)) in
      c = Qfloor (inject_Z (Z.of_nat (length l)) * weight p) \/
      c = Qceiling (inject_Z (Z.of_nat (length l)) * weight p).
Proof. intro A. exact resample_count. Qed.
Print Assumptions C22_proportional.

Theorem C22_total : forall (A : Type) u (l : list (A * Q)), l <> [] -> exists l', resample u l = Some l'.
Proof. intros A u [|p l] H; [congruence|]. now eexists. Qed.
Print Assumptions C22_total.

(** With the offset 0, which uniform() can return, a particle of weight exactly 1/2
    out of two is copied twice and the other one is lost. *)
Theorem C122_zero_offset_refuted : exists (l l' : list (nat * Q)), total l == 1 /\ resample 0 l = Some l' /\
  map fst l = [0%nat; 1%nat] /\ (forall p, In p l -> inject_Z 2 * weight p == 1) /\ map fst l' = [0%nat; 0%nat].
Proof.
  exists [(0%nat, 1 # 2); (1%nat, 1 # 2)], [(0%nat, 1 # 2); (0%nat, 1 # 2)].
  repeat split. intros p [<-|[<-|[]]]; reflexivity.
Qed.
Print Assumptions C122_zero_offset_refuted.

(** The weights are copied too: they are not equal afterwards and do not sum to one. *)
Theorem C122_equal_weights_refuted : exists (l l' : list (nat * Q)) u, 0 < u < 1 /\ total l == 1 /\
  resample u l = Some l' /\ (exists p q, In p l' /\ In q l' /\ ~ weight p == weight q) /\ ~ total l' == 1.
Proof.
  exists [(0%nat, 5 # 9); (1%nat, 2 # 9); (2%nat, 2 # 9)],
         [(0%nat, 5 # 9); (0%nat, 5 # 9); (1%nat, 2 # 9)], (1 # 9).
  split; [split; reflexivity|]. split; [reflexivity|]. split; [reflexivity|]. split.
  - exists (0%nat, 5 # 9), (1%nat, 2 # 9). split; [now left|]. split; [right; right; now left|]. discriminate.
  - discriminate.
Qed.
Print Assumptions C122_equal_weights_refuted.

(** ** C24: the merge. *)

Lemma run_inv {D U} (dt : D -> Q) (ut : U -> Q) dr usbl es : pf_run dt ut dr usbl = Some es ->
  exists d dr' i fuel, dr = d :: dr' /\ first_usbl dt ut dr usbl = Some i /\
    pf_loop dt ut fuel dr (skipn i usbl) (dt d) = Some es.
Proof.
  unfold pf_run. destruct dr as [|d [|d2 dr]]; try discriminate.
  destruct (first_usbl dt ut (d :: d2 :: dr) usbl) as [i|] eqn:E; [|discriminate]. intro H.
  exists d, (d2 :: dr), i. eexists. split; [reflexivity|]. split; [first [exact E|reflexivity]|exact H].
Qed.

Lemma nd_skipn {A} (f : A -> Q) l i : nondecreasing f l -> nondecreasing f (skipn i l).
Proof.
  revert i. induction l as [|x l IH]; intros [|i] H; auto. cbn. apply IH. now apply (nd_cons_iff f) in H.
Qed.

(** Every dead-reckoning sample is used exactly once, in order; the time step of every
    event leads from the previous event to it; fixes are used at most once, in order. *)
Theorem C24_samples_once : forall (D U : Type) (dt : D -> Q) (ut : U -> Q) dr usbl es d,
  pf_run dt ut dr usbl = Some es -> is_first dr d ->
  moved es = dr /\ continuous dt ut (dt d) es /\ exists skipped unused, usbl = skipped ++ fixed es ++ unused.
Proof.
  intros D U dt ut dr usbl es d H [dr0 F]. destruct (run_inv dt ut dr usbl es H) as (d' & dr' & i & fuel & E & Ei & L).
  rewrite E in F. injection F as <- <-.
  split; [eapply loop_moved; eauto|]. split; [eapply loop_continuous; eauto|].
  destruct (loop_fixed_prefix dt ut _ _ _ _ _ L) as [rest R]. exists (firstn i usbl), rest.
  now rewrite <- R, firstn_skipn.
Qed.
Print Assumptions C24_samples_once.

(** With at least two samples and USBL starting no earlier than dead reckoning, the
    run completes, uses exactly the fixes up to the last sample, and every fix comes
    after the earlier samples and before the later (and simultaneous) ones. *)
Theorem C24_time_order : forall (D U : Type) (dt : D -> Q) (ut : U -> Q) dr usbl d u,
  nondecreasing dt dr -> nondecreasing ut usbl -> (2 <= length dr)%nat ->
  is_first dr d -> is_first usbl u -> dt d <= ut u ->
  exists es, pf_run dt ut dr usbl = Some es /\ moved es = dr /\
    fixed es = filter (fun u => match rev dr with last :: _ => Qle_bool (ut u) (dt last) | [] => false end) usbl /\
    nondecreasing (stamp dt ut) es /\ (forall e, In e es -> 0 <= step e) /\
    (forall a b u s, es = a ++ Fixed u s :: b ->
       (forall d s', In (Moved d s') a -> dt d < ut u) /\ (forall d s', In (Moved d s') b -> ut u <= dt d)).
Proof.
  intros D U dt ut dr usbl d u Sd Su L2 Fd Fu H. pose proof (first_usbl_zero dt ut dr usbl d u Fd Fu H) as E0.
  destruct Fd as [dr' ->]. destruct dr' as [|d2 dr']; [cbn in L2; lia|]. set (dr := d :: d2 :: dr') in *.
  destruct (loop_total dt ut (S (length dr + length usbl)) dr usbl (dt d)) as [es E]; [lia|].
  exists es. split; [unfold pf_run, dr; fold dr; now rewrite E0|].
  split; [eapply loop_moved; eauto|]. split; [eapply loop_fixed; eauto|].
  destruct (loop_order dt ut _ _ _ _ _ E Sd Su) as [O1 O2]. split; [exact O1|]. split; [|exact O2].
  assert (C := loop_continuous dt ut _ _ _ _ _ E).
  assert (B : forall e, In e es -> dt d <= stamp dt ut e).
  { intros [x s|x s] He; cbn.
    - apply moved_in in He. rewrite (loop_moved dt ut _ _ _ _ _ E) in He. destruct He as [<-|He]; [lra|].
      apply (nd_cons_iff dt) in Sd. now apply Sd.
    - apply fixed_in in He. destruct (loop_fixed_prefix dt ut _ _ _ _ _ E) as [rest R]. destruct Fu as [usbl' ->].
      assert (X : In x (u :: usbl')) by (rewrite R; apply in_or_app; now left). destruct X as [<-|X]; [exact H|].
      apply (nd_cons_iff ut) in Su. destruct Su as [Su _]. specialize (Su x X). lra. }
  clear - C O1 B. revert C B. generalize (dt d). induction es as [|e es IH]; intros t C B x [].
  - subst. destruct C as [C _]. specialize (B x (or_introl eq_refl)). lra.
  - destruct C as [_ C]. apply (nd_cons_iff (stamp dt ut)) in O1. destruct O1 as [O1 O2]. now apply (IH O2 _ C O1).
Qed.
Print Assumptions C24_time_order.

(** Whenever the run completes, it never goes back before the start of dead reckoning. *)
Theorem C24_no_early_fix : forall (D U : Type) (dt : D -> Q) (ut : U -> Q) dr usbl d es,
  nondecreasing dt dr -> nondecreasing ut usbl -> is_first dr d -> pf_run dt ut dr usbl = Some es ->
  forall u, In u (fixed es) -> dt d <= ut u.
Proof.
  intros D U dt ut dr usbl d es Sd Su Fd H u Hu. destruct (run_inv dt ut dr usbl es H) as (d' & dr' & i & fuel & E & Ei & L).
  destruct (loop_fixed_prefix dt ut _ _ _ _ _ L) as [rest R].
  apply (first_usbl_after dt ut dr usbl d i Sd Su Fd Ei). rewrite R. apply in_or_app. now left.
Qed.
Print Assumptions C24_no_early_fix.

(** One fix before the start of dead reckoning makes the search drop the first fix
    inside the span as well (stamps as elements). *)
Theorem C124_fix_skipped_refuted : exists dr usbl es : list Q, exists tr,
  nondecreasing (fun t => t) dr /\ nondecreasing (fun t => t) usbl /\
  pf_run (fun t => t) (fun t => t) dr usbl = Some tr /\ fixed tr = es /\
  In (3 # 2) usbl /\ is_first dr 0 /\ is_last dr 4 /\ ~ In (3 # 2) es.
Proof.
  exists [0; 1; 2; 3; 4], [-1; 3 # 2; 5 # 2], [5 # 2]. eexists.
  split; [now apply nondecreasing_chain|]. split; [now apply nondecreasing_chain|].
  split; [vm_compute; reflexivity|]. split; [reflexivity|]. split; [right; now left|].
  split; [now eexists|]. split; [now exists [0; 1; 2; 3]|]. intros [X|[]]. discriminate X.
Qed.
Print Assumptions C124_fix_skipped_refuted.

(** More early fixes than dead-reckoning samples: IndexError instead of a result. *)
Theorem C124_crash_refuted : exists dr usbl : list Q,
  nondecreasing (fun t => t) dr /\ nondecreasing (fun t => t) usbl /\ (2 <= length dr)%nat /\ usbl <> [] /\
  pf_run (fun t => t) (fun t => t) dr usbl = None.
Proof.
  exists [10; 20], [1; 2; 3; 15].
  split; [now apply nondecreasing_chain|]. split; [now apply nondecreasing_chain|].
  split; [cbn; lia|]. split; [discriminate|reflexivity].
Qed.
Print Assumptions C124_crash_refuted.

Example C24_example :
  pf_run (fun t : Q => t) (fun t : Q => t) [0; 1; 2; 3] [1; 3 # 2; 7] =
  Some [Moved 0 (0 - 0); Fixed 1 (1 - 0); Moved 1 (1 - 1); Fixed (3 # 2) ((3 # 2) - 1);
        Moved 2 (2 - (3 # 2)); Moved 3 (3 - 2)].
Proof. reflexivity. Qed.

(** ** C67: the prior. *)
Theorem C67_prior_ignores_usbl : forall north_mean east_mean north east,
  fst (prior_position north_mean east_mean north east) == north /\
  snd (prior_position north_mean east_mean north east) == east.
Proof. intros. unfold prior_position; cbn. split; ring. Qed.
Print Assumptions C67_prior_ignores_usbl.

Theorem C167_starts_at_usbl_offset_refuted : exists north_mean east_mean north east,
  ~ fst (prior_position north_mean east_mean north east) == north + north_mean.
Proof. exists 10, 0, 5, 5. vm_compute. discriminate. Qed.
Print Assumptions C167_starts_at_usbl_offset_refuted.
