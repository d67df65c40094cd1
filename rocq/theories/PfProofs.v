From Coq Require Import Permutation Qround Qfield.
From Verif Require Import PyBase InterpSpec SortQ PfModel.
Open Scope Q_scope.

Lemma sq_nonneg (x : Q) : 0 <= x * x.
Proof.
  destruct (Qlt_le_dec x 0) as [H|H]; [|now apply Qmult_le_0_compat].
  setoid_replace (x * x) with ((- x) * (- x)) by ring. apply Qmult_le_0_compat; lra.
Qed.

Section W.
  Context {A : Type}.
  Implicit Types l : list (A * Q).

  Lemma total_perm l l' : Permutation l l' -> total l == total l'.
  Proof. induction 1; cbn; lra. Qed.
  Lemma total_app l l' : total (l ++ l') == total l + total l'.
  Proof. induction l as [|p l IH]; cbn; lra. Qed.
  Lemma total_nonneg l : (forall p, In p l -> 0 <= weight p) -> 0 <= total l.
  Proof.
    induction l as [|p l IH]; intro H; cbn; [lra|].
    pose proof (H p (or_introl eq_refl)). assert (0 <= total l) by (apply IH; intros; apply H; now right). lra.
  Qed.
  Lemma total_div l k : ~ k == 0 -> total (map (fun p => (fst p, weight p / k)) l) == total l / k.
  Proof.
    intro K. induction l as [|p l IH]; cbn; [field; exact K|]. rewrite IH. unfold weight; cbn. field. exact K.
  Qed.

  Lemma normalize_nonneg l : (forall p, In p l -> 0 <= weight p) ->
    forall p, In p (normalize l) -> 0 <= weight p.
  Proof.
    intros H p Hp. unfold normalize in Hp. apply in_map_iff in Hp. destruct Hp as (q & <- & Hq).
    unfold weight; cbn. pose proof (total_nonneg l H).
    assert (K : 0 < (if Qltb (total l) epsilon then total l + epsilon else total l)).
    { destruct (Qltb _ _) eqn:E; [unfold epsilon; lra|]. apply Qltb_ge in E. unfold epsilon in E. lra. }
    apply Qle_shift_div_l; [exact K|]. rewrite Qmult_0_l. now apply (H q).
  Qed.
  Lemma normalize_total l : epsilon <= total l -> total (normalize l) == 1.
  Proof.
    intro H. unfold normalize. assert (E : Qltb (total l) epsilon = false) by now apply Qltb_ge.
    rewrite E. assert (~ total l == 0) by (unfold epsilon in H; lra).
    rewrite total_div by assumption. field. assumption.
  Qed.
  Lemma normalize_small l : 0 <= total l -> total l < epsilon ->
    total (normalize l) == total l / (total l + epsilon) /\ total (normalize l) < 1 # 2.
  Proof.
    intros H0 H. unfold normalize. assert (E : Qltb (total l) epsilon = true) by now apply Qltb_lt.
    rewrite E. assert (P : 0 < total l + epsilon) by (unfold epsilon in *; lra).
    rewrite total_div by lra. split; [reflexivity|]. apply Qlt_shift_div_r; [exact P|]. lra.
  Qed.

  Definition reweighted (lik : A -> Q) l := map (fun p : A * Q => (fst p, weight p * lik (fst p))) l.

  Lemma measure_unfold lik l : exists l', Permutation (reweighted lik l) l' /\ measure lik l = normalize l' /\
    nondecreasing (fun p => - weight p) l'.
  Proof.
    exists (qsort (fun p => - weight p) (reweighted lik l)). split; [apply qsort_perm|].
    split; [reflexivity|apply qsort_sorted].
  Qed.

  Lemma reweighted_nonneg lik l : (forall p, In p l -> 0 <= weight p) -> (forall a, 0 <= lik a) ->
    forall p, In p (reweighted lik l) -> 0 <= weight p.
  Proof.
    intros H HL p Hp. apply in_map_iff in Hp. destruct Hp as (q & <- & Hq). unfold weight; cbn.
    apply Qmult_le_0_compat; [now apply (H q)|apply HL].
  Qed.

  Lemma measure_nonneg lik l : (forall p, In p l -> 0 <= weight p) -> (forall a, 0 <= lik a) ->
    forall p, In p (measure lik l) -> 0 <= weight p.
  Proof.
    intros H HL. destruct (measure_unfold lik l) as (l' & P & -> & _). apply normalize_nonneg.
    intros p Hp. apply (reweighted_nonneg lik l H HL). eapply Permutation_in; [symmetry; exact P|exact Hp].
  Qed.
  Lemma measure_total lik l : epsilon <= total (reweighted lik l) -> total (measure lik l) == 1.
  Proof.
    intro H. destruct (measure_unfold lik l) as (l' & P & -> & _). apply normalize_total.
    now rewrite <- (total_perm _ _ P).
  Qed.
  Lemma normalize_contents l : map fst (normalize l) = map fst l.
  Proof. unfold normalize. rewrite map_map. reflexivity. Qed.
  Lemma measure_contents lik l : Permutation (map fst l) (map fst (measure lik l)).
  Proof.
    destruct (measure_unfold lik l) as (l' & P & -> & _). rewrite normalize_contents.
    rewrite <- (Permutation_map fst P). unfold reweighted. rewrite map_map. reflexivity.
  Qed.
  Lemma measure_length lik l : length (measure lik l) = length l.
  Proof. pose proof (Permutation_length (measure_contents lik l)) as H. rewrite !map_length in H. now symmetry. Qed.

  Lemma measure_ratio lik l : exists k, 0 < k /\
    ((forall p, In p l -> 0 <= weight p) -> (forall a, 0 <= lik a) ->
     Permutation (measure lik l) (map (fun p => (fst p, weight p * lik (fst p) / k)) l)) .
  Proof.
    destruct (measure_unfold lik l) as (l' & P & E & _).
    set (s := total l') in *.
    destruct (Qlt_le_dec 0 (if Qltb s epsilon then s + epsilon else s)) as [K|K].
    - exists (if Qltb s epsilon then s + epsilon else s). split; [exact K|]. intros _ _.
      rewrite E. unfold normalize. fold s. rewrite <- (Permutation_map _ P).
      unfold reweighted. rewrite map_map. reflexivity.
    - exists 1. split; [lra|]. intros H HL. exfalso.
      assert (0 <= s). { unfold s. rewrite <- (total_perm _ _ P). apply total_nonneg. now apply reweighted_nonneg. }
      destruct (Qltb s epsilon) eqn:F; unfold epsilon in *; [lra|]. apply Qltb_ge in F. lra.
  Qed.

  Lemma measure_sorted lik l : (forall p, In p l -> 0 <= weight p) -> (forall a, 0 <= lik a) ->
    forall i j p q, (i < j)%nat -> nth_error (measure lik l) i = Some p ->
    nth_error (measure lik l) j = Some q -> weight q <= weight p.
  Proof.
    intros H HL i j p q L Hp Hq. destruct (measure_unfold lik l) as (l' & P & E & S).
    rewrite E in Hp, Hq. unfold normalize in Hp, Hq.
    set (norm := if Qltb (total l') epsilon then total l' + epsilon else total l') in *.
    assert (K : 0 < norm).
    { assert (0 <= total l'). { rewrite <- (total_perm _ _ P). apply total_nonneg. now apply reweighted_nonneg. }
      unfold norm. destruct (Qltb (total l') epsilon) eqn:F; unfold epsilon in *; [lra|]. apply Qltb_ge in F. lra. }
    rewrite nth_error_map in Hp, Hq.
    destruct (nth_error l' i) as [p'|] eqn:Ep; cbn in Hp; [|discriminate Hp].
    destruct (nth_error l' j) as [q'|] eqn:Eq; cbn in Hq; [|discriminate Hq].
    injection Hp as <-. injection Hq as <-. unfold weight; cbn.
    pose proof (S i j p' q' L Ep Eq) as O. cbv beta in O. unfold weight in O.
    unfold Qdiv. apply Qmult_le_compat_r; [lra|]. apply Qlt_le_weak, Qinv_lt_0_compat; exact K.
  Qed.

  (** Effective sample size. *)
  Lemma sum_sq_le_total l : (forall p, In p l -> 0 <= weight p) -> forall c, (forall p, In p l -> weight p <= c) ->
    0 <= sum_sq l /\ sum_sq l <= c * total l.
  Proof.
    intros H c HC. induction l as [|p l IH]; cbn; [lra|].
    destruct IH as [I1 I2]; [intros; apply H; now right|intros; apply HC; now right|].
    pose proof (H p (or_introl eq_refl)). pose proof (HC p (or_introl eq_refl)). split; nra.
  Qed.
  Lemma weight_le_total l p : (forall q, In q l -> 0 <= weight q) -> In p l -> weight p <= total l.
  Proof.
    induction l as [|q l IH]; intros H []; cbn.
    - subst. assert (0 <= total l) by (apply total_nonneg; intros; apply H; now right). lra.
    - pose proof (H q (or_introl eq_refl)). assert (weight p <= total l) by (apply IH; [intros; apply H; now right|assumption]). lra.
  Qed.
  Lemma cauchy l : total l * total l <= inject_Z (Z.of_nat (length l)) * sum_sq l.
  Proof.
    assert (G : forall l c, 2 * c * total l <= inject_Z (Z.of_nat (length l)) * (c * c) + sum_sq l).
    { clear l. intros l c. induction l as [|p l IH]; cbn [length total sum_sq]; [change (inject_Z (Z.of_nat 0)) with 0; lra|].
      rewrite Nat2Z.inj_succ, <- Z.add_1_r, inject_Z_plus.
      change (inject_Z 1) with 1. 
      set (n := inject_Z _) in *. set (w := weight p) in *. set (T := total l) in *. set (S := sum_sq l) in *.
      pose proof (sq_nonneg (c - w)).
      setoid_replace (2 * c * (w + T)) with (2 * c * w + 2 * c * T) by ring.
      setoid_replace ((n + 1) * (c * c) + (w * w + S)) with (2 * c * w + (c - w) * (c - w) + (n * (c * c) + S)) by ring.
      lra. }
    induction l as [|p l IH]; cbn [length total sum_sq]; [change (inject_Z (Z.of_nat 0)) with 0; lra|].
    specialize (G l (weight p)).
    rewrite Nat2Z.inj_succ, <- Z.add_1_r, inject_Z_plus. change (inject_Z 1) with 1.
    set (n := inject_Z _) in *. set (w := weight p) in *. set (T := total l) in *. set (S := sum_sq l) in *.
    setoid_replace ((w + T) * (w + T)) with (w * w + 2 * w * T + T * T) by ring.
    setoid_replace ((n + 1) * (w * w + S)) with (w * w + (n * (w * w) + S) + n * S) by ring. lra.
  Qed.
  Lemma neff_bounds l : (forall p, In p l -> 0 <= weight p) -> total l == 1 ->
    exists x, neff l = Some x /\ 1 <= x <= inject_Z (Z.of_nat (length l)).
  Proof.
    intros H T. pose proof (cauchy l) as C. rewrite T in C.
    destruct (sum_sq_le_total l H (total l) (fun p => weight_le_total l p H)) as [S0 S1]. rewrite T in S1.
    assert (N : 0 <= inject_Z (Z.of_nat (length l))) by (change 0 with (inject_Z 0); rewrite <- Zle_Qle; lia).
    assert (P : 0 < sum_sq l) by (destruct (Qlt_le_dec 0 (sum_sq l)); [assumption|nra]).
    unfold neff. destruct (Qeq_bool (sum_sq l) 0) eqn:E; [apply Qeq_bool_iff in E; lra|].
    eexists. split; [reflexivity|]. split.
    - apply Qle_shift_div_l; [exact P|lra].
    - apply Qle_shift_div_r; [exact P|lra].
  Qed.

  (** ** Resampling. *)
  Definition cumulative l (i : nat) : Q := total (firstn (S i) l).

  Lemma firstn_S_nth l i p : nth_error l i = Some p -> firstn (S i) l = firstn i l ++ [p].
  Proof.
    revert i. induction l as [|q l IH]; intros [|i] H; try discriminate.
    - cbn. injection H as ->. reflexivity.
    - cbn in H. change (q :: firstn (S i) l = q :: (firstn i l ++ [p])). now rewrite (IH i H).
  Qed.
  Lemma cumulative_S l i p : nth_error l (S i) = Some p -> cumulative l (S i) == cumulative l i + weight p.
  Proof. intro H. unfold cumulative. rewrite (firstn_S_nth l (S i) p H), total_app. cbn. lra. Qed.
  Lemma cumulative_le l i j : (forall p, In p l -> 0 <= weight p) -> (i <= j)%nat -> cumulative l i <= cumulative l j.
  Proof.
    intros H L. induction L as [|j L IH]; [lra|].
    destruct (nth_error l (S j)) as [p|] eqn:E.
    - rewrite (cumulative_S l j p E). pose proof (H p (nth_error_In _ _ E)). lra.
    - apply nth_error_None in E. unfold cumulative in *. rewrite !(firstn_all2 (n := S (S j))) by lia.
      rewrite !(firstn_all2 (n := S j)) in IH by lia. exact IH.
  Qed.
  Lemma cumulative_last l : l <> [] -> cumulative l (length l - 1) == total l.
  Proof.
    intro H. unfold cumulative. rewrite firstn_all2; [lra|]. destruct l; [congruence|cbn; lia].
  Qed.

  (** The position of [reach] in the list. *)
  Lemma skipn_S_nth (l : list (A * Q)) i p rest : skipn (S i) l = p :: rest ->
    nth_error l (S i) = Some p /\ rest = skipn (S (S i)) l.
  Proof.
    revert i. induction l as [|q l IH]; intros i H; [destruct i; discriminate|].
    cbn [skipn] in H. destruct i as [|i].
    - cbn in H. destruct l as [|q' l]; [discriminate|]. injection H as -> ->. now split.
    - destruct (IH i H) as [I1 I2]. split; [exact I1|]. exact I2.
  Qed.

  Lemma reach_spec l target : forall rest i cum cur,
    nth_error l i = Some cur -> rest = skipn (S i) l -> cum == cumulative l i ->
    exists i' cum' cur', reach target cum cur rest = (cum', cur', skipn (S i') l) /\
      (i <= i')%nat /\ nth_error l i' = Some cur' /\ cum' == cumulative l i' /\
      (forall k, (i <= k < i')%nat -> cumulative l k < target) /\
      (target <= cumulative l i' \/ i' = (length l - 1)%nat).
  Proof.
    induction rest as [|p rest IH]; intros i cum cur Hc Hr Hcum; cbn [reach].
    - exists i, cum, cur. assert (L : (length l <= S i)%nat).
      { destruct (Nat.le_gt_cases (length l) (S i)) as [L|L]; [exact L|]. exfalso.
        assert (X : length (skipn (S i) l) = 0%nat) by now rewrite <- Hr. rewrite skipn_length in X. lia. }
      assert (L2 : (i < length l)%nat) by (apply nth_error_Some; congruence).
      rewrite <- Hr. split; [now destruct (Qltb _ _)|]. repeat split; auto; try lia; try (intros; lia).
    - destruct (Qltb cum target) eqn:E.
      + symmetry in Hr. destruct (skipn_S_nth _ _ _ _ Hr) as [Hn Hr'].
        apply Qltb_lt in E.
        destruct (IH (S i) (cum + weight p) p Hn Hr') as (i' & cum' & cur' & R & L & N & C & B & T).
        { rewrite (cumulative_S l i p Hn). lra. }
        exists i', cum', cur'. repeat split; auto; try lia.
        intros k K. destruct (Nat.eq_dec k i) as [->|]; [lra|]. apply B. lia.
      + apply Qltb_ge in E. exists i, cum, cur. rewrite Hr. repeat split; auto; try lia; try (intros; lia).
        left. lra.
  Qed.

  (** Which source index destination [d] gets. *)
  Definition picks l (start inv : Q) (d i : nat) : Prop :=
    (i < length l)%nat /\
    (forall k, (k < i)%nat -> cumulative l k < start + inv * inject_Z (Z.of_nat d)) /\
    (start + inv * inject_Z (Z.of_nat d) <= cumulative l i \/ i = (length l - 1)%nat).

  Lemma draw_spec l start inv : 0 <= inv -> forall n d i cum cur,
    nth_error l i = Some cur -> cum == cumulative l i ->
    (forall k, (k < i)%nat -> cumulative l k < start + inv * inject_Z (Z.of_nat d)) ->
    exists idx, map Some (draw start inv n d cum cur (skipn (S i) l)) = map (nth_error l) idx /\
      Forall2 (picks l start inv) (seq d n) idx /\
      (forall j, In j idx -> (i <= j)%nat) /\
      (forall a b x y, (a < b)%nat -> nth_error idx a = Some x -> nth_error idx b = Some y -> (x <= y)%nat).
  Proof.
    intros HI. induction n as [|n IH]; intros d i cum cur Hn Hc HK; cbn [draw].
    - exists []. split; [reflexivity|]. split; [constructor|]. split; [intros j []|]. intros [|a] b x y _ Ha; discriminate.
    - destruct (reach_spec l (start + inv * inject_Z (Z.of_nat d)) (skipn (S i) l) i cum cur Hn eq_refl Hc)
        as (i' & cum' & cur' & R & L & N & C & B & T).
      rewrite R.
      assert (HK' : forall k, (k < i')%nat -> cumulative l k < start + inv * inject_Z (Z.of_nat d)).
      { intros k K. destruct (Nat.lt_ge_cases k i); [now apply HK|]. apply B. lia. }
      destruct (IH (S d) i' cum' cur' N C) as (idx & E & F & G & M).
      { intros k K. eapply Qlt_le_trans; [now apply HK'|].
        rewrite Nat2Z.inj_succ, <- Z.add_1_r, inject_Z_plus. change (inject_Z 1) with 1. nra. }
      exists (i' :: idx). split; [cbn [map]; now rewrite E, N|]. split; [|split].
      + cbn [seq]. constructor; [|exact F]. split; [apply nth_error_Some; congruence|]. now split.
      + intros j [<-|J]; [exact L|]. specialize (G j J). lia.
      + intros [|a] [|b] x y L' X Y; try lia; cbn in X, Y.
        * injection X as <-. apply G. eapply nth_error_In; eauto.
        * apply (M a b); auto; lia.
  Qed.

  Lemma map_Some_inj {B} (l l' : list B) : map Some l = map Some l' -> l = l'.
  Proof. revert l'. induction l as [|x l IH]; intros [|y l'] H; try discriminate; [reflexivity|]. cbn in H. injection H as -> H. f_equal. now apply IH. Qed.

  Lemma resample_spec u l l' : resample u l = Some l' ->
    exists idx, map Some l' = map (nth_error l) idx /\
      Forall2 (picks l (u * (1 / inject_Z (Z.of_nat (length l)))) (1 / inject_Z (Z.of_nat (length l))))
              (seq 0 (length l)) idx /\
      (forall a b x y, (a < b)%nat -> nth_error idx a = Some x -> nth_error idx b = Some y -> (x <= y)%nat).
  Proof.
    destruct l as [|p rest]; [discriminate|]. cbn [resample]. intro H. injection H as <-.
    set (l := p :: rest) in *. set (inv := 1 / inject_Z (Z.of_nat (length l))).
    assert (P : 0 < inject_Z (Z.of_nat (length l))) by (change 0 with (inject_Z 0); rewrite <- Zlt_Qlt; cbn; lia).
    assert (HI : 0 <= inv) by (apply Qle_shift_div_l; lra).
    destruct (draw_spec l (u * inv) inv HI (length l) 0 0 (0 + weight p) p) as (idx & E & F & _ & M).
    - reflexivity.
    - unfold cumulative. cbn. lra.
    - intros k K. lia.
    - exists idx. split; [exact E|]. split; [exact F|exact M].
  Qed.
End W.

(** Counting. *)
Lemma count_filter {B} (f : nat -> bool) (test : B -> bool) : forall (ds : list B) (idx : list nat),
  Forall2 (fun d j => f j = test d) ds idx -> length (filter f idx) = length (filter test ds).
Proof. induction 1 as [|d j ds idx E F IH]; [reflexivity|]. cbn. rewrite E. destruct (test d); cbn; lia. Qed.

Lemma count_le n z : (-1 <= z)%Z -> (z < Z.of_nat n)%Z ->
  Z.of_nat (length (filter (fun d => (Z.of_nat d <=? z)%Z) (seq 0 n))) = (z + 1)%Z.
Proof.
  revert z. induction n as [|n IH]; intros z H1 H2; [cbn in *; lia|].
  rewrite seq_S, filter_app, app_length. cbn [filter plus].
  destruct (Z.leb_spec (Z.of_nat n) z).
  - assert (E : z = Z.of_nat n) by lia. subst z.
    assert (G : filter (fun d => (Z.of_nat d <=? Z.of_nat n)%Z) (seq 0 n) = seq 0 n).
    { assert (W : forall l, (forall d, In d l -> (d <= n)%nat) -> filter (fun d => (Z.of_nat d <=? Z.of_nat n)%Z) l = l).
      { induction l as [|d l IHl]; intro Hl; [reflexivity|]. cbn.
        destruct (Z.leb_spec (Z.of_nat d) (Z.of_nat n)).
        - f_equal. apply IHl. intros; apply Hl; now right.
        - specialize (Hl d (or_introl eq_refl)). lia. }
      apply W. intros d Hd. apply in_seq in Hd. lia. }
    rewrite G, seq_length. cbn. lia.
  - rewrite Nat2Z.inj_add, IH by lia. cbn. lia.
Qed.

Lemma Forall2_impl {B C} (P P' : B -> C -> Prop) l l' : (forall x y, P x y -> P' x y) -> Forall2 P l l' -> Forall2 P' l l'.
Proof. intros H. induction 1; constructor; auto. Qed.
Lemma Forall2_length {B C} (P : B -> C -> Prop) l l' : Forall2 P l l' -> length l = length l'.
Proof. induction 1; cbn; auto. Qed.
Lemma Forall2_In_l {B C} (P : B -> C -> Prop) l l' : Forall2 P l l' -> Forall2 (fun x y => In x l /\ P x y) l l'.
Proof.
  induction 1 as [|x y l l' H F IH]; constructor; [split; [now left|exact H]|].
  eapply Forall2_impl; [|exact IH]. intros a b [H1 H2]. split; [now right|exact H2].
Qed.

Lemma filter_diff {B} (p q : B -> bool) l : (forall x, In x l -> q x = true -> p x = true) ->
  (length (filter (fun x => p x && negb (q x)) l) + length (filter q l) = length (filter p l))%nat.
Proof.
  induction l as [|x l IH]; intro H; [reflexivity|]. cbn.
  assert (I := IH (fun y Hy => H y (or_intror Hy))). specialize (H x (or_introl eq_refl)).
  destruct (p x), (q x); cbn; lia.
Qed.

Lemma floor_diff a b : 
  (Qfloor (a + b) - Qfloor a = Qfloor b)%Z \/ (Qfloor (a + b) - Qfloor a = Qceiling b)%Z.
Proof.
  pose proof (Qfloor_le (a + b)) as H1. pose proof (Qlt_floor (a + b)) as H2.
  pose proof (Qfloor_le a) as H3. pose proof (Qlt_floor a) as H4.
  pose proof (Qfloor_le b) as H5. pose proof (Qlt_floor b) as H6.
  pose proof (Qle_ceiling b) as H7. pose proof (Qceiling_lt b) as H8.
  set (x := Qfloor (a + b)) in *. set (y := Qfloor a) in *. set (z := Qfloor b) in *. set (c := Qceiling b) in *.
  rewrite inject_Z_plus in H2, H4, H6. change (inject_Z 1) with 1 in *.
  assert (L1 : (y + z <= x)%Z).
  { apply Z.lt_succ_r. rewrite Zlt_Qlt, inject_Z_plus. unfold Z.succ. rewrite inject_Z_plus. change (inject_Z 1) with 1. lra. }
  assert (L2 : (x < y + z + 2)%Z).
  { rewrite Zlt_Qlt, !inject_Z_plus. change (inject_Z 2) with 2. lra. }
  destruct (Z.eq_dec x (y + z)) as [E|E]; [left; lia|]. assert (E' : x = (y + z + 1)%Z) by lia.
  right. assert (c = z + 1)%Z; [|lia].
  assert (B : (c < z + 2)%Z).
  { rewrite Zlt_Qlt, inject_Z_plus. change (inject_Z 2) with 2. replace (c - 1)%Z with (c + -1)%Z in H8 by lia.
    rewrite inject_Z_plus in H8. change (inject_Z (-1)) with (-1) in H8. lra. }
  assert (B2 : (z <= c)%Z) by (apply Z.lt_succ_r; rewrite Zlt_Qlt; unfold Z.succ; rewrite inject_Z_plus; change (inject_Z 1) with 1; lra).
  destruct (Z.eq_dec c z) as [Ec|]; [|lia]. exfalso.
  (* b is an integer, so the floors add up *)
  rewrite Ec in H7. assert (Eb : b == inject_Z z) by lra.
  assert (x < y + z + 1)%Z; [|lia]. rewrite Zlt_Qlt, !inject_Z_plus. change (inject_Z 1) with 1. lra.
Qed.

Section Count.
  Context {A : Type}.
  Implicit Types l : list (A * Q).

  Lemma cumulative_pred l i p : nth_error l i = Some p ->
    cumulative l i == total (firstn i l) + weight p.
  Proof. intro H. unfold cumulative. rewrite (firstn_S_nth l i p H), total_app. cbn. lra. Qed.

  Lemma firstn_total_bounds l i : (forall p, In p l -> 0 <= weight p) -> 0 <= total (firstn i l) <= total l.
  Proof.
    intro H. rewrite <- (firstn_skipn i l) at 3. rewrite total_app.
    assert (0 <= total (firstn i l)) by (apply total_nonneg; intros p Hp; apply H; rewrite <- (firstn_skipn i l); apply in_or_app; now left).
    assert (0 <= total (skipn i l)) by (apply total_nonneg; intros p Hp; apply H; rewrite <- (firstn_skipn i l); apply in_or_app; now right).
    lra.
  Qed.

  Lemma le_floor (d : nat) q : inject_Z (Z.of_nat d) <= q <-> (Z.of_nat d <= Qfloor q)%Z.
  Proof.
    split; intro H.
    - pose proof (Qfloor_resp_le _ _ H) as F. now rewrite Qfloor_Z in F.
    - eapply Qle_trans; [|apply Qfloor_le]. now rewrite <- Zle_Qle.
  Qed.

  Lemma resample_count u l l' : resample u l = Some l' ->
    (forall p, In p l -> 0 <= weight p) -> total l == 1 -> 0 < u -> u < 1 ->
    exists idx, map Some l' = map (nth_error l) idx /\
      forall i p, nth_error l i = Some p ->
        let c := Z.of_nat (length (filter (Nat.eqb i) idx)) in
        c = Qfloor (inject_Z (Z.of_nat (length l)) * weight p) \/
        c = Qceiling (inject_Z (Z.of_nat (length l)) * weight p).
  Proof.
    intros HR HP HT U0 U1. destruct (resample_spec u l l' HR) as (idx & E & F & _).
    exists idx. split; [exact E|]. intros i p Hp. cbn zeta.
    assert (Hne : l <> []) by (destruct l; [discriminate HR|congruence]).
    assert (Li : (i < length l)%nat) by (apply nth_error_Some; congruence).
    set (N := inject_Z (Z.of_nat (length l))) in *.
    assert (PN : 0 < N) by (unfold N; change 0 with (inject_Z 0); rewrite <- Zlt_Qlt; lia).
    assert (HI : 0 < 1 / N) by (apply Qlt_shift_div_l; lra).
    (* targets below c *)
    assert (TB : forall d c, u * (1 / N) + 1 / N * inject_Z (Z.of_nat d) <= c <->
                             (Z.of_nat d <= Qfloor (N * c - u))%Z).
    { intros d c. rewrite <- le_floor.
      setoid_replace (u * (1 / N) + 1 / N * inject_Z (Z.of_nat d)) with ((u + inject_Z (Z.of_nat d)) / N) by (field; lra).
      split; intro H.
      - assert (u + inject_Z (Z.of_nat d) <= N * c); [|lra].
        setoid_replace (u + inject_Z (Z.of_nat d)) with ((u + inject_Z (Z.of_nat d)) / N * N) by (field; lra).
        rewrite (Qmult_comm N c). apply Qmult_le_compat_r; [exact H|lra].
      - apply Qle_shift_div_r; [exact PN|]. lra. }
    set (lo := total (firstn i l)). set (hi := cumulative l i).
    assert (HH : hi == lo + weight p) by now apply cumulative_pred.
    assert (Blo : 0 <= lo <= 1) by (rewrite <- HT; now apply firstn_total_bounds).
    assert (Bhi : 0 <= hi <= 1) by (rewrite <- HT; now apply firstn_total_bounds).
    assert (FL : forall c, 0 <= c <= 1 -> (-1 <= Qfloor (N * c - u) < Z.of_nat (length l))%Z).
    { intros c [C0 C1]. split.
      - replace (-1)%Z with (Qfloor (-1)) by reflexivity. apply Qfloor_resp_le. assert (0 <= N * c) by (apply Qmult_le_0_compat; lra). lra.
      - rewrite Zlt_Qlt. eapply Qle_lt_trans; [apply Qfloor_le|]. fold N. assert (c * N <= 1 * N) by (apply Qmult_le_compat_r; lra). lra. }
    rewrite (count_filter (Nat.eqb i)
      (fun d => (Z.of_nat d <=? Qfloor (N * hi - u))%Z && negb (Z.of_nat d <=? Qfloor (N * lo - u))%Z) (seq 0 (length l)) idx).
    - pose proof (filter_diff (fun d => (Z.of_nat d <=? Qfloor (N * hi - u))%Z)
        (fun d => (Z.of_nat d <=? Qfloor (N * lo - u))%Z) (seq 0 (length l))) as D.
      assert (M : (Qfloor (N * lo - u) <= Qfloor (N * hi - u))%Z).
      { apply Qfloor_resp_le. rewrite HH. pose proof (HP p (nth_error_In _ _ Hp)) as W0.
        assert (0 <= N * weight p) by (apply Qmult_le_0_compat; lra). lra. }
      assert (D' : forall x, In x (seq 0 (length l)) -> (Z.of_nat x <=? Qfloor (N * lo - u))%Z = true ->
                             (Z.of_nat x <=? Qfloor (N * hi - u))%Z = true).
      { intros x _ X. apply Z.leb_le in X. apply Z.leb_le. lia. }
      specialize (D D'). apply (f_equal Z.of_nat) in D. rewrite Nat2Z.inj_add in D.
      pose proof (FL lo Blo). pose proof (FL hi Bhi).
      rewrite (count_le _ (Qfloor (N * lo - u))), (count_le _ (Qfloor (N * hi - u))) in D by lia.
      assert (W : N * hi - u == (N * lo - u) + N * weight p) by (rewrite HH; ring).
      pose proof (Qfloor_comp _ _ W) as W'.
      destruct (floor_diff (N * lo - u) (N * weight p)) as [X|X]; [left|right]; lia.
    - eapply Forall2_impl; [|exact (Forall2_In_l _ _ _ F)]. intros d j (Ld & Lj & K1 & K2). apply in_seq in Ld.
      assert (TJ : u * (1 / N) + 1 / N * inject_Z (Z.of_nat d) <= cumulative l j).
      { destruct K2 as [K2|Ej]; [exact K2|]. rewrite Ej, cumulative_last, HT by assumption.
        apply TB. apply le_floor.
        assert (inject_Z (Z.of_nat d) + 1 <= N); [|lra]. unfold N. change 1 with (inject_Z 1).
        rewrite <- inject_Z_plus, <- Zle_Qle. lia. }
      symmetry. destruct (Nat.eqb_spec i j) as [<-|NE].
      + apply andb_true_intro. split; [apply Z.leb_le; now apply TB|].
        apply Bool.negb_true_iff, Z.leb_gt.
        apply Z.nle_gt. rewrite <- TB. unfold lo. destruct i as [|i].
        * cbn [firstn total]. apply Qlt_not_le.
          assert (0 <= inject_Z (Z.of_nat d)) by (change 0 with (inject_Z 0); rewrite <- Zle_Qle; lia).
          assert (0 < u * (1 / N)) by (apply Qmult_lt_0_compat; assumption).
          assert (0 <= 1 / N * inject_Z (Z.of_nat d)) by (apply Qmult_le_0_compat; lra). lra.
        * apply Qlt_not_le. apply (K1 i). lia.
      + apply Bool.andb_false_iff. destruct (Nat.lt_ge_cases j i) as [L|L].
        * right. apply Bool.negb_false_iff, Z.leb_le, TB. eapply Qle_trans; [exact TJ|].
          destruct i as [|i]; [lia|]. unfold lo. change (cumulative l j <= cumulative l i).
          apply cumulative_le; [exact HP|lia].
        * left. apply Z.leb_gt, Z.nle_gt. rewrite <- TB. apply Qlt_not_le. apply (K1 i). lia.
  Qed.
End Count.
