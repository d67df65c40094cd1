From Verif Require Import PyBase InterpModel InterpSpec InterpProofs SortQ TideModel.
Open Scope Q_scope.

Section P.
  Context {X : Type}.
  Implicit Types tide : list (Q * Q).

  Definition same_but_depth (r r' : result X) : Prop := r_t r' = r_t r /\ r_rest r' = r_rest r.

  Lemma seek_spec tide t : increasing fst tide -> forall fuel j, (length tide <= j + fuel)%nat ->
    (j = 0 \/ j <= length tide - 2)%nat ->
    let k := seek fuel tide t j in
    (j <= k)%nat /\ (k = 0 \/ k <= length tide - 2)%nat /\
    (forall i a, (j <= i < k)%nat -> nth_error tide i = Some a -> fst a < t) /\
    ((exists a, nth_error tide k = Some a /\ t <= fst a) \/ (length tide - 2 <= k)%nat).
  Proof.
    intros HI. induction fuel as [|fuel IH]; intros j L B; cbn [seek].
    - split; [lia|]. split; [exact B|]. split; [intros; lia|]. right. lia.
    - destruct (Z.ltb_spec (Z.of_nat j) (Z.of_nat (length tide) - 2)) as [C|C].
      + destruct (nth_error tide j) as [[tj hj]|] eqn:E.
        * destruct (Qltb tj t) eqn:Q.
          -- apply Qltb_lt in Q. destruct (IH (S j)) as (K1 & K2 & K3 & K4); [lia|lia|].
             split; [lia|]. split; [exact K2|]. split; [|exact K4].
             intros i a Hi Ha. destruct (Nat.eq_dec i j) as [->|]; [|apply (K3 i a); [lia|exact Ha]].
             rewrite E in Ha. injection Ha as <-. exact Q.
          -- apply Qltb_ge in Q. split; [lia|]. split; [exact B|]. split; [intros; lia|]. left. now exists (tj, hj).
        * apply nth_error_None in E. lia.
      + split; [lia|]. split; [exact B|]. split; [intros; lia|]. right. lia.
  Qed.

  (** What happens to one result, given where the scan stands. *)
  Definition corrected tide (r r' : result X) : Prop :=
    exists a b, adjacent tide a b /\ fst a <= r_t r <= fst b /\
      on_line (fst a) (snd a) (fst b) (snd b) (r_t r) (r_depth r - r_depth r').

  Definition outcome tide (r r' : result X) : Prop :=
    same_but_depth r r' /\
    (forall first prev last, is_first tide first -> nth_error tide (length tide - 2) = Some prev -> is_last tide last ->
       (fst first < r_t r <= fst prev -> corrected tide r r') /\
       (r_t r <= fst first -> r' = r) /\ (fst prev < r_t r -> r' = r)).

  Lemma correct_one_total tide j (r : result X) : (j = 0 \/ j <= length tide - 2)%nat -> (2 <= length tide)%nat ->
    exists r', correct_one tide j r = Some r'.
  Proof.
    intros B L. destruct j as [|j]; [now eexists|]. cbn.
    destruct (nth_error tide j) as [[t1 h1]|] eqn:E1; [|apply nth_error_None in E1; lia].
    destruct tide as [|x tide]; [cbn in L; lia|].
    destruct (nth_error tide j) as [[t2 h2]|] eqn:E2; [|apply nth_error_None in E2; cbn in B; lia].
    destruct (Qle_bool (r_t r) t2); now eexists.
  Qed.

  Lemma inc_lt tide i j a b : increasing fst tide -> nth_error tide i = Some a -> nth_error tide j = Some b ->
    fst a < fst b -> (i < j)%nat.
  Proof.
    intros H Ha Hb L. destruct (Nat.lt_trichotomy i j) as [|[->|C]]; auto; exfalso.
    - rewrite Ha in Hb. injection Hb as ->. lra.
    - pose proof (H j i b a C Hb Ha). lra.
  Qed.

  Lemma correct_from_spec tide : increasing fst tide -> (2 <= length tide)%nat ->
    forall (rs : list (result X)) j, (j = 0 \/ j <= length tide - 2)%nat ->
    (forall i a r, (i < j)%nat -> nth_error tide i = Some a -> In r rs -> fst a < r_t r) ->
    nondecreasing r_t rs ->
    exists rs', correct_from tide j rs = Some rs' /\ Forall2 (outcome tide) rs rs'.
  Proof.
    intros HI HL. induction rs as [|r rs IH]; intros j B P S.
    - exists []. now split.
    - cbn [correct_from].
      destruct (seek_spec tide (r_t r) HI (length tide) j ltac:(lia) B) as (K1 & K2 & K3 & K4).
      set (k := seek (length tide) tide (r_t r) j) in *.
      assert (PK : forall i a, (i < k)%nat -> nth_error tide i = Some a -> fst a < r_t r).
      { intros i a Hi Ha. destruct (Nat.lt_ge_cases i j) as [C|C]; [apply (P i a r C Ha); now left|]. apply (K3 i a); [lia|exact Ha]. }
      destruct (correct_one_total tide k r K2 HL) as [r' E]. rewrite E.
      apply (nd_cons_iff r_t) in S. destruct S as [S1 S2].
      destruct (IH k) as (rs' & E' & F); auto.
      { intros i a q Hi Ha Hq. pose proof (PK i a Hi Ha). pose proof (S1 q Hq). lra. }
      rewrite E'. exists (r' :: rs'). split; [reflexivity|]. constructor; [|exact F].
      clear E' IH F. clearbody k. unfold correct_one in E. destruct k as [|k'].
      + injection E as <-. split; [now split|]. intros f p l [t0 Hf] Hp _.
        split; [|split; [reflexivity|reflexivity]]. intros [C1 C2]. exfalso.
        destruct K4 as [(a & Ha & La)|K4].
        * rewrite Hf in Ha. cbn in Ha. injection Ha as <-. lra.
        * assert (length tide = 2)%nat by lia. rewrite H in Hp. cbn in Hp. rewrite Hf in Hp. cbn in Hp. injection Hp as <-. lra.
      + destruct (nth_error tide k') as [[t1 h1]|] eqn:E1; [|discriminate].
        destruct (nth_error tide (S k')) as [[t2 h2]|] eqn:E2; [|discriminate].
        pose proof (PK k' (t1, h1) ltac:(lia) E1) as L1. cbn in L1.
        pose proof (HI k' (S k') _ _ ltac:(lia) E1 E2) as L12. cbn in L12.
        destruct (Qle_bool (r_t r) t2) eqn:Q.
        * apply Qle_bool_iff in Q. injection E as <-. split; [now split|]. intros f p l [t0 Hf] Hp _.
          split; [|split].
          -- intros _. exists (t1, h1), (t2, h2). split; [exists k'; now split|]. cbn. split; [lra|].
             pose proof (interpolate_on_line (r_t r) t1 t2 h1 h2) as I. unfold on_line in *.
             rewrite <- I by lra. ring.
          -- intro C. exfalso. assert (E0 : nth_error tide 0 = Some f) by now rewrite Hf.
             pose proof (PK 0%nat f ltac:(lia) E0). lra.
          -- intro C. exfalso. pose proof (inc_lt tide (length tide - 2) (S k') p (t2, h2) HI Hp E2) as Z. cbn in Z.
             specialize (Z ltac:(lra)). lia.
        * injection E as <-. split; [now split|]. intros f p l [t0 Hf] Hp _.
          assert (N : ~ r_t r <= t2) by (rewrite <- Qle_bool_iff, Q; discriminate).
          split; [|split; [reflexivity|reflexivity]]. intros [C1 C2]. exfalso.
          destruct K4 as [(a & Ha & La)|K4].
          -- first [rewrite E2 in Ha|idtac]. injection Ha as <-. cbn in La. lra.
          -- assert (S k' = length tide - 2)%nat by lia. rewrite H, Hp in E2. injection E2 as ->. cbn in C2. lra.
  Qed.

  Lemma correct_tide_spec tide (rs : list (result X)) : increasing fst tide -> (2 <= length tide)%nat ->
    nondecreasing r_t rs -> exists rs', correct_tide tide rs = Some rs' /\ Forall2 (outcome tide) rs rs'.
  Proof. intros. apply correct_from_spec; auto. intros; lia. Qed.

  (** Other fields, for any lists at all. *)
  Lemma correct_tide_keeps tide : forall (rs rs' : list (result X)), correct_tide tide rs = Some rs' ->
    Forall2 same_but_depth rs rs'.
  Proof.
    unfold correct_tide. generalize 0%nat. intros j rs. revert j.
    induction rs as [|r rs IH]; intros j rs' H; cbn in H; [injection H as <-; constructor|].
    set (k := seek _ _ _ _) in *. destruct (correct_one tide k r) as [r'|] eqn:E; [|discriminate].
    destruct (correct_from tide k rs) as [l|] eqn:E'; [|discriminate]. injection H as <-. constructor; [|eauto].
    unfold correct_one in E. destruct k; [injection E as <-; now split|].
    destruct (nth_error tide k) as [[? ?]|]; [|discriminate]. destruct (nth_error tide (S k)) as [[? ?]|]; [|discriminate].
    destruct (Qle_bool _ _); injection E as <-; now split.
  Qed.
End P.
