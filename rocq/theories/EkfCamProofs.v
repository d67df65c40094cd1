From Verif Require Import PyBase InterpModel InterpSpec InterpProofs UsblSpec EkfCamModel.
Open Scope Q_scope.

Section Cam.
  Variables (C E : Type) (ct : C -> Q) (et : E -> Q).
  Notation pair_up := (pair_up C E ct et).

  Lemma pair_total fuel : forall cams ekf, (length cams + length ekf < fuel)%nat -> exists r, pair_up fuel cams ekf = Some r.
  Proof.
    induction fuel as [|fuel IH]; intros cams ekf H; [lia|]. cbn.
    destruct cams as [|c cams]; [eauto|]. destruct ekf as [|e ekf]; [eauto|]. cbn in H.
    destruct (Qltb (ct c) (et e)); [apply IH; cbn; lia|]. destruct (Qltb (et e) (ct c)); [apply IH; cbn; lia|].
    destruct (IH cams ekf) as [r Hr]; [lia|]. rewrite Hr. cbn. eauto.
  Qed.

  Lemma pair_sound fuel : forall cams ekf r, pair_up fuel cams ekf = Some r ->
    subseq (map fst r) cams /\ subseq (map snd r) ekf /\ forall c e, In (c, e) r -> ct c == et e.
  Proof.
    induction fuel as [|fuel IH]; intros cams ekf r H; [discriminate|]. cbn in H.
    destruct cams as [|c cams]; [injection H as <-; cbn; split; [apply sub_nil|split; [apply sub_nil|intros ? ? []]]|].
    destruct ekf as [|e ekf]; [injection H as <-; cbn; split; [apply sub_nil|split; [apply sub_nil|intros ? ? []]]|].
    destruct (Qltb (ct c) (et e)) eqn:A.
    { destruct (IH _ _ _ H) as [S1 [S2 S3]]. repeat split; auto. now apply sub_skip. }
    destruct (Qltb (et e) (ct c)) eqn:B.
    { destruct (IH _ _ _ H) as [S1 [S2 S3]]. repeat split; auto. now apply sub_skip. }
    destruct (pair_up fuel cams ekf) as [r'|] eqn:R; [|discriminate]. injection H as <-.
    destruct (IH _ _ _ R) as [S1 [S2 S3]]. cbn. repeat split; try (now apply sub_keep).
    intros c' e' [X|X]; [injection X as <- <-|now apply S3].
    apply Qltb_ge in A, B. lra.
  Qed.

  Lemma inc_cons {A} (f : A -> Q) a l : increasing f (a :: l) -> increasing f l /\ forall b, In b l -> f a < f b.
  Proof.
    intro H. split.
    - intros i j x y L X Y. apply (H (S i) (S j) x y); [lia|exact X|exact Y].
    - intros b B. apply In_nth_error in B. destruct B as [n N]. apply (H 0%nat (S n) a b); [lia|reflexivity|exact N].
  Qed.

  Lemma nd_cons {A} (f : A -> Q) a l : nondecreasing f (a :: l) -> nondecreasing f l /\ forall b, In b l -> f a <= f b.
  Proof.
    intro H. split.
    - intros i j x y L X Y. apply (H (S i) (S j) x y); [lia|exact X|exact Y].
    - intros b B. apply In_nth_error in B. destruct B as [n N]. apply (H 0%nat (S n) a b); [lia|reflexivity|exact N].
  Qed.

  (** [e] is the first state at the time of image [c]. *)
  Definition first_at (ekf : list E) (c : C) (e : E) : Prop :=
    exists a b, ekf = a ++ e :: b /\ et e == ct c /\ forall x, In x a -> ~ et x == ct c.

  Lemma pair_complete fuel : forall cams ekf r, increasing ct cams -> nondecreasing et ekf ->
    pair_up fuel cams ekf = Some r -> forall c e, In c cams -> first_at ekf c e -> In (c, e) r.
  Proof.
    induction fuel as [|fuel IH]; intros cams ekf r HC HE H c e Hc He; [discriminate|]. cbn in H.
    destruct cams as [|c0 cams]; [destruct Hc|].
    destruct ekf as [|e0 ekf]; [destruct He as (a & b & X & _); destruct a; discriminate|].
    destruct (inc_cons _ _ _ HC) as [HC' HC0]. destruct (nd_cons _ _ _ HE) as [HE' HE0].
    assert (Hcc : ct c0 <= ct c) by (destruct Hc as [->|Hc]; [lra|apply HC0 in Hc; lra]).
    destruct (Qltb (ct c0) (et e0)) eqn:A.
    { apply Qltb_lt in A. apply (IH cams (e0 :: ekf) r HC' HE H); [|exact He].
      destruct Hc as [<-|Hc]; [exfalso|exact Hc].
      destruct He as (a & b & X & Y & _).
      assert (I : In e (e0 :: ekf)) by (rewrite X; apply in_or_app; right; now left).
      destruct I as [->|I]; [lra|]. apply HE0 in I. lra. }
    apply Qltb_ge in A.
    destruct (Qltb (et e0) (ct c0)) eqn:B.
    { apply Qltb_lt in B. apply (IH (c0 :: cams) ekf r HC HE' H); [exact Hc|].
      destruct He as (a & b & X & Y & Z). destruct a as [|a0 a].
      - injection X as -> ->. lra.
      - injection X as -> X. exists a, b. split; [exact X|split; [exact Y|]]. intros x Hx. apply Z. now right. }
    apply Qltb_ge in B. destruct (pair_up fuel cams ekf) as [r'|] eqn:R; [|discriminate]. injection H as <-.
    destruct He as (a & b & X & Y & Z). destruct Hc as [<-|Hc].
    - destruct a as [|a0 a]; [injection X as <- <-; now left|].
      injection X as <- X. exfalso. apply (Z e0); [now left|lra].
    - right. apply (IH cams ekf r' HC' HE' R); [exact Hc|]. pose proof (HC0 _ Hc) as L.
      destruct a as [|a0 a]; [injection X as -> ->; lra|]. injection X as -> X.
      exists a, b. split; [exact X|split; [exact Y|]]. intros x Hx. apply Z. now right.
  Qed.
End Cam.

(** Altitudes. *)
Lemma advance_spec fuel : forall dr t idx, (length dr <= fuel + idx)%nat ->
  let r := advance fuel dr t idx in (idx <= r)%nat /\
  (forall k p, (idx <= k < r)%nat -> nth_error dr k = Some p -> fst p < t) /\
  (forall p, nth_error dr r = Some p -> t <= fst p) /\ (r <= Nat.max idx (length dr))%nat.
Proof.
  induction fuel as [|fuel IH]; intros dr t idx L r.
  - cbn in r. subst r. assert (N : nth_error dr idx = None) by (apply nth_error_None; lia).
    split; [lia|split; [intros; lia|split; [intros p Hp; congruence|lia]]].
  - cbn in r. destruct (nth_error dr idx) as [[ta al]|] eqn:N.
    + assert (idx < length dr)%nat by (apply nth_error_Some; congruence).
      destruct (Qltb ta t) eqn:B.
      * destruct (IH dr t (S idx) ltac:(lia)) as (H1 & H2 & H3 & H4). fold r in H1, H2, H3, H4.
        split; [lia|]. split; [|split; [exact H3|lia]].
        intros k p K P. destruct (Nat.eq_dec k idx) as [->|D]; [|apply (H2 k p); [lia|exact P]].
        rewrite N in P. injection P as <-. now apply Qltb_lt.
      * subst r. split; [lia|split; [intros; lia|split; [|lia]]]. intros p P. rewrite N in P. injection P as <-. now apply Qltb_ge.
    + subst r. split; [lia|split; [intros; lia|split; [congruence|lia]]].
Qed.

Definition bracketed (dr : list (Q * Q)) (t a : Q) : Prop :=
  exists p q, adjacent dr p q /\ fst p <= t <= fst q /\ on_line (fst p) (snd p) (fst q) (snd q) t a.

Lemma altitudes_spec dr t0 tn : increasing fst dr -> (2 <= length dr)%nat ->
  (exists a, nth_error dr 0 = Some (t0, a)) -> (exists a, nth_error dr (length dr - 1) = Some (tn, a)) ->
  forall ts idx, (1 <= idx < length dr)%nat -> nondecreasing (fun t => t) ts ->
    (forall t, In t ts -> t0 <= t <= tn) ->
    (forall t p, In t ts -> nth_error dr (idx - 1) = Some p -> fst p <= t) ->
    exists r, altitudes dr ts idx = Some r /\ Forall2 (bracketed dr) ts r.
Proof.
  intros HI HL [a0 H0] [an Hn]. induction ts as [|t ts IH]; intros idx Hidx HT HR HP.
  { exists []. split; [reflexivity|constructor]. }
  destruct (nd_cons _ _ _ HT) as [HT' HT0]. cbn.
  destruct (advance_spec (length dr) dr t idx ltac:(lia)) as (A1 & A2 & A3 & A4).
  set (r := advance (length dr) dr t idx) in *.
  assert (Rlt : (r < length dr)%nat).
  { destruct (Nat.lt_ge_cases r (length dr)) as [|G]; [assumption|exfalso].
    destruct (HR t (or_introl eq_refl)) as [_ LT].
    assert (X : fst (tn, an) < t) by (apply (A2 (length dr - 1)%nat); [lia|exact Hn]). cbn in X. lra. }
  destruct (nth_error dr r) as [q|] eqn:NQ; [|apply nth_error_None in NQ; lia].
  destruct (nth_error dr (r - 1)) as [p|] eqn:NP; [|apply nth_error_None in NP; lia].
  assert (PT : fst p <= t).
  { destruct (Nat.eq_dec r idx) as [E|E].
    - apply (HP t p); [now left|]. now rewrite <- E.
    - apply Qlt_le_weak. apply (A2 (r - 1)%nat); [lia|exact NP]. }
  destruct (IH r) as (l & E & F).
  { lia. } { exact HT'. } { intros x X. apply HR. now right. }
  { intros x p' X Y. rewrite NP in Y. injection Y as <-. specialize (HT0 x X). lra. }
  unfold altitude_at. rewrite NP, NQ. destruct p as [tp ap], q as [tq aq]. rewrite E. cbn [option_map].
  eexists. split; [reflexivity|]. constructor; [|exact F].
  exists (tp, ap), (tq, aq). cbn. cbn in PT. split; [|split].
  - exists (r - 1)%nat. split; [exact NP|]. replace (S (r - 1)) with r by lia. exact NQ.
  - split; [exact PT|]. apply (A3 (tq, aq)). reflexivity.
  - apply interpolate_on_line. assert (tp < tq); [|lra].
    apply (HI (r - 1)%nat r (tp, ap) (tq, aq)); [lia|exact NP|exact NQ].
Qed.
