(** Lemmas for TrackProps.v. *)
From Verif Require Import TrackModel FramesProofs PlaceProps TrackSpec.
From Coq Require Import Psatz.
Open Scope R_scope.

Lemma rlt_true a b : rlt a b = true <-> a < b.
Proof. unfold rlt. destruct (Rlt_dec a b); split; (intros; lra) || congruence. Qed.
Lemma rlt_false a b : rlt a b = false <-> b <= a.
Proof. unfold rlt. destruct (Rlt_dec a b); split; intros; try lra; congruence. Qed.
Ltac rcase a b E := let H := fresh in destruct (rlt a b) eqn:H; [apply rlt_true in H as E|apply rlt_false in H as E]; clear H.

Lemma asc_tl {A} (f : A -> R) x l : ascending f (x :: l) -> ascending f l.
Proof. intros H i j a b I Ha Hb. now apply (H (S i) (S j)); [lia| |]. Qed.
Lemma ord_tl {A} (f : A -> R) x l : in_order f (x :: l) -> in_order f l.
Proof. intros H i j a b I Ha Hb. now apply (H (S i) (S j)); [lia| |]. Qed.
Lemma ord_hd {A} (f : A -> R) x l y : in_order f (x :: l) -> In y l -> f x <= f y.
Proof. intros H I. apply In_nth_error in I. destruct I as [n I]. apply (H 0%nat (S n)); [lia|reflexivity|exact I]. Qed.
Lemma asc_ord {A} (f : A -> R) l : ascending f l -> in_order f l.
Proof. intros H i j a b I Ha Hb. left. now apply (H i j). Qed.
Lemma asc_inj {A} (f : A -> R) l i j a b : ascending f l -> nth_error l i = Some a -> nth_error l j = Some b -> i <> j -> f a <> f b.
Proof.
  intros H Ha Hb N. destruct (Nat.lt_ge_cases i j) as [L|L].
  - pose proof (H i j a b L Ha Hb). lra.
  - pose proof (H j i b a ltac:(lia) Hb Ha). lra.
Qed.
Lemma nth_some {A} (l : list A) i : (i < length l)%nat -> exists a, nth_error l i = Some a.
Proof. intros H. destruct (nth_error l i) eqn:E; [eauto|]. apply nth_error_None in E. lia. Qed.
Lemma nth_lt {A} (l : list A) i a : nth_error l i = Some a -> (i < length l)%nat.
Proof. intros H. apply nth_error_Some. congruence. Qed.

(** ** Interpolation *)
Lemma interp_convex t t1 t2 v1 v2 : t1 <> t2 -> interpolate t t1 t2 v1 v2 = (1 - (t - t1) / (t2 - t1)) * v1 + (t - t1) / (t2 - t1) * v2.
Proof. intros H. unfold interpolate. destruct (Req_EM_T t2 t1); [congruence|]. field. lra. Qed.
Lemma interp_affine t t1 t2 c d : t1 <> t2 -> interpolate t t1 t2 (c + d * t1) (c + d * t2) = c + d * t.
Proof. intros H. unfold interpolate. destruct (Req_EM_T t2 t1); [congruence|]. field. lra. Qed.
Lemma interp_quadratic t t1 t2 c d a : t1 <> t2 ->
  interpolate t t1 t2 (c + d * t1 + a * (t1 * t1)) (c + d * t2 + a * (t2 * t2)) = c + d * t + a * (t * t) + a * ((t - t1) * (t2 - t)).
Proof. intros H. unfold interpolate. destruct (Req_EM_T t2 t1); [congruence|]. field. lra. Qed.
Lemma interp_const t t1 t2 c : interpolate t t1 t2 c c = c.
Proof. unfold interpolate. destruct (Req_EM_T t2 t1); [reflexivity|]. field. lra. Qed.
Lemma fraction t t1 t2 : t1 < t2 -> t1 <= t <= t2 -> 0 <= (t - t1) / (t2 - t1) <= 1.
Proof.
  intros H [A B]. assert (0 < / (t2 - t1)) by (apply Rinv_0_lt_compat; lra). unfold Rdiv. split; [apply Rmult_le_pos; lra|].
  apply (Rmult_le_reg_r (t2 - t1)); [lra|]. rewrite Rmult_assoc, Rinv_l by lra. lra.
Qed.

(** ** Indices *)
Lemma adv_pair_bound l t : forall fuel n, (n < length l)%nat -> (adv_pair fuel l t n < length l)%nat.
Proof.
  induction fuel as [|fuel IH]; intros n H; [exact H|]. cbn [adv_pair]. destruct (S n <? length l)%nat eqn:E; [|exact H].
  apply Nat.ltb_lt in E. destruct (nth_error l n); [|exact H]. destruct (rlt _ _); [now apply IH|exact H].
Qed.
Lemma prev_spec {A} (l : list A) n : (2 <= length l)%nat -> (n < length l)%nat -> exists k a, prev l n = Some a /\ nth_error l k = Some a /\ k <> n.
Proof.
  intros H2 H. unfold prev. destruct n as [|n].
  - destruct (nth_some l (length l - 1)) as [a Ha]; [lia|]. exists (length l - 1)%nat, a. repeat split; [exact Ha|exact Ha|lia].
  - destruct (nth_some l n) as [a Ha]; [lia|]. exists n, a. repeat split; [exact Ha|exact Ha|lia].
Qed.
(** The bracket of a time inside the record. *)
Lemma adv_vel_spec vs t vl : ascending v_t vs -> nth_error vs (length vs - 1) = Some vl -> t <= v_t vl -> forall fuel j a, (length vs <= j + fuel)%nat ->
  (S j < length vs)%nat -> nth_error vs j = Some a -> v_t a <= t ->
  let j' := adv_vel fuel vs t j in (S j' < length vs)%nat /\ exists a b, nth_error vs j' = Some a /\ nth_error vs (S j') = Some b /\ v_t a <= t <= v_t b.
Proof.
  intros As Hl Tl. induction fuel as [|fuel IH]; intros j a F B Ha Ta; cbv zeta.
  - apply nth_lt in Ha. lia.
  - cbn [adv_vel]. destruct (nth_some vs (S j) B) as [b Hb]. rewrite Hb. rcase (v_t b) t E.
    + destruct (Nat.lt_ge_cases (S (S j)) (length vs)) as [L|L]; [apply (IH (S j) b); [lia|exact L|exact Hb|lra]|].
      replace (length vs - 1)%nat with (S j) in Hl by lia. rewrite Hl in Hb. injection Hb as ->. lra.
    + split; [exact B|]. exists a, b. repeat split; [exact Ha|exact Hb|exact Ta|exact E].
Qed.
Lemma start_spec os t0 s : start_index os t0 = Some s -> (forall i o, (i < s)%nat -> nth_error os i = Some o -> o_t o < t0) /\
  exists o, nth_error os s = Some o /\ t0 <= o_t o.
Proof.
  revert s. induction os as [|o os IH]; intros s H; [discriminate|]. cbn [start_index] in H. rcase (o_t o) t0 E.
  - destruct (start_index os t0) as [s'|]; [|discriminate]. injection H as <-. destruct (IH s' eq_refl) as [A (x & X & B)]. split.
    + intros [|i] y I Hy; [injection Hy as <-; exact E|]. apply (A i y); [lia|exact Hy].
    + exists x. split; [exact X|exact B].
  - injection H as <-. split; [lia|]. exists o. split; [reflexivity|exact E].
Qed.
Lemma start_some os t0 : (exists o, In o os /\ t0 <= o_t o) -> exists s, start_index os t0 = Some s.
Proof.
  induction os as [|o os IH]; intros (x & I & T); [destruct I|]. cbn [start_index]. rcase (o_t o) t0 E; [|eauto].
  destruct I as [->|I]; [lra|]. destruct (IH (ex_intro _ x (conj I T))) as [s ->]. now exists (S s).
Qed.

(** ** interpolate_sensor_list *)
Lemma advance_spec centre t tlast : forall fuel j, (length centre <= j + fuel)%nat -> (j < length centre)%nat ->
  let j' := advance fuel centre t tlast j in
  (j <= j' < length centre)%nat /\ (forall k c, (j <= k < j')%nat -> nth_error centre k = Some c -> at_t c < t) /\
  (forall c c', nth_error centre j' = Some c -> at_t c < t -> nth_error centre (S j') = Some c' -> tlast < at_t c').
Proof.
  induction fuel as [|fuel IH]; intros j F B; cbv zeta; [lia|]. cbn [advance].
  destruct (nth_some centre j B) as [c Hc]. rewrite Hc.
  destruct (nth_error centre (S j)) as [c'|] eqn:Hs.
  2:{ split; [lia|]. split; [intros; lia|]. intros x x' Hx _ Hx'. congruence. }
  rcase (at_t c) t E.
  2:{ split; [lia|]. split; [intros; lia|]. intros x x' Hx L. replace x with c in L by congruence. lra. }
  rcase tlast (at_t c') E'.
  { split; [lia|]. split; [intros; lia|]. intros x x' Hx _ Hx'. congruence. }
  pose proof (nth_lt _ _ _ Hs) as Bs. destruct (IH (S j) ltac:(lia) Bs) as (I1 & I2 & I3). cbv zeta in *. split; [lia|]. split; [|exact I3].
  intros k x K Hx. destruct (Nat.eq_dec k j) as [->|N]; [congruence|]. apply (I2 k); [lia|exact Hx].
Qed.

Section Sensors.
  Context {L N : Type} (m2ll : R -> R -> L) (m : mounting).
  (** The pose of a record at time [t] comes from two samples of different times. *)
  Definition from_two (centre : list sample) (a b : sample) (s : R * N) (x : N * (sample * L)) : Prop :=
    In a centre /\ In b centre /\ at_t a <> at_t b /\
    x = (snd s, sensor_at m2ll (m_origin m) (m_sensor m) (fst s) (attitude_between (fst s) a b) a b).
  (** They are next to each other and around it, or the second is of the same time. *)
  Definition around (centre : list sample) (t : R) (a b : sample) : Prop := t = at_t b \/ adjacent centre a b /\ at_t a <= t <= at_t b.

  Lemma drop_before_filter start (l : list (R * N)) : in_order fst l -> drop_before start l = filter (fun s => negb (rlt (fst s) start)) l.
  Proof.
    induction l as [|s l IH]; intros O; [reflexivity|]. cbn [drop_before filter]. rcase (fst s) start E; cbn [negb]; [apply IH, (ord_tl _ _ _ O)|].
    f_equal. symmetry. assert (forall x, In x l -> start <= fst x) as A by (intros x I; pose proof (ord_hd _ _ _ _ O I); lra).
    clear IH O. induction l as [|y l IH]; [reflexivity|]. cbn [filter]. destruct (rlt (fst y) start) eqn:R.
    - apply rlt_true in R. pose proof (A y (or_introl eq_refl)). lra.
    - cbn [negb]. now rewrite IH by (intros x I; apply A; now right).
  Qed.
  Lemma scan_spec centre tlast : ascending at_t centre -> (2 <= length centre)%nat -> forall (sensors : list (R * N)) j, (j < length centre)%nat -> in_order fst sensors ->
    (forall k c s, (k < j)%nat -> nth_error centre k = Some c -> In s sensors -> at_t c < fst s) ->
    (forall c s, nth_error centre 0 = Some c -> In s sensors -> at_t c <= fst s) ->
    exists out kept dropped, scan m2ll m centre tlast j sensors = Some out /\ sensors = kept ++ dropped /\
      Forall2 (fun s x => exists a b, from_two centre a b s x /\ ((exists c, In c centre /\ fst s <= at_t c <= tlast) -> around centre (fst s) a b)) kept out /\
      forall s k c, In s dropped -> (S k < length centre)%nat -> nth_error centre k = Some c -> at_t c < fst s.
  Proof.
    intros As L2. induction sensors as [|[t nm] rest IH]; intros j B O I F.
    { exists [], [], []. repeat split; [constructor|]. intros s k c []. }
    cbn [scan]. destruct (length centre - 1 <=? j)%nat eqn:Ej.
    { apply Nat.leb_le in Ej. exists [], [], ((t, nm) :: rest). repeat split; [constructor|]. intros s k c Is K Hc. apply (I k c s); [lia|exact Hc|exact Is]. }
    destruct (advance_spec centre t tlast (length centre) j) as (B' & P1 & P2); [lia|exact B|]. cbv zeta in *.
    set (j' := advance (length centre) centre t tlast j) in *.
    destruct (prev_spec centre j' L2 ltac:(lia)) as (k & a & Ea & Na & Nk). destruct (nth_some centre j' ltac:(lia)) as [b Eb]. rewrite Ea, Eb.
    assert (forall k c, (k < j')%nat -> nth_error centre k = Some c -> at_t c < t) as I'.
    { intros k0 c K Hc. destruct (Nat.lt_ge_cases k0 j) as [K'|K']; [apply (I k0 c (t, nm) K' Hc); now left|]. apply (P1 k0); [lia|exact Hc]. }
    destruct (IH j' ltac:(lia) (ord_tl _ _ _ O)) as (out & kept & dropped & E1 & E2 & E3 & E4).
    { intros k0 c s K Hc Is. apply Rlt_le_trans with t; [now apply (I' k0)|]. exact (ord_hd _ _ _ _ O Is). }
    { intros c s Hc Is. apply (F c s Hc). now right. }
    rewrite E1. cbn [option_map].
    exists ((nm, sensor_at m2ll (m_origin m) (m_sensor m) t (attitude_between t a b) a b) :: out), ((t, nm) :: kept), dropped.
    split; [reflexivity|]. split; [cbn; now rewrite E2|]. split; [|exact E4]. constructor; [|exact E3]. exists a, b. cbn [fst snd]. split.
    { split; [exact (nth_error_In _ _ Na)|]. split; [exact (nth_error_In _ _ Eb)|]. split; [exact (asc_inj _ _ _ _ _ _ As Na Eb Nk)|reflexivity]. }
    intros (c & Ic & Tc & Tc'). apply In_nth_error in Ic. destruct Ic as [kc Hc].
    assert (t <= at_t b) as Tb.
    { apply Rnot_lt_le. intros Lb. assert (j' < kc)%nat as Kc.
      { destruct (Nat.lt_ge_cases j' kc) as [X|X]; [exact X|exfalso]. destruct (Nat.eq_dec kc j') as [->|Z]; [replace c with b in * by congruence; lra|].
        pose proof (As kc j' c b ltac:(lia) Hc Eb). lra. }
      pose proof (nth_lt _ _ _ Hc). destruct (nth_some centre (S j') ltac:(lia)) as [c' Hc']. pose proof (P2 b c' Eb Lb Hc').
      destruct (Nat.eq_dec kc (S j')) as [->|Z]; [replace c with c' in * by congruence; lra|]. pose proof (As (S j') kc c' c ltac:(lia) Hc' Hc). lra. }
    destruct j' as [|i] eqn:Ei.
    - left. pose proof (F b (t, nm) Eb (or_introl eq_refl)) as X. cbn [fst] in X. lra.
    - right. unfold prev in Ea. split; [exists i; split; [exact Ea|exact Eb]|]. split; [left; apply (I' i a); [lia|exact Ea]|exact Tb].
  Qed.

  (** Everything about a successful or a failed call. *)
  Lemma isl_spec (sensors : list (R * N)) centre c0 cn s0 sn : ascending at_t centre -> (2 <= length centre)%nat -> in_order fst sensors ->
    nth_error centre 0 = Some c0 -> nth_error centre (length centre - 1) = Some cn -> nth_error sensors 0 = Some s0 -> nth_error sensors (length sensors - 1) = Some sn ->
    fst s0 <= at_t cn -> at_t c0 <= fst sn ->
    exists out kept dropped, interpolate_sensor_list m2ll m sensors centre = Interpolated out /\
      filter (fun s => negb (rlt (fst s) (at_t c0))) sensors = kept ++ dropped /\
      Forall2 (fun s x => exists a b, from_two centre a b s x /\ ((exists c, In c centre /\ fst s <= at_t c <= fst sn) -> around centre (fst s) a b)) kept out /\
      forall s k c, In s dropped -> (S k < length centre)%nat -> nth_error centre k = Some c -> at_t c < fst s.
  Proof.
    intros As L2 O H0 Hn Hs Hsn T0 Tn.
    assert (in_order fst (drop_before (at_t c0) sensors)) as O'.
    { clear -O. induction sensors as [|s l IH]; [exact O|]. cbn [drop_before]. destruct (rlt _ _); [apply IH, (ord_tl _ _ _ O)|exact O]. }
    destruct (scan_spec centre (fst sn) As L2 (drop_before (at_t c0) sensors) 0 ltac:(lia) O') as (out & kept & dropped & E1 & E2 & E3 & E4).
    { intros; lia. }
    { intros c s Hc Is. replace c with c0 by congruence. rewrite drop_before_filter in Is by exact O. apply filter_In in Is. destruct Is as [_ Is].
      apply Bool.negb_true_iff, rlt_false in Is. exact Is. }
    exists out, kept, dropped. unfold interpolate_sensor_list. rewrite H0, Hs. unfold prev. rewrite Hn, Hsn.
    destruct (rlt (at_t cn) (fst s0)) eqn:R1; [apply rlt_true in R1; lra|]. destruct (rlt (fst sn) (at_t c0)) eqn:R2; [apply rlt_true in R2; lra|].
    cbn [orb]. rewrite E1. split; [reflexivity|]. split; [rewrite <- drop_before_filter by exact O; exact E2|]. split; [exact E3|exact E4].
  Qed.
  (** From success: there is an overlap. *)
  Lemma isl_success (sensors : list (R * N)) centre out : interpolate_sensor_list m2ll m sensors centre = Interpolated out ->
    exists c0 cn s0 sn, nth_error centre 0 = Some c0 /\ nth_error centre (length centre - 1) = Some cn /\ nth_error sensors 0 = Some s0 /\ nth_error sensors (length sensors - 1) = Some sn /\
    fst s0 <= at_t cn /\ at_t c0 <= fst sn.
  Proof.
    unfold interpolate_sensor_list, prev. intros H.
    destruct (nth_error centre 0) as [c0|]; [|discriminate]. destruct (nth_error centre (length centre - 1)) as [cn|]; [|discriminate].
    destruct (nth_error sensors 0) as [s0|]; [|discriminate]. destruct (nth_error sensors (length sensors - 1)) as [sn|]; [|discriminate].
    rcase (at_t cn) (fst s0) E; [discriminate|]. rcase (fst sn) (at_t c0) E'; [discriminate|]. exists c0, cn, s0, sn. repeat split; assumption.
  Qed.
End Sensors.

(** ** Synchronisation *)
Definition between_vel (t : R) (a b : velocity) : vec :=
  (interpolate t (v_t a) (v_t b) (vx (v_body a)) (vx (v_body b)), interpolate t (v_t a) (v_t b) (vy (v_body a)) (vy (v_body b)), interpolate t (v_t a) (v_t b) (vz (v_body a)) (vz (v_body b))).
(** What a synchronised record is made from. *)
Definition synced_from (dvl : vec) (os : list orientation) (vs : list velocity) (alts depths : list reading) (o : orientation) (y : synced) : Prop :=
  y_t y = o_t o /\ y_att y = o_att o /\
  (exists va vb i w, adjacent vs va vb /\ v_t va <= o_t o <= v_t vb /\ nth_error os i = Some o /\ compute_angular_speeds os i = Some w /\ y_vel y = track_velocity dvl (o_att o) (between_vel (o_t o) va vb) w) /\
  (exists n, (n < length alts)%nat /\ at_pair alts (o_t o) n = Some (y_alt y)) /\ (exists k, (k < length depths)%nat /\ at_pair depths (o_t o) k = Some (y_depth y)).

Lemma rates_some os i : ascending o_t os -> (3 <= length os)%nat -> (i < length os)%nat -> exists w, compute_angular_speeds os i = Some w.
Proof.
  intros As L3 B. unfold compute_angular_speeds.
  assert (exists a b k l, rate_pair os i = Some (a, b) /\ nth_error os k = Some a /\ nth_error os l = Some b /\ (k < l)%nat) as (a & b & k & l & -> & Ha & Hb & KL).
  { unfold rate_pair. destruct ((1 <=? i)%nat && (i <? length os - 1)%nat)%bool eqn:E1.
    - apply Bool.andb_true_iff in E1. destruct E1 as [E1 E2]. apply Nat.leb_le in E1. apply Nat.ltb_lt in E2.
      destruct (nth_some os (i - 1) ltac:(lia)) as [a Ha]. destruct (nth_some os (i + 1) ltac:(lia)) as [b Hb]. rewrite Ha, Hb.
      exists a, b, (i - 1)%nat, (i + 1)%nat. repeat split; [exact Ha|exact Hb|lia].
    - destruct ((1 <? i)%nat && (i =? length os - 1)%nat)%bool eqn:E2.
      + apply Bool.andb_true_iff in E2. destruct E2 as [E2 E3]. apply Nat.ltb_lt in E2. apply Nat.eqb_eq in E3.
        destruct (nth_some os (i - 1) ltac:(lia)) as [a Ha]. destruct (nth_some os i B) as [b Hb]. rewrite Ha, Hb.
        exists a, b, (i - 1)%nat, i. repeat split; [exact Ha|exact Hb|lia].
      + destruct (i =? 0)%nat eqn:E3.
        * apply Nat.eqb_eq in E3. subst i. destruct (nth_some os 0 ltac:(lia)) as [a Ha]. destruct (nth_some os (0 + 1) ltac:(lia)) as [b Hb]. rewrite Ha, Hb.
          exists a, b, 0%nat, 1%nat. repeat split; [exact Ha|exact Hb|lia].
        * exfalso. apply Nat.eqb_neq in E3. apply Bool.andb_false_iff in E1, E2.
          destruct E1 as [E1|E1]; [apply Nat.leb_gt in E1; lia|]. apply Nat.ltb_ge in E1. destruct E2 as [E2|E2]; [apply Nat.ltb_ge in E2; lia|apply Nat.eqb_neq in E2; lia]. }
  pose proof (As k l a b KL Ha Hb). destruct (Req_EM_T (o_t b - o_t a) 0); [lra|]. eauto.
Qed.

Lemma sync_spec dvl os vs alts depths vl : ascending o_t os -> ascending v_t vs -> nth_error vs (length vs - 1) = Some vl -> alts <> [] -> depths <> [] ->
  forall rest j n k i, (forall x, nth_error rest x = nth_error os (i + x)) -> (S j < length vs)%nat -> (n < length alts)%nat -> (k < length depths)%nat ->
    (forall a o, nth_error vs j = Some a -> In o rest -> v_t a <= o_t o) -> 
    (3 <= length os)%nat ->
    exists out, sync_from dvl os vs alts depths (v_t vl) j n k i rest = Some out /\
      Forall2 (synced_from dvl os vs alts depths) (filter (fun o => negb (rlt (v_t vl) (o_t o))) rest) out.
Proof.
  intros Ao Av Hl Na Nd. induction rest as [|o rest IH]; intros j n k i Hr Bj Bn Bk Lo L3; [exists []; split; [reflexivity|constructor]|].
  assert (ascending o_t (o :: rest)) as Ar.
  { intros x z a b X Ha Hb. apply (Ao (i + x)%nat (i + z)%nat a b); [lia|now rewrite <- Hr|now rewrite <- Hr]. }
  cbn [sync_from filter]. rcase (v_t vl) (o_t o) E; cbn [negb].
  { exists []. split; [reflexivity|]. replace (filter _ rest) with (@nil orientation); [constructor|]. clear -Ar E.
    assert (forall x, In x rest -> v_t vl < o_t x) as A.
    { intros x I. apply In_nth_error in I. destruct I as [p I]. pose proof (Ar 0%nat (S p) o x ltac:(lia) eq_refl I). lra. }
    clear Ar E. induction rest as [|x rest IH]; [reflexivity|]. cbn [filter]. destruct (rlt (v_t vl) (o_t x)) eqn:R; [apply IH; intros y I; apply A; now right|].
    apply rlt_false in R. pose proof (A x (or_introl eq_refl)). lra. }
  destruct (nth_some vs j ltac:(lia)) as [a0 Ha0].
  destruct (adv_vel_spec vs (o_t o) vl Av Hl E (length vs) j a0) as (Bj' & va & vb & Hva & Hvb & T); [lia|exact Bj|exact Ha0|exact (Lo a0 o Ha0 (or_introl eq_refl))|].
  pose proof (adv_pair_bound alts (o_t o) (length alts) n Bn) as Bn'. pose proof (adv_pair_bound depths (o_t o) (length depths) k Bk) as Bk'.
  cbv zeta in *. set (j' := adv_vel (length vs) vs (o_t o) j) in *. set (n' := adv_pair (length alts) alts (o_t o) n) in *. set (k' := adv_pair (length depths) depths (o_t o) k) in *.
  assert (forall l n, (n < length l)%nat -> exists v, at_pair l (o_t o) n = Some v) as At.
  { intros l q B. unfold at_pair. destruct (nth_some l q B) as [b ->]. unfold prev. destruct (nth_some l (match q with O => length l - 1 | S q => q end)) as [a ->]; [destruct q; lia|]. eauto. }
  destruct (At alts n' Bn') as [al Hal]. destruct (At depths k' Bk') as [dp Hdp].
  assert (nth_error os i = Some o) as Hi by (pose proof (Hr 0%nat) as X; rewrite Nat.add_0_r in X; now rewrite <- X).
  destruct (rates_some os i Ao L3 (nth_lt _ _ _ Hi)) as [w Hw].
  unfold at_vel. rewrite Hva, Hvb, Hw, Hal, Hdp.
  destruct (IH j' n' k' (S i)) as (out & E1 & E2); [intros x; pose proof (Hr (S x)) as X; cbn [nth_error] in X; rewrite X; f_equal; lia|exact Bj'|exact Bn'|exact Bk'| |exact L3|].
  { intros a x Ha I. replace a with va by congruence. apply In_nth_error in I. destruct I as [p I].
    pose proof (Ar 0%nat (S p) o x ltac:(lia) eq_refl I). lra. }
  rewrite E1. eexists. split; [reflexivity|]. constructor; [|exact E2].
  split; [reflexivity|]. split; [reflexivity|]. split.
  { exists va, vb, i, w. split; [exists j'; split; assumption|]. split; [exact T|]. split; [exact Hi|]. split; [exact Hw|reflexivity]. }
  split; [exists n'; split; assumption|exists k'; split; assumption].
Qed.

(** ** The track *)
Lemma spanned_In os v0 vl o : In o (spanned os v0 vl) <-> In o os /\ v_t v0 <= o_t o <= v_t vl.
Proof.
  unfold spanned. rewrite filter_In, Bool.andb_true_iff, !Bool.negb_true_iff, !rlt_false. tauto.
Qed.
Lemma filter_from os v0 vl s : ascending o_t os -> start_index os (v_t v0) = Some s -> filter (fun o => negb (rlt (v_t vl) (o_t o))) (skipn s os) = spanned os v0 vl.
Proof.
  revert s. induction os as [|o os IH]; intros s As H; [discriminate|]. cbn [start_index] in H. unfold spanned. cbn [filter]. rcase (o_t o) (v_t v0) E.
  - destruct (start_index os (v_t v0)) as [s'|] eqn:Es; [|discriminate]. injection H as <-. cbn [skipn negb andb]. apply IH; [exact (asc_tl _ _ _ As)|reflexivity].
  - injection H as <-. cbn [skipn filter negb andb]. assert (forall x, In x os -> rlt (o_t x) (v_t v0) = false) as A.
    { intros x I. apply rlt_false. pose proof (ord_hd _ _ _ _ (asc_ord _ _ As) I). lra. }
    assert (filter (fun o0 => negb (rlt (v_t vl) (o_t o0))) os = filter (fun o0 => (negb (rlt (o_t o0) (v_t v0)) && negb (rlt (v_t vl) (o_t o0)))%bool) os) as <-; [|reflexivity].
    apply filter_ext_in. intros x I. now rewrite A by exact I.
Qed.
Lemma nth_skipn {A} (l : list A) s x : nth_error (skipn s l) x = nth_error l (s + x).
Proof. revert l. induction s as [|s IH]; intros [|a l]; cbn [skipn Nat.add nth_error]; try reflexivity; [now destruct x|apply IH]. Qed.

Lemma track_spec m os vs alts depths v0 vl : readable os vs alts depths v0 vl -> spanned os v0 vl <> [] ->
  exists ys tr flag, dead_reckoned m os vs alts depths = Some (tr, flag) /\ Forall2 (synced_from (m_dvl m) os vs alts depths) (spanned os v0 vl) ys /\ dvl_track ys = Some tr.
Proof.
  intros [Ao Av _ _ L3 L2v L2a L2d H0 Hl] Ne. unfold dead_reckoned, prev. rewrite H0, Hl.
  destruct (start_some os (v_t v0)) as [s Hs].
  { destruct (spanned os v0 vl) as [|o l] eqn:E; [congruence|]. assert (In o (spanned os v0 vl)) as I by (rewrite E; now left). apply spanned_In in I. exists o. tauto. }
  rewrite Hs. destruct (sync_spec (m_dvl m) os vs alts depths vl Ao Av Hl) with (rest := skipn s os) (j := 0%nat) (n := 0%nat) (k := 0%nat) (i := s) as (ys & E1 & E2).
  { intros ->. cbn in L2a. lia. } { intros ->. cbn in L2d. lia. } { intros x. apply nth_skipn. } { lia. } { lia. } { lia. }
  { intros a o Ha I. replace a with v0 by congruence. destruct (start_spec _ _ _ Hs) as [_ (x & Hx & T)].
    apply In_nth_error in I. destruct I as [p I]. rewrite nth_skipn in I. destruct p as [|p]; [rewrite Nat.add_0_r in I; replace o with x by congruence; exact T|].
    pose proof (Ao s (s + S p)%nat x o ltac:(lia) Hx I). lra. }
  { exact L3. }
  rewrite (filter_from os v0 vl s Ao Hs) in E2. rewrite E1. destruct ys as [|y ys].
  { inversion E2 as [X|]. now rewrite <- X in Ne. }
  exists (y :: ys). cbn [dvl_track option_map]. eexists. exists (s =? 1)%nat. split; [reflexivity|]. split; [exact E2|reflexivity].
Qed.

Lemma integrate_times l : forall p n e, map at_t (integrate p n e l) = map y_t l.
Proof. induction l as [|y l IH]; intros p n e; [reflexivity|]. cbn. now rewrite IH. Qed.
Lemma dvl_track_times ys tr : dvl_track ys = Some tr -> map at_t tr = map y_t ys.
Proof. destruct ys as [|y ys]; intros H; [discriminate|]. injection H as <-. cbn. now rewrite integrate_times. Qed.
Lemma forall2_times dvl os vs alts depths l ys : Forall2 (synced_from dvl os vs alts depths) l ys -> map y_t ys = map o_t l.
Proof. induction 1 as [|o y l ys H _ IH]; [reflexivity|]. cbn. destruct H as [-> _]. now rewrite IH. Qed.

Lemma asc_map {A B} (f : A -> R) (g : B -> R) l l' : map f l = map g l' -> ascending f l -> ascending g l'.
Proof.
  intros E As i j a b I Ha Hb. assert (nth_error (map g l') i = Some (g a)) as X by (now apply map_nth_error). assert (nth_error (map g l') j = Some (g b)) as Y by (now apply map_nth_error).
  rewrite <- E in X, Y. rewrite nth_error_map in X, Y. destruct (nth_error l i) as [x|] eqn:Ex; [|discriminate]. destruct (nth_error l j) as [y|] eqn:Ey; [|discriminate].
  injection X as <-. injection Y as <-. now apply (As i j).
Qed.
Lemma asc_filter {A} (f : A -> R) p l : ascending f l -> ascending f (filter p l).
Proof.
  induction l as [|x l IH]; intros As; [exact As|]. cbn [filter]. specialize (IH (asc_tl _ _ _ As)). destruct (p x); [|exact IH].
  intros [|i] [|j] a b I Ha Hb; try lia.
  - injection Ha as <-. cbn in Hb. apply nth_error_In, filter_In in Hb. destruct Hb as [Hb _]. apply In_nth_error in Hb. destruct Hb as [q Hb].
    apply (As 0%nat (S q)); [lia|reflexivity|exact Hb].
  - apply (IH i j); [lia|exact Ha|exact Hb].
Qed.

(** ** Straight motion *)
Lemma integrate_exact c d a (f : vec -> R) (g : sample -> R) : (f = vx /\ g = north) \/ (f = vy /\ g = east) -> forall l p n e,
  (forall y, In y (p :: l) -> f (y_vel y) = d + a * y_t y) -> g (mksample 0 (y_att p) n e 0 0) = c + d * y_t p + a / 2 * (y_t p * y_t p) ->
  forall s, In s (integrate p n e l) -> g s = c + d * at_t s + a / 2 * (at_t s * at_t s).
Proof.
  intros FG. induction l as [|y l IH]; intros p n e Hv Hn s I; [destruct I|]. cbn [integrate] in I. destruct I as [<-|I].
  - pose proof (Hv p (or_introl eq_refl)) as X. pose proof (Hv y (or_intror (or_introl eq_refl))) as Y.
    destruct FG as [[-> ->]|[-> ->]]; cbn [north east at_t] in *; rewrite X, Y, Hn; field.
  - revert I. apply IH; [intros z Iz; apply Hv; now right|].
    pose proof (Hv p (or_introl eq_refl)) as X. pose proof (Hv y (or_intror (or_introl eq_refl))) as Y.
    destruct FG as [[-> ->]|[-> ->]]; cbn [north east at_t] in *; rewrite X, Y, Hn; field.
Qed.
Lemma integrate_rest l : forall p n e s, In s (integrate p n e l) -> exists y, In y l /\ at_t s = y_t y /\ att s = y_att y /\ depth s = y_depth y /\ altitude s = y_alt y.
Proof.
  induction l as [|y l IH]; intros p n e s I; [destruct I|]. destruct I as [<-|I]; [exists y; cbn; tauto|].
  destruct (IH _ _ _ _ I) as (z & Iz & H). exists z. split; [now right|exact H].
Qed.

Lemma at_pair_affine l t n v c d : ascending fst l -> (2 <= length l)%nat -> (n < length l)%nat -> (forall x, In x l -> snd x = c + d * fst x) ->
  at_pair l t n = Some v -> v = c + d * t.
Proof.
  intros As L2 B H E. unfold at_pair in E. destruct (prev_spec l n L2 B) as (k & a & Ep & Ha & K). destruct (nth_some l n B) as [b Hb]. rewrite Ep, Hb in E.
  injection E as <-. rewrite (H a (nth_error_In _ _ Ha)), (H b (nth_error_In _ _ Hb)). apply interp_affine, (asc_inj _ _ _ _ _ _ As Ha Hb K).
Qed.
Lemma rates_zero os i w z : (forall o, In o os -> o_att o = w) -> compute_angular_speeds os i = Some z -> z = vzero.
Proof.
  intros H E. unfold compute_angular_speeds in E. destruct (rate_pair os i) as [[a b]|] eqn:P; [|discriminate].
  assert (In a os /\ In b os) as [Ia Ib].
  { unfold rate_pair in P. repeat match type of P with (if ?c then _ else _) = _ => destruct c; [|] | None = _ => discriminate end;
    match type of P with match ?x with _ => _ end = _ => destruct x eqn:X; [|discriminate] end;
    match type of P with match ?x with _ => _ end = _ => destruct x eqn:Y; [|discriminate] end; injection P as <- <-; split; eapply nth_error_In; eassumption. }
  rewrite (H a Ia), (H b Ib) in E. destruct (Req_EM_T (o_t b - o_t a) 0) as [|Nz]; [discriminate|]. injection E as <-.
  replace (yaw w - yaw w) with 0 by ring. destruct (rlt 180 0) eqn:R1; [apply rlt_true in R1; lra|]. destruct (rlt 0 (-180)) eqn:R2; [apply rlt_true in R2; lra|].
  unfold vzero. f_equal; [f_equal|]; field; lra.
Qed.
Lemma turn_linear w k a b : turn w (vadd (vscale (1 - k) a) (vscale k b)) = vadd (vscale (1 - k) (turn w a)) (vscale k (turn w b)).
Proof.
  unfold turn, body_to_inertial. destruct a as [[a1 a2] a3], b as [[b1 b2] b3]. apply vec_eq; unfold vadd, vscale, vx, vy, vz; cbn [fst snd]; ring.
Qed.
Lemma between_vel_convex t a b : v_t a <> v_t b -> let k := (t - v_t a) / (v_t b - v_t a) in between_vel t a b = vadd (vscale (1 - k) (v_body a)) (vscale k (v_body b)).
Proof. intros H. unfold between_vel. rewrite !interp_convex by exact H. apply vec_eq; reflexivity. Qed.

Lemma in_Forall2_r {A B} (P : A -> B -> Prop) l l' y : Forall2 P l l' -> In y l' -> exists x, In x l /\ P x y.
Proof. induction 1 as [|a b l l' H _ IH]; intros I; [destruct I|]. destruct I as [<-|I]; [exists a; split; [now left|exact H]|]. destruct (IH I) as (x & Ix & Hx). exists x. split; [now right|exact Hx]. Qed.
Lemma in_Forall2_l {A B} (P : A -> B -> Prop) l l' x : Forall2 P l l' -> In x l -> exists y, In y l' /\ P x y.
Proof. induction 1 as [|a b l l' H _ IH]; intros I; [destruct I|]. destruct I as [<-|I]; [exists b; split; [now left|exact H]|]. destruct (IH I) as (y & Iy & Hy). exists y. split; [now right|exact Hy]. Qed.

Lemma synced_straight M m os vs alts depths v0 vl o y : readable os vs alts depths v0 vl -> vz (acceleration M) = 0 -> truthful M m os vs alts depths ->
  synced_from (m_dvl m) os vs alts depths o y ->
  y_att y = heading M /\ y_vel y = speed M (y_t y) /\ y_depth y = vz (place (position M (y_t y)) (heading M) (m_depth m)) /\
  y_alt y = seafloor M - vz (place (position M (y_t y)) (heading M) (m_dvl m)).
Proof.
  intros [Ao Av Aa Ad L3 L2v L2a L2d H0 Hl] Az (To & Tv & Ta & Td) (Et & Ew & (va & vb & i & w & (q & Qa & Qb) & T & Hi & Hw & Ev) & (n & Bn & En) & (k & Bk & Ek)).
  assert (o_att o = heading M) as Ho by (apply To, (nth_error_In _ _ Hi)). rewrite Et. split; [congruence|]. split; [|split].
  - rewrite Ev, Ho. rewrite (rates_zero os i (heading M) w To Hw). unfold track_velocity. rewrite lever_arm_no_rotation.
    assert (v_t va <> v_t vb) as Nt by (apply (asc_inj v_t vs q (S q)); [exact Av|exact Qa|exact Qb|lia]).
    rewrite (between_vel_convex _ _ _ Nt), turn_linear. 
    pose proof (Tv va (nth_error_In _ _ Qa)) as X. pose proof (Tv vb (nth_error_In _ _ Qb)) as Y. rewrite turn_place in X, Y.
    assert (forall v, vadd (0, 0, 0) v = v) as Z by (intros v; apply vec_eq; unfold vadd, vx, vy, vz; cbn [fst snd]; ring). rewrite Z in X, Y. rewrite X, Y.
    unfold speed. destruct (speed0 M) as [[s1 s2] s3], (acceleration M) as [[a1 a2] a3]. apply vec_eq; unfold vadd, vscale, vx, vy, vz; cbn [fst snd]; field; lra.
  - set (w0 := heading M) in *. refine (eq_trans (at_pair_affine depths (o_t o) k _ (vz (place (place0 M) w0 (m_depth m))) (vz (speed0 M)) Ad L2d Bk _ Ek) _).
    + intros x I. rewrite (Td x I), !turn_place. unfold position. destruct (place0 M) as [[p1 p2] p3], (speed0 M) as [[s1 s2] s3], (acceleration M) as [[a1 a2] a3].
      unfold vadd, vscale, vx, vy, vz in *; cbn [fst snd] in *. rewrite Az. ring.
    + rewrite !turn_place. unfold position. destruct (place0 M) as [[p1 p2] p3], (speed0 M) as [[s1 s2] s3], (acceleration M) as [[a1 a2] a3].
      unfold vadd, vscale, vx, vy, vz in *; cbn [fst snd] in *. rewrite Az. ring.
  - set (w0 := heading M) in *. refine (eq_trans (at_pair_affine alts (o_t o) n _ (seafloor M - vz (place (place0 M) w0 (m_dvl m))) (- vz (speed0 M)) Aa L2a Bn _ En) _).
    + intros x I. rewrite (Ta x I), !turn_place. unfold position. destruct (place0 M) as [[p1 p2] p3], (speed0 M) as [[s1 s2] s3], (acceleration M) as [[a1 a2] a3].
      unfold vadd, vscale, vx, vy, vz in *; cbn [fst snd] in *. rewrite Az. ring.
    + rewrite !turn_place. unfold position. destruct (place0 M) as [[p1 p2] p3], (speed0 M) as [[s1 s2] s3], (acceleration M) as [[a1 a2] a3].
      unfold vadd, vscale, vx, vy, vz in *; cbn [fst snd] in *. rewrite Az. ring.
Qed.

(** The offset between the true positions and the track's: it starts at (0, 0) with the DVL, and is then moved by [u]. *)
Definition start_shift (M : motion) (m : mounting) (u : R * R) (t0 : R) : vec :=
  (fst u - vx (place (position M t0) (heading M) (m_dvl m)), snd u - vy (place (position M t0) (heading M) (m_dvl m)), 0).

Lemma centre_straight M m os vs alts depths v0 vl first sp : readable os vs alts depths v0 vl -> vz (acceleration M) = 0 -> truthful M m os vs alts depths ->
  spanned os v0 vl = first :: sp -> exists tr, dead_reckoned m os vs alts depths = Some tr /\ forall u, let c := centre_track m u tr in
    (map at_t c = map o_t (first :: sp) \/ map at_t c = map o_t sp) /\
    forall x, In x c -> exists s, x = dr_centre (m_origin m) (m_dvl m) (m_depth m) s /\ at_t s = at_t x /\ att s = heading M /\
      dvl_and_depth (vadd (start_shift M m u (o_t first)) (position M (at_t s))) (seafloor M) (m_dvl m) (m_depth m) s.
Proof.
  intros Rd Az T Sp. destruct (track_spec m os vs alts depths v0 vl Rd) as (ys & tr & flag & E1 & E2 & E3); [rewrite Sp; discriminate|].
  exists (tr, flag). split; [exact E1|]. intros u. cbv zeta.
  assert (map at_t tr = map o_t (first :: sp)) as Et by (rewrite (dvl_track_times _ _ E3), (forall2_times _ _ _ _ _ _ _ E2), Sp; reflexivity).
  rewrite Sp in E2. destruct ys as [|y ys]; [inversion E2|]. cbn [dvl_track] in E3. injection E3 as E3.
  assert (forall z, In z (y :: ys) -> y_att z = heading M /\ y_vel z = speed M (y_t z) /\ y_depth z = vz (place (position M (y_t z)) (heading M) (m_depth m)) /\
    y_alt z = seafloor M - vz (place (position M (y_t z)) (heading M) (m_dvl m))) as St.
  { intros z I. destruct (in_Forall2_r _ _ _ _ E2 I) as (o & _ & So). exact (synced_straight M m os vs alts depths v0 vl o z Rd Az T So). }
  assert (y_t y = o_t first) as E0 by (inversion E2 as [|? ? ? ? So]; destruct So as [So _]; exact So).
  (* the samples *)
  assert (forall s, In s tr -> att s = heading M /\ depth s = vz (place (position M (at_t s)) (heading M) (m_depth m)) /\
    altitude s = seafloor M - vz (place (position M (at_t s)) (heading M) (m_dvl m)) /\
    north s = vx (position M (at_t s)) - vx (position M (o_t first)) /\ east s = vy (position M (at_t s)) - vy (position M (o_t first))) as Sm.
  { intros s I. rewrite <- E3 in I. destruct I as [<-|I].
    - cbn [att depth altitude north east at_t]. destruct (St y (or_introl eq_refl)) as (S1 & S2 & S3 & S4). rewrite E0 in *. repeat split; [exact S1|exact S3|exact S4|ring|ring].
    - destruct (integrate_rest _ _ _ _ _ I) as (z & Iz & Z1 & Z2 & Z3 & Z4). destruct (St z (or_intror Iz)) as (S1 & S2 & S3 & S4). rewrite Z1, Z2, Z3, Z4.
      split; [exact S1|]. split; [exact S3|]. split; [exact S4|]. rewrite <- Z1.
      assert (forall f g, f = vx /\ g = north \/ f = vy /\ g = east -> g s = f (position M (at_t s)) - f (position M (o_t first))) as G.
      { intros f g FG. assert (forall a b, f (vadd a b) = f a + f b) as Fa by (intros a b; destruct FG as [[-> _]|[-> _]]; reflexivity).
        assert (forall k b, f (vscale k b) = k * f b) as Fs by (intros a b; destruct FG as [[-> _]|[-> _]]; reflexivity).
        rewrite (integrate_exact (- (f (speed0 M) * o_t first + f (acceleration M) / 2 * (o_t first * o_t first))) (f (speed0 M)) (f (acceleration M)) f g FG ys y 0 0) with (s := s).
        - unfold position. rewrite !Fa, !Fs. field.
        - intros z' I'. destruct (St z' I') as (_ & -> & _). unfold speed. rewrite Fa, Fs. ring.
        - rewrite E0. destruct FG as [[_ ->]|[_ ->]]; cbn [north east]; field.
        - exact I. }
      split; apply G; tauto. }
  assert (forall l, (forall s, In s l -> In s tr) -> forall x, In x (map (fun s => mksample (at_t s) (att s) (north s + fst u) (east s + snd u) (depth s) (altitude s)) (map (dr_centre (m_origin m) (m_dvl m) (m_depth m)) l)) ->
    exists s, x = dr_centre (m_origin m) (m_dvl m) (m_depth m) s /\ at_t s = at_t x /\ att s = heading M /\
      dvl_and_depth (vadd (start_shift M m u (o_t first)) (position M (at_t s))) (seafloor M) (m_dvl m) (m_depth m) s) as Main.
  { intros l Hl x I. apply in_map_iff in I. destruct I as (c & <- & I). apply in_map_iff in I. destruct I as (s & <- & I). destruct (Sm s (Hl s I)) as (S1 & S2 & S3 & S4 & S5).
    exists (mksample (at_t s) (att s) (north s + fst u) (east s + snd u) (depth s) (altitude s)). split.
    { unfold dr_centre. cbn [at_t att north east depth altitude]. destruct (turn (att s) (minus (m_origin m) (m_dvl m))) as [[x1 x2] x3].
      destruct (turn (att s) (minus (m_origin m) (m_depth m))) as [[z1 z2] z3]. cbn [at_t att north east depth altitude]. f_equal; ring. }
    split; [unfold dr_centre; destruct (turn (att s) (minus (m_origin m) (m_dvl m))) as [[? ?] ?]; destruct (turn (att s) (minus (m_origin m) (m_depth m))) as [[? ?] ?]; reflexivity|].
    split; [exact S1|]. unfold dvl_and_depth. cbn [at_t att north east depth altitude]. rewrite S1, S2, S3, S4, S5. rewrite !turn_place.
    unfold start_shift. rewrite !turn_place. unfold vadd, vx, vy, vz. cbn [fst snd]. repeat split; ring. }
  assert (forall l, map at_t (map (fun s => mksample (at_t s) (att s) (north s + fst u) (east s + snd u) (depth s) (altitude s)) (map (dr_centre (m_origin m) (m_dvl m) (m_depth m)) l)) = map at_t l) as Tm.
  { intros l. rewrite !map_map. apply map_ext. intros s. unfold dr_centre. destruct (turn (att s) (minus (m_origin m) (m_dvl m))) as [[? ?] ?]; destruct (turn (att s) (minus (m_origin m) (m_depth m))) as [[? ?] ?]; reflexivity. }
  unfold centre_track. cbn [fst snd]. destruct flag.
  - destruct tr as [|s0 tr]; [discriminate|]. cbn [map tl]. split; [right; rewrite Tm; cbn in Et; now injection Et|]. apply Main. intros s I. now right.
  - split; [left; now rewrite Tm|]. apply Main. intros s I. exact I.
Qed.
