(** C80: dead reckoning from the DVL's inertial velocities. *)
From Verif Require Import PyBase InterpModel InterpSpec InterpProofs DrModel DrSpec DrProofs DrProps InertialModel.
Open Scope Q_scope.

(** ** Specification *)
(** The attitude on the way between the two neighbouring orientations around [t]. *)
Definition attitude_ok (os : list orient) (t : Q) (x : attitude) : Prop := exists a b, adjacent os a b /\ o_t a < t <= o_t b /\
  on_line (o_t a) (o_roll a) (o_t b) (o_roll b) t (at_roll x) /\ on_line (o_t a) (o_pitch a) (o_t b) (o_pitch b) t (at_pitch x) /\
  0 <= at_yaw x <= 360 /\ on_short_arc (o_t a) (o_yaw a) (o_t b) (o_yaw b) t (at_yaw x).
Definition headings (os : list orient) : Prop := forall o, In o os -> 0 <= o_yaw o <= 360.

(** A record within the orientations (from the second one on) has such an attitude, one within the
    depth samples has the depth on their polyline. *)
Definition result_ok (os : list orient) (depths : list (Q * Q)) (r : ivel) : Prop :=
  let t := v_t (i_vel r) in
  (forall o z, nth_error os 1 = Some o -> is_last os z -> o_t o < t <= o_t z -> exists x, i_att r = Some x /\ attitude_ok os t x) /\
  (forall a z, is_first depths a -> is_last depths z -> fst a < t <= fst z -> exists d, i_depth r = Some d /\ on_polyline depths t d).

(** ** Lemmas *)
Lemma map_len : forall os, length (map (fun o => (o_t o, 0)) os) = length os.
Proof. intros. apply map_length. Qed.
(** [j] points at the first orientation not before the last time seen, if there is one. *)
Definition inv (os : list orient) (t : Q) (j : nat) : Prop := (j < length os)%nat /\ forall a, (0 < j)%nat -> nth_error os (j - 1) = Some a -> o_t a < t.
Lemma adv_orient_spec : forall os t j, (j < length os)%nat -> (forall a, (0 < j)%nat -> nth_error os (j - 1) = Some a -> o_t a < t) ->
  let j' := adv_orient os t j in (j <= j')%nat /\ inv os t j' /\ (forall b, (S j' < length os)%nat -> nth_error os j' = Some b -> t <= o_t b).
Proof.
  intros os t j L H j'. unfold j', adv_orient. set (l := map (fun o => (o_t o, 0)) os). assert (length l = length os) as E by apply map_length.
  destruct (adv_pair_spec l t (length os) j ltac:(lia) ltac:(lia)) as (A & B & C). set (n := adv_pair (length os) l t j) in *.
  assert (forall i o, nth_error os i = Some o -> nth_error l i = Some (o_t o, 0)) as M by (intros i o K; unfold l; now rewrite (map_nth_error _ _ _ K)).
  split; [lia|]. split; [split; [lia|]|].
  - intros a P K. destruct (Nat.eq_dec n j) as [En|En]; [rewrite En in *; now apply H|]. apply (C (o_t a, 0)); [lia|now apply M].
  - intros b P K. apply (B (o_t b, 0)); [lia|now apply M].
Qed.
Lemma last_nth : forall {A} (l : list A) z, is_last l z -> nth_error l (length l - 1) = Some z.
Proof. intros A l z (l' & ->). rewrite app_length. cbn [length]. rewrite nth_error_app2 by lia. replace (length l' + 1 - 1 - length l')%nat with 0%nat by lia. reflexivity. Qed.
Lemma attach_ok : forall os depths, increasing o_t os -> headings os -> increasing fst depths -> os <> [] ->
  forall vs j k flag out flag', nondecreasing v_t vs ->
  (j < length os)%nat -> (forall v, In v vs -> forall a, (0 < j)%nat -> nth_error os (j - 1) = Some a -> o_t a < v_t v) ->
  (depths <> [] -> (k < length depths)%nat) -> (forall v, In v vs -> forall a, (0 < k)%nat -> nth_error depths (k - 1) = Some a -> fst a < v_t v) ->
  attach os depths j k flag vs = Some (out, flag') -> Forall (result_ok os depths) out /\ map i_vel out = vs.
Proof.
  intros os depths IO HD ID NO. induction vs as [|v vs IH]; intros j k flag out flag' ND J1 J2 K1 K2 E; cbn [attach] in E.
  { injection E as <- <-. split; [constructor|reflexivity]. }
  destruct (adv_orient_spec os (v_t v) j J1 (J2 v (or_introl eq_refl))) as (A1 & [A2 A3] & A4). cbv zeta in A1, A2, A3, A4. set (j' := adv_orient os (v_t v) j) in *.
  set (k' := adv_pair (length depths) depths (v_t v) k) in *.
  destruct (if (j' =? 1)%nat then Some None else _) as [att|] eqn:A; [|discriminate].
  destruct (attach os depths j' k' _ vs) as [[rest fl]|] eqn:R; [|discriminate]. injection E as <- <-.
  assert (forall w, In w vs -> v_t v <= v_t w) as LE by (intros w I; apply In_nth_error in I as [m Hm]; apply (ND 0%nat (S m)); [lia|reflexivity|exact Hm]).
  assert (depths <> [] -> (k' < length depths)%nat /\ (forall a, (0 < k')%nat -> nth_error depths (k' - 1) = Some a -> fst a < v_t v) /\
    (forall a, (S k' < length depths)%nat -> nth_error depths k' = Some a -> v_t v <= fst a)) as KK.
  { intros D. specialize (K1 D). destruct (adv_pair_spec depths (v_t v) (length depths) k ltac:(lia) K1) as (B1 & B2 & B3). fold k' in B1, B2, B3. split; [lia|]. split; [|exact B2].
    intros a P K. destruct (Nat.eq_dec k' k) as [En|En]; [rewrite En in *; apply (K2 v (or_introl eq_refl)); assumption|]. apply B3; [lia|exact K]. }
  destruct (IH j' k' (if (j' =? 1)%nat then true else flag) rest fl) as [F1 F2]; try assumption.
  { intros i i' u u' Hi Hu Hu'. apply (ND (S i) (S i') u u'); [lia|exact Hu|exact Hu']. }
  { intros w I a P K. specialize (LE w I). specialize (A3 a P K). lra. }
  { intros D. apply (KK D). }
  { intros w I a P K. specialize (LE w I). destruct depths as [|d0 depths]; [destruct (k' - 1)%nat; discriminate|]. destruct (KK ltac:(discriminate)) as (_ & B & _). specialize (B a P K). lra. }
  split; [|cbn [map i_vel]; now rewrite F2]. constructor; [|exact F1]. split; cbn [i_vel i_att i_depth].
  - intros o z O1 Z T. assert (2 <= j')%nat as J.
    { destruct (le_lt_dec 2 j') as [L|L]; [exact L|]. exfalso. assert (1 < length os)%nat as L1 by (apply nth_error_Some; congruence).
      assert (exists b, nth_error os j' = Some b) as [b B] by (destruct (nth_error os j') eqn:E; [eauto|apply nth_error_None in E; lia]).
      destruct (Nat.eq_dec (S j') (length os)) as [En|En].
      - assert (j' = 1%nat) as J by lia. pose proof (last_nth os z Z) as Z'. replace (length os - 1)%nat with 1%nat in Z' by lia. rewrite O1 in Z'. injection Z' as <-. lra.
      - specialize (A4 b ltac:(lia) B). assert (o_t b <= o_t o) as BO; [|lra]. destruct (Nat.eq_dec j' 1) as [J|J]; [rewrite J, O1 in B; injection B as <-; lra|]. apply Qlt_le_weak, (IO j' 1%nat); [lia|exact B|exact O1]. }
    destruct (Nat.eqb_spec j' 1) as [J'|_]; [lia|]. rewrite py_nth_pred in A by lia. destruct (nth_error os (j' - 1)) as [a|] eqn:Ea; [|discriminate]. destruct (nth_error os j') as [b|] eqn:Eb; [|discriminate]. injection A as <-.
    eexists. split; [reflexivity|]. exists a, b. split; [exists (j' - 1)%nat; split; [exact Ea|]; replace (S (j' - 1)) with j' by lia; exact Eb|].
    assert (o_t a < v_t v) as TA by (apply (A3 a); [lia|reflexivity]). assert (v_t v <= o_t b) as TB.
    { destruct (Nat.eq_dec (S j') (length os)) as [En|En]; [|apply A4; [lia|reflexivity]]. pose proof (last_nth os z Z) as Z'. replace (length os - 1)%nat with j' in Z' by lia. rewrite Eb in Z'. injection Z' as ->. lra. }
    assert (o_t a < o_t b) as AB by lra. split; [lra|]. unfold attitude_at. cbn [at_roll at_pitch at_yaw]. split; [apply interpolate_on_line; lra|]. split; [apply interpolate_on_line; lra|].
    apply yaw_in_range_short_arc; [exact AB|lra|apply HD; now apply nth_error_In in Ea|apply HD; now apply nth_error_In in Eb].
  - intros a z FA Z T. assert (depths <> []) as D by (destruct FA as (? & ->); discriminate). destruct (KK D) as (B1 & B2 & B3).
    assert (exists x, at_pair depths (v_t v) k' = Some x) as [x X] by now apply at_pair_some.
    assert (pair_inv depths (v_t v) k) as PI by (split; [exact (K1 D)|intros P c; apply (K2 v (or_introl eq_refl)); exact P]).
    destruct (at_pair_polyline depths (v_t v) k x ID PI) as [_ P]; [exact X|]. specialize (P a z FA Z T).
    assert (1 <= k')%nat as K. { destruct (Nat.eq_dec k' 0) as [K|K]; [|lia]. exfalso. destruct FA as (l' & FA). assert (nth_error depths 0 = Some a) as N0 by (rewrite FA; reflexivity).
      rewrite K in *. destruct (Nat.eq_dec (length depths) 1) as [L|L]; [pose proof (last_nth depths z Z) as Z'; rewrite L in Z'; change (1 - 1)%nat with 0%nat in Z'; rewrite N0 in Z'; injection Z' as <-; lra|]. specialize (B3 a ltac:(lia) N0). lra. }
    exists x. split; [|exact P]. clear - X K. destruct k' as [|m]; [lia|exact X].
Qed.
Lemma attach_total : forall os depths, os <> [] -> forall vs j k flag, (j < length os)%nat -> exists out flag', attach os depths j k flag vs = Some (out, flag') /\ length out = length vs.
Proof.
  intros os depths NO. induction vs as [|v vs IH]; intros j k flag J; [exists [], flag; now split|]. cbn [attach].
  assert (adv_orient os (v_t v) j < length os)%nat as J'. { unfold adv_orient. destruct (adv_pair_spec (map (fun o => (o_t o, 0)) os) (v_t v) (length os) j) as (A & _); rewrite ?map_length in *; lia. }
  set (j' := adv_orient os (v_t v) j) in *. destruct (IH j' (adv_pair (length depths) depths (v_t v) k) (if (j' =? 1)%nat then true else flag) J') as (out & fl & -> & L).
  destruct (Nat.eqb_spec j' 1) as [E|E]; [do 2 eexists; split; [reflexivity|cbn [length]; lia]|].
  assert (exists b, nth_error os j' = Some b) as [b ->] by (destruct (nth_error os j') eqn:G; [eauto|apply nth_error_None in G; lia]).
  assert (exists a, py_nth os (Z.of_nat j' - 1) = Some a) as [a ->].
  { destruct (Nat.eq_dec j' 0) as [->|P]; [|rewrite py_nth_pred by lia; destruct (nth_error os (j' - 1)) eqn:G; [eauto|apply nth_error_None in G; lia]].
    change (Z.of_nat 0 - 1)%Z with (-1)%Z. destruct (py_nth_m1 os) as [->| ->]; [|congruence]. destruct (nth_error os (length os - 1)) eqn:G; [eauto|apply nth_error_None in G; destruct os; [congruence|cbn in *; lia]]. }
  do 2 eexists. split; [reflexivity|cbn [length]; lia].
Qed.
(** The flag: some velocity was reached with exactly one orientation before it. *)
Lemma adv_two : forall os t j o, increasing o_t os -> nth_error os 1 = Some o -> (j < length os)%nat -> o_t o < t -> (2 < length os)%nat -> (2 <= adv_orient os t j)%nat.
Proof.
  intros os t j o IO O1 J T L3. unfold adv_orient. destruct (adv_pair_spec (map (fun o => (o_t o, 0)) os) t (length os) j) as (A & B & C); rewrite ?map_length in *; try lia.
  set (n := adv_pair _ _ _ _) in *. destruct (le_lt_dec 2 n) as [L|L]; [exact L|]. exfalso.
  assert (exists b, nth_error os n = Some b) as [b Hb] by (destruct (nth_error os n) eqn:E; [eauto|apply nth_error_None in E; lia]).
  specialize (B (o_t b, 0) ltac:(lia)). rewrite (map_nth_error _ _ _ Hb) in B. specialize (B eq_refl). cbn [fst] in B.
  assert (o_t b <= o_t o) as BO; [|lra]. destruct (Nat.eq_dec n 1) as [N|N]; [rewrite N, O1 in Hb; injection Hb as <-; lra|]. apply Qlt_le_weak, (IO n 1%nat); [lia|exact Hb|exact O1].
Qed.
Lemma attach_flag : forall os depths o, increasing o_t os -> nth_error os 1 = Some o -> (2 < length os)%nat -> forall vs j k flag out flag', (j < length os)%nat ->
  (forall v, In v vs -> o_t o < v_t v) -> attach os depths j k flag vs = Some (out, flag') -> flag' = flag.
Proof.
  intros os depths o IO O1 L3. induction vs as [|v vs IH]; intros j k flag out flag' J H E; cbn [attach] in E; [now injection E|].
  pose proof (adv_two os (v_t v) j o IO O1 J (H v (or_introl eq_refl)) L3) as J2.
  assert (adv_orient os (v_t v) j < length os)%nat as J'. { unfold adv_orient. destruct (adv_pair_spec (map (fun o => (o_t o, 0)) os) (v_t v) (length os) j) as (A & _); rewrite ?map_length in *; lia. }
  set (j' := adv_orient os (v_t v) j) in *. destruct (Nat.eqb_spec j' 1) as [X|_]; [lia|]. destruct (py_nth os _); [|discriminate]. destruct (nth_error os j'); [|discriminate].
  destruct (attach os depths j' _ flag vs) as [[rest fl]|] eqn:R; [|discriminate]. injection E as _ <-. eapply IH; [exact J'| |exact R]. intros w I. apply H. now right.
Qed.


(** ** C80 *)
Lemma combine_nth : forall {A B} (l : list A) (m : list B) k x y, nth_error (combine l m) k = Some (x, y) -> nth_error l k = Some x /\ nth_error m k = Some y.
Proof. intros A B. induction l as [|a l IH]; intros [|b m] [|k] x y E; cbn in *; try discriminate; [injection E as -> ->; auto|now apply IH]. Qed.
Lemma map_fst_combine : forall {A B} (l : list A) (m : list B), length l = length m -> map fst (combine l m) = l.
Proof. intros A B. induction l as [|a l IH]; intros [|b m] E; cbn in *; try discriminate; [reflexivity|]. f_equal. apply IH. lia. Qed.
Lemma attach_vels : forall os depths vs j k flag out flag', attach os depths j k flag vs = Some (out, flag') -> map i_vel out = vs.
Proof.
  induction vs as [|v vs IH]; intros j k flag out flag' E; cbn [attach] in E; [now injection E as <- <-|]. destruct (if (_ =? 1)%nat then Some None else _); [|discriminate].
  destruct (attach os depths _ _ _ vs) as [[rest fl]|] eqn:R; [|discriminate]. injection E as <- _. cbn [map i_vel]. f_equal. eapply IH, R.
Qed.
Lemma track_cases : forall os depths vs, os <> [] -> exists rs (flag : bool), inertial_track os depths vs = Some (if flag then tl (combine rs (dr_track vs)) else combine rs (dr_track vs)) /\
  attach os depths 0 0 false vs = Some (rs, flag) /\ map i_vel rs = vs /\ length rs = length vs.
Proof.
  intros os depths vs NO. assert (0 < length os)%nat as L by (destruct os; [congruence|cbn; lia]). destruct (attach_total os depths NO vs 0 0 false L) as (rs & flag & E & LE).
  exists rs, flag. split; [|split; [exact E|split; [eapply attach_vels, E|exact LE]]]. unfold inertial_track. rewrite E. destruct vs; [|reflexivity]. cbn in E. injection E as <- <-. reflexivity.
Qed.
Lemma tl_skipn : forall {A} (l : list A), tl l = skipn 1 l.
Proof. now intros A [|a l]. Qed.
Lemma map_skipn' : forall {A B} (f : A -> B) n l, map f (skipn n l) = skipn n (map f l).
Proof. intros A B f. induction n as [|n IH]; intros [|a l]; cbn; auto. Qed.
Lemma nth_skipn' : forall {A} n (l : list A) k, nth_error (skipn n l) k = nth_error l (n + k).
Proof. intros A. induction n as [|n IH]; intros [|a l] k; cbn; auto. now destruct k. Qed.
Lemma track_skip : forall os depths vs, os <> [] -> exists rs (flag : bool) n, inertial_track os depths vs = Some (skipn n (combine rs (dr_track vs))) /\
  attach os depths 0 0 false vs = Some (rs, flag) /\ map i_vel rs = vs /\ length rs = length vs /\ n = (if flag then 1 else 0)%nat.
Proof.
  intros os depths vs NO. destruct (track_cases os depths vs NO) as (rs & flag & E & A & M & L). exists rs, flag, (if flag then 1 else 0)%nat. rewrite E. repeat split; try assumption.
  destruct flag; [now rewrite tl_skipn|reflexivity].
Qed.

(** With at least one orientation the stage completes.  Its records are the velocities in order,
    all of them or all but the first, and each position is the area under the velocities from
    the very first one on. *)
Theorem C80_track : forall os depths vs, os <> [] -> exists n out, (n <= 1)%nat /\ inertial_track os depths vs = Some out /\
  map (fun r => i_vel (fst r)) out = skipn n vs /\
  forall k r p, nth_error out k = Some (r, p) -> fst p == area v_n (firstn (S (n + k)) vs) /\ snd p == area v_e (firstn (S (n + k)) vs).
Proof.
  intros os depths vs NO. destruct (track_skip os depths vs NO) as (rs & flag & n & E & A & M & L & N). exists n, (skipn n (combine rs (dr_track vs))).
  split; [destruct flag; lia|]. split; [exact E|]. split.
  - rewrite map_skipn'. f_equal. rewrite <- map_map, map_fst_combine by (rewrite L; symmetry; apply dr_track_length). exact M.
  - intros k r p K. rewrite nth_skipn' in K. apply combine_nth in K as [_ K]. exact (C08_position_is_area_under_velocity vs (n + k) p K).
Qed.
Print Assumptions C80_track.

(** Every published record later than the second orientation, and not later than the last, has
    the attitude on the way between the two orientations around it; and every one within the
    depth samples has the depth on their polyline. *)
Theorem C80_attitude : forall os depths vs out, os <> [] -> increasing o_t os -> headings os -> increasing fst depths -> nondecreasing v_t vs ->
  inertial_track os depths vs = Some out ->
  Forall (fun r => result_ok os depths (fst r)) out.
Proof.
  intros os depths vs out NO IO HD ID ND E. destruct (track_skip os depths vs NO) as (rs & flag & n & E' & A & M & L & _). rewrite E' in E. injection E as <-.
  assert (0 < length os)%nat as L0 by (destruct os; [congruence|cbn; lia]).
  destruct (attach_ok os depths IO HD ID NO vs 0 0 false rs flag) as [F _]; try assumption.
  - intros v _ a P. lia.
  - intros D. destruct depths; [congruence|cbn; lia].
  - intros v _ a P. lia.
  - apply Forall_forall. intros [r p] I. apply In_nth_error in I as [k K]. rewrite nth_skipn' in K. apply combine_nth in K as [K _]. rewrite Forall_forall in F. apply F. eapply nth_error_In, K.
Qed.
Print Assumptions C80_attitude.

(** If all velocities are later than the second of at least three orientations, none is lost. *)
Theorem C80_kept : forall os depths vs o, increasing o_t os -> nth_error os 1 = Some o -> (2 < length os)%nat -> (forall v, In v vs -> o_t o < v_t v) ->
  exists out, inertial_track os depths vs = Some out /\ map (fun r => i_vel (fst r)) out = vs.
Proof.
  intros os depths vs o IO O1 L3 H. assert (os <> []) as NO by (intros ->; discriminate). destruct (track_skip os depths vs NO) as (rs & flag & n & E & A & M & L & N).
  assert (flag = false) as -> by (eapply (attach_flag os depths o IO O1 L3 vs 0 0 false rs flag); [lia|exact H|exact A]). subst n. eexists. split; [exact E|]. cbn [skipn].
  rewrite <- map_map, map_fst_combine by (rewrite L; symmetry; apply dr_track_length). exact M.
Qed.
Print Assumptions C80_kept.

(** False: "every published record within the orientations has an attitude".  Two velocities
    between the first and the second orientation: only one of the two is dropped. *)
Definition exO := [mkOrient 0 1 2 350; mkOrient 10 2 2 352; mkOrient 20 3 2 4].
Definition exD : list (Q * Q) := [(0, 100); (30, 160)].
Theorem C180_no_attitude_refuted : exists os depths vs out r, increasing o_t os /\ headings os /\ nondecreasing v_t vs /\
  (forall v, In v vs -> exists a b, adjacent os a b /\ o_t a < v_t v <= o_t b) /\
  inertial_track os depths vs = Some out /\ In r out /\ i_att (fst r) = None.
Proof.
  exists exO, exD, [mkVel 2 1 1; mkVel 4 1 1]. do 2 eexists. split.
  { intros i j a b H A B. destruct i as [|[|[|i]]], j as [|[|[|j]]]; cbn in A, B; try lia; try (destruct i; discriminate); try (destruct j; discriminate); injection A as <-; injection B as <-; reflexivity. }
  split; [intros o [<-|[<-|[<-|[]]]]; cbn; split; discriminate|]. split.
  { intros i j a b H A B. destruct i as [|[|i]], j as [|[|j]]; cbn in A, B; try lia; try (destruct i; discriminate); try (destruct j; discriminate); injection A as <-; injection B as <-; discriminate. }
  split. { intros v I. exists (mkOrient 0 1 2 350), (mkOrient 10 2 2 352). split; [now exists 0%nat|]. destruct I as [<-|[<-|[]]]; split; try reflexivity; discriminate. }
  split; [vm_compute; reflexivity|]. split; [left; reflexivity|reflexivity].
Qed.
Print Assumptions C180_no_attitude_refuted.

(** False: "the attitude published lies within the orientations recorded".  A velocity before the
    first orientation is placed on the line through the last and the first one. *)
Theorem C180_early_refuted : exists os depths vs out r x, increasing o_t os /\ inertial_track os depths vs = Some out /\ In r out /\ i_att (fst r) = Some x /\
  forall o, In o os -> at_roll x < o_roll o.
Proof.
  exists exO, exD, [mkVel (-5) 1 1]. do 3 eexists. split.
  { intros i j a b H A B. destruct i as [|[|[|i]]], j as [|[|[|j]]]; cbn in A, B; try lia; try (destruct i; discriminate); try (destruct j; discriminate); injection A as <-; injection B as <-; reflexivity. }
  split; [vm_compute; reflexivity|]. split; [left; reflexivity|]. split; [reflexivity|]. intros o [<-|[<-|[<-|[]]]]; reflexivity.
Qed.
Print Assumptions C180_early_refuted.

Example C80_ex : match inertial_track exO exD [mkVel 5 1 0; mkVel 15 2 1; mkVel 20 2 1] with
  | Some [(mkiv v1 (Some a1) (Some d1), p1); (mkiv v2 (Some a2) (Some d2), p2)] =>
      v_t v1 == 15 /\ at_roll a1 == 5 # 2 /\ at_yaw a1 == 358 /\ d1 == 130 /\ pos_eq p1 (15, 5) /\ v_t v2 == 20 /\ at_yaw a2 == 4 /\ d2 == 140 /\ pos_eq p2 (25, 10)
  | _ => False end.
Proof. vm_compute. repeat split; reflexivity. Qed.
Example C80_ex_empty : inertial_track [] exD [] = Some [] /\ inertial_track [] exD [mkVel 1 1 1] = None.
Proof. split; reflexivity. Qed.
