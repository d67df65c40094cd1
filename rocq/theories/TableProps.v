(** C82: the table parsers (ALR, Autosub, koyo21 ROV) report one measurement per time. *)
From Coq Require Import Reals.
From Verif Require Import PyBase TimeModel InterpSpec TableModel.
Open Scope Q_scope.

(** What is reported, in order of time: for every time with a usable row, what the last usable row of
    that time gives.  [gives r m]: the row [r] is usable and the measurement is [m]. *)
Definition one_per_time {A V} (ta : A -> Q) (tv : V -> Q) (gives : A -> V -> Prop) (rows : list A) (out : list V) : Prop :=
  increasing tv out /\
  forall m, In m out <->
    exists l r rest, rows = l ++ r :: rest /\ gives r m /\ forall r' m', In r' rest -> gives r' m' -> ta r < ta r'.

(** [out] is [l] with some elements left out. *)
Inductive subsequence {A} : list A -> list A -> Prop :=
| sub_nil : subsequence [] []
| sub_take a s l : subsequence s l -> subsequence (a :: s) (a :: l)
| sub_skip a s l : subsequence s l -> subsequence s (a :: l).

(** ** The loop *)
Section Loop.
  Context {V : Type}.
  Variable time : V -> Q.
  Fixpoint lasts (vs : list V) : list V :=
    match vs with
    | v :: (w :: _) as r => if Qltb (time v) (time w) then v :: lasts r else lasts r
    | l => l
    end.
  Lemma collect_lasts : forall vs h o, collect time (time h) (h :: o) vs = Some (rev o ++ lasts (h :: vs)).
  Proof.
    induction vs as [|v r IH]; intros h o; cbn [collect].
    - reflexivity.
    - cbn [lasts]. destruct (Qltb (time h) (time v)); rewrite IH; cbn [rev]; [rewrite <- app_assoc|]; reflexivity.
  Qed.
  Lemma parse_lasts : forall vs, (forall v, In v vs -> 0 < time v) -> parse time vs = Some (lasts vs).
  Proof.
    intros [|v r] P; [reflexivity|]. unfold parse. cbn [collect].
    assert (Qltb 0 (time v) = true) as -> by (apply Qltb_lt, P; now left). now rewrite collect_lasts.
  Qed.

  Lemma nondecreasing_cons : forall (f : V -> Q) v r, nondecreasing f (v :: r) -> nondecreasing f r /\ forall w, In w r -> f v <= f w.
  Proof.
    intros f v r N. split.
    - intros i j a b I A B. apply (N (S i) (S j) a b); [lia|exact A|exact B].
    - intros w W. apply In_nth_error in W. destruct W as [i I]. apply (N 0%nat (S i) v w); [lia|reflexivity|exact I].
  Qed.
  Lemma lasts_incl : forall vs m, In m (lasts vs) -> In m vs.
  Proof.
    induction vs as [|v r IH]; [easy|]. intros m. destruct r as [|w r]; [easy|]. cbn [lasts].
    destruct (Qltb (time v) (time w)); [intros [<-|M]; [now left|]|intros M]; right; now apply IH.
  Qed.
  Lemma lasts_iff : forall vs, nondecreasing time vs -> forall m,
    In m (lasts vs) <-> exists l r, vs = l ++ m :: r /\ forall m', In m' r -> time m < time m'.
  Proof.
    induction vs as [|v r IH]; intros N m.
    { split; [intros []|]. intros (l & r & E & _). destruct l; discriminate. }
    destruct (nondecreasing_cons _ _ _ N) as [N' L]. specialize (IH N' m).
    assert (In m (lasts r) -> exists l r', v :: r = l ++ m :: r' /\ forall m', In m' r' -> time m < time m') as K.
    { intros M. apply IH in M. destruct M as (l & r' & -> & M). now exists (v :: l), r'. }
    assert (forall l r', v :: r = l ++ m :: r' -> (forall m', In m' r' -> time m < time m') -> l <> [] -> In m (lasts r)) as K'.
    { intros [|x l] r' E M Ne; [now destruct Ne|]. injection E as _ ->. apply IH. now exists l, r'. }
    destruct r as [|w r].
    - cbn [lasts In]. split.
      + intros [<-|[]]. exists [], []. split; [reflexivity|intros _ []].
      + intros ([|x l] & r' & E & _); [injection E as <- _; now left|]. injection E as _ E. destruct l; discriminate.
    - cbn [lasts]. destruct (Qltb (time v) (time w)) eqn:W.
      + apply Qltb_lt in W. split.
        * intros [<-|M]; [|now apply K]. exists [], (w :: r). split; [reflexivity|]. intros m' [<-|M']; [exact W|].
          apply Qlt_le_trans with (time w); [exact W|]. now apply (proj2 (nondecreasing_cons _ _ _ N')).
        * intros (l & r' & E & M). destruct l as [|x l]; [injection E as <- _; now left|]. right. now apply (K' (x :: l) r').
      + apply Qltb_ge in W. split; [apply K|]. intros (l & r' & E & M). destruct l as [|x l]; [|now apply (K' (x :: l) r')].
        injection E as <- <-. specialize (M w (or_introl eq_refl)). lra.
  Qed.
  Lemma increasing_cons : forall v r, (forall w, In w r -> time v < time w) -> increasing time r -> increasing time (v :: r).
  Proof.
    intros v r L I [|i] [|j] a b IJ A B; try lia; cbn [nth_error] in *.
    - injection A as <-. apply L. eapply nth_error_In. exact B.
    - apply (I i j); [lia|exact A|exact B].
  Qed.
  Lemma lasts_increasing : forall vs, nondecreasing time vs -> increasing time (lasts vs).
  Proof.
    induction vs as [|v r IH]; intros N; [intros [|i] j a b _ A; discriminate|].
    destruct (nondecreasing_cons _ _ _ N) as [N' L]. specialize (IH N'). destruct r as [|w r].
    - cbn [lasts]. apply increasing_cons; [intros w []|intros [|i] j a b _ A; discriminate].
    - change (lasts (v :: w :: r)) with (if Qltb (time v) (time w) then v :: lasts (w :: r) else lasts (w :: r)).
      destruct (Qltb (time v) (time w)) eqn:W; [|exact IH]. apply Qltb_lt in W. apply increasing_cons; [|exact IH].
      intros u U. apply lasts_incl in U. destruct U as [<-|U]; [exact W|].
      apply Qlt_le_trans with (time w); [exact W|]. now apply (proj2 (nondecreasing_cons _ _ _ N')).
  Qed.
End Loop.

Section Table.
  Context {A V : Type}.
  Variables (ta : A -> Q) (tv : V -> Q) (pick : A -> list V) (gives : A -> V -> Prop).
  Hypothesis pick_gives : forall r, (exists m, pick r = [m] /\ (forall m', gives r m' <-> m' = m) /\ tv m = ta r) \/ (pick r = [] /\ forall m, ~ gives r m).

  Lemma picked : forall rows m, In m (flat_map pick rows) -> exists r, In r rows /\ gives r m /\ tv m = ta r.
  Proof.
    intros rows m M. apply in_flat_map in M. destruct M as (r & R & M). exists r. split; [exact R|].
    destruct (pick_gives r) as [(x & E & G & T)|[E _]]; rewrite E in M; [|destruct M]. destruct M as [<-|[]]. split; [now apply G|exact T].
  Qed.
  Lemma picked_in : forall rows r m, In r rows -> gives r m -> In m (flat_map pick rows) /\ tv m = ta r.
  Proof.
    intros rows r m R G. destruct (pick_gives r) as [(x & E & G' & T)|[_ N]]; [|now apply N in G]. apply G' in G. subst x.
    split; [|exact T]. apply in_flat_map. exists r. split; [exact R|]. rewrite E. now left.
  Qed.
  Lemma nondecreasing_flat : forall rows, nondecreasing ta rows -> nondecreasing tv (flat_map pick rows).
  Proof.
    induction rows as [|r rows IH]; intros N; [intros [|i] j a b _ E; discriminate|].
    destruct (nondecreasing_cons ta _ _ N) as [N' L]. specialize (IH N'). cbn [flat_map].
    destruct (pick_gives r) as [(x & E & G & T)|[E _]]; rewrite E; cbn [app]; [|exact IH].
    intros [|i] [|j] a b IJ Ha Hb; try lia; cbn [nth_error] in *.
    - injection Ha as <-. apply nth_error_In in Hb. apply picked in Hb. destruct Hb as (r' & R & _ & T'). rewrite T, T'. now apply L.
    - apply (IH i j); [lia|exact Ha|exact Hb].
  Qed.
  Lemma flat_split : forall rows l m rest, flat_map pick rows = l ++ m :: rest ->
    exists rl r rr, rows = rl ++ r :: rr /\ pick r = [m] /\ flat_map pick rr = rest.
  Proof.
    induction rows as [|r rows IH]; intros l m rest E; cbn [flat_map] in E; [destruct l; discriminate|].
    destruct (pick_gives r) as [(x & P & _)|[P _]]; rewrite P in E; cbn [app] in E.
    - destruct l as [|y l]; cbn [app] in E.
      + injection E as -> E. exists [], r, rows. auto.
      + injection E as _ E. destruct (IH _ _ _ E) as (rl & r' & rr & -> & K). now exists (r :: rl), r', rr.
    - destruct (IH _ _ _ E) as (rl & r' & rr & -> & K). now exists (r :: rl), r', rr.
  Qed.

  Lemma parse_table : forall rows, nondecreasing ta rows -> (forall r, In r rows -> 0 < ta r) ->
    exists out, parse tv (flat_map pick rows) = Some out /\ one_per_time ta tv gives rows out.
  Proof.
    intros rows N P. exists (lasts tv (flat_map pick rows)). pose proof (nondecreasing_flat rows N) as NF. split.
    - apply parse_lasts. intros v I. apply picked in I. destruct I as (r & R & _ & T). rewrite T. now apply P.
    - split; [now apply lasts_increasing|]. intros m. rewrite (lasts_iff tv _ NF). split.
      + intros (l & rest & E & M). destruct (flat_split _ _ _ _ E) as (rl & r & rr & -> & Pk & <-). exists rl, r, rr. split; [reflexivity|].
        destruct (pick_gives r) as [(x & Px & G & T)|[Pn _]]; [|congruence]. assert (x = m) as -> by congruence. split; [now apply G|].
        intros r' m' R' G'. destruct (picked_in rr r' m' R' G') as [I' T']. rewrite <- T, <- T'. now apply M.
      + intros (rl & r & rr & -> & G & M). exists (flat_map pick rl), (flat_map pick rr).
        destruct (pick_gives r) as [(x & Px & G' & T)|[_ Nn]]; [|now apply Nn in G]. apply G' in G. subst x. split.
        * rewrite flat_map_app. cbn [flat_map]. now rewrite Px.
        * intros m' I'. apply picked in I'. destruct I' as (r' & R' & G'' & T'). rewrite T, T'. now apply (M r' m').
  Qed.
End Table.
Lemma map_flat : forall {A V} (f : A -> V) l, map f l = flat_map (fun r => [f r]) l.
Proof. intros A V f l. induction l; cbn; congruence. Qed.

(** ** ALR *)
Definition alr_ok (rows : list alr_row) : Prop := nondecreasing a_t rows /\ forall r, In r rows -> 0 < a_t r.
Definition alr_gives_velocity (factor offset : Q) (r : alr_row) (m : velocity) : Prop :=
  a_lock r = 1%Z /\ exists x y z, a_vx r = Some x /\ a_vy r = Some y /\ a_vz r = Some z /\
    m = mkvelocity (a_t r) x (Qabs x * factor + offset) y (Qabs y * factor + offset) z (Qabs z * factor + offset).
Ltac gives_some := left; eexists; split; [reflexivity|split; [intros m; split|reflexivity]].
Ltac gives_none := right; split; [reflexivity|].
Theorem C82_alr_velocity : forall factor offset rows, alr_ok rows ->
  exists out, alr_velocity factor offset rows = Some out /\ one_per_time a_t v_t (alr_gives_velocity factor offset) rows out.
Proof.
  intros factor offset rows [N P]. apply parse_table; [|exact N|exact P]. intros r. unfold alr_gives_velocity.
  destruct (Z.eqb_spec (a_lock r) 1) as [L|L]; [|gives_none; intros m [K _]; contradiction].
  destruct (a_vx r) as [x|] eqn:X, (a_vy r) as [y|] eqn:Y, (a_vz r) as [z|] eqn:Z;
    try (gives_none; intros m (_ & x' & y' & z' & K1 & K2 & K3 & _); discriminate).
  gives_some.
  - intros (_ & x' & y' & z' & [= <-] & [= <-] & [= <-] & ->). reflexivity.
  - intros ->. split; [exact L|]. exists x, y, z. auto.
Qed.
Print Assumptions C82_alr_velocity.
Definition alr_gives_orientation (std : Q) (r : alr_row) (m : orientation) : Prop :=
  exists x y z, a_roll r = Some x /\ a_pitch r = Some y /\ a_heading r = Some z /\
    m = mkorientation (a_t r) (x * 180 / PI) (y * 180 / PI) (z * 180 / PI) std.
Theorem C82_alr_orientation : forall std rows, alr_ok rows ->
  exists out, alr_orientation std rows = Some out /\ one_per_time a_t o_t (alr_gives_orientation std) rows out.
Proof.
  intros std rows [N P]. apply parse_table; [|exact N|exact P]. intros r. unfold alr_gives_orientation.
  destruct (a_roll r) as [x|], (a_pitch r) as [y|], (a_heading r) as [z|];
    try (gives_none; intros m (x' & y' & z' & K1 & K2 & K3 & _); discriminate).
  gives_some.
  - intros (x' & y' & z' & [= <-] & [= <-] & [= <-] & ->). reflexivity.
  - intros ->. exists x, y, z. auto.
Qed.
Print Assumptions C82_alr_orientation.
Definition alr_gives_depth (factor : Q) (r : alr_row) (m : scalar) : Prop := exists d, a_depth r = Some d /\ m = mkscalar (a_t r) d (d * factor).
Theorem C82_alr_depth : forall factor rows, alr_ok rows ->
  exists out, alr_depth factor rows = Some out /\ one_per_time a_t s_t (alr_gives_depth factor) rows out.
Proof.
  intros factor rows [N P]. apply parse_table; [|exact N|exact P]. intros r. unfold alr_gives_depth.
  destruct (a_depth r) as [x|]; [|gives_none; intros m (d & K & _); discriminate].
  gives_some; [intros (d & [= <-] & ->); reflexivity|intros ->; now exists x].
Qed.
Print Assumptions C82_alr_depth.
Definition alr_gives_altitude (factor : Q) (r : alr_row) (m : scalar) : Prop :=
  a_lock r = 1%Z /\ exists a, a_alt r = Some a /\ m = mkscalar (a_t r) a (a * factor).
Theorem C82_alr_altitude : forall factor rows, alr_ok rows ->
  exists out, alr_altitude factor rows = Some out /\ one_per_time a_t s_t (alr_gives_altitude factor) rows out.
Proof.
  intros factor rows [N P]. apply parse_table; [|exact N|exact P]. intros r. unfold alr_gives_altitude.
  destruct (Z.eqb_spec (a_lock r) 1) as [L|L]; [|gives_none; intros m [K _]; contradiction].
  destruct (a_alt r) as [x|]; [|gives_none; intros m (_ & d & K & _); discriminate].
  gives_some; [intros (_ & d & [= <-] & ->); reflexivity|intros ->; split; [exact L|now exists x]].
Qed.
Print Assumptions C82_alr_altitude.
(** A GPS fix without a depth is reported without a standard deviation (NaN). *)
Definition alr_gives_fix (factor offset : Q) (r : alr_row) (m : position) : Prop :=
  exists la lo, a_lat r = Some la /\ a_lon r = Some lo /\ p_t m = a_t r /\ p_lat m = Some la /\ p_lon m = Some lo /\ p_depth m = a_depth r /\
    (a_depth r = None -> p_std m = None) /\ forall d, a_depth r = Some d -> p_std m = Some (factor * d + offset).
Theorem C82_alr_fix : forall factor offset rows, alr_ok rows ->
  exists out, alr_usbl factor offset rows = Some out /\ one_per_time a_t p_t (alr_gives_fix factor offset) rows out.
Proof.
  intros factor offset rows [N P]. apply parse_table; [|exact N|exact P]. intros r. unfold alr_gives_fix.
  destruct (a_lat r) as [x|], (a_lon r) as [y|]; try (gives_none; intros m (la & lo & K1 & K2 & _); discriminate).
  gives_some.
  - intros (la & lo & [= <-] & [= <-] & T & A & O & D & S1 & S2). destruct m as [mt ml mo md ms]; cbn in *. subst.
    unfold fix_at. destruct (a_depth r) as [d|]; cbn; [now rewrite (S2 d eq_refl)|now rewrite (S1 eq_refl)].
  - intros ->. exists x, y. cbn. repeat split; try reflexivity; intros; [rewrite H|rewrite H]; reflexivity.
Qed.
Print Assumptions C82_alr_fix.

(** ** Autosub *)
Theorem C82_autosub_velocity : forall rows, nondecreasing ad_t rows -> (forall r, In r rows -> 0 < ad_t r) ->
  exists out, autosub_velocity rows = Some out /\
    one_per_time ad_t v_t (fun r m => v_t m = ad_t r /\ v_x m = - ad_north r * (1 # 1000) /\ v_y m = - ad_east r * (1 # 1000) /\
      v_z m = - ad_down r * (1 # 1000) /\ v_x_std m = ad_err r * (1 # 1000) /\ v_y_std m = ad_err r * (1 # 1000) /\ v_z_std m = ad_err r * (1 # 1000)) rows out.
Proof.
  intros rows N P. unfold autosub_velocity. rewrite map_flat. apply parse_table; [|exact N|exact P]. intros r. gives_some.
  - intros (A & B & C & D & E & F & G). destruct m; cbn in *. subst. reflexivity.
  - intros ->. repeat split.
Qed.
Print Assumptions C82_autosub_velocity.
Theorem C82_autosub_orientation : forall std (rows : list (Q * R * R * R)),
  nondecreasing (fun r => fst (fst (fst r))) rows -> (forall r, In r rows -> 0 < fst (fst (fst r))) ->
  exists out, autosub_orientation std rows = Some out /\
    one_per_time (fun r => fst (fst (fst r))) o_t (fun r m => let '(t, a, b, c) := r in
      m = mkorientation t (a * 180 / PI) (b * 180 / PI) (c * 180 / PI) std) rows out.
Proof.
  intros std rows N P. unfold autosub_orientation. rewrite map_flat. apply parse_table; [|exact N|exact P]. intros [[[t a] b] c]. gives_some; [intros ->|intros ->]; reflexivity.
Qed.
Print Assumptions C82_autosub_orientation.
Theorem C82_autosub_scalar : forall factor (rows : list (Q * Q)), nondecreasing fst rows -> (forall r, In r rows -> 0 < fst r) ->
  exists out, autosub_scalar factor rows = Some out /\ one_per_time fst s_t (fun r m => m = mkscalar (fst r) (snd r) (snd r * factor)) rows out.
Proof.
  intros factor rows N P. unfold autosub_scalar. rewrite map_flat. apply parse_table; [|exact N|exact P]. intros [t a]. gives_some; intros ->; reflexivity.
Qed.
Print Assumptions C82_autosub_scalar.

(** ** koyo21 ROV *)
Definition clock_of (machine : Z) (r : koyo_row) : Q :=
  inject_Z (utc_seconds (k_year r) (k_month r) (k_day r) (k_hour r) (k_min r) (k_sec r)) - inject_Z machine.
Definition koyo_ok (machine : Z) (rows : list koyo_row) : Prop :=
  nondecreasing (clock_of machine) rows /\ forall r, In r rows -> 0 < clock_of machine r.
Lemma mktime_clock : forall machine r, mktime machine r == clock_of machine r.
Proof. intros. unfold mktime, clock_of, Z.sub. rewrite inject_Z_plus, inject_Z_opp. reflexivity. Qed.
Lemma koyo_ok_mktime : forall machine rows, koyo_ok machine rows -> nondecreasing (mktime machine) rows /\ forall r, In r rows -> 0 < mktime machine r.
Proof.
  intros machine rows [N P]. split; [intros i j a b I A B; rewrite !mktime_clock; now apply (N i j)|intros r R; rewrite mktime_clock; now apply P].
Qed.
Definition koyo_gives_orientation (machine : Z) (std : Q) (r : koyo_row) (m : orientation) : Prop :=
  exists x y z, k_roll r = Some x /\ k_pitch r = Some y /\ k_heading r = Some z /\ m = mkorientation (mktime machine r) x y z std.
Theorem C82_koyo_orientation : forall machine std rows, koyo_ok machine rows ->
  exists out, koyo_orientation machine std rows = Some out /\ one_per_time (mktime machine) o_t (koyo_gives_orientation machine std) rows out.
Proof.
  intros machine std rows H. apply koyo_ok_mktime in H. destruct H as [N P]. apply parse_table; [|exact N|exact P]. intros r. unfold koyo_gives_orientation.
  destruct (k_roll r) as [x|], (k_pitch r) as [y|], (k_heading r) as [z|];
    try (gives_none; intros m (x' & y' & z' & K1 & K2 & K3 & _); discriminate).
  gives_some.
  - intros (x' & y' & z' & [= <-] & [= <-] & [= <-] & ->). reflexivity.
  - intros ->. exists x, y, z. auto.
Qed.
Print Assumptions C82_koyo_orientation.
Theorem C82_koyo_scalar : forall machine factor rows, koyo_ok machine rows ->
  (exists out, koyo_depth machine factor rows = Some out /\
     one_per_time (mktime machine) s_t (fun r m => exists d, k_depth r = Some d /\ m = mkscalar (mktime machine r) d (d * factor)) rows out) /\
  (exists out, koyo_altitude machine factor rows = Some out /\
     one_per_time (mktime machine) s_t (fun r m => exists d, k_alt r = Some d /\ m = mkscalar (mktime machine r) d (d * factor)) rows out).
Proof.
  intros machine factor rows H. apply koyo_ok_mktime in H. destruct H as [N P]. split; (apply parse_table; [|exact N|exact P]); intros r.
  - destruct (k_depth r) as [x|]; [|gives_none; intros m (d & K & _); discriminate]. gives_some; [intros (d & [= <-] & ->); reflexivity|intros ->; now exists x].
  - destruct (k_alt r) as [x|]; [|gives_none; intros m (d & K & _); discriminate]. gives_some; [intros (d & [= <-] & ->); reflexivity|intros ->; now exists x].
Qed.
Print Assumptions C82_koyo_scalar.
(** The speed forward and down; the speed to the side is reported as zero with the least uncertainty. *)
Theorem C82_koyo_velocity : forall machine factor offset rows, koyo_ok machine rows ->
  exists out, koyo_velocity machine factor offset rows = Some out /\
    one_per_time (mktime machine) v_t (fun r m => exists x z, k_surge r = Some x /\ k_heave r = Some z /\
      m = mkvelocity (mktime machine r) x (Qabs x * factor + offset) 0 (Qabs 0 * factor + offset) z (Qabs z * factor + offset)) rows out.
Proof.
  intros machine factor offset rows H. apply koyo_ok_mktime in H. destruct H as [N P]. apply parse_table; [|exact N|exact P]. intros r.
  destruct (k_surge r) as [x|], (k_heave r) as [z|]; try (gives_none; intros m (x' & z' & K1 & K2 & _); discriminate).
  gives_some; [intros (x' & z' & [= <-] & [= <-] & ->); reflexivity|intros ->; now exists x, z].
Qed.
Print Assumptions C82_koyo_velocity.
(** Positions are reported whenever there is a depth. *)
Theorem C82_koyo_fix : forall machine factor offset rows, koyo_ok machine rows ->
  exists out, koyo_usbl machine factor offset rows = Some out /\
    one_per_time (mktime machine) p_t (fun r m => exists d, k_depth r = Some d /\
      m = mkposition (mktime machine r) (k_lat r) (k_lon r) (Some d) (Some (factor * d + offset))) rows out.
Proof.
  intros machine factor offset rows H. apply koyo_ok_mktime in H. destruct H as [N P]. apply parse_table; [|exact N|exact P]. intros r.
  destruct (k_depth r) as [x|]; [|gives_none; intros m (d & K & _); discriminate]. gives_some; [intros (d & [= <-] & ->); reflexivity|intros ->; now exists x].
Qed.
Print Assumptions C82_koyo_fix.

(** ** C83: tables that are not in order of time, incomplete rows, the computer's zone *)
(** In any table whose first usable row is after 1970, exactly the measurements followed by a later one, or
    by none, are reported, in the order of the table. *)
Arguments sub_take {A}.
Lemma lasts_any : forall {V} (time : V -> Q) vs,
  subsequence (lasts time vs) vs /\
  forall l m r, vs = l ++ m :: r -> (r = [] \/ exists m' r', r = m' :: r' /\ time m < time m') -> In m (lasts time vs).
Proof.
  intros V time. induction vs as [|v vs [IH1 IH2]]; [split; [constructor|intros l m r E; destruct l; discriminate]|]. split.
  - destruct vs as [|w vs]; [exact (sub_take _ _ _ IH1)|].
    change (lasts time (v :: w :: vs)) with (if Qltb (time v) (time w) then v :: lasts time (w :: vs) else lasts time (w :: vs)).
    destruct (Qltb (time v) (time w)); [now apply sub_take|now apply sub_skip].
  - intros [|x l] m r E K.
    + injection E as <- <-. destruct vs as [|w vs]; [now left|]. destruct K as [K|(m' & r' & K & L)]; [discriminate|]. injection K as <- <-.
      change (lasts time (v :: w :: vs)) with (if Qltb (time v) (time w) then v :: lasts time (w :: vs) else lasts time (w :: vs)).
      apply Qltb_lt in L. rewrite L. now left.
    + injection E as -> E. specialize (IH2 l m r E K). destruct vs as [|w vs]; [destruct l; discriminate|].
      change (lasts time (x :: w :: vs)) with (if Qltb (time x) (time w) then x :: lasts time (w :: vs) else lasts time (w :: vs)).
      destruct (Qltb (time x) (time w)); [now right|exact IH2].
Qed.
Theorem C83_any_order_partial : forall {V} (time : V -> Q) v vs, 0 < time v ->
  exists out, parse time (v :: vs) = Some out /\ subsequence out (v :: vs) /\
    forall l m r, v :: vs = l ++ m :: r -> (r = [] \/ exists m' r', r = m' :: r' /\ time m < time m') -> In m out.
Proof.
  intros V time v vs P. exists (lasts time (v :: vs)). split; [|apply lasts_any].
  unfold parse. cbn [collect]. apply Qltb_lt in P. rewrite P. now rewrite collect_lasts.
Qed.
Print Assumptions C83_any_order_partial.
(** When the clock goes back by a second, the measurement before the step is lost and the one after it is
    reported out of order. *)
Definition dive (t d : Q) : alr_row := mkalr t 0 None None None None None None (Some d) None None None.
Theorem C83_backwards_refuted : exists rows out r, (forall x, In x rows -> 0 < a_t x) /\ In r rows /\
  (forall x, In x rows -> a_t x == a_t r -> x = r) /\ alr_depth 1 rows = Some out /\
  ~ (exists m, In m out /\ s_t m == a_t r) /\ ~ increasing s_t out.
Proof.
  exists [dive 10 1; dive 11 2; dive 12 3; dive (21 # 2) 4]. eexists. exists (dive 12 3).
  split; [intros x [<-|[<-|[<-|[<-|[]]]]]; reflexivity|]. split; [right; right; now left|].
  split; [intros x [<-|[<-|[<-|[<-|[]]]]] E; try reflexivity; discriminate|]. split; [reflexivity|]. split.
  - intros (m & [<-|[<-|[<-|[]]]] & E); discriminate.
  - intros I. specialize (I 1%nat 2%nat _ _ ltac:(lia) eq_refl eq_refl). discriminate.
Qed.
Print Assumptions C83_backwards_refuted.
(** A GPS fix of the ALR without depth, or a koyo21 row with a depth but no position, is reported. *)
Theorem C83_fix_refuted : exists r out, a_depth r = None /\ alr_usbl 1 1 [r] = Some out /\ out <> [] /\ forall m, In m out -> p_std m = None.
Proof.
  exists (mkalr 10 0 None None None None None None None None (Some 50) (Some 1)). eexists. split; [reflexivity|]. split; [reflexivity|].
  split; [discriminate|]. intros m [<-|[]]. reflexivity.
Qed.
Print Assumptions C83_fix_refuted.
Definition koyo_bare (h : Z) (d : option Q) : koyo_row := mkkoyo 2021 11 17 h 0 0 None None None d None None None None None.
Theorem C83_no_position_refuted : exists r out, k_lat r = None /\ koyo_usbl 0 1 1 [r] = Some out /\ out <> [].
Proof. exists (koyo_bare 1 (Some 10)). eexists. split; [reflexivity|]. split; [reflexivity|discriminate]. Qed.
Print Assumptions C83_no_position_refuted.
(** The same koyo21 log gives other times on a computer in another zone. *)
Theorem C83_zone_refuted : exists rows out1 out2, koyo_depth 0 1 rows = Some out1 /\ koyo_depth 32400 1 rows = Some out2 /\ map s_t out1 <> map s_t out2.
Proof. exists [koyo_bare 12 (Some 5)]. do 2 eexists. split; [reflexivity|]. split; [reflexivity|discriminate]. Qed.
Print Assumptions C83_zone_refuted.

Example C82_ex : alr_velocity (1 # 10) 1 [mkalr 5 1 (Some 2) (Some (-3)) (Some 0) None None None None None None None;
    mkalr 6 0 (Some 9) (Some 9) (Some 9) None None None None None None None; mkalr 7 1 (Some 9) None (Some 9) None None None None None None None;
    mkalr 8 1 (Some 1) (Some 1) (Some 1) None None None None None None None; mkalr 8 1 (Some 4) (Some 1) (Some 1) None None None None None None None]
  = Some [mkvelocity 5 2 (Qabs 2 * (1 # 10) + 1) (-3) (Qabs (-3) * (1 # 10) + 1) 0 (Qabs 0 * (1 # 10) + 1);
          mkvelocity 8 4 (Qabs 4 * (1 # 10) + 1) 1 (Qabs 1 * (1 # 10) + 1) 1 (Qabs 1 * (1 # 10) + 1)].
Proof. reflexivity. Qed.
Example C82_koyo_ex : koyo_ok 32400 [koyo_bare 12 (Some 5); koyo_bare 13 None; koyo_bare 13 (Some 6)] /\
  option_map (map s_t) (koyo_depth 32400 1 [koyo_bare 12 (Some 5); koyo_bare 13 None; koyo_bare 13 (Some 6)]) = Some [1637118000; 1637121600].
Proof.
  split; [|reflexivity]. split; [|intros r [<-|[<-|[<-|[]]]]; reflexivity].
  intros i j a b I A B. do 3 (destruct i as [|i]; [do 3 (destruct j as [|j]; [try lia; cbn in A, B; injection A as <-; injection B as <-; discriminate|]); destruct j; discriminate|]). destruct i; discriminate.
Qed.
