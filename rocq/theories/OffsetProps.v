(** C78: dead reckoning is shifted to the USBL fixes on average. *)
From Coq Require Import Qfield.
From Verif Require Import PyBase InterpModel InterpSpec OffsetModel.
Open Scope Q_scope.

(** ** Specification *)
(** [p] is the track position at time [t], on the line of the neighbouring samples [a] and [b]. *)
Definition on_track (a b : fix_) (t : Q) (p : fix_) : Prop := f_t p = t /\ on_line (f_t a) (f_n a) (f_t b) (f_n b) t (f_n p) /\ on_line (f_t a) (f_e a) (f_t b) (f_e b) t (f_e p).
(** The track position at the time of a fix, between the samples around it. *)
Definition inside (dr : list fix_) (u p : fix_) : Prop := exists a b, adjacent dr a b /\ f_t a <= f_t u <= f_t b /\ on_track a b (f_t u) p.
(** The same without the lower bound: the line may be continued backwards. *)
Definition up_to (dr : list fix_) (u p : fix_) : Prop := exists a b, adjacent dr a b /\ f_t u <= f_t b /\ on_track a b (f_t u) p.
(** Mean of [g] over pairs of fixes and track positions. *)
Fixpoint total (l : list Q) : Q := match l with [] => 0 | x :: l => x + total l end.
Definition residuals (g : fix_ -> Q) (us ps : list fix_) : list Q := map (fun x => g (fst x) - g (snd x)) (combine us ps).
(** Fixes less than 20 s apart, with a track sample between any two. *)
Definition regular (dr us : list fix_) : Prop := forall u v, adjacent us u v -> f_t v - f_t u < 20 /\ exists d, In d dr /\ f_t u <= f_t d <= f_t v.

(** ** Sums *)
Lemma sum_total : forall l, sum l == total l.
Proof.
  intros l. unfold sum. assert (forall l x, fold_left Qplus l x == x + total l) as G; [|rewrite G; ring].
  clear. induction l as [|y l IH]; intros x; cbn [fold_left total]; [ring|]. rewrite IH. ring.
Qed.
Lemma total_app : forall a b, total (a ++ b) == total a + total b.
Proof. induction a as [|x a IH]; intros b; cbn [app total]; [ring|]. rewrite IH. ring. Qed.
Lemma total_res : forall g us ps, length us = length ps -> total (residuals g us ps) == total (map g us) - total (map g ps).
Proof.
  intros g. induction us as [|u us IH]; intros [|p ps] L; try discriminate; unfold residuals; cbn [combine map total fst snd]; [ring|]. fold (residuals g us ps). rewrite IH by (cbn in L; lia). ring.
Qed.
Lemma total_eq : forall g h (l : list fix_) c, (forall x, In x l -> g x == h x + c) -> total (map g l) == total (map h l) + inject_Z (Z.of_nat (length l)) * c.
Proof.
  intros g h l c H. induction l as [|x l IH]; cbn [map total length]; [cbn; ring|]. rewrite IH by (intros y Y; apply H; now right). rewrite (H x) by now left.
  rewrite Nat2Z.inj_succ, <- Z.add_1_l, inject_Z_plus. ring.
Qed.
Lemma of_nat_pos : forall n, (0 < n)%nat -> ~ inject_Z (Z.of_nat n) == 0.
Proof. intros n H E. change 0 with (inject_Z 0) in E. apply (proj1 (inject_Z_injective _ _)) in E. lia. Qed.
Lemma offset_res : forall g us ps o, (length ps <= length us)%nat -> offset_of g us ps = Some o ->
  ps <> [] /\ total (residuals g (firstn (length ps) us) ps) == inject_Z (Z.of_nat (length ps)) * o.
Proof.
  intros g us ps o L E. unfold offset_of in E. cbv zeta in E. assert (length (firstn (length ps) us) = length ps) as F by now apply firstn_length_le. rewrite F in E.
  destruct (length ps) as [|m] eqn:M; [discriminate|]. set (n := S m) in *. set (used := firstn n us) in *. assert (~ inject_Z (Z.of_nat n) == 0) as N by (apply of_nat_pos; unfold n; lia).
  assert (sum (map g used) / inject_Z (Z.of_nat n) - sum (map g ps) / inject_Z (Z.of_nat n) = o) as <- by congruence. clear E. split; [intros ->; discriminate|].
  rewrite total_res by congruence. rewrite !sum_total. field. exact N.
Qed.
Lemma offset_some : forall g us ps, (length ps <= length us)%nat -> ps <> [] -> offset_of g us ps <> None.
Proof.
  intros g us ps L N. unfold offset_of. cbv zeta. rewrite firstn_length_le by exact L. destruct ps as [|p ps]; [now destruct N|]. cbn [length]. discriminate.
Qed.

(** ** Positions *)
Lemma interp_line : forall t x1 x2 y1 y2, ~ x2 == x1 -> on_line x1 y1 x2 y2 t (interpolate t x1 x2 y1 y2).
Proof.
  intros t x1 x2 y1 y2 N. unfold on_line, interpolate. destruct (Qeq_bool x2 x1) eqn:E; [apply Qeq_bool_iff in E; contradiction|]. field. intro Z. apply N. lra.
Qed.
Definition time_at (dr : list fix_) (k : nat) : Q := f_t (nth k dr none_f).
Lemma time_lt : forall dr i j, increasing f_t dr -> (i < j < length dr)%nat -> time_at dr i < time_at dr j.
Proof. intros dr i j I H. apply (I i j); [lia|apply nth_error_nth'; lia|apply nth_error_nth'; lia]. Qed.
Lemma time_le : forall dr i j, increasing f_t dr -> (i <= j < length dr)%nat -> time_at dr i <= time_at dr j.
Proof. intros dr i j I H. destruct (Nat.eq_dec i j) as [->|N]; [lra|]. apply Qlt_le_weak, time_lt; [exact I|lia]. Qed.
Lemma advance_some : forall fuel dr t sd k, advance fuel dr t sd = Some k -> (sd <= k)%nat /\ (S k < length dr)%nat /\ t <= time_at dr (S k) /\ (k = sd \/ time_at dr k < t).
Proof.
  induction fuel as [|fuel IH]; intros dr t sd k E; cbn [advance] in E; [discriminate|]. destruct (nth_error dr (sd + 1)) as [d|] eqn:N; [|discriminate].
  assert (sd + 1 < length dr)%nat as L by (apply nth_error_Some; congruence). apply nth_error_nth with (d := none_f) in N. destruct (Qltb (f_t d) t) eqn:C.
  - apply Qltb_lt in C. destruct (IH _ _ _ _ E) as (A & B & D & F). split; [lia|]. split; [exact B|]. split; [exact D|]. right. destruct F as [->|F]; [|exact F]. unfold time_at. now rewrite N.
  - apply Qltb_ge in C. injection E as <-. split; [lia|]. split; [lia|]. split; [|now left]. unfold time_at. replace (S sd) with (sd + 1)%nat by lia. now rewrite N.
Qed.
Lemma advance_none : forall fuel dr t sd, advance fuel dr t sd = None -> (length dr <= fuel + sd + 1)%nat -> forall k, (sd < k < length dr)%nat -> time_at dr k < t \/ (fuel = 0)%nat.
Proof.
  induction fuel as [|fuel IH]; intros dr t sd E F k K; cbn [advance] in E; [now right|]. left. destruct (nth_error dr (sd + 1)) as [d|] eqn:N; [|apply nth_error_None in N; lia].
  apply nth_error_nth with (d := none_f) in N. destruct (Qltb (f_t d) t) eqn:C; [|discriminate]. apply Qltb_lt in C. destruct (Nat.eq_dec k (sd + 1)) as [->|M]; [unfold time_at; now rewrite N|].
  destruct (IH dr t (sd + 1)%nat E ltac:(lia) k ltac:(lia)) as [G|G]; [exact G|]. subst fuel. lia.
Qed.
Lemma at_time_on : forall a b t, f_t a < f_t b -> on_track a b t (at_time t a b).
Proof. intros a b t H. repeat split; apply interp_line; intro E; lra. Qed.
Lemma adj_nth : forall (dr : list fix_) k, (S k < length dr)%nat -> adjacent dr (nth k dr none_f) (nth (k + 1) dr none_f).
Proof. intros dr k H. exists k. split; [apply nth_error_nth'; lia|]. replace (S k) with (k + 1)%nat by lia. apply nth_error_nth'. lia. Qed.
(** The fixes up to the end of the track get positions; [lo] is a bound on the time of the sample the
    search starts from. *)
Lemma positions_spec : forall dr, increasing f_t dr -> forall us sd,
  let ps := positions dr sd us in
  (length ps <= length us)%nat /\ Forall2 (up_to dr) (firstn (length ps) us) ps /\
  (nondecreasing f_t us -> (forall u, is_first us u -> time_at dr sd <= f_t u) -> Forall2 (inside dr) (firstn (length ps) us) ps) /\
  (ps <> [] -> forall u, nth_error us (length ps) = Some u -> time_at dr (length dr - 1) < f_t u).
Proof.
  intros dr I. induction us as [|u us IH]; intros sd; cbv zeta; cbn [positions].
  - split; [reflexivity|]. split; [constructor|]. split; [constructor|]. intros N. now destruct N.
  - destruct (advance (length dr) dr (f_t u) sd) as [k|] eqn:A.
    2:{ cbn. split; [lia|]. split; [constructor|]. split; [constructor|]. intros N. now destruct N. }
    pose proof (advance_some _ _ _ _ _ A) as (A1 & A2 & A3 & A4). specialize (IH k). cbv zeta in IH. destruct IH as (B & C & D & E). set (ps := positions dr k us) in *.
    assert (f_t (nth k dr none_f) < f_t (nth (k + 1) dr none_f)) as LT by (replace (k + 1)%nat with (S k) by lia; apply (time_lt dr k (S k) I); lia).
    pose proof (at_time_on _ _ (f_t u) LT) as T. assert (f_t u <= f_t (nth (k + 1) dr none_f)) as A3' by (replace (k + 1)%nat with (S k) by lia; exact A3).
    cbn [length]. split; [lia|]. cbn [firstn]. split; [|split].
    + constructor; [|exact C]. exists (nth k dr none_f), (nth (k + 1) dr none_f). split; [now apply adj_nth|]. split; [exact A3'|exact T].
    + intros N F. constructor.
      * exists (nth k dr none_f), (nth (k + 1) dr none_f). split; [now apply adj_nth|]. split; [|exact T]. split; [|exact A3']. destruct A4 as [->|A4]; [apply F; now exists us|]. apply Qlt_le_weak. exact A4.
      * apply D; [intros i j a b H X Y; apply (N (S i) (S j) a b); [lia|exact X|exact Y]|]. intros v (us' & ->). apply Qle_trans with (f_t u); [|now apply (N 0%nat 1%nat u v); [lia| |]].
        destruct A4 as [->|A4]; [apply F; now eexists|]. apply Qlt_le_weak. exact A4.
    + intros _ v V. cbn [nth_error] in V. destruct ps as [|p ps'] eqn:P; [|apply E; [discriminate|exact V]]. cbn in V. destruct us as [|w us]; [discriminate|]. injection V as ->.
      unfold ps in P. cbn [positions] in P. destruct (advance (length dr) dr (f_t v) k) as [k'|] eqn:A'; [discriminate|].
      destruct (advance_none _ _ _ _ A' ltac:(lia) (length dr - 1)%nat ltac:(lia)) as [G|G]; [exact G|]. lia.
Qed.

(** ** C78 *)
(** Whenever an offset is computed: it is taken over some consecutive fixes, up to the end of the track,
    each with a track position at its own time; after the shift the mean distance to them is zero in
    both directions. *)
Theorem C78_zero_mean : forall dr us on oe, increasing f_t dr -> usbl_offset dr us = Some (on, oe) ->
  exists l1 used l2 ps, us = l1 ++ used ++ l2 /\ used <> [] /\ Forall2 (up_to dr) used ps /\
    (forall u, is_first l2 u -> forall d, is_last dr d -> f_t d < f_t u) /\
    total (residuals f_n used (shift (on, oe) ps)) == 0 /\ total (residuals f_e used (shift (on, oe) ps)) == 0.
Proof.
  intros dr us on oe I E. unfold usbl_offset in E. destruct (start dr us) as [[sd su]|]; [|discriminate]. cbv zeta in E.
  destruct (positions_spec dr I (skipn su us) sd) as (B & C & _ & D). set (ps := positions dr sd (skipn su us)) in *. clearbody ps.
  destruct (offset_of f_n (skipn su us) ps) as [on'|] eqn:On; [|discriminate]. destruct (offset_of f_e (skipn su us) ps) as [oe'|] eqn:Oe; [|discriminate].
  assert (on' = on) as -> by congruence. assert (oe' = oe) as -> by congruence. clear E.
  destruct (offset_res _ _ _ _ B On) as (N & Rn). destruct (offset_res _ _ _ _ B Oe) as (_ & Re). set (used := firstn (length ps) (skipn su us)) in *.
  assert (length used = length ps) as LU by (unfold used; now apply firstn_length_le).
  exists (firstn su us), used, (skipn (length ps) (skipn su us)), ps. split; [unfold used; now rewrite firstn_skipn, firstn_skipn|]. split; [intros Z; rewrite Z in LU; destruct ps; [now destruct N|discriminate]|].
  split; [exact C|]. split.
  - intros u (l & U) d (l' & ->). assert (nth_error (skipn su us) (length ps) = Some u) as Nu.
    { rewrite <- (firstn_skipn (length ps) (skipn su us)), U, nth_error_app2 by (fold used; lia). fold used. rewrite LU, Nat.sub_diag. reflexivity. }
    specialize (D N u Nu). unfold time_at in D. rewrite app_length, app_nth2 in D by (cbn; lia). replace (length l' + length [d] - 1 - length l')%nat with 0%nat in D by (cbn; lia). exact D.
  - assert (forall g c, (forall p, In p ps -> g (mkfix (f_t p) (f_n p + on) (f_e p + oe)) == g p + c) -> total (map g (shift (on, oe) ps)) == total (map g ps) + inject_Z (Z.of_nat (length ps)) * c) as G.
    { intros g c H. unfold shift. rewrite map_map. exact (total_eq (fun d => g (mkfix (f_t d) (f_n d + on) (f_e d + oe))) g ps c H). }
    assert (length (shift (on, oe) ps) = length ps) as LS by apply map_length. rewrite !total_res in * by congruence.
    rewrite (G f_n on) by (intros; reflexivity). rewrite (G f_e oe) by (intros; reflexivity). split; lra.
Qed.
Print Assumptions C78_zero_mean.

Lemma start_before_regular : forall dr us, increasing f_t us -> regular dr us -> forall fuel d dr', dr = d :: dr' -> forall su, (su < length us)%nat -> (length us <= fuel + su)%nat ->
  f_t (nth su us none_f) < f_t d -> (exists u, In u us /\ f_t d <= f_t u) ->
  exists k, start_before fuel dr us 0 su = Some (0%nat, k) /\ (0 < k < length us)%nat /\ f_t d <= f_t (nth k us none_f) /\ forall j, (j < k)%nat -> f_t (nth j us none_f) < f_t d.
Proof.
  intros dr us I R fuel d dr' ->. induction fuel as [|fuel IH]; intros su L F T X; [lia|]. cbn [start_before nth_error].
  assert (forall j, (j <= su)%nat -> f_t (nth j us none_f) < f_t d) as Bef by (intros j J; apply Qle_lt_trans with (f_t (nth su us none_f)); [apply (time_le us); [exact I|lia]|exact T]).
  destruct (length us <=? su + 1)%nat eqn:C.
  - exfalso. apply Nat.leb_le in C. destruct X as (u & Iu & Du). apply In_nth with (d := none_f) in Iu. destruct Iu as (j & J & <-). specialize (Bef j ltac:(lia)). lra.
  - apply Nat.leb_gt in C. destruct (Qltb 0 (f_t d - f_t (nth (su + 1) us none_f))) eqn:Z.
    + apply Qltb_lt in Z. apply IH; [lia|lia|lra|exact X].
    + apply Qltb_ge in Z. destruct (R (nth su us none_f) (nth (su + 1) us none_f) (adj_nth us su ltac:(lia))) as (G & _).
      assert (Qltb (f_t d - f_t (nth su us none_f)) threshold = true) as -> by (apply Qltb_lt; unfold threshold; lra). assert (Qltb (f_t (nth (su + 1) us none_f) - f_t (nth su us none_f)) threshold = true) as -> by (apply Qltb_lt; unfold threshold; lra).
      cbn [andb]. exists (su + 1)%nat. split; [reflexivity|]. split; [lia|]. split; [lra|]. intros j J. apply Bef. lia.
Qed.
Lemma start_after_regular : forall dr us u v us', us = u :: v :: us' -> increasing f_t dr -> regular dr us -> forall fuel sd, (length dr < fuel + sd)%nat -> (forall j, (j < sd)%nat -> time_at dr j < f_t u) ->
  exists k, start_after fuel dr us sd 0 = Some (k, 1%nat) /\ (k < length dr)%nat /\ time_at dr k <= f_t v.
Proof.
  intros dr us u v us' E I R. destruct (R u v) as (G & d & Id & Dd); [exists 0%nat; subst us; split; reflexivity|]. apply In_nth with (d := none_f) in Id. destruct Id as (m & M & Ed).
  induction fuel as [|fuel IH]; intros sd F B.
  { exfalso. assert (m < sd)%nat as H by lia. specialize (B m H). unfold time_at in B. rewrite Ed in B. lra. }
  assert (sd <= m)%nat as Le. { destruct (Nat.le_gt_cases sd m) as [H|H]; [exact H|]. exfalso. specialize (B m H). unfold time_at in B. rewrite Ed in B. lra. }
  cbn [start_after]. rewrite (nth_error_nth' dr none_f) by lia. subst us. cbn [nth_error Nat.add]. fold (time_at dr sd). change (f_t (nth sd dr none_f)) with (time_at dr sd).
  destruct (Qltb (time_at dr sd - f_t u) 0) eqn:C.
  - apply Qltb_lt in C. replace (sd + 1)%nat with (S sd) by lia. apply IH; [lia|]. intros j J. destruct (Nat.eq_dec j sd) as [->|N]; [lra|]. apply B. lia.
  - apply Qltb_ge in C. pose proof (time_le dr sd m I ltac:(lia)) as T. unfold time_at at 2 in T. rewrite Ed in T.
    assert (Qltb (time_at dr sd - f_t u) threshold = true) as -> by (apply Qltb_lt; unfold threshold; lra). assert (Qltb (f_t v - f_t u) threshold = true) as -> by (apply Qltb_lt; unfold threshold; lra).
    exists sd. split; [reflexivity|]. split; [lia|]. lra.
Qed.
(** With regular fixes and one of them but the first inside the track, the offset exists; it is taken over
    the second and following fixes that are inside, each compared with the track between the two samples
    around it. *)
Theorem C78_regular : forall dr us i u, increasing f_t dr -> increasing f_t us -> regular dr us ->
  nth_error us (S i) = Some u -> (forall d, is_first dr d -> f_t d <= f_t u) -> (exists d, is_last dr d /\ f_t u < f_t d) ->
  exists on oe l1 used l2 ps, usbl_offset dr us = Some (on, oe) /\ us = l1 ++ used ++ l2 /\ l1 <> [] /\ used <> [] /\ Forall2 (inside dr) used ps /\
    (forall w, In w l1 -> is_first us w \/ forall d, is_first dr d -> f_t w < f_t d) /\ (forall w, In w l2 -> forall d, is_last dr d -> f_t d < f_t w) /\
    total (residuals f_n used ps) == inject_Z (Z.of_nat (length used)) * on /\ total (residuals f_e used ps) == inject_Z (Z.of_nat (length used)) * oe.
Proof.
  intros dr us i u I J R Nu F (dl & (dr0 & Edl) & Ldl). assert (S i < length us)%nat as Li by (apply nth_error_Some; congruence).
  assert (exists d dr', dr = d :: dr') as (d & dr' & Ed). { destruct dr as [|d dr']; [destruct dr0; discriminate|]. now exists d, dr'. }
  specialize (F d (ex_intro _ dr' Ed)). assert (exists u0 us0, us = u0 :: us0) as (u0 & us0 & Eu) by (destruct us; [cbn in Li; lia|eauto]).
  assert (2 <= length dr)%nat as L2. { destruct dr0 as [|x dr0]; [|rewrite Edl, app_length; cbn; lia]. cbn in Edl. assert (d = dl) by congruence. subst. lra. }
  assert (time_at dr (length dr - 1) = f_t dl) as Tl. { unfold time_at. rewrite Edl, app_length, app_nth2 by (cbn; lia). replace (length dr0 + length [dl] - 1 - length dr0)%nat with 0%nat by (cbn; lia). reflexivity. }
  assert (time_at dr 0 = f_t d) as T0 by (rewrite Ed; reflexivity).
  assert (exists sd su, start dr us = Some (sd, su) /\ (0 < su < length us)%nat /\ (S sd < length dr)%nat /\ time_at dr sd <= f_t (nth su us none_f) /\ f_t (nth su us none_f) < f_t dl /\
    (forall j, (j < su)%nat -> j = 0%nat \/ f_t (nth j us none_f) < f_t d)) as (sd & su & St & S1 & S2 & S3 & S4 & S5).
  { unfold start. rewrite Ed, Eu. rewrite <- Ed, <- Eu. destruct (Qltb (f_t u0) (f_t d)) eqn:C.
    - apply Qltb_lt in C. destruct (start_before_regular dr us J R (S (length dr + length us)) d dr' Ed 0 ltac:(lia) ltac:(lia)) as (k & K1 & K2 & K3 & K4).
      + rewrite Eu. exact C.
      + exists u. split; [now apply nth_error_In in Nu|exact F].
      + exists 0%nat, k. split; [exact K1|]. split; [exact K2|]. split; [lia|]. split; [now rewrite T0|]. split.
        * assert (k <= S i)%nat as Ki. { destruct (Nat.le_gt_cases k (S i)) as [H|H]; [exact H|]. specialize (K4 (S i) H). rewrite (nth_error_nth _ _ none_f Nu) in K4. lra. }
          apply Qle_lt_trans with (f_t u); [|exact Ldl]. rewrite <- (nth_error_nth _ _ none_f Nu). apply (time_le us); [exact J|lia].
        * intros j Hj. right. now apply K4.
    - apply Qltb_ge in C. destruct us0 as [|v us1]; [rewrite Eu in Li; cbn in Li; lia|].
      destruct (start_after_regular dr us u0 v us1 Eu I R (S (length dr + length us)) 0 ltac:(lia) ltac:(lia)) as (k & K1 & K2 & K3).
      exists k, 1%nat. split; [exact K1|]. split; [lia|]. assert (nth 1 us none_f = v) as Ev by (rewrite Eu; reflexivity).
      assert (f_t v < f_t dl) as Lv by (apply Qle_lt_trans with (f_t u); [|exact Ldl]; rewrite <- Ev, <- (nth_error_nth _ _ none_f Nu); apply (time_le us); [exact J|lia]).
      split. { destruct (Nat.eq_dec (S k) (length dr)) as [E|E]; [|lia]. exfalso. replace (length dr - 1)%nat with k in Tl by lia. rewrite Tl in K3. lra. }
      rewrite Ev. split; [exact K3|]. split; [exact Lv|]. intros j Hj. left. lia. }
  unfold usbl_offset. rewrite St. cbv zeta. destruct (positions_spec dr I (skipn su us) sd) as (B & _ & D & E). set (ps := positions dr sd (skipn su us)) in *.
  assert (nondecreasing f_t (skipn su us)) as ND. { intros a b x y H X Y. rewrite <- (firstn_skipn su us) in J. assert (length (firstn su us) = su) as LF by (apply firstn_length_le; lia).
    apply Qlt_le_weak, (J (su + a)%nat (su + b)%nat); [lia| |]; rewrite nth_error_app2 by lia; rewrite LF; [replace (su + a - su)%nat with a by lia|replace (su + b - su)%nat with b by lia]; assumption. }
  assert (exists rest, skipn su us = nth su us none_f :: rest) as (rest & Es). { clear -S1. destruct S1 as [_ H]. revert su H. induction us as [|x us IH]; intros su H; [cbn in H; lia|]. destruct su as [|su]; [now exists us|]. cbn [skipn nth]. apply IH. cbn in H. lia. }
  specialize (D ND). assert (Forall2 (inside dr) (firstn (length ps) (skipn su us)) ps) as In_ by (apply D; intros w (l & Ew); rewrite Es in Ew; assert (w = nth su us none_f) as -> by congruence; exact S3). clear D.
  assert (ps <> []) as NE.
  { unfold ps. rewrite Es. cbn [positions]. destruct (advance (length dr) dr (f_t (nth su us none_f)) sd) eqn:A; [discriminate|]. exfalso.
    destruct (advance_none _ _ _ _ A ltac:(lia) (length dr - 1)%nat ltac:(lia)) as [G|G]; [rewrite Tl in G; lra|lia]. }
  specialize (E NE). clearbody ps. destruct (offset_of f_n (skipn su us) ps) as [on|] eqn:On; [|now apply offset_some in On]. destruct (offset_of f_e (skipn su us) ps) as [oe|] eqn:Oe; [|now apply offset_some in Oe].
  destruct (offset_res _ _ _ _ B On) as (_ & Rn). destruct (offset_res _ _ _ _ B Oe) as (_ & Re). set (used := firstn (length ps) (skipn su us)) in *.
  assert (length used = length ps) as LU by (unfold used; now apply firstn_length_le).
  exists on, oe, (firstn su us), used, (skipn (length ps) (skipn su us)), ps. split; [reflexivity|]. split; [unfold used; now rewrite firstn_skipn, firstn_skipn|].
  split; [rewrite Eu; destruct su; [lia|discriminate]|]. split; [intros Z; rewrite Z in LU; destruct ps; [now destruct NE|discriminate]|]. split; [exact In_|]. rewrite LU. split; [|split; [|split; [exact Rn|exact Re]]].
  - intros w Iw. apply In_nth with (d := none_f) in Iw. destruct Iw as (j & Hj & <-). rewrite firstn_length_le in Hj by lia. assert (nth j (firstn su us) none_f = nth j us none_f) as ->.
    { rewrite <- (firstn_skipn su us) at 2. now rewrite app_nth1 by (rewrite firstn_length_le; lia). }
    destruct (S5 j Hj) as [->|H]; [left; exists us0; now rewrite Eu|]. right. intros d0 (l & E0). assert (d0 = d) as -> by congruence. exact H.
  - intros w Iw d0 (l & E0). assert (d0 = dl) as -> by (rewrite Edl in E0; apply app_inj_tail in E0; destruct E0; congruence).
    apply In_nth_error in Iw. destruct Iw as (j & Hj). assert (nth_error (skipn su us) (length ps + j) = Some w) as Nw.
    { rewrite <- (firstn_skipn (length ps) (skipn su us)). rewrite nth_error_app2 by (fold used; lia). fold used. rewrite LU. now replace (length ps + j - length ps)%nat with j by lia. }
    destruct (nth_error (skipn su us) (length ps)) as [w0|] eqn:W0.
    + specialize (E w0 eq_refl). rewrite Tl in E. apply Qlt_le_trans with (f_t w0); [exact E|]. destruct j as [|j]; [rewrite Nat.add_0_r in Nw; assert (w0 = w) as -> by congruence; lra|]. apply (ND (length ps) (length ps + S j)%nat); [lia|exact W0|exact Nw].
    + apply nth_error_None in W0. assert (length ps + j < length (skipn su us))%nat by (apply nth_error_Some; congruence). lia.
Qed.
Print Assumptions C78_regular.
(** If the fixes are the track moved by a constant, that constant is the offset. *)
Definition displaced (dr : list fix_) (cn ce : Q) (u : fix_) : Prop :=
  forall a b, adjacent dr a b -> f_t a <= f_t u <= f_t b -> on_line (f_t a) (f_n a) (f_t b) (f_n b) (f_t u) (f_n u - cn) /\ on_line (f_t a) (f_e a) (f_t b) (f_e b) (f_t u) (f_e u - ce).
Theorem C78_constant : forall dr us cn ce i u, increasing f_t dr -> increasing f_t us -> regular dr us ->
  nth_error us (S i) = Some u -> (forall d, is_first dr d -> f_t d <= f_t u) -> (exists d, is_last dr d /\ f_t u < f_t d) ->
  (forall w, In w us -> displaced dr cn ce w) -> exists on oe, usbl_offset dr us = Some (on, oe) /\ on == cn /\ oe == ce.
Proof.
  intros dr us cn ce i u I J R Nu F L D. destruct (C78_regular dr us i u I J R Nu F L) as (on & oe & l1 & used & l2 & ps & E & Eus & _ & NE & In_ & _ & _ & Rn & Re).
  exists on, oe. split; [exact E|]. assert (forall w, In w used -> displaced dr cn ce w) as D' by (intros w W; apply D; rewrite Eus; apply in_or_app; right; apply in_or_app; now left). clear D Eus E.
  assert (total (residuals f_n used ps) == inject_Z (Z.of_nat (length used)) * cn /\ total (residuals f_e used ps) == inject_Z (Z.of_nat (length used)) * ce) as (Sn & Se).
  { clear Rn Re NE. induction In_ as [|w p used ps (a & b & Ad & T & (Tp & On & Oe)) In_ IH]; [cbn; split; ring|]. destruct IH as (IHn & IHe); [intros x X; apply D'; now right|].
    destruct (D' w (or_introl eq_refl) a b Ad T) as (Dn & De).
    assert (f_t a < f_t b) as LT. { destruct Ad as (k & K1 & K2). apply (I k (S k)); [lia|exact K1|exact K2]. }
    assert (forall (x y c : Q) (ya yb : Q), on_line (f_t a) ya (f_t b) yb (f_t w) y -> on_line (f_t a) ya (f_t b) yb (f_t w) (x - c) -> x - y == c) as G.
    { intros x y c ya yb H1 H2. unfold on_line in *. assert (x - c == y) as G. { apply (Qmult_inj_r _ _ (f_t b - f_t a)); [intro; lra|]. rewrite H1, H2. reflexivity. } rewrite <- G. ring. }
    unfold residuals. cbn [combine map total fst snd length]. fold (residuals f_n used ps). fold (residuals f_e used ps). rewrite IHn, IHe, (G _ _ cn _ _ On Dn), (G _ _ ce _ _ Oe De).
    rewrite Nat2Z.inj_succ, <- Z.add_1_l, inject_Z_plus. split; ring. }
  assert (~ inject_Z (Z.of_nat (length used)) == 0) as NZ by (apply of_nat_pos; destruct used; [now destruct NE|cbn; lia]).
  split; [apply (Qmult_inj_l _ _ _ NZ); rewrite <- Rn; exact Sn|apply (Qmult_inj_l _ _ _ NZ); rewrite <- Re; exact Se].
Qed.
Print Assumptions C78_constant.

(** The search looks at times only, so that a shifted track needs no further shift. *)
Lemma nth_error_shift : forall o dr k, nth_error (shift o dr) k = option_map (fun d => mkfix (f_t d) (f_n d + fst o) (f_e d + snd o)) (nth_error dr k).
Proof. intros o dr k. apply nth_error_map. Qed.
Lemma start_before_shift : forall o fuel dr us sd su, start_before fuel (shift o dr) us sd su = start_before fuel dr us sd su.
Proof.
  intros o. induction fuel as [|fuel IH]; intros dr us sd su; [reflexivity|]. cbn [start_before]. rewrite nth_error_shift. destruct (length us <=? su + 1)%nat; [reflexivity|]. destruct (nth_error dr sd) as [d|]; [|reflexivity].
  cbn [option_map f_t]. now rewrite !IH.
Qed.
Lemma start_after_shift : forall o fuel dr us sd su, start_after fuel (shift o dr) us sd su = start_after fuel dr us sd su.
Proof.
  intros o. induction fuel as [|fuel IH]; intros dr us sd su; [reflexivity|]. cbn [start_after]. rewrite nth_error_shift. destruct (nth_error dr sd) as [d|]; [|reflexivity]. destruct (nth_error us su) as [u|]; [|reflexivity].
  cbn [option_map f_t]. now rewrite !IH.
Qed.
Lemma start_shift : forall o dr us, start (shift o dr) us = start dr us.
Proof.
  intros o [|d dr] us; [reflexivity|]. unfold start. destruct us as [|u us]; [reflexivity|]. change (shift o (d :: dr)) with (mkfix (f_t d) (f_n d + fst o) (f_e d + snd o) :: shift o dr) at 1. cbn [f_t].
  assert (length (shift o (d :: dr)) = length (d :: dr)) as -> by apply map_length. now rewrite start_before_shift, start_after_shift.
Qed.
Lemma advance_shift : forall o fuel dr t sd, advance fuel (shift o dr) t sd = advance fuel dr t sd.
Proof. intros o. induction fuel as [|fuel IH]; intros dr t sd; [reflexivity|]. cbn [advance]. rewrite nth_error_shift. destruct (nth_error dr (sd + 1)) as [d|]; [|reflexivity]. cbn [option_map f_t]. now rewrite IH. Qed.
Definition same (a b : fix_) : Prop := f_t a = f_t b /\ f_n a == f_n b /\ f_e a == f_e b.
Lemma interp_shift : forall t x1 x2 y1 y2 c, interpolate t x1 x2 (y1 + c) (y2 + c) == interpolate t x1 x2 y1 y2 + c.
Proof. intros t x1 x2 y1 y2 c. unfold interpolate. destruct (Qeq_bool x2 x1) eqn:E; [reflexivity|]. field. intro Z. assert (x2 == x1) by lra. apply Qeq_bool_iff in H. congruence. Qed.
Lemma nth_shift : forall o dr k, (k < length dr)%nat -> nth k (shift o dr) none_f = mkfix (f_t (nth k dr none_f)) (f_n (nth k dr none_f) + fst o) (f_e (nth k dr none_f) + snd o).
Proof. intros o dr k H. unfold shift. set (f := fun d : fix_ => _). rewrite (nth_indep _ none_f (f none_f)) by (rewrite map_length; exact H). now rewrite map_nth. Qed.
Lemma positions_shift : forall o dr us sd, Forall2 same (positions (shift o dr) sd us) (shift o (positions dr sd us)).
Proof.
  intros o dr. induction us as [|u us IH]; intros sd; cbn [positions]; [constructor|]. assert (length (shift o dr) = length dr) as -> by apply map_length. rewrite advance_shift.
  destruct (advance (length dr) dr (f_t u) sd) as [k|] eqn:A; [|constructor]. apply advance_some in A. destruct A as (_ & A & _). cbn [shift map]. constructor; [|apply IH].
  rewrite !nth_shift by lia. unfold at_time. cbn [f_t f_n f_e]. split; [reflexivity|]. cbn [f_n f_e]. split; apply interp_shift.
Qed.
Lemma positions_length : forall dr us sd, (length (positions dr sd us) <= length us)%nat.
Proof. intros dr. induction us as [|u us IH]; intros sd; cbn [positions]; [reflexivity|]. destruct (advance _ _ _ _) as [k|]; cbn [length]; [specialize (IH k)|]; lia. Qed.
Theorem C78_settled : forall dr us o, usbl_offset dr us = Some o -> exists on oe, usbl_offset (shift o dr) us = Some (on, oe) /\ on == 0 /\ oe == 0.
Proof.
  intros dr us o E. unfold usbl_offset in *. rewrite start_shift. destruct (start dr us) as [[sd su]|]; [|discriminate]. cbv zeta in *. pose proof (positions_shift o dr (skipn su us) sd) as P.
  pose proof (positions_length dr (skipn su us) sd) as PL. set (ps := positions dr sd (skipn su us)) in *. set (qs := positions (shift o dr) sd (skipn su us)) in *. clearbody ps qs.
  assert (length qs = length ps) as L. { clear -P. assert (length (shift o ps) = length ps) as <- by apply map_length. induction P; cbn; congruence. }
  assert (forall g c, (forall p q, same q (mkfix (f_t p) (f_n p + fst o) (f_e p + snd o)) -> g q == g p + c) -> forall x, offset_of g (skipn su us) ps = Some x -> x = c -> exists y, offset_of g (skipn su us) qs = Some y /\ y == 0) as G.
  { intros g c H x Ex Xc. unfold offset_of in *. cbv zeta in *. rewrite L. assert (sum (map g qs) == sum (map g ps) + inject_Z (Z.of_nat (length ps)) * c) as Sg.
    { rewrite !sum_total. clear -P H. revert qs P. induction ps as [|p ps IH]; intros qs P; cbn [shift map] in P; inversion P as [|q q' qs' ps' S P' E1 E2]; subst; cbn [map total length]; [ring|]. rewrite (IH _ P'), (H p q S). rewrite Nat2Z.inj_succ, <- Z.add_1_l, inject_Z_plus. ring. }
    destruct (length (firstn (length ps) (skipn su us))) as [|n] eqn:N; [discriminate|]. destruct (length ps) as [|m] eqn:M; [discriminate|].
    assert (S n = S m) as NM by (rewrite firstn_length in N; lia). rewrite NM in *. eexists. split; [reflexivity|].
    set (s := sum (map g (firstn (S m) (skipn su us)))) in *. assert (s / inject_Z (Z.of_nat (S m)) - sum (map g ps) / inject_Z (Z.of_nat (S m)) = c) as X by congruence. apply (f_equal Qeq) in X. assert (s / inject_Z (Z.of_nat (S m)) - sum (map g ps) / inject_Z (Z.of_nat (S m)) == c) as X' by (rewrite X; reflexivity). clear X Ex E.
    rewrite Sg. assert (~ inject_Z (Z.of_nat (S m)) == 0) as Z by (apply of_nat_pos; lia). setoid_replace ((sum (map g ps) + inject_Z (Z.of_nat (S m)) * c) / inject_Z (Z.of_nat (S m))) with (sum (map g ps) / inject_Z (Z.of_nat (S m)) + c) by (field; exact Z).
    lra. }
  destruct (offset_of f_n (skipn su us) ps) as [on|] eqn:On; [|discriminate]. destruct (offset_of f_e (skipn su us) ps) as [oe|] eqn:Oe; [|discriminate]. assert ((on, oe) = o) as Eo by congruence.
  destruct (G f_n (fst o) ltac:(intros p q (_ & S & _); exact S) on On ltac:(now rewrite <- Eo)) as (y & Y & Y0). destruct (G f_e (snd o) ltac:(intros p q (_ & _ & S); exact S) oe Oe ltac:(now rewrite <- Eo)) as (z & Z & Z0).
  rewrite Y, Z. exists y, z. repeat split; assumption.
Qed.
Print Assumptions C78_settled.

(** A single fix not before the track stops the program, although it lies on the track. *)
Theorem C178_single : forall dr u, (forall d, is_first dr d -> f_t d <= f_t u) -> usbl_offset dr [u] = None.
Proof.
  intros dr u F. unfold usbl_offset, start. destruct dr as [|d dr]; [reflexivity|]. specialize (F d (ex_intro _ dr eq_refl)). assert (Qltb (f_t u) (f_t d) = false) as -> by (destruct (Qltb (f_t u) (f_t d)) eqn:C; [apply Qltb_lt in C; lra|reflexivity]).
  assert (forall fuel sd su, start_after fuel (d :: dr) [u] sd su = None) as ->; [|reflexivity].
  induction fuel as [|fuel IH]; intros sd su; [reflexivity|]. cbn [start_after]. destruct (nth_error (d :: dr) sd) as [x|]; [|reflexivity]. destruct (nth_error [u] su) as [y|]; [|reflexivity]. rewrite !IH. destruct (Qltb _ _); [reflexivity|].
  destruct (Qltb _ _); [|reflexivity]. replace (su + 1)%nat with (S su) by lia. cbn [nth_error]. destruct su; reflexivity.
Qed.
Print Assumptions C178_single.
Theorem C178_single_refuted : exists dr u a b, increasing f_t dr /\ adjacent dr a b /\ f_t a < f_t u < f_t b /\ usbl_offset dr [u] = None.
Proof.
  exists [mkfix 0 0 0; mkfix 10 10 0], (mkfix 5 6 0), (mkfix 0 0 0), (mkfix 10 10 0). split; [|split; [now exists 0%nat|split; [split; reflexivity|reflexivity]]].
  intros [|[|i]] [|[|j]] a b H A B; try lia; cbn in A, B; try (destruct i; discriminate); try (destruct j; discriminate); injection A as <-; injection B as <-; reflexivity.
Qed.
Print Assumptions C178_single_refuted.
(** Fixes every 30 s, the first before the track: all are exactly on the track, but only the last one is
    used, compared with the wrong part of the track. *)
Theorem C178_slow_fixes_refuted : exists dr us on oe, increasing f_t dr /\ increasing f_t us /\ (forall u, In u us -> displaced dr 0 0 u) /\ usbl_offset dr us = Some (on, oe) /\ ~ on == 0.
Proof.
  exists [mkfix 0 0 0; mkfix 20 20 0; mkfix 40 20 0; mkfix 60 0 0; mkfix 80 (-40) 0], [mkfix (-10) 0 0; mkfix 20 20 0; mkfix 50 10 0]. do 2 eexists. split; [|split; [|split; [|split; [vm_compute; reflexivity|intros H; vm_compute in H; discriminate H]]]].
  - intros [|[|[|[|[|i]]]]] [|[|[|[|[|j]]]]] a b H A B; try lia; cbn in A, B; try (destruct i; discriminate); try (destruct j; discriminate); injection A as <-; injection B as <-; reflexivity.
  - intros [|[|[|i]]] [|[|[|j]]] a b H A B; try lia; cbn in A, B; try (destruct i; discriminate); try (destruct j; discriminate); injection A as <-; injection B as <-; reflexivity.
  - intros u U a b (k & A & B) T. destruct k as [|[|[|[|[|k]]]]]; cbn in A, B; try discriminate; try (destruct k; discriminate); injection A as <-; injection B as <-;
      destruct U as [<-|[<-|[<-|[]]]]; cbn in T; try (exfalso; lra); split; reflexivity.
Qed.
Print Assumptions C178_slow_fixes_refuted.
Example C78_ex : match usbl_offset [mkfix 0 0 0; mkfix 10 10 0; mkfix 20 10 10] [mkfix 4 9 1; mkfix 12 15 3; mkfix 18 15 9; mkfix 25 0 0] with Some (n, e) => Qred n = 5 /\ Qred e = 1 | None => False end.
Proof. split; reflexivity. Qed.
Example C78_ex_regular : regular [mkfix 0 0 0; mkfix 10 10 0; mkfix 20 10 10; mkfix 30 10 20] [mkfix 4 9 1; mkfix 12 15 3; mkfix 25 15 16].
Proof.
  intros u v (k & A & B). destruct k as [|[|[|k]]]; cbn in A, B; try discriminate; try (destruct k; discriminate); injection A as <-; injection B as <-; (split; [reflexivity|]).
  - exists (mkfix 10 10 0). cbn. split; [auto|]. split; discriminate.
  - exists (mkfix 20 10 10). cbn. split; [auto|]. split; discriminate.
Qed.
