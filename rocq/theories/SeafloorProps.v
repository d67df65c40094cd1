(** C71: seafloor depth is depth plus altitude. *)
From Coq Require Import Qfield.
From Verif Require Import PyBase InterpModel InterpSpec SeafloorModel.
Open Scope Q_scope.

(** ** Specification *)
(** [v] is the altitude plus the depth at its time on the line of two neighbouring depth
    measurements: those around it, or the last two for altitudes after the last. *)
Definition from_depths (ds : list depth_m) (a : alt_m) (v : Q) : Prop :=
  exists d1 d2, adjacent ds d1 d2 /\ d_ts d1 < a_ts a /\ (a_ts a <= d_ts d2 \/ is_last ds d2) /\
    on_line (d_ts d1) (d_val d1) (d_ts d2) (d_val d2) (a_ts a) (v - a_val a).
Definition after_first (ds : list depth_m) (a : alt_m) : Prop := exists d, is_first ds d /\ d_ts d < a_ts a.

Lemma nth_inc : forall ds i j, increasing d_ts ds -> (i < j < length ds)%nat -> d_ts (nth i ds none_d) < d_ts (nth j ds none_d).
Proof. intros ds i j I H. apply (I i j); [lia|apply nth_error_nth'; lia|apply nth_error_nth'; lia]. Qed.
Lemma advance_spec : forall fuel ds t j, (j < length ds)%nat -> (length ds <= fuel + j)%nat -> let j' := advance fuel ds t j in
  (j <= j' < length ds)%nat /\ (j' = j \/ d_ts (nth (j' - 1) ds none_d) < t) /\ (S j' = length ds \/ t <= d_ts (nth j' ds none_d)).
Proof.
  induction fuel as [|fuel IH]; intros ds t j L F; cbv zeta; cbn [advance]; [lia|].
  destruct ((S j <? length ds)%nat && Qltb (d_ts (nth j ds none_d)) t)%bool eqn:C.
  - apply andb_prop in C. destruct C as [C1 C2]. apply Nat.ltb_lt in C1. apply Qltb_lt in C2. destruct (IH ds t (S j) C1 ltac:(lia)) as (A & B & D). split; [lia|]. split; [|exact D].
    right. destruct B as [->|B]; [|exact B]. cbn [Nat.sub]. rewrite Nat.sub_0_r. exact C2.
  - split; [lia|]. split; [now left|]. apply andb_false_iff in C. destruct C as [C|C]; [left; apply Nat.ltb_ge in C; lia|right; now apply Qltb_ge in C].
Qed.
Lemma interp_line : forall t x1 x2 y1 y2, ~ x2 == x1 -> on_line x1 y1 x2 y2 t (interpolate t x1 x2 y1 y2).
Proof.
  intros t x1 x2 y1 y2 N. unfold on_line, interpolate. destruct (Qeq_bool x2 x1) eqn:E; [apply Qeq_bool_iff in E; contradiction|]. field. intro Z. apply N. lra.
Qed.
(** The first pass over a time-ordered list, with at least two depths. *)
Definition passed (ds : list depth_m) (a : alt_m) (o : option Q) : Prop := match o with Some v => from_depths ds a v | None => ~ after_first ds a end.
Lemma first_pass_spec : forall ds, increasing d_ts ds -> (2 <= length ds)%nat -> forall alts j, nondecreasing a_ts alts -> (j < length ds)%nat ->
  (j = 0%nat \/ forall a, In a alts -> d_ts (nth (j - 1) ds none_d) < a_ts a) -> Forall2 (passed ds) alts (first_pass ds j alts).
Proof.
  intros ds I L. induction alts as [|a alts IH]; intros j N J P; cbn [first_pass]; [constructor|].
  pose proof (advance_spec (length ds) ds (a_ts a) j J ltac:(lia)) as S. cbv zeta in S. set (j' := advance _ _ _ _) in *. destruct S as (B & C & D).
  assert (j' = 0%nat \/ d_ts (nth (j' - 1) ds none_d) < a_ts a) as Q.
  { destruct C as [->|C]; [|now right]. destruct P as [P|P]; [now left|]. right. apply P. now left. }
  constructor.
  - destruct (0 <? j')%nat eqn:Z.
    + apply Nat.ltb_lt in Z. destruct Q as [Q|Q]; [lia|]. exists (nth (j' - 1) ds none_d), (nth j' ds none_d). split; [|split; [exact Q|split]].
      * exists (j' - 1)%nat. split; [apply nth_error_nth'; lia|]. replace (S (j' - 1)) with j' by lia. apply nth_error_nth'. lia.
      * destruct D as [D|D]; [|now left]. right. exists (firstn j' ds).
        assert (skipn j' ds = [nth j' ds none_d]) as E.
        { clearbody j'. clear -D. revert j' D. induction ds as [|x ds IHd]; intros j' D; [discriminate|]. destruct j' as [|k]; cbn in D; [destruct ds; [reflexivity|discriminate]|]. cbn [skipn nth]. apply IHd. lia. }
        rewrite <- E. symmetry. apply firstn_skipn.
      * set (x := interpolate _ _ _ _ _). unfold on_line. setoid_replace (x + a_val a - a_val a) with x by ring. apply interp_line.
        pose proof (nth_inc ds (j' - 1) j' I ltac:(lia)). intro E. lra.
    + apply Nat.ltb_ge in Z. assert (j' = 0%nat) as Z0 by lia. rewrite Z0 in *. intros (d & [l E] & T). destruct D as [D|D]; [lia|]. rewrite E in D. cbn [nth] in D. lra.
  - apply IH.
    + intros i k x y H X Y. apply (N (S i) (S k) x y); [lia|exact X|exact Y].
    + lia.
    + destruct Q as [Q|Q]; [now left|right]. intros b Ib. apply Qlt_le_trans with (a_ts a); [exact Q|]. apply In_nth_error in Ib. destruct Ib as (k & K). now apply (N 0%nat (S k) a b); [lia| |].
Qed.
Lemma from_after : forall ds a v, increasing d_ts ds -> from_depths ds a v -> after_first ds a.
Proof.
  intros ds a v I (d1 & d2 & (k & K1 & K2) & T & _). destruct ds as [|d ds]; [destruct k; discriminate|]. exists d. split; [now exists ds|].
  destruct k as [|k]; [injection K1 as <-; exact T|]. apply Qlt_trans with (d_ts d1); [|exact T]. now apply (I 0%nat (S k) d d1); [lia| |].
Qed.
Lemma fill_spec : forall l, match fill l with
  | Some out => Forall2 (fun o v => forall w, o = Some w -> v = w) l out /\
      forall i, nth_error l i = Some None -> exists k v, (i < k)%nat /\ nth_error l k = Some (Some v) /\ nth_error out i = Some v /\ forall m, (i <= m < k)%nat -> nth_error l m = Some None
  | None => exists l', l = l' ++ [None]
  end.
Proof.
  induction l as [|o l IH]; cbn [fill].
  - split; [constructor|]. intros [|i] H; discriminate.
  - destruct o as [v|].
    + destruct (fill l) as [out|]; cbn [option_map].
      * destruct IH as [A B]. split; [constructor; [intros w E; congruence|exact A]|]. intros [|i] H; [discriminate|]. destruct (B i H) as (k & u & K & U & O & M). exists (S k), u.
        split; [lia|]. split; [exact U|]. split; [exact O|]. intros [|m] R; [lia|]. apply M. lia.
      * destruct IH as (l' & ->). now exists (Some v :: l').
    + destruct (fill l) as [[|w r]|].
      * destruct IH as [A _]. inversion A; subst. now exists [].
      * destruct IH as [A B]. split; [constructor; [discriminate|exact A]|]. intros [|i] H.
        -- destruct l as [|[u|] l]; [inversion A| |].
           ++ assert (w = u) as -> by (inversion A; subst; auto). exists 1%nat, u. split; [lia|]. split; [reflexivity|]. split; [reflexivity|]. intros m R. assert (m = 0%nat) as -> by lia. reflexivity.
           ++ destruct (B 0%nat eq_refl) as (k & u & K & U & O & M). exists (S k), u. split; [lia|]. split; [exact U|]. split; [exact O|]. intros [|m] R; [reflexivity|]. apply M. lia.
        -- destruct (B i H) as (k & u & K & U & O & M). exists (S k), u. split; [lia|]. split; [exact U|]. split; [exact O|]. intros [|m] R; [lia|]. apply M. lia.
      * destruct IH as (l' & ->). now exists (None :: l').
Qed.
Lemma Forall2_nth : forall A B (R : A -> B -> Prop) l m, Forall2 R l m -> forall i a, nth_error l i = Some a -> exists b, nth_error m i = Some b /\ R a b.
Proof. intros A B R l m F. induction F as [|x y l m H F IH]; intros [|i] a E; try discriminate; [injection E as <-; now exists y|now apply IH]. Qed.
(** ** C71 *)
(** Every altitude after the first depth gets the seafloor depth of its own time; the ones before take
    that of the first altitude after it. *)
Theorem C71_values : forall ds alts out, increasing d_ts ds -> nondecreasing a_ts alts -> (2 <= length ds)%nat -> seafloor ds alts = Some out ->
  length out = length alts /\
  forall i a, nth_error alts i = Some a -> exists v, nth_error out i = Some v /\
    (after_first ds a -> from_depths ds a v) /\
    (~ after_first ds a -> exists k b, (i < k)%nat /\ nth_error alts k = Some b /\ from_depths ds b v /\ forall m c, (i <= m < k)%nat -> nth_error alts m = Some c -> ~ after_first ds c).
Proof.
  intros ds alts out I N L E. pose proof (first_pass_spec ds I L alts 0 N ltac:(lia) ltac:(now left)) as F. unfold seafloor in E. pose proof (fill_spec (first_pass ds 0 alts)) as S. rewrite E in S.
  set (l := first_pass ds 0 alts) in *. destruct S as [S1 S2]. split.
  { clear -F S1. revert out S1. induction F; intros out S; inversion S; subst; cbn; [reflexivity|]. f_equal. now apply IHF. }
  intros i a A. destruct (Forall2_nth _ _ _ _ _ F i a A) as (o & O & P). destruct (Forall2_nth _ _ _ _ _ S1 i o O) as (v & V & W). exists v. split; [exact V|]. destruct o as [w|]; cbn [passed] in P.
  - rewrite (W w eq_refl). split; [auto|]. intros C. exfalso. apply C. now apply (from_after ds a w).
  - split; [intros C; contradiction|]. intros _. destruct (S2 i O) as (k & u & K & U & Q & M). rewrite Q in V. injection V as <-.
    assert (exists b, nth_error alts k = Some b) as (b & B).
    { destruct (nth_error alts k) as [b|] eqn:B; [now exists b|]. exfalso. apply nth_error_None in B. assert (length l = length alts) as LL by (clear -F; induction F; cbn; congruence).
      assert (nth_error l k = None) by (apply nth_error_None; lia). congruence. }
    exists k, b. split; [exact K|]. split; [exact B|]. destruct (Forall2_nth _ _ _ _ _ F k b B) as (o & O' & P'). rewrite U in O'. injection O' as <-. split; [exact P'|].
    intros m c R Cm. destruct (Forall2_nth _ _ _ _ _ F m c Cm) as (o & O' & P2). rewrite (M m R) in O'. injection O' as <-. exact P2.
Qed.
Print Assumptions C71_values.
(** It fails exactly when the last altitude is not after the first depth. *)
Theorem C71_crash : forall ds alts, increasing d_ts ds -> nondecreasing a_ts alts -> (2 <= length ds)%nat ->
  (seafloor ds alts = None <-> exists a, is_last alts a /\ ~ after_first ds a).
Proof.
  intros ds alts I N L. pose proof (first_pass_spec ds I L alts 0 N ltac:(lia) ltac:(now left)) as F. unfold seafloor. pose proof (fill_spec (first_pass ds 0 alts)) as S.
  set (l := first_pass ds 0 alts) in *. assert (length alts = length l) as LL by (clear -F; induction F; cbn; congruence). split.
  - intros E. rewrite E in S. destruct S as (l' & El). assert (nth_error l (length l') = Some None) as Nl by (rewrite El, nth_error_app2, Nat.sub_diag by lia; reflexivity).
    rewrite El, app_length in LL. cbn in LL. destruct (nth_error alts (length l')) as [a|] eqn:A; [|apply nth_error_None in A; lia]. exists a.
    destruct (Forall2_nth _ _ _ _ _ F _ _ A) as (o & O & P). rewrite Nl in O. injection O as <-. split; [|exact P]. exists (firstn (length l') alts).
    apply nth_error_split in A. destruct A as (l1 & l2 & -> & B). rewrite app_length in LL. cbn in LL. assert (l2 = []) as -> by (apply length_zero_iff_nil; lia). rewrite <- B, firstn_app, firstn_all, Nat.sub_diag. cbn. now rewrite app_nil_r.
  - intros (a & [l1 ->] & P). destruct (fill l) as [out|] eqn:E; [|reflexivity]. exfalso. destruct S as [S1 S2]. rewrite app_length in LL. cbn in LL.
    assert (nth_error (l1 ++ [a]) (length l1) = Some a) as A by (rewrite nth_error_app2, Nat.sub_diag by lia; reflexivity).
    destruct (Forall2_nth _ _ _ _ _ F _ _ A) as (o & O & Q). destruct o as [w|]; [apply P; now apply (from_after ds a w)|]. destruct (S2 _ O) as (k & u & K & U & _).
    assert (k < length l)%nat by (apply nth_error_Some; congruence). lia.
Qed.
Print Assumptions C71_crash.
Theorem C171_total_refuted : exists ds alts, increasing d_ts ds /\ nondecreasing a_ts alts /\ (2 <= length ds)%nat /\ seafloor ds alts = None.
Proof.
  exists [mkdepth 10 5; mkdepth 20 6], [mkalt 8 2; mkalt 9 2]. split; [|split; [|split; [cbn; lia|reflexivity]]].
  - intros [|[|i]] [|[|j]] a b H A B; try lia; cbn in A, B; try (destruct i; discriminate); try (destruct j; discriminate); injection A as <-; injection B as <-; reflexivity.
  - intros [|[|i]] [|[|j]] a b H A B; try lia; cbn in A, B; try (destruct i; discriminate); try (destruct j; discriminate); injection A as <-; injection B as <-; discriminate.
Qed.
Print Assumptions C171_total_refuted.
(** With fewer than two depth measurements any altitude fails. *)
Theorem C171_no_depth : forall ds alts, (length ds < 2)%nat -> alts <> [] -> seafloor ds alts = None.
Proof.
  intros ds alts L N. unfold seafloor. assert (forall t f, advance f ds t 0 = 0%nat) as A.
  { intros t f. destruct f as [|f]; [reflexivity|]. cbn [advance]. assert ((1 <? length ds)%nat = false) as -> by (apply Nat.ltb_ge; lia). reflexivity. }
  assert (forall l, l <> [] -> fill (first_pass ds 0 l) = None) as G; [|now apply G].
  induction l as [|a l IH]; intros Z; [now destruct Z|]. cbn [first_pass]. rewrite A. cbn [fill Nat.ltb Nat.leb]. destruct l as [|b l]; [reflexivity|]. rewrite IH by discriminate. reflexivity.
Qed.
Print Assumptions C171_no_depth.
Example C71_ex : option_map (map Qred) (seafloor [mkdepth 10 5; mkdepth 20 6; mkdepth 30 10] [mkalt 8 2; mkalt 15 2; mkalt 25 1; mkalt 35 1]) = Some [15 # 2; 15 # 2; 9; 13].
Proof. reflexivity. Qed.
