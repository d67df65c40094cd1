(** C68: conversion of HyBis navigation files. *)
From Coq Require Import Ascii String Qfield.
From Verif Require Import PyBase NmeaModel NmeaProofs CsvModel InterpModel InterpSpec VoyisModel HybisModel.
Local Open Scope Q_scope.
Local Open Scope list_scope.

(** ** Specification *)
(** Degrees (two or three characters), minutes (eight), hemisphere. *)
Definition coordinate (s deg minutes : text) (zone : N) : Prop := s = deg ++ minutes ++ [zone] /\ length minutes = 8%nat /\ (length deg = 2%nat \/ length deg = 3%nat).
Definition signed (zone : N) (v : Q) : Q := if (N.eqb zone 87 || N.eqb zone 83)%bool then - v else v.
(** All fields of [p] but the time are on the line from [a] to [b]. *)
Definition fields : list (pos -> Q) := [h_roll; h_pitch; h_heading; h_depth; h_altitude; h_lon; h_lat].
Definition on_segment (a b p : pos) : Prop := forall g, In g fields -> on_line (h_ts a) (g a) (h_ts b) (g b) (h_ts p) (g p).
(** [a] is the first record not before [t] and [b] the next, or they are the last two. *)
Definition segment_at (ps : list pos) (t : Q) (a b : pos) : Prop :=
  exists l1 l2, ps = l1 ++ a :: b :: l2 /\ (forall c, In c l1 -> h_ts c < t) /\ (t <= h_ts a \/ l2 = []).

(** ** Coordinates *)
Theorem C68_coordinate : forall num s deg minutes zone, coordinate s deg minutes zone ->
  convert_latlon num s = match num deg, num minutes with Some d, Some m => Some (signed zone (d + m / 60)) | _, _ => None end.
Proof.
  intros num s deg minutes zone (-> & L & D). unfold convert_latlon. cbv zeta. assert (length (deg ++ minutes ++ [zone]) = (length deg + 9)%nat) as LL by (rewrite !app_length, L; reflexivity).
  assert (slice 0 (length deg) (deg ++ minutes ++ [zone]) = deg) as S1 by (unfold slice; rewrite Nat.sub_0_r; cbn [skipn]; now rewrite firstn_app, firstn_all, Nat.sub_diag, app_nil_r).
  assert (slice (length deg) (length deg + 8) (deg ++ minutes ++ [zone]) = minutes) as S2.
  { unfold slice. replace (length deg + 8 - length deg)%nat with 8%nat by lia. rewrite skipn_app, skipn_all, Nat.sub_diag. cbn [skipn app]. rewrite <- L at 1. now rewrite firstn_app, firstn_all, Nat.sub_diag, app_nil_r. }
  assert (nth_error (deg ++ minutes ++ [zone]) (length deg + 8) = Some zone) as S3 by (rewrite nth_error_app2, nth_error_app2 by lia; replace (length deg + 8 - length deg - length minutes)%nat with 0%nat by lia; reflexivity).
  set (s := deg ++ minutes ++ [zone]) in *. clearbody s. destruct D as [D|D]; rewrite D in *; rewrite LL.
  - change (2 + 9 =? 11)%nat with true. cbv iota. change (3 - 1)%nat with 2%nat. change (11 - 1)%nat with (2 + 8)%nat. rewrite S1, S2, S3. now destruct (num deg), (num minutes).
  - change (3 + 9 =? 11)%nat with false. cbv iota. change (3 - 0)%nat with 3%nat. change (11 - 0)%nat with (3 + 8)%nat. rewrite S1, S2, S3. now destruct (num deg), (num minutes).
Qed.
Print Assumptions C68_coordinate.
(** A row without longitude is dropped; one with a longitude but no latitude stops the conversion. *)
Theorem C68_rows : forall num rows ps, read_rows num rows = Some ps ->
  Forall2 (fun w p => h_ts p = w_ts w /\ h_roll p = w_roll w /\ h_pitch p = w_pitch w /\ h_heading p = w_heading w /\ h_depth p = w_depth w /\ h_altitude p = w_altitude w /\
             convert_latlon num (w_lon w) = Some (h_lon p) /\ convert_latlon num (w_lat w) = Some (h_lat p))
    (filter (fun w => (11 <=? length (w_lon w))%nat) rows) ps.
Proof.
  intros num. induction rows as [|w rows IH]; intros ps E; cbn [read_rows filter] in *; [injection E as <-; constructor|].
  destruct (length (w_lon w) <? 11)%nat eqn:L.
  - apply Nat.ltb_lt in L. assert ((11 <=? length (w_lon w))%nat = false) as -> by (apply Nat.leb_gt; lia). now apply IH.
  - apply Nat.ltb_ge in L. assert ((11 <=? length (w_lon w))%nat = true) as -> by (apply Nat.leb_le; lia).
    destruct (convert_latlon num (w_lon w)) as [lon|] eqn:A; [|discriminate]. destruct (convert_latlon num (w_lat w)) as [lat|] eqn:B; [|discriminate].
    destruct (read_rows num rows) as [ps'|]; [|discriminate]. cbn [option_map] in E. assert (ps = mkpos (w_ts w) (w_roll w) (w_pitch w) (w_heading w) (w_depth w) (w_altitude w) lon lat :: ps') as -> by congruence.
    constructor; [cbn; repeat split; assumption|]. now apply IH.
Qed.
Print Assumptions C68_rows.
Theorem C68_no_latitude : forall num rows w, In w rows -> (11 <= length (w_lon w))%nat -> (length (w_lat w) < 11)%nat -> read_rows num rows = None.
Proof.
  intros num rows w I L M. assert (convert_latlon num (w_lat w) = None) as C.
  { unfold convert_latlon. cbv zeta. assert ((length (w_lat w) =? 11)%nat = false) as -> by (apply Nat.eqb_neq; lia). change (11 - 0)%nat with 11%nat.
    assert (nth_error (w_lat w) 11 = None) as -> by (apply nth_error_None; lia). repeat match goal with |- context [num ?x] => destruct (num x) end; reflexivity. }
  induction rows as [|x rows IH]; [destruct I|]. cbn [read_rows]. destruct I as [->|I].
  - assert ((length (w_lon w) <? 11)%nat = false) as -> by (apply Nat.ltb_ge; lia). rewrite C. now destruct (convert_latlon num (w_lon w)).
  - rewrite (IH I). destruct (length (w_lon x) <? 11)%nat; [reflexivity|]. now destruct (convert_latlon num (w_lon x)), (convert_latlon num (w_lat x)).
Qed.
Print Assumptions C68_no_latitude.

(** ** Gaps *)
Lemma set_length : forall A (x : A) l i, length (set_nth i x l) = length l.
Proof. induction l as [|y l IH]; intros [|i]; cbn; auto. Qed.
Lemma set_same : forall A (x d : A) l i, (i < length l)%nat -> nth i (set_nth i x l) d = x.
Proof. induction l as [|y l IH]; intros [|i] H; cbn in *; try lia; [reflexivity|]. apply IH. lia. Qed.
Lemma set_other : forall A (x d : A) l i j, i <> j -> nth j (set_nth i x l) d = nth j l d.
Proof. induction l as [|y l IH]; intros [|i] [|j] H; cbn; auto; try lia. Qed.
Definition prev (n i : nat) : nat := match i with O => (n - 1)%nat | S k => k end.
Lemma fill_at_length : forall ts vs i, length (fill_at ts vs i) = length vs.
Proof. intros ts vs i. unfold fill_at. destruct (Qeq_bool _ _); [apply set_length|reflexivity]. Qed.
Lemma fold_fill : forall ts k vs, (k < length vs)%nat -> let out := fold_left (fill_at ts) (seq 0 k) vs in
  length out = length vs /\ (forall i, (k <= i)%nat -> nth i out 0 = nth i vs 0) /\
  forall i, (i < k)%nat -> nth i out 0 = if Qeq_bool (nth i vs 0) 0 then
    interpolate (nth i ts 0) (nth (prev (length vs) i) ts 0) (nth (S i) ts 0) (if (i =? 0)%nat then nth (length vs - 1) vs 0 else nth (i - 1) out 0) (nth (S i) vs 0) else nth i vs 0.
Proof.
  intros ts. induction k as [|k IH]; intros vs L; cbv zeta.
  - cbn. split; [reflexivity|]. split; [auto|]. lia.
  - rewrite seq_S, fold_left_app. cbn [fold_left Nat.add]. specialize (IH vs ltac:(lia)). cbv zeta in IH. set (o := fold_left (fill_at ts) (seq 0 k) vs) in *. destruct IH as (A & B & C).
    assert (forall j, j <> k -> nth j (fill_at ts o k) 0 = nth j o 0) as D by (intros j J; unfold fill_at; destruct (Qeq_bool _ _); [now rewrite set_other by auto|reflexivity]).
    split; [rewrite fill_at_length; exact A|]. split.
    + intros i I. rewrite D by lia. apply B. lia.
    + intros i I. destruct (Nat.eq_dec i k) as [->|N].
      * unfold fill_at at 1. rewrite (B k) by lia. destruct (Qeq_bool (nth k vs 0) 0) eqn:Z; [|apply B; lia]. rewrite set_same by lia. rewrite A, (B (S k)) by lia.
        destruct k as [|k']; cbn [prev Nat.eqb]; [now rewrite (B (length vs - 1)%nat) by lia|]. replace (S k' - 1)%nat with k' by lia. now rewrite D by lia.
      * rewrite (D i) by exact N. rewrite C by lia. destruct (i =? 0)%nat eqn:Z; [reflexivity|]. apply Nat.eqb_neq in Z. now rewrite (D (i - 1)%nat) by lia.
Qed.
Lemma interp_line : forall t x1 x2 y1 y2, ~ x2 == x1 -> on_line x1 y1 x2 y2 t (interpolate t x1 x2 y1 y2).
Proof.
  intros t x1 x2 y1 y2 N. unfold on_line, interpolate. destruct (Qeq_bool x2 x1) eqn:E; [apply Qeq_bool_iff in E; contradiction|]. field. intro Z. apply N. lra.
Qed.
(** The values that are not zero and the last one are kept.  A zero between two other records becomes
    the point on the line from the record before, as filled, to the record after, as read. *)
Theorem C68_gaps : forall ts vs, length ts = length vs -> increasing (fun x => x) ts ->
  length (fill_gaps ts vs) = length vs /\
  (forall i v, nth_error vs i = Some v -> ~ v == 0 \/ S i = length vs -> nth_error (fill_gaps ts vs) i = Some v) /\
  forall i t1 t t2 v v2, nth_error ts i = Some t1 -> nth_error ts (S i) = Some t -> nth_error ts (S (S i)) = Some t2 ->
    nth_error vs (S i) = Some v -> v == 0 -> nth_error vs (S (S i)) = Some v2 ->
    exists v1 x, nth_error (fill_gaps ts vs) i = Some v1 /\ nth_error (fill_gaps ts vs) (S i) = Some x /\ on_line t1 v1 t2 v2 t x.
Proof.
  intros ts vs LL I. destruct vs as [|v0 vs0] eqn:V.
  { split; [reflexivity|]. split; [intros [|i] v E; discriminate|]. intros i t1 t t2 v v2 _ _ _ E; discriminate. }
  rewrite <- V in *. assert (length vs - 1 < length vs)%nat as H by (rewrite V; cbn; lia). clear V v0 vs0.
  pose proof (fold_fill ts (length vs - 1) vs H) as F. cbv zeta in F. fold (fill_gaps ts vs) in F. destruct F as (A & B & C).
  split; [exact A|]. split.
  - intros i v E N. assert (i < length vs)%nat as Li by (apply nth_error_Some; congruence). rewrite (nth_error_nth' _ 0) by lia. f_equal. pose proof (nth_error_nth _ _ 0 E) as Ev.
    destruct (Nat.lt_ge_cases i (length vs - 1)) as [K|K]; [|rewrite B by exact K; exact Ev]. rewrite C, Ev by exact K. destruct N as [N|N]; [|lia].
    destruct (Qeq_bool v 0) eqn:Z; [apply Qeq_bool_iff in Z; contradiction|reflexivity].
  - intros i t1 t t2 v v2 T1 T T2 V Z V2. assert (S (S i) < length vs)%nat as L2 by (apply nth_error_Some; congruence).
    exists (nth i (fill_gaps ts vs) 0), (nth (S i) (fill_gaps ts vs) 0). split; [apply nth_error_nth'; lia|]. split; [apply nth_error_nth'; lia|].
    rewrite (C (S i)) by lia. rewrite (nth_error_nth _ _ 0 V). assert (Qeq_bool v 0 = true) as -> by now apply Qeq_bool_iff. cbn [prev Nat.eqb]. replace (S i - 1)%nat with i by lia.
    rewrite (nth_error_nth _ _ 0 T), (nth_error_nth _ _ 0 T1), (nth_error_nth _ _ 0 T2), (nth_error_nth _ _ 0 V2). apply interp_line.
    pose proof (I i (S (S i)) t1 t2 ltac:(lia) T1 T2) as G. cbv beta in G. intro E. lra.
Qed.
Print Assumptions C68_gaps.
(** A single missing value comes between its neighbours. *)
Theorem C68_single_gap : forall ts vs i t1 t t2 v1 v v2, length ts = length vs -> increasing (fun x => x) ts ->
  nth_error ts i = Some t1 -> nth_error ts (S i) = Some t -> nth_error ts (S (S i)) = Some t2 ->
  nth_error vs i = Some v1 -> nth_error vs (S i) = Some v -> nth_error vs (S (S i)) = Some v2 -> ~ v1 == 0 -> v == 0 ->
  exists x, nth_error (fill_gaps ts vs) (S i) = Some x /\ on_line t1 v1 t2 v2 t x /\ between v1 v2 x.
Proof.
  intros ts vs i t1 t t2 v1 v v2 L I T1 T T2 V1 V V2 N Z. destruct (C68_gaps ts vs L I) as (_ & K & G). destruct (G i t1 t t2 v v2 T1 T T2 V Z V2) as (w & x & W & X & O).
  rewrite (K i v1 V1 (or_introl N)) in W. assert (w = v1) as -> by congruence. exists x. split; [exact X|]. split; [exact O|].
  pose proof (I i (S i) t1 t ltac:(lia) T1 T) as G1. pose proof (I (S i) (S (S i)) t t2 ltac:(lia) T T2) as G2. cbv beta in G1, G2. unfold on_line in O. clear -O G1 G2. unfold between.
  assert ((x - v1) * (t2 - t1) == (v2 - v1) * (t - t1)) as O1 by (setoid_replace ((x - v1) * (t2 - t1)) with (x * (t2 - t1) - v1 * (t2 - t1)) by ring; rewrite O; ring).
  assert ((v2 - x) * (t2 - t1) == (v2 - v1) * (t2 - t)) as O2 by (setoid_replace ((v2 - x) * (t2 - t1)) with (v2 * (t2 - t1) - x * (t2 - t1)) by ring; rewrite O; ring).
  destruct (Qlt_le_dec v2 v1) as [C|C]; [right|left].
  - split.
    + apply Qnot_lt_le. intros D. assert (0 < (v2 - x) * (t2 - t1)) by (apply Qmult_lt_0_compat; lra). assert (0 < (v1 - v2) * (t2 - t)) by (apply Qmult_lt_0_compat; lra). lra.
    + apply Qnot_lt_le. intros D. assert (0 < (x - v1) * (t2 - t1)) by (apply Qmult_lt_0_compat; lra). assert (0 < (v1 - v2) * (t - t1)) by (apply Qmult_lt_0_compat; lra). lra.
  - split.
    + apply Qnot_lt_le. intros D. assert (0 < (v1 - x) * (t2 - t1)) by (apply Qmult_lt_0_compat; lra). assert (0 <= (v2 - v1) * (t - t1)) by (apply Qmult_le_0_compat; lra). lra.
    + apply Qnot_lt_le. intros D. assert (0 < (x - v2) * (t2 - t1)) by (apply Qmult_lt_0_compat; lra). assert (0 <= (v2 - v1) * (t2 - t)) by (apply Qmult_le_0_compat; lra). lra.
Qed.
Print Assumptions C68_single_gap.
(** The first record is filled from the last and the second, so that its value can lie outside; a gap of
    two records is filled with the line to zero. *)
Theorem C168_first_gap_refuted : exists ts vs x, increasing (fun x => x) ts /\ length ts = length vs /\ (forall v, In v vs -> v == 0 \/ 10 <= v <= 20) /\
  nth_error (fill_gaps ts vs) 0 = Some x /\ ~ 10 <= x <= 20.
Proof.
  exists [0; 1; 2], [0; 20; 10]. eexists. split; [|split; [reflexivity|split; [|split; [reflexivity|]]]].
  - intros [|[|[|i]]] [|[|[|j]]] a b H A B; try lia; cbn in A, B; try (destruct i; discriminate); try (destruct j; discriminate); injection A as <-; injection B as <-; reflexivity.
  - intros v [<-|[<-|[<-|[]]]]; [now left|right|right]; split; discriminate.
  - intros [_ H]. vm_compute in H. now apply H.
Qed.
Print Assumptions C168_first_gap_refuted.
Theorem C168_double_gap_refuted : exists ts vs x, increasing (fun x => x) ts /\ length ts = length vs /\ (forall v, In v vs -> v == 0 \/ v == 10) /\
  is_first vs 10 /\ is_last vs 10 /\ nth_error (fill_gaps ts vs) 1 = Some x /\ ~ x == 10.
Proof.
  exists [0; 1; 2; 3], [10; 0; 0; 10]. eexists. split; [|split; [reflexivity|split; [|split; [now eexists|split; [now exists [10; 0; 0]|split; [reflexivity|]]]]]].
  - intros [|[|[|[|i]]]] [|[|[|[|j]]]] a b H A B; try lia; cbn in A, B; try (destruct i; discriminate); try (destruct j; discriminate); injection A as <-; injection B as <-; reflexivity.
  - intros v [<-|[<-|[<-|[<-|[]]]]]; first [left; reflexivity|right; reflexivity].
  - intros H. discriminate H.
Qed.
Print Assumptions C168_double_gap_refuted.

(** ** Images *)
Lemma search_spec : forall fuel ps t i, (i + 2 <= length ps)%nat -> (length ps <= fuel + i)%nat -> (forall k, (k < i)%nat -> h_ts (nth k ps none_p) < t) ->
  let j := search fuel ps t i in (j + 2 <= length ps)%nat /\ (forall k, (k < j)%nat -> h_ts (nth k ps none_p) < t) /\ (t <= h_ts (nth j ps none_p) \/ (j + 2 = length ps)%nat).
Proof.
  induction fuel as [|fuel IH]; intros ps t i L F P; cbn [search]; cbv zeta; [lia|].
  destruct ((i + 2 <? length ps)%nat && Qltb (h_ts (nth i ps none_p)) t)%bool eqn:C.
  - apply andb_prop in C. destruct C as [C1 C2]. apply Nat.ltb_lt in C1. apply Qltb_lt in C2. apply IH; [lia|lia|]. intros k K. destruct (Nat.eq_dec k i) as [->|N]; [exact C2|]. apply P. lia.
  - split; [exact L|]. split; [exact P|]. apply andb_false_iff in C. destruct C as [C|C]; [right; apply Nat.ltb_ge in C; lia|left; now apply Qltb_ge in C].
Qed.
(** The values of an image are on the line of the first record not before it and the following record
    (or of the last two), at its time. *)
Theorem C68_image : forall ps t, increasing h_ts ps -> (2 <= length ps)%nat ->
  exists p a b, interp_at ps t = Some p /\ h_ts p = t /\ segment_at ps t a b /\ on_segment a b p.
Proof.
  intros ps t I L. unfold interp_at. cbv zeta. pose proof (search_spec (length ps) ps t 0 ltac:(lia) ltac:(lia) ltac:(lia)) as H. cbv zeta in H. set (j := search _ _ _ _) in *. clearbody j. destruct H as (A & B & C).
  rewrite (nth_error_nth' ps none_p) by lia. rewrite (nth_error_nth' ps none_p (n := S j)) by lia. set (a := nth j ps none_p) in *. set (b := nth (S j) ps none_p) in *.
  eexists. exists a, b. split; [reflexivity|]. split; [reflexivity|].
  assert (nth_error ps j = Some a) as Na by (apply nth_error_nth'; lia). assert (nth_error ps (S j) = Some b) as Nb by (apply nth_error_nth'; lia).
  pose proof (I j (S j) a b ltac:(lia) Na Nb) as G. split.
  - apply nth_error_split in Na. destruct Na as (l1 & l2 & E & L1). rewrite E, nth_error_app2 in Nb by lia. replace (S j - length l1)%nat with 1%nat in Nb by lia. cbn in Nb. destruct l2 as [|b' l2]; [discriminate|]. injection Nb as ->.
    exists l1, l2. split; [exact E|]. split.
    + intros c Ic. apply In_nth with (d := none_p) in Ic. destruct Ic as (k & K & <-). specialize (B k ltac:(lia)). now rewrite E, app_nth1 in B by exact K.
    + destruct C as [C|C]; [now left|right]. rewrite E, app_length in C. cbn in C. destruct l2; [reflexivity|cbn in C; lia].
  - intros g Ig. clearbody a b. cbn [h_ts]. cbn in Ig. repeat (destruct Ig as [<-|Ig]; [cbn [h_roll h_pitch h_heading h_depth h_altitude h_lon h_lat]; apply interp_line; intro E; lra|]). destruct Ig.
Qed.
Print Assumptions C68_image.
(** At the time of a record the values are those of the record. *)
Theorem C68_on_record : forall ps c, increasing h_ts ps -> (2 <= length ps)%nat -> In c ps -> exists p, interp_at ps (h_ts c) = Some p /\ forall g, In g fields -> g p == g c.
Proof.
  intros ps c I L Ic. destruct (C68_image ps (h_ts c) I L) as (p & a & b & E & T & (l1 & l2 & P & B & D) & O). exists p. split; [exact E|]. intros g G. specialize (O g G). rewrite T in O. unfold on_line in O.
  assert (h_ts a < h_ts b) as AB by (apply (I (length l1) (S (length l1))); [lia| |]; rewrite P, nth_error_app2 by lia; [rewrite Nat.sub_diag|replace (S (length l1) - length l1)%nat with 1%nat by lia]; reflexivity).
  assert (c = a \/ c = b) as [->| ->].
  { apply In_nth_error in Ic. destruct Ic as (k & K). assert (k < length l1 -> False)%nat as N1.
    { intros H. rewrite P, nth_error_app1 in K by exact H. apply nth_error_In in K. specialize (B c K). lra. }
    destruct (Nat.eq_dec k (length l1)) as [->|N2]; [left; rewrite P, nth_error_app2, Nat.sub_diag in K by lia; cbn in K; congruence|].
    destruct (Nat.eq_dec k (S (length l1))) as [->|N3]; [right; rewrite P, nth_error_app2 in K by lia; replace (S (length l1) - length l1)%nat with 1%nat in K by lia; cbn in K; congruence|]. exfalso.
    assert (nth_error ps (length l1) = Some a) as Na by (rewrite P, nth_error_app2, Nat.sub_diag by lia; reflexivity).
    destruct D as [D| ->]; [pose proof (I (length l1) k a c ltac:(lia) Na K); lra|]. assert (k < length ps)%nat by (apply nth_error_Some; congruence). rewrite P, app_length in H. cbn in H. lia. }
  - apply (Qmult_inj_r _ _ (h_ts b - h_ts a)); [intro; lra|]. rewrite O. ring.
  - apply (Qmult_inj_r _ _ (h_ts b - h_ts a)); [intro; lra|]. rewrite O. ring.
Qed.
Print Assumptions C68_on_record.
(** Between two records that are not the last two, the image does not get values of their segment: the
    line of the next segment is continued backwards. *)
Theorem C168_backwards : forall ps l1 l2 a b c t, increasing h_ts ps -> ps = l1 ++ a :: b :: c :: l2 -> h_ts a < t -> t < h_ts b ->
  exists p, interp_at ps t = Some p /\ on_segment b c p.
Proof.
  intros ps l1 l2 a b c t I P A B. destruct (C68_image ps t I) as (p & x & y & E & T & (m1 & m2 & Q & C & D) & O); [rewrite P, app_length; cbn; lia|].
  assert (nth_error ps (length l1) = Some a) as Na by (rewrite P, nth_error_app2, Nat.sub_diag by lia; reflexivity).
  assert (nth_error ps (S (length l1)) = Some b) as Nb by (rewrite P, nth_error_app2 by lia; replace (S (length l1) - length l1)%nat with 1%nat by lia; reflexivity).
  assert (nth_error ps (S (S (length l1))) = Some c) as Nc by (rewrite P, nth_error_app2 by lia; replace (S (S (length l1)) - length l1)%nat with 2%nat by lia; reflexivity).
  assert (nth_error ps (length m1) = Some x) as Nx by (rewrite Q, nth_error_app2, Nat.sub_diag by lia; reflexivity).
  assert (nth_error ps (S (length m1)) = Some y) as Ny by (rewrite Q, nth_error_app2 by lia; replace (S (length m1) - length m1)%nat with 1%nat by lia; reflexivity).
  assert (length m1 = S (length l1)) as K.
  { destruct (Nat.lt_trichotomy (length m1) (S (length l1))) as [H|[H|H]]; [|exact H|].
    - exfalso. destruct D as [D| ->].
      + destruct (Nat.eq_dec (length m1) (length l1)) as [Z|Z]; [rewrite Z in Nx; assert (x = a) by congruence; subst; lra|]. pose proof (I (length m1) (length l1) x a ltac:(lia) Nx Na). lra.
      + assert (length ps = length m1 + 2)%nat as LL by (rewrite Q, app_length; reflexivity). assert (S (S (length l1)) < length ps)%nat by (apply nth_error_Some; congruence). lia.
    - exfalso. assert (nth_error m1 (S (length l1)) = Some b) as M by (rewrite Q, nth_error_app1 in Nb by exact H; exact Nb). apply nth_error_In in M. specialize (C b M). lra. }
  exists p. split; [exact E|]. rewrite K in Nx, Ny. assert (x = b) as -> by congruence. assert (y = c) as -> by congruence. exact O.
Qed.
Print Assumptions C168_backwards.
Definition ex_pos (t v : Q) : pos := mkpos t 0 0 v 0 0 0 0.
Theorem C168_between_refuted : exists ps a b t p, increasing h_ts ps /\ adjacent ps a b /\ h_ts a < t < h_ts b /\ interp_at ps t = Some p /\ ~ between (h_heading a) (h_heading b) (h_heading p).
Proof.
  exists [ex_pos 0 10; ex_pos 10 10; ex_pos 20 50], (ex_pos 0 10), (ex_pos 10 10), 5. eexists. split; [|split; [now exists 0%nat|split; [split; reflexivity|split; [vm_compute; reflexivity|]]]].
  - intros [|[|[|i]]] [|[|[|j]]] a b H A B; try lia; cbn in A, B; try (destruct i; discriminate); try (destruct j; discriminate); injection A as <-; injection B as <-; reflexivity.
  - intros [[H _]|[H _]]; vm_compute in H; now apply H.
Qed.
Print Assumptions C168_between_refuted.
(** The heading is not wrapped: half way from 350 to 10 degrees it is 180. *)
Theorem C168_heading_refuted : exists ps a b t p, increasing h_ts ps /\ is_last ps b /\ adjacent ps a b /\ h_ts a < t < h_ts b /\ interp_at ps t = Some p /\
  ~ on_short_arc (h_ts a) (h_heading a) (h_ts b) (h_heading b) t (h_heading p).
Proof.
  exists [ex_pos 0 350; ex_pos 10 10], (ex_pos 0 350), (ex_pos 10 10), 5. eexists. split; [|split; [now exists [ex_pos 0 350]|split; [now exists 0%nat|split; [split; reflexivity|split; [vm_compute; reflexivity|]]]]].
  - intros [|[|i]] [|[|j]] a b H A B; try lia; cbn in A, B; try (destruct i; discriminate); try (destruct j; discriminate); injection A as <-; injection B as <-; reflexivity.
  - cbn [h_ts h_heading ex_pos]. intros (d & D & (k & K) & v & (m & M) & O). unfold on_line in O. apply Qabs_Qle_condition in D. rewrite inject_Z_mult in K, M. change (inject_Z 360) with 360 in K, M.
    set (x := inject_Z k) in *. set (y := inject_Z m) in *.
    assert (d == 360 * x - 340) as D' by lra. assert (v == 350 + (1 # 2) * d) as V by lra. assert (180 == v + 360 * y) as M' by (etransitivity; [|exact M]; reflexivity).
    assert (x + 2 * y == 0) as X by lra. unfold x, y in X. change 2 with (inject_Z 2) in X. rewrite <- inject_Z_mult, <- inject_Z_plus in X. change 0 with (inject_Z 0) in X. apply (proj1 (inject_Z_injective _ _)) in X.
    assert (160 <= 360 * x /\ 360 * x <= 520) as [B1 B2] by lra. unfold x in B1, B2. change 160 with (inject_Z 160) in B1. change 520 with (inject_Z 520) in B2. change 360 with (inject_Z 360) in B1, B2. rewrite <- inject_Z_mult in B1, B2. rewrite <- Zle_Qle in B1, B2. lia.
Qed.
Print Assumptions C168_heading_refuted.

(** ** The whole conversion *)
Definition line_of (ne : Q -> Q -> Q -> Q -> Q * Q) (ps : list pos) (rlat rlon : Q) (k : nat) (im : text * Q) (l : line) : Prop :=
  l_number l = k /\ l_file l = fst im /\ interp_at ps (snd im) = Some (l_pos l) /\ l_ne l = ne (h_lat (l_pos l)) (h_lon (l_pos l)) rlat rlon.
Lemma lines_spec : forall ne ps rlat rlon images k ls, lines ne ps rlat rlon k images = Some ls ->
  length ls = length images /\ forall i im l, nth_error images i = Some im -> nth_error ls i = Some l -> line_of ne ps rlat rlon (k + i) im l.
Proof.
  intros ne ps rlat rlon. induction images as [|[file t] images IH]; intros k ls E; cbn [lines] in E.
  - injection E as <-. split; [reflexivity|]. intros [|i] im l A; discriminate.
  - destruct (interp_at ps t) as [p|] eqn:P; [|discriminate]. destruct (lines ne ps rlat rlon (S k) images) as [ls'|] eqn:L; [|discriminate]. cbn [option_map] in E.
    set (x := mkline _ _ _ _) in *. assert (ls = x :: ls') as -> by congruence. destruct (IH _ _ L) as (A & B). split; [cbn; lia|]. intros [|i] im l I N; cbn in I, N.
    + assert (im = (file, t)) as -> by congruence. assert (l = x) as -> by congruence. rewrite Nat.add_0_r. repeat split. exact P.
    + replace (k + S i)%nat with (S k + i)%nat by lia. now apply B.
Qed.
(** Every image gives one line, in order, relative to the reference given, or to the first record with a
    latitude when one of the two reference coordinates is zero. *)
Theorem C68_output : forall num ne rows images rlat rlon ls t1 t2, parser num ne rows images rlat rlon = Some (ls, t1, t2) ->
  exists ps lat lon, read_rows num rows = Some ps /\
    (if Qeq_bool rlat 0 || Qeq_bool rlon 0 then exists l1 p l2, ps = l1 ++ p :: l2 /\ (forall c, In c l1 -> h_lat c == 0) /\ ~ h_lat p == 0 /\ lat = h_lat p /\ lon = h_lon p
     else lat = rlat /\ lon = rlon) /\
    (exists p, is_first ps p /\ t1 = h_ts p) /\ (exists p, is_last ps p /\ t2 = h_ts p) /\
    length ls = length images /\
    forall i im l, nth_error images i = Some im -> nth_error ls i = Some l -> line_of ne (with_filled ps) lat lon i im l.
Proof.
  intros num ne rows images rlat rlon ls t1 t2 E. unfold parser in E. destruct (read_rows num rows) as [ps|]; [|discriminate]. cbv zeta in E.
  assert (Forall2 (fun p q => h_ts q = h_ts p /\ h_lat q = h_lat p /\ h_lon q = h_lon p) ps (with_filled ps)) as W.
  { unfold with_filled. assert (forall vs, length vs = length ps -> length (fill_gaps (map h_ts ps) vs) = length ps) as FL.
    { intros vs L. unfold fill_gaps. rewrite <- L. generalize (seq 0 (length vs - 1)) as is. intros is. assert (forall is vs, length (fold_left (fill_at (map h_ts ps)) is vs) = length vs) as G; [|apply G].
      clear. induction is as [|i is IH]; intros vs; cbn [fold_left]; [reflexivity|]. now rewrite IH, fill_at_length. }
    pose proof (FL (map h_altitude ps) (map_length _ _)) as F1. pose proof (FL (map h_depth ps) (map_length _ _)) as F2. generalize dependent (fill_gaps (map h_ts ps) (map h_altitude ps)).
    generalize dependent (fill_gaps (map h_ts ps) (map h_depth ps)). clear. induction ps as [|p ps IH]; intros l2 L2 l1 L1; [constructor|]. destruct l1 as [|x l1]; [discriminate|]. destruct l2 as [|y l2]; [discriminate|].
    cbn [combine map]. constructor; [repeat split|]. apply IH; cbn in *; lia. }
  destruct (reference rlat rlon (with_filled ps)) as [[lat lon]|] eqn:R; [|discriminate]. destruct (lines ne (with_filled ps) lat lon 0 images) as [ls'|] eqn:L; [|discriminate].
  destruct (with_filled ps) as [|q qs] eqn:WE; [discriminate|]. rewrite <- WE in *. exists ps, lat, lon. split; [reflexivity|]. split; [|split; [|split]].
  - unfold reference in R. rewrite orb_comm in R. destruct (Qeq_bool rlat 0 || Qeq_bool rlon 0)%bool; [|injection R as <- <-; auto].
    destruct (find _ _) as [q0|] eqn:F; [|discriminate]. cbn [option_map] in R. assert (h_lat q0 = lat) as R1 by congruence. assert (h_lon q0 = lon) as R2 by congruence. clear -W F R1 R2.
    revert F. induction W as [|p q' ps qs' (A & B & C) W IH]; intros F; [discriminate|]. cbn [find] in F. destruct (Qeq_bool (h_lat q') 0) eqn:Z; cbn [negb] in F.
    + destruct (IH F) as (l1 & p' & l2 & -> & G & H). exists (p :: l1), p', l2. split; [reflexivity|]. split; [|exact H]. intros c [<-|Ic]; [rewrite <- B; now apply Qeq_bool_iff|now apply G].
    + assert (q' = q0) as -> by congruence. exists [], p, ps. split; [reflexivity|]. split; [intros c []|]. split; [rewrite <- B; intro Y; apply Qeq_bool_iff in Y; congruence|]. split; congruence.
  - rewrite WE in W, E. inversion W as [|p ? ps' ? (A & _) ?]; subst. exists p. split; [now exists ps'|]. congruence.
  - destruct (@exists_last _ ps) as (l & p & Ep); [intros ->; rewrite WE in W; inversion W|]. exists p. split; [now exists l|]. assert (t2 = h_ts (last (with_filled ps) none_p)) as -> by (rewrite WE in E |- *; congruence).
    clear -W Ep. subst ps. apply Forall2_app_inv_l in W. destruct W as (m1 & m2 & W1 & W2 & ->). inversion W2 as [|? q' ? ? (A & _) W3]; subst. inversion W3; subst. now rewrite last_last.
  - assert (ls' = ls) as -> by (rewrite WE in E; congruence). apply lines_spec in L. exact L.
Qed.
Print Assumptions C68_output.
(** Fewer than two usable rows and an image: the conversion fails. *)
Theorem C68_too_few : forall num ne rows images rlat rlon ps, read_rows num rows = Some ps -> (length ps < 2)%nat -> images <> [] -> parser num ne rows images rlat rlon = None.
Proof.
  intros num ne rows images rlat rlon ps E L N. unfold parser. rewrite E. cbv zeta. destruct (reference rlat rlon (with_filled ps)) as [[lat lon]|]; [|reflexivity].
  assert (length (with_filled ps) < 2)%nat as L'. { unfold with_filled. rewrite map_length, combine_length. lia. }
  destruct images as [|[file t] images]; [now destruct N|]. cbn [lines]. assert (interp_at (with_filled ps) t = None) as ->; [|reflexivity].
  unfold interp_at. cbv zeta. assert (nth_error (with_filled ps) (S (search (length (with_filled ps)) (with_filled ps) t 0)) = None) as -> by (apply nth_error_None; lia). now destruct (nth_error _ _).
Qed.
Print Assumptions C68_too_few.

Example C68_ex_coordinate : coordinate (txt "00703.39736W") (txt "007") (txt "03.39736") 87 /\ coordinate (txt "5950.89694N") (txt "59") (txt "50.89694") 78.
Proof. repeat split; [now right|now left]. Qed.
Example C68_ex_gap : map Qred (fill_gaps [0; 1; 2; 3] [4; 0; 8; 0]) = [4; 6; 8; 0].
Proof. reflexivity. Qed.
Example C68_ex_image : option_map (fun p => Qred (h_heading p)) (interp_at [ex_pos 0 10; ex_pos 10 20; ex_pos 20 50] 15) = Some 35.
Proof. reflexivity. Qed.
