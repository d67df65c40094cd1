(** C247/C248: relative pose uncertainties. *)
From Coq Require Import Ascii String Lia.
From Verif Require Import PyBase NmeaModel NmeaProofs CsvModel InterpModel InterpSpec UsblSpec ListFacts EkfCamModel EkfCamProofs SortQ RelPoseModel.
Open Scope Q_scope.
Open Scope list_scope.

(** * Windows *)
Lemma load_window {R : Type} (name : R -> text) (start stop : text) : forall pre w z post,
  (forall r, In r pre -> name r <> start /\ name r <> stop) -> (forall r, In r w -> name r <> stop) -> name z = stop ->
  name (hd z w) = start -> load_states name start stop (pre ++ w ++ z :: post) = w ++ [z].
Proof.
  intros pre w z post P W Z S. unfold load_states.
  assert (T : forall w, (forall r, In r w -> name r <> stop) -> load name start stop true (w ++ z :: post) = w ++ [z]).
  { clear W S w. induction w as [|m w IH]; intros W; cbn [app load orb].
    - assert (text_eqb (name z) stop = true) as -> by (apply text_eqb_iff; exact Z). reflexivity.
    - destruct (text_eqb (name m) stop) eqn:E; [apply text_eqb_iff in E; exfalso; apply (W m); [now left|exact E]|].
      cbn [app]. f_equal. apply IH. intros r I; apply W; now right. }
  induction pre as [|p pre IH]; cbn [app].
  - destruct w as [|a w]; cbn [hd app] in *.
    + cbn [load orb]. assert (text_eqb (name z) start = true) as -> by (apply text_eqb_iff; exact S).
      assert (text_eqb (name z) stop = true) as -> by (apply text_eqb_iff; exact Z). reflexivity.
    + cbn [load orb]. assert (text_eqb (name a) start = true) as -> by (apply text_eqb_iff; exact S).
      destruct (text_eqb (name a) stop) eqn:E; [apply text_eqb_iff in E; exfalso; apply (W a); [now left|exact E]|].
      cbn [app]. f_equal. apply T. intros r I; apply W; now right.
  - cbn [load orb]. destruct (P p ltac:(now left)) as [P1 P2].
    destruct (text_eqb (name p) start) eqn:E1; [apply text_eqb_iff in E1; congruence|].
    destruct (text_eqb (name p) stop) eqn:E2; [apply text_eqb_iff in E2; congruence|]. cbn [app]. apply IH. intros r I; apply P; now right.
Qed.
Lemma crop_load : forall start stop l use, crop use start stop l = load i_name start stop use l.
Proof. induction l as [|i l IH]; intros use; [reflexivity|]. cbn [crop load]. rewrite IH. reflexivity. Qed.
Lemma load_in {R : Type} (name : R -> text) (start stop : text) : forall l use r, In r (load name start stop use l) -> In r l.
Proof.
  induction l as [|a l IH]; intros use r; cbn [load]; [intros []|].
  assert (H : In r (if (use || text_eqb (name a) start)%bool then [a] else []) -> In r (a :: l)) by (destruct (use || _)%bool; [intros [<-|[]]; now left|intros []]).
  destruct (text_eqb (name a) stop); [exact H|]. rewrite in_app_iff. intros [I|I]; [exact (H I)|right; exact (IH _ _ I)].
Qed.
Lemma load_none {R : Type} (name : R -> text) (start stop : text) : forall l, (forall r, In r l -> name r <> start) -> load_states name start stop l = [].
Proof.
  unfold load_states. induction l as [|a l IH]; intros H; [reflexivity|]. cbn [load orb].
  destruct (text_eqb (name a) start) eqn:E; [apply text_eqb_iff in E; exfalso; apply (H a); [now left|exact E]|].
  destruct (text_eqb (name a) stop); [reflexivity|]. cbn [app]. apply IH. intros r I; apply H; now right.
Qed.

(** * Times asked for *)
Lemma unique_all : forall l q, In q l -> exists x, In x (unique l) /\ x == q.
Proof.
  induction l as [|a l IH]; intros q; [intros []|]. cbn [unique]. destruct l as [|b l].
  - intros [<-|[]]. exists a; split; [now left|reflexivity].
  - destruct (Qeq_bool a b) eqn:E.
    + intros [<-|I]; [|apply IH; exact I]. apply Qeq_bool_iff in E. destruct (IH b) as (x & X1 & X2); [now left|]. exists x; split; [exact X1|]. rewrite X2, E; reflexivity.
    + intros [<-|I]; [exists a; split; [now left|reflexivity]|]. destruct (IH q I) as (x & X1 & X2). exists x; split; [now right|exact X2].
Qed.
Lemma unique_in : forall l q, In q (unique l) -> In q l.
Proof.
  induction l as [|a l IH]; intros q; [intros []|]. cbn [unique]. destruct l as [|b l]; [auto|]. destruct (Qeq_bool a b); [intros I; right; apply IH; exact I|].
  intros [<-|I]; [now left|right; apply IH; exact I].
Qed.
Lemma unique_increasing : forall l, nondecreasing (fun q => q) l -> increasing (fun q => q) (unique l).
Proof.
  assert (IC : forall a l, (forall b : Q, In b l -> a < b) -> increasing (fun q => q) l -> increasing (fun q : Q => q) (a :: l)).
  { intros a l H1 H2 i j x y L X Y. destruct j as [|j]; [lia|]. destruct i as [|i]; cbn in X, Y; [|apply (H2 i j x y); [lia|exact X|exact Y] ].
    assert (a = x) by congruence; subst. apply H1. eapply nth_error_In; exact Y. }
  induction l as [|a l IH]; intros H; [intros i j x y L X Y; destruct i; discriminate|]. destruct (proj1 (nd_cons_iff (fun q => q) a l) H) as [H1 H2]. cbn [unique]. destruct l as [|b l].
  - apply IC; [intros x []|]. intros i j x y L X Y; destruct i; discriminate.
  - destruct (Qeq_bool a b) eqn:E; [apply IH; exact H2|]. apply IC; [|apply IH; exact H2].
    assert (a < b) by (assert (a <= b) by (apply H1; now left); apply Qeq_bool_neq in E; destruct (Qlt_le_dec a b); [assumption|exfalso; apply E; lra]).
    intros x I; apply unique_in in I. destruct I as [<-|I]; [assumption|]. assert (b <= x) by (apply (proj1 (proj1 (nd_cons_iff (fun q => q) b l) H2)); exact I). lra.
Qed.
Lemma sorted_set_in : forall l q, In q l -> exists x, In x (sorted_set l) /\ x == q.
Proof. intros l q I; apply unique_all. apply qsort_In. exact I. Qed.

(** * Pairing *)
Section Pairing.
  Variables (C E : Type) (ct : C -> Q) (et : E -> Q).
  Lemma subseq_in : forall (A : Type) (a b : list A), subseq a b -> forall x, In x a -> In x b.
  Proof. intros A a b H; induction H; intros y I; [destruct I|destruct I as [<-|I]; [now left|right; auto]|right; auto]. Qed.
  Lemma subseq_all : forall (a b : list C), subseq a b -> increasing ct b -> (forall x, In x b -> In x a) -> a = b.
  Proof.
    intros a b H; induction H as [l|x a b H IH|x a b H IH]; intros N A.
    - destruct l as [|x l]; [reflexivity|]. destruct (A x); now left.
    - destruct (inc_cons _ _ _ N) as [N1 N2]. f_equal. apply IH; [exact N1|]. intros y I. destruct (A y ltac:(now right)) as [<-|J]; [|exact J].
      specialize (N2 _ I). lra.
    - destruct (inc_cons _ _ _ N) as [N1 N2]. assert (I : In x a) by (apply A; now left). apply (subseq_in _ _ _ H) in I. specialize (N2 _ I). lra.
  Qed.
  Lemma first_exists : forall (found : list E) c s, In s found -> et s == ct c -> exists e, first_at C E ct et found c e.
  Proof.
    induction found as [|e found IH]; intros c s I T; [destruct I|]. destruct (Qeq_dec (et e) (ct c)) as [Y|N].
    - exists e, [], found. split; [reflexivity|]. split; [exact Y|intros x []].
    - destruct I as [->|I]; [contradiction|]. destruct (IH c s I T) as (x & a & b & X & Y & Z). exists x, (e :: a), b. split; [cbn; rewrite X; reflexivity|].
      split; [exact Y|]. intros y [<-|J]; [exact N|apply Z; exact J].
  Qed.
  Lemma update_all : forall cams found, increasing ct cams -> nondecreasing et found -> (forall c, In c cams -> exists s, In s found /\ et s == ct c) ->
    exists r, update_camera_list C E ct et cams found = Some r /\ map fst r = cams /\ (forall c e, In (c, e) r -> In e found /\ et e == ct c).
  Proof.
    intros cams found I N A. destruct (pair_total C E ct et (S (length cams + length found)) cams found) as [r R]; [lia|]. exists r. split; [exact R|].
    destruct (pair_sound _ _ _ _ _ _ _ _ R) as (S1 & S2 & S3). split.
    - apply subseq_all; [exact S1|exact I|]. intros c J. destruct (A c J) as (s & X & Y). destruct (first_exists found c s X Y) as (e & F).
      apply (in_map fst _ (c, e)). exact (pair_complete _ _ _ _ _ _ _ _ I N R _ _ J F).
    - intros c e J. split; [|symmetry; apply S3; exact J]. apply (subseq_in _ _ _ S2). apply (in_map snd _ (c, e)). exact J.
  Qed.
End Pairing.

Lemma increasing_app : forall A (f : A -> Q) a b, increasing f (a ++ b) -> increasing f a /\ increasing f b.
Proof.
  intros A f a b H; split; intros i j x y L X Y.
  - apply (H i j x y L); (rewrite nth_error_app1; [assumption|apply nth_error_Some; congruence]).
  - apply (H (length a + i)%nat (length a + j)%nat x y); [lia| |]; (rewrite nth_error_app2 by lia).
    + replace (length a + i - length a)%nat with i by lia. exact X.
    + replace (length a + j - length a)%nat with j by lia. exact Y.
Qed.

Lemma last_time : forall l x, last (map r_time l) (r_time x) = r_time (last l x).
Proof. induction l as [|y l IH]; intros x; [reflexivity|]. destruct l; [reflexivity|]. exact (IH x). Qed.

(** * The filter, as C18 describes it *)
Section Filter.
  Variable pose : Type.
  Variable shift : pose -> pose.
  Variable ekf : row -> Q -> Q -> (nat -> nat -> Q) -> list Q -> list (state pose).
  Definition covering : Prop := forall s0 a b P asked, increasing (fun q => q) asked ->
    nondecreasing (s_time pose) (ekf s0 a b P asked) /\ forall q, In q asked -> a < q -> q <= b -> exists s, In s (ekf s0 a b P asked) /\ s_time pose s == q.
  Notation relative := (relative pose shift ekf).

  (** Same rows and images: it finishes and both files have a row for every image from the first to the last asked for, in their order.
      The time of the first image may be read back with an error below a microsecond, the one of the last must not be too early. *)
  Theorem C247_finishes : covering -> forall pre w z post rpre rw rz rpost start stop cameras others P,
    (3 <= cameras)%nat -> increasing i_time (pre ++ w ++ z :: post) ->
    map r_name rpre = map i_name pre -> map r_name rw = map i_name w -> r_name rz = i_name z ->
    (forall i, In i pre -> i_name i <> start /\ i_name i <> stop) -> (forall i, In i w -> i_name i <> stop) ->
    i_name (hd z w) = start -> i_name z = stop ->
    r_time (hd rz rw) < i_time (hd z w) + (1 # 1000000) -> i_time z <= r_time rz ->
    exists fs, relative (Some start) (Some stop) cameras (rpre ++ rw ++ rz :: rpost) (pre ++ w ++ z :: post) others P = Done fs /\
      (w <> [] -> exists S T, f_subtraction pose fs = Some S /\ f_propagation pose fs = Some T /\
        map r_name S = map i_name (w ++ [z]) /\ map (fun p => fst (fst p)) T = map i_name (w ++ [z])).
  Proof.
    intros CV pre w z post rpre rw rz rpost start stop cameras others P C3 INC N1 N2 N3 PRE W H1 H2 T1 T2.
    assert (NM : forall (l : list row) (l' : list image) (K : text -> Prop), map r_name l = map i_name l' -> (forall i, In i l' -> K (i_name i)) -> forall r, In r l -> K (r_name r)).
    { intros l l' K M A r I. apply (in_map r_name) in I. rewrite M in I. apply in_map_iff in I. destruct I as (i & <- & I). apply A; exact I. }
    assert (LR : load_states r_name start stop (rpre ++ rw ++ rz :: rpost) = rw ++ [rz]).
    { apply load_window; [apply (NM _ _ (fun t => t <> start /\ t <> stop) N1 PRE)|apply (NM _ _ (fun t => t <> stop) N2 W)|congruence|].
      destruct rw as [|r rw], w as [|i w]; try discriminate; cbn in *; congruence. }
    assert (LC : crop false start stop (pre ++ w ++ z :: post) = w ++ [z]).
    { rewrite crop_load. apply load_window; assumption. }
    unfold RelPoseModel.relative. replace (cameras <? 3)%nat with false by (symmetry; apply Nat.ltb_ge; exact C3). rewrite LR, LC, (map_app load_row). change (map load_row [rz]) with [load_row rz].
    remember (map load_row rw ++ [load_row rz]) as states eqn:DS. destruct states as [|s0 l]; [destruct rw; discriminate|].
    assert (T0 : r_time s0 = r_time (hd rz rw)) by (destruct rw; cbn in DS; replace s0 with (hd s0 (s0 :: l)) by reflexivity; rewrite DS; reflexivity).
    assert (LAST : r_time (last (s0 :: l) s0) = r_time rz) by (rewrite DS, last_last; reflexivity).
    cbv zeta. set (asked := sorted_set _).
    destruct (w ++ [z]) as [|i0 l0] eqn:EW; [destruct w; discriminate|]. rewrite <- EW in *.
    destruct (CV s0 (r_time s0 - (1 # 1000000)) (r_time (last (s0 :: l) s0)) (known P) asked) as [ND AL]; [apply unique_increasing, qsort_sorted|].
    destruct (increasing_app _ _ _ _ INC) as [_ INC2].
    assert (INCW : increasing i_time (w ++ [z])).
    { replace (w ++ z :: post) with ((w ++ [z]) ++ post) in INC2 by (rewrite <- app_assoc; reflexivity). apply (increasing_app _ _ _ _ INC2). }
    assert (EDGE : forall i, In i (w ++ [z]) -> i_time (hd z w) <= i_time i /\ i_time i <= i_time z).
    { clear -INCW. intros i I. split.
      - destruct w as [|a w]; cbn [hd app] in *; [destruct I as [<-|[]]; lra|]. destruct (inc_cons _ _ _ INCW) as [_ A]. destruct I as [<-|I]; [lra|]. specialize (A _ I). lra.
      - apply in_app_iff in I. destruct I as [I|[<-|[]]]; [|lra]. apply In_nth_error in I. destruct I as [n Hn].
        assert (n < length w)%nat by (apply nth_error_Some; congruence).
        assert (i_time i < i_time z); [|lra]. apply (INCW n (length w)); [assumption|rewrite nth_error_app1 by assumption; exact Hn|rewrite nth_error_app2, Nat.sub_diag by lia; reflexivity]. }
    destruct (update_all image (state pose) i_time (s_time pose) (w ++ [z]) (ekf s0 (r_time s0 - (1 # 1000000)) (r_time (last (s0 :: l) s0)) (known P) asked) INCW ND) as (pairs & U & M & _).
    { intros i I. destruct (EDGE i I) as [E1 E2].
      destruct (sorted_set_in (map i_time (pre ++ w ++ z :: post) ++ others) (i_time i)) as (q & Q1 & Q2).
      { apply in_app_iff; left. apply in_map. apply in_app_iff; right. replace (w ++ z :: post) with ((w ++ [z]) ++ post) by (rewrite <- app_assoc; reflexivity). apply in_app_iff; left; exact I. }
      destruct (AL q Q1) as (s & S1 & S2); [rewrite T0; lra|rewrite LAST; lra|]. exists s; split; [exact S1|]. rewrite S2; exact Q2. }
    rewrite U.
    assert (LEN : length pairs = length (s0 :: l)).
    { rewrite <- (map_length fst pairs), M. rewrite DS. rewrite !app_length, map_length. apply (f_equal (@length _)) in N2. rewrite !map_length in N2. cbn. lia. }
    rewrite LEN, Nat.eqb_refl. eexists; split; [reflexivity|]. intros WN. cbn [f_subtraction f_propagation].
    assert (L2 : (1 < length (s0 :: l))%nat).
    { rewrite DS. rewrite app_length, map_length. apply (f_equal (@length _)) in N2. rewrite !map_length in N2. destruct w; [congruence|]. cbn in *. lia. }
    assert (NS : map r_name (subtracted (s0 :: l)) = map r_name (s0 :: l)) by (cbn [subtracted map with_cov r_name]; f_equal; rewrite map_map; reflexivity).
    assert (NW : map r_name (s0 :: l) = map i_name (w ++ [z])).
    { rewrite DS. rewrite !map_app, map_map. cbn. rewrite N3. f_equal. rewrite <- N2. apply map_ext; reflexivity. }
    unfold file. assert (LS : length (subtracted (s0 :: l)) = length (s0 :: l)) by (cbn [subtracted length]; rewrite map_length; reflexivity).
    rewrite LS, map_length, LEN. replace (1 <? length (s0 :: l))%nat with true by (symmetry; apply Nat.ltb_lt; exact L2).
    eexists; eexists. split; [reflexivity|]. split; [reflexivity|]. split; [rewrite NS; exact NW|]. rewrite map_map. cbn [fst]. rewrite <- M, map_map. reflexivity.
  Qed.

  Lemma done_inv : forall start stop cameras rows laser others P fs, relative start stop cameras rows laser others P = Done fs ->
    exists a b s0 l pairs, start = Some a /\ stop = Some b /\ (3 <= cameras)%nat /\ map load_row (load_states r_name a b rows) = s0 :: l
      /\ update_camera_list image (state pose) i_time (s_time pose) (crop false a b laser)
           (ekf s0 (r_time s0 - (1 # 1000000)) (r_time (last (s0 :: l) s0)) (known P) (sorted_set (map i_time laser ++ others))) = Some pairs
      /\ length pairs = length (s0 :: l) /\ fs = mkfiles pose (file (subtracted (s0 :: l))) (file (map (fun p => (i_name (fst p), shift (s_pose pose (snd p)), s_cov pose (snd p))) pairs)).
  Proof.
    intros start stop cameras rows laser others P fs. unfold RelPoseModel.relative. destruct start as [a|]; [|discriminate]. destruct stop as [b|]; [|discriminate].
    destruct (cameras <? 3)%nat eqn:C; [discriminate|]. apply Nat.ltb_ge in C. destruct (map load_row (load_states r_name a b rows)) as [|s0 l] eqn:E; [discriminate|].
    cbv zeta. destruct (crop false a b laser) as [|i0 l0] eqn:EC; [discriminate|]. 
    destruct (update_camera_list image (state pose) i_time (s_time pose) (i0 :: l0) _) as [pairs|] eqn:U; [|discriminate].
    destruct (length pairs =? length (s0 :: l))%nat eqn:L; [|discriminate]. apply Nat.eqb_eq in L. intros H. exists a, b, s0, l, pairs.
    rewrite <- EC in U. repeat (split; [first [reflexivity|assumption]|]). assert (X := f_equal (fun o => match o with Done f => f | _ => fs end) H). cbv beta iota in X. symmetry; exact X.
  Qed.
  (** Subtraction: names, times, poses and velocities as they were in the file; the first image has no uncertainty, the others
      the sum of their own and of the first one's. *)
  Theorem C247_subtraction : forall start stop cameras rows laser others P fs S, relative start stop cameras rows laser others P = Done fs -> f_subtraction pose fs = Some S ->
    exists a b r0 rest s0 srest, start = Some a /\ stop = Some b /\ load_states r_name a b rows = r0 :: rest /\ S = s0 :: srest
      /\ map r_name S = map r_name (r0 :: rest) /\ map r_time S = map r_time (r0 :: rest)
      /\ Forall2 (fun s r => forall k, In k ["filename"; "northings"; "eastings"; "depth"; "roll"; "pitch"; "yaw"; "x_velocity"; "y_velocity"; "z_velocity"; "epoch_timestamp"]%string -> r_cells s k = r_cells r k) S (r0 :: rest)
      /\ length (r_cov s0) = length (r_cov r0) /\ (forall j, nth j (r_cov s0) 0 = 0)
      /\ Forall2 (fun s r => forall j, (j < length (r_cov r))%nat -> (j < length (r_cov r0))%nat -> nth j (r_cov s) 0 = nth j (r_cov r) 0 + nth j (r_cov r0) 0) srest rest.
  Proof.
    intros start stop cameras rows laser others P fs S D F. destruct (done_inv _ _ _ _ _ _ _ _ D) as (a & b & s0 & l & pairs & -> & -> & _ & E & _ & _ & ->).
    cbn [f_subtraction] in F. unfold file in F. destruct (1 <? _)%nat; [|discriminate]. assert (S = subtracted (s0 :: l)) by congruence; subst S; clear F.
    destruct (load_states r_name a b rows) as [|r0 rest] eqn:EL; [discriminate|]. cbn [map] in E. assert (E0 : s0 = load_row r0) by congruence. assert (E1 : l = map load_row rest) by congruence. subst s0 l.
    exists a, b, r0, rest. eexists; eexists. split; [reflexivity|]. split; [reflexivity|]. split; [exact EL|]. split; [cbn [subtracted]; reflexivity|].
    assert (CELL : forall r k, In k ["filename"; "northings"; "eastings"; "depth"; "roll"; "pitch"; "yaw"; "x_velocity"; "y_velocity"; "z_velocity"; "epoch_timestamp"]%string -> loaded_cells (r_cells r) k = r_cells r k).
    { intros r k I. unfold loaded_cells. assert (existsb (String.eqb k) kept = true) as ->; [|reflexivity]. apply existsb_exists. exists k. split; [exact I|apply String.eqb_refl]. }
    split; [cbn; f_equal; rewrite !map_map; reflexivity|]. split; [cbn; f_equal; rewrite !map_map; reflexivity|]. split.
    { constructor; [intros k I; cbn; apply CELL; exact I|]. rewrite map_map. clear EL D E. induction rest as [|r rest IH]; [constructor|]. constructor; [intros k I; cbn; apply CELL; exact I|exact IH]. }
    split; [cbn; rewrite map_length; reflexivity|]. split.
    { intros j. cbn. clear. revert j. induction (r_cov r0) as [|q l IH]; intros [|j]; cbn; auto. }
    rewrite map_map. clear EL D E. induction rest as [|r rest IH]; [constructor|]. constructor; [|exact IH]. intros j L1 L2. cbn [load_row with_cov r_cov]. unfold plus.
    clear IH. revert j L1 L2. generalize (r_cov r) (r_cov r0). induction l as [|x l IH]; intros [|y m] [|j] L1 L2; cbn in *; try lia; [reflexivity|]. apply IH; lia.
  Qed.
  (** Propagation: a row per row of the other file, each with the pose and the covariance of the state at the time of an image of the same name. *)
  Theorem C247_propagation : forall start stop cameras rows laser others P fs T, relative start stop cameras rows laser others P = Done fs -> f_propagation pose fs = Some T ->
    exists S r0 found asked, f_subtraction pose fs = Some S /\ length T = length S
      /\ found = ekf (load_row r0) (r_time r0 - (1 # 1000000)) (last (map r_time S) (r_time r0)) (fun i j => if ((i <? 6) && (j <? 6))%nat%bool then 0 else P i j) asked
      /\ hd_error (map r_name S) = Some (r_name r0) /\ (forall q, In q (map i_time laser ++ others) -> exists x, In x asked /\ x == q)
      /\ Forall (fun row => exists i s, In i laser /\ In s found /\ s_time pose s == i_time i /\ row = (i_name i, shift (s_pose pose s), s_cov pose s)) T.
  Proof.
    intros start stop cameras rows laser others P fs T D F. destruct (done_inv _ _ _ _ _ _ _ _ D) as (a & b & s0 & l & pairs & -> & -> & _ & E & U & L & ->).
    cbn [f_propagation] in F. unfold file in F. rewrite map_length, L in F. destruct (1 <? length (s0 :: l))%nat eqn:G; [|discriminate].
    match type of F with Some ?t = _ => assert (T = t) by congruence end; subst T; clear F.
    destruct (load_states r_name a b rows) as [|r0 rest] eqn:EL; [discriminate|]. cbn [map] in E. assert (E0 : s0 = load_row r0) by congruence. subst s0.
    exists (subtracted (load_row r0 :: l)), r0. eexists; exists (sorted_set (map i_time laser ++ others)). split.
    { cbn [f_subtraction]. unfold file. assert (LS : length (subtracted (load_row r0 :: l)) = length (load_row r0 :: l)) by (cbn [subtracted length]; rewrite map_length; reflexivity). rewrite LS, G. reflexivity. }
    split; [rewrite map_length, L; cbn [subtracted length]; rewrite map_length; reflexivity|]. split; [reflexivity|]. split; [reflexivity|]. split; [intros q I; apply sorted_set_in; exact I|].
    assert (TM : map r_time (subtracted (load_row r0 :: l)) = map r_time (load_row r0 :: l)) by (cbn [subtracted map]; f_equal; rewrite map_map; reflexivity). rewrite TM.
    assert (LT : last (map r_time (load_row r0 :: l)) (r_time r0) = r_time (last (load_row r0 :: l) (load_row r0))).
    { exact (last_time (load_row r0 :: l) (load_row r0)). }
    rewrite LT. destruct (pair_sound _ _ _ _ _ _ _ _ U) as (S1 & S2 & S3). apply Forall_forall. intros row I. apply in_map_iff in I. destruct I as ([i s] & <- & I). exists i, s.
    split; [|split; [|split; [|reflexivity] ] ].
    - assert (J := in_map fst _ _ I). apply (subseq_in _ _ _ S1) in J. cbn [fst] in J. rewrite crop_load in J. exact (load_in _ _ _ _ _ _ J).
    - assert (J := in_map snd _ _ I). apply (subseq_in _ _ _ S2) in J. exact J.
    - cbn [fst snd] in *. symmetry. apply S3; exact I.
  Qed.
  (** Refusals. *)
  Theorem C247_refused : forall start stop cameras rows laser others P fs, relative start stop cameras rows laser others P = Done fs ->
    exists a b, start = Some a /\ stop = Some b /\ In a (map r_name rows) /\ In a (map i_name laser).
  Proof.
    intros start stop cameras rows laser others P fs D. destruct (done_inv _ _ _ _ _ _ _ _ D) as (a & b & s0 & l & pairs & -> & -> & _ & E & U & L & _).
    exists a, b. split; [reflexivity|]. split; [reflexivity|]. split.
    - destruct (in_dec (list_eq_dec N.eq_dec) a (map r_name rows)) as [I|N]; [exact I|exfalso].
      rewrite load_none in E; [discriminate|]. intros r I J. apply N. rewrite <- J. apply in_map; exact I.
    - destruct (in_dec (list_eq_dec N.eq_dec) a (map i_name laser)) as [I|N]; [exact I|exfalso].
      assert (CE : crop false a b laser = []) by (rewrite crop_load; apply load_none; intros r I J; apply N; rewrite <- J; apply in_map; exact I). rewrite CE in U. cbn in U.
      assert (pairs = []) by congruence. subst. discriminate.
  Qed.
End Filter.
Print Assumptions C247_finishes. Print Assumptions C247_subtraction. Print Assumptions C247_propagation. Print Assumptions C247_refused.

(** * C248 *)
(** A filter that records exactly the times asked for. *)
Definition ex_ekf (s0 : row) (a b : Q) (P : nat -> nat -> Q) (asked : list Q) : list (state Q) := map (fun q => mkstate Q q q [q]) (filter (fun q => Qltb a q && Qle_bool q b)%bool asked).
Lemma ex_covering : covering Q ex_ekf.
Proof.
  intros s0 a b P asked I. unfold ex_ekf. split.
  - assert (ND : nondecreasing (fun q => q) (filter (fun q => Qltb a q && Qle_bool q b)%bool asked)).
    { induction asked as [|x l IH]; [exact (fun i j x y _ X _ => match i, X with O, X | _, X => match (X : None = Some x) with end end) || (intros i j x y _ X; destruct i; discriminate)|].
      destruct (inc_cons _ _ _ I) as [I1 I2]. cbn [filter]. destruct (Qltb a x && Qle_bool x b)%bool; [|apply IH; exact I1].
      apply nd_cons_iff. split; [|apply IH; exact I1]. intros y J. apply filter_In in J. destruct J as [J _]. specialize (I2 _ J). cbv beta in *. lra. }
    revert ND. generalize (filter (fun q => Qltb a q && Qle_bool q b)%bool asked). clear. intros l ND i j x y L X Y. rewrite nth_error_map in X, Y.
    destruct (nth_error l i) as [x'|] eqn:EX; [|discriminate]. destruct (nth_error l j) as [y'|] eqn:EY; [|discriminate]. cbn in X, Y.
    assert (x = mkstate Q x' x' [x']) by congruence. assert (y = mkstate Q y' y' [y']) by congruence. subst. exact (ND i j x' y' L EX EY).
  - intros q J A B. exists (mkstate Q q q [q]). split; [|reflexivity]. apply (in_map (fun q => mkstate Q q q [q])). apply filter_In. split; [exact J|].
    apply andb_true_iff. split; [apply Qltb_lt; exact A|apply Qle_bool_iff; exact B].
Qed.
Definition ex_row (n : string) (t : Q) (c : Q) : row := mkrow (txt n) (txt n) t (fun k => txt k) [c; 2 * c].
Definition ex_rows : list row := [ex_row "a" 1 1; ex_row "b" 2 2; ex_row "c" 3 4; ex_row "d" 4 8].
Definition ex_laser : list image := [mkimg (txt "a") 1; mkimg (txt "b") 2; mkimg (txt "c") 3; mkimg (txt "d") 4].
Definition ex_P (i j : nat) : Q := 1.
Example C247_example : exists fs, relative Q (fun p => p + 10) ex_ekf (Some (txt "b")) (Some (txt "d")) 3 ex_rows ex_laser [5 # 2; 3] ex_P = Done fs
  /\ option_map (map (fun r => (r_name r, map Qred (r_cov r)))) (f_subtraction Q fs) = Some [(txt "b", [0; 0]); (txt "c", [6; 12]); (txt "d", [10; 20])]
  /\ option_map (map (fun r => (fst (fst r), map Qred (snd r)))) (f_propagation Q fs) = Some [(txt "b", [2]); (txt "c", [3]); (txt "d", [4])].
Proof. eexists. split; [vm_compute; reflexivity|]. split; vm_compute; reflexivity. Qed.

(** With two cameras (BioCam), for which the names of the new files are foreseen, the third camera is looked up. *)
Theorem C248_two_cameras_refuted : exists pose shift ekf, covering pose ekf /\ exists start stop rows laser, In start (map r_name rows) /\ map r_name rows = map i_name laser /\ In stop (map r_name rows)
  /\ relative pose shift ekf (Some start) (Some stop) 2 rows laser [] ex_P = Raises "IndexError".
Proof. exists Q, (fun p => p), ex_ekf. split; [exact ex_covering|]. exists (txt "b"), (txt "d"), ex_rows, ex_laser. split; [cbn; tauto|]. split; [reflexivity|]. split; [cbn; tauto|reflexivity]. Qed.
(** One image: it finishes and writes nothing. *)
Theorem C248_one_image_refuted : exists pose shift ekf, covering pose ekf /\ exists start rows laser fs, In start (map r_name rows) /\ map r_name rows = map i_name laser
  /\ relative pose shift ekf (Some start) (Some start) 3 rows laser [] ex_P = Done fs /\ f_subtraction pose fs = None /\ f_propagation pose fs = None.
Proof. exists Q, (fun p => p), ex_ekf. split; [exact ex_covering|]. exists (txt "b"), ex_rows, ex_laser. eexists. split; [cbn; tauto|]. split; [reflexivity|]. split; [vm_compute; reflexivity|split; reflexivity]. Qed.
(** A row without depth was left out of the states file: the numbers of rows and images differ. *)
Theorem C248_dropped_row_refuted : exists pose shift ekf, covering pose ekf /\ exists start stop rows laser, In start (map r_name rows) /\ In stop (map r_name rows) /\ increasing i_time laser
  /\ (forall r, In r rows -> exists i, In i laser /\ i_name i = r_name r /\ i_time i = r_time r) /\ relative pose shift ekf (Some start) (Some stop) 3 rows laser [] ex_P = Raises "AssertionError".
Proof.
  exists Q, (fun p => p), ex_ekf. split; [exact ex_covering|]. exists (txt "a"), (txt "d"), [ex_row "a" 1 1; ex_row "b" 2 2; ex_row "d" 4 8], ex_laser. split; [cbn; tauto|]. split; [cbn; tauto|].
  split; [apply increasing_chain; reflexivity|]. split; [|vm_compute; reflexivity].
  intros r [<-|[<-|[<-|[]]]]; [exists (mkimg (txt "a") 1)|exists (mkimg (txt "b") 2)|exists (mkimg (txt "d") 4)]; (split; [cbn; tauto|split; reflexivity]).
Qed.
(** The covariance of another image is taken, with a message. *)
Theorem C248_other_covariance_refuted : exists pose shift ekf, covering pose ekf /\ exists start stop rows laser fs S r, In r rows /\ r_cov_name r <> r_name r
  /\ relative pose shift ekf (Some start) (Some stop) 3 rows laser [] ex_P = Done fs /\ f_subtraction pose fs = Some S /\ In (r_name r) (map r_name S).
Proof.
  exists Q, (fun p => p), ex_ekf. split; [exact ex_covering|]. exists (txt "a"), (txt "b"), [ex_row "a" 1 1; mkrow (txt "b") (txt "c") 2 (fun k => txt k) [9; 9]; ex_row "c" 3 1], ex_laser. eexists; eexists.
  exists (mkrow (txt "b") (txt "c") 2 (fun k => txt k) [9; 9]). split; [cbn; tauto|]. split; [vm_compute; discriminate|]. split; [vm_compute; reflexivity|]. split; [reflexivity|]. vm_compute; tauto.
Qed.
(** An unknown last image is not refused: all images from the first on are taken. *)
Theorem C248_unknown_end_refuted : exists pose shift ekf, covering pose ekf /\ exists start stop rows laser fs, ~ In stop (map r_name rows) /\ ~ In stop (map i_name laser)
  /\ relative pose shift ekf (Some start) (Some stop) 3 rows laser [] ex_P = Done fs.
Proof.
  exists Q, (fun p => p), ex_ekf. split; [exact ex_covering|]. exists (txt "b"), (txt "x"), ex_rows, ex_laser. eexists. split; [|split; [|vm_compute; reflexivity]]; intros I; vm_compute in I; intuition discriminate.
Qed.
(** The file named "..._at_dvl" has the poses of the origin of the vehicle, not of the DVL. *)
Theorem C248_at_dvl_refuted : exists pose (shift : pose -> pose) ekf, covering pose ekf /\ exists start stop rows laser fs T,
  relative pose shift ekf (Some start) (Some stop) 3 rows laser [] ex_P = Done fs /\ f_propagation pose fs = Some T /\ T <> []
  /\ forall n p c, In (n, p, c) T -> forall s0 a b P asked s, In s (ekf s0 a b P asked) -> s_pose pose s <> p.
Proof.
  exists (bool * Q)%type, (fun p => (true, snd p)), (fun s0 a b P asked => map (fun s => mkstate (bool * Q) (s_time Q s) (false, s_pose Q s) (s_cov Q s)) (ex_ekf s0 a b P asked)). split.
  - intros s0 a b P asked I. destruct (ex_covering s0 a b P asked I) as [A B]. split.
    + intros i j x y L X Y. rewrite nth_error_map in X, Y. destruct (nth_error (ex_ekf s0 a b P asked) i) as [x'|] eqn:EX; [|discriminate]. destruct (nth_error (ex_ekf s0 a b P asked) j) as [y'|] eqn:EY; [|discriminate].
      cbn [option_map] in X, Y. assert (Hx : s_time (bool * Q) x = s_time Q x') by (replace x with (mkstate (bool * Q) (s_time Q x') (false, s_pose Q x') (s_cov Q x')) by congruence; reflexivity).
      assert (Hy : s_time (bool * Q) y = s_time Q y') by (replace y with (mkstate (bool * Q) (s_time Q y') (false, s_pose Q y') (s_cov Q y')) by congruence; reflexivity). rewrite Hx, Hy. exact (A i j x' y' L EX EY).
    + intros q J H1 H2. destruct (B q J H1 H2) as (s & S1 & S2). eexists. split; [apply in_map; exact S1|exact S2].
  - exists (txt "b"), (txt "d"), ex_rows, ex_laser. eexists; eexists. split; [vm_compute; reflexivity|]. split; [reflexivity|]. split; [discriminate|].
    intros n p c I s0 a b P asked s J. apply in_map_iff in J. destruct J as (s' & <- & _). cbn [s_pose]. destruct I as [I|[I|[I|[]]]]; assert (fst p = true) by (apply (f_equal (fun x => fst (snd (fst x)))) in I; cbn in I; symmetry; exact I); intros X; rewrite <- X in *; discriminate.
Qed.
(** The new states file has "None" where the old one has the altitude, the geographic position and the deviations. *)
Theorem C248_columns_lost_refuted : exists pose shift ekf, covering pose ekf /\ exists start stop rows laser fs S s r k, relative pose shift ekf (Some start) (Some stop) 3 rows laser [] ex_P = Done fs /\ f_subtraction pose fs = Some S
  /\ In s S /\ In r rows /\ r_name s = r_name r /\ In k (c_attrs camera) /\ r_cells r k <> txt "None" /\ r_cells s k = txt "None".
Proof.
  exists Q, (fun p => p), ex_ekf. split; [exact ex_covering|]. exists (txt "b"), (txt "d"), ex_rows, ex_laser. eexists; eexists. exists (with_cov (load_row (ex_row "b" 2 2)) [0; 0]), (ex_row "b" 2 2), "altitude"%string.
  split; [vm_compute; reflexivity|]. split; [reflexivity|]. split; [left; reflexivity|]. split; [right; left; reflexivity|]. split; [reflexivity|]. split; [cbn; tauto|]. split; [vm_compute; discriminate|reflexivity].
Qed.
(** The time of the last image read back too early, by any amount, can stop the command (the microsecond taken off is at the start only). *)
Theorem C248_end_refuted : exists pose shift ekf, covering pose ekf /\ forall eps, 0 < eps -> eps < 1 -> exists start stop rows laser, map r_name rows = map i_name laser /\ increasing i_time laser
  /\ Forall2 (fun r i => Qabs (r_time r - i_time i) <= eps) rows laser /\ relative pose shift ekf (Some start) (Some stop) 3 rows laser [] ex_P = Raises "AssertionError".
Proof.
  exists Q, (fun p => p), ex_ekf. split; [exact ex_covering|]. intros eps E0 E1. exists (txt "a"), (txt "b"), [ex_row "a" 1 1; ex_row "b" (2 - eps) 1], [mkimg (txt "a") 1; mkimg (txt "b") 2].
  split; [reflexivity|]. split; [apply increasing_chain; reflexivity|]. split.
  { constructor; [cbn [r_time ex_row i_time]; apply Qabs_Qle_condition; lra|constructor; [|constructor]]. cbn [r_time ex_row i_time]. apply Qabs_Qle_condition; lra. }
  unfold relative. cbn [Nat.ltb Nat.leb].
  assert (LS : load_states r_name (txt "a") (txt "b") [ex_row "a" 1 1; ex_row "b" (2 - eps) 1] = [ex_row "a" 1 1; ex_row "b" (2 - eps) 1]) by reflexivity. rewrite LS.
  assert (LC : crop false (txt "a") (txt "b") [mkimg (txt "a") 1; mkimg (txt "b") 2] = [mkimg (txt "a") 1; mkimg (txt "b") 2]) by reflexivity. rewrite LC. cbn [map]. cbv zeta.
  assert (FD : ex_ekf (load_row (ex_row "a" 1 1)) (r_time (load_row (ex_row "a" 1 1)) - (1 # 1000000)) (r_time (last [load_row (ex_row "a" 1 1); load_row (ex_row "b" (2 - eps) 1)] (load_row (ex_row "a" 1 1)))) (known ex_P)
     (sorted_set ([i_time (mkimg (txt "a") 1); i_time (mkimg (txt "b") 2)] ++ [])) = [mkstate Q 1 1 [1]]).
  { unfold ex_ekf. change (sorted_set ([i_time (mkimg (txt "a") 1); i_time (mkimg (txt "b") 2)] ++ [])) with [1; 2]. cbn [last load_row r_time ex_row filter].
    assert (Qltb (1 - (1 # 1000000)) 1 = true) as -> by reflexivity. assert (Qltb (1 - (1 # 1000000)) 2 = true) as -> by reflexivity.
    assert (Qle_bool 1 (2 - eps) = true) as -> by (apply Qle_bool_iff; lra).
    assert (Qle_bool 2 (2 - eps) = false) as -> by (destruct (Qle_bool 2 (2 - eps)) eqn:X; [apply Qle_bool_iff in X; lra|reflexivity]). reflexivity. }
  rewrite FD. reflexivity.
Qed.
Print Assumptions C248_two_cameras_refuted.
Print Assumptions C248_one_image_refuted.
Print Assumptions C248_dropped_row_refuted.
Print Assumptions C248_other_covariance_refuted.
Print Assumptions C248_unknown_end_refuted.
Print Assumptions C248_at_dvl_refuted.
Print Assumptions C248_columns_lost_refuted.
Print Assumptions C248_end_refuted.
