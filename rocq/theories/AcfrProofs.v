From Coq Require Import Ascii String.
From Verif Require Import PyBase PfProofs AcfrModel.
Open Scope Q_scope.
Open Scope list_scope.

(** ** Pose files *)

(** Everything of a pose but its attitude. *)
Definition same_place (p q : pose) : Prop :=
  t p = t q /\ lat p = lat q /\ lon p = lon q /\ north p = north q /\ east p = east q /\ depth p = depth q /\ alt p = alt q.
Definition same_attitude (p q : pose) : Prop := roll p == roll q /\ pitch p == pitch q /\ yaw p == yaw q.

Section Poses.
  Variable degrees : Q -> Q.
  Variable basename : string -> string.

  Lemma parse_skip : forall one k ls i p rest, (i + length ls <= k)%nat ->
    parse_lines one k i p (ls ++ rest) = parse_lines one k (i + length ls) p rest.
  Proof.
    induction ls as [|l r IH]; intros i p rest H; [now rewrite Nat.add_0_r|].
    cbn [length] in H. cbn [app parse_lines length].
    assert ((i =? k)%nat = false) as -> by (apply Nat.eqb_neq; lia).
    assert ((i =? S k)%nat = false) as -> by (apply Nat.eqb_neq; lia).
    assert ((S k <? i)%nat = false) as -> by (apply Nat.ltb_ge; lia).
    rewrite IH by lia. f_equal. lia.
  Qed.
  Lemma parse_entries : forall one k A (line : Q -> A -> fline) (ent : A -> entry),
    (forall i a, one (line i a) = Some (ent a)) ->
    forall l n i p, (S k < i)%nat ->
    parse_lines one k i p (number line n l) = Some (mkparsed (o_lat p) (o_lon p) (entries p ++ map ent l)).
  Proof.
    intros one k A line ent E. induction l as [|a l IH]; intros n i p H.
    - cbn. rewrite app_nil_r. destruct p; reflexivity.
    - cbn [number parse_lines].
      assert ((i =? k)%nat = false) as -> by (apply Nat.eqb_neq; lia).
      assert ((i =? S k)%nat = false) as -> by (apply Nat.eqb_neq; lia).
      assert ((S k <? i)%nat = true) as -> by (apply Nat.ltb_lt; lia).
      rewrite E, IH by lia. cbn [o_lat o_lon entries map]. now rewrite <- app_assoc.
  Qed.

  Definition vehicle_ent (p : pose) : entry :=
    mkentry (t p) (lat p) (lon p) (north p) (east p) (depth p) (degrees (roll p)) (degrees (pitch p)) (degrees (yaw p)) EmptyString EmptyString (alt p).
  Definition stereo_ent (cc : camera * camera) : entry :=
    let p := c_pose (fst cc) in
    mkentry (t p) (lat p) (lon p) (north p) (east p) (depth p) (degrees (roll p)) (degrees (pitch p)) (degrees (yaw p))
            (basename (c_file (fst cc))) (basename (c_file (snd cc))) (alt p).

  Lemma vehicle_read_back : forall la lo p0 ps,
    parse_vehicle degrees (write_vehicle la lo (p0 :: ps)) = Some (mkparsed (Some lo) (Some (t p0)) (map vehicle_ent ps)).
  Proof.
    intros la lo p0 ps. unfold parse_vehicle, write_vehicle, origin_lines.
    rewrite parse_skip by (cbn; lia). change (0 + length vehicle_header)%nat with 43%nat.
    cbn [app number]. cbn [parse_lines Nat.eqb Nat.ltb Nat.leb second float].
    change (vehicle_line (inject_Z 0) p0) with
      [Num 0; Num (t p0); Num (lat p0); Num (lon p0); Num (north p0); Num (east p0); Num (depth p0);
       Num (roll p0); Num (pitch p0); Num (yaw p0); Num (alt p0)].
    cbn [second float o_lat o_lon entries].
    rewrite (parse_entries _ 44 _ vehicle_line vehicle_ent); [reflexivity|reflexivity|lia].
  Qed.
  Lemma vehicle_read_nothing : forall la lo, parse_vehicle degrees (write_vehicle la lo []) = Some (mkparsed (Some lo) None []).
  Proof. reflexivity. Qed.

  Lemma stereo_read_back : forall la lo c1 c2,
    parse_stereo degrees (write_stereo basename la lo c1 c2) = Some (mkparsed (Some la) (Some lo) (map stereo_ent (combine c1 c2))).
  Proof.
    intros la lo c1 c2. unfold parse_stereo, write_stereo, origin_lines.
    rewrite parse_skip by (cbn; lia). change (0 + length stereo_header)%nat with 55%nat.
    cbn [app]. cbn [parse_lines Nat.eqb Nat.ltb Nat.leb second float o_lat o_lon entries].
    rewrite (parse_entries _ 55 _ (stereo_line basename) stereo_ent); [reflexivity|reflexivity|lia].
  Qed.

  Lemma Forall2_map_r : forall A B (R : A -> B -> Prop) (f : A -> B) l, (forall a, R a (f a)) -> Forall2 R l (map f l).
  Proof. intros A B R f l H. induction l; constructor; auto. Qed.
End Poses.

(** ** The combined raw file *)

Definition is_plain (l : rawline) : bool := match l with Plain _ => true | Rdi _ _ _ => false end.
Definition rdi_lines (l : list rawline) : list rawline := filter (fun x => negb (is_plain x)) l.
(** The measurements that have a line of their own. *)
Definition own_line (m : measurement) : bool :=
  match m_kind m with KDepth | KUsbl | KOrientation | KCamera false => true | _ => false end.
Definition of_kind (k : kind) (m : measurement) : Prop := m_kind m = k.
(** [m] is the last measurement of kind [k] in [ms]. *)
Definition last_of (k : kind) (ms : list measurement) (m : measurement) : Prop :=
  exists a b, ms = a ++ m :: b /\ m_kind m = k /\ Forall (fun x => m_kind x <> k) b.

Lemma run_snoc : forall ms m, run_writer (ms ++ [m]) = add (run_writer ms) m.
Proof. intros. unfold run_writer. now rewrite fold_left_app. Qed.

Lemma others_in_order : forall ms, filter is_plain (written (run_writer ms)) = map Plain (filter own_line ms).
Proof.
  intro ms. induction ms as [|m ms IH] using rev_ind; [reflexivity|].
  rewrite run_snoc, filter_app, map_app, <- IH. cbn [filter]. unfold add, own_line.
  destruct (m_kind m) as [| | | | | | |[]]; cbn [written]; rewrite ?filter_app; cbn [filter is_plain map]; rewrite ?app_nil_r; try reflexivity.
  destruct (rdi_altitude (run_writer ms)), (rdi_orientation (run_writer ms)); cbn [written]; rewrite ?filter_app; cbn; rewrite ?app_nil_r; reflexivity.
Qed.

(** Since the last RDI line: [ms] = [pre] ++ [seg], the last line of [pre] being the one
    that caused it. *)
Definition since_last_rdi (ms seg : list measurement) : Prop :=
  exists pre, ms = pre ++ seg /\
    (pre = [] \/ exists pre' v, pre = pre' ++ [v] /\ m_kind v = KBodyVelocity /\
       rdi_lines (written (run_writer pre)) <> rdi_lines (written (run_writer pre'))) /\
    rdi_lines (written (run_writer ms)) = rdi_lines (written (run_writer pre)).

Definition fresh (k : kind) (seg : list measurement) (x : option measurement) : Prop :=
  match x with Some m => last_of k seg m | None => Forall (fun x => m_kind x <> k) seg end.

Lemma fresh_other : forall k seg x m, m_kind m <> k -> fresh k seg x -> fresh k (seg ++ [m]) x.
Proof.
  intros k seg [y|] m N H; cbn in *.
  - destruct H as (a & b & -> & K & F). exists a, (b ++ [m]). rewrite <- app_assoc. split; [reflexivity|]. split; [exact K|].
    apply Forall_app. split; [exact F|]. constructor; [exact N|constructor].
  - apply Forall_app. split; [exact H|]. constructor; [exact N|constructor].
Qed.
Lemma fresh_this : forall k seg m, m_kind m = k -> fresh k (seg ++ [m]) (Some m).
Proof. intros k seg m K. exists seg, []. split; [reflexivity|]. split; [exact K|constructor]. Qed.

Lemma since_same : forall ms seg m, since_last_rdi ms seg ->
  rdi_lines (written (run_writer (ms ++ [m]))) = rdi_lines (written (run_writer ms)) -> since_last_rdi (ms ++ [m]) (seg ++ [m]).
Proof.
  intros ms seg m (pre & -> & P & R) E. exists pre. rewrite app_assoc. split; [reflexivity|]. split; [exact P|]. congruence.
Qed.

Lemma rdi_snoc_plain : forall l m, rdi_lines (l ++ [Plain m]) = rdi_lines l.
Proof. intros. unfold rdi_lines. rewrite filter_app. cbn. apply app_nil_r. Qed.
Lemma rdi_snoc : forall l v a o, rdi_lines (l ++ [Rdi v a o]) = rdi_lines l ++ [Rdi v a o].
Proof. intros. unfold rdi_lines. rewrite filter_app. reflexivity. Qed.

Lemma state_fresh : forall ms, exists seg, since_last_rdi ms seg /\
  fresh KAltitude seg (rdi_altitude (run_writer ms)) /\ fresh KOrientation seg (rdi_orientation (run_writer ms)).
Proof.
  intro ms. induction ms as [|m ms IH] using rev_ind.
  - exists []. split; [|split; constructor]. exists []. split; [reflexivity|]. split; [now left|reflexivity].
  - destruct IH as (seg & S & A & O).
    assert (STEP : rdi_lines (written (run_writer (ms ++ [m]))) = rdi_lines (written (run_writer ms)) ->
       fresh KAltitude (seg ++ [m]) (rdi_altitude (run_writer (ms ++ [m]))) ->
       fresh KOrientation (seg ++ [m]) (rdi_orientation (run_writer (ms ++ [m]))) ->
       exists seg0, since_last_rdi (ms ++ [m]) seg0 /\ fresh KAltitude seg0 (rdi_altitude (run_writer (ms ++ [m]))) /\
         fresh KOrientation seg0 (rdi_orientation (run_writer (ms ++ [m])))).
    { intros E1 E2 E3. exists (seg ++ [m]). split; [now apply since_same|]. auto. }
    rewrite run_snoc in *. unfold add in *. destruct (m_kind m) as [| | | | | | |[]] eqn:K.
    + destruct (rdi_altitude (run_writer ms)) as [a|] eqn:RA; [destruct (rdi_orientation (run_writer ms)) as [o|] eqn:RO|].
      * exists []. split; [|split; constructor]. exists (ms ++ [m]). rewrite app_nil_r. split; [reflexivity|].
        split; [|reflexivity]. right. exists ms, m. split; [reflexivity|]. split; [exact K|].
        rewrite run_snoc. unfold add. rewrite K, RA, RO. cbn [written]. rewrite rdi_snoc. intro C.
        apply (f_equal (@length _)) in C. rewrite app_length in C. cbn in C. lia.
      * apply STEP; [reflexivity| |]; rewrite ?RA, ?RO; apply fresh_other; auto; congruence.
      * apply STEP; [reflexivity| |]; rewrite ?RA; apply fresh_other; auto; congruence.
    + apply STEP; [reflexivity| |]; apply fresh_other; auto; congruence.
    + apply STEP; [reflexivity| |]; cbn; [now apply fresh_this|apply fresh_other; auto; congruence].
    + apply STEP; cbn; [apply rdi_snoc_plain| |]; apply fresh_other; auto; congruence.
    + apply STEP; cbn; [apply rdi_snoc_plain| |]; apply fresh_other; auto; congruence.
    + apply STEP; cbn; [apply rdi_snoc_plain|apply fresh_other; auto; congruence|now apply fresh_this].
    + apply STEP; [reflexivity| |]; apply fresh_other; auto; congruence.
    + apply STEP; [reflexivity| |]; apply fresh_other; auto; congruence.
    + apply STEP; cbn; [apply rdi_snoc_plain| |]; apply fresh_other; auto; congruence.
Qed.

Lemma last_of_some : forall k ms, (exists m, In m ms /\ m_kind m = k) -> ~ Forall (fun x => m_kind x <> k) ms.
Proof. intros k ms (m & I & K) F. rewrite Forall_forall in F. exact (F m I K). Qed.
