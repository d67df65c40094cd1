(** C81: the PHINS parser reports every message once, with its own values and time. *)
From Coq Require Import Ascii String.
From Verif Require Import PyBase TimeModel TimeProofs PhinsModel.
Open Scope Q_scope.
Open Scope list_scope.

(** ** Specification *)
(** Every line of interest once, in order, with the time of the latest TIME message; lines before
    the first TIME message or after a broken one are not reported. *)
Fixpoint reports {A} (clk : list ascii -> clock) (now : option Q) (f : Q -> pline -> option A) (ls : list pline) : list A :=
  match ls with
  | [] => []
  | Time s :: ls => reports clk (match clk s with At t => Some t | _ => None end) f ls
  | l :: ls => match now with
               | Some t => match f t l with Some x => x :: reports clk now f ls | None => reports clk now f ls end
               | None => reports clk now f ls
               end
  end.
Fixpoint only {A B} (f : A -> option B) (l : list A) : list B :=
  match l with [] => [] | a :: l => match f a with Some b => b :: only f l | None => only f l end end.
(** The text of a time of day, hhmmss.mmm. *)
Definition day_text (h m s ms : Z) : list ascii := pad 2 h ++ pad 2 m ++ pad 2 s ++ "."%char :: pad 3 ms.

Definition body_of (r : record) : option (Q * Q * vec) := match r with RVelocity t d v => Some (t, d, v) | _ => None end.
Definition inertial_of (r : record) : option (Q * vec) := match r with RInertial t v _ => Some (t, v) | _ => None end.
Definition inertial_std (r : record) : option (option vec) := match r with RInertial _ _ d => Some d | _ => None end.

(** Every TIME message can be decoded, and the log starts with one. *)
Definition timed (clk : list ascii -> clock) (ls : list pline) : Prop :=
  (exists s r, ls = Time s :: r) /\ forall s, In (Time s) ls -> exists t, clk s = At t.

(** ** Times *)
Theorem C81_clock : forall y mo d tz off h m s ms, (0 <= h < 24)%Z -> (0 <= m < 60)%Z -> (0 <= s < 100)%Z -> (0 <= ms < 1000)%Z ->
  line_clock y mo d tz off (day_text h m s ms) = own_clock y mo d tz off (day_text h m s ms) /\
  own_clock y mo d tz off (day_text h m s ms) =
    if (s <? 60)%Z then match date_time_to_epoch y mo d h m s tz 0 with Some t => At (t + inject_Z ms / 1000 + off) | None => Bad end else Bad.
Proof.
  intros y mo d tz off h m s ms H M S MS. split.
  - unfold line_clock, day_text. rewrite !app_length. cbn [List.length]. rewrite !pad_length. reflexivity.
  - unfold own_clock, day_text.
    assert (slice 0 2 (pad 2 h ++ pad 2 m ++ pad 2 s ++ "."%char :: pad 3 ms) = pad 2 h) as -> by reflexivity.
    assert (slice 2 4 (pad 2 h ++ pad 2 m ++ pad 2 s ++ "."%char :: pad 3 ms) = pad 2 m) as -> by reflexivity.
    assert (slice 4 6 (pad 2 h ++ pad 2 m ++ pad 2 s ++ "."%char :: pad 3 ms) = pad 2 s) as -> by reflexivity.
    assert (slice 7 10 (pad 2 h ++ pad 2 m ++ pad 2 s ++ "."%char :: pad 3 ms) = pad 3 ms) as -> by reflexivity.
    rewrite !py_int_pad by (cbn; lia). unfold get. destruct (s <? 60)%Z; [|reflexivity]. now destruct (date_time_to_epoch y mo d h m s tz 0).
Qed.
Print Assumptions C81_clock.

(** False: "later messages have later times".  The date is that of the file name, so time jumps
    back by a day at midnight. *)
Theorem C181_midnight_refuted : exists a b, line_clock 2020 6 15 0 0 (day_text 23 59 59 0) = At a /\
  line_clock 2020 6 15 0 0 (day_text 0 0 0 0) = At b /\ b == a - 86399.
Proof. do 2 eexists. split; [vm_compute; reflexivity|]. split; [vm_compute; reflexivity|reflexivity]. Qed.
Print Assumptions C181_midnight_refuted.

Section Runs.
  Variables (y mo d : Z) (tz off : Q) (turn : Q -> Q -> Q * Q).
  Notation clk := (line_clock y mo d tz off).
  Notation own := (own_clock y mo d tz off).
  Notation parse := (parse y mo d tz off turn).
  Notation run := (run y mo d tz off turn).
  Notation process := (process y mo d tz off turn).

  Definition line_ok (l : pline) : bool :=
    match l with
    | Time s => match clk s with Raises => false | _ => true end
    | Dvl _ s | Depth _ s => match own s with Raises => false | _ => true end
    | _ => true
    end.
  Lemma process_total : forall c s l, line_ok l = true -> exists s' r, process c s l = Some (s', r).
  Proof.
    intros c s l H. unfold process. destruct l; cbn in H |- *; try (destruct c; eexists; eexists; apply surjective_pairing || reflexivity);
      try (destruct (clk s0); [discriminate| |]; destruct c; do 2 eexists; apply f_equal, surjective_pairing);
      destruct c; try (do 2 eexists; apply f_equal, surjective_pairing); destruct (own s0); try discriminate; do 2 eexists; apply f_equal, surjective_pairing.
  Qed.
  Lemma run_total : forall c ls s, forallb line_ok ls = true -> exists out, run c s ls = Some out.
  Proof.
    intros c. induction ls as [|l ls IH]; intros s H; [now exists []|]. cbn [forallb] in H. apply andb_prop in H as [A B]. cbn [PhinsModel.run].
    destruct (process_total c s l A) as (s' & r & ->). destruct (IH s' B) as [out ->]. now eexists.
  Qed.

  (** *** Body velocity *)
  Definition body_line (t : Q) (l : pline) : option (Q * Q * vec) :=
    match l with
    | Dvl (x, y, z) s => match own s with At o => Some (t, o, (fst (turn x y), - snd (turn x y), - z)) | _ => None end
    | _ => None
    end.
  Lemma body_run : forall ls s out, run Velocity s ls = Some out -> only body_of out = reports clk (epoch s) body_line ls.
  Proof.
    induction ls as [|l ls IH]; intros s out E; cbn [PhinsModel.run] in E; [now injection E as <-|].
    destruct (process Velocity s l) as [[s' r]|] eqn:P; [|discriminate]. destruct (run Velocity s' ls) as [out'|] eqn:R; [|discriminate]. injection E as <-. apply IH in R.
    unfold PhinsModel.process in P. destruct l; cbn [reports body_line] in *;
      try (injection P as <- <-; rewrite R; destruct (epoch s); reflexivity).
    - destruct (clk s0) as [| |t]; [discriminate| |]; injection P as <- <-; exact R.
    - destruct v as [[x1 y1] z1]. destruct (own s0) as [| |o]; [discriminate| |]; unfold body_export, body_from in P; destruct (turn x1 y1) as [x2 y2]; cbn in P.
      + destruct (epoch s) eqn:T; injection P as <- <-; cbn in R; rewrite ?T in R; exact R.
      + destruct (epoch s) eqn:T; injection P as <- <-; cbn in R |- *; rewrite ?T in R; rewrite R; reflexivity.
    - unfold inertial_export, inertial_from in P. cbn in P. destruct (epoch s) eqn:T; injection P as <- <-; cbn in R |- *; rewrite ?T in R; exact R.
    - unfold inertial_export, inertial_from in P. cbn in P. destruct (epoch s) eqn:T; [destruct (ivel s)|]; injection P as <- <-; cbn in R |- *; rewrite ?T in R; exact R.
  Qed.

  (** *** Inertial velocity *)
  Definition speed_line (t : Q) (l : pline) : option (Q * vec) :=
    match l with Speed e n u => Some (t, (n, e, - u)) | _ => None end.
  Lemma speed_run : forall ls s out t, epoch s = Some t -> ivel s = None -> (forall x, In (Time x) ls -> exists t, clk x = At t) ->
    run Velocity s ls = Some out -> only inertial_of out = reports clk (epoch s) speed_line ls.
  Proof.
    induction ls as [|l ls IH]; intros s out t T V G E; cbn [PhinsModel.run] in E; [now injection E as <-|].
    destruct (process Velocity s l) as [[s' r]|] eqn:P; [|discriminate]. destruct (run Velocity s' ls) as [out'|] eqn:R; [|discriminate]. injection E as <-.
    assert (forall x, In (Time x) ls -> exists t, clk x = At t) as G' by (intros x I; apply G; now right).
    unfold PhinsModel.process in P. destruct l; cbn [reports speed_line] in *;
      try (injection P as <- <-; pose proof (fun A B => IH _ _ t A B G' R) as W; specialize (W ltac:(first [exact T|reflexivity]) ltac:(first [exact V|reflexivity])); rewrite W, T; reflexivity).
    - destruct (G s0 (or_introl eq_refl)) as [t' C]. rewrite C in P |- *. injection P as <- <-. refine (IH _ _ t' _ _ G' R); [reflexivity|exact V].
    - destruct v as [[x1 y1] z1]. destruct (own s0) as [| |o]; [discriminate| |]; unfold body_export, body_from in P; destruct (turn x1 y1) as [x2 y2]; cbn in P; rewrite ?T in P; injection P as <- <-; cbn [only inertial_of];
        pose proof (fun A B => IH _ _ t A B G' R) as W; specialize (W ltac:(first [exact T|reflexivity]) ltac:(first [exact V|reflexivity])); rewrite W; cbn [epoch]; now rewrite ?T.
    - unfold inertial_export, inertial_from in P. cbn in P. rewrite T in P. injection P as <- <-. cbn [only inertial_of]. pose proof (fun A B => IH _ _ t A B G' R) as W; specialize (W eq_refl eq_refl). cbn [epoch] in W. now rewrite W, T.
    - unfold inertial_export, inertial_from in P. cbn in P. rewrite T, V in P. injection P as <- <-. pose proof (fun A B => IH _ _ t A B G' R) as W; specialize (W ltac:(first [exact T|reflexivity]) ltac:(first [exact V|reflexivity])); rewrite W. cbn [epoch]. now rewrite ?T.
  Qed.

  (** *** Depth *)
  Definition depth_line (t : Q) (l : pline) : option record :=
    match l with Depth d s => match own s with At o => Some (RDepth t o d) | _ => None end | _ => None end.
  Lemma depth_run : forall ls s out, (forall v x, In (Depth v x) ls -> exists o, own x = At o) ->
    run DepthCat s ls = Some out -> out = reports clk (epoch s) depth_line ls.
  Proof.
    induction ls as [|l ls IH]; intros s out G E; cbn [PhinsModel.run] in E; [now injection E as <-|].
    destruct (process DepthCat s l) as [[s' r]|] eqn:P; [|discriminate]. destruct (run DepthCat s' ls) as [out'|] eqn:R; [|discriminate]. injection E as <-.
    assert (forall v x, In (Depth v x) ls -> exists o, own x = At o) as G' by (intros v x I; apply (G v); now right). apply IH in R; [|exact G'].
    unfold PhinsModel.process in P. destruct l; cbn [reports depth_line] in *; try (injection P as <- <-; rewrite R; destruct (epoch s); reflexivity).
    - destruct (clk s0); [discriminate| |]; injection P as <- <-; exact R.
    - destruct (G d0 s0 (or_introl eq_refl)) as [o C]. rewrite C in P |- *. unfold depth_export, depth_from in P. cbn in P. destruct (epoch s) eqn:T; injection P as <- <-; cbn in R |- *; rewrite ?T in R; now rewrite R.
  Qed.
  Lemma depth_run2 : forall ls s out t, epoch s = Some t -> dep_time s = None -> (forall x, In (Time x) ls -> exists t, clk x = At t) ->
    run DepthCat s ls = Some out -> out = reports clk (epoch s) depth_line ls.
  Proof.
    induction ls as [|l ls IH]; intros s out t T V G E; cbn [PhinsModel.run] in E; [now injection E as <-|].
    destruct (process DepthCat s l) as [[s' r]|] eqn:P; [|discriminate]. destruct (run DepthCat s' ls) as [out'|] eqn:R; [|discriminate]. injection E as <-.
    assert (forall x, In (Time x) ls -> exists t, clk x = At t) as G' by (intros x I; apply G; now right).
    unfold PhinsModel.process in P. destruct l; cbn [reports depth_line] in *; try (injection P as <- <-; pose proof (fun A B => IH _ _ t A B G' R) as W; specialize (W ltac:(first [exact T|reflexivity]) ltac:(first [exact V|reflexivity])); rewrite W, T; reflexivity).
    - destruct (G s0 (or_introl eq_refl)) as [t' C]. rewrite C in P |- *. injection P as <- <-. refine (IH _ _ t' _ _ G' R); [reflexivity|exact V].
    - unfold depth_export, depth_from in P. cbn in P. destruct (own s0) as [| |o]; [discriminate| |]; cbn in P; rewrite T in P.
      + rewrite V in P. injection P as <- <-. pose proof (fun A B => IH _ _ t A B G' R) as W; specialize (W eq_refl eq_refl). cbn [epoch] in W. now rewrite W, T.
      + injection P as <- <-. pose proof (fun A B => IH _ _ t A B G' R) as W; specialize (W eq_refl eq_refl). cbn [epoch] in W. now rewrite W, T.
  Qed.
End Runs.

(** ** C81 *)
(** The parser gets through every log whose hours and minutes are digits. *)
Theorem C81_complete : forall y mo d tz off turn c ls,
  (forall s, In (Time s) ls -> line_clock y mo d tz off s <> Raises) ->
  (forall v s, In (Dvl v s) ls -> own_clock y mo d tz off s <> Raises) ->
  (forall v s, In (Depth v s) ls -> own_clock y mo d tz off s <> Raises) ->
  exists out, parse y mo d tz off turn c ls = Some out.
Proof.
  intros y mo d tz off turn c ls A B C. apply run_total, forallb_forall. intros l I. destruct l; try reflexivity; cbn.
  - specialize (A s I). destruct (line_clock y mo d tz off s); congruence.
  - specialize (B v s I). destruct (own_clock y mo d tz off s); congruence.
  - specialize (C d0 s I). destruct (own_clock y mo d tz off s); congruence.
Qed.
Print Assumptions C81_complete.

(** Body velocities: every LOGIN_ message whose own time can be decoded, once and in order, with
    the latest TIME; whatever else is in the log. *)
Theorem C81_velocity : forall y mo d tz off turn ls out, parse y mo d tz off turn Velocity ls = Some out ->
  only body_of out = reports (line_clock y mo d tz off) None
    (fun t l => match l with
                | Dvl (vx, vy, vz) s =>
                    match own_clock y mo d tz off s with
                    | At o => let '(x', y') := turn vx vy in Some (t, o, (x', - y', - vz))
                    | _ => None
                    end
                | _ => None
                end) ls.
Proof.
  intros y mo d tz off turn ls out E. apply body_run in E. rewrite E. cbn [start epoch]. clear E.
  generalize (None (A := Q)) as now. induction ls as [|l ls IH]; intros now; [reflexivity|].
  destruct l; cbn [reports body_line]; try (rewrite !IH; destruct now; reflexivity).
  destruct v as [[a b] z]. destruct (own_clock y mo d tz off s); rewrite ?IH; try (destruct now; reflexivity). destruct (turn a b). destruct now; now rewrite ?IH.
Qed.
Print Assumptions C81_velocity.

(** Inertial velocities: every SPEED_ message of a log with good TIME messages, once, in order. *)
Theorem C81_inertial : forall y mo d tz off turn ls out, timed (line_clock y mo d tz off) ls -> parse y mo d tz off turn Velocity ls = Some out ->
  only inertial_of out = reports (line_clock y mo d tz off) None (fun t l => match l with Speed e n u => Some (t, (n, e, - u)) | _ => None end) ls.
Proof.
  intros y mo d tz off turn ls out [(s & r & ->) G] E. unfold parse in E. cbn [PhinsModel.run] in E. unfold process in E. cbn [reports].
  destruct (G s (or_introl eq_refl)) as [t C]. rewrite C in E |- *. destruct (run _ _ _ _ _ _ _ _ r) as [out'|] eqn:R; [|discriminate]. injection E as <-.
  refine (speed_run y mo d tz off turn r _ out' t _ _ _ R); [reflexivity..|]. intros x I. apply G. now right.
Qed.
Print Assumptions C81_inertial.

(** Depths: every DEPIN_ message whose own time can be decoded, once, in order, with the latest TIME,
    if either all these own times or all TIME messages can be decoded. *)
Theorem C81_depth : forall y mo d tz off turn ls out,
  (forall v s, In (Depth v s) ls -> exists o, own_clock y mo d tz off s = At o) \/ timed (line_clock y mo d tz off) ls ->
  parse y mo d tz off turn DepthCat ls = Some out ->
  out = reports (line_clock y mo d tz off) None
    (fun t l => match l with Depth v s => match own_clock y mo d tz off s with At o => Some (RDepth t o v) | _ => None end | _ => None end) ls.
Proof.
  intros y mo d tz off turn ls out [G|[(s & r & ->) G]] E.
  - exact (depth_run y mo d tz off turn ls _ out G E).
  - unfold parse in E. cbn [PhinsModel.run] in E. unfold process in E. cbn [reports].
    destruct (G s (or_introl eq_refl)) as [t C]. rewrite C in E |- *. destruct (run _ _ _ _ _ _ _ _ r) as [out'|] eqn:R; [|discriminate]. injection E as <-.
    refine (depth_run2 y mo d tz off turn r _ out' t _ _ _ R); [reflexivity..|]. intros x I. apply G. now right.
Qed.
Print Assumptions C81_depth.

(** False: "a depth has its own time".  The first depth waits for a TIME message, the second one's
    own time is broken (60 s): it is published with the first one's. *)
Theorem C181_depth_refuted : exists ls out t o1, own_clock 2020 6 15 0 0 (day_text 10 0 0 0) = At o1 /\
  ls = [Depth 10 (day_text 10 0 0 0); Time (day_text 10 0 8 0); Depth 11 (day_text 10 0 60 0)] /\
  parse 2020 6 15 0 0 (fun x y => (x, y)) DepthCat ls = Some out /\ out = [RDepth t o1 11].
Proof. do 4 eexists. split; [vm_compute; reflexivity|]. split; [reflexivity|]. split; vm_compute; reflexivity. Qed.
Print Assumptions C181_depth_refuted.

(** ** Cycles of messages in a fixed order *)
Section Cycles.
  Variables (y mo d : Z) (tz off : Q) (turn : Q -> Q -> Q * Q).
  Notation clk := (line_clock y mo d tz off).
  Notation own := (own_clock y mo d tz off).
  Notation run := (run y mo d tz off turn).
  Notation parse := (parse y mo d tz off turn).

  Local Arguments Qopp : simpl never.
  Local Arguments clamp360 : simpl never.
  Local Arguments line_clock : simpl never.
  Local Arguments own_clock : simpl never.
  Lemma run_time : forall c s x t ls, clk x = At t -> c <> Orientation -> run c s (Time x :: ls) = run c (set_time s (Some t)) ls.
  Proof. intros c s x t ls C N. cbn [PhinsModel.run]. unfold process. rewrite C. destruct c; try congruence; cbn [opt]; now destruct (run _ _ ls). Qed.

  (** *** Standard deviations of inertial velocities *)
  Record speeds := mksp { sp_time : list ascii; sp_t : Q; sp_v : Q * Q * Q; sp_std : Q * Q * Q }.  (* east, north, up *)
  Definition speed_of (c : speeds) : pline := let '(e, n, u) := sp_v c in Speed e n u.
  Definition std_of (c : speeds) : pline := let '(e, n, u) := sp_std c in SpeedStd e n u.
  Definition std_vec (c : speeds) : vec := let '(e, n, u) := sp_std c in (n, e, - u).
  Definition sp_ok (c : speeds) : Prop := clk (sp_time c) = At (sp_t c).
  Lemma std_before : forall cs s, Forall sp_ok cs -> ivel s = None -> exists out,
    run Velocity s (flat_map (fun c => [Time (sp_time c); std_of c; speed_of c]) cs) = Some out /\ only inertial_std out = map (fun c => Some (std_vec c)) cs.
  Proof.
    induction cs as [|c cs IH]; intros s F I; [exists []; now split|]. inversion F as [|? ? C F']; subst. cbn [flat_map app map]. set (rest := flat_map _ cs) in *.
    rewrite (run_time _ _ _ _ _ C) by discriminate. unfold std_of, speed_of, std_vec. destruct (sp_std c) as [[e n] u]. destruct (sp_v c) as [[e' n'] u'].
    cbn [PhinsModel.run]. unfold process, inertial_export, inertial_from. cbn [epoch PhinsModel.ivel set_time]. rewrite I. cbn [epoch PhinsModel.ivel istd].
    edestruct (IH (mkst (Some (sp_t c)) (vel s) (dvl_time s) None None (roll s) (pitch s) (yaw s) (ostd s) (dep s) (dep_time s) (alt s) (alt_time s))) as (out & R & H); [exact F'|reflexivity|].
    cbn. rewrite R. eexists. split; [reflexivity|]. cbn [only inertial_std]. now rewrite H.
  Qed.
  Lemma std_after : forall cs s, Forall sp_ok cs -> ivel s = None -> exists out,
    run Velocity s (flat_map (fun c => [Time (sp_time c); speed_of c; std_of c]) cs) = Some out /\ only inertial_std out = removelast (istd s :: map (fun c => Some (std_vec c)) cs).
  Proof.
    induction cs as [|c cs IH]; intros s F I; [exists []; now split|]. inversion F as [|? ? C F']; subst. cbn [flat_map app map]. set (rest := flat_map _ cs) in *.
    rewrite (run_time _ _ _ _ _ C) by discriminate. unfold std_of, speed_of. replace (std_vec c) with (let '(e, n, u) := sp_std c in (n, e, - u)) by reflexivity. destruct (sp_std c) as [[e n] u]. destruct (sp_v c) as [[e' n'] u'].
    edestruct (IH (mkst (Some (sp_t c)) (vel s) (dvl_time s) None (Some (n, e, - u)) (roll s) (pitch s) (yaw s) (ostd s) (dep s) (dep_time s) (alt s) (alt_time s))) as (out & R & H); [exact F'|reflexivity|].
    cbn. rewrite R. eexists. split; [reflexivity|]. cbn [only inertial_std istd set_time]. rewrite H. reflexivity.
  Qed.

  (** *** Orientation *)
  Record orients := mkor { or_time : list ascii; or_t : Q; or_head : Q; or_a : Q; or_b : Q; or_std : Q * Q * Q }.  (* yaw, roll, pitch *)
  Definition or_ok (c : orients) : Prop := clk (or_time c) = At (or_t c) /\ 0 <= or_head c <= 360.
  Definition ostd_of (c : orients) : pline := let '(h, r, p) := or_std c in AttitudeStd h r p.
  Definition ostd_vec (c : orients) : vec := let '(h, r, p) := or_std c in (fst (turn r p), snd (turn r p), h).
  (** The attitude of [c] with time and standard deviations of [c']. *)
  Definition attitude_of (c c' : orients) : record :=
    ROrientation (or_t c') (fst (turn (- or_a c) (- or_b c))) (snd (turn (- or_a c) (- or_b c))) (or_head c) (ostd_vec c').
  Lemma clamp_same : forall h, 0 <= h <= 360 -> clamp360 h = h.
  Proof. intros h [A B]. unfold clamp360. destruct (Qltb 360 h) eqn:E; [apply Qltb_lt in E; lra|]. destruct (Qltb h 0) eqn:E'; [apply Qltb_lt in E'; lra|reflexivity]. Qed.
  Lemma orient_in_order : forall cs s, Forall or_ok cs -> roll s = None -> yaw s = None ->
    run Orientation s (flat_map (fun c => [Time (or_time c); ostd_of c; Heading (or_head c); Attitude (or_a c) (or_b c)]) cs) = Some (map (fun c => attitude_of c c) cs).
  Proof.
    induction cs as [|c cs IH]; intros s F A B; [reflexivity|]. inversion F as [|? ? [C H] F']; subst. cbn [flat_map app map]. set (rest := flat_map _ cs) in *.
    cbn [PhinsModel.run]. unfold process at 1. rewrite C. unfold orient_from at 1, orient_export at 1. cbn [set_time epoch roll opt]. rewrite ?A.
    unfold process at 1. unfold ostd_of, attitude_of, ostd_vec. destruct (or_std c) as [[h r] p]. unfold orient_from at 1, orient_export at 1. destruct (turn r p) as [r' p']. cbn [set_time epoch roll fst snd]. rewrite ?A.
    unfold process at 1. unfold orient_from at 1, orient_export at 1. cbn [set_time epoch roll fst snd]. rewrite ?A.
    unfold process at 1. unfold orient_from at 1, orient_export at 1. cbn [set_time epoch roll yaw fst snd]. destruct (turn (- or_a c) (- or_b c)) as [ra pb]. rewrite (clamp_same _ H). cbn [epoch roll pitch yaw ostd fst snd].
    rewrite IH; [reflexivity|exact F'|reflexivity|reflexivity].
  Qed.
  Lemma orient_time_last : forall cs s c0, Forall or_ok cs -> roll s = None -> yaw s = None -> epoch s = Some (or_t c0) -> ostd s = Some (ostd_vec c0) ->
    run Orientation s (flat_map (fun c => [Heading (or_head c); Attitude (or_a c) (or_b c); Time (or_time c); ostd_of c]) cs) =
    Some (map (fun p => attitude_of (fst p) (snd p)) (combine cs (c0 :: cs))).
  Proof.
    induction cs as [|c cs IH]; intros s c0 F A B T D; [reflexivity|]. inversion F as [|? ? [C H] F']; subst. cbn [flat_map app map combine fst snd]. set (rest := flat_map _ cs) in *.
    cbn [PhinsModel.run]. unfold process, orient_from, orient_export. cbn. rewrite ?A, ?T. cbn. unfold attitude_of at 1. destruct (turn (- or_a c) (- or_b c)) as [ra pb]. rewrite (clamp_same _ H), ?D. cbn.
    rewrite C. unfold ostd_of. destruct (or_std c) as [[h r] p] eqn:S. cbn. destruct (turn r p) as [r' p'] eqn:U. cbn.
    rewrite (IH _ c); [reflexivity|exact F'|reflexivity|reflexivity|reflexivity|]. cbn. unfold ostd_vec. rewrite S. cbn. now rewrite U.
  Qed.

  (** *** Altitude *)
  Record alts := mkal { al_time : list ascii; al_t : Q; al_v : vec; al_own : list ascii; al_o : Q; al_a : Q }.
  Definition al_ok (c : alts) : Prop := clk (al_time c) = At (al_t c) /\ own (al_own c) = At (al_o c).
  Lemma alt_in_order : forall cs s, Forall al_ok cs -> alt_time s = None ->
    run AltitudeCat s (flat_map (fun c => [Time (al_time c); Dvl (al_v c) (al_own c); LogDvl (al_a c)]) cs) = Some (map (fun c => RAltitude (al_t c) (al_o c) (al_a c)) cs).
  Proof.
    induction cs as [|c cs IH]; intros s F A; [reflexivity|]. inversion F as [|? ? [C H] F']; subst. cbn [flat_map app map]. rewrite (run_time _ _ _ _ _ C) by discriminate.
    cbn [PhinsModel.run]. unfold process at 1. rewrite H. unfold body_from. destruct (al_v c) as [[x1 y1] z1]. destruct (turn x1 y1) as [x2 y2]. unfold altitude_export at 1. cbn [epoch alt_time set_time opt]. rewrite ?A.
    unfold process at 1. unfold altitude_export, altitude_from. cbn [epoch alt_time set_time opt dvl_time alt]. rewrite IH; [reflexivity|exact F'|reflexivity].
  Qed.
  Lemma alt_late : forall cs s c0, Forall al_ok cs -> alt_time s = None -> dvl_time s = Some (al_o c0) ->
    run AltitudeCat s (flat_map (fun c => [Time (al_time c); LogDvl (al_a c); Dvl (al_v c) (al_own c)]) cs) =
    Some (map (fun p => RAltitude (al_t (fst p)) (al_o (snd p)) (al_a (fst p))) (combine cs (c0 :: cs))).
  Proof.
    induction cs as [|c cs IH]; intros s c0 F A D; [reflexivity|]. inversion F as [|? ? [C H] F']; subst. cbn [flat_map app map combine fst snd]. rewrite (run_time _ _ _ _ _ C) by discriminate.
    cbn [PhinsModel.run]. unfold process at 1. unfold altitude_export, altitude_from. cbn [epoch alt_time set_time opt dvl_time alt]. rewrite ?D.
    unfold process at 1. rewrite H. unfold body_from. destruct (al_v c) as [[x1 y1] z1]. destruct (turn x1 y1) as [x2 y2]. unfold altitude_export at 1. cbn [epoch alt_time set_time opt].
    rewrite (IH _ c); [reflexivity|exact F'|reflexivity|reflexivity].
  Qed.
End Cycles.

Local Arguments Qopp : simpl never.
Local Arguments clamp360 : simpl never.
Local Arguments line_clock : simpl never.
Local Arguments own_clock : simpl never.
(** Inertial velocities have the standard deviations of their own cycle if these come before the
    velocity; if they come after it, those of the cycle before. *)
Theorem C81_std : forall y mo d tz off turn cs, Forall (sp_ok y mo d tz off) cs -> exists out out',
  parse y mo d tz off turn Velocity (flat_map (fun c => [Time (sp_time c); std_of c; speed_of c]) cs) = Some out /\
  only inertial_std out = map (fun c => Some (std_vec c)) cs /\
  parse y mo d tz off turn Velocity (flat_map (fun c => [Time (sp_time c); speed_of c; std_of c]) cs) = Some out' /\
  only inertial_std out' = removelast (None :: map (fun c => Some (std_vec c)) cs).
Proof.
  intros y mo d tz off turn cs F. destruct (std_before y mo d tz off turn cs start F eq_refl) as (out & A & B). destruct (std_after y mo d tz off turn cs start F eq_refl) as (out' & A' & B').
  exists out, out'. repeat split; assumption.
Qed.
Print Assumptions C81_std.

(** Attitudes: if TIME and standard deviations come first in every cycle, each cycle gives its own
    attitude, time and standard deviations. *)
Theorem C81_attitude : forall y mo d tz off turn cs, Forall (or_ok y mo d tz off) cs ->
  parse y mo d tz off turn Orientation (flat_map (fun c => [Time (or_time c); ostd_of c; Heading (or_head c); Attitude (or_a c) (or_b c)]) cs)
  = Some (map (fun c => attitude_of turn c c) cs).
Proof. intros y mo d tz off turn cs F. exact (orient_in_order y mo d tz off turn cs start F eq_refl eq_refl). Qed.
Print Assumptions C81_attitude.
(** If they come last, every attitude but the first gets the time of the cycle before. *)
Theorem C181_attitude_late : forall y mo d tz off turn c0 cs, Forall (or_ok y mo d tz off) (c0 :: cs) -> exists r p,
  parse y mo d tz off turn Orientation (flat_map (fun c => [Heading (or_head c); Attitude (or_a c) (or_b c); Time (or_time c); ostd_of c]) (c0 :: cs))
  = Some (ROrientation (or_t c0) r p (or_head c0) (ostd_vec turn c0) :: map (fun p => attitude_of turn (fst p) (snd p)) (combine cs (c0 :: cs))).
Proof.
  intros y mo d tz off turn c0 cs F. inversion F as [|? ? [C H] F']; subst. unfold parse. cbn [flat_map app]. set (rest := flat_map _ cs) in *.
  cbn [PhinsModel.run]. unfold process, orient_from, orient_export. cbn. destruct (turn (- or_a c0) (- or_b c0)) as [ra pb]. rewrite (clamp_same _ H). cbn.
  rewrite C. unfold ostd_of, ostd_vec at 1. destruct (or_std c0) as [[h r] p] eqn:S. cbn. destruct (turn r p) as [r' p'] eqn:U. cbn.
  rewrite (orient_time_last y mo d tz off turn cs _ c0 F'); [do 2 eexists; reflexivity|reflexivity|reflexivity|reflexivity|]. cbn. unfold ostd_vec. rewrite S. cbn. now rewrite U.
Qed.
Print Assumptions C181_attitude_late.

Theorem C81_altitude : forall y mo d tz off turn cs, Forall (al_ok y mo d tz off) cs ->
  parse y mo d tz off turn AltitudeCat (flat_map (fun c => [Time (al_time c); Dvl (al_v c) (al_own c); LogDvl (al_a c)]) cs)
  = Some (map (fun c => RAltitude (al_t c) (al_o c) (al_a c)) cs).
Proof. intros y mo d tz off turn cs F. exact (alt_in_order y mo d tz off turn cs start F eq_refl). Qed.
Print Assumptions C81_altitude.
(** With LOGDVL before LOGIN_ the first altitude is lost and the others get the DVL time of the cycle
    before. *)
Theorem C181_altitude_late : forall y mo d tz off turn c0 cs, Forall (al_ok y mo d tz off) (c0 :: cs) ->
  parse y mo d tz off turn AltitudeCat (flat_map (fun c => [Time (al_time c); LogDvl (al_a c); Dvl (al_v c) (al_own c)]) (c0 :: cs))
  = Some (map (fun p => RAltitude (al_t (fst p)) (al_o (snd p)) (al_a (fst p))) (combine cs (c0 :: cs))).
Proof.
  intros y mo d tz off turn c0 cs F. inversion F as [|? ? [C H] F']; subst. unfold parse. cbn [flat_map app]. rewrite (run_time _ _ _ _ _ _ _ _ _ _ _ C) by discriminate.
  cbn [PhinsModel.run]. unfold process at 1. unfold altitude_export, altitude_from. cbn [epoch alt_time set_time opt dvl_time alt start].
  unfold process at 1. rewrite H. unfold body_from. destruct (al_v c0) as [[x1 y1] z1]. destruct (turn x1 y1) as [x2 y2]. unfold altitude_export at 1. cbn [epoch alt_time set_time opt].
  rewrite (alt_late y mo d tz off turn cs _ c0 F'); reflexivity.
Qed.
Print Assumptions C181_altitude_late.

(** False: "an altitude has the time of the TIME message before it".  After a broken TIME message
    an altitude is kept and published with the next one. *)
Theorem C181_altitude_stale_refuted : exists ls out t2, line_clock 2020 6 15 0 0 (day_text 10 0 2 0) = At t2 /\
  ls = [Time (day_text 10 0 60 0); Dvl (1, 0, 0) (day_text 10 0 0 0); LogDvl 5;
        Time (day_text 10 0 2 0); Dvl (1, 0, 0) (day_text 10 0 1 0); LogDvl 6] /\
  parse 2020 6 15 0 0 (fun x y => (x, y)) AltitudeCat ls = Some out /\
  exists o1 o2, out = [RAltitude t2 o1 5; RAltitude t2 o2 6].
Proof. do 3 eexists. split; [vm_compute; reflexivity|]. split; [reflexivity|]. split; [vm_compute; reflexivity|]. do 2 eexists. reflexivity. Qed.
Print Assumptions C181_altitude_stale_refuted.

Example C81_ex :
  let log := [Time (day_text 1 2 3 500); Heading 90; Attitude 1 2; AttitudeStd 3 4 5; Dvl (1, 2, 3) (day_text 1 2 3 250); Speed 1 2 3; Depth 12 (day_text 1 2 3 0); LogDvl 7;
              Time (day_text 1 2 60 0); Dvl (1, 1, 1) (day_text 1 2 4 0); Time (day_text 1 2 5 0); Heading 91; Attitude 2 2; Dvl (4, 5, 6) (day_text 1 2 60 0)] in
  (exists o, parse 1970 1 1 0 100 (fun x y => (x, y)) Velocity log = Some o /\
     match o with [RVelocity a b (x, y, z); RInertial c (n, e, w) None] => a == 38235 # 10 /\ b == 382325 # 100 /\ x == 1 /\ y == -2 /\ z == -3 /\ c == a /\ n == 2 /\ e == 1 /\ w == -3 | _ => False end) /\
  (exists o, parse 1970 1 1 0 100 (fun x y => (x, y)) Orientation log = Some o /\
     match o with [ROrientation a r p y (rs, ps, ys); ROrientation b r' p' y' _] => a == 38235 # 10 /\ r == -1 /\ p == -2 /\ y == 90 /\ rs == 4 /\ ps == 5 /\ ys == 3 /\ b == 3825 /\ y' == 91 | _ => False end).
Proof. split; eexists; (split; [vm_compute; reflexivity|]); cbn; repeat split; reflexivity. Qed.

(** ** The mounting angle *)
(** body_to_inertial with zero roll and pitch keeps the third component: the heading published is
    the one in the message, whatever the sensor's mounting angle, while roll and pitch are turned
    like a horizontal vector. *)
From Verif Require Import FramesModel.
Theorem C81_turn : forall o r p h : R, FramesModel.body_to_inertial 0 0 o (r, p, h) =
  (cos (o * PI / 180) * r - sin (o * PI / 180) * p, sin (o * PI / 180) * r + cos (o * PI / 180) * p, h)%R.
Proof.
  intros o r p h. unfold body_to_inertial, deg_to_rad. replace (0 * (PI / 180))%R with 0%R by lra. rewrite sin_0, cos_0. replace (o * (PI / 180))%R with (o * PI / 180)%R by lra.
  apply f_equal2; [apply f_equal2|]; ring.
Qed.
Print Assumptions C81_turn.
