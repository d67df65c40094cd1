(** C299, C300: the RDI lines made from a PHINS log. *)
From Coq Require Import Ascii String.
From Verif Require Import PyBase TimeModel TimeProofs PhinsModel PhinsProps PhinsAcfrModel.
Open Scope Q_scope.
Open Scope list_scope.

(** ** Specification *)
(** The latest line of a kind, in a list with the newest line first. *)
Fixpoint first {A B} (f : A -> option B) (l : list A) : option B :=
  match l with [] => None | a :: l => match f a with Some b => Some b | None => first f l end end.
Definition latest {A B} (f : A -> option B) (l : list A) : option B := first f (rev l).
Definition dvl (l : aline) : option (vec * list ascii) := match fst l with Dvl v x => Some (v, x) | _ => None end.
Definition log (l : aline) : option (Q * Q) := match fst l with LogDvl a => Some (a, snd l) | _ => None end.
Definition heading (l : aline) : option Q := match fst l with Heading y => Some y | _ => None end.
Definition is_heading (l : aline) : bool := match fst l with Heading _ => true | _ => false end.
(** The signs changed, and the frame turned if there was a heading. *)
Fixpoint tilt (turn : Q -> Q -> Q * Q) (newest_first : list aline) : option (Q * Q) :=
  match newest_first with
  | [] => None
  | (Attitude a b, _) :: older => Some (if existsb is_heading older then turn (- a) (- b) else (- a, - b))
  | _ :: older => tilt turn older
  end.
Definition moved (turn : Q -> Q -> Q * Q) (v : vec) : vec :=
  let '(x, y, z) := v in (fst (turn x y), - snd (turn x y), - z).

Section Runs.
  Variables (y mo d : Z) (tz off : Q) (turn : Q -> Q -> Q * Q).
  Notation clk := (line_clock y mo d tz off).
  Notation own := (own_clock y mo d tz off).
  Notation read := (read y mo d tz off turn).
  Notation aprocess := (aprocess y mo d tz off turn).
  Notation arun := (arun y mo d tz off turn).
  Notation aparse := (aparse y mo d tz off turn).

  (** What an RDI line says, from the lines of its part of the log. *)
  Definition tells (part : list aline) (r : rdi) : Prop :=
    (exists v x, latest dvl part = Some (v, x) /\ own x = At (r_time r) /\ r_vel r = moved turn v) /\
    latest log part = Some (r_alt r, r_sound r) /\ latest heading part = Some (r_yaw r) /\
    tilt turn (rev part) = Some (r_roll r, r_pitch r).
  Definition headings_in_range (ls : list aline) : Prop := forall h k, In (Heading h, k) ls -> 0 <= h <= 360.

  Lemma clamp_id : forall h, 0 <= h <= 360 -> clamp360 h = h.
  Proof.
    intros h [A B]. unfold clamp360. replace (Qltb 360 h) with false by (symmetry; apply Bool.not_true_is_false; intros K; apply Qltb_lt in K; lra).
    replace (Qltb h 0) with false by (symmetry; apply Bool.not_true_is_false; intros K; apply Qltb_lt in K; lra). reflexivity.
  Qed.

  (** The state after the lines [cur] (newest first) of the current part. *)
  Definition inv (s : astate) (cur : list aline) : Prop :=
    vel (fst s) = option_map (fun p => moved turn (fst p)) (first dvl cur) /\
    dvl_time (fst s) = match first dvl cur with Some (_, x) => opt (own x) | None => None end /\
    alt (fst s) = option_map fst (first log cur) /\ snd s = option_map snd (first log cur) /\
    yaw (fst s) = first heading cur /\
    roll (fst s) = option_map fst (tilt turn cur) /\ pitch (fst s) = option_map snd (tilt turn cur).
  Lemma inv_start : inv astart [].
  Proof. repeat split. Qed.
  Lemma heading_exists : forall cur, existsb is_heading cur = match first heading cur with Some _ => true | None => false end.
  Proof. induction cur as [|[l k] cur IH]; [reflexivity|]. cbn. destruct l; cbn; try exact IH. reflexivity. Qed.
  Lemma heading_in : forall cur h, first heading cur = Some h -> exists k, In (Heading h, k) cur.
  Proof.
    induction cur as [|[l k] cur IH]; [discriminate|]. intros h E. cbn in E. destruct l; cbn in E; try (destruct (IH h E) as [k' I]; exists k'; now right).
    injection E as ->. exists k. now left.
  Qed.
  Lemma step_inv : forall s cur l s', headings_in_range cur -> inv s cur -> read (fst s) (fst l) = Some s' ->
    inv (s', match fst l with LogDvl _ => Some (snd l) | _ => snd s end) (l :: cur).
  Proof.
    intros [s sv] cur [l k] s' G (V & T & A & C & Y & R & P) E. cbn [fst snd] in *. unfold inv. cbn [fst snd].
    destruct l; cbn [PhinsAcfrModel.read] in E.
    - destruct (clk s0); [discriminate| |]; injection E as <-; cbn; repeat split; assumption.
    - injection E as <-. cbn. repeat split; assumption.
    - cbn [orient_from] in E. rewrite Y in E. cbn [tilt option_map first dvl log heading fst snd]. rewrite heading_exists.
      destruct (first heading cur) as [h|] eqn:H.
      + destruct (heading_in cur h H) as [k' I]. rewrite (clamp_id h (G _ _ I)) in E. destruct (turn (- a) (- b)) as [r p]. injection E as <-. cbn. repeat split; assumption.
      + injection E as <-. cbn. repeat split; assumption.
    - cbn [orient_from] in E. destruct (turn roll pitch) as [r p]. injection E as <-. cbn. repeat split; assumption.
    - destruct v as [[v1 v2] v3]. cbn [first dvl fst snd option_map moved]. unfold body_from in E. destruct (own s0) as [| |t] eqn:O; [discriminate| |]; destruct (turn v1 v2) as [w1 w2] eqn:W; injection E as <-; cbn; rewrite ?W; repeat split; try assumption; rewrite O; reflexivity.
    - injection E as <-. cbn. repeat split; assumption.
    - injection E as <-. cbn. repeat split; assumption.
    - injection E as <-. cbn. repeat split; assumption.
    - injection E as <-. cbn. repeat split; assumption.
    - injection E as <-. cbn. repeat split; assumption.
  Qed.
  Lemma build_inv : forall s cur s' r, inv s cur -> build s = Some (s', r) ->
    match r with
    | Some r => tells (rev cur) r /\ inv s' []
    | None => inv s' cur
    end.
  Proof.
    intros [s sv] cur s' r (V & T & A & C & Y & R & P) E. unfold build in E.
    destruct (epoch s) eqn:e1; [|injection E as <- <-; repeat split; assumption].
    destruct (vel s) eqn:e2; [|injection E as <- <-; repeat split; assumption].
    destruct (dvl_time s) eqn:e3; [|injection E as <- <-; repeat split; assumption].
    destruct (alt s) eqn:e4; [|injection E as <- <-; repeat split; assumption].
    destruct (alt_time s) eqn:e5; [|injection E as <- <-; repeat split; assumption].
    destruct (roll s) eqn:e6; [|injection E as <- <-; repeat split; assumption].
    destruct (ostd s) eqn:e7; [|injection E as <- <-; repeat split; assumption].
    destruct (yaw s) eqn:e8; [|injection E as <- <-; repeat split; assumption].
    destruct (pitch s) eqn:e9; [|discriminate]. destruct sv as [c|]; [|discriminate]. injection E as <- <-.
    cbn [fst snd] in *. rewrite e2 in V. rewrite e3 in T. rewrite e4 in A. rewrite e6 in R. rewrite e8 in Y. rewrite e9 in P. split; [|repeat split].
    unfold tells, latest. rewrite !rev_involutive. cbn [r_time r_vel r_alt r_sound r_yaw r_roll r_pitch].
    destruct (first dvl cur) as [[v' x]|]; [|discriminate]. destruct (first log cur) as [[a' c']|]; [|discriminate]. destruct (tilt turn cur) as [[r' p']|]; [|discriminate].
    cbn in V, T, A, C, R, P. injection V as ->. injection A as ->. injection C as ->. injection R as ->. injection P as ->.
    split; [exists v', x; repeat split; unfold opt in T; destruct (own x); try discriminate; now injection T as ->|]. repeat split. symmetry. exact Y.
  Qed.
  Lemma parts : forall ls s cur out, headings_in_range (rev cur ++ ls) -> inv s cur -> arun s ls = Some out ->
    exists segs rest, rev cur ++ ls = List.concat segs ++ rest /\ Forall2 tells segs out.
  Proof.
    induction ls as [|l ls IH]; intros s cur out G I E; cbn [PhinsAcfrModel.arun] in E.
    - injection E as <-. exists [], (rev cur ++ []). split; [reflexivity|constructor].
    - destruct (aprocess s l) as [[s' r]|] eqn:P; [|discriminate]. destruct (arun s' ls) as [out'|] eqn:R; [|discriminate]. injection E as <-.
      unfold PhinsAcfrModel.aprocess in P. destruct (read (fst s) (fst l)) as [s1|] eqn:D; [|discriminate].
      assert (headings_in_range cur) as Gc by (intros h k X; apply (G h k), in_or_app; left; now apply -> in_rev).
      pose proof (build_inv _ (l :: cur) _ _ (step_inv _ _ _ _ Gc I D) P) as B.
      assert (rev cur ++ l :: ls = rev (l :: cur) ++ ls) as Q0 by (cbn; now rewrite <- app_assoc).
      destruct r as [r|].
      + destruct B as [B1 B2]. destruct (IH s' [] out') as (segs & rest & L & F); [|exact B2|exact R|].
        { intros h k X. apply (G h k), in_or_app. right. now right. }
        exists (rev (l :: cur) :: segs), rest. split; [rewrite Q0; cbn [List.concat]; rewrite <- app_assoc; f_equal; exact L|now constructor].
      + rewrite Q0. apply (IH s' (l :: cur) out'); [now rewrite <- Q0|exact B|exact R].
  Qed.

  (** *** Logs without exceptions *)
  Definition aok (s : astate) : Prop := (roll (fst s) <> None -> pitch (fst s) <> None) /\ (alt (fst s) <> None -> snd s <> None).
  Lemma build_ok : forall s, aok s -> exists s' r, build s = Some (s', r) /\ aok s'.
  Proof.
    intros [s sv] [A B]. cbn [fst snd] in A, B. unfold build.
    destruct (epoch s) eqn:e1, (vel s) eqn:e2, (dvl_time s) eqn:e3, (alt s) eqn:e4, (alt_time s) eqn:e5, (roll s) eqn:e6, (ostd s) eqn:e7, (yaw s) eqn:e8;
      try (do 2 eexists; split; [reflexivity|]; split; cbn [fst snd]; rewrite ?e4, ?e6; assumption).
    destruct (pitch s); [|exfalso; apply A; [discriminate|reflexivity]]. destruct sv; [|exfalso; apply B; [discriminate|reflexivity]].
    do 2 eexists. split; [reflexivity|]. split; cbn; intros K; now destruct K.
  Qed.
  Lemma arun_total : forall ls s, aok s -> (forall l, In l ls -> match fst l with Time s => clk s <> Raises | Dvl _ s => own s <> Raises | _ => True end) -> exists out, arun s ls = Some out.
  Proof.
    induction ls as [|l ls IH]; intros [s sv] [A B] G; [now exists []|]. cbn [PhinsAcfrModel.arun]. unfold PhinsAcfrModel.aprocess.
    cbn [fst snd] in *. pose proof (G l (or_introl eq_refl)) as K.
    assert (exists s', read s (fst l) = Some s' /\ aok (s', match fst l with LogDvl _ => Some (snd l) | _ => sv end)) as (s' & -> & O).
    { destruct l as [l k]. cbn [fst snd] in *. destruct l; cbn [PhinsAcfrModel.read orient_from] in *;
        try (eexists; split; [reflexivity|]; split; cbn; (assumption || discriminate)).
      - destruct (clk s0); [now destruct K| |]; (eexists; split; [reflexivity|]; split; assumption).
      - destruct (yaw s); [destruct (turn (- a) (- b))|]; (eexists; split; [reflexivity|]; split; cbn; (assumption || discriminate)).
      - destruct (turn roll pitch). eexists; split; [reflexivity|]; split; assumption.
      - destruct v as [[v1 v2] v3]. unfold body_from. destruct (own s0); [now destruct K| |]; destruct (turn v1 v2); (eexists; split; [reflexivity|]; split; assumption). }
    destruct (build_ok _ O) as (s2 & r & -> & O2). destruct (IH s2 O2) as [out ->]; [intros l' I; apply G; now right|]. now eexists.
  Qed.

  (** *** Cycles *)
  Definition meas : Type := (option vec * option Q * (option Q * option Q * option Q) * (option Q * option Q * option Q))%type.
  Definition meas_of (s : astate) : meas :=
    (vel (fst s), dvl_time (fst s), (roll (fst s), pitch (fst s), yaw (fst s)), (alt (fst s), alt_time (fst s), snd s)).
  Definition clean : meas := (None, None, (None, None, None), (None, None, None)).
  Definition alive (s : astate) : Prop := epoch (fst s) <> None /\ ostd (fst s) <> None.
  Definition quiet (l : pline) : bool :=
    match l with Heading _ | Attitude _ _ | Dvl _ _ | LogDvl _ => false | _ => true end.
  Definition times_ok (ls : list aline) : Prop := forall x k, In (Time x, k) ls -> exists t, clk x = At t.
  (** Not all there. *)
  Definition short (m : meas) : bool :=
    match m with
    | (Some _, Some _, (Some _, Some _, Some _), (Some _, Some _, Some _)) => false
    | _ => true
    end.
  Definition mread (m : meas) (l : aline) : meas :=
    let '(v, t, (r, p, w), (a, at_, c)) := m in
    match l with
    | (Heading h, _) => (v, t, (r, p, Some h), (a, at_, c))
    | (Attitude q1 q2, _) =>
        match w with
        | Some h => (v, t, (Some (fst (turn (- q1) (- q2))), Some (snd (turn (- q1) (- q2))), Some (clamp360 h)), (a, at_, c))
        | None => (v, t, (Some (- q1), Some (- q2), None), (a, at_, c))
        end
    | (Dvl v x, _) => (Some (moved turn v), opt (own x), (r, p, w), (a, at_, c))
    | (LogDvl q, k) => (v, t, (r, p, w), (Some q, t, Some k))
    | _ => m
    end.
  Definition mbuild (m : meas) : meas * option rdi :=
    match m with
    | (Some v, Some t, (Some r, Some p, Some w), (Some a, Some _, Some c)) => (clean, Some (mkrdi t a w p r v c))
    | _ => (m, None)
    end.
  Definition paired (m : meas) : Prop :=
    let '(v, t, (r, p, w), (a, at_, c)) := m in
    match r, p with Some _, Some _ => True | None, None => True | _, _ => False end /\ match a, c with Some _, Some _ => True | None, None => True | _, _ => False end.
  Lemma astep : forall s l, alive s -> paired (meas_of s) ->
    (forall x, fst l = Time x -> exists t, clk x = At t) -> (forall v x, fst l = Dvl v x -> exists t, own x = At t) ->
    exists s', aprocess s l = Some (s', snd (mbuild (mread (meas_of s) l))) /\ alive s' /\ meas_of s' = fst (mbuild (mread (meas_of s) l)) /\ paired (meas_of s').
  Proof.
    intros [s sv] l [E O] W GT GD. unfold PhinsAcfrModel.aprocess. cbn [fst snd] in *.
    assert (exists s1, read s (fst l) = Some s1 /\ alive (s1, sv) /\
              meas_of (s1, match fst l with LogDvl _ => Some (snd l) | _ => sv end) = mread (meas_of (s, sv)) l /\
              paired (mread (meas_of (s, sv)) l)) as (s1 & -> & L & M & W1).
    { destruct l as [l k]. unfold meas_of, paired, mread, alive in *. cbn [fst snd] in *. destruct l; cbn [PhinsAcfrModel.read orient_from];
        try (eexists; split; [reflexivity|]; repeat split; cbn; (assumption || apply W || (now destruct W))).
      - destruct (GT s0 eq_refl) as [t ->]. eexists; split; [reflexivity|]; repeat split; cbn; (assumption || discriminate || apply W).
      - destruct (yaw s); [destruct (turn (- a) (- b)) as [z1 z2] eqn:Z|]; (eexists; split; [reflexivity|]; repeat split; cbn; (assumption || reflexivity || apply W)).
      - destruct (turn roll pitch). eexists; split; [reflexivity|]; repeat split; cbn; (assumption || discriminate || apply W).
      - destruct (GD v s0 eq_refl) as [t ->]. destruct v as [[v1 v2] v3]. unfold body_from, moved. destruct (turn v1 v2); (eexists; split; [reflexivity|]; repeat split; cbn; (assumption || apply W)). }
    revert M W1. generalize (match fst l with LogDvl _ => Some (snd l) | _ => sv end). intros c M W1. rewrite <- M in W1 |- *. clear M.
    destruct L as [L1 L2]. unfold build, meas_of, mbuild, paired, alive in *. cbn [fst snd] in *.
    destruct (epoch s1) eqn:e1; [|now destruct L1]. destruct (ostd s1) eqn:e7; [|now destruct L2].
    destruct (vel s1) eqn:e2, (dvl_time s1) eqn:e3, (alt s1) eqn:e4, (alt_time s1) eqn:e5, (roll s1) eqn:e6, (yaw s1) eqn:e8, (pitch s1) eqn:e9, c;
      try (exfalso; now destruct W1);
      (eexists; split; [reflexivity|]; cbn [fst snd]; unfold clear, clean; cbn [epoch ostd vel dvl_time alt alt_time roll yaw pitch];
       rewrite ?e1, ?e2, ?e3, ?e4, ?e5, ?e6, ?e7, ?e8, ?e9; repeat split; discriminate).
  Qed.
  Fixpoint mrun (m : meas) (ls : list aline) : meas * list rdi :=
    match ls with
    | [] => (m, [])
    | l :: ls => let (m1, r) := mbuild (mread m l) in let (m2, out) := mrun m1 ls in (m2, match r with Some x => x :: out | None => out end)
    end.
  Lemma arun_mrun : forall ls s rest out, alive s -> paired (meas_of s) -> times_ok ls -> (forall v x k, In (Dvl v x, k) ls -> exists t, own x = At t) ->
    (forall s', alive s' -> meas_of s' = fst (mrun (meas_of s) ls) -> paired (meas_of s') -> arun s' rest = Some out) ->
    arun s (ls ++ rest) = Some (snd (mrun (meas_of s) ls) ++ out).
  Proof.
    induction ls as [|l ls IH]; intros s rest out L W GT GD F; [now apply F|]. cbn [app PhinsAcfrModel.arun].
    destruct (astep s l L W) as (s' & -> & L' & M & W'); [intros x X; apply (GT x (snd l)); left; now rewrite <- X, <- surjective_pairing|intros v x X; apply (GD v x (snd l)); left; now rewrite <- X, <- surjective_pairing|].
    cbn [mrun] in F |- *. destruct (mbuild (mread (meas_of s) l)) as [m1 r]. cbn [fst snd] in M |- *. subst m1.
    rewrite (IH s' rest out L' W'); [destruct (mrun (meas_of s') ls); cbn; now destruct r|intros x k X; apply (GT x k); now right|intros v x k X; apply (GD v x k); now right|].
    destruct (mrun (meas_of s') ls). exact F.
  Qed.
  Lemma mbuild_short : forall m, short (fst (mbuild m)) = true.
  Proof. intros [[[v t] [[r p] w]] [[a at_] c]]. destruct v, t, r, p, w, a, at_, c; reflexivity. Qed.
  Lemma mrun_filter : forall ls m, short m = true -> mrun m ls = mrun m (filter (fun l => negb (quiet (fst l))) ls).
  Proof.
    induction ls as [|l ls IH]; intros m S; [reflexivity|]. cbn [filter]. destruct (quiet (fst l)) eqn:K; cbn [negb mrun].
    - assert (mbuild (mread m l) = (m, None)) as E.
      { destruct l as [l k]. destruct m as [[[v t] [[r p] w]] [[a at_] c]]. assert (mread (v, t, (r, p, w), (a, at_, c)) (l, k) = (v, t, (r, p, w), (a, at_, c))) as -> by (destruct l; (reflexivity || discriminate)).
        unfold mbuild. destruct v, t, r, p, w, a, at_, c; (reflexivity || discriminate). }
      rewrite E, (IH m S). now destruct (mrun m _).
    - pose proof (mbuild_short (mread m l)) as B. destruct (mbuild (mread m l)) as [m1 r]. now rewrite (IH m1 B).
  Qed.
End Runs.

(** ** C299 *)
(** The log falls into parts, one for each RDI line and a rest, and an RDI line tells the latest
    velocity with its own time, altitude, sound velocity, heading, roll and pitch of its part: no
    message is used for two lines. *)
Theorem C299_parts : forall y mo d tz off turn ls out, headings_in_range ls -> aparse y mo d tz off turn ls = Some out ->
  exists parts rest, ls = List.concat parts ++ rest /\ Forall2 (tells y mo d tz off turn) parts out.
Proof.
  intros y mo d tz off turn ls out G E.
  destruct (parts y mo d tz off turn ls astart [] out G (inv_start y mo d tz off turn) E) as (segs & rest & L & F). now exists segs, rest.
Qed.
Print Assumptions C299_parts.

(** The parser gets through every log whose hours and minutes are digits. *)
Theorem C299_complete : forall y mo d tz off turn ls,
  (forall s k, In (Time s, k) ls -> line_clock y mo d tz off s <> Raises) ->
  (forall v s k, In (Dvl v s, k) ls -> own_clock y mo d tz off s <> Raises) ->
  exists out, aparse y mo d tz off turn ls = Some out.
Proof.
  intros y mo d tz off turn ls A B. apply arun_total; [split; intros K; now destruct K|]. intros [l k] I. cbn [fst].
  destruct l; try exact Logic.I; [exact (A _ _ I)|exact (B _ _ _ I)].
Qed.
Print Assumptions C299_complete.

(** A cycle of measurements: heading before attitude, velocity before altitude, and any other lines
    in between. *)
Record cycle := mkcy { c_yaw : Q; c_a : Q; c_b : Q; c_vel : vec; c_text : list ascii; c_time : Q; c_alt : Q; c_sound : Q; c_lines : list aline }.
Inductive shuffle {A} : list A -> list A -> list A -> Prop :=
| sh_nil : shuffle [] [] []
| sh_left : forall a l m r, shuffle l m r -> shuffle (a :: l) m (a :: r)
| sh_right : forall a l m r, shuffle l m r -> shuffle l (a :: m) (a :: r).
Definition cycle_ok (y mo d : Z) (tz off : Q) (c : cycle) : Prop :=
  own_clock y mo d tz off (c_text c) = At (c_time c) /\ times_ok y mo d tz off (c_lines c) /\
  exists k1 k2 k3, shuffle [(Heading (c_yaw c), k1); (Attitude (c_a c) (c_b c), k2)] [(Dvl (c_vel c) (c_text c), k3); (LogDvl (c_alt c), c_sound c)]
    (filter (fun l => match fst l with Heading _ | Attitude _ _ | Dvl _ _ | LogDvl _ => true | _ => false end) (c_lines c)).
Definition line_of (turn : Q -> Q -> Q * Q) (c : cycle) : rdi :=
  mkrdi (c_time c) (c_alt c) (clamp360 (c_yaw c)) (snd (turn (- c_a c) (- c_b c))) (fst (turn (- c_a c) (- c_b c))) (moved turn (c_vel c)) (c_sound c).

Lemma quiet_filter : forall ls : list aline, filter (fun l => match fst l with Heading _ | Attitude _ _ | Dvl _ _ | LogDvl _ => true | _ => false end) ls = filter (fun l => negb (quiet (fst l))) ls.
Proof. intros ls. apply filter_ext. intros [l k]. now destruct l. Qed.
Lemma cycle_run : forall y mo d tz off turn c, cycle_ok y mo d tz off c -> mrun y mo d tz off turn clean (c_lines c) = (clean, [line_of turn c]).
Proof.
  intros y mo d tz off turn c (O & _ & k1 & k2 & k3 & S). rewrite quiet_filter in S. rewrite mrun_filter by reflexivity.
  destruct c as [h a b v x t q k ls]. cbn [c_yaw c_a c_b c_vel c_text c_time c_alt c_sound c_lines] in *.
  repeat match goal with H : shuffle _ _ _ |- _ => inversion H; clear H; subst end; cbn [mrun mread mbuild clean opt]; rewrite ?O; reflexivity.
Qed.
Lemma quiet_prefix : forall y mo d tz off turn ls s rest out, meas_of s = clean -> times_ok y mo d tz off ls -> (forall l, In l ls -> quiet (fst l) = true) ->
  (epoch (fst s) <> None \/ exists x k, In (Time x, k) ls) -> (ostd (fst s) <> None \/ exists a b c k, In (AttitudeStd a b c, k) ls) ->
  (forall s', alive s' -> meas_of s' = clean -> arun y mo d tz off turn s' rest = Some out) -> arun y mo d tz off turn s (ls ++ rest) = Some out.
Proof.
  intros y mo d tz off turn. induction ls as [|[l k] ls IH]; intros [s sv] rest out M GT GQ E O F.
  - apply F; [|exact M]. split; [destruct E as [E|(x & k & [])]; exact E|destruct O as [O|(a & b & c & k & [])]; exact O].
  - cbn [app arun]. unfold aprocess. cbn [fst snd] in *.
    assert (exists s1, read y mo d tz off turn s l = Some s1 /\ meas_of (s1, sv) = clean /\
        (epoch s1 <> None \/ exists x k, In (Time x, k) ls) /\ (ostd s1 <> None \/ exists a b c k, In (AttitudeStd a b c, k) ls)) as (s1 & -> & M1 & E1 & O1).
    { pose proof (GQ (l, k) (or_introl eq_refl)) as K. cbn [fst] in K.
      assert (forall x, (exists k', In (Time x, k') ((l, k) :: ls)) -> Time x = l \/ exists k', In (Time x, k') ls) as HT.
      { intros x [k' [X|X]]; [left; now injection X|right; now exists k']. }
      assert (forall a b c, (exists k', In (AttitudeStd a b c, k') ((l, k) :: ls)) -> AttitudeStd a b c = l \/ exists k', In (AttitudeStd a b c, k') ls) as HS.
      { intros a b c [k' [X|X]]; [left; now injection X|right; now exists k']. }
      assert ((forall x, Time x <> l) -> epoch s <> None \/ exists x k, In (Time x, k) ls) as E'.
      { intros N. destruct E as [E|(x & k' & I)]; [now left|right]. destruct (HT x (ex_intro _ k' I)) as [X|[k2 X]]; [now destruct (N x)|now exists x, k2]. }
      assert ((forall a b c, AttitudeStd a b c <> l) -> ostd s <> None \/ exists a b c k, In (AttitudeStd a b c, k) ls) as O'.
      { intros N. destruct O as [O|(a & b & c & k' & I)]; [now left|right]. destruct (HS a b c (ex_intro _ k' I)) as [X|[k2 X]]; [now destruct (N a b c)|now exists a, b, c, k2]. }
      destruct l; try discriminate K; cbn [read orient_from].
      - destruct (GT s0 k (or_introl eq_refl)) as [t ->]. eexists. split; [reflexivity|]. split; [exact M|]. split; [left; discriminate|]. apply O'. discriminate.
      - destruct (turn roll pitch). eexists. split; [reflexivity|]. split; [exact M|]. split; [apply E'; discriminate|left; discriminate].
      - eexists. split; [reflexivity|]. split; [exact M|]. split; [apply E'; discriminate|apply O'; discriminate].
      - eexists. split; [reflexivity|]. split; [exact M|]. split; [apply E'; discriminate|apply O'; discriminate].
      - eexists. split; [reflexivity|]. split; [exact M|]. split; [apply E'; discriminate|apply O'; discriminate].
      - eexists. split; [reflexivity|]. split; [exact M|]. split; [apply E'; discriminate|apply O'; discriminate]. }
    assert (match l with LogDvl _ => Some k | _ => sv end = sv) as -> by (pose proof (GQ (l, k) (or_introl eq_refl)) as K; now destruct l).
    assert (build (s1, sv) = Some ((s1, sv), None)) as ->.
    { unfold meas_of, clean in M1. cbn [fst snd] in M1. injection M1 as V _ _ _ _ _ _ _. unfold build. rewrite V. now destruct (epoch s1). }
    rewrite (IH (s1, sv) rest out M1); [reflexivity|intros x k' X; apply (GT x k'); now right|intros l' X; apply GQ; now right|exact E1|exact O1|exact F].
Qed.
(** Every cycle gives one RDI line with its own numbers. *)
Theorem C299_cycles : forall y mo d tz off turn ls cs, times_ok y mo d tz off ls ->
  (forall l, In l ls -> match fst l with Heading _ | Attitude _ _ | Dvl _ _ | LogDvl _ => False | _ => True end) ->
  (exists x k, In (Time x, k) ls) -> (exists a b c k, In (AttitudeStd a b c, k) ls) -> Forall (cycle_ok y mo d tz off) cs ->
  aparse y mo d tz off turn (ls ++ List.concat (map c_lines cs)) = Some (map (line_of turn) cs).
Proof.
  intros y mo d tz off turn ls cs GT GQ E O F. unfold aparse. apply quiet_prefix; [reflexivity|exact GT| |now right|now right|].
  { intros [l k] I. specialize (GQ _ I). cbn in *. now destruct l. }
  clear - F. induction F as [|c cs C F IH]; intros s L M; [reflexivity|]. cbn [map List.concat].
  change (line_of turn c :: map (line_of turn) cs) with ([line_of turn c] ++ map (line_of turn) cs).
  replace [line_of turn c] with (snd (mrun y mo d tz off turn (meas_of s) (c_lines c))) by (now rewrite M, (cycle_run y mo d tz off turn c C)).
  apply arun_mrun; [exact L|rewrite M; split; exact I|apply C| |].
  - intros v x k I. destruct C as (O & _ & k1 & k2 & k3 & S).
    assert (In (Dvl v x, k) (filter (fun l => match fst l with Heading _ | Attitude _ _ | Dvl _ _ | LogDvl _ => true | _ => false end) (c_lines c))) as J by (apply filter_In; split; [exact I|reflexivity]).
    assert (forall A (l m r : list A) z, shuffle l m r -> In z r -> In z l \/ In z m) as SI.
    { clear. intros A l m r z S. induction S; intros I; [destruct I| |]; destruct I as [ -> |I]; try (now left; left); try (now right; left); destruct (IHS I); [left; now right|now right|now left|right; now right]. }
    destruct (SI _ _ _ _ _ S J) as [[X|[X|[]]]|[X|[X|[]]]]; try discriminate X. injection X as _ <- _. rewrite O. now exists (c_time c).
  - intros s' L' M' _. apply IH; [exact L'|]. now rewrite M', M, (cycle_run y mo d tz off turn c C).
Qed.
Print Assumptions C299_cycles.

(** ** C300 *)
Definition at_ (s : Z) : list ascii := day_text 12 0 s 0.
Definition pre : list aline := [(Time (at_ 0), 0); (AttitudeStd 0 0 0, 0)].
Definition tm (s : Z) : Q := match own_clock 2020 6 15 0 0 (at_ s) with At t => t | _ => 0 end.
(** False: "the numbers of an RDI line are of one cycle".  If a cycle gives its altitude before its
    velocity, the altitude is paired with the velocity of the cycle before. *)
Theorem C300_cycle_refuted : exists ls v1 v2 a1 a2 r, let turn x y := (x, y) in
  ls = pre ++ [(Heading 10, 0); (Attitude 1 2, 0); (LogDvl a1, 1500); (Dvl v1 (at_ 1), 0);
               (Heading 20, 0); (Attitude 3 4, 0); (LogDvl a2, 1501); (Dvl v2 (at_ 2), 0)] /\
  aparse 2020 6 15 0 0 turn ls = Some [r] /\ v1 <> v2 /\ a1 <> a2 /\
  r_time r = tm 1 /\ r_vel r = moved turn v1 /\ r_alt r = a2 /\ r_yaw r = 20.
Proof.
  exists (pre ++ [(Heading 10, 0); (Attitude 1 2, 0); (LogDvl 5, 1500); (Dvl (1, 0, 0) (at_ 1), 0);
               (Heading 20, 0); (Attitude 3 4, 0); (LogDvl 6, 1501); (Dvl (2, 0, 0) (at_ 2), 0)]), (1, 0, 0), (2, 0, 0), 5, 6. eexists. cbn zeta.
  split; [reflexivity|]. split; [vm_compute; reflexivity|]. repeat split; try discriminate; vm_compute; reflexivity.
Qed.
Print Assumptions C300_cycle_refuted.
(** False: "roll and pitch are turned by the sensor's heading offset".  An attitude that comes before
    the heading of its cycle is not. *)
Theorem C300_turn_refuted : exists turn ls r, (forall x y, turn x y = (- y, x)) /\
  ls = pre ++ [(Attitude 1 2, 0); (Heading 10, 0); (Dvl (1, 0, 0) (at_ 1), 0); (LogDvl 5, 1500)] /\
  aparse 2020 6 15 0 0 turn ls = Some [r] /\ (r_roll r, r_pitch r) = (- (1), - (2)) /\ (r_roll r, r_pitch r) <> turn (- (1)) (- (2)).
Proof.
  exists (fun x y => (- y, x)). do 2 eexists. split; [reflexivity|]. split; [reflexivity|]. split; [vm_compute; reflexivity|]. split; [reflexivity|discriminate].
Qed.
Print Assumptions C300_turn_refuted.

(** ** Examples *)
Example two_cycles : aparse 2020 6 15 0 0 (fun x y => (x, y))
  (pre ++ [(Heading 10, 0); (Dvl (1, 2, 3) (at_ 1), 0); (Attitude 1 2, 0); (Time (at_ 1), 0); (LogDvl 5, 1500);
           (Dvl (4, 5, 6) (at_ 2), 0); (LogDvl 7, 1501); (Heading 20, 0); (Attitude 3 4, 0)]) =
  Some [mkrdi (tm 1) 5 10 (- (2)) (- (1)) (1, - (2), - (3)) 1500; mkrdi (tm 2) 7 20 (- (4)) (- (3)) (4, - (5), - (6)) 1501].
Proof. vm_compute. reflexivity. Qed.
Example bad_hour : aparse 2020 6 15 0 0 (fun x y => (x, y)) [(Time (list_ascii_of_string "xx0000.000"), 0)] = None.
Proof. reflexivity. Qed.
