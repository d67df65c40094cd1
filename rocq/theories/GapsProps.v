(** C31: the GAPS parser. *)
From Coq Require Import Qround.
From Verif Require Import PyBase InterpModel InterpSpec ListFacts PfProofs GapsModel GapsProofs.
Open Scope Q_scope.

(** A log made of regular cycles (each file may end in the middle of one): one fix per
    cycle, with the ship pose taken from the ship samples around it, and the heading on
    the short arc unless the ship turns through north. *)
Theorem C31_cycles : forall fs, Forall (fun f => Forall regular (fst f) /\ none is_target (snd f)) fs ->
  exists xs, parse_gaps (map (fun f => flat_map lines_of (fst f) ++ snd f) fs) = Some xs /\ Forall2 reports (flat_map fst fs) xs.
Proof.
  intros fs H. destruct (files_cycles fs initial H) as (s & xs & R & X). exists xs.
  unfold parse_gaps. rewrite R. split; [reflexivity|exact X].
Qed.
Print Assumptions C31_cycles.

(** The broken-packet check has no effect on what is reported. *)
Definition mend_packet (p : packet) : packet := mkpacket (p_t p) (p_lat p) (p_lon p) false.
Definition mend (l : line) : line :=
  match l with Target ok p d => Target ok (mend_packet p) d | Ship p => Ship (mend_packet p) | l => l end.
Definition mend_state (s : state) : state :=
  mkstate (flag s) (option_map mend_packet (prior s)) (heading_prior s)
          (option_map (fun pd => (mend_packet (fst pd), snd pd)) (target s))
          (option_map mend_packet (posterior s)) (heading_posterior s).

Lemma step_flag : forall s l s' o, step s l = Some (s', o) -> (flag s' < 5)%nat.
Proof.
  intros s l s' o H. unfold step in H. destruct (read s l) as [[s1 b]|]; [|discriminate].
  destruct (5 <=? flag s1)%nat eqn:E.
  - destruct (complete b s1); [|discriminate]. injection H as <- <-. cbn. lia.
  - injection H as <- <-. now apply Nat.leb_gt.
Qed.
Lemma complete_mend : forall s o, complete false s = Some o -> complete false (mend_state s) = Some o.
Proof.
  intros [f [a|] [ha|] [[p d]|] [b|] [hb|]] o H; try discriminate H. exact H.
Qed.
Lemma read_mend : forall s l s' b, read s l = Some (s', b) -> read (mend_state s) (mend l) = Some (mend_state s', false).
Proof.
  intros [f pr hp t po hpo] l s' b H. unfold read in *.
  destruct l as [ok p d|p|h|]; cbn [mend mend_packet p_broken flag mend_state] in *.
  - destruct (f =? 2)%nat; [destruct ok|]; injection H as <- <-; reflexivity.
  - destruct (f <? 3)%nat; [injection H as <- <-; reflexivity|].
    destruct (p_broken p); [discriminate|]. injection H as <- <-; reflexivity.
  - destruct (f <? 3)%nat; injection H as <- <-; reflexivity.
  - injection H as <- <-; reflexivity.
Qed.
Lemma step_mend : forall s l s' o, (flag s < 5)%nat -> step s l = Some (s', o) -> step (mend_state s) (mend l) = Some (mend_state s', o).
Proof.
  intros s l s' o F H. unfold step in *. destruct (read s l) as [[s1 b]|] eqn:R; [|discriminate].
  rewrite (read_mend _ _ _ _ R). change (flag (mend_state s1)) with (flag s1).
  destruct (5 <=? flag s1)%nat eqn:E.
  - pose proof (read_never_broken _ _ _ _ F R (proj1 (Nat.leb_le _ _) E)) as ->.
    destruct (complete false s1) eqn:C; [|discriminate]. rewrite (complete_mend _ _ C). injection H as <- <-. reflexivity.
  - injection H as <- <-. reflexivity.
Qed.
Lemma run_mend : forall ls s s' o, (flag s < 5)%nat -> run s ls = Some (s', o) ->
  run (mend_state s) (map mend ls) = Some (mend_state s', o).
Proof.
  induction ls as [|l r IH]; intros s s' o F H.
  - cbn in *. now injection H as <- <-.
  - cbn [run map] in *. destruct (step s l) as [[s1 o1]|] eqn:S1; [|discriminate].
    destruct (run s1 r) as [[s2 o2]|] eqn:R; [|discriminate]. injection H as <- <-.
    rewrite (step_mend _ _ _ _ F S1), (IH _ _ _ (step_flag _ _ _ _ S1) R). reflexivity.
Qed.
Lemma files_mend : forall fs s s' o, files s fs = Some (s', o) ->
  files (mend_state s) (map (map mend) fs) = Some (mend_state s', o).
Proof.
  induction fs as [|f r IH]; intros s s' o H.
  - cbn in *. now injection H as <- <-.
  - cbn [files map] in *. destruct (run (reset s) f) as [[s1 o1]|] eqn:R; [|discriminate].
    destruct (files s1 r) as [[s2 o2]|] eqn:R2; [|discriminate]. injection H as <- <-.
    change (reset (mend_state s)) with (mend_state (reset s)).
    rewrite (run_mend _ (reset s) s1 o1) by (cbn; auto; lia). rewrite (IH _ _ _ R2). reflexivity.
Qed.

Theorem C131_check_is_dead : forall fs out, parse_gaps fs = Some out -> parse_gaps (map (map mend) fs) = Some out.
Proof.
  intros fs out H. unfold parse_gaps in *. destruct (files initial fs) as [[s o]|] eqn:F; [|discriminate].
  change initial with (mend_state initial). now rewrite (files_mend _ _ _ _ F).
Qed.
Print Assumptions C131_check_is_dead.

(** So a fix whose target packet and prior ship packet are both broken is reported. *)
Definition pk (t lat lon : Q) : packet := mkpacket t lat lon false.
Definition bad (t lat lon : Q) : packet := mkpacket t lat lon true.
Theorem C131_broken_refuted : exists a p b out,
  p_broken a = true /\ p_broken p = true /\
  parse_gaps [[Heading 90; Ship a; Target true p 100; Ship b; Heading 90]] = Some out /\ length out = 1%nat.
Proof. exists (bad 0 50 0), (bad 1 50 0), (pk 2 50 0). eexists. split; [reflexivity|]. split; [reflexivity|]. split; reflexivity. Qed.
Print Assumptions C131_broken_refuted.

(** A ship turning from 350 to 10 degrees is reported heading south. *)
Definition north_cycle : cycle := mkcycle [Ship (pk 0 50 0); Heading 350] (pk 1 50 0) 100 [Ship (pk 2 50 0); Heading 10].
Theorem C131_heading_refuted : exists c a ha b hb f,
  cycle_is c a ha b hb /\ p_broken b = false /\ p_t a < p_t (c_target c) < p_t b /\
  parse_gaps [lines_of c] = Some [f] /\ f_ship_heading f == 180 /\
  ~ on_short_arc (p_t a) ha (p_t b) hb (f_t f) (f_ship_heading f).
Proof.
  exists north_cycle, (pk 0 50 0), 350, (pk 2 50 0), 10. eexists.
  split.
  { split; [repeat constructor|]. split; [exists [], [Heading 350]; split; [reflexivity|repeat constructor]|].
    split; [exists [Ship (pk 0 50 0)], []; split; [reflexivity|constructor]|].
    exists [], []. repeat (split; [constructor|]). left. reflexivity. }
  split; [reflexivity|]. split; [split; reflexivity|]. split; [vm_compute; reflexivity|]. split; [reflexivity|].
  intros (d & D & (k & K) & v & (k' & K') & L). cbn [pk p_t f_t f_ship_heading] in *. unfold on_line in L.
  apply Qabs_Qle_condition in D.
  assert (d == inject_Z (360 * k) - 340) as Ed by lra.
  assert (k = 1)%Z as ->.
  { rewrite Ed in D. destruct D as [D1 D2].
    assert (160 <= inject_Z (360 * k)) as E1 by lra. assert (inject_Z (360 * k) <= 520) as E2 by lra.
    change 160 with (inject_Z 160) in E1. change 520 with (inject_Z 520) in E2.
    rewrite <- Zle_Qle in E1, E2. lia. }
  change (inject_Z (360 * 1)) with 360 in Ed. assert (v == 360) as Ev by lra. rewrite Ev in K'.
  assert (inject_Z (360 * k') == inject_Z (-180)) as E by (change (inject_Z (-180)) with (-180 # 1); lra).
  unfold Qeq in E. cbn [inject_Z Qnum Qden] in E. lia.
Qed.
Print Assumptions C131_heading_refuted.

(** Two ship packets without a heading between them complete a fix with the heading left
    over from the previous fix: the ship heads east throughout the second cycle, and is
    reported heading north-east. *)
Definition stale_log : list line :=
  [Ship (pk 0 50 0); Heading 0; Target true (pk 1 50 0) 100; Ship (pk 2 50 0); Heading 0;
   Ship (pk 10 50 0); Heading 90; Target true (pk 11 50 0) 100; Ship (pk 12 50 0); Ship (pk 12 50 0); Heading 90].
Theorem C131_stale_heading_refuted : exists before after f1 f2,
  stale_log = before ++ [Heading 90; Target true (pk 11 50 0) 100] ++ after ++ [Heading 90] /\
  none is_heading after /\
  parse_gaps [stale_log] = Some [f1; f2] /\ f_t f2 == 11 /\ f_ship_heading f2 == 45.
Proof.
  exists [Ship (pk 0 50 0); Heading 0; Target true (pk 1 50 0) 100; Ship (pk 2 50 0); Heading 0; Ship (pk 10 50 0)].
  exists [Ship (pk 12 50 0); Ship (pk 12 50 0)]. do 2 eexists. split; [reflexivity|]. split; [repeat constructor|].
  split; [vm_compute; reflexivity|]. split; reflexivity.
Qed.
Print Assumptions C131_stale_heading_refuted.

(** In the first fix of a log the same situation is an exception. *)
Theorem C131_unbound_refuted : exists a a' p b b',
  none p_broken [a; a'; p; b; b'] /\ parse_gaps [[Ship a; Ship a'; Target true p 100; Ship b; Ship b'; Heading 90]] = None.
Proof.
  exists (pk 0 50 0), (pk 1 50 0), (pk 2 50 0), (pk 3 50 0), (pk 4 50 0). split; [repeat constructor|reflexivity].
Qed.
Print Assumptions C131_unbound_refuted.

Example C31_example :
  regular (mkcycle [Ship (pk 0 50 1); Other; Heading 80; Ship (pk 4 51 2)] (pk 5 50 0) 100 [Other; Heading 100; Ship (pk 8 55 6)]) /\
  option_map (map (fun f => (f_t f, Qred (f_ship_lat f), Qred (f_ship_lon f), Qred (f_ship_heading f))))
    (parse_gaps [lines_of (mkcycle [Ship (pk 0 50 1); Other; Heading 80; Ship (pk 4 51 2)] (pk 5 50 0) 100 [Other; Heading 100; Ship (pk 8 55 6)]);
                 [Ship (pk 9 0 0); Heading 3]]) = Some [(5, 52, 3, 85)].
Proof.
  split; [|vm_compute; reflexivity]. exists (pk 4 51 2), 80, (pk 8 55 6), 100. split.
  - split; [repeat constructor|]. split; [exists [Ship (pk 0 50 1); Other; Heading 80], []; split; [reflexivity|constructor]|].
    split; [exists [Ship (pk 0 50 1); Other], [Ship (pk 4 51 2)]; split; [reflexivity|repeat constructor]|].
    exists [Other], []. do 4 (split; [repeat constructor|]). right. reflexivity.
  - split; [reflexivity|]. cbn. intro H. discriminate H.
Qed.
