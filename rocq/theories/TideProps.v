(** C25: tidal correction. *)
From Verif Require Import PyBase InterpModel InterpSpec ListFacts TideModel TideProofs.
Open Scope Q_scope.

(** For time-ordered tide records of at least two samples and time-ordered results:
    a result after the first and not after the last-but-one tide sample is reduced by
    the tide interpolated between the two samples around it; all others are untouched. *)
Theorem C25_tide : forall (X : Type) tide (rs : list (result X)) first prev,
  increasing fst tide -> (2 <= length tide)%nat -> nondecreasing r_t rs ->
  is_first tide first -> nth_error tide (length tide - 2) = Some prev ->
  exists rs', correct_tide tide rs = Some rs' /\
    Forall2 (fun r r' =>
      (fst first < r_t r <= fst prev ->
        exists a b, adjacent tide a b /\ fst a <= r_t r <= fst b /\
          on_line (fst a) (snd a) (fst b) (snd b) (r_t r) (r_depth r - r_depth r')) /\
      (r_t r <= fst first -> r' = r) /\ (fst prev < r_t r -> r' = r)) rs rs'.
Proof.
  intros X tide rs first prev HI HL HS F P. destruct (correct_tide_spec tide rs HI HL HS) as (rs' & E & O).
  exists rs'. split; [exact E|]. destruct F as [t0 Ft].
  assert (exists last, is_last tide last) as [last L].
  { destruct (@exists_last _ tide) as (l & x & ->); [rewrite Ft; discriminate|]. exists x. now exists l. }
  clear - O Ft P L. induction O as [|r r' rs rs' (_ & H) O IH]; constructor; [|exact IH].
  apply (H first prev last); auto. now exists t0.
Qed.
Print Assumptions C25_tide.

(** Nothing but the depth ever changes, whatever the lists. *)
Theorem C25_only_depth : forall (X : Type) tide (rs rs' : list (result X)), correct_tide tide rs = Some rs' ->
  Forall2 (fun r r' => r_t r' = r_t r /\ r_rest r' = r_rest r) rs rs'.
Proof. intro X. exact correct_tide_keeps. Qed.
Print Assumptions C25_only_depth.

(** A depth between the last two tide samples is inside the record but not corrected. *)
Theorem C125_last_interval_refuted : exists tide (rs rs' : list (result unit)) r first last,
  increasing fst tide /\ nondecreasing r_t rs /\ is_first tide first /\ is_last tide last /\
  correct_tide tide rs = Some rs' /\ In r rs /\ fst first <= r_t r <= fst last /\
  (forall h, In h (map snd tide) -> 1 <= h) /\ In r rs'.
Proof.
  exists [(0, 1); (10, 2); (20, 3)], [mkRes 15 100 tt], [mkRes 15 100 tt], (mkRes 15 100 tt), (0, 1), (20, 3).
  split; [now apply increasing_chain|]. split; [now apply nondecreasing_chain|].
  split; [now eexists|]. split; [now exists [(0, 1); (10, 2)]|].
  split; [reflexivity|]. split; [now left|]. split; [cbn; lra|]. split; [|now left].
  intros h [<-|[<-|[<-|[]]]]; cbn; lra.
Qed.
Print Assumptions C125_last_interval_refuted.

(** Neither is a depth taken at the very first tide sample. *)
Theorem C125_first_sample_refuted : exists tide (rs rs' : list (result unit)) r first,
  increasing fst tide /\ is_first tide first /\ correct_tide tide rs = Some rs' /\ In r rs /\
  r_t r == fst first /\ ~ snd first == 0 /\ In r rs' /\ (2 < length tide)%nat.
Proof.
  exists [(0, 1); (10, 2); (20, 3); (30, 4)], [mkRes 0 100 tt], [mkRes 0 100 tt], (mkRes 0 100 tt), (0, 1).
  split; [now apply increasing_chain|]. split; [now eexists|]. split; [reflexivity|]. split; [now left|].
  split; [reflexivity|]. split; [discriminate|]. split; [now left|cbn; lia].
Qed.
Print Assumptions C125_first_sample_refuted.

(** Depth lists that are not in time order: the scan does not go back, and the tide is
    extrapolated; here the tide at time 5 is 1, so the depth
    100 should become 99, and becomes 114. *)
Theorem C125_unordered_refuted : exists tide (rs rs' : list (result unit)),
  increasing fst tide /\ correct_tide tide rs = Some rs' /\
  map (fun r => (r_t r, Qred (r_depth r))) rs = [(25, 100); (5, 100)] /\
  map (fun r => (r_t r, Qred (r_depth r))) rs' = [(25, 94); (5, 114)] /\
  on_line 0 1 10 1 5 1.
Proof.
  exists [(0, 1); (10, 1); (20, 1); (30, 11); (40, 21)], [mkRes 25 100 tt; mkRes 5 100 tt]. eexists.
  split; [now apply increasing_chain|]. split; [reflexivity|]. split; [reflexivity|]. split; [vm_compute; reflexivity|].
  unfold on_line. ring.
Qed.
Print Assumptions C125_unordered_refuted.

Example C25_example : option_map (map (fun r => Qred (r_depth r)))
  (correct_tide [(0, 1); (10, 2); (20, 4); (30, 8)]
     [mkRes (-5) 100 tt; mkRes 5 100 tt; mkRes 15 100 tt; mkRes 20 100 tt; mkRes 25 100 tt; mkRes 35 100 tt]) =
  Some [100; 197 # 2; 97; 96; 100; 100].
Proof. reflexivity. Qed.
