(** C99: one dive from its configuration to nav_standard.json. *)
From Coq Require Import Ascii String Sorting.Permutation.
From Verif Require Import PyBase InterpModel InterpSpec TideModel TideProps InterlaceModel InterlaceSpec InterlaceProps ParseModel.
Open Scope string_scope.

(** ** Which parsers run *)
Lemma choose_in : forall t f c, choose t f = Some c -> In (f, c) t.
Proof.
  induction t as [|[g d] t IH]; intros f c H; [discriminate|]. cbn [choose] in H. destruct (String.eqb f g) eqn:E; [|right; now apply IH].
  apply String.eqb_eq in E. injection H as <-. subst g. now left.
Qed.
Lemma jobs_of_spec : forall m l js, jobs_of m l = Some js ->
  map fst js = filter (fun s => match format_of m s with Some _ => true | None => false end) l /\
  forall s c, In (s, c) js -> exists f, format_of m s = Some f /\ choose (table s) f = Some c.
Proof.
  intros m. induction l as [|s l IH]; intros js H; cbn [jobs_of] in H; [injection H as <-; split; [reflexivity|intros s c []]|].
  cbn [filter]. destruct (format_of m s) as [f|] eqn:F; [|now apply IH].
  destruct (choose (table s) f) as [c|] eqn:E; [|discriminate]. destruct (jobs_of m l) as [r|]; [|discriminate]. injection H as <-.
  destruct (IH r eq_refl) as [M I]. split; [cbn [map fst]; now f_equal|]. intros s' c' [K|K]; [injection K as <- <-; eauto|now apply I].
Qed.
(** Every configured section is given to one parser, the others to none. *)
Theorem C99_sections : forall m js, jobs m = Some js ->
  NoDup (map fst js) /\ forall s, In s (map fst js) <-> format_of m s <> None.
Proof.
  intros m js H. destruct (jobs_of_spec m sections js H) as [-> _]. split.
  - apply NoDup_filter. unfold sections. repeat constructor; cbn; intuition discriminate.
  - intros s. rewrite filter_In. destruct (format_of m s); split; intros K; try discriminate; try tauto.
    + split; [destruct s; cbn; tauto|reflexivity].
    + destruct K as [_ K]; discriminate.
Qed.
Print Assumptions C99_sections.
(** Only USBL files of the format alr2 are read in the second layout of parse_alr. *)
Theorem C99_variant : forall s f c, choose (table s) f = Some c -> snd c = true <-> s = Usbl /\ f = "alr2".
Proof.
  assert (H : forall s, forallb (fun e => Bool.eqb (snd (snd e)) (match s with Usbl => String.eqb (fst e) "alr2" | _ => false end)) (table s) = true) by (intros []; vm_compute; reflexivity).
  intros s f c E. apply choose_in in E. specialize (H s). rewrite forallb_forall in H. specialize (H _ E). cbn [fst snd] in H. apply Bool.eqb_prop in H. rewrite H.
  destruct s; try (split; [discriminate|intros [K _]; discriminate]). rewrite String.eqb_eq. split; [intros ->; now split|intros [_ K]; exact K].
Qed.
Print Assumptions C99_variant.
(** The parser depends on the format alone, not on the section or the dive. *)
Definition entries : list (string * call) := flat_map table sections.
Definition call_eqb (a b : call) : bool := (String.eqb (fst a) (fst b) && Bool.eqb (snd a) (snd b))%bool.
Lemma entries_consistent : forall f c c', In (f, c) entries -> In (f, c') entries -> c = c'.
Proof.
  assert (forallb (fun e => forallb (fun e' => implb (String.eqb (fst e) (fst e')) (call_eqb (snd e) (snd e'))) entries) entries = true) as H by (vm_compute; reflexivity).
  rewrite forallb_forall in H. intros f c c' I I'. specialize (H _ I). rewrite forallb_forall in H. specialize (H _ I'). cbn [fst snd] in H.
  rewrite String.eqb_refl in H. cbn [implb] in H. unfold call_eqb in H. apply andb_prop in H. destruct H as [A B].
  apply String.eqb_eq in A. apply Bool.eqb_prop in B. destruct c, c'. cbn in *. congruence.
Qed.
Theorem C99_format_decides : forall m m' js js' s s' c c' f, jobs m = Some js -> jobs m' = Some js' ->
  In (s, c) js -> In (s', c') js' -> format_of m s = Some f -> format_of m' s' = Some f -> c = c'.
Proof.
  intros m m' js js' s s' c c' f J J' I I' F F'. destruct (jobs_of_spec _ _ _ J) as [_ K]. destruct (jobs_of_spec _ _ _ J') as [_ K'].
  destruct (K _ _ I) as (g & G & E). destruct (K' _ _ I') as (g' & G' & E'). rewrite F in G. rewrite F' in G'. injection G as <-. injection G' as <-.
  assert (forall s f c, choose (table s) f = Some c -> In (f, c) entries) as X.
  { intros t h d H. apply in_flat_map. exists t. split; [destruct t; cbn; tauto|now apply choose_in]. }
  exact (entries_consistent f c c' (X _ _ _ E) (X _ _ _ E')).
Qed.
Print Assumptions C99_format_decides.

(** ** What the file holds *)
Section File.
  Context {C : Type}.
  Notation rec := (result (string * C)).
  Variable run : section -> call -> option (list (option rec)).
  Variable tide : call -> option (list (Q * Q)).
  Variable correct_stamps : list rec -> option (list rec).
  Variable str_float : Q -> list N.
  Variable origin : string * C.

  (** The parser of a job returned these records. *)
  Definition returned (j : section * call) (raw : list rec) : Prop :=
    run (fst j) (snd j) = Some (map Some raw) \/ (raw = [] /\ exists l, run (fst j) (snd j) = Some (None :: l)).
  (** The same record up to its time and depth. *)
  Definition same_record (r r' : rec) : Prop := r_rest r' = r_rest r.
  Definition first_is (l : list string) (raw : list rec) : Prop := exists r t, raw = r :: t /\ In (category r) l.
  (** What happens to the records of one parser: nothing is added, dropped or moved; nothing at all changes
      except the times of BioCam images and, with a tide, depths; and these change as C25 says. *)
  Definition treated (biocam : Prop) (tides : option (list (Q * Q))) (raw out : list rec) : Prop :=
    Forall2 same_record raw out /\
    (~ (biocam /\ first_is ["image"] raw) -> ~ (tides <> None /\ first_is ["depth"; "usbl"] raw) -> out = raw) /\
    (forall tl first prev, tides = Some tl -> first_is ["depth"; "usbl"] raw -> increasing fst tl -> (2 <= List.length tl)%nat -> nondecreasing r_t raw ->
       is_first tl first -> nth_error tl (List.length tl - 2) = Some prev ->
       Forall2 (fun r r' => r_t r' = r_t r /\
         (fst first < r_t r <= fst prev -> exists a b, adjacent tl a b /\ fst a <= r_t r <= fst b /\ on_line (fst a) (snd a) (fst b) (snd b) (r_t r) (r_depth r - r_depth r')) /\
         (r_t r <= fst first -> r' = r) /\ (fst prev < r_t r -> r' = r)) raw out)%Q.
  Definition keeps_records : Prop := forall rs rs', correct_stamps rs = Some rs' -> Forall2 same_record rs rs'.

  Lemma all_some_map : forall A (l : list (option A)) r, all_some l = Some r -> l = map Some r.
  Proof. intros A. induction l as [|[x|] l IH]; intros r H; cbn [all_some] in H; try discriminate; [injection H as <-; reflexivity|]. destruct (all_some l); [|discriminate]. injection H as <-. cbn. f_equal. now apply IH. Qed.
  Lemma same_refl : forall l, Forall2 same_record l l.
  Proof. induction l; constructor; [reflexivity|assumption]. Qed.
  Lemma Forall2_and : forall A B (P Q : A -> B -> Prop) l l', Forall2 P l l' -> Forall2 Q l l' -> Forall2 (fun x y => P x y /\ Q x y) l l'.
  Proof. intros A B P Q l l' H. induction H; intros K; inversion K; subst; constructor; auto. Qed.
  Lemma treated_same : forall b ts raw, ~ (ts <> None /\ first_is ["depth"; "usbl"] raw) -> treated b ts raw raw.
  Proof.
    intros b ts raw N. split; [apply same_refl|]. split; [reflexivity|]. intros tl first prev -> W. exfalso. apply N. split; [discriminate|exact W].
  Qed.
  Lemma treated_nil : forall b ts, treated b ts [] [].
  Proof. intros b ts. apply treated_same. intros (_ & r & t & K & _). discriminate. Qed.
  Lemma compile_spec : forall bio ts results out, keeps_records -> compile correct_stamps bio ts results = Some out ->
    exists raw, (results = map Some raw \/ (raw = [] /\ exists l, results = None :: l)) /\ treated (bio = true) ts raw out.
  Proof.
    intros bio ts results out K H. unfold compile in H. destruct results as [|[first|] l].
    - injection H as <-. exists []. split; [now left|apply treated_nil].
    - destruct (all_some (Some first :: l)) as [rs|] eqn:A; [|discriminate]. pose proof (all_some_map _ _ _ A) as M. destruct rs as [|f rs]; [discriminate|]. injection M as <- M.
      exists (first :: rs). split; [left; cbn; now rewrite M|]. clear A M.
      destruct (bio && String.eqb (category first) "image")%bool eqn:B.
      + apply andb_prop in B. destruct B as [-> B]. apply String.eqb_eq in B. destruct (correct_stamps (first :: rs)) as [rs'|] eqn:CS; [|discriminate].
        pose proof (K _ _ CS) as S. assert (category first <> "depth" /\ category first <> "usbl") as [W1 W2] by (rewrite B; split; discriminate).
        assert (out = rs') as ->.
        { inversion S as [|? f' ? r' S1 S2]; subst. unfold same_record in S1. assert (category f' = category first) as E by (unfold category; now rewrite S1). rewrite E, B in H. cbn in H. destruct ts; now injection H as <-. }
        split; [exact S|]. split.
        * intros N _. exfalso. apply N. split; [reflexivity|]. exists first, rs. split; [reflexivity|]. left. now rewrite B.
        * intros tl f p _ (r & t & R & I). exfalso. injection R as <- <-. cbn in I. destruct I as [I|[I|[]]]; now symmetry in I.
      + destruct ts as [tl|].
        * destruct (String.eqb (category first) "depth" || String.eqb (category first) "usbl")%bool eqn:W.
          -- destruct tl as [|t0 tl]; [discriminate|]. pose proof (C25_only_depth _ _ _ _ H) as OD. split; [|split].
             ++ clear -OD. induction OD as [|? ? ? ? [_ E]]; constructor; auto.
             ++ intros _ N. exfalso. apply N. split; [discriminate|]. exists first, rs. split; [reflexivity|]. apply Bool.orb_prop in W. cbn. destruct W as [W|W]; apply String.eqb_eq in W; rewrite W; tauto.
             ++ intros tl' f p E _ I L ND F P. injection E as <-. destruct (C25_tide _ _ _ f p I L ND F P) as (o & E & R). rewrite H in E. injection E as <-.
                refine (Forall2_and _ _ _ _ _ _ _ R). clear -OD. induction OD as [|? ? ? ? [E _]]; constructor; auto.
          -- injection H as <-. apply treated_same. intros [_ (r & t & R & I)]. injection R as <- <-. apply Bool.orb_false_elim in W. destruct W as [W1 W2]. cbn in I.
             destruct I as [I|[I|[]]]; symmetry in I; rewrite I in *; discriminate.
        * injection H as <-. apply treated_same. intros [N _]. now apply N.
    - injection H as <-. exists []. split; [right; split; [reflexivity|now exists l]|apply treated_nil].
  Qed.
  Lemma compile_all_spec : forall bio ts js out, keeps_records -> compile_all run correct_stamps bio ts js = Some out ->
    exists raws outs, Forall2 returned js raws /\ Forall2 (treated (bio = true) ts) raws outs /\ out = concat outs.
  Proof.
    intros bio ts. induction js as [|[s c] js IH]; intros out K H; cbn [compile_all] in H.
    - injection H as <-. exists [], []. repeat split; constructor.
    - destruct (run s c) as [results|] eqn:R; [|discriminate]. destruct (compile correct_stamps bio ts results) as [a|] eqn:A; [|discriminate].
      destruct (compile_all run correct_stamps bio ts js) as [b|]; [|discriminate]. injection H as <-.
      destruct (IH b K eq_refl) as (raws & outs & F & T & ->). destruct (compile_spec _ _ _ _ K A) as (raw & W & TR).
      exists (raw :: raws), (a :: outs). split; [|split; [constructor; assumption|reflexivity]]. constructor; [|exact F]. unfold returned. cbn [fst snd]. rewrite R.
      destruct W as [->|(-> & l & ->)]; [now left|right; split; [reflexivity|now exists l]].
  Qed.
  Lemma interlaced : forall data (out : list (Q * rec)), interlacer str_float (map (fun r : rec => (r_t r, r)) data) = Some out -> Permutation (map snd out) data /\ forall p, In p out -> p = (r_t (snd p), snd p).
  Proof.
    intros data out H. pose proof (C14_permutation _ _ _ H) as P. split.
    - apply (Permutation_map snd) in P. rewrite map_map in P. cbn in P. now rewrite map_id in P.
    - intros p I. apply (Permutation_in _ P), in_map_iff in I. destruct I as (r & <- & _). reflexivity.
  Qed.

  (** The file holds the origin and every record of every parser once, treated as above. *)
  Theorem C99_records : forall m out, keeps_records -> parse_single run tide correct_stamps str_float origin m = Some out ->
    exists js raws outs tides, jobs m = Some js /\ (tides = None <-> m_tide m = None) /\
      Forall2 returned js raws /\ Forall2 (treated (m_image m = Some "biocam") tides) raws outs /\
      Permutation out (mkRes 0 0 origin :: concat outs).
  Proof.
    intros m out K H. unfold parse_single in H. destruct (jobs m) as [js|]; [|discriminate]. unfold tide_call in H.
    assert (forall ts, match compile_all run correct_stamps (is_biocam m) ts js with None => None | Some records =>
        match interlacer str_float (map (fun r => (r_t r, r)) (mkRes 0 0 origin :: records)) with Some o => Some (map snd o) | None => None end end = Some out ->
      exists raws outs, Forall2 returned js raws /\ Forall2 (treated (m_image m = Some "biocam") ts) raws outs /\ Permutation out (mkRes 0 0 origin :: concat outs)) as G.
    { clear H. intros ts H. destruct (compile_all run correct_stamps (is_biocam m) ts js) as [records|] eqn:CA; [|discriminate].
      destruct (compile_all_spec _ _ _ _ K CA) as (raws & outs & F & T & ->).
      destruct (interlacer _ _) as [o|] eqn:I; [|discriminate]. injection H as <-.
      exists raws, outs. split; [exact F|]. split; [|apply (interlaced _ _ I)].
      assert (is_biocam m = true <-> m_image m = Some "biocam") as E.
      { unfold is_biocam. destruct (m_image m) as [f|]; [|split; discriminate]. rewrite String.eqb_eq. split; [now intros ->|congruence]. }
      clear -T E. induction T as [|a b raws outs (A & B & D) T IH]; constructor; auto. split; [exact A|]. split; [|exact D]. intros N. apply B. intros [X Y]. apply N. tauto. }
    destruct (m_tide m) as [f|].
    - destruct (choose _ f) as [c|]; [|discriminate]. destruct (tide c) as [l|]; [|discriminate]. destruct (G _ H) as (raws & outs & A & B & P).
      exists js, raws, outs, (Some l). split; [reflexivity|]. split; [split; discriminate|auto].
    - destruct (G _ H) as (raws & outs & A & B & P). exists js, raws, outs, None. split; [reflexivity|]. split; [split; reflexivity|auto].
  Qed.

  (** Without a tide and BioCam images the records are exactly those of the parsers. *)
  Theorem C99_unchanged : forall m out, keeps_records -> parse_single run tide correct_stamps str_float origin m = Some out ->
    m_tide m = None -> m_image m <> Some "biocam" ->
    exists js raws, jobs m = Some js /\ Forall2 returned js raws /\ Permutation out (mkRes 0 0 origin :: concat raws).
  Proof.
    intros m out K H T I. destruct (C99_records m out K H) as (js & raws & outs & ts & J & TT & R & F & P). exists js, raws. split; [exact J|]. split; [exact R|].
    replace raws with outs; [exact P|]. assert (ts = None) as -> by tauto. clear -F I. induction F as [|a b raws outs (_ & B & _) F IH]; [reflexivity|]. f_equal; [|exact IH].
    apply B; [tauto|]. intros [N _]. now apply N.
  Qed.

  (** The origin comes first and the records follow in the order of time, when all have stamps of as many digits. *)
  Theorem C99_time_order : forall m out w, parse_single run tide correct_stamps str_float origin m = Some out ->
    (forall r, In r out -> r = mkRes 0 0 origin \/ (decimal_text (S w) (str_float (r_t r)) (r_t r) /\ inject_Z (10 ^ Z.of_nat w) <= r_t r))%Q ->
    decimal_text 1 (str_float 0%Q) 0 -> (forall a b, a == b -> str_float a = str_float b)%Q ->
    nondecreasing r_t out /\ nth_error out 0 = Some (mkRes 0 0 origin)%Q.
  Proof.
    intros m out w H D Z E. unfold parse_single in H. destruct (jobs m) as [js|]; [|discriminate]. destruct (tide_call m) as [tc|]; [|discriminate].
    set (o0 := mkRes 0%Q 0%Q origin) in *.
    destruct (match tc with None => _ | Some _ => _ end) as [ts|]; [|discriminate]. destruct (compile_all run correct_stamps (is_biocam m) ts js) as [records|]; [|discriminate].
    destruct (interlacer _ _) as [o|] eqn:I; [|discriminate]. injection H as <-.
    destruct (interlaced _ _ I) as [P O].
    assert (forall r, In r (map (fun r : rec => (r_t r, r)) (o0 :: records)) -> (decimal_text (S w) (str_float (fst r)) (fst r) /\ (inject_Z (10 ^ Z.of_nat w) <= fst r)%Q) \/ (decimal_text 1 (str_float (fst r)) (fst r) /\ (fst r == 0)%Q)) as DD.
    { intros r R. apply in_map_iff in R. destruct R as (x & <- & R). cbn [fst]. destruct (D x) as [->|K]; [exact (Permutation_in _ (Permutation_sym P) R)|right|now left]. split; [exact Z|reflexivity]. }
    destruct (C14_with_origin str_float (map (fun r : rec => (r_t r, r)) (o0 :: records)) w) as (out & E1 & places & PP & M & S); [discriminate|exact DD|intros r s _ _ X; now apply E|].
    assert (out = o) as -> by (pose proof (eq_trans (eq_sym I) E1) as X; now injection X). set (data := map (fun r : rec => (r_t r, r)) (o0 :: records)) in *.
    assert (forall a x, nth_error (map snd o) a = Some x -> exists i, nth_error places a = Some i /\ nth_error data i = Some (r_t x, x)) as G.
    { intros a x N. rewrite nth_error_map in N. destruct (nth_error o a) as [p|] eqn:Na; [|discriminate]. injection N as <-.
      pose proof (O p (nth_error_In _ _ Na)) as Ep. assert (nth_error (map (nth_error data) places) a = Some (Some p)) as X by (rewrite M, nth_error_map, Na; reflexivity).
      rewrite nth_error_map in X. destruct (nth_error places a) as [i|]; [|discriminate]. exists i. split; [reflexivity|]. rewrite <- Ep. now injection X. }
    split.
    - intros a b x y L A B. destruct (G _ _ A) as (i & Pi & Di). destruct (G _ _ B) as (j & Pj & Dj).
      destruct (S a b i j _ _ L Pi Pj Di Dj) as [K|[K _]]; cbn [fst] in K; lra.
    - destruct (map snd o) as [|x rest] eqn:MS; [apply Permutation_nil in P; discriminate|]. cbn [nth_error]. f_equal.
      destruct (G 0%nat x eq_refl) as (i & Pi & Di). destruct i as [|i]; [unfold data in Di; cbn in Di; now injection Di|]. exfalso.
      (* the origin, place 0 of the data, comes later *)
      assert (In 0%nat places) as I0 by (apply (Permutation_in _ (Permutation_sym PP)), in_seq; unfold data; cbn; lia).
      apply In_nth_error in I0. destruct I0 as [b Pb]. destruct b as [|b]; [congruence|].
      destruct (S 0%nat (Datatypes.S b) (Datatypes.S i) 0%nat _ (0%Q, o0) ltac:(lia) Pi Pb Di eq_refl) as [K|[_ K]]; [|lia]. cbn [fst] in K.
      destruct (D x) as [->|[_ K2]]; [now left|cbn in K; lra|]. assert (0 < inject_Z (10 ^ Z.of_nat w))%Q by (unfold Qlt; cbn; pose proof (Z.pow_pos_nonneg 10 (Z.of_nat w)); lia). lra.
  Qed.

  (** Nothing is written when a configured section has a format that is not in the list for its section. *)
  Theorem C99_unsupported : forall m s f, format_of m s = Some f -> choose (table s) f = None -> parse_single run tide correct_stamps str_float origin m = None.
  Proof.
    intros m s f F N. unfold parse_single. assert (jobs m = None) as ->; [|reflexivity]. unfold jobs. assert (In s sections) as I by (destruct s; cbn; tauto).
    revert I. generalize sections. induction l as [|t l IH]; intros []; cbn [jobs_of].
    - subst t. rewrite F, N. reflexivity.
    - rewrite (IH H). destruct (format_of m t) as [g|]; [|reflexivity]. now destruct (choose (table t) g).
  Qed.
End File.
Print Assumptions C99_records.
Print Assumptions C99_unchanged.
Print Assumptions C99_time_order.
Print Assumptions C99_unsupported.

(** The sensors of the mission files that come with the program (default_yaml): ae2000, alr, as6, ntnu_rov, rosbag, smarty200, ts1. *)
Definition formats (image usbl velocity orientation depth altitude tide : string) : mission :=
  let o s := if String.eqb s "" then None else Some s in mkmission (o image) (o usbl) (o velocity) (o orientation) (o depth) (o altitude) (o tide).
Example C99_shipped : map (fun m => match jobs m, tide_call m with Some js, Some _ => Some (map (fun j => fst (snd j)) js) | _, _ => None end)
  [formats "seaxerocks_3" "gaps" "ae2000" "ae2000" "ae2000" "ae2000" ""; formats "biocam" "" "alr" "alr" "alr" "alr" "NOC_CTI";
   formats "biocam" "NOC_nmea" "autosub" "autosub" "autosub" "autosub" "NOC_polpred"; formats "ntnu_stereo" "eiva_navipac" "ntnu_dvl" "eiva_navipac" "eiva_navipac" "ntnu_dvl" "";
   formats "rosbag" "rosbag" "rosbag" "rosbag" "rosbag" "rosbag" ""; formats "voyis" "sonardyne_gga" "rosbag" "rosbag" "rosbag" "rosbag" ""; formats "acfr_standard" "gaps" "phins" "phins" "phins" "phins" ""] =
  [Some ["parse_seaxerocks_images"; "parse_gaps"; "parse_ae2000"; "parse_ae2000"; "parse_ae2000"; "parse_ae2000"]; Some ["parse_biocam_images"; "parse_alr"; "parse_alr"; "parse_alr"; "parse_alr"];
   Some ["parse_biocam_images"; "parse_NOC_nmea"; "parse_autosub"; "parse_autosub"; "parse_autosub"; "parse_autosub"];
   Some ["parse_ntnu_stereo_images"; "parse_eiva_navipac"; "parse_ntnu_dvl"; "parse_eiva_navipac"; "parse_eiva_navipac"; "parse_ntnu_dvl"];
   Some ["parse_rosbag"; "parse_rosbag"; "parse_rosbag"; "parse_rosbag"; "parse_rosbag"; "parse_rosbag"]; Some ["parse_voyis_images"; "parse_sonardyne_gga"; "parse_rosbag"; "parse_rosbag"; "parse_rosbag"; "parse_rosbag"];
   Some ["parse_acfr_images"; "parse_gaps"; "parse_phins"; "parse_phins"; "parse_phins"; "parse_phins"]].
Proof. vm_compute. reflexivity. Qed.
(** Velocities at 12 and 14, depths of 100 at 11 and 13; the tide rises by 1 between 10, 20 and 30. *)
Example C99_example :
  let text q := if Qeq_bool q 0 then [48; 46; 48]%N else ([49; 48 + Z.to_N (Qnum (Qred q) - 10)%Z; 46; 48])%N in
  let run s (c : call) := match s with Velocity => Some [Some (mkRes 14 0 ("velocity", 1%nat)); Some (mkRes 12 0 ("velocity", 2%nat))]
    | Depth => Some [Some (mkRes 11 100 ("depth", 3%nat)); Some (mkRes 13 100 ("depth", 4%nat))] | _ => None end in
  match parse_single run (fun _ => Some [(10, 0); (20, 1); (30, 2)]%Q) (fun l => Some l) text ("origin", 0%nat) (formats "" "" "rdi" "" "phins" "" "NOC_CTI") with
  | Some out => map (fun r => (r_t r, Qred (r_depth r), snd (r_rest r))) out = [(0, 0, 0%nat); (11, 999 # 10, 3%nat); (12, 0, 2%nat); (13, 997 # 10, 4%nat); (14, 0, 1%nat)]%Q
  | None => False
  end /\ parse_single run (fun _ => Some []) (fun l => Some l) text ("origin", 0%nat) (formats "" "" "gaps" "" "phins" "" "") = None.
Proof. vm_compute. split; reflexivity. Qed.

(** ** C200: only the format "biocam" has its timestamps corrected, though "biocam4000_15c" is read by the same parser. *)
Theorem C200_biocam_refuted : exists (run : section -> call -> option (list (option (result (string * nat))))) tide correct_stamps text origin m m' js out out',
  m_image m = Some "biocam" /\ m_image m' = Some "biocam4000_15c" /\ jobs m = Some js /\ jobs m' = Some js /\
  keeps_records correct_stamps /\
  parse_single run tide correct_stamps text origin m = Some out /\ parse_single run tide correct_stamps text origin m' = Some out' /\ map r_t out <> map r_t out'.
Proof.
  exists (fun _ _ => Some [Some (mkRes 12 0 ("image", 1%nat))]), (fun _ => None), (fun l => Some (map (fun r => mkRes 11 (r_depth r) (r_rest r)) l)),
    (fun q => if Qeq_bool q 0 then [48; 46; 48]%N else [49; 48 + Z.to_N (Qnum (Qred q) - 10)%Z; 46; 48]%N), ("origin", 0%nat), (formats "biocam" "" "" "" "" "" ""), (formats "biocam4000_15c" "" "" "" "" "" "").
  do 3 eexists. split; [reflexivity|]. split; [reflexivity|]. split; [vm_compute; reflexivity|]. split; [vm_compute; reflexivity|]. split.
  { intros rs rs' H. injection H as <-. induction rs; constructor; [reflexivity|assumption]. }
  split; [vm_compute; reflexivity|]. split; [vm_compute; reflexivity|]. vm_compute. discriminate.
Qed.
Print Assumptions C200_biocam_refuted.
