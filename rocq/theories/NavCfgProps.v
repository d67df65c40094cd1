(** Properties C241, C242: the settings of auv_nav process and the files that it writes for them. *)
From Coq Require Import Ascii String.
From Verif Require Import PyBase MissionModel LoadCfgModel LoadCfgProps DefaultsModel NavCfgModel.
Open Scope string_scope.
Open Scope list_scope.
Open Scope Q_scope.

(** ** What is read from auv_nav.yaml *)
(** The value at a path of keys. *)
Fixpoint at_path (p : list string) (y : yaml) : option yaml :=
  match p, y with [], _ => Some y | k :: p, YMap n => match get k n with Some v => at_path p v | None => None end | _, _ => None end.
(** [v] is at the path, or the section (the first key) is missing and [v] is [d]. *)
Definition or_default (y : yaml) (p : list string) (d v : yaml) : Prop :=
  at_path p y = Some v \/ (at_path p y = None /\ v = d).

Theorem C241_sections : forall fl y s, settings_load fl y = Ok s ->
  (forall u, s_usbl s = Some u -> at_path ["usbl_filter"; "activate"] y = Some (u_activate u) /\
     at_path ["usbl_filter"; "max_auv_speed"] y = Some (u_speed u) /\ at_path ["usbl_filter"; "sigma_factor"] y = Some (u_sigma u)) /\
  (forall p, s_particles s = Some p -> at_path ["particle_filter"; "activate"] y = Some (p_activate p) /\
     at_path ["particle_filter"; "dvl_noise_sigma_factor"] y = Some (p_dvl p) /\ at_path ["particle_filter"; "imu_noise_sigma_factor"] y = Some (p_imu p) /\
     at_path ["particle_filter"; "usbl_noise_sigma_factor"] y = Some (p_usbl p) /\ at_path ["particle_filter"; "particles_number"] y = Some (p_number p) /\
     at_path ["particle_filter"; "particles_plot_time_interval"] y = Some (p_interval p)) /\
  (forall a h, s_plot s = Some (a, h) -> at_path ["plot_output"; "activate"] y = Some a /\ at_path ["plot_output"; "html_plot"] y = Some h) /\
  (s_usbl s = None <-> at_path ["usbl_filter"] y = None) /\ (s_particles s = None <-> at_path ["particle_filter"] y = None) /\
  (s_csv s = None <-> at_path ["csv_output"] y = None) /\ (s_spp s = None <-> at_path ["spp_output"] y = None) /\
  (s_plot s = None <-> at_path ["plot_output"] y = None).
Proof.
  intros fl y s H. unfold settings_load in H. apply then_ok in H. destruct H as (n & Ey & H). apply mapping_ok in Ey. subst y.
  apply then_ok in H. destruct H as (u & Eu & H). apply optional_ok in Eu. apply then_ok in H. destruct H as (p & Ep & H). apply optional_ok in Ep.
  apply then_ok in H. destruct H as (sd & Esd & H). apply then_ok in H. destruct H as (e & Ee & H).
  apply then_ok in H. destruct H as (c & Ec & H). apply optional_ok in Ec. apply then_ok in H. destruct H as (x & Ex & H). apply optional_ok in Ex.
  apply then_ok in H. destruct H as (t & Et & H). apply optional_ok in Et. injection H as <-. cbn [s_usbl s_particles s_csv s_spp s_plot at_path].
  assert (N : forall {A} k (r : option A) (f : yaml -> res A),
            match r with None => get k n = None | Some a => exists z, get k n = Some z /\ f z = Ok a end ->
            (r = None <-> match get k n with Some v => Some v | None => None end = None)).
  { intros A k r f K. destruct r as [a|]; [destruct K as (z & -> & _)|rewrite K]; split; congruence. }
  split; [|split; [|split; [|repeat (split; [eapply N; eassumption|]); eapply N; eassumption]]].
  - intros u0 ->. destruct Eu as (z & -> & K). unfold usbl_load in K. steps K. subst. injection K as <-. cbn [u_activate u_speed u_sigma]. rewrite E0, E1, E2. now repeat split.
  - intros p0 ->. destruct Ep as (z & -> & K). unfold particles_load in K. steps K. subst. injection K as <-. cbn [p_activate p_dvl p_imu p_usbl p_number p_interval].
    rewrite E0, E1, E2, E3, E4, E5. now repeat split.
  - intros a h ->. destruct Et as (z & -> & K). unfold plot_load in K. steps K. subst. injection K as <- <-. rewrite E0, E1. now split.
Qed.
Print Assumptions C241_sections.

(** The flags of one kind of solution are those of the file; a flag for the payloads that is missing is True. *)
Definition flags_at (y : yaml) (k : string) (dvl : bool) (g : flags) : Prop :=
  at_path ["csv_output"; k; "auv_centre"] y = Some (f_centre g) /\ (dvl = true -> at_path ["csv_output"; k; "auv_dvl"] y = Some (f_dvl g)) /\
  at_path ["csv_output"; k; "camera_1"] y = Some (f_camera1 g) /\ at_path ["csv_output"; k; "camera_2"] y = Some (f_camera2 g) /\
  at_path ["csv_output"; k; "camera_3"] y = Some (f_camera3 g) /\ or_default y ["csv_output"; k; "payload"] (YBool true) (f_payload g).
Theorem C241_flags : forall fl y s c, settings_load fl y = Ok s -> s_csv s = Some c ->
  at_path ["csv_output"; "activate"] y = Some (csv_activate c) /\ at_path ["csv_output"; "usbl"] y = Some (csv_usbl c) /\
  flags_at y "dead_reckoning" true (csv_dr c) /\ flags_at y "particle_filter" true (csv_pf c) /\ flags_at y "ekf" false (csv_ekf c).
Proof.
  intros fl y s c H. unfold settings_load in H. apply then_ok in H. destruct H as (n & Ey & H). apply mapping_ok in Ey. subst y.
  do 4 (apply then_ok in H; destruct H as (? & _ & H)).
  apply then_ok in H. destruct H as (c0 & Ec & H). apply optional_ok in Ec. do 2 (apply then_ok in H; destruct H as (? & _ & H)). injection H as <-.
  cbn [s_csv]. intros ->. destruct Ec as (z & G & K). unfold csv_load in K. apply then_ok in K. destruct K as (d & Ed & K). apply mapping_ok in Ed. subst z.
  do 2 (let v := fresh "v" in let E := fresh "E" in apply then_ok in K; destruct K as (v & E & K); apply item_ok in E).
  apply then_ok in K. destruct K as (dr & Edr & K). apply then_ok in K. destruct K as (pf & Epf & K). apply then_ok in K. destruct K as (ek & Eek & K). injection K as <-.
  cbn [csv_activate csv_usbl csv_dr csv_pf csv_ekf].
  assert (X : forall b k g, flags_load b k d = Ok g -> flags_at (YMap n) k b g).
  { intros b k g L. unfold flags_load in L. apply then_ok in L. destruct L as (m0 & Em0 & L). apply item_ok in Em0. apply then_ok in L. destruct L as (m & Em & L). apply mapping_ok in Em. subst m0.
    apply then_ok in L. destruct L as (q1 & Q1 & L). apply item_ok in Q1. apply then_ok in L. destruct L as (q2 & Q2 & L).
    apply then_ok in L. destruct L as (q3 & Q3 & L). apply item_ok in Q3. apply then_ok in L. destruct L as (q4 & Q4 & L). apply item_ok in Q4.
    apply then_ok in L. destruct L as (q5 & Q5 & L). apply item_ok in Q5. injection L as <-.
    unfold flags_at, or_default. cbn [at_path f_centre f_dvl f_camera1 f_camera2 f_camera3 f_payload]. rewrite G, Em0.
    rewrite Q1, Q3, Q4, Q5. split; [reflexivity|]. split; [intros ->; apply item_ok in Q2; now rewrite Q2|]. split; [reflexivity|]. split; [reflexivity|]. split; [reflexivity|].
    unfold get_or. destruct (get "payload" m); [left|right]; now try split. }
  split; [cbn [at_path]; now rewrite G, E|]. split; [cbn [at_path]; now rewrite G, E0|]. split; [now apply X|]. split; now apply X.
Qed.
Print Assumptions C241_flags.

(** The model of the uncertainty of a sensor is that under its name, or else under its older name; without a model, "sensor". *)
Definition old_name (k : string) : string := if String.eqb k "position_xy" then "usbl" else if String.eqb k "position_z" then "depth" else "dvl".
Lemma get_cons : forall k k' v n, get k ((k', v) :: n) = if String.eqb k k' then Some v else get k n.
Proof. reflexivity. Qed.
Lemma alias_ok : forall k o n m, alias k o n = Ok m -> (forall j, j <> k -> get j m = get j n) /\
  ((get k n <> None /\ get k m = get k n) \/ (get k n = None /\ get k m = get o n /\ get o n <> None)).
Proof.
  intros k o n m H. unfold alias in H. destruct (has_key k n) eqn:K.
  - injection H as <-. split; [reflexivity|]. left. apply has_key_iff in K. now split.
  - apply then_ok in H. destruct H as (v & E & H). apply item_ok in E. injection H as <-. split.
    + intros j J. rewrite get_cons. now apply String.eqb_neq in J as ->.
    + right. split; [unfold has_key in K; now destruct (get k n)|]. rewrite get_cons, String.eqb_refl, E. now split.
Qed.
Definition with_model (v : option yaml) (w : node) : Prop :=
  match v with
  | None => w = [("model", YStr "sensor")]
  | Some (YMap m) => (forall j, j <> "model" -> get j w = get j m) /\ get "model" w = match get "model" m with Some x => Some x | None => Some (YStr "sensor") end
  | Some _ => False
  end.
Lemma modelled_ok : forall k n m, modelled k n = Ok m -> (forall j, j <> k -> get j m = get j n) /\
  exists w, get k m = Some (YMap w) /\ with_model (get k n) w.
Proof.
  intros k n m H. unfold modelled in H. unfold with_model. destruct (get k n) as [[| | | | |w]|] eqn:G; try discriminate.
  - destruct (has_key "model" w) eqn:M; injection H as <-.
    + split; [reflexivity|]. exists w. split; [exact G|]. split; [reflexivity|]. apply has_key_iff in M. now destruct (get "model" w).
    + split; [intros j J; rewrite get_cons; now apply String.eqb_neq in J as ->|]. exists (("model", YStr "sensor") :: w). rewrite get_cons, String.eqb_refl. split; [reflexivity|].
      split; [intros j J; rewrite get_cons; now apply String.eqb_neq in J as ->|]. unfold has_key in M. rewrite get_cons. cbn. now destruct (get "model" w).
  - injection H as <-. split; [intros j J; rewrite get_cons; now apply String.eqb_neq in J as ->|]. exists [("model", YStr "sensor")]. rewrite get_cons, String.eqb_refl. now split.
Qed.
Theorem C241_std : forall fl y s, settings_load fl y = Ok s ->
  (forall k, In k ["position_xy"; "position_z"; "speed"] -> exists w, get k (s_std s) = Some (YMap w) /\
     match at_path ["std"] y with
     | None => w = [("model", YStr "sensor")]
     | Some _ => with_model (match at_path ["std"; k] y with Some v => Some v | None => at_path ["std"; old_name k] y end) w /\
                 (at_path ["std"; k] y <> None \/ at_path ["std"; old_name k] y <> None)
     end) /\
  exists w, get "orientation" (s_std s) = Some (YMap w) /\ with_model (at_path ["std"; "orientation"] y) w.
Proof.
  intros fl y s H. unfold settings_load in H. apply then_ok in H. destruct H as (n & Ey & H). apply mapping_ok in Ey. subst y.
  do 2 (apply then_ok in H; destruct H as (? & _ & H)). apply then_ok in H. destruct H as (sd & Es & H).
  do 4 (apply then_ok in H; destruct H as (? & _ & H)). injection H as <-. cbn [s_std].
  unfold std_load in Es. apply then_ok in Es. destruct Es as (n0 & E0 & Es).
  apply then_ok in Es. destruct Es as (n1 & E1 & Es). apply then_ok in Es. destruct Es as (n2 & E2 & Es). apply then_ok in Es. destruct Es as (n3 & E3 & Es).
  apply modelled_ok in E1, E2, E3, Es. destruct E1 as [F1 (w1 & G1 & W1)], E2 as [F2 (w2 & G2 & W2)], E3 as [F3 (w3 & G3 & W3)], Es as [F4 (w4 & G4 & W4)].
  rewrite F3, F2, F1 in W4 by discriminate. rewrite F2, F1 in W3 by discriminate. rewrite F1 in W2 by discriminate.
  assert (Z1 : get "position_xy" sd = Some (YMap w1)) by now rewrite F4, F3, F2 by discriminate.
  assert (Z2 : get "speed" sd = Some (YMap w2)) by now rewrite F4, F3 by discriminate.
  assert (Z3 : get "position_z" sd = Some (YMap w3)) by now rewrite F4 by discriminate.
  destruct (get "std" n) as [z|] eqn:G.
  - apply then_ok in E0. destruct E0 as (m & Em & E0). apply mapping_ok in Em. subst z.
    apply then_ok in E0. destruct E0 as (m1 & A1 & E0). apply then_ok in E0. destruct E0 as (m2 & A2 & E0).
    apply alias_ok in A1, A2, E0. destruct A1 as [H1 K1], A2 as [H2 K2], E0 as [H3 K3].
    rewrite !H3, !H2 in * by discriminate. rewrite !H1 in * by discriminate.
    split.
    + intros k I. cbn [at_path]. rewrite G.
      assert (T : forall (o : option yaml), match o with Some v => Some v | None => None end = o) by now intros [].
      destruct I as [<-|[<-|[<-|[]]]]; cbn [old_name String.eqb Ascii.eqb Bool.eqb andb]; [exists w1|exists w3|exists w2]; (split; [assumption|]); cbn [at_path]; rewrite !T.
      * destruct K1 as [[K K']|(K & K' & K'')]; rewrite K' in W1; [destruct (get "position_xy" m); [split; [exact W1|now left]|congruence]|rewrite K; split; [exact W1|now right]].
      * destruct K2 as [[K K']|(K & K' & K'')]; rewrite K' in W3; [destruct (get "position_z" m); [split; [exact W3|now left]|congruence]|rewrite K; split; [exact W3|now right]].
      * destruct K3 as [[K K']|(K & K' & K'')]; rewrite K' in W2; [destruct (get "speed" m); [split; [exact W2|now left]|congruence]|rewrite K; split; [exact W2|now right]].
    + exists w4. split; [assumption|]. cbn [at_path]. rewrite G. now destruct (get "orientation" m).
  - injection E0 as <-. cbn [get with_model] in W1, W2, W3, W4. split.
    + intros k I. cbn [at_path]. rewrite G. destruct I as [<-|[<-|[<-|[]]]]; [exists w1|exists w3|exists w2]; now split.
    + exists w4. split; [assumption|]. cbn [at_path]. rewrite G. exact W4.
Qed.
Print Assumptions C241_std.

Theorem C241_ekf : forall fl y s, settings_load fl y = Ok s ->
  (at_path ["ekf"] y = None /\ ekf_activate (s_ekf s) = YBool false /\ noise (s_ekf s) = None \/
   at_path ["ekf"; "activate"] y = Some (ekf_activate (s_ekf s)) /\ noise (s_ekf s) <> None) /\
  or_default y ["ekf"; "activate_smoother"] (YBool true) (smoother (s_ekf s)) /\
  or_default y ["ekf"; "mahalanobis_distance_threshold"] (YNum 3) (threshold (s_ekf s)).
Proof.
  intros fl y s H. unfold settings_load in H. apply then_ok in H. destruct H as (n & Ey & H). apply mapping_ok in Ey. subst y.
  do 3 (apply then_ok in H; destruct H as (? & _ & H)). apply then_ok in H. destruct H as (e & Ee & H).
  do 3 (apply then_ok in H; destruct H as (? & _ & H)). injection H as <-. cbn [s_ekf]. unfold or_default. cbn [at_path].
  unfold ekf_load in Ee. destruct (get "ekf" n) as [z|] eqn:G.
  - apply then_ok in Ee. destruct Ee as (m & Em & Ee). apply mapping_ok in Em. subst z. apply then_ok in Ee. destruct Ee as (a & Ea & Ee). apply item_ok in Ea.
    do 2 (apply then_ok in Ee; destruct Ee as (? & _ & Ee)). apply then_ok in Ee. destruct Ee as (c & _ & Ee). injection Ee as <-. cbn [ekf_activate smoother threshold noise at_path].
    rewrite Ea. split; [right; now split|]. unfold get_or. split; [destruct (get "activate_smoother" m)|destruct (get "mahalanobis_distance_threshold" m)]; (now left) || (right; now split).
  - injection Ee as <-. cbn [ekf_activate smoother threshold noise]. split; [left; now repeat split|]. split; right; now split.
Qed.
Print Assumptions C241_ekf.

(** SLAM++ output is on only together with the Kalman filter. *)
Theorem C241_spp : forall fl y s x, settings_load fl y = Ok s -> s_spp s = Some x ->
  at_path ["spp_output"; "ekf"; "camera_1"] y = Some (spp_1 x) /\ at_path ["spp_output"; "ekf"; "camera_2"] y = Some (spp_2 x) /\
  at_path ["spp_output"; "ekf"; "camera_3"] y = Some (spp_3 x) /\
  exists a, at_path ["spp_output"; "activate"] y = Some a /\ (truth (spp_activate x) = true <-> truth a = true /\ truth (ekf_activate (s_ekf s)) = true).
Proof.
  intros fl y s x H. unfold settings_load in H. apply then_ok in H. destruct H as (n & Ey & H). apply mapping_ok in Ey. subst y.
  do 3 (apply then_ok in H; destruct H as (? & _ & H)). apply then_ok in H. destruct H as (e & Ee & H). apply then_ok in H. destruct H as (c & _ & H).
  apply then_ok in H. destruct H as (x' & Ex & H). apply optional_ok in Ex. apply then_ok in H. destruct H as (? & _ & H). injection H as <-. cbn [s_spp s_ekf]. intros ->.
  destruct Ex as (z & G & K). unfold spp_load in K. apply then_ok in K. destruct K as (d & Ed & K). apply mapping_ok in Ed. subst z.
  apply then_ok in K. destruct K as (a & Ea & K). apply item_ok in Ea.
  assert (T : forall k v, item2 "ekf" k d = Ok v -> at_path ["spp_output"; "ekf"; k] (YMap n) = Some v).
  { intros k v L. unfold item2 in L. steps L. subst. apply item_ok in L. cbn [at_path]. now rewrite G, E, L. }
  apply then_ok in K. destruct K as (c1 & E1 & K). apply then_ok in K. destruct K as (c2 & E2 & K). apply then_ok in K. destruct K as (c3 & E3 & K). injection K as <-.
  cbn [spp_1 spp_2 spp_3 spp_activate]. split; [now apply T|]. split; [now apply T|]. split; [now apply T|]. exists a. cbn [at_path]. rewrite G, Ea. split; [reflexivity|].
  destruct (truth a) eqn:A; destruct (truth (ekf_activate e)); cbn [andb negb]; rewrite ?A; intuition discriminate.
Qed.
Print Assumptions C241_spp.

(** The matrices: the twelve by twelve corner of a square of twelve or of fifteen, row after row. *)
Definition means (fl : string -> option Q) (y : yaml) (q : Q) : Prop :=
  y = YNum q \/ (exists b, y = YBool b /\ q = if b then 1 else 0) \/ exists t, y = YStr t /\ fl t = Some q.
Inductive entries (fl : string -> option Q) : yaml -> list Q -> Prop :=
| entries_flat l q : Forall2 (means fl) l q -> entries fl (YSeq l) q
| entries_rows l rs q w : l = map YSeq rs -> Forall (fun r => length r = w) rs -> Forall2 (means fl) (concat rs) q -> entries fl (YSeq l) q.
Definition corner (w : nat) (q : list Q) (m : matrix) : Prop :=
  length m = 12%nat /\ Forall (fun r => length r = 12%nat) m /\ length q = (w * w)%nat /\
  forall i j, (i < 12)%nat -> (j < 12)%nat -> nth j (nth i m []) 0 = nth (w * i + j) q 0.
Lemma rows_ok : forall l rs, rows l = Some rs -> l = map YSeq rs.
Proof.
  induction l as [|y l IH]; intros rs H; cbn [rows] in H; [now injection H as <-|]. destruct y; try discriminate. cbn [row] in H.
  destruct (rows l) as [r|] eqn:E; [|discriminate]. injection H as <-. cbn [map]. now rewrite (IH r).
Qed.
Lemma cut_length : forall n w l, length (cut n w l) = n.
Proof. induction n; intros w l; cbn [cut length]; [reflexivity|now rewrite IHn]. Qed.
Lemma cut_nth : forall n w l i j, (i < n)%nat -> (j < w)%nat -> nth j (nth i (cut n w l) []) 0 = nth (w * i + j) l 0.
Proof.
  induction n as [|n IH]; intros w l i j I J; [lia|]. cbn [cut]. destruct i as [|i]; cbn [nth].
  - rewrite Nat.mul_0_r. cbn [Nat.add]. rewrite <- (firstn_skipn w l) at 2. destruct (Nat.ltb_spec j (length (firstn w l))) as [L|L].
    + now rewrite app_nth1.
    + rewrite (nth_overflow (firstn w l)) by lia. rewrite app_nth2 by lia. rewrite firstn_length in *.
      assert (length l <= j)%nat by lia. rewrite nth_overflow; [reflexivity|]. rewrite skipn_length. lia.
  - rewrite IH by lia. rewrite <- (firstn_skipn w l) at 2. destruct (Nat.leb_spec w (length l)) as [L|L].
    + rewrite app_nth2; rewrite firstn_length, Nat.min_l by lia; [f_equal; nia|nia].
    + rewrite skipn_all2 by lia. rewrite app_nil_r. rewrite (nth_overflow (firstn w l)); [now destruct (w * i + j)%nat|]. rewrite firstn_length. nia.
Qed.
Lemma cut_rows : forall n w l, (n * w <= length l)%nat -> Forall (fun r => length r = w) (cut n w l).
Proof.
  induction n as [|n IH]; intros w l H; cbn [cut]; constructor; [rewrite firstn_length; lia|]. apply IH. rewrite skipn_length. lia.
Qed.
Lemma scalars_mean : forall fl l q, each (scalar fl) l = Ok q -> Forall2 (means fl) l q.
Proof.
  intros fl l q H. apply each_ok in H. induction H as [|y x l q H _ IH]; constructor; [|exact IH]. unfold means.
  destruct y; cbn [scalar] in H; try discriminate; [left; congruence| |].
  - right. left. exists b. split; congruence.
  - right. right. exists s. split; [reflexivity|]. destruct (fl s); congruence.
Qed.
Lemma Forall2_len : forall {A B} (P : A -> B -> Prop) l r, Forall2 P l r -> length l = length r.
Proof. intros A B P l r H. induction H; cbn [length]; congruence. Qed.
Lemma reshape_ok : forall fl n y m, reshape fl n y = Ok m -> exists q, entries fl y q /\ length q = (n * n)%nat /\ m = cut n n q.
Proof.
  intros fl n y m H. unfold reshape in H. apply then_ok in H. destruct H as (l & El & H). destruct y; try discriminate. injection El as ->.
  apply then_ok in H. destruct H as (l' & El & H). destruct (Nat.eqb_spec (length l') (n * n)) as [L|]; [|discriminate].
  apply then_ok in H. destruct H as (q & Eq & H). injection H as <-. unfold numbers in Eq. destruct (existsb text l' && existsb boolean l'); [discriminate|].
  apply scalars_mean in Eq. pose proof (Forall2_len _ _ _ Eq) as Z. exists q. split; [|split; [congruence|reflexivity]].
  unfold flat in El. destruct l as [|[| | | |r|] l]; try (injection El as <-; now apply entries_flat).
  destruct (rows (YSeq r :: l)) as [rs|] eqn:R; [|discriminate]. destruct (forallb _ rs) eqn:F; [|discriminate]. injection El as <-.
  apply entries_rows with (rs := rs) (w := length r); [now apply rows_ok| |exact Eq]. rewrite forallb_forall in F. apply Forall_forall. intros x I. apply F in I. now apply Nat.eqb_eq in I.
Qed.
Lemma nth_firstn : forall {A} n i (l : list A) d, (i < n)%nat -> nth i (firstn n l) d = nth i l d.
Proof. induction n; intros i l d H; [lia|]. destruct l, i; cbn [firstn nth]; try reflexivity. apply IHn. lia. Qed.
(** Texts and truth values in one matrix: numpy makes texts of both, and "True" is no number. *)
Theorem C241_mixed : forall fl n l t b, In (YStr t) l -> In (YBool b) l -> (forall r, ~ In (YSeq r) l) -> reshape fl n (YSeq l) = Raised.
Proof.
  intros fl n l t b T B NR. assert (flat l = Ok l) as F by (destruct l as [|[| | | |r|] l]; try reflexivity; elim (NR r); now left).
  unfold reshape. change (match YSeq l with YSeq l => Ok l | _ => Raised end) with (Ok l). cbv beta iota delta [then_]. rewrite F. destruct (length l =? n * n)%nat; [|reflexivity].
  unfold numbers. replace (existsb text l) with true by (symmetry; apply existsb_exists; eexists; split; [exact T|reflexivity]).
  replace (existsb boolean l) with true by (symmetry; apply existsb_exists; eexists; split; [exact B|reflexivity]). reflexivity.
Qed.
Print Assumptions C241_mixed.
Theorem C241_covariance : forall fl y s p i, settings_load fl y = Ok s -> noise (s_ekf s) = Some (p, i) ->
  exists w yp yi qp qi, (w = 12 \/ w = 15)%nat /\ at_path ["ekf"; "process_noise_covariance"] y = Some yp /\ at_path ["ekf"; "initial_estimate_covariance"] y = Some yi /\
    entries fl yp qp /\ entries fl yi qi /\ corner w qp p /\ corner w qi i.
Proof.
  intros fl y s p i H. unfold settings_load in H. apply then_ok in H. destruct H as (n & Ey & H). apply mapping_ok in Ey. subst y.
  do 3 (apply then_ok in H; destruct H as (? & _ & H)). apply then_ok in H. destruct H as (e & Ee & H).
  do 3 (apply then_ok in H; destruct H as (? & _ & H)). injection H as <-. cbn [s_ekf at_path]. intros N.
  unfold ekf_load in Ee. destruct (get "ekf" n) as [z|]; [|injection Ee as <-; discriminate].
  apply then_ok in Ee. destruct Ee as (m & Em & Ee). apply mapping_ok in Em. subst z. apply then_ok in Ee. destruct Ee as (a & _ & Ee).
  apply then_ok in Ee. destruct Ee as (yp & Ep & Ee). apply item_ok in Ep. apply then_ok in Ee. destruct Ee as (yi & Ei & Ee). apply item_ok in Ei.
  apply then_ok in Ee. destruct Ee as (c & Ec & Ee). injection Ee as <-. cbn [noise] in N. injection N as ->. cbn [at_path]. rewrite Ep, Ei.
  unfold covariances in Ec. apply then_ok in Ec. destruct Ec as (l & El & Ec). destruct (length l =? 144)%nat; cbn [negb] in Ec.
  - apply then_ok in Ec. destruct Ec as (p' & Rp & Ec). apply then_ok in Ec. destruct Ec as (i' & Ri & Ec). injection Ec as <- <-.
    apply reshape_ok in Rp, Ri. destruct Rp as (qp & Ap & Lp & ->), Ri as (qi & Ai & Li & ->). exists 12%nat, yp, yi, qp, qi.
    split; [now left|]. do 2 (split; [reflexivity|]). do 2 (split; [assumption|]).
    split; (split; [apply cut_length|split; [apply cut_rows; lia|split; [assumption|]]]); intros; now apply cut_nth.
  - apply then_ok in Ec. destruct Ec as (p' & Rp & Ec). apply then_ok in Ec. destruct Ec as (i' & Ri & Ec). injection Ec as <- <-.
    apply reshape_ok in Rp, Ri. destruct Rp as (qp & Ap & Lp & ->), Ri as (qi & Ai & Li & ->). exists 15%nat, yp, yi, qp, qi.
    split; [now right|]. do 2 (split; [reflexivity|]). do 2 (split; [assumption|]).
    assert (X : forall q, length q = (15 * 15)%nat -> corner 15 q (map (firstn 12) (firstn 12 (cut 15 15 q)))).
    { intros q L. split; [now rewrite map_length, firstn_length, cut_length|]. split.
      - apply Forall_forall. intros r I. apply in_map_iff in I. destruct I as (r' & <- & I).
        assert (K : Forall (fun r => length r = 15%nat) (cut 15 15 q)) by (apply cut_rows; lia). rewrite Forall_forall in K. rewrite firstn_length.
        rewrite <- (firstn_skipn 12 (cut 15 15 q)) in K. rewrite K by (apply in_or_app; now left). reflexivity.
      - split; [exact L|]. intros a' b A B. change (@nil Q) with (firstn 12 (@nil Q)). rewrite map_nth, nth_firstn by exact B. rewrite nth_firstn by exact A. apply cut_nth; lia. }
    split; now apply X.
Qed.
Print Assumptions C241_covariance.

(** The file that comes with the package is read, with the Kalman filter on, the particle filter off, and every output but SLAM++ on. *)
Definition decimal_float (t : string) : option Q := if String.eqb t "1e-9" then Some (1 # 1000000000) else None.
Theorem C241_shipped : exists s, settings_load decimal_float auv_nav_default = Ok s /\ truth (ekf_activate (s_ekf s)) = true /\
  (exists p, s_particles s = Some p /\ truth (p_activate p) = false) /\ (exists u, s_usbl s = Some u /\ truth (u_activate u) = true) /\
  (exists c, s_csv s = Some c /\ truth (csv_activate c) = true /\
     Forall (fun g => f_centre g = YBool true /\ f_camera1 g = YBool true /\ f_camera2 g = YBool true /\ f_camera3 g = YBool true /\ f_payload g = YBool true) [csv_dr c; csv_pf c; csv_ekf c]) /\
  (exists x, s_spp s = Some x /\ truth (spp_activate x) = false) /\ (exists h, s_plot s = Some (YBool true, h)) /\
  (exists p i, noise (s_ekf s) = Some (p, i) /\ forall a b, (a < 12)%nat -> (b < 12)%nat ->
     nth b (nth a i []) 0 == (if (a =? b)%nat then 1 # 1000000000 else 0) /\ (a <> b -> nth b (nth a p []) 0 == 0) /\ 0 < nth a (nth a p []) 0).
Proof.
  destruct (settings_load decimal_float auv_nav_default) as [s| |] eqn:E; [|vm_compute in E; discriminate|vm_compute in E; discriminate].
  exists s. split; [reflexivity|]. vm_compute in E. injection E as <-. cbn [s_ekf s_particles s_usbl s_csv s_spp s_plot].
  split; [reflexivity|]. split; [eexists; split; reflexivity|]. split; [eexists; split; reflexivity|]. split; [eexists; split; [reflexivity|split; [reflexivity|]]; repeat constructor|].
  split; [eexists; split; reflexivity|]. split; [eexists; reflexivity|]. eexists. eexists. split; [reflexivity|].
  intros a b A B.
  do 12 (destruct a as [|a]; [do 12 (destruct b as [|b]; [split; [reflexivity|split; [intros Z; first [reflexivity|now elim Z]|reflexivity]]|]); lia|]). lia.
Qed.
Print Assumptions C241_shipped.

(** ** The payloads *)
Lemma prefix_app : forall p a b, String.prefix p a = true -> String.prefix p (a ++ b) = true.
Proof.
  induction p as [|c p IH]; intros a b H; [now destruct (a ++ b)%string|]. destruct a as [|d a]; [discriminate|]. cbn in *. destruct (ascii_dec c d); [now apply IH|discriminate].
Qed.
Lemma contains_suffix : forall p a, contains p p = true -> contains p (a ++ p) = true.
Proof. intros p a H. induction a as [|c a IH]; [exact H|]. cbn. rewrite IH. apply Bool.orb_true_r. Qed.
Ltac chars := repeat (match goal with |- context[ascii_dec ?a ?b] => destruct (ascii_dec a b); try discriminate end); try reflexivity.
Lemma pf_pf : forall a, a <> "" -> String.prefix "_pf" (a ++ "_pf") = String.prefix "_pf" a.
Proof. intros a H. destruct a as [|x [|y [|z a]]]; [congruence| | |]; cbn; chars. now destruct (a ++ "_pf")%string, a. Qed.
Lemma ekf_ekf : forall a, a <> "" -> String.prefix "_ekf" (a ++ "_ekf") = String.prefix "_ekf" a.
Proof. intros a H. destruct a as [|x [|y [|z [|u a]]]]; [congruence| | | |]; cbn; chars. now destruct (a ++ "_ekf")%string, a. Qed.
Lemma ekf_pf : forall a, String.prefix "_ekf" (a ++ "_pf") = String.prefix "_ekf" a.
Proof. intros a. destruct a as [|x [|y [|z [|u a]]]]; cbn; chars. now destruct (a ++ "_pf")%string, a. Qed.
Lemma pf_ekf : forall a, String.prefix "_pf" (a ++ "_ekf") = String.prefix "_pf" a.
Proof. intros a. destruct a as [|x [|y [|z a]]]; cbn; chars. now destruct (a ++ "_ekf")%string, a. Qed.
Lemma contains_cons : forall p c s, contains p (String c s) = String.prefix p (String c s) || contains p s.
Proof. reflexivity. Qed.
Lemma no_ekf_pf : forall a, contains "_ekf" (a ++ "_pf") = contains "_ekf" a.
Proof. induction a as [|c a IH]; [reflexivity|]. change ((String c a ++ "_pf")%string) with (String c (a ++ "_pf")). rewrite !contains_cons, IH. f_equal. apply (ekf_pf (String c a)). Qed.
Lemma no_pf_ekf : forall a, contains "_pf" (a ++ "_ekf") = contains "_pf" a.
Proof. induction a as [|c a IH]; [reflexivity|]. change ((String c a ++ "_ekf")%string) with (String c (a ++ "_ekf")). rewrite !contains_cons, IH. f_equal. apply (pf_ekf (String c a)). Qed.
Lemma without_pf : forall a, contains "_pf" a = false -> without "_pf" 0 (a ++ "_pf") = a.
Proof.
  induction a as [|c a IH]; intros H; [reflexivity|]. rewrite contains_cons in H. apply Bool.orb_false_iff in H. destruct H as [H1 H2].
  pose proof (pf_pf (String c a)) as P. rewrite H1 in P. change ((String c a ++ "_pf")%string) with (String c (a ++ "_pf")) in *. cbn [without]. rewrite P by discriminate. now rewrite IH.
Qed.
Lemma without_ekf : forall a, contains "_ekf" a = false -> without "_ekf" 0 (a ++ "_ekf") = a.
Proof.
  induction a as [|c a IH]; intros H; [reflexivity|]. rewrite contains_cons in H. apply Bool.orb_false_iff in H. destruct H as [H1 H2].
  pose proof (ekf_ekf (String c a)) as P. rewrite H1 in P. change ((String c a ++ "_ekf")%string) with (String c (a ++ "_ekf")) in *. cbn [without]. rewrite P by discriminate. now rewrite IH.
Qed.
(** The name of a payload is plain: neither "_pf" nor "_ekf" is in it. *)
Definition without_text (t s : string) : Prop := forall a b, s <> (a ++ t ++ b)%string.
Lemma prefix_iff : forall p s, String.prefix p s = true <-> exists b, s = (p ++ b)%string.
Proof.
  induction p as [|c p IH]; intros s; [split; [intros _; now exists s|now destruct s]|]. destruct s as [|d s]; [split; [discriminate|intros (b & H); discriminate]|].
  cbn [String.prefix String.append]. destruct (ascii_dec c d) as [->|N]; [rewrite IH; split; intros (b & H); exists b; congruence|split; [discriminate|intros (b & H); congruence]].
Qed.
Lemma contains_iff : forall p s, contains p s = true <-> exists a b, s = (a ++ p ++ b)%string.
Proof.
  intros p s. split.
  - induction s as [|c s IH]; intros H.
    + cbn [contains] in H. rewrite Bool.orb_false_r in H. apply prefix_iff in H. destruct H as (b & H). exists "", b. exact H.
    + rewrite contains_cons in H. apply Bool.orb_true_iff in H. destruct H as [H|H].
      * apply prefix_iff in H. destruct H as (b & H). exists "", b. exact H.
      * destruct (IH H) as (a & b & ->). exists (String c a), b. reflexivity.
  - intros (a & b & ->). induction a as [|c a IH].
    + assert (P : String.prefix p (p ++ b) = true) by (apply prefix_iff; now exists b). cbn [String.append]. now destruct (p ++ b)%string; cbn [contains]; rewrite P.
    + cbn [String.append contains]. rewrite IH. apply Bool.orb_true_r.
Qed.
Lemma plain_iff : forall s, plain s = true <-> without_text "_pf" s /\ without_text "_ekf" s.
Proof.
  intros s. unfold plain, without_text. rewrite Bool.andb_true_iff, !Bool.negb_true_iff. split.
  - intros [A B]. split; intros a b ->; [assert (X : contains "_pf" (a ++ "_pf" ++ b) = true)|assert (X : contains "_ekf" (a ++ "_ekf" ++ b) = true)]; try congruence; apply contains_iff; now exists a, b.
  - intros [A B]. split; [destruct (contains "_pf" s) eqn:X|destruct (contains "_ekf" s) eqn:X]; try reflexivity; apply contains_iff in X; destruct X as (a & b & E); [now elim (A a b)|now elim (B a b)].
Qed.

Lemma value_in : forall k v d, value k d = Some v -> In (k, v) d.
Proof.
  induction d as [|[k' v'] d IH]; cbn [value]; [discriminate|]. destruct (String.eqb k k') eqn:E; [apply String.eqb_eq in E; subst; intros H; injection H as ->; now left|intros H; right; now apply IH].
Qed.
Lemma value_none : forall k d, value k d = None <-> ~ In k (map fst d).
Proof.
  induction d as [|[k' v'] d IH]; cbn [value map fst]; [split; [intros _ []|reflexivity]|]. destruct (String.eqb k k') eqn:E.
  - apply String.eqb_eq in E. subst. split; [discriminate|intros H; elim H; now left].
  - apply String.eqb_neq in E. rewrite IH. cbn [In]. split; [intros H [H'|H']; congruence|tauto].
Qed.
Lemma merged_apart : forall a b, (forall k, In k (map fst a) -> In k (map fst b) -> False) -> merged a b = a ++ b.
Proof.
  intros a b H. unfold merged. f_equal.
  - rewrite <- (map_id a) at 2. apply map_ext_in. intros [k v] I. cbn [fst snd]. assert (value k b = None) as ->; [|reflexivity]. apply value_none. intros J. apply (H k); [now apply (in_map fst) in I|exact J].
  - assert (G : forall l : dict, (forall k, In k (map fst l) -> In k (map fst b)) -> filter (fun e : string * string => match value (fst e) a with Some _ => false | None => true end) l = l); [|now apply G].
    induction l as [|[k v] l IH]; intros G; cbn [filter fst]; [reflexivity|]. assert (value k a = None) as ->; [apply value_none; intros I; apply (H k); [exact I|apply G; now left]|]. f_equal. apply IH. intros k' I. apply G. now right.
Qed.
Definition all_plain (names : list string) : Prop := forall p, In p names -> without_text "_pf" p /\ without_text "_ekf" p.
Lemma plain_parts : forall p, plain p = true -> contains "_pf" p = false /\ contains "_ekf" p = false.
Proof. intros p H. unfold plain in H. apply Bool.andb_true_iff in H. rewrite !Bool.negb_true_iff in H. exact H. Qed.
Lemma filter_plain : forall names, all_plain names -> filter (fun e : string * string => plain (fst e)) (map (fun s => (s, s)) names) = map (fun s => (s, s)) names.
Proof.
  induction names as [|p names IH]; intros H; cbn [map filter fst]; [reflexivity|]. assert (plain p = true) as -> by (apply plain_iff; apply H; now left). f_equal. apply IH. intros q I. apply H. now right.
Qed.
Lemma filter_pf : forall names, filter (fun e : string * string => plain (fst e)) (map (fun s => ((s ++ "_pf")%string, s)) names) = [].
Proof.
  induction names as [|p names IH]; cbn [map filter fst]; [reflexivity|]. unfold plain at 1. rewrite (contains_suffix "_pf" p) by reflexivity. exact IH.
Qed.
(** With plain names, every payload is there once, and once more for each filter that is on. *)
Theorem C241_payload_names : forall pf ekf names, all_plain names ->
  payload_dict pf ekf names = map (fun p => (p, p)) names ++ (if pf then map (fun p => ((p ++ "_pf")%string, p)) names else []) ++
                              (if ekf then map (fun p => ((p ++ "_ekf")%string, p)) names else []).
Proof.
  intros pf ekf names H. unfold payload_dict.
  assert (C : forall t, copies t (map (fun s => (s, s)) names) = map (fun p => ((p ++ t)%string, p)) names).
  { intros t. unfold copies. rewrite filter_plain by exact H. now rewrite map_map. }
  assert (K : forall (g : string -> string) p, In p (map fst (map (fun s => (g s, s)) names)) -> exists q, In q names /\ p = g q).
  { intros g p I. rewrite map_map in I. cbn [fst] in I. apply in_map_iff in I. destruct I as (q & <- & I). now exists q. }
  assert (P : forall p, In p names -> contains "_pf" p = false /\ contains "_ekf" p = false) by (intros p I; apply plain_parts, plain_iff, H, I).
  assert (E1 : (if pf then merged (map (fun s => (s, s)) names) (copies "_pf" (map (fun s => (s, s)) names)) else map (fun s => (s, s)) names) =
               map (fun p => (p, p)) names ++ (if pf then map (fun p => ((p ++ "_pf")%string, p)) names else [])).
  { destruct pf; [|now rewrite app_nil_r]. rewrite C. apply merged_apart. intros k I J. apply (K (fun s => s)) in I. apply (K (fun s => (s ++ "_pf")%string)) in J. destruct I as (q & Iq & ->), J as (r & Ir & J).
    apply P in Iq. rewrite J in Iq. rewrite (contains_suffix "_pf" r) in Iq by reflexivity. now destruct Iq. }
  rewrite E1. destruct ekf; [|now rewrite app_nil_r]. rewrite app_assoc.
  assert (E2 : copies "_ekf" (map (fun p => (p, p)) names ++ (if pf then map (fun p => ((p ++ "_pf")%string, p)) names else [])) = map (fun p => ((p ++ "_ekf")%string, p)) names).
  { unfold copies. rewrite filter_app, filter_plain by exact H. assert (filter (fun e => plain (fst e)) (if pf then map (fun p => ((p ++ "_pf")%string, p)) names else []) = []) as -> by (destruct pf; [apply filter_pf|reflexivity]).
    now rewrite app_nil_r, map_map. }
  rewrite E2. apply merged_apart. intros k I J. apply (K (fun s => (s ++ "_ekf")%string)) in J. destruct J as (r & Ir & ->). rewrite map_app in I. apply in_app_or in I. destruct I as [I|I].
  - apply (K (fun s => s)) in I. destruct I as (q & Iq & I). apply P in Iq. rewrite <- I, (contains_suffix "_ekf" r) in Iq by reflexivity. now destruct Iq.
  - destruct pf; [|destruct I]. apply (K (fun s => (s ++ "_pf")%string)) in I. destruct I as (q & Iq & I). apply P in Iq. destruct Iq as [_ Iq]. rewrite <- no_ekf_pf, <- I, (contains_suffix "_ekf" r) in Iq by reflexivity. discriminate.
Qed.
Print Assumptions C241_payload_names.

(** ** The files *)
Definition solution_on (s : settings) (e : estimate) : Prop :=
  match e with
  | Dr => True
  | Pf => exists p, s_particles s = Some p /\ truth (p_activate p) = true
  | Ekf => truth (ekf_activate (s_ekf s)) = true
  end.
Definition tag (e : estimate) : string := match e with Dr => "dr" | Pf => "pf" | Ekf => "ekf" end.
Definition flags_of (c : csv) (e : estimate) : flags := match e with Dr => csv_dr c | Pf => csv_pf c | Ekf => csv_ekf c end.
Definition track_length (f : found) (e : estimate) : nat := match e with Dr => n_dr f | Pf => n_pf f | Ekf => n_ekf f end.
(** There is a track of [e], of at least [n] points; the particle filter needs USBL measurements. *)
Definition has_track (s : settings) (f : found) (e : estimate) (n : nat) : Prop :=
  solution_on s e /\ (n <= track_length f e)%nat /\ (e = Pf -> (0 < n_usbl f)%nat).
(** The camera that the name of the laser files is taken from. *)
Definition laser_name (names : list string) (c : string) : Prop :=
  ((2 < length names)%nat /\ nth_error names 2 = Some c) \/ (length names = 2%nat /\ nth_error names 1 = Some c).
Definition key_of (e : estimate) (p : string) : string := match e with Dr => p | Pf => p ++ "_pf" | Ekf => p ++ "_ekf" end.
Definition camera_flag (i : nat) (g : flags) : yaml := match i with O => f_camera1 g | _ => f_camera2 g end.
Inductive due (s : settings) (f : found) (c : csv) : estimate -> string -> source -> Prop :=
| due_centre e : has_track s f e 2 -> f_centre (flags_of c e) = YBool true -> due s f c e ("auv_" ++ tag e ++ "_centre") Centre
| due_dvl e : e <> Ekf -> has_track s f e 2 -> f_dvl (flags_of c e) = YBool true -> due s f c e ("auv_" ++ tag e ++ "_dvl") Dvl
| due_image e i name : (i < 2)%nat -> solution_on s e -> nth_error (camera_names f) i = Some name -> camera_flag i (flags_of c e) = YBool true ->
    (2 <= n_camera f e i)%nat -> (i < n_camera f Dr i)%nat -> due s f c e ("auv_" ++ tag e ++ "_" ++ name) (Image i)
| due_laser e name : solution_on s e -> laser_name (camera_names f) name -> f_camera3 (flags_of c e) = YBool true ->
    (2 <= n_camera f e 2)%nat -> (2 <= n_camera f Dr 2)%nat -> due s f c e ("auv_" ++ tag e ++ "_" ++ name ++ "_laser") Laser
| due_at_dvl name : solution_on s Ekf -> laser_name (camera_names f) name -> f_camera3 (csv_ekf c) = YBool true ->
    (2 <= n_at_dvl f)%nat -> (2 <= n_camera f Dr 2)%nat -> due s f c Ekf ("auv_ekf_" ++ name ++ "_laser_at_dvl") LaserAtDvl
| due_payload e p : In p (payload_names f) -> solution_on s e -> f_payload (flags_of c e) = YBool true -> (2 <= n_payload f (key_of e p))%nat ->
    due s f c e (p ++ "_" ++ tag e) (OfPayload p).
Lemma started_ok : forall l js, started l = (js, true) -> forall j, In j js <-> In (Some j) l.
Proof.
  induction l as [|[x|] l IH]; intros js H j; cbn [started] in H.
  - injection H as <-. reflexivity.
  - destruct (started l) as [js' ok]. injection H as <- ->. cbn [In]. rewrite (IH js' eq_refl). split; (intros [E|E]; [left; congruence|now right]).
  - discriminate.
Qed.
Lemma run_jobs : forall s f, finished (run s f) = true -> forall j, In j (jobs (run s f)) <-> In (Some j) (all_jobs s f).
Proof.
  intros s f H. unfold run in *. destruct (s_usbl s), (s_plot s); try discriminate. match type of H with context[if ?b then _ else _] => destruct b; [|discriminate] end.
  destruct (started (all_jobs s f)) as [js ok] eqn:E. cbn [finished jobs] in *. subst ok. now apply started_ok.
Qed.
Lemma pf_on_iff : forall s, pf_on s = true <-> solution_on s Pf.
Proof. intros s. unfold pf_on, solution_on. destruct (s_particles s) as [p|]; [split; [intros H; now exists p|intros (q & E & H); congruence]|split; [discriminate|intros (q & E & _); discriminate]]. Qed.
Lemma in_if : forall {A} b (l : list A) x, In x (if_ b l) <-> b = true /\ In x l.
Proof. intros A [] l x; cbn; intuition discriminate. Qed.
Lemma app_nil_s : forall s : string, (s ++ "")%string = s.
Proof. induction s as [|c s IH]; [reflexivity|]. cbn. now rewrite IH. Qed.
Lemma is_true_iff : forall y, is_true y = true <-> y = YBool true.
Proof. intros [| |[]| | |]; cbn; intuition discriminate. Qed.
Lemma pf_length_iff : forall s f n, (0 < n)%nat -> (n <= pf_length s f)%nat <-> has_track s f Pf n.
Proof.
  intros s f n N. unfold pf_length, has_track. rewrite <- pf_on_iff. cbn [track_length]. destruct (pf_on s); cbn [andb]; [|split; [lia|intros [H _]; discriminate]].
  destruct (Nat.ltb_spec 0 (n_usbl f)); split; intros K; [now split|now destruct K as (_ & K & _)|lia|]. destruct K as (_ & _ & K). specialize (K eq_refl). lia.
Qed.
Lemma ekf_length_iff : forall s f n, (0 < n)%nat -> (n <= ekf_length s f)%nat <-> has_track s f Ekf n.
Proof.
  intros s f n N. unfold ekf_length, has_track, ekf_on. cbn [track_length solution_on]. destruct (truth _); split; intros H; [now repeat split|now destruct H as (_ & H & _)|lia|]. destruct H. discriminate.
Qed.
Lemma laser_iff : forall f name, laser_camera f = Some (Some name) <-> laser_name (camera_names f) name.
Proof.
  intros f name. unfold laser_camera, laser_name, camera. destruct (Nat.ltb_spec 2 (length (camera_names f))); [|destruct (Nat.eqb_spec (length (camera_names f)) 2)].
  - split; [intros K; left; split; congruence|intros [[_ K]|[K _]]; [now rewrite K|lia]].
  - split; [intros K; right; split; congruence|intros [[K _]|[_ K]]; [lia|now rewrite K]].
  - split; [discriminate|intros [[K _]|[K _]]; lia].
Qed.
Lemma in_payloads : forall s f, all_plain (payload_names f) -> forall k p, In (k, p) (payloads s f) <-> exists e, solution_on s e /\ In p (payload_names f) /\ k = key_of e p.
Proof.
  intros s f H k p. unfold payloads. rewrite C241_payload_names by exact H. rewrite !in_app_iff.
  assert (X : forall (g : string -> string), In (k, p) (map (fun q => (g q, q)) (payload_names f)) <-> In p (payload_names f) /\ k = g p).
  { intros g. rewrite in_map_iff. split; [intros (q & E & I); injection E as E1 E2; subst; now split|intros [I ->]; now exists p]. }
  split.
  - intros [I|[I|I]].
    + apply (X (fun q => q)) in I. exists Dr. now split.
    + destruct (pf_on s) eqn:P; [|destruct I]. apply (X (fun q => (q ++ "_pf")%string)) in I. exists Pf. split; [now apply pf_on_iff|exact I].
    + destruct (ekf_on s) eqn:P; [|destruct I]. apply (X (fun q => (q ++ "_ekf")%string)) in I. exists Ekf. split; [exact P|exact I].
  - intros ([] & O & I).
    + left. now apply (X (fun q => q)).
    + right. left. apply pf_on_iff in O. rewrite O. now apply (X (fun q => (q ++ "_pf")%string)).
    + right. right. unfold ekf_on. rewrite O. now apply (X (fun q => (q ++ "_ekf")%string)).
Qed.
Lemma payload_job_of : forall s f c e p, without_text "_pf" p /\ without_text "_ekf" p ->
  payload_job s f c (key_of e p, p) = mkjob Csv e (p ++ "_" ++ tag e) (OfPayload p) (n_payload f (key_of e p)) (f_payload (flags_of c e)) (payload_posed s f (key_of e p)).
Proof.
  intros s f c e p H. apply plain_iff in H. apply plain_parts in H. destruct H as [H1 H2]. unfold payload_job.
  destruct e; cbn [key_of tag flags_of].
  - now rewrite H1, H2.
  - now rewrite (contains_suffix "_pf" p) by reflexivity.
  - now rewrite no_pf_ekf, H1, (contains_suffix "_ekf" p) by reflexivity.
Qed.
Definition track_posed (s : settings) (f : found) (e : estimate) : bool := match e with Pf => (1 <? pf_length s f)%nat | _ => true end.
Lemma image_job_some : forall n k e p t w m fl b j, image_job n k e p t w m fl b = Some j <-> exists c, n = Some c /\ j = mkjob k e (p ++ c ++ t) w m fl b.
Proof.
  intros n k e p t w m fl b j. unfold image_job. destruct n as [c|]; split; intros H; try discriminate.
  - exists c. split; congruence.
  - destruct H as (c' & E & ->). now injection E as ->.
  - destruct H as (c' & E & _). discriminate.
Qed.
Lemma camera_jobs_in : forall s f c i fl j, In (Some j) (camera_jobs s f c i fl) <->
  exists e name, solution_on s e /\ nth_error (camera_names f) i = Some name /\
    j = mkjob Csv e ("auv_" ++ tag e ++ "_" ++ name) (Image i) (n_camera f e i) (fl (flags_of c e)) (track_posed s f e).
Proof.
  intros s f c i fl j. unfold camera_jobs. cbn [In]. rewrite in_app_iff, !in_if. cbn [In].
  rewrite !image_job_some. split.
  - intros [(n & E & ->)|[[P [(n & E & ->)|[]]]|[P [(n & E & ->)|[]]]]]; rewrite app_nil_s; [exists Dr|exists Pf|exists Ekf]; exists n; (split; [|now split]); [exact I|now apply pf_on_iff|exact P].
  - intros ([] & n & O & E & ->); [left|right; left; split; [now apply pf_on_iff|left]|right; right; split; [exact O|left]]; exists n; rewrite app_nil_s; now split.
Qed.
Lemma laser_jobs_in : forall s f c j, In (Some j) (laser_jobs s f c) <->
  exists name, laser_name (camera_names f) name /\
    ((exists e, solution_on s e /\ j = mkjob Csv e ("auv_" ++ tag e ++ "_" ++ name ++ "_laser") Laser (n_camera f e 2) (f_camera3 (flags_of c e))
                                        (match e with Dr => laser_stamped f | _ => track_posed s f e end)) \/
     solution_on s Ekf /\ j = mkjob Csv Ekf ("auv_ekf_" ++ name ++ "_laser_at_dvl") LaserAtDvl (n_at_dvl f) (f_camera3 (csv_ekf c)) true).
Proof.
  intros s f c j. unfold laser_jobs. destruct (laser_camera f) as [name|] eqn:L.
  - cbn [In]. rewrite in_app_iff, !in_if. cbn [In]. rewrite !image_job_some.
    assert (X : forall n, name = Some n <-> laser_name (camera_names f) n) by (intros n; rewrite <- laser_iff, L; split; congruence). setoid_rewrite X. split.
    + intros [(n & E & ->)|[[P [(n & E & ->)|[]]]|[P [(n & E & ->)|[(n & E & ->)|[]]]]]]; exists n; (split; [exact E|]); [left; exists Dr|left; exists Pf|left; exists Ekf|right]; (split; [|reflexivity]); [exact I|now apply pf_on_iff|exact P|exact P].
    + intros (n & E & [([] & O & ->)|[O ->]]); [left|right; left; split; [now apply pf_on_iff|left]|right; right; split; [exact O|left]|right; right; split; [exact O|right; left]]; exists n; now split.
  - split; [intros []|]. intros (n & E & _). apply laser_iff in E. congruence.
Qed.
Lemma csv_jobs_in : forall s f c j, In (Some j) (csv_jobs s f c) <->
  In j [mkjob Csv Dr "auv_dr_centre" Centre (n_dr f) (f_centre (csv_dr c)) true; mkjob Csv Dr "auv_dr_dvl" Dvl (n_dr f) (f_dvl (csv_dr c)) true;
        mkjob Csv Pf "auv_pf_centre" Centre (pf_length s f) (f_centre (csv_pf c)) true; mkjob Csv Pf "auv_pf_dvl" Dvl (pf_length s f) (f_dvl (csv_pf c)) true;
        mkjob Csv Ekf "auv_ekf_centre" Centre (ekf_length s f) (f_centre (csv_ekf c)) true] \/
  (exists e, In e (payloads s f) /\ j = payload_job s f c e) \/
  ((0 < n_camera f Dr 0)%nat /\ In (Some j) (camera_jobs s f c 0 f_camera1)) \/
  ((1 < n_camera f Dr 1)%nat /\ In (Some j) (camera_jobs s f c 1 f_camera2)) \/
  ((1 < n_camera f Dr 2)%nat /\ In (Some j) (laser_jobs s f c)) \/
  j = mkjob Sidescan Dr "auv_dr_centre_sss" Centre (n_dr f) (f_centre (csv_dr c)) true \/
  (pf_on s = true /\ j = mkjob Sidescan Pf "auv_pf_centre_sss" Centre (pf_length s f) (f_centre (csv_pf c)) true) \/
  (ekf_on s = true /\ j = mkjob Sidescan Ekf "auv_ekf_centre_sss" Centre (ekf_length s f) (f_centre (csv_ekf c)) true).
Proof.
  intros s f c j. unfold csv_jobs. rewrite !in_app_iff, !in_if, !Nat.ltb_lt. cbn [In]. rewrite in_map_iff.
  assert (S : forall x, Some x = Some j <-> x = j) by (intros x; split; [intros E; now injection E|now intros ->]).
  assert (T : forall x : job, x = j <-> j = x) by (intros x; split; congruence).
  assert (M : (exists x, Some (payload_job s f c x) = Some j /\ In x (payloads s f)) <-> exists e, In e (payloads s f) /\ j = payload_job s f c e).
  { split; intros (x & H); exists x; rewrite S, T in *; tauto. }
  rewrite M, !S, !(fun a b d e g h => T (mkjob Sidescan a b d e g h)). tauto.
Qed.
Lemma all_jobs_csv : forall s f c j, s_csv s = Some c -> truth (csv_activate c) = true ->
  (In (Some j) (all_jobs s f) <-> In (Some j) (csv_jobs s f c) \/ exists x, s_spp s = Some x /\ truth (spp_activate x) = true /\ ekf_on s = true /\ In (Some j) (spp_jobs f x)).
Proof.
  intros s f c j C A. unfold all_jobs. rewrite C, A. cbn [if_]. rewrite in_app_iff. destruct (s_spp s) as [x|]; [|split; [intros [H|[]]; now left|intros [H|(y & H & _)]; [now left|discriminate]]].
  rewrite in_if, Bool.andb_true_iff. split; (intros [H|H]; [now left|right]); [exists x; tauto|]. destruct H as (y & E & H). injection E as <-. tauto.
Qed.
Lemma spp_not_csv : forall f x j, In (Some j) (spp_jobs f x) -> j_kind j = Spp.
Proof.
  intros f x j H. unfold spp_jobs in H. cbn [In] in H. rewrite in_if, !image_job_some in H. destruct H as [(c & _ & ->)|[(c & _ & ->)|[_ H]]]; try reflexivity.
  destruct (laser_camera f); [|destruct H]. cbn [In] in H. rewrite image_job_some in H. destruct H as [(c & _ & ->)|[]]. reflexivity.
Qed.
(** Which csv files there are at the end: exactly those that are due. *)
Theorem C241_files : forall s f c, all_plain (payload_names f) -> s_csv s = Some c -> truth (csv_activate c) = true -> finished (run s f) = true ->
  forall e nm w, (exists j, In j (jobs (run s f)) /\ j_kind j = Csv /\ written j = true /\ folder j = e /\ file j = nm /\ what j = w) <-> due s f c e nm w.
Proof.
  intros s f c P C A F e nm w.
  assert (W : forall k e0 a b n g p, k = Csv -> written (mkjob k e0 a b n g p) = true <-> g = YBool true /\ (2 <= n)%nat).
  { intros k e0 a b n g p ->. unfold written. cbn [j_kind flag count]. rewrite Bool.andb_true_iff, is_true_iff, Nat.ltb_lt. reflexivity. }
  split.
  - intros (j & I & K & Wr & <- & <- & <-). apply (run_jobs s f F) in I. apply (all_jobs_csv s f c j C A) in I.
    destruct I as [I|(x & _ & _ & _ & I)]; [|apply spp_not_csv in I; congruence]. apply csv_jobs_in in I.
    destruct I as [I|[(e & I & ->)|[(L & I)|[(L & I)|[(L & I)|[->|[(_ & ->)|(_ & ->)]]]]]]]; try discriminate.
    + cbn [In] in I. destruct I as [<-|[<-|[<-|[<-|[<-|[]]]]]]; rewrite W in Wr by reflexivity; destruct Wr as [W1 W2]; cbn [folder file what].
      * apply (due_centre s f c Dr); [|exact W1]. split; [exact Coq.Init.Logic.I|split; [exact W2|discriminate]].
      * apply (due_dvl s f c Dr); [discriminate| |exact W1]. split; [exact Coq.Init.Logic.I|split; [exact W2|discriminate]].
      * apply pf_length_iff in W2; [|lia]. now apply (due_centre s f c Pf).
      * apply pf_length_iff in W2; [|lia]. now apply (due_dvl s f c Pf).
      * apply ekf_length_iff in W2; [|lia]. now apply (due_centre s f c Ekf).
    + destruct e as [k p]. apply in_payloads in I; [|exact P]. destruct I as (e & O & I & ->). rewrite payload_job_of in * by now apply P.
      rewrite W in Wr by reflexivity. destruct Wr as [W1 W2]. cbn [folder file what]. now apply due_payload.
    + apply camera_jobs_in in I. destruct I as (e & n & O & N & ->). rewrite W in Wr by reflexivity. destruct Wr as [W1 W2]. cbn [folder file what]. apply due_image; [lia|exact O|exact N|exact W1|exact W2|exact L].
    + apply camera_jobs_in in I. destruct I as (e & n & O & N & ->). rewrite W in Wr by reflexivity. destruct Wr as [W1 W2]. cbn [folder file what]. apply due_image; [lia|exact O|exact N|exact W1|exact W2|exact L].
    + apply laser_jobs_in in I. destruct I as (n & N & [(e & O & ->)|(O & ->)]); rewrite W in Wr by reflexivity; destruct Wr as [W1 W2]; cbn [folder file what]; [now apply due_laser|now apply due_at_dvl].
  - intros D.
    assert (G : forall j, In (Some j) (csv_jobs s f c) -> In j (jobs (run s f))) by (intros j I; apply (run_jobs s f F), (all_jobs_csv s f c j C A); now left).
    destruct D as [e (O & L & U) W1|e NE (O & L & U) W1|e i n I2 O N W1 W2 L|e n O N W1 W2 L|n O N W1 W2 L|e p I O W1 W2].
    + destruct e; eexists; (split; [apply G, csv_jobs_in; left; cbn [In]|]).
      * left. reflexivity. 
      * now repeat split; apply W.
      * right. right. left. reflexivity.
      * repeat split. apply W; [reflexivity|]. split; [exact W1|]. apply pf_length_iff; [lia|]. now repeat split.
      * right. right. right. right. left. reflexivity.
      * repeat split. apply W; [reflexivity|]. split; [exact W1|]. apply ekf_length_iff; [lia|]. now repeat split.
    + destruct e; [| |congruence]; eexists; (split; [apply G, csv_jobs_in; left; cbn [In]|]).
      * right. left. reflexivity. 
      * now repeat split; apply W.
      * right. right. right. left. reflexivity.
      * repeat split. apply W; [reflexivity|]. split; [exact W1|]. apply pf_length_iff; [lia|]. now repeat split.
    + destruct i as [|[|i]]; [| |lia]; eexists.
      * split; [apply G, csv_jobs_in; right; right; left; split; [exact L|apply camera_jobs_in; exists e, n; now repeat split]|]. now repeat split; apply W.
      * split; [apply G, csv_jobs_in; right; right; right; left; split; [exact L|apply camera_jobs_in; exists e, n; now repeat split]|]. now repeat split; apply W.
    + eexists. split; [apply G, csv_jobs_in; do 4 right; left; split; [exact L|apply laser_jobs_in; exists n; split; [exact N|left; exists e; split; [exact O|reflexivity]]]|]. now repeat split; apply W.
    + eexists. split; [apply G, csv_jobs_in; do 4 right; left; split; [exact L|apply laser_jobs_in; exists n; split; [exact N|right; split; [exact O|reflexivity]]]|]. now repeat split; apply W.
    + exists (payload_job s f c (key_of e p, p)). split; [apply G, csv_jobs_in; right; left; exists (key_of e p, p); split; [apply in_payloads; [exact P|exists e; now repeat split]|reflexivity]|].
      rewrite payload_job_of by now apply P. now repeat split; apply W.
Qed.
Print Assumptions C241_files.

(** The tracks for the sidescan: one per solution that is on, of at least one point, if the flag of the centre is set. *)
Theorem C241_sidescan : forall s f c, s_csv s = Some c -> truth (csv_activate c) = true -> finished (run s f) = true ->
  forall e nm, (exists j, In j (jobs (run s f)) /\ j_kind j = Sidescan /\ written j = true /\ folder j = e /\ file j = nm) <->
    has_track s f e 1 /\ truth (f_centre (flags_of c e)) = true /\ nm = ("auv_" ++ tag e ++ "_centre_sss")%string.
Proof.
  intros s f c C A F e nm.
  assert (W : forall e0 a b n g p, written (mkjob Sidescan e0 a b n g p) = true <-> truth g = true /\ (1 <= n)%nat).
  { intros e0 a b n g p. unfold written. cbn [j_kind flag count]. rewrite Bool.andb_true_iff, Nat.ltb_lt. reflexivity. }
  split.
  - intros (j & I & K & Wr & <- & <-). apply (run_jobs s f F) in I. apply (all_jobs_csv s f c j C A) in I.
    destruct I as [I|(x & _ & _ & _ & I)]; [|apply spp_not_csv in I; congruence]. apply csv_jobs_in in I.
    destruct I as [I|[(e & I & ->)|[(L & I)|[(L & I)|[(L & I)|[->|[(O & ->)|(O & ->)]]]]]]].
    + cbn [In] in I. destruct I as [<-|[<-|[<-|[<-|[<-|[]]]]]]; discriminate.
    + unfold payload_job in K. destruct e. destruct (contains "_pf" s0); [discriminate|]. destruct (contains "_ekf" s0); discriminate.
    + apply camera_jobs_in in I. destruct I as (e & n & _ & _ & ->). discriminate.
    + apply camera_jobs_in in I. destruct I as (e & n & _ & _ & ->). discriminate.
    + apply laser_jobs_in in I. destruct I as (n & _ & [(e & _ & ->)|(_ & ->)]); discriminate.
    + apply W in Wr. destruct Wr as [W1 W2]. split; [split; [exact I|split; [exact W2|discriminate]]|]. now split.
    + apply W in Wr. destruct Wr as [W1 W2]. apply pf_length_iff in W2; [|lia]. now split.
    + apply W in Wr. destruct Wr as [W1 W2]. apply ekf_length_iff in W2; [|lia]. now split.
  - intros (T & W1 & ->).
    assert (G : forall j, In (Some j) (csv_jobs s f c) -> In j (jobs (run s f))) by (intros j I; apply (run_jobs s f F), (all_jobs_csv s f c j C A); now left).
    destruct e; eexists; (split; [apply G, csv_jobs_in; do 5 right|]).
    + left. reflexivity.
    + cbn [j_kind folder file]. repeat split. apply W. split; [exact W1|]. apply T.
    + right. left. split; [apply pf_on_iff; apply T|reflexivity].
    + cbn [j_kind folder file]. repeat split. apply W. split; [exact W1|]. apply pf_length_iff; [lia|exact T].
    + right. right. split; [apply T|reflexivity].
    + cbn [j_kind folder file]. repeat split. apply W. split; [exact W1|]. apply ekf_length_iff; [lia|exact T].
Qed.
Print Assumptions C241_sidescan.

(** With an output switched off or not in the file, none of its files is there, whatever happens. *)
Lemma started_in : forall l j, In j (fst (started l)) -> In (Some j) l.
Proof. induction l as [|[x|] l IH]; intros j H; cbn [started] in H; [destruct H| |destruct H]. destruct (started l) as [js ok]. cbn [fst In] in *. destruct H as [->|H]; [now left|right; now apply IH]. Qed.
Lemma run_in : forall s f j, In j (jobs (run s f)) -> In (Some j) (all_jobs s f).
Proof.
  intros s f j H. unfold run in H. destruct (s_usbl s), (s_plot s); try now destruct H.
  match type of H with context[if ?b then _ else _] => destruct b; [|now destruct H] end. destruct (started (all_jobs s f)) as [js ok] eqn:E. cbn [jobs] in H. apply started_in. now rewrite E.
Qed.
Theorem C241_off : forall s f, match s_csv s with Some c => truth (csv_activate c) = false | None => True end ->
  usbl_file (run s f) = false /\ forall j, In j (jobs (run s f)) -> j_kind j = Spp.
Proof.
  intros s f H. split.
  - unfold run. destruct (s_usbl s), (s_plot s); try reflexivity. match goal with |- context[if ?b then _ else _] => destruct b; [|reflexivity] end.
    destruct (started _). cbn [usbl_file]. destruct (s_csv s); [now rewrite H|reflexivity].
  - intros j I. apply run_in in I. unfold all_jobs in I. apply in_app_or in I. destruct I as [I|I].
    + destruct (s_csv s); [rewrite H in I|]; destruct I.
    + destruct (s_spp s); [|destruct I]. apply in_if in I. destruct I as [_ I]. now apply spp_not_csv in I.
Qed.
Print Assumptions C241_off.
Theorem C241_spp_files : forall s f, match s_spp s with Some x => truth (spp_activate x) = false \/ truth (ekf_activate (s_ekf s)) = false | None => True end ->
  forall j, In j (jobs (run s f)) -> j_kind j <> Spp.
Proof.
  intros s f H j I K. apply run_in in I. unfold all_jobs in I. apply in_app_or in I. destruct I as [I|I].
  - destruct (s_csv s) as [c|]; [|destruct I]. apply in_if in I. destruct I as [_ I]. apply csv_jobs_in in I.
    destruct I as [I|[(e & I & ->)|[(L & I)|[(L & I)|[(L & I)|[->|[(O & ->)|(O & ->)]]]]]]]; try discriminate.
    + cbn [In] in I. destruct I as [<-|[<-|[<-|[<-|[<-|[]]]]]]; discriminate.
    + unfold payload_job in K. destruct e. destruct (contains "_pf" s0); [discriminate|]. destruct (contains "_ekf" s0); discriminate.
    + apply camera_jobs_in in I. destruct I as (e & n & _ & _ & ->). discriminate.
    + apply camera_jobs_in in I. destruct I as (e & n & _ & _ & ->). discriminate.
    + apply laser_jobs_in in I. destruct I as (n & _ & [(e & _ & ->)|(_ & ->)]); discriminate.
  - destruct (s_spp s); [|destruct I]. unfold ekf_on in I. apply in_if in I. destruct I as [I _]. apply Bool.andb_true_iff in I. destruct I, H; congruence.
Qed.
Print Assumptions C241_spp_files.

(** When the run gets to its end. *)
Lemma started_all : forall l, (forall x, In x l -> x <> None) -> snd (started l) = true.
Proof.
  induction l as [|[x|] l IH]; intros H; cbn [started]; [reflexivity| |elim (H None); [now left|reflexivity]]. destruct (started l) as [js ok]. cbn [snd] in *. apply IH. intros y I. apply H. now right.
Qed.
Lemma image_job_none : forall n k e p t w m fl b, n <> None -> image_job n k e p t w m fl b <> None.
Proof. intros n k e p t w m fl b H. unfold image_job. now destruct n. Qed.
Theorem C241_finished : forall s f, s_usbl s <> None -> s_plot s <> None -> all_plain (payload_names f) ->
  ((0 < n_camera f Dr 0)%nat -> (1 <= length (camera_names f))%nat) -> ((1 < n_camera f Dr 1)%nat -> (2 <= length (camera_names f))%nat) ->
  (match s_spp s with Some x => truth (spp_activate x) = true -> truth (ekf_activate (s_ekf s)) = true -> (2 <= length (camera_names f))%nat | None => True end) ->
  finished (run s f) = true.
Proof.
  intros s f U T P C1 C2 X. unfold run. destruct (s_usbl s) as [u0|]; [|congruence]. destruct (s_plot s) as [t0|]; [|congruence].
  assert (O : offsets_known s f = true).
  { unfold offsets_known. apply forallb_forall. intros [k p] I. cbn [fst]. apply in_payloads in I; [|exact P]. destruct I as (e & O & I & ->).
    assert (K : known f p = true) by (apply existsb_exists; exists p; split; [exact I|apply String.eqb_refl]).
    pose proof (P p I) as Q. apply plain_iff in Q. pose proof (plain_parts p Q) as [Q1 Q2]. destruct e; cbn [key_of].
    - rewrite Q, Q1, Q2, K. now rewrite !Bool.andb_false_r.
    - rewrite (contains_suffix "_pf" p), no_ekf_pf, Q2, without_pf, K by (reflexivity || exact Q1). unfold plain. rewrite (contains_suffix "_pf" p) by reflexivity. cbn. rewrite Bool.andb_false_r. repeat match goal with |- context[if ?b then _ else _] => destruct b end; reflexivity.
    - rewrite (contains_suffix "_ekf" p), no_pf_ekf, Q1, without_ekf, K by (reflexivity || exact Q2). unfold plain. rewrite (contains_suffix "_ekf" p), Bool.andb_false_r by reflexivity. cbn. rewrite Bool.andb_false_r. repeat match goal with |- context[if ?b then _ else _] => destruct b end; reflexivity. }
  rewrite O. cbn [andb]. replace ((1 <? n_camera f Dr 0)%nat && (length (camera_names f) =? 0)%nat) with false.
  2:{ symmetry. apply Bool.andb_false_iff. destruct (Nat.ltb_spec 1 (n_camera f Dr 0)); [right|now left]. apply Nat.eqb_neq. lia. }
  cbn [negb]. destruct (started (all_jobs s f)) as [js ok] eqn:E. cbn [finished]. change ok with (snd (js, ok)). rewrite <- E. apply started_all. intros x I.
  assert (N : forall i, (i < length (camera_names f))%nat -> camera f i <> None) by (intros i L; now apply nth_error_Some).
  assert (L0 : forall n, laser_camera f = Some n -> n <> None).
  { intros n H. unfold laser_camera in H. destruct (Nat.ltb_spec 2 (length (camera_names f))); [injection H as <-; now apply N|]. destruct (Nat.eqb_spec (length (camera_names f)) 2); [injection H as <-; apply N; lia|discriminate]. }
  unfold all_jobs in I. apply in_app_or in I. destruct I as [I|I].
  - destruct (s_csv s) as [c|]; [|destruct I]. apply in_if in I. destruct I as [_ I]. unfold csv_jobs in I. rewrite !in_app_iff, !in_if, !Nat.ltb_lt in I. cbn [In] in I. rewrite in_map_iff in I.
    assert (J : forall i fl, (i < length (camera_names f))%nat -> In x (camera_jobs s f c i fl) -> x <> None).
    { intros i fl L J. unfold camera_jobs in J. cbn [In] in J. rewrite in_app_iff, !in_if in J. cbn [In] in J. destruct J as [<-|[[_ [<-|[]]]|[_ [<-|[]]]]]; apply image_job_none, N, L. }
    destruct I as [I|[(e & <- & _)|[(L & I)|[(L & I)|[(L & I)|I]]]]].
    + destruct I as [<-|[<-|[<-|[<-|[<-|[]]]]]]; discriminate.
    + discriminate.
    + apply (J 0%nat f_camera1); [now apply C1|exact I].
    + apply (J 1%nat f_camera2); [now apply C2|exact I].
    + unfold laser_jobs in I. destruct (laser_camera f) as [n|] eqn:Z; [|destruct I]. specialize (L0 n eq_refl). cbn [In] in I. rewrite in_app_iff, !in_if in I. cbn [In] in I.
      destruct I as [<-|[[_ [<-|[]]]|[_ [<-|[<-|[]]]]]]; now apply image_job_none.
    + destruct I as [[<-|[]]|[[_ [<-|[]]]|[_ [<-|[]]]]]; discriminate.
  - destruct (s_spp s) as [y|]; [|destruct I]. apply in_if in I. destruct I as [A I]. apply Bool.andb_true_iff in A. destruct A as [A1 A2]. specialize (X A1 A2).
    unfold spp_jobs in I. cbn [In] in I. rewrite in_if in I. destruct I as [<-|[<-|[_ I]]]; [apply image_job_none, N; lia|apply image_job_none, N; lia|].
    destruct (laser_camera f) as [n|] eqn:Z; [|destruct I]. destruct I as [<-|[]]. apply image_job_none. now apply L0.
Qed.
Print Assumptions C241_finished.

(** Every record that is written has got its pose from a track, if the tracks that were asked for exist and the laser images have time stamps. *)
Theorem C241_posed : forall s f, all_plain (payload_names f) -> (solution_on s Pf -> has_track s f Pf 2) -> (solution_on s Ekf -> has_track s f Ekf 2) -> laser_stamped f = true ->
  forall j, In j (jobs (run s f)) -> posed j = true.
Proof.
  intros s f P TP TE St j I. apply run_in in I.
  assert (Tp : forall e, solution_on s e -> track_posed s f e = true).
  { intros [] O; try reflexivity. cbn [track_posed]. apply Nat.ltb_lt. apply pf_length_iff; [lia|]. now apply TP. }
  unfold all_jobs in I. apply in_app_or in I. destruct I as [I|I].
  - destruct (s_csv s) as [c|]; [|destruct I]. apply in_if in I. destruct I as [_ I]. apply csv_jobs_in in I.
    destruct I as [I|[(e & I & ->)|[(L & I)|[(L & I)|[(L & I)|[->|[(O & ->)|(O & ->)]]]]]]]; try reflexivity.
    + cbn [In] in I. destruct I as [<-|[<-|[<-|[<-|[<-|[]]]]]]; reflexivity.
    + destruct e as [k p]. apply in_payloads in I; [|exact P]. destruct I as (e & O & I & ->). rewrite payload_job_of by now apply P. cbn [posed].
      pose proof (P p I) as Q. apply plain_iff in Q. unfold payload_posed. destruct e; cbn [key_of].
      * now rewrite Q.
      * rewrite (contains_suffix "_pf" p) by reflexivity. replace (1 <? pf_length s f)%nat with true by (symmetry; exact (Tp Pf O)). now rewrite !Bool.orb_true_r.
      * rewrite (contains_suffix "_ekf" p) by reflexivity. replace (1 <? ekf_length s f)%nat with true; [now rewrite !Bool.orb_true_r|]. symmetry. apply Nat.ltb_lt. apply ekf_length_iff; [lia|]. now apply TE.
    + apply camera_jobs_in in I. destruct I as (e & n & O & _ & ->). now apply Tp.
    + apply camera_jobs_in in I. destruct I as (e & n & O & _ & ->). now apply Tp.
    + apply laser_jobs_in in I. destruct I as (n & _ & [(e & O & ->)|(_ & ->)]); [|reflexivity]. destruct e; [exact St| |]; now apply Tp.
  - destruct (s_spp s) as [x|]; [|destruct I]. apply in_if in I. destruct I as [_ I]. unfold spp_jobs in I. cbn [In] in I. rewrite in_if, !image_job_some in I. destruct I as [(c & _ & ->)|[(c & _ & ->)|[_ H]]]; try reflexivity.
    destruct (laser_camera f); [|destruct H]. cbn [In] in H. rewrite image_job_some in H. destruct H as [(c & _ & ->)|[]]. reflexivity.
Qed.
Print Assumptions C241_posed.

(** No two threads write to one file, if the stems of the names are different and no payload is called auv… . *)
Inductive stem_of (f : found) : source -> string -> Prop :=
| stem_centre : stem_of f Centre "centre"
| stem_dvl : stem_of f Dvl "dvl"
| stem_image i n : (i < 2)%nat -> nth_error (camera_names f) i = Some n -> stem_of f (Image i) n
| stem_laser n : laser_name (camera_names f) n -> stem_of f Laser (n ++ "_laser")
| stem_at_dvl n : laser_name (camera_names f) n -> stem_of f LaserAtDvl (n ++ "_laser_at_dvl").
Definition apart (f : found) : Prop :=
  (forall w1 w2 t, stem_of f w1 t -> stem_of f w2 t -> w1 = w2) /\ (forall w, ~ stem_of f w "centre_sss") /\
  (forall p b, In p (payload_names f) -> p <> ("auv" ++ b)%string).
Definition extension (j : job) : string := match j_kind j with Csv => ".csv" | _ => ".txt" end.
Inductive shape (f : found) : job -> Prop :=
| shape_track j t : j_kind j = Csv -> stem_of f (what j) t -> file j = ("auv_" ++ tag (folder j) ++ "_" ++ t)%string -> shape f j
| shape_payload j p : j_kind j = Csv -> In p (payload_names f) -> what j = OfPayload p -> file j = (p ++ "_" ++ tag (folder j))%string -> shape f j
| shape_sidescan j : j_kind j = Sidescan -> what j = Centre -> file j = ("auv_" ++ tag (folder j) ++ "_centre_sss")%string -> shape f j
| shape_spp j t : j_kind j = Spp -> stem_of f (what j) t -> file j = ("auv_" ++ tag (folder j) ++ "_" ++ t)%string -> shape f j.
Lemma job_shape : forall s f j, all_plain (payload_names f) -> In j (jobs (run s f)) -> shape f j.
Proof.
  intros s f j P I. apply run_in in I. unfold all_jobs in I. apply in_app_or in I. destruct I as [I|I].
  - destruct (s_csv s) as [c|]; [|destruct I]. apply in_if in I. destruct I as [_ I]. apply csv_jobs_in in I.
    destruct I as [I|[(e & I & ->)|[(L & I)|[(L & I)|[(L & I)|[->|[(O & ->)|(O & ->)]]]]]]]; try now apply shape_sidescan.
    + cbn [In] in I. destruct I as [<-|[<-|[<-|[<-|[<-|[]]]]]]; eapply shape_track; try reflexivity; constructor.
    + destruct e as [k p]. apply in_payloads in I; [|exact P]. destruct I as (e & O & I & ->). rewrite payload_job_of by now apply P. now apply (shape_payload f _ p).
    + apply camera_jobs_in in I. destruct I as (e & n & O & N & ->). apply (shape_track f _ n); try reflexivity. apply stem_image; [lia|exact N].
    + apply camera_jobs_in in I. destruct I as (e & n & O & N & ->). apply (shape_track f _ n); try reflexivity. apply stem_image; [lia|exact N].
    + apply laser_jobs_in in I. destruct I as (n & N & [(e & O & ->)|(_ & ->)]); [apply (shape_track f _ (n ++ "_laser"))|apply (shape_track f _ (n ++ "_laser_at_dvl"))]; try reflexivity; now constructor.
  - destruct (s_spp s) as [x|]; [|destruct I]. apply in_if in I. destruct I as [_ I]. unfold spp_jobs in I. cbn [In] in I. rewrite in_if, !image_job_some in I.
    destruct I as [(c & N & ->)|[(c & N & ->)|[_ H]]]; [rewrite app_nil_s; apply (shape_spp f _ c); try reflexivity; apply stem_image; [lia|exact N].. |].
    destruct (laser_camera f) as [n|] eqn:L; [|destruct H]. cbn [In] in H. rewrite image_job_some in H. destruct H as [(c & N & ->)|[]]. subst n. apply laser_iff in L. apply (shape_spp f _ (c ++ "_laser")); try reflexivity. now constructor.
Qed.
Lemma append_inj : forall a b t, (a ++ t)%string = (b ++ t)%string -> a = b.
Proof.
  intros a b t H. assert (L : forall x y, String.length (x ++ y) = (String.length x + String.length y)%nat) by (induction x; intros y; cbn; [reflexivity|now rewrite IHx]).
  revert b H. induction a as [|c a IH]; intros [|d b] H; [reflexivity| | |].
  - apply (f_equal String.length) in H. rewrite !L in H. cbn in H. lia.
  - apply (f_equal String.length) in H. rewrite !L in H. cbn in H. lia.
  - cbn in H. injection H as -> H. f_equal. now apply IH.
Qed.
Lemma append_inj_l : forall p a b, (p ++ a)%string = (p ++ b)%string -> a = b.
Proof. induction p as [|c p IH]; intros a b H; [exact H|]. cbn in H. injection H as H. now apply IH. Qed.
Lemma not_auv : forall p e b, (forall b, p <> ("auv" ++ b)%string) -> (p ++ "_" ++ tag e)%string <> ("auv_" ++ b)%string.
Proof.
  intros p e b H E. destruct p as [|x [|y [|z p]]]; [destruct e; discriminate E..|].
  cbn in E. injection E as -> -> -> E. now apply (H p).
Qed.
Theorem C241_apart : forall s f, all_plain (payload_names f) -> apart f -> forall j1 j2, In j1 (jobs (run s f)) -> In j2 (jobs (run s f)) ->
  folder j1 = folder j2 -> file j1 = file j2 -> extension j1 = extension j2 -> what j1 = what j2 /\ j_kind j1 = j_kind j2.
Proof.
  intros s f P (A1 & A2 & A3) j1 j2 I1 I2 F N E. apply job_shape in I1, I2; try exact P. unfold extension in E.
  assert (X : forall e a b, ("auv_" ++ tag e ++ "_" ++ a)%string = ("auv_" ++ tag e ++ "_" ++ b)%string -> a = b) by (intros e a b H; now do 3 apply append_inj_l in H).
  destruct I1 as [j1 t1 K1 S1 N1|j1 p1 K1 Q1 W1 N1|j1 K1 W1 N1|j1 t1 K1 S1 N1]; destruct I2 as [j2 t2 K2 S2 N2|j2 p2 K2 Q2 W2 N2|j2 K2 W2 N2|j2 t2 K2 S2 N2];
    rewrite K1, K2 in E; try discriminate; rewrite N1, N2, F in N.
  - apply X in N. subst t2. split; [now apply (A1 _ _ t1)|congruence].
  - symmetry in N. apply not_auv in N; [destruct N|]. intros b. now apply A3.
  - apply not_auv in N; [destruct N|]. intros b. now apply A3.
  - apply append_inj in N. split; congruence.
  - split; congruence.
  - change ("_centre_sss") with ("_" ++ "centre_sss")%string in N. apply X in N. subst t2. now apply A2 in S2.
  - change ("_centre_sss") with ("_" ++ "centre_sss")%string in N. apply X in N. subst t1. now apply A2 in S1.
  - apply X in N. subst t2. split; [now apply (A1 _ _ t1)|congruence].
Qed.
Print Assumptions C241_apart.

(** ** Examples *)
Definition all_on : flags := mkflags (YBool true) (YBool true) (YBool true) (YBool true) (YBool true) (YBool true).
Definition filters (pf ekf : bool) (sp : option spp) (g : flags) : settings :=
  mksettings (Some (mkusbl (YBool true) (YNum 2) (YNum 2))) (Some (mkparticles (YBool pf) (YNum 2) (YNum 2) (YNum 1) (YNum 300) (YNum 600))) []
    (mkekf (YBool ekf) (YBool true) (YNum 3) None) (Some (mkcsv (YBool true) (YBool true) g g g)) sp (Some (YBool true, YBool true)).
Definition dive (cams pays : list string) (usbl images : nat) : found := mkfound cams pays usbl 100 100 100 (fun _ i => if ((i <? length cams) || ((i =? 2) && (length cams =? 2)))%nat then images else 0%nat) images (fun _ => 7%nat) true.
Example two_cameras_and_a_payload :
  let r := run (filters false true None all_on) (dive ["LC"; "RC"] ["ctd"] 5 9) in
  finished r = true /\ usbl_file r = true /\ map file (filter written (jobs r)) =
    ["auv_dr_centre"; "auv_dr_dvl"; "auv_ekf_centre"; "ctd_dr"; "ctd_ekf"; "auv_dr_LC"; "auv_ekf_LC"; "auv_dr_RC"; "auv_ekf_RC";
     "auv_dr_RC_laser"; "auv_ekf_RC_laser"; "auv_ekf_RC_laser_at_dvl"; "auv_dr_centre_sss"; "auv_ekf_centre_sss"].
Proof. vm_compute. repeat split. Qed.
Example plain_names : all_plain ["ctd"; "turbidity_probe"].
Proof. intros p I. apply plain_iff. destruct I as [<-|[<-|[]]]; reflexivity. Qed.
Example apart_names : apart (dive ["LC"; "RC"] ["ctd"] 5 9).
Proof.
  assert (L : forall n, laser_name ["LC"; "RC"] n -> n = "RC") by (intros n [[H _]|[_ H]]; [cbn in H; lia|now injection H as <-]).
  assert (I : forall i n, nth_error ["LC"; "RC"] i = Some n -> (i = 0%nat /\ n = "LC") \/ (i = 1%nat /\ n = "RC")).
  { intros [|[|i]] n H; cbn in H; [injection H as <-; now left|injection H as <-; now right|now destruct i]. }
  split; [|split].
  - intros w1 w2 t H1 H2. destruct H1 as [| |i n _ H1|n H1|n H1]; inversion H2 as [Z|Z|k m _ H3|m H3 Z|m H3 Z]; subst; try reflexivity;
      repeat match goal with
      | H : nth_error (camera_names _) _ = Some _ |- _ => apply I in H; destruct H as [[-> ?]|[-> ?]]; subst
      | H : laser_name _ _ |- _ => apply L in H; subst
      end; try reflexivity; try discriminate.
  - intros w H. inversion H as [| |i n _ H1|n H1 Z|n H1 Z]; subst.
    + apply I in H1. destruct H1 as [[_ H1]|[_ H1]]; discriminate.
    + apply L in H1. subst. discriminate.
    + apply L in H1. subst. discriminate.
  - intros p b [<-|[]] H. discriminate.
Qed.
Example older_names : exists n, std_load (Some (YMap [("usbl", YMap [("model", YStr "linear"); ("offset", YNum 2)]); ("depth", YMap [("offset", YNum 1)]); ("dvl", YMap [("model", YStr "sensor")])])) = Ok n /\
  get "position_xy" n = Some (YMap [("model", YStr "linear"); ("offset", YNum 2)]) /\ get "position_z" n = Some (YMap [("model", YStr "sensor"); ("offset", YNum 1)]) /\
  get "orientation" n = Some (YMap [("model", YStr "sensor")]).
Proof. eexists. vm_compute. repeat split. Qed.
Example fifteen : exists p i, covariances (fun _ => None) (YSeq (map (fun k => YNum (inject_Z (Z.of_nat k))) (seq 0 225))) (YSeq (repeat (YNum 0) 225)) = Ok (p, i) /\
  nth 3 (nth 2 p []) 0 == 33 /\ nth 11 (nth 11 p []) 0 == 176.
Proof. eexists. eexists. vm_compute. repeat split. Qed.

(** ** What does not hold *)
(** Without usbl_filter or without plot_output the file is read, and the run ends in an exception before any of the solutions is written: a
    variable is read that was never assigned. *)
Theorem C242_sections_needed : forall s f, s_usbl s = None \/ s_plot s = None -> jobs (run s f) = [] /\ usbl_file (run s f) = false /\ finished (run s f) = false.
Proof. intros s f H. unfold run. destruct (s_usbl s), (s_plot s); destruct H; try discriminate; now repeat split. Qed.
Print Assumptions C242_sections_needed.
Definition only (k : string) (y : yaml) : yaml := match y with YMap n => YMap (filter (fun e => negb (String.eqb k (fst e))) n) | _ => y end.
Theorem C242_section_refuted : exists y s, at_path ["usbl_filter"] y = None /\ at_path ["csv_output"; "activate"] y = Some (YBool true) /\ settings_load decimal_float y = Ok s /\
  forall f, finished (run s f) = false.
Proof.
  destruct (settings_load decimal_float (only "usbl_filter" auv_nav_default)) as [s| |] eqn:E; [|vm_compute in E; discriminate|vm_compute in E; discriminate].
  exists (only "usbl_filter" auv_nav_default), s. split; [reflexivity|]. split; [reflexivity|]. split; [exact E|]. intros f. apply C242_sections_needed. left.
  pose proof (C241_sections _ _ _ E) as (_ & _ & _ & H & _). apply H. reflexivity.
Qed.
Print Assumptions C242_section_refuted.
(** The warning says that a missing model defaults to "sensor"; without std it does, with a std that names only the orientation it is an exception. *)
Theorem C242_std_refuted : exists n, std_load None = Ok n /\ get "speed" n = Some (YMap [("model", YStr "sensor")]) /\
  std_load (Some (YMap [("orientation", YMap [("model", YStr "sensor")])])) = Raised.
Proof. eexists. vm_compute. repeat split. Qed.
Print Assumptions C242_std_refuted.
(** The same twelve by twelve matrix as twelve rows, or beside a matrix of fifteen by fifteen, is an exception. *)
Theorem C242_matrix_refuted : exists l rs i, length rs = 12%nat /\ Forall (fun r => length r = 12%nat) rs /\ l = concat rs /\
  (exists m, covariances (fun _ => None) (YSeq l) i = Ok m) /\ covariances (fun _ => None) (YSeq (map YSeq rs)) i = Raised /\
  covariances (fun _ => None) (YSeq l) (YSeq (repeat (YNum 0) 225)) = Raised.
Proof.
  exists (repeat (YNum 1) 144), (repeat (repeat (YNum 1) 12) 12), (YSeq (repeat (YNum 0) 144)). split; [reflexivity|]. split; [repeat constructor|]. split; [reflexivity|].
  split; [eexists; vm_compute; reflexivity|]. split; reflexivity.
Qed.
Print Assumptions C242_matrix_refuted.
(** With the particle filter on and no USBL measurement, pose files of the particle filter are written of images that have no pose. *)
Theorem C242_no_usbl_refuted : exists s f j, solution_on s Pf /\ n_usbl f = 0%nat /\ finished (run s f) = true /\ In j (jobs (run s f)) /\ written j = true /\
  folder j = Pf /\ file j = "auv_pf_LC" /\ posed j = false.
Proof.
  exists (filters true false None all_on), (dive ["LC"] [] 0 9), (mkjob Csv Pf "auv_pf_LC" (Image 0) 9 (YBool true) false).
  split; [eexists; split; reflexivity|]. split; [reflexivity|]. split; [reflexivity|]. split; [|now repeat split]. vm_compute. tauto.
Qed.
Print Assumptions C242_no_usbl_refuted.
(** A payload called as another's copy for a filter is lost; one whose name contains the mark of a filter that is on ends the run. *)
Theorem C242_payload_lost_refuted : exists s f, In "ctd_pf" (payload_names f) /\ finished (run s f) = true /\
  forall j, In j (jobs (run s f)) -> what j <> OfPayload "ctd_pf".
Proof.
  exists (filters true false None all_on), (dive [] ["ctd"; "ctd_pf"] 5 0). split; [right; now left|]. split; [reflexivity|].
  intros j I. vm_compute in I. repeat (destruct I as [<-|I]; [discriminate|]). destruct I.
Qed.
Print Assumptions C242_payload_lost_refuted.
Theorem C242_payload_name_refuted : exists s f, s_usbl s <> None /\ s_plot s <> None /\ payload_names f = ["imu_ekf"] /\ run s f = mkoutcome false [] false.
Proof. exists (filters false true None all_on), (dive ["LC"] ["imu_ekf"] 5 9). now repeat split. Qed.
Print Assumptions C242_payload_name_refuted.
(** SLAM++ output with one camera: an exception, after the csv files. *)
Theorem C242_spp_refuted : exists s f, camera_names f = ["LC"] /\ s_usbl s <> None /\ s_plot s <> None /\ payload_names f = [] /\ finished (run s f) = false /\
  exists j, In j (jobs (run s f)) /\ file j = "auv_ekf_LC" /\ written j = true.
Proof.
  exists (filters false true (Some (mkspp (YBool true) (YBool true) (YBool true) (YBool true))) all_on), (dive ["LC"] [] 5 9).
  split; [reflexivity|]. split; [discriminate|]. split; [discriminate|]. split; [reflexivity|]. split; [reflexivity|].
  exists (mkjob Csv Ekf "auv_ekf_LC" (Image 0) 9 (YBool true) true). split; [vm_compute; tauto|]. now split.
Qed.
Print Assumptions C242_spp_refuted.
(** Relative uncertainties of a laser on the second of two cameras: the files to write have names, the file to read has not. *)
Theorem C242_relative_refuted : exists names, relative_to names = Some ("auv_ekf_cov_based_on_ekf_propagation_RC_laser_at_dvl.csv", "auv_ekf_cov_based_on_subtraction_RC_laser_at_dvl.csv") /\ relative_from names = None.
Proof. exists ["LC"; "RC"]. now split. Qed.
Print Assumptions C242_relative_refuted.
(** Two cameras with one name: two threads write to one file. *)
Theorem C242_same_name_refuted : exists s f j1 j2, all_plain (payload_names f) /\ In j1 (jobs (run s f)) /\ In j2 (jobs (run s f)) /\ written j1 = true /\ written j2 = true /\
  folder j1 = folder j2 /\ file j1 = file j2 /\ extension j1 = extension j2 /\ what j1 = Image 0 /\ what j2 = Image 1.
Proof.
  exists (filters false false None all_on), (dive ["cam"; "cam"] [] 5 9), (mkjob Csv Dr "auv_dr_cam" (Image 0) 9 (YBool true) true), (mkjob Csv Dr "auv_dr_cam" (Image 1) 9 (YBool true) true).
  split; [intros p []|]. split; [vm_compute; tauto|]. split; [vm_compute; tauto|]. now repeat split.
Qed.
Print Assumptions C242_same_name_refuted.
(** The pose of a single image is written to no file. *)
Theorem C242_single_refuted : exists s f, n_camera f Dr 0 = 1%nat /\ camera_names f = ["LC"] /\ finished (run s f) = true /\ (exists c, s_csv s = Some c /\ truth (csv_activate c) = true /\ f_camera1 (csv_dr c) = YBool true) /\
  forall j, In j (jobs (run s f)) -> what j = Image 0 -> written j = false.
Proof.
  exists (filters false true None all_on), (dive ["LC"] [] 5 1). split; [reflexivity|]. split; [reflexivity|]. split; [reflexivity|]. split; [eexists; repeat split|].
  intros j I. vm_compute in I. repeat (destruct I as [<-|I]; [intros W; try discriminate; reflexivity|]). destruct I.
Qed.
Print Assumptions C242_single_refuted.
(** A flag of 1 is on for the sidescan file and off for the csv file. *)
Theorem C242_flag_refuted : exists s f j1 j2, In j1 (jobs (run s f)) /\ In j2 (jobs (run s f)) /\ what j1 = what j2 /\ folder j1 = folder j2 /\ flag j1 = flag j2 /\ count j1 = count j2 /\
  written j1 = true /\ written j2 = false /\ (1 < count j2)%nat.
Proof.
  exists (filters false false None (mkflags (YNum 1) (YNum 1) (YNum 1) (YNum 1) (YNum 1) (YNum 1))), (dive [] [] 5 0),
    (mkjob Sidescan Dr "auv_dr_centre_sss" Centre 100 (YNum 1) true), (mkjob Csv Dr "auv_dr_centre" Centre 100 (YNum 1) true).
  split; [vm_compute; tauto|]. split; [vm_compute; tauto|]. repeat split. cbn [count]. lia.
Qed.
Print Assumptions C242_flag_refuted.
