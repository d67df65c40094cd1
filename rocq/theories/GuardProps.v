(** C26: existing output and the force flag. *)
From Coq Require Import Ascii String.
From Verif Require Import PyBase GuardModel GuardProofs.
Local Open Scope string_scope.

(** Concrete file systems for the examples. *)
Fixpoint fs_of (l : list (fpath * node)) : fsys :=
  match l with
  | [] => fun _ => None
  | (p, n) :: l' => fun q => if path_eqb q p then Some n else fs_of l' q
  end.
Definition has_parent (l : list (fpath * node)) (p : fpath) : bool :=
  match p with [] => true | _ => match fs_of l (removelast p) with Some ADir => true | _ => false end end.
Lemma fs_of_In : forall l p, fs_of l p <> None -> In p (map fst l).
Proof.
  induction l as [|[q n] l IH]; intros p H; [now contradiction H|]. cbn in *.
  destruct (path_eqb p q) eqn:E; [left; symmetry; now apply path_eqb_spec|right; auto].
Qed.
Lemma tree_of : forall l, forallb (fun x => has_parent l (fst x)) l = true -> tree (fs_of l).
Proof.
  intros l H p x N. apply fs_of_In, in_map_iff in N as [[q n] [E I]]. cbn in E. subst q.
  rewrite forallb_forall in H. specialize (H _ I). cbn [fst] in H. unfold has_parent in H.
  destruct (p /. [x]) eqn:E; [destruct p; discriminate|]. rewrite <- E, removelast_last in H.
  destruct (fs_of l p) as [[|]|]; congruence.
Qed.

(** ** auv_nav parse *)
(** Without -F, and without merging, parsing any number of dives leaves every existing
    file as it was. *)
Theorem C26_parse_keeps : forall ds fs, tree fs -> (forall d, In d ds -> no_file_above fs (d_folder d)) -> unnested ds ->
  keeps_files fs (fst (parse fs false None ds)).
Proof. exact parse_dives_keeps. Qed.
Print Assumptions C26_parse_keeps.

(** With -F a dive's outputs are regenerated, whatever was there before. *)
Theorem C26_parse_force : forall fs d, outputs_in_place (fst (parse fs true None [d])) d.
Proof. exact parsed_in_place. Qed.
Print Assumptions C26_parse_force.

(** A dive without processed folder is parsed. *)
Theorem C26_parse_missing : forall fs d, tree fs -> absent fs (d_folder d) ->
  outputs_in_place (fst (parse fs false None [d])) d.
Proof. intros fs d T E. cbn. rewrite parse_single_runs by auto. apply parsed_in_place. Qed.
Print Assumptions C26_parse_missing.

(** A dive whose processed folder exists but holds none of parse's outputs (for example
    an empty folder) is reported as already parsed and skipped. *)
Theorem C126_never_parsed_refuted : exists fs d, tree fs /\
  (forall p, In p (map fst (parse_writes d)) -> absent fs p) /\
  absent fs (d_folder d /. ["mission.yaml"]) /\ absent fs (d_folder d /. ["vehicle.yaml"]) /\
  ~ outputs_in_place (fst (parse fs false None [d])) d /\ fst (parse fs false None [d]) = fs.
Proof.
  exists (fs_of [([], ADir); (["processed"], ADir); (["processed"; "dive"], ADir)]).
  exists (mkDive ["processed"; "dive"] "20200101_000000" "m" "v" "c" "n" "i" "h" "t").
  split; [now apply tree_of|]. split.
  { intros p. cbn. intros [<-|[<-|[<-|[<-|[<-|[<-|[<-|[]]]]]]]]; reflexivity. }
  split; [reflexivity|]. split; [reflexivity|]. split; [|reflexivity].
  intros [H _]. cbv in H. discriminate.
Qed.
Print Assumptions C126_never_parsed_refuted.

(** Skipped dives are exactly those with a processed folder: its contents play no
    part. *)
Theorem C26_skip_condition : forall fs d, tree fs ->
  (check_output_files_exist fs (d_folder d) <> [] <-> fs (d_folder d) <> None).
Proof.
  intros fs d T. split.
  - intros H E. apply H. now apply check_empty.
  - intro H. apply (check_nonempty fs (d_folder d) (d_folder d)); [|exact H]. unfold checked_files. cbn. auto.
Qed.
Print Assumptions C26_skip_condition.

(** Merging has no guard: the merged nav_standard.json is overwritten without -F, even
    when every dive was skipped. *)
Theorem C126_merge_refuted : exists fs ds m p old new, tree fs /\
  holds fs p old /\ holds (fst (parse fs false (Some m) ds)) p new /\ old <> new /\
  (forall d, In d ds -> parse_single fs false d = fs).
Proof.
  exists (fs_of [([], ADir); (["a"], ADir); (["b"], ADir); (["m"], ADir); (["m"; "nav"], ADir);
                 (["m"; "nav"; "nav_standard.json"], AFile "precious")]).
  exists [mkDive ["a"] "t" "m" "v" "c" "n" "i" "h" "t"; mkDive ["b"] "t" "m" "v" "c" "n" "i" "h" "t"].
  exists (mkDive ["m"] "t" "m" "v" "c" "n" "i" "h" "t"), ["m"; "nav"; "nav_standard.json"], "precious", "n".
  split; [now apply tree_of|]. split; [reflexivity|]. split; [reflexivity|]. split; [discriminate|].
  intros d [<-|[<-|[]]]; reflexivity.
Qed.
Print Assumptions C126_merge_refuted.

(** ** auv_nav convert *)
(** What acfr_to_oplab never touches: files outside its six outputs; and the laser file
    without -F. *)
Definition convert_outputs (folder : fpath) : list fpath :=
  map (fun n => folder /. [n])
    ["auv_acfr_centre.csv.csv"; "auv_acfr_centre.csv_cov.csv"; "auv_acfr_LC.csv"; "auv_acfr_LC_cov.csv";
     "auv_acfr_RC.csv"; "auv_acfr_RC_cov.csv"; "auv_acfr_laser.csv"].
Lemma write_csv_keeps : forall fs folder name x p c, p <> folder /. [name ++ ".csv"] -> p <> folder /. [name ++ "_cov.csv"] ->
  fs p = Some (AFile c) -> write_csv fs folder name x p = Some (AFile c).
Proof.
  intros fs folder name x p c N1 N2 E. unfold write_csv. destruct (1 <? c_len x)%nat; [|exact E].
  assert (write (mkdirs fs folder) (folder /. [name ++ ".csv"]) (c_text x) p = Some (AFile c)) as H.
  { unfold write. rewrite path_eqb_neq by exact N1. now apply mkdirs_keeps. }
  destruct (c_cov x); [|exact H]. unfold write at 1. now rewrite path_eqb_neq by exact N2.
Qed.
Theorem C26_convert_frame : forall fs force folder vp sp laser, let r := acfr_to_oplab fs force folder vp sp laser in
  (forall p c, holds fs p c -> ~ In p (convert_outputs folder) -> holds (fst r) p c) /\
  (force = false -> forall c, holds fs (folder /. ["auv_acfr_laser.csv"]) c -> holds (fst r) (folder /. ["auv_acfr_laser.csv"]) c).
Proof.
  intros fs force folder vp sp laser r.
  assert (forall p c, holds fs p c -> (~ In p (convert_outputs folder) \/ (force = false /\ p = folder /. ["auv_acfr_laser.csv"])) ->
    holds (fst r) p c) as K.
  { intros p c H HN.
    assert (forall n, In n ["auv_acfr_centre.csv.csv"; "auv_acfr_centre.csv_cov.csv"; "auv_acfr_LC.csv"; "auv_acfr_LC_cov.csv";
        "auv_acfr_RC.csv"; "auv_acfr_RC_cov.csv"] -> p <> folder /. [n]) as N.
    { intros n I ->. destruct HN as [HN|[_ HN]].
      - apply HN. unfold convert_outputs. apply (in_map (fun n => folder /. [n])). cbn in *. tauto.
      - apply app_inv_head in HN. injection HN as ->. cbn in I.
        repeat (destruct I as [I|I]; [discriminate|]). exact I. }
    assert (forall gs x, holds gs p c -> holds (write_csv gs folder "auv_acfr_centre.csv" x) p c) as W1.
    { intros gs x. apply write_csv_keeps; apply N; cbn; auto. }
    assert (forall gs x, holds gs p c -> holds (write_csv gs folder "auv_acfr_LC" x) p c) as W2.
    { intros gs x. apply write_csv_keeps; apply N; cbn; auto 10. }
    assert (forall gs x, holds gs p c -> holds (write_csv gs folder "auv_acfr_RC" x) p c) as W3.
    { intros gs x. apply write_csv_keeps; apply N; cbn; auto 10. }
    assert (forall gs, holds gs p c -> holds (fst (convert_vehicle gs force folder vp)) p c) as V.
    { intros gs G. unfold convert_vehicle. destruct vp as [dr|]; [|exact G].
      destruct (exists_in _ _ && negb force); [exact G|]. now apply W1. }
    assert (forall gs, holds gs p c -> holds (fst (convert_stereo gs force folder sp laser)) p c) as S.
    { intros gs G. unfold convert_stereo. destruct sp as [[c1 c2]|]; [|exact G].
      destruct (exists_in _ _ && negb force); [exact G|]. cbv zeta.
      assert (holds (write_csv (write_csv gs folder "auv_acfr_LC" c1) folder "auv_acfr_RC" c2) p c) as G2 by auto.
      destruct laser as [l|]; [|exact G2].
      destruct (exists_in _ (folder /. ["auv_acfr_laser.csv"]) && negb force) eqn:EX; [exact G2|].
      unfold holds. cbn [fst]. unfold write. rewrite path_eqb_neq; [exact G2|]. intros ->.
      destruct HN as [HN|[-> _]].
      - apply HN. unfold convert_outputs. apply (in_map (fun n => folder /. [n])). cbn. auto 10.
      - unfold exists_in in EX. rewrite G2 in EX. discriminate. }
    unfold r, acfr_to_oplab. specialize (V fs H).
    destruct vp as [v|], sp as [s|]; try exact H;
      destruct (convert_vehicle _ _ _ _) as [g [| |]] eqn:CV; cbn [fst] in V; auto. }
  split; [intros p c H N; apply K; auto|]. intros F c H. apply K; auto.
Qed.
Print Assumptions C26_convert_frame.

(** The guard on the vehicle pose looks for auv_acfr_centre.csv; the file written is
    auv_acfr_centre.csv.csv, which every run without -F overwrites. *)
Theorem C126_convert_centre_refuted : exists fs folder dr old, tree fs /\
  holds fs (folder /. ["auv_acfr_centre.csv.csv"]) old /\
  acfr_to_oplab fs false folder (Some dr) None None = (fst (acfr_to_oplab fs false folder (Some dr) None None), Done) /\
  ~ holds (fst (acfr_to_oplab fs false folder (Some dr) None None)) (folder /. ["auv_acfr_centre.csv.csv"]) old.
Proof.
  exists (fs_of [([], ADir); (["out"], ADir); (["out"; "auv_acfr_centre.csv.csv"], AFile "old")]), ["out"], (mkCsv 2 "new" None), "old".
  split; [now apply tree_of|]. split; [reflexivity|]. split; [reflexivity|]. cbv. discriminate.
Qed.
Print Assumptions C126_convert_centre_refuted.

(** The guard on the stereo poses looks for auv_dr_LC.csv; the files written are
    auv_acfr_LC.csv and auv_acfr_RC.csv. *)
Theorem C126_convert_camera_refuted : exists fs folder c1 c2 old, tree fs /\
  holds fs (folder /. ["auv_acfr_LC.csv"]) old /\
  snd (acfr_to_oplab fs false folder None (Some (c1, c2)) None) = Done /\
  ~ holds (fst (acfr_to_oplab fs false folder None (Some (c1, c2)) None)) (folder /. ["auv_acfr_LC.csv"]) old.
Proof.
  exists (fs_of [([], ADir); (["out"], ADir); (["out"; "auv_acfr_LC.csv"], AFile "old")]), ["out"],
    (mkCsv 2 "new1" None), (mkCsv 2 "new2" None), "old".
  split; [now apply tree_of|]. split; [reflexivity|]. split; [reflexivity|]. cbv. discriminate.
Qed.
Print Assumptions C126_convert_camera_refuted.

(** So running acfr_to_oplab twice never stops at its own output, for any lists of at
    least two poses. *)
Theorem C126_convert_rerun_overwrites : forall fs folder dr dr', tree fs ->
  (2 <= c_len dr)%nat -> (2 <= c_len dr')%nat -> absent fs (folder /. ["auv_acfr_centre.csv"]) ->
  holds (fst (acfr_to_oplab (fst (acfr_to_oplab fs false folder (Some dr) None None)) false folder (Some dr') None None))
    (folder /. ["auv_acfr_centre.csv.csv"]) (c_text dr').
Proof.
  intros fs folder dr dr' T L L' A.
  assert (forall gs x, (2 <= c_len x)%nat -> absent gs (folder /. ["auv_acfr_centre.csv"]) ->
    holds (fst (acfr_to_oplab gs false folder (Some x) None None)) (folder /. ["auv_acfr_centre.csv.csv"]) (c_text x) /\
    absent (fst (acfr_to_oplab gs false folder (Some x) None None)) (folder /. ["auv_acfr_centre.csv"])) as K.
  { intros gs x Lx Ax. unfold acfr_to_oplab, convert_vehicle, convert_stereo.
    replace (exists_in gs (folder /. ["auv_acfr_centre.csv"])) with false by (symmetry; now apply exists_in_false).
    cbn [andb fst]. unfold write_csv. replace (1 <? c_len x)%nat with true by (symmetry; apply Nat.ltb_lt; lia).
    change ("auv_acfr_centre.csv" ++ ".csv") with "auv_acfr_centre.csv.csv".
    change ("auv_acfr_centre.csv" ++ "_cov.csv") with "auv_acfr_centre.csv_cov.csv".
    assert (forall a b, a <> b -> path_eqb (folder /. [a]) (folder /. [b]) = false) as N.
    { intros a b H. apply path_eqb_neq, app_neq. congruence. }
    assert (is_prefix (folder /. ["auv_acfr_centre.csv"]) folder = false) as NP.
    { destruct is_prefix eqn:P; [|reflexivity]. apply is_prefix_spec in P as [r P].
      apply (f_equal (@length _)) in P. rewrite !app_length in P. cbn in P. lia. }
    destruct (c_cov x); unfold holds, absent, write.
    - rewrite !N by discriminate. rewrite path_eqb_refl. split; [reflexivity|].
      rewrite !N by discriminate. unfold mkdirs. unfold absent in Ax. now rewrite Ax, NP.
    - rewrite path_eqb_refl. split; [reflexivity|].
      rewrite ?N by discriminate. unfold mkdirs. unfold absent in Ax. now rewrite Ax, NP. }
  apply K; [exact L'|]. apply K; assumption.
Qed.
Print Assumptions C126_convert_rerun_overwrites.

(** oplab_to_acfr without -F changes nothing once either pose file exists. *)
Theorem C26_acfr_guard : forall fs f o,
  fs (f /. ["vehicle_pose_est.data"]) <> None \/ fs (f /. ["stereo_pose_est.data"]) <> None ->
  oplab_to_acfr fs false f o = (fs, Quit).
Proof.
  intros fs f o H. unfold oplab_to_acfr.
  replace (exists_in fs (f /. ["vehicle_pose_est.data"]) || exists_in fs (f /. ["stereo_pose_est.data"]))%bool with true;
    [reflexivity|]. symmetry. apply orb_true_iff. unfold exists_in.
  destruct H as [H|H]; [left|right]; destruct (fs _); congruence.
Qed.
Print Assumptions C26_acfr_guard.

(** Its other two outputs are not guarded. *)
Theorem C126_acfr_cfg_refuted : exists fs f o old, tree fs /\
  holds fs (f /. ["mission.cfg"]) old /\ snd (oplab_to_acfr fs false f o) = Done /\
  ~ holds (fst (oplab_to_acfr fs false f o)) (f /. ["mission.cfg"]) old.
Proof.
  exists (fs_of [([], ADir); (["out"], ADir); (["out"; "mission.cfg"], AFile "old")]), ["out"], (mkAcfr "v" "s" "c" "r"), "old".
  split; [now apply tree_of|]. split; [reflexivity|]. split; [reflexivity|]. cbv. discriminate.
Qed.
Print Assumptions C126_acfr_cfg_refuted.

(** ** auv_nav process *)
Theorem C26_process_keeps : forall fs r outs, tree fs -> (forall c, fs r <> Some (AFile c)) ->
  keeps_files fs (fst (process_guard fs false false r outs)).
Proof.
  intros fs r outs T NF. unfold process_guard. destruct (fs r) as [[|c]|] eqn:E; cbn [negb andb fst].
  - apply keeps_refl.
  - now contradiction (NF c).
  - apply writes_below_absent_keep with (d := r); auto using mkdirs_keeps.
    intros p I. rewrite map_map in I. apply in_map_iff in I as [x [<- _]]. now eexists.
Qed.
Print Assumptions C26_process_keeps.

(** With the relative pose uncertainty option existing results are overwritten without
    -F (process.py:564-568). *)
Theorem C126_process_relative_refuted : exists fs r outs p old, tree fs /\ holds fs p old /\
  ~ holds (fst (process_guard fs false true r outs)) p old.
Proof.
  exists (fs_of [([], ADir); (["renav"], ADir); (["renav"; "ekf.csv"], AFile "old")]), ["renav"], [(["ekf.csv"], "new")],
    ["renav"; "ekf.csv"], "old".
  split; [now apply tree_of|]. split; [reflexivity|]. cbv. discriminate.
Qed.
Print Assumptions C126_process_relative_refuted.

(** ** correct_images *)
(** The files each mode looks for. *)
Definition guarded (m : mode) (n : string) : Prop := match m with
  | MParse => exists u, n = (u ++ ".npy")%string
  | MProcess => exists u v, n = (u ++ "." ++ v)%string end.
Lemma ends_with_iff : forall suffix n, ends_with suffix n = true <-> exists u, n = (u ++ suffix)%string.
Proof.
  intros suffix. induction n as [|c n IH]; cbn [ends_with]; rewrite orb_true_iff, String.eqb_eq.
  - split; [intros [->|H]; [now exists ""%string|discriminate]|]. intros ([|d u] & E); [now left|discriminate].
  - rewrite IH. split.
    + intros [->|(u & ->)]; [now exists ""%string|now exists (String c u)].
    + intros ([|d u] & E); [now left|]. injection E as _ ->. right. now exists u.
Qed.
Lemma has_dot_iff : forall n, has_dot n = true <-> exists u v, n = (u ++ "." ++ v)%string.
Proof.
  induction n as [|c n IH]; cbn [has_dot].
  - split; [discriminate|]. intros ([|d u] & v & E); discriminate.
  - rewrite orb_true_iff, Ascii.eqb_eq, IH. split.
    + intros [->|(u & v & ->)]; [now exists ""%string, n|now exists (String c u), v].
    + intros ([|d u] & v & E); [left; now injection E|]. injection E as _ ->. right. now exists u, v.
Qed.
Lemma guarded_iff : forall m n, pattern m n = true <-> guarded m n.
Proof. intros [] n; [apply ends_with_iff|apply has_dot_iff]. Qed.
Lemma correct_keeps : forall fs names m folder outs,
  tree fs -> (forall n, In n names <-> fs (folder /. [n]) <> None) ->
  forall p c, holds fs p c -> (forall n, p = folder /. [n] -> pattern m n = true) ->
  holds (fst (correct_images fs names false m folder outs)) p c.
Proof.
  intros fs names m folder outs T L p c H P. unfold correct_images.
  destruct (exists_in fs folder && _ && _)%bool eqn:G; [exact H|]. cbn [fst].
  destruct (in_dec (list_eq_dec string_dec) p (map fst (map (fun x => (folder /. [fst x], snd x)) outs))) as [I|N].
  - exfalso. rewrite map_map in I. apply in_map_iff in I as [[n t] [E _]]. cbn in E. subst p.
    specialize (P n eq_refl). rewrite andb_true_r in G.
    assert (In n names) as IN by (apply L; unfold holds in H; congruence).
    assert (fs folder = Some ADir) as D by (apply (T _ n); unfold holds in H; congruence).
    unfold exists_in in G. rewrite D in G. cbn [andb] in G.
    destruct (filter (pattern m) names) eqn:F; [|discriminate].
    assert (In n (filter (pattern m) names)) as J by now apply filter_In. rewrite F in J. exact J.
  - unfold holds. rewrite write_all_other by exact N. now apply mkdirs_keeps.
Qed.
(** Without -F neither mode changes a file its pattern describes (".npy" parameters in
    parse mode, any name with a dot in process mode); [names] lists the folder. *)
Theorem C26_correct_keeps : forall fs names m folder outs,
  tree fs -> (forall n, In n names <-> fs (folder /. [n]) <> None) ->
  forall p c, holds fs p c -> (forall n, p = folder /. [n] -> guarded m n) ->
  holds (fst (correct_images fs names false m folder outs)) p c.
Proof. intros fs names m folder outs T L p c H P. apply correct_keeps; try assumption. intros n E. apply guarded_iff. now apply P. Qed.
Print Assumptions C26_correct_keeps.
(** With -F, or when there is no such file, everything is written. *)
Theorem C26_correct_writes : forall fs names force m folder outs, (forall n, In n names <-> fs (folder /. [n]) <> None) -> NoDup (map fst outs) ->
  force = true \/ (forall n, fs (folder /. [n]) <> None -> ~ guarded m n) ->
  forall n t, In (n, t) outs -> holds (fst (correct_images fs names force m folder outs)) (folder /. [n]) t.
Proof.
  intros fs names force m folder outs L D F n t I. unfold correct_images.
  assert ((exists_in fs folder && negb (match filter (pattern m) names with [] => true | _ => false end) && negb force)%bool = false) as ->.
  { destruct F as [->|F]; [now rewrite andb_false_r|]. destruct (filter (pattern m) names) as [|x l] eqn:E; [now rewrite andb_false_r|]. exfalso. assert (In x (filter (pattern m) names)) as J by (rewrite E; now left).
    apply filter_In in J as [J1 J2]. apply guarded_iff in J2. apply L in J1. exact (F x J1 J2). }
  cbn [fst]. clear F L. generalize (mkdirs fs folder). revert D I. induction outs as [|[n' t'] outs IH]; intros D I g; [destruct I|]. cbn [map fst snd] in *. inversion_clear D as [|? ? D1 D2].
  destruct I as [I|I].
  - injection I as -> ->. unfold holds. cbn [write_all]. rewrite write_all_other; [|intros K; rewrite map_map in K; apply in_map_iff in K as ([n2 t2] & E & K); cbn [fst] in E; apply app_inv_head in E; injection E as ->; apply D1; now apply (in_map fst) in K].
    unfold write. now rewrite path_eqb_refl.
  - apply IH; assumption.
Qed.
Print Assumptions C26_correct_writes.

(** In parse mode plots left by an interrupted run are overwritten without -F. *)
Theorem C126_correct_plots_refuted : exists fs names folder outs p old, tree fs /\
  (forall n, In n names <-> fs (folder /. [n]) <> None) /\ holds fs p old /\
  ~ holds (fst (correct_images fs names false MParse folder outs)) p old.
Proof.
  exists (fs_of [([], ADir); (["params"], ADir); (["params"; "curve.png"], AFile "old")]), ["curve.png"], ["params"],
    [("curve.png", "new")], ["params"; "curve.png"], "old".
  split; [now apply tree_of|]. split.
  { intro n. split; [intros [<-|[]]; discriminate|]. intro H. apply fs_of_In in H. cbn in H.
    destruct H as [H|[H|[H|[]]]]; try discriminate. injection H as ->. now left. }
  split; [reflexivity|]. cbv. discriminate.
Qed.
Print Assumptions C126_correct_plots_refuted.

Example C26_example :
  let d := mkDive ["processed"; "d1"] "t0" "m" "v" "c" "nav" "sorted" "info" "hist" in
  let fs0 := fs_of [([], ADir); (["processed"], ADir); (["processed"; "other.txt"], AFile "x")] in
  let fs1 := fst (parse fs0 false None [d]) in
  fs1 ["processed"; "d1"; "nav"; "nav_standard.json"] = Some (AFile "sorted") /\
  fs1 ["processed"; "d1"; "log"; "t0_mission.yaml"] = Some (AFile "m") /\
  fs1 ["processed"; "other.txt"] = Some (AFile "x") /\
  fst (parse fs1 false None [mkDive ["processed"; "d1"] "t1" "m" "v" "c" "nav2" "sorted2" "info" "hist"])
    ["processed"; "d1"; "nav"; "nav_standard.json"] = Some (AFile "sorted") /\
  fst (parse fs1 true None [mkDive ["processed"; "d1"] "t1" "m" "v" "c" "nav2" "sorted2" "info" "hist"])
    ["processed"; "d1"; "nav"; "nav_standard.json"] = Some (AFile "sorted2").
Proof. repeat split; reflexivity. Qed.
Example C26_example_correct : map (pattern MParse) ["a.npy"; "a.png"; "npy"] = [true; false; false] /\
  map (pattern MProcess) ["a.npy"; "a"; "filelist.csv"] = [true; false; true].
Proof. split; reflexivity. Qed.
