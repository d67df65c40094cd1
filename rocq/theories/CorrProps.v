(** C237, C238: correct_images over several dives and cameras. *)
From Coq Require Import Ascii String.
From Verif Require Import CorrModel CorrProofs NmeaProofs BagProps.
Open Scope Q_scope.

(** ** Where files are *)
(** <processed>/image/<camera>/params_<metric>[_<suffix>]/<name> *)
Definition with_suffix (name suffix : text) : text := if place_eqb [suffix] [txt ""] then name else name ++ txt "_" ++ suffix.
Definition param_file (x : dive) (cam metric suffix name : text) : place :=
  processed x ++ [txt "image"; cam; with_suffix (txt "params_" ++ metric) suffix; name].
(** The parameters a metric needs *)
Definition needed (metric : text) : list text :=
  if text_eqb metric (txt "uniform") then [txt "image_raw_mean.npy"; txt "image_raw_std.npy"]
  else [txt "attenuation_parameters.npy"; txt "correction_gains.npy"; txt "image_corrected_mean.npy"; txt "image_corrected_std.npy"].
Definition known_metric (m : text) : Prop := In m [txt "uniform"; txt "altitude"; txt "depth_map"].

Lemma with_suffix_ok n s : with_suffix n s = suffixed n s.
Proof. destruct s; [reflexivity|]. unfold with_suffix. rewrite place_eqb_neq by discriminate. reflexivity. Qed.
Lemma param_file_ok x col suffix cam n : meth (cfg x) = Colour -> param_file x cam (metric col) suffix n = params_folder x col suffix cam ++ [n].
Proof.
  intros M. unfold param_file, params_folder, camera_folder, params_name. rewrite M, with_suffix_ok, <- !app_assoc. reflexivity.
Qed.
Lemma needed_copied m n : In n (needed m) -> In n copied.
Proof. unfold needed, copied. destruct (text_eqb m (txt "uniform")); cbn [In]; tauto. Qed.

Section Correct.
Variables I A : Type.
Variable listing : mode -> place -> config -> text -> option (list I).
Variable with_depth_map : place -> list I -> option (list I).
Variable value : text -> config -> list I -> A.
Variable out_name : I -> text.
Variable develop : config -> camcfg -> list (option A) -> I -> A.
Variable resolve : text -> option dive.
Implicit Types fs : disk A.
Notation dives_loaded := (dives_loaded I A listing).
Notation parse_camera := (parse_camera I A listing with_depth_map value).
Notation parse_cameras := (parse_cameras I A listing with_depth_map value).
Notation process_camera := (process_camera I A listing with_depth_map out_name develop).
Notation process_cameras := (process_cameras I A listing with_depth_map out_name develop).
Notation call_parse := (call_parse I A listing with_depth_map value resolve).
Notation call_process := (call_process I A listing with_depth_map out_name develop resolve).
Notation call_correct := (call_correct I A listing with_depth_map value out_name develop resolve).

(** The images a run uses for a dive and camera. *)
Definition used (m : mode) (x : dive) (metric cam : text) (images : list I) : Prop :=
  exists l, listing m (processed x) (cfg x) cam = Some l /\
    (if text_eqb metric (txt "depth_map") then with_depth_map (processed x) l = Some images else images = l).
Hypothesis some_depth_map : forall p l images, with_depth_map p l = Some images -> l <> [] -> images <> [].

Definition alike (x y : dive) : Prop := meth (cfg x) = meth (cfg y) /\ names_of (cfg x) = names_of (cfg y) /\
  forall a b, colour (cfg x) = Some a -> colour (cfg y) = Some b -> metric a = metric b.
Lemma alike_refl x : alike x x.
Proof. split; [reflexivity|split; [reflexivity|]]. intros a b E F. congruence. Qed.
Lemma all_equivalent_alike first ds : all_equivalent (cfg first) ds = Finished -> forall x, In x ds -> alike first x.
Proof.
  induction ds as [|d ds IH]; intros H x X; [destruct X|]. cbn [all_equivalent] in H. destruct (is_equivalent (cfg first) (cfg d)) as [[|]|] eqn:E; try discriminate.
  destruct X as [->|X]; [|now apply IH]. apply is_equivalent_spec in E. destruct E as (M & N & a & b & Ea & Eb & Em). split; [exact M|split; [exact N|]]. intros; congruence.
Qed.
Lemma last_in {T} (rest : list T) first : In (last rest first) (first :: rest).
Proof.
  assert (rest <> [] -> In (last rest first) rest) as H; [|destruct rest as [|d rest]; [now left|right; now apply H]].
  induction rest as [|d rest IH]; [congruence|]. intros _. destruct rest as [|e rest]; [now left|]. right. apply IH. discriminate.
Qed.

Lemma loaded_ready fs force suffix c ds : dives_loaded fs force suffix c ds = Finished -> forall x, In x ds -> meth (cfg x) = Colour ->
  topic_found (mission x) (cam_name c) = true /\ (exists l, listing MParse (processed x) (cfg x) (cam_name c) = Some l) /\
  exists col cc, colour (cfg x) = Some col /\ find_camera (cfg x) (cam_name c) = Some cc /\ text_eqb (extension c) (txt "bag") = false /\
    (force = false -> globbed is_npy fs (params_folder x col suffix (cam_name c)) = false).
Proof.
  induction ds as [|d ds IH]; intros H x X M; [destruct X|]. cbn [CorrModel.dives_loaded] in H. destruct (topic_found (mission d) (cam_name c)) eqn:T; [|discriminate].
  destruct (load_configuration fs MParse force suffix d c) as [col cc| | |] eqn:L; try discriminate.
  - destruct X as [->|X].
    + rewrite M in H. destruct (listing MParse (processed x) (cfg x) (cam_name c)) as [l|] eqn:E; [|discriminate].
      split; [exact T|split; [now exists l|]]. unfold load_configuration in L. destruct (colour (cfg x)) as [col'|]; [|discriminate].
      destruct (find_camera (cfg x) (cam_name c)) as [cc'|]; [|discriminate]. exists col', cc'. split; [reflexivity|split; [reflexivity|]].
      destruct (globbed is_npy fs (params_folder x col' suffix (cam_name c))), force; cbn [andb negb] in L; try discriminate;
      destruct (text_eqb (extension c) (txt "bag")); try discriminate; split; auto; discriminate.
    + apply IH; auto. destruct (meth (cfg d)); [|exact H]. destruct (listing MParse (processed d) (cfg d) (cam_name c)); [exact H|discriminate].
  - destruct (meth (cfg d)) eqn:Md; [discriminate|]. destruct X as [->|X]; [congruence|]. now apply IH.
Qed.

(** What parsing one camera does. *)
Lemma parse_camera_spec fs force suffix first rest c fs' s : parse_camera fs force suffix first rest c = (fs', s) ->
  let d := last rest first in
  (fs' = fs /\ (s = Finished -> meth (cfg d) = Manual)) \/
  (s = Finished /\ meth (cfg d) = Colour /\ dives_loaded fs force suffix c (first :: rest) = Finished /\ exists col images l, colour (cfg d) = Some col /\
   listing MParse (processed d) (cfg d) (cam_name c) = Some l /\ (3 <= length l)%nat /\ depth_maps I with_depth_map d col l = Some images /\
   fs' = fold_left (fun fs x => copy_params A (params_folder d col suffix (cam_name c)) (processed x ++ [txt "image"; cam_name c; params_name (cfg d) col suffix]) fs) (first :: rest)
           (write_params I A value fs (params_folder d col suffix (cam_name c)) (cfg d) (produced I col images) images)).
Proof.
  intros H d. unfold CorrModel.parse_camera in H. fold d in H. destruct (dives_loaded fs force suffix c (first :: rest)) eqn:L.
  2, 3: left; injection H as <- <-; split; [reflexivity|discriminate].
  destruct (meth (cfg d)) eqn:M.
  2: { left. injection H as <- <-. now split. }
  destruct (loaded_ready _ _ _ _ _ L d (last_in rest first) M) as (_ & (l & El) & col & cc & Ec & _).
  rewrite Ec, El in H. destruct (Nat.ltb (length l) 3) eqn:N. { left. injection H as <- <-. split; [reflexivity|discriminate]. }
  apply Nat.ltb_ge in N. destruct (depth_maps I with_depth_map d col l) as [images|] eqn:D. 2: { left. injection H as <- <-. split; [reflexivity|discriminate]. }
  right. assert (s = Finished) by congruence. split; [assumption|]. split; [reflexivity|]. split; [reflexivity|]. exists col, images, l.
  split; [exact Ec|split; [exact El|split; [exact N|split; [exact D|]]]]. congruence.
Qed.

Definition eight : list text := [txt "images_map.npy"; txt "distances_map.npy"; txt "attenuation_parameters.npy"; txt "correction_gains.npy";
  txt "image_corrected_mean.npy"; txt "image_corrected_std.npy"; txt "image_raw_mean.npy"; txt "image_raw_std.npy"].
Lemma produced_eight col images n : In n (produced I col images) -> In n eight.
Proof. unfold produced, eight. destruct (measured I col images); cbn [In]; tauto. Qed.
Lemma copied_eight n : In n copied -> In n eight.
Proof. unfold copied, eight. cbn [In]. tauto. Qed.
Lemma eight_npy n : In n eight -> is_npy n = true.
Proof. unfold eight. cbn [In]. intros H. repeat (destruct H as [<-|H]; [vm_compute; reflexivity|]). destruct H. Qed.

Lemma params_folder_of d col suffix cam : params_folder d col suffix cam = processed d ++ [txt "image"; cam; params_name (cfg d) col suffix].
Proof. unfold params_folder, camera_folder. now rewrite <- app_assoc. Qed.
Lemma params_name_alike first x y a b suffix : alike first x -> alike first y -> meth (cfg x) = Colour -> colour (cfg first) <> None ->
  colour (cfg x) = Some a -> colour (cfg y) = Some b -> params_name (cfg x) a suffix = params_name (cfg y) b suffix.
Proof.
  intros (M1 & _ & C1) (M2 & _ & C2) M N Ea Eb. unfold params_name. rewrite M, <- M2, M1, M. destruct (colour (cfg first)) as [f|] eqn:F; [|congruence].
  rewrite <- (C1 f a eq_refl Ea), <- (C2 f b eq_refl Eb). reflexivity.
Qed.

Lemma parse_camera_frame fs force suffix first rest c fs' s : parse_camera fs force suffix first rest c = (fs', s) -> forall p,
  (forall x n col, In x (first :: rest) -> In n eight -> colour (cfg (last rest first)) = Some col -> meth (cfg (last rest first)) = Colour ->
    dives_loaded fs force suffix c (first :: rest) = Finished ->
    p <> processed x ++ [txt "image"; cam_name c; params_name (cfg (last rest first)) col suffix; n]) -> lookup fs' p = lookup fs p.
Proof.
  intros H p O. apply parse_camera_spec in H. cbv zeta in H. destruct H as [[-> _]|(-> & M & L & col & images & l & Ec & El & N & Dm & ->)]; [reflexivity|].
  rewrite all_copies_other. rewrite write_params_other; [reflexivity|].
  - intros n Nn. rewrite params_folder_of, <- app_assoc. apply O; auto; [apply last_in|now apply produced_eight in Nn].
  - intros x n X Nn. apply O; auto. now apply copied_eight.
Qed.

Lemma parse_camera_keeps fs suffix first rest c fs' s : (forall x, In x (first :: rest) -> alike first x) ->
  parse_camera fs false suffix first rest c = (fs', s) -> forall p a, lookup fs p = Some a -> lookup fs' p = Some a.
Proof.
  intros Al H p a La. pose proof (parse_camera_spec _ _ _ _ _ _ _ _ H) as Sp. cbv zeta in Sp.
  destruct Sp as [[-> _]|(_ & M & L & col & images & l & Ec & El & N & Dm & E)]; [exact La|]. set (d := last rest first) in *.
  assert (forall x n, In x (first :: rest) -> In n eight -> p <> processed x ++ [txt "image"; cam_name c; params_name (cfg d) col suffix; n]) as O.
  { intros x n X Nn ->. pose proof (Al d (last_in rest first)) as Ad. pose proof (Al x X) as Ax.
    assert (meth (cfg x) = Colour) as Mx by (destruct Ad as [? _], Ax as [? _]; congruence).
    assert (meth (cfg first) = Colour) as Mf by (destruct Ad as [? _]; congruence).
    destruct (loaded_ready _ _ _ _ _ L x X Mx) as (_ & _ & colx & cc & Ex & _ & _ & G). specialize (G eq_refl).
    destruct (loaded_ready _ _ _ _ _ L first (or_introl eq_refl) Mf) as (_ & _ & colf & _ & Ef & _).
    apply globbed_none with (n := n) in G; [|now apply eight_npy]. rewrite params_folder_of, <- app_assoc in G. cbn [app] in G.
    rewrite (params_name_alike first x d colx col) in G; auto; [congruence|congruence]. }
  rewrite E, all_copies_other, write_params_other; [exact La| |].
  - intros n Nn. rewrite params_folder_of, <- app_assoc. apply O; [apply last_in|now apply produced_eight in Nn].
  - intros x n X Nn. apply O; [exact X|now apply copied_eight].
Qed.

Lemma parse_cameras_keeps memmap suffix first rest cs : (forall x, In x (first :: rest) -> alike first x) -> forall fs fs' s,
  parse_cameras fs memmap false suffix first rest cs = (fs', s) -> forall p a, lookup fs p = Some a -> lookup fs' p = Some a.
Proof.
  intros Al. induction cs as [|c cs IH]; intros fs fs' s H p a La; [cbn in H; congruence|]. cbn [CorrModel.parse_cameras] in H.
  destruct (existsb (text_eqb (cam_name c)) (names_of (cfg first))); [|now apply (IH _ _ _ H)]. destruct memmap; [|congruence].
  destruct (parse_camera fs false suffix first rest c) as [fs1 s1] eqn:P. pose proof (parse_camera_keeps _ _ _ _ _ _ _ Al P p a La) as K.
  destruct s1; [now apply (IH _ _ _ H)|congruence|congruence].
Qed.
Lemma call_parse_inv fs memmap force suffix paths fs' s : call_parse fs memmap force suffix paths = (fs', s) ->
  (fs' = fs /\ s <> Finished) \/ exists first rest, resolved resolve paths = Some (first :: rest) /\ (forall x, In x (first :: rest) -> alike first x) /\
    parse_cameras fs memmap force suffix first rest (cameras first) = (fs', s).
Proof.
  intros H. unfold CorrModel.call_parse in H. destruct (resolved resolve paths) as [[|first rest]|] eqn:R; [left; injection H as <- <-; now split| |left; injection H as <- <-; now split].
  destruct (forallb (fun d => text_eqb (system first) (system d)) rest); [|left; injection H as <- <-; now split].
  destruct rest as [|d rest].
  - right. exists first, []. split; [reflexivity|split; [|exact H]]. intros x [<-|[]]. apply alike_refl.
  - destruct (all_equivalent (cfg first) (first :: d :: rest)) eqn:E; [|left; injection H as <- <-; now split|left; injection H as <- <-; now split].
    right. exists first, (d :: rest). split; [reflexivity|split; [|exact H]]. now apply all_equivalent_alike.
Qed.

Lemma resolved_in paths : forall ds, resolved resolve paths = Some ds -> forall x, In x ds -> exists path, In path paths /\ resolve path = Some x.
Proof.
  induction paths as [|p paths IH]; intros ds H x X; cbn in H; [injection H as <-; destruct X|]. destruct (resolve p) as [d|] eqn:E; [|discriminate].
  destruct (resolved resolve paths) as [l|]; [|discriminate]. injection H as <-. destruct X as [->|X]; [exists p; split; [now left|exact E]|].
  destruct (IH l eq_refl x X) as (q & Q & R). exists q. split; [now right|exact R].
Qed.
Lemma resolved_all paths : forall ds, resolved resolve paths = Some ds -> forall path, In path paths -> exists x, In x ds /\ resolve path = Some x.
Proof.
  induction paths as [|p paths IH]; intros ds H path P; [destruct P|]. cbn in H. destruct (resolve p) as [d|] eqn:E; [|discriminate].
  destruct (resolved resolve paths) as [l|]; [|discriminate]. injection H as <-. destruct P as [->|P]; [exists d; split; [now left|exact E]|].
  destruct (IH l eq_refl path P) as (x & X & R). exists x. split; [now right|exact R].
Qed.
Lemma resolved_head paths first rest : resolved resolve paths = Some (first :: rest) -> resolve (hd [] paths) = Some first.
Proof. destruct paths as [|p paths]; cbn; [discriminate|]. destruct (resolve p) as [d|]; [|discriminate]. destruct (resolved resolve paths); [|discriminate]. congruence. Qed.

Lemma last_default {T} (l : list T) a b : l <> [] -> last l a = last l b.
Proof. induction l as [|x l IH]; [congruence|]. intros _. destruct l as [|y l]; [reflexivity|]. change (last (y :: l) a = last (y :: l) b). apply IH. discriminate. Qed.
Lemma resolved_last paths : forall first rest, resolved resolve paths = Some (first :: rest) -> resolve (last paths []) = Some (last rest first).
Proof.
  induction paths as [|p paths IH]; intros first rest H; cbn [resolved] in H; [discriminate|]. destruct (resolve p) as [d|] eqn:E; [|discriminate].
  destruct (resolved resolve paths) as [l|] eqn:R; [|discriminate]. assert (d = first /\ l = rest) as [-> ->] by (split; congruence).
  destruct paths as [|q paths]. { cbn in R. assert (rest = []) as -> by congruence. exact E. }
  destruct rest as [|d rest]. { cbn in R. destruct (resolve q); [|discriminate]. destruct (resolved resolve paths); discriminate. }
  change (last (p :: q :: paths) []) with (last (q :: paths) (@nil N)). rewrite (IH _ _ eq_refl). f_equal. destruct rest as [|e rest]; [reflexivity|].
  change (last (d :: e :: rest) first) with (last (e :: rest) first). apply last_default. discriminate.
Qed.

Theorem C237_parse_keeps : forall fs memmap suffix paths, let '(fs', _) := call_parse fs memmap false suffix paths in
  forall p a, lookup fs p = Some a -> lookup fs' p = Some a.
Proof.
  intros fs memmap suffix paths. destruct (call_parse fs memmap false suffix paths) as [fs' s] eqn:H. apply call_parse_inv in H.
  destruct H as [[-> _]|(first & rest & _ & Al & H)]; [auto|]. intros p a. now apply (parse_cameras_keeps _ _ _ _ _ Al _ _ _ H).
Qed.


Lemma parse_cameras_frame memmap force suffix first rest : (forall x, In x (first :: rest) -> alike first x) -> forall cs fs fs' s,
  parse_cameras fs memmap force suffix first rest cs = (fs', s) -> forall p,
  (forall x c n col, In x (first :: rest) -> In c cs -> In (cam_name c) (names_of (cfg first)) -> In n eight -> colour (cfg first) = Some col -> meth (cfg first) = Colour ->
    p <> param_file x (cam_name c) (metric col) suffix n) -> lookup fs' p = lookup fs p.
Proof.
  intros Al. induction cs as [|c cs IH]; intros fs fs' s H p O; [cbn in H; congruence|]. cbn [CorrModel.parse_cameras] in H.
  assert (forall fs1, parse_cameras fs1 memmap force suffix first rest cs = (fs', s) -> lookup fs' p = lookup fs1 p) as Later.
  { intros fs1 H1. apply (IH _ _ _ H1). intros x c' n col X C. apply O; [exact X|now right]. }
  destruct (existsb (text_eqb (cam_name c)) (names_of (cfg first))) eqn:Ex; [|now apply Later]. destruct memmap; [|congruence].
  apply existsb_exists in Ex. destruct Ex as (nm & Nm & Et). apply text_eqb_iff in Et. subst nm.
  destruct (parse_camera fs force suffix first rest c) as [fs1 s1] eqn:P.
  assert (lookup fs1 p = lookup fs p) as Now.
  { apply (parse_camera_frame _ _ _ _ _ _ _ _ P). intros x n col X Nn Ec M L. pose proof (Al _ (last_in rest first)) as Ad.
    assert (meth (cfg first) = Colour) as Mf by (destruct Ad as [? _]; congruence).
    destruct (loaded_ready _ _ _ _ _ L first (or_introl eq_refl) Mf) as (_ & _ & colf & _ & Ef & _).
    specialize (O x c n colf X (or_introl eq_refl) Nm Nn Ef Mf). unfold param_file in O. unfold params_name. rewrite M, <- with_suffix_ok. destruct Ad as (_ & _ & C).
    now rewrite <- (C colf col Ef Ec). }
  destruct s1; [rewrite (Later _ H)|..]; congruence.
Qed.
Theorem C237_parse_frame : forall fs memmap force suffix paths p,
  (forall path x c cc n col first, In path paths -> resolve path = Some x ->
    resolve (hd [] paths) = Some first -> In c (cameras first) -> In cc (cams (cfg first)) -> cc_name cc = cam_name c ->
    colour (cfg first) = Some col -> meth (cfg first) = Colour -> In n eight -> p <> param_file x (cam_name c) (metric col) suffix n) ->
  lookup (fst (call_parse fs memmap force suffix paths)) p = lookup fs p.
Proof.
  intros fs memmap force suffix paths p O. destruct (call_parse fs memmap force suffix paths) as [fs' s] eqn:H. cbn [fst].
  apply call_parse_inv in H. destruct H as [[-> _]|(first & rest & R & Al & H)]; [reflexivity|].
  apply (parse_cameras_frame _ _ _ _ _ Al _ _ _ _ H). intros x c n col X Ic Nm Nn Ec M. destruct (resolved_in _ _ R x X) as (path & Ip & Rp).
  apply in_map_iff in Nm. destruct Nm as (cc & En & Icc). apply (O path x c cc n col first); auto. now apply resolved_head in R.
Qed.

(** A parameter file of a camera after parsing that camera, and the cameras after it. *)
Lemma param_file_inj x y cam cam' m m' suffix n n' : param_file x cam m suffix n = param_file y cam' m' suffix n' -> processed x = processed y /\ cam = cam' /\ n = n'.
Proof. unfold param_file. intros H. apply five_inj in H. intuition. Qed.
Lemma needed_produced col images n : known_metric (metric col) -> images <> [] -> In n (needed (metric col)) -> In n (produced I col images).
Proof.
  intros K Ne H. unfold produced, measured. unfold known_metric in K. cbn [In] in K. destruct images as [|i images]; [congruence|]. cbn [negb]. rewrite andb_true_r.
  destruct K as [K|[K|[K|[]]]]; rewrite <- K in *; cbn in H |- *; tauto.
Qed.
Lemma parse_camera_shared fs force suffix first rest c fs' : (forall x, In x (first :: rest) -> alike first x) -> meth (cfg first) = Colour ->
  parse_camera fs force suffix first rest c = (fs', Finished) -> exists col images,
    colour (cfg (last rest first)) = Some col /\ colour (cfg first) <> None /\ used MParse (last rest first) (metric col) (cam_name c) images /\
    (known_metric (metric col) -> forall x n, In x (first :: rest) -> In n (needed (metric col)) ->
      lookup fs' (param_file x (cam_name c) (metric col) suffix n) = Some (value n (cfg (last rest first)) images)).
Proof.
  intros Al Mf H. pose proof (Al _ (last_in rest first)) as Ad. apply parse_camera_spec in H. cbv zeta in H. set (d := last rest first) in *.
  assert (meth (cfg d) = Colour) as Md by (destruct Ad as [? _]; congruence).
  destruct H as [[_ H]|(_ & _ & L & col & images & l & Ec & El & N & Dm & E)]; [rewrite (H eq_refl) in Md; discriminate|].
  exists col, images. split; [exact Ec|]. destruct (loaded_ready _ _ _ _ _ L first (or_introl eq_refl) Mf) as (_ & _ & colf & _ & Ef & _). split; [congruence|].
  assert (images <> []) as Ne.
  { unfold depth_maps in Dm. destruct (text_eqb (metric col) depth_map).
    - apply (some_depth_map _ _ _ Dm). destruct l; [cbn in N; lia|discriminate].
    - assert (images = l) by congruence. subst. destruct l; [cbn in N; lia|discriminate]. }
  split. { exists l. split; [exact El|]. unfold depth_maps, depth_map in Dm. destruct (text_eqb (metric col) (txt "depth_map")); [exact Dm|congruence]. }
  intros K x n X Nn. rewrite E.
  assert (lookup (write_params I A value fs (params_folder d col suffix (cam_name c)) (cfg d) (produced I col images) images) (params_folder d col suffix (cam_name c) ++ [n]) = Some (value n (cfg d) images)) as W
    by (apply write_params_in; now apply needed_produced).
  pose proof (all_copies_dest A (params_folder d col suffix (cam_name c)) [txt "image"; cam_name c; params_name (cfg d) col suffix] (first :: rest) n _ (needed_copied _ _ Nn) _ x X W) as R.
  unfold param_file. rewrite with_suffix_ok. unfold params_name in R |- *. rewrite Md in R |- *. exact R.
Qed.
Lemma parse_cameras_shared force suffix first rest : (forall x, In x (first :: rest) -> alike first x) -> meth (cfg first) = Colour -> forall cs fs fs',
  NoDup (map cam_name cs) -> parse_cameras fs true force suffix first rest cs = (fs', Finished) -> forall c, In c cs -> In (cam_name c) (names_of (cfg first)) -> exists col images,
    colour (cfg (last rest first)) = Some col /\ used MParse (last rest first) (metric col) (cam_name c) images /\
    (known_metric (metric col) -> forall x n, In x (first :: rest) -> In n (needed (metric col)) ->
      lookup fs' (param_file x (cam_name c) (metric col) suffix n) = Some (value n (cfg (last rest first)) images)).
Proof.
  intros Al Mf. induction cs as [|b cs IH]; intros fs fs' D H c C Nm; [destruct C|]. cbn [map] in D. inversion D as [|z zs J D']. subst.
  cbn [CorrModel.parse_cameras] in H. destruct C as [->|C].
  - assert (existsb (text_eqb (cam_name c)) (names_of (cfg first)) = true) as Ex by (apply existsb_exists; exists (cam_name c); split; [exact Nm|apply text_eqb_refl]).
    rewrite Ex in H. destruct (parse_camera fs force suffix first rest c) as [fs1 s1] eqn:P. destruct s1; [|discriminate|discriminate].
    destruct (parse_camera_shared _ _ _ _ _ _ _ Al Mf P) as (col & images & Ec & Ef & U & R). exists col, images. split; [exact Ec|split; [exact U|]].
    intros K x n X Nn. rewrite <- (R K x n X Nn). apply (parse_cameras_frame _ _ _ _ _ Al _ _ _ _ H). intros y c' m col' Y C' _ _ _ _ Ep.
    apply param_file_inj in Ep. destruct Ep as (_ & Ep & _). apply J. rewrite Ep. now apply in_map.
  - destruct (existsb (text_eqb (cam_name b)) (names_of (cfg first))); [|now apply (IH _ _ D' H)].
    destruct (parse_camera fs force suffix first rest b) as [fs1 s1]. destruct s1; [|discriminate|discriminate]. now apply (IH _ _ D' H).
Qed.

Theorem C237_shared : forall fs force suffix paths fs' first lastp d, call_parse fs true force suffix paths = (fs', Finished) ->
  resolve (hd [] paths) = Some first -> lastp = last paths [] -> resolve lastp = Some d -> meth (cfg first) = Colour -> NoDup (map cam_name (cameras first)) ->
  forall c cc, In c (cameras first) -> In cc (cams (cfg first)) -> cc_name cc = cam_name c -> exists col images,
    colour (cfg d) = Some col /\ used MParse d (metric col) (cam_name c) images /\
    (known_metric (metric col) -> forall path x n, In path paths -> resolve path = Some x -> In n (needed (metric col)) ->
      lookup fs' (param_file x (cam_name c) (metric col) suffix n) = Some (value n (cfg d) images)).
Proof.
  intros fs force suffix paths fs' first lastp d H Rf -> Rd M D c cc C Cc En. apply call_parse_inv in H. destruct H as [[_ H]|(first' & rest & R & Al & H)]; [congruence|].
  pose proof (resolved_head _ _ _ R) as Rh. assert (first' = first) as -> by congruence.
  assert (last rest first = d) as Ed. { apply resolved_last in R. congruence. }
  destruct (parse_cameras_shared _ _ _ _ Al M _ _ _ D H c C) as (col & images & Ec & U & S). { rewrite <- En. now apply in_map. }
  rewrite Ed in *. exists col, images. split; [exact Ec|split; [exact U|]]. intros K path x n P Rx Nn. destruct (resolved_all _ _ R path P) as (y & Y & Ry).
  assert (x = y) as -> by congruence. now apply S.
Qed.

(** ** process *)
Definition developed_file (x : dive) (cam : text) (cc : camcfg) (metric suffix name : text) : place :=
  processed x ++ [txt "image"; cam; with_suffix (txt "corrected_" ++ metric ++ txt "_mean_" ++ show_int (truncated (brightness cc)) ++ txt "_std_"
                                                 ++ show_int (truncated (contrast cc))) suffix; name].
Lemma developed_file_ok x col cc suffix cam n : meth (cfg x) = Colour -> developed_file x cam cc (metric col) suffix n = developed_folder x col cc suffix cam ++ [n].
Proof. intros M. unfold developed_file, developed_folder, camera_folder, developed_name. rewrite M, with_suffix_ok, <- !app_assoc. reflexivity. Qed.
Lemma developed_folder_of x col cc suffix cam n : developed_folder x col cc suffix cam ++ [n] = processed x ++ [txt "image"; cam; developed_name (cfg x) col cc suffix; n].
Proof. unfold developed_folder, camera_folder. now rewrite <- !app_assoc. Qed.
(** The parameters that are read: the six of them, without the raw ones unless they are what is needed. *)
Definition six : list text := [txt "attenuation_parameters.npy"; txt "correction_gains.npy"; txt "image_corrected_mean.npy"; txt "image_corrected_std.npy";
  txt "image_raw_mean.npy"; txt "image_raw_std.npy"].
Definition wanted (metric n : text) : bool :=
  text_eqb metric (txt "uniform") || negb (text_eqb n (txt "image_raw_mean.npy") || text_eqb n (txt "image_raw_std.npy")).
Definition parameters fs (x : dive) (cam metric suffix : text) : list (option A) :=
  map (fun n => if wanted metric n then lookup fs (param_file x cam metric suffix n) else None) six.

Lemma read_params_spec fs x col suffix cam ps : meth (cfg x) = Colour -> read_params A fs (params_folder x col suffix cam) col = Some ps ->
  ps = parameters fs x cam (metric col) suffix /\ forall n, In n (needed (metric col)) -> lookup fs (param_file x cam (metric col) suffix n) <> None.
Proof.
  intros M H. unfold read_params in H. rewrite <- !(param_file_ok x col suffix cam _ M) in H. unfold parameters, six, needed, wanted. cbn [map].
  change uniform with (txt "uniform") in H. destruct (text_eqb (metric col) (txt "uniform")); cbn [orb] in *.
  - destruct (lookup fs (param_file x cam (metric col) suffix n_raw_mean)) as [a|] eqn:Ea; [|discriminate].
    destruct (lookup fs (param_file x cam (metric col) suffix n_raw_std)) as [b|] eqn:Eb; [|discriminate].
    unfold n_raw_mean, n_raw_std, n_attenuation, n_gains, n_mean, n_std in *. split; [rewrite Ea, Eb; congruence|].
    intros n [<-|[<-|[]]]; congruence.
  - destruct (lookup fs (param_file x cam (metric col) suffix n_attenuation)) as [a|] eqn:Ea; [|discriminate].
    destruct (lookup fs (param_file x cam (metric col) suffix n_gains)) as [b|] eqn:Eb; [|discriminate].
    destruct (lookup fs (param_file x cam (metric col) suffix n_mean)) as [c|] eqn:Ec; [|discriminate].
    destruct (lookup fs (param_file x cam (metric col) suffix n_std)) as [e|] eqn:Ee; [|discriminate].
    unfold n_raw_mean, n_raw_std, n_attenuation, n_gains, n_mean, n_std in *. split; [rewrite Ea, Eb, Ec, Ee; assert (ps = [Some a; Some b; Some c; Some e; None; None]) as -> by congruence; reflexivity|].
    intros n [<-|[<-|[<-|[<-|[]]]]]; congruence.
Qed.
Lemma read_params_found fs x col suffix cam : meth (cfg x) = Colour -> (forall n, In n (needed (metric col)) -> lookup fs (param_file x cam (metric col) suffix n) <> None) ->
  exists ps, read_params A fs (params_folder x col suffix cam) col = Some ps.
Proof.
  intros M H. unfold read_params. rewrite <- !(param_file_ok x col suffix cam _ M). unfold needed in H. change (txt "uniform") with uniform in H.
  destruct (text_eqb (metric col) uniform).
  - pose proof (H n_raw_mean (or_introl eq_refl)) as Ha. pose proof (H n_raw_std (or_intror (or_introl eq_refl))) as Hb.
    destruct (lookup fs (param_file x cam (metric col) suffix n_raw_mean)); [|congruence]. destruct (lookup fs (param_file x cam (metric col) suffix n_raw_std)); [eauto|congruence].
  - pose proof (H n_attenuation (or_introl eq_refl)) as Ha. pose proof (H n_gains (or_intror (or_introl eq_refl))) as Hb.
    pose proof (H n_mean (or_intror (or_intror (or_introl eq_refl)))) as Hc. pose proof (H n_std (or_intror (or_intror (or_intror (or_introl eq_refl))))) as Hd.
    destruct (lookup fs (param_file x cam (metric col) suffix n_attenuation)); [|congruence]. destruct (lookup fs (param_file x cam (metric col) suffix n_gains)); [|congruence].
    destruct (lookup fs (param_file x cam (metric col) suffix n_mean)); [|congruence]. destruct (lookup fs (param_file x cam (metric col) suffix n_std)); [eauto|congruence].
Qed.

Lemma process_camera_spec fs force suffix d c fs' s : process_camera fs force suffix d c = (fs', s) ->
  (fs' = fs /\ (s = Finished -> find_camera (cfg d) (cam_name c) = None)) \/
  (s = Finished /\ exists col cc images ps, colour (cfg d) = Some col /\ find_camera (cfg d) (cam_name c) = Some cc /\
   (force = false -> globbed is_any fs (developed_folder d col cc suffix (cam_name c)) = false) /\
   (meth (cfg d) = Colour -> used MProcess d (metric col) (cam_name c) images /\ read_params A fs (params_folder d col suffix (cam_name c)) col = Some ps) /\
   fs' = write_images I A out_name develop fs (developed_folder d col cc suffix (cam_name c)) (cfg d) cc ps images).
Proof.
  intros H. unfold CorrModel.process_camera in H. destruct (topic_found (mission d) (cam_name c)); [|left; injection H as <- <-; split; [reflexivity|discriminate]].
  destruct (load_configuration fs MProcess force suffix d c) as [col cc| | |] eqn:L.
  2: { left. injection H as <- <-. split; [reflexivity|]. intros _. unfold load_configuration in L. destruct (colour (cfg d)); [|discriminate].
       destruct (find_camera (cfg d) (cam_name c)); [|reflexivity]. destruct (_ && _)%bool; [discriminate|]. destruct (text_eqb _ _); discriminate. }
  2, 3: left; injection H as <- <-; split; [reflexivity|discriminate].
  assert (colour (cfg d) = Some col /\ find_camera (cfg d) (cam_name c) = Some cc /\ (force = false -> globbed is_any fs (developed_folder d col cc suffix (cam_name c)) = false)) as (Ec & Ecc & G).
  { unfold load_configuration in L. destruct (colour (cfg d)) as [col'|]; [|discriminate]. destruct (find_camera (cfg d) (cam_name c)) as [cc'|]; [|discriminate].
    destruct (globbed is_any fs (developed_folder d col' cc' suffix (cam_name c))) eqn:Gl, force; cbn [andb negb] in L; try discriminate;
    (destruct (text_eqb (extension c) (txt "bag")); [discriminate|]); assert (col' = col /\ cc' = cc) as [-> ->] by (split; congruence); split; auto; split; auto; discriminate. }
  destruct (listing MProcess (processed d) (cfg d) (cam_name c)) as [l|] eqn:El; [|left; injection H as <- <-; split; [reflexivity|discriminate]].
  destruct (meth (cfg d)) eqn:M.
  - destruct (depth_maps I with_depth_map d col l) as [images|] eqn:D; [|left; injection H as <- <-; split; [reflexivity|discriminate]].
    destruct (read_params A fs (params_folder d col suffix (cam_name c)) col) as [ps|] eqn:R; [|left; injection H as <- <-; split; [reflexivity|discriminate]].
    right. split; [congruence|]. exists col, cc, images, ps. split; [exact Ec|split; [exact Ecc|split; [exact G|split; [|congruence]]]]. intros _. split; [|exact R].
    exists l. split; [exact El|]. unfold depth_maps, depth_map in D. destruct (text_eqb (metric col) (txt "depth_map")); [exact D|congruence].
  - right. split; [congruence|]. exists col, cc, l, []. split; [exact Ec|split; [exact Ecc|split; [exact G|split; [discriminate|congruence]]]].
Qed.

Lemma process_camera_frame fs force suffix d c fs' s : process_camera fs force suffix d c = (fs', s) -> forall p,
  (forall col cc n, colour (cfg d) = Some col -> find_camera (cfg d) (cam_name c) = Some cc -> p <> processed d ++ [txt "image"; cam_name c; developed_name (cfg d) col cc suffix; n]) ->
  lookup fs' p = lookup fs p.
Proof.
  intros H p O. apply process_camera_spec in H. destruct H as [[-> _]|(_ & col & cc & images & ps & Ec & Ecc & _ & _ & ->)]; [reflexivity|].
  apply write_images_other. intros i _. rewrite developed_folder_of. now apply O.
Qed.
Lemma process_cameras_frame suffix force d cs : forall fs fs' s, process_cameras fs force suffix d cs = (fs', s) -> forall p,
  (forall c col cc n, In c cs -> colour (cfg d) = Some col -> find_camera (cfg d) (cam_name c) = Some cc -> p <> processed d ++ [txt "image"; cam_name c; developed_name (cfg d) col cc suffix; n]) ->
  lookup fs' p = lookup fs p.
Proof.
  induction cs as [|c cs IH]; intros fs fs' s H p O; [cbn in H; congruence|]. cbn [CorrModel.process_cameras] in H.
  assert (forall fs1, process_cameras fs1 force suffix d cs = (fs', s) -> lookup fs' p = lookup fs1 p) as Later.
  { intros fs1 H1. apply (IH _ _ _ H1). intros c' col cc n C. apply O. now right. }
  destruct (Nat.eqb (cam_images c) 0); [now apply Later|]. destruct (process_camera fs force suffix d c) as [fs1 s1] eqn:P.
  assert (lookup fs1 p = lookup fs p) as Now by (apply (process_camera_frame _ _ _ _ _ _ _ P); intros col cc n; apply O; now left).
  destruct s1; [rewrite (Later _ H)|..]; congruence.
Qed.
Lemma developed_not_params c col cc suffix c' col' : developed_name c col cc suffix <> suffixed (txt "params_" ++ metric col') c'.
Proof. unfold developed_name, suffixed. destruct (meth c), suffix, c'; intros H; apply (f_equal (@hd N 0%N)) in H; vm_compute in H; discriminate. Qed.

Theorem C237_process_keeps : (forall i, In 46%N (out_name i)) -> forall fs suffix path, let '(fs', _) := call_process fs false suffix path in
  forall p a, lookup fs p = Some a -> lookup fs' p = Some a.
Proof.
  intros Dot fs suffix path. destruct (call_process fs false suffix path) as [fs' s] eqn:H. unfold CorrModel.call_process in H.
  destruct (resolve path) as [d|]; [|injection H as <- <-; auto]. revert fs H. induction (cameras d) as [|c cs IH]; intros fs H p a La; [cbn in H; congruence|].
  cbn [CorrModel.process_cameras] in H. destruct (Nat.eqb (cam_images c) 0); [now apply (IH fs H)|]. destruct (process_camera fs false suffix d c) as [fs1 s1] eqn:P.
  assert (lookup fs1 p = Some a) as K.
  { apply process_camera_spec in P. destruct P as [[-> _]|(_ & col & cc & images & ps & Ec & Ecc & G & _ & ->)]; [exact La|].
    rewrite write_images_other; [exact La|]. intros i _ ->. rewrite globbed_none with (ok := is_any) in La; [discriminate|now apply G|].
    unfold is_any. apply existsb_exists. exists 46%N. split; [apply Dot|reflexivity]. }
  destruct s1; [now apply (IH fs1 H)|congruence|congruence].
Qed.

Theorem C237_process : forall fs force suffix path d fs', call_process fs force suffix path = (fs', Finished) -> resolve path = Some d ->
  meth (cfg d) = Colour -> NoDup (map cam_name (cameras d)) ->
  forall c cc col, In c (cameras d) -> cam_images c <> 0%nat -> find_camera (cfg d) (cam_name c) = Some cc -> colour (cfg d) = Some col -> exists images,
    used MProcess d (metric col) (cam_name c) images /\
    (forall n, In n (needed (metric col)) -> lookup fs (param_file d (cam_name c) (metric col) suffix n) <> None) /\
    (NoDup (map out_name images) -> forall i, In i images ->
      lookup fs' (developed_file d (cam_name c) cc (metric col) suffix (out_name i)) =
      Some (develop (cfg d) cc (parameters fs d (cam_name c) (metric col) suffix) i)).
Proof.
  intros fs force suffix path d fs' H R M D c cc col C Ni Ecc Ec. unfold CorrModel.call_process in H. rewrite R in H. clear R. revert fs H D C.
  induction (cameras d) as [|b cs IH]; intros fs H D C; [destruct C|]. cbn [map] in D. inversion D as [|z zs J D']. subst. cbn [CorrModel.process_cameras] in H.
  destruct C as [->|C].
  - destruct (Nat.eqb (cam_images c) 0) eqn:E0; [apply Nat.eqb_eq in E0; contradiction|]. destruct (process_camera fs force suffix d c) as [fs1 s1] eqn:P.
    destruct s1; [|discriminate|discriminate]. apply process_camera_spec in P.
    destruct P as [[_ P]|(_ & col' & cc' & images & ps & Ec' & Ecc' & _ & U & ->)]; [rewrite (P eq_refl) in Ecc; discriminate|].
    assert (col' = col /\ cc' = cc) as [-> ->] by (split; congruence). destruct (U M) as [Us Rp]. apply read_params_spec in Rp; [|exact M]. destruct Rp as [-> Need].
    exists images. split; [exact Us|split; [exact Need|]]. intros Nd i Ii. rewrite <- (write_images_in I A out_name develop (cfg d) cc _ (developed_folder d col cc suffix (cam_name c)) images fs i Nd Ii).
    rewrite developed_file_ok by exact M. apply (process_cameras_frame _ _ _ _ _ _ _ H). intros c' col2 cc2 n C' _ _ Ep. rewrite developed_folder_of in Ep. apply five_inj in Ep.
    destruct Ep as (_ & _ & Ep & _). apply J. rewrite Ep. now apply in_map.
  - destruct (Nat.eqb (cam_images b) 0); [now apply IH|]. destruct (process_camera fs force suffix d b) as [fs1 s1] eqn:P. destruct s1; [|discriminate|discriminate].
    assert (forall n, lookup fs1 (param_file d (cam_name c) (metric col) suffix n) = lookup fs (param_file d (cam_name c) (metric col) suffix n)) as K.
    { intros n. apply (process_camera_frame _ _ _ _ _ _ _ P). intros col' cc' m _ _ Ep. unfold param_file in Ep. apply five_inj in Ep. destruct Ep as (_ & _ & _ & Ep & _).
      rewrite with_suffix_ok in Ep. symmetry in Ep. now apply developed_not_params in Ep. }
    destruct (IH fs1 H D' C) as (images & U & Nd & V). exists images. split; [exact U|split].
    + intros n Nn. rewrite <- K. now apply Nd.
    + intros Nd' i Ii. rewrite (V Nd' i Ii). do 2 f_equal. unfold parameters. apply map_ext. intros n. destruct (wanted (metric col) n); [apply K|reflexivity].
Qed.

(** Parsing some dives, then processing one of them *)
Theorem C237_parse_then_process : forall fs force suffix paths fs1 first d force' path x fs2,
  call_parse fs true force suffix paths = (fs1, Finished) -> call_process fs1 force' suffix path = (fs2, Finished) ->
  resolve (hd [] paths) = Some first -> resolve (last paths []) = Some d -> In path paths -> resolve path = Some x ->
  meth (cfg first) = Colour -> NoDup (map cam_name (cameras first)) -> NoDup (map cam_name (cameras x)) ->
  forall c c' cc col, In c (cameras first) -> In c' (cameras x) -> cam_name c' = cam_name c -> cam_images c' <> 0%nat ->
    In (cam_name c) (map cc_name (cams (cfg first))) -> find_camera (cfg x) (cam_name c) = Some cc -> colour (cfg x) = Some col -> known_metric (metric col) ->
  exists trained images ps, used MParse d (metric col) (cam_name c) trained /\ used MProcess x (metric col) (cam_name c) images /\
    (forall k n, nth_error six k = Some n -> In n (needed (metric col)) -> nth_error ps k = Some (Some (value n (cfg d) trained))) /\
    (NoDup (map out_name images) -> forall i, In i images ->
      lookup fs2 (developed_file x (cam_name c) cc (metric col) suffix (out_name i)) = Some (develop (cfg x) cc ps i)).
Proof.
  intros fs force suffix paths fs1 first d force' path x fs2 HP HQ Rf Rd Ip Rx M D Dx c c' cc col C C' En Ni Nm Ecc Ec K.
  apply in_map_iff in Nm. destruct Nm as (cf & Ecf & Icf).
  destruct (C237_shared fs force suffix paths fs1 first _ d HP Rf eq_refl Rd M D c cf C Icf Ecf) as (cold & trained & Ed & U & S).
  pose proof HP as HP'. apply call_parse_inv in HP'. destruct HP' as [[_ X]|(first' & rest & R & Al & _)]; [congruence|].
  pose proof (resolved_head _ _ _ R). assert (first' = first) as -> by congruence.
  destruct (resolved_all _ _ R path Ip) as (x' & X' & Rx'). assert (x' = x) as -> by congruence.
  assert (last rest first = d) as El by (apply resolved_last in R; congruence). pose proof (Al d ltac:(rewrite <- El; apply last_in)) as Ad. pose proof (Al x X') as Ax.
  assert (meth (cfg x) = Colour) as Mx by (destruct Ax as [? _]; congruence).
  assert (metric cold = metric col) as Em.
  { destruct (colour (cfg first)) as [f|] eqn:Ef. { destruct Ad as (_ & _ & Cd), Ax as (_ & _ & Cx). rewrite <- (Cd f cold Ef Ed). now apply Cx. }
    exfalso. pose proof (Al first (or_introl eq_refl)). destruct rest as [|y rest]; [cbn in El; congruence|]. clear - HP R Ef.
    unfold CorrModel.call_parse in HP. rewrite R in HP. destruct (forallb _ _); [|discriminate]. cbn [all_equivalent] in HP. unfold is_equivalent in HP. rewrite Ef in HP.
    destruct (negb (method_eqb (meth (cfg first)) (meth (cfg first)))); discriminate. }
  rewrite Em in *. rewrite <- En in Ecc. destruct (C237_process fs1 force' suffix path x fs2 HQ Rx Mx Dx c' cc col C' Ni Ecc Ec) as (images & Ux & _ & V). rewrite En in *.
  exists trained, images, (parameters fs1 x (cam_name c) (metric col) suffix). split; [exact U|split; [exact Ux|split; [|exact V]]].
  intros k n Hk Nn. unfold parameters. rewrite nth_error_map, Hk. cbn [option_map]. f_equal. assert (wanted (metric col) n = true) as ->.
  { unfold wanted. unfold needed in Nn. destruct (text_eqb (metric col) (txt "uniform")); [reflexivity|]. cbn [orb]. cbn [In] in Nn. destruct Nn as [<-|[<-|[<-|[<-|[]]]]]; reflexivity. }
  now apply (S K path x n Ip Rx).
Qed.

(** ** When the commands finish *)
Definition ready_to_process fs (force : bool) (suffix : text) (d : dive) (c : camera) : Prop :=
  cam_images c = 0%nat \/ (topic_found (mission d) (cam_name c) = true /\ exists col, colour (cfg d) = Some col /\ forall cc, find_camera (cfg d) (cam_name c) = Some cc ->
    extension c <> txt "bag" /\ (exists images, used MProcess d (metric col) (cam_name c) images) /\
    (forall n, In n (needed (metric col)) -> lookup fs (param_file d (cam_name c) (metric col) suffix n) <> None) /\
    (force = true \/ forall n, lookup fs (developed_file d (cam_name c) cc (metric col) suffix n) = None)).
Theorem C237_process_finishes : forall fs force suffix path d, resolve path = Some d -> meth (cfg d) = Colour -> NoDup (map cam_name (cameras d)) ->
  (forall c, In c (cameras d) -> ready_to_process fs force suffix d c) -> snd (call_process fs force suffix path) = Finished.
Proof.
  intros fs force suffix path d R M. unfold CorrModel.call_process. rewrite R. revert fs. induction (cameras d) as [|c cs IH]; intros fs D H; [reflexivity|].
  cbn [map] in D. inversion D as [|z zs J D']. subst. cbn [CorrModel.process_cameras].
  destruct (Nat.eqb (cam_images c) 0) eqn:E0. { apply IH; [exact D'|]. intros c' C'. apply H. now right. }
  destruct (process_camera fs force suffix d c) as [fs1 s1] eqn:P. assert (s1 = Finished) as ->.
  { destruct (H c (or_introl eq_refl)) as [X|(T & col & Ec & X)]; [rewrite X in E0; discriminate|]. unfold CorrModel.process_camera in P. rewrite T in P.
    unfold load_configuration in P. rewrite Ec in P. destruct (find_camera (cfg d) (cam_name c)) as [cc|]; [|congruence]. destruct (X cc eq_refl) as (Nb & (images & l & El & Us) & Need & F).
    assert ((globbed is_any fs (developed_folder d col cc suffix (cam_name c)) && negb force)%bool = false) as G.
    { destruct F as [->|F]; [apply andb_false_r|]. rewrite none_globbed; [reflexivity|]. intros n _. rewrite <- developed_file_ok by exact M. apply F. }
    rewrite G in P. destruct (text_eqb (extension c) (txt "bag")) eqn:B; [apply text_eqb_iff in B; contradiction|]. rewrite El, M in P.
    unfold depth_maps, depth_map in P. destruct (read_params_found fs d col suffix (cam_name c) M Need) as (ps & Rp).
    destruct (text_eqb (metric col) (txt "depth_map")); [rewrite Us in P|]; rewrite Rp in P; congruence. }
  apply IH; [exact D'|]. intros c' C'. destruct (H c' (or_intror C')) as [X|(T & col & Ec & X)]; [now left|]. right. split; [exact T|]. exists col. split; [exact Ec|].
  intros cc Ecc. destruct (X cc Ecc) as (Nb & Us & Need & F).
  assert (forall r n, lookup fs1 (processed d ++ [txt "image"; cam_name c'; r; n]) = lookup fs (processed d ++ [txt "image"; cam_name c'; r; n])) as K.
  { intros r n. apply (process_camera_frame _ _ _ _ _ _ _ P). intros col' cc' m _ _ Ep. apply five_inj in Ep. destruct Ep as (_ & _ & Ep & _). apply J. rewrite <- Ep. now apply in_map. }
  split; [exact Nb|split; [exact Us|split]].
  - intros n Nn. unfold param_file. rewrite K. now apply Need.
  - destruct F as [F|F]; [now left|right]. intros n. unfold developed_file. rewrite K. apply F.
Qed.

Definition equivalent (a b : config) : Prop := meth a = meth b /\ names_of a = names_of b /\ exists x y, colour a = Some x /\ colour b = Some y /\
  metric x = metric y /\ smoothing x = smoothing y /\ window x == window y.
Lemma equivalent_ok a b : equivalent a b -> is_equivalent a b = Some true.
Proof.
  intros (M & N & x & y & Ex & Ey & H1 & H2 & H3). unfold is_equivalent. rewrite M, N, Ex, Ey, H1, H2. assert (method_eqb (meth b) (meth b) = true) as -> by (destruct (meth b); reflexivity).
  cbn [negb]. rewrite !text_eqb_refl, place_eqb_refl. apply Qeq_bool_iff in H3. now rewrite H3.
Qed.
(** no .npy file is in the parameter folder, or force is given *)
Lemma is_npy_iff n : is_npy n = true -> exists s, n = s ++ txt ".npy".
Proof.
  unfold is_npy. rewrite andb_true_iff. intros [_ H]. apply text_eqb_iff in H. unfold last_of in H. exists (firstn (length n - 4) n). rewrite <- H. symmetry. apply firstn_skipn.
Qed.
Definition ready_to_parse fs (force : bool) (suffix : text) (d : dive) (c : camera) : Prop :=
  topic_found (mission d) (cam_name c) = true /\ (exists l, listing MParse (processed d) (cfg d) (cam_name c) = Some l) /\
  (force = true \/ forall col n, colour (cfg d) = Some col -> lookup fs (param_file d (cam_name c) (metric col) suffix (n ++ txt ".npy")) = None).
Theorem C237_parse_finishes : forall fs force suffix paths first rest, resolved resolve paths = Some (first :: rest) ->
  meth (cfg first) = Colour -> NoDup (map cam_name (cameras first)) ->
  (forall x, In x (first :: rest) -> system x = system first /\ equivalent (cfg first) (cfg x)) ->
  (forall x c, In x (first :: rest) -> In c (cameras first) -> In (cam_name c) (names_of (cfg first)) -> ready_to_parse fs force suffix x c) ->
  (forall c, In c (cameras first) -> In (cam_name c) (names_of (cfg first)) -> extension c <> txt "bag" /\
     forall col, colour (cfg (last rest first)) = Some col -> exists l images, listing MParse (processed (last rest first)) (cfg (last rest first)) (cam_name c) = Some l /\
       (3 <= length l)%nat /\ used MParse (last rest first) (metric col) (cam_name c) images) ->
  snd (call_parse fs true force suffix paths) = Finished.
Proof.
  intros fs force suffix paths first rest R M D Eq Ready Lst. unfold CorrModel.call_parse. rewrite R.
  assert (forallb (fun d => text_eqb (system first) (system d)) rest = true) as ->. { apply forallb_forall. intros x X. destruct (Eq x (or_intror X)) as [-> _]. apply text_eqb_refl. }
  assert (all_equivalent (cfg first) (first :: rest) = Finished) as AE.
  { assert (forall x, In x (first :: rest) -> is_equivalent (cfg first) (cfg x) = Some true) as E by (intros x X; apply equivalent_ok; now apply Eq).
    clear - E. induction (first :: rest) as [|x l IH]; [reflexivity|]. cbn [all_equivalent]. rewrite (E x (or_introl eq_refl)). apply IH. intros y Y. apply E. now right. }
  assert (forall x, In x (first :: rest) -> alike first x) as Al by now apply all_equivalent_alike.
  assert ((match rest with [] => Finished | _ => all_equivalent (cfg first) (first :: rest) end) = Finished) as -> by (destruct rest; [reflexivity|exact AE]).
  clear AE R. revert fs D Ready Lst. induction (cameras first) as [|c cs IH]; intros fs D Ready Lst; [reflexivity|]. cbn [map] in D. inversion D as [|z zs J D']. subst.
  cbn [CorrModel.parse_cameras]. destruct (existsb (text_eqb (cam_name c)) (names_of (cfg first))) eqn:Ex.
  2: { apply IH; [exact D'| |]; intros; [apply Ready|apply Lst]; auto; now right. }
  apply existsb_exists in Ex. destruct Ex as (nm & Nm & Et). apply text_eqb_iff in Et. subst nm.
  destruct (parse_camera fs force suffix first rest c) as [fs1 s1] eqn:P. assert (s1 = Finished) as ->.
  { destruct (Lst c (or_introl eq_refl) Nm) as [Nb Lc]. unfold CorrModel.parse_camera in P.
    assert (dives_loaded fs force suffix c (first :: rest) = Finished) as L.
    { assert (forall x, In x (first :: rest) -> equivalent (cfg first) (cfg x) /\ ready_to_parse fs force suffix x c) as H by (intros x X; split; [now apply Eq|apply Ready; auto; now left]).
      clear - H Nb M Nm. induction (first :: rest) as [|x l IH]; [reflexivity|]. destruct (H x (or_introl eq_refl)) as [(Mx & Nx & a & b & Ea & Eb & Em & _) (T & (im & El) & F)].
      cbn [CorrModel.dives_loaded]. rewrite T. assert (exists cc, find_camera (cfg x) (cam_name c) = Some cc) as (cc & Fc).
      { rewrite Nx in Nm. unfold names_of in Nm. unfold find_camera. clear - Nm. induction (cams (cfg x)) as [|k ks IH]; [destruct Nm|]. cbn [find]. destruct (text_eqb (cc_name k) (cam_name c)) eqn:E; [eauto|].
        apply IH. destruct Nm as [Nm|Nm]; [|exact Nm]. rewrite Nm, text_eqb_refl in E. discriminate. }
      unfold load_configuration. rewrite Eb, Fc.
      assert ((globbed is_npy fs (params_folder x b suffix (cam_name c)) && negb force)%bool = false) as G.
      { destruct F as [->|F]; [apply andb_false_r|]. rewrite none_globbed; [reflexivity|]. intros n Hn. apply is_npy_iff in Hn. destruct Hn as (s' & ->). rewrite <- param_file_ok by congruence. now apply F. }
      rewrite G. destruct (text_eqb (extension c) (txt "bag")) eqn:B; [apply text_eqb_iff in B; contradiction|]. rewrite El.
      assert (dives_loaded fs force suffix c l = Finished) as Rl by (apply IH; intros y Y; apply H; now right). destruct (meth (cfg x)); exact Rl. }
    rewrite L in P. destruct (Eq _ (last_in rest first)) as [_ (Md & _ & a & b & _ & Eb & _)]. rewrite <- Md, M, Eb in P. destruct (Lc b Eb) as (l & images & El & N3 & l' & El' & Us).
    rewrite El in P. destruct (Nat.ltb (length l) 3) eqn:N; [apply Nat.ltb_lt in N; lia|]. assert (l' = l) as -> by congruence. unfold depth_maps, depth_map in P.
    destruct (text_eqb (metric b) (txt "depth_map")); [rewrite Us in P|]; congruence. }
  apply IH; [exact D'| |]; [|intros; apply Lst; auto; now right]. intros x c' X C' Nm'. destruct (Ready x c' X (or_intror C') Nm') as (T & El & F). split; [exact T|split; [exact El|]].
  destruct F as [F|F]; [now left|right]. intros col n Ec. rewrite <- (F col n Ec). apply (parse_camera_frame _ _ _ _ _ _ _ _ P). intros y m col' _ _ _ _ _ Ep.
  unfold param_file in Ep. apply five_inj in Ep. destruct Ep as (_ & _ & Ep & _). apply J. rewrite <- Ep. now apply in_map.
Qed.

(** ** The correct command *)
Theorem C238_correct_never : forall fs force suffix path, snd (call_correct fs force suffix path) = Finished ->
  exists x rest first, path = x :: rest /\ resolve [x] = Some first /\ forall c, In c (cameras first) -> ~ In (cam_name c) (names_of (cfg first)).
Proof.
  intros fs force suffix path H. unfold CorrModel.call_correct in H. destruct (call_parse fs false force suffix (map (fun x => [x]) path)) as [fs1 s1] eqn:P.
  destruct s1; [|discriminate|discriminate]. clear H. apply call_parse_inv in P. destruct P as [[_ P]|(first & rest & R & _ & P)]; [congruence|].
  destruct path as [|x path]; [discriminate|]. apply resolved_head in R. cbn in R. exists x, path, first. split; [reflexivity|split; [exact R|]].
  revert P. generalize fs at 1 as fs0. induction (cameras first) as [|c cs IH]; intros fs0 P b B; [destruct B|]. cbn [CorrModel.parse_cameras] in P.
  destruct (existsb (text_eqb (cam_name c)) (names_of (cfg first))) eqn:Ex; [discriminate|]. destruct B as [<-|B]; [|now apply (IH _ P)].
  intros Nm. assert (existsb (text_eqb (cam_name c)) (names_of (cfg first)) = true); [|congruence]. apply existsb_exists. exists (cam_name c). split; [exact Nm|apply text_eqb_refl].
Qed.
End Correct.

(** ** Names of the folders *)
(** The folder of images balanced by hand tells the gains and the subtractors. *)
Theorem C237_manual_name : forall c col cc g1 g2 g3 s1 s2 s3, meth c = Manual -> gain_texts cc = [g1; g2; g3] -> subtractor_texts cc = [s1; s2; s3] ->
  developed_name c col cc [] = txt "corrected_manual_gain_" ++ g1 ++ txt "_" ++ g2 ++ txt "_" ++ g3 ++ txt "_sub_" ++ s1 ++ txt "_" ++ s2 ++ txt "_" ++ s3 /\
  forall t, t <> [] -> developed_name c col cc t = developed_name c col cc [] ++ txt "_" ++ t.
Proof.
  intros c col cc g1 g2 g3 s1 s2 s3 M G S. unfold developed_name. rewrite M, G, S. cbn [joined suffixed]. split; [now rewrite <- !app_assoc|].
  intros [|x t] N; [congruence|reflexivity].
Qed.
Theorem C237_developed_name : forall a b cola colb ca cb s t, meth a = Colour -> meth b = Colour -> known_metric (metric cola) -> known_metric (metric colb) ->
  developed_name a cola ca s = developed_name b colb cb t ->
  metric cola = metric colb /\ truncated (brightness ca) = truncated (brightness cb) /\ truncated (contrast ca) = truncated (contrast cb) /\ s = t.
Proof.
  intros a b cola colb ca cb s t Ma Mb Ka Kb H. unfold developed_name in H. rewrite Ma, Mb in H.
  assert (forall name u, suffixed name u = name ++ match u with [] => [] | _ => 95%N :: u end) as Sx by (intros name [|? u]; [now rewrite app_nil_r|reflexivity]).
  rewrite !Sx, <- !app_assoc in H. apply app_inv_head in H.
  assert (metric cola = metric colb) as Em.
  { unfold known_metric in Ka, Kb. cbn [In] in Ka, Kb. destruct Ka as [Ka|[Ka|[Ka|[]]]], Kb as [Kb|[Kb|[Kb|[]]]]; rewrite <- Ka, <- Kb in H |- *; try reflexivity;
    apply (f_equal (@hd N 0%N)) in H; vm_compute in H; discriminate. }
  rewrite Em in H. apply app_inv_head in H. apply app_inv_head in H. apply show_int_split in H; [|vm_compute; intros [? ?]; congruence|vm_compute; intros [? ?]; congruence].
  destruct H as [Hb H]. apply app_inv_head in H.
  assert (forall u : text, no_digit_first match u with [] => [] | _ => 95%N :: u end) as Nd by (intros [|? u]; [exact Logic.I|vm_compute; intros [? ?]; congruence]).
  apply show_int_split in H; auto. destruct H as [Hc H]. split; [exact Em|split; [exact Hb|split; [exact Hc|]]]. destruct s, t; congruence.
Qed.
Print Assumptions C237_parse_keeps. Print Assumptions C237_parse_frame. Print Assumptions C237_shared. Print Assumptions C237_process_keeps.
Print Assumptions C237_process. Print Assumptions C237_parse_then_process. Print Assumptions C237_process_finishes. Print Assumptions C237_parse_finishes.
Print Assumptions C237_developed_name. Print Assumptions C237_manual_name. Print Assumptions C238_correct_never.

(** ** Examples *)
(** Images are numbers; the contents of a parameter file tell the start of the altitude range and the images it was computed from, those of
    a corrected image the brightness, the parameters and the image. *)
Definition ex_listing (m : mode) (p : place) (c : config) (cam : text) : option (list nat) :=
  if place_eqb p [txt "a"] then Some [1; 2; 3; 4]%nat else if place_eqb p [txt "b"] then Some [5; 6; 7]%nat else None.
Definition ex_depth (p : place) (l : list nat) : option (list nat) := match filter Nat.even l with [] => None | l => Some l end.
Definition ex_value (n : text) (c : config) (l : list nat) : list Q :=
  (match colour c with Some col => fst (parse_range col) | None => 0 end) :: map (fun i => inject_Z (Z.of_nat i)) l.
Definition ex_name (i : nat) : text := show (N.of_nat i) ++ txt ".png".
Definition ex_develop (c : config) (cc : camcfg) (ps : list (option (list Q))) (i : nat) : list Q :=
  brightness cc :: inject_Z (Z.of_nat i) :: concat (map (fun p => match p with Some l => l | None => [] end) ps).
Definition ex_cfg (m : string) (lo b : Q) : config :=
  mkcfg Colour (Some (mkcol (txt m) (txt "mean") 3 (lo, 10) (lo, 10))) [mkcamcfg (txt "left") b 5 [] []].
Definition ex_dive (name : string) (c : config) (ext : string) : dive :=
  mkdive [txt name] c [(txt "left", Some None)] (txt "sx3") [mkcamera (txt "left") (txt ext) 4; mkcamera (txt "right") (txt ext) 4].
Definition ex_world (a b : dive) (path : text) : option dive := if text_eqb path (txt "/a") then Some a else if text_eqb path (txt "/b") then Some b else None.
Notation ex_parse w := (call_parse nat (list Q) ex_listing ex_depth ex_value w).
Notation ex_process w := (call_process nat (list Q) ex_listing ex_depth ex_name ex_develop w).
Notation ex_correct w := (call_correct nat (list Q) ex_listing ex_depth ex_value ex_name ex_develop w).

Definition ex_a := ex_dive "a" (ex_cfg "altitude" 2 30) "tif".
Definition ex_b := ex_dive "b" (ex_cfg "altitude" 3 30) "tif".
Example ex_parse_both : let '(fs, s) := ex_parse (ex_world ex_a ex_b) [] true false (txt "x") [txt "/a"; txt "/b"] in
  s = Finished /\
  lookup fs [txt "a"; txt "image"; txt "left"; txt "params_altitude_x"; txt "correction_gains.npy"] = Some [3; 5; 6; 7] /\
  lookup fs [txt "b"; txt "image"; txt "left"; txt "params_altitude_x"; txt "correction_gains.npy"] = Some [3; 5; 6; 7] /\
  lookup fs [txt "a"; txt "image"; txt "left"; txt "params_altitude_x"; txt "images_map.npy"] = None /\
  snd (ex_parse (ex_world ex_a ex_b) fs true false (txt "x") [txt "/a"]) = Quits /\
  (let '(fs', s') := ex_process (ex_world ex_a ex_b) fs false (txt "x") (txt "/a") in
   s' = Finished /\ lookup fs' [txt "a"; txt "image"; txt "left"; txt "corrected_altitude_mean_30_std_5_x"; txt "2.png"]
                    = Some [30; 2; 3; 5; 6; 7; 3; 5; 6; 7; 3; 5; 6; 7; 3; 5; 6; 7]) /\
  snd (ex_process (ex_world ex_a ex_b) [] false (txt "x") (txt "/a")) = Quits.
Proof. vm_compute. repeat split. Qed.
Example ex_parse_uniform : let w := ex_world (ex_dive "a" (ex_cfg "uniform" 2 30) "tif") (ex_dive "b" (ex_cfg "uniform" 2 30) "tif") in
  let '(fs, s) := ex_parse w [] true false [] [txt "/b"; txt "/a"] in
  s = Finished /\ lookup fs [txt "b"; txt "image"; txt "left"; txt "params_uniform"; txt "image_raw_std.npy"] = Some [2; 1; 2; 3; 4] /\
  lookup fs [txt "b"; txt "image"; txt "left"; txt "params_uniform"; txt "correction_gains.npy"] = None.
Proof. vm_compute. repeat split. Qed.
Example ex_differ : snd (ex_parse (ex_world ex_a (ex_dive "b" (ex_cfg "depth_map" 2 30) "tif")) [] true false [] [txt "/a"; txt "/b"]) = Quits.
Proof. reflexivity. Qed.

(** ** C238 *)
(** The correct command is parse and then process. *)
Theorem C238_correct_refuted : exists w path, let '(fs, s) := ex_parse w [] true false [] [path] in
  s = Finished /\ snd (ex_process w fs false [] path) = Finished /\ ex_correct w [] false [] path = ([], Quits).
Proof. exists (ex_world ex_a ex_b), (txt "/a"). vm_compute. repeat split. Qed.
(** ... even where the one character of the path is a dive *)
Theorem C238_correct_here_refuted : exists w path, let '(fs, s) := ex_parse w [] true false [] [path] in
  s = Finished /\ snd (ex_process w fs false [] path) = Finished /\ snd (ex_correct w [] false [] path) = Crashes.
Proof. exists (fun _ => Some ex_a), (txt "."). vm_compute. repeat split. Qed.
(** Every image format can be corrected. *)
Theorem C238_bag_refuted : exists c, let w ext := ex_world (ex_dive "a" c ext) ex_b in
  snd (ex_parse (w "tif"%string) [] true false [] [txt "/a"]) = Finished /\ snd (ex_parse (w "bag"%string) [] true false [] [txt "/a"]) = Crashes /\
  snd (ex_process (w "bag"%string) (fst (ex_parse (w "tif"%string) [] true false [] [txt "/a"])) false [] (txt "/a")) = Crashes.
Proof. exists (ex_cfg "altitude" 2 30). vm_compute. repeat split. Qed.
Theorem C238_bag_never : forall I A listing with_depth_map value (fs : disk A) force suffix first rest c, extension c = txt "bag" ->
  In (cam_name c) (names_of (cfg first)) -> meth (cfg first) = Colour ->
  snd (parse_camera I A listing with_depth_map value fs force suffix first rest c) <> Finished.
Proof.
  intros I A listing wd value fs force suffix first rest c B Nm M H. destruct (parse_camera I A listing wd value fs force suffix first rest c) as [fs' s] eqn:P. cbn [snd] in H. subst s.
  unfold parse_camera in P. destruct (dives_loaded I A listing fs force suffix c (first :: rest)) eqn:L; [|congruence|congruence].
  destruct (loaded_ready _ _ _ _ _ _ _ _ L first (or_introl eq_refl) M) as (_ & _ & col & cc & _ & _ & X & _). rewrite B, text_eqb_refl in X. discriminate.
Qed.
(** Mission files of version 0 can be used. *)
Theorem C238_version0_refuted : exists d d0, d0 = mkdive (processed d) (cfg d) (map (fun c => (fst c, None)) (mission d)) (system d) (cameras d) /\
  snd (ex_parse (ex_world d d) [] true false [] [txt "/a"]) = Finished /\ snd (ex_parse (ex_world d0 d0) [] true false [] [txt "/a"]) = Crashes.
Proof. exists ex_a, (mkdive [txt "a"] (ex_cfg "altitude" 2 30) [(txt "left", None)] (txt "sx3") (cameras ex_a)). vm_compute. repeat split. Qed.
(** Balancing by hand needs no section about colour correction. *)
Theorem C238_manual_refuted : exists cams, let w colour := ex_world (ex_dive "a" (mkcfg Manual colour cams) "tif") ex_b in
  snd (ex_process (w (Some (mkcol (txt "none") (txt "none") 0 (0, 0) (0, 0)))) [] false [] (txt "/a")) = Finished /\
  snd (ex_process (w None) [] false [] (txt "/a")) = Crashes.
Proof. exists [mkcamcfg (txt "left") 0 0 [txt "1.0"; txt "1.0"; txt "1.0"] [txt "0"; txt "0"; txt "0"]]. vm_compute. repeat split. Qed.
(** Images of different brightness are kept apart. *)
Theorem C238_brightness_refuted : exists b b', ~ b == b' /\ let w b := ex_world (ex_dive "a" (ex_cfg "altitude" 2 b) "tif") ex_b in
  let fs := fst (ex_process (w b) (fst (ex_parse (w b) [] true false [] [txt "/a"])) false [] (txt "/a")) in
  snd (ex_process (w b') fs false [] (txt "/a")) = Quits /\
  let out := [txt "a"; txt "image"; txt "left"; txt "corrected_altitude_mean_30_std_5"; txt "2.png"] in
  hd_error (match lookup fs out with Some l => l | None => [] end) = Some b /\
  hd_error (match lookup (fst (ex_process (w b') fs true [] (txt "/a"))) out with Some l => l | None => [] end) = Some b'.
Proof. exists (302 # 10), (307 # 10). split; [intros H; vm_compute in H; discriminate|]. vm_compute. repeat split. Qed.
(** Images are processed with parameters of their own configuration. *)
Theorem C238_stale_refuted : exists lo lo', ~ lo == lo' /\ let w lo := ex_world (ex_dive "a" (ex_cfg "altitude" lo 30) "tif") ex_b in
  let '(fs, s) := ex_parse (w lo) [] true false [] [txt "/a"] in
  s = Finished /\ snd (ex_process (w lo') fs false [] (txt "/a")) = Finished /\
  lookup fs [txt "a"; txt "image"; txt "left"; txt "params_altitude"; txt "correction_gains.npy"]
  <> lookup (fst (ex_parse (w lo') [] true false [] [txt "/a"])) [txt "a"; txt "image"; txt "left"; txt "params_altitude"; txt "correction_gains.npy"].
Proof. exists 2, 3. split; [intros H; vm_compute in H; discriminate|]. vm_compute. repeat split. discriminate. Qed.
(** The order in which the dives are given does not matter. *)
Theorem C238_order_refuted : exists w p q, let file := [txt "a"; txt "image"; txt "left"; txt "params_altitude"; txt "correction_gains.npy"] in
  let r := ex_parse w [] true false [] [p; q] in let r' := ex_parse w [] true false [] [q; p] in
  snd r = Finished /\ snd r' = Finished /\ lookup (fst r) file <> lookup (fst r') file.
Proof. exists (ex_world ex_a ex_b), (txt "/a"), (txt "/b"). vm_compute. repeat split. discriminate. Qed.
Print Assumptions C238_correct_refuted. Print Assumptions C238_correct_here_refuted. Print Assumptions C238_bag_refuted. Print Assumptions C238_bag_never.
Print Assumptions C238_version0_refuted. Print Assumptions C238_manual_refuted. Print Assumptions C238_brightness_refuted. Print Assumptions C238_stale_refuted.
Print Assumptions C238_order_refuted.
