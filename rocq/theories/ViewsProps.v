(** Properties C219, C220: which views of the calibration board are used. *)
From Coq Require Import Ascii String.
From Verif Require Import PyBase TimeModel LaserCalModel LaserCalProps ViewsModel.
Open Scope Q_scope.

(** Independent description.  Two views differ by the sum of the differences of position, size and skew; going through the images in
    order, a view is used if it differs by more than 0.12 from every view used so far. *)
Definition differ (a b : params) : Q :=
  Qabs (p_x a - p_x b) + Qabs (p_y a - p_y b) + Qabs (p_size a - p_size b) + Qabs (skew a - skew b).
Inductive used {view} (par : view -> params) : list view -> list view -> Prop :=
| used_none : used par [] []
| used_new seen k v : used par seen k -> (forall s, In s k -> 12 # 100 < differ (par v) (par s)) -> used par (seen ++ [v]) (k ++ [v])
| used_near seen k v s : used par seen k -> In s k -> differ (par v) (par s) <= 12 # 100 -> used par (seen ++ [v]) k.

Lemma distance_differ : forall a b, param_distance a b == differ a b.
Proof. intros a b. unfold param_distance, differ, listed. cbn [combine map fold_left fst snd]. ring. Qed.
Lemma least_spec : forall l, match least l with None => l = [] | Some d => In d l /\ forall x, In x l -> d <= x end.
Proof.
  induction l as [|a l IH]; [reflexivity|]. cbn [least]. destruct (least l) as [b|].
  - destruct IH as [I M]. destruct (Qle_bool a b) eqn:E.
    + apply Qle_bool_iff in E. split; [now left|]. intros x [<-|X]; [lra|]. specialize (M x X). lra.
    + assert (E' : b < a) by (apply Qnot_le_lt; intros K; apply Qle_bool_iff in K; congruence). split; [now right|]. intros x [<-|X]; [lra|now apply M].
  - subst l. split; [now left|]. intros x [<-|[]]. lra.
Qed.
Lemma good_sample_spec : forall db p, is_good_sample db p = true <-> forall q, In q db -> 12 # 100 < differ p q.
Proof.
  intros db p. unfold is_good_sample. pose proof (least_spec (map (param_distance p) db)) as L. destruct (least (map (param_distance p) db)) as [d|].
  - destruct L as [I M]. rewrite Qltb_lt. split.
    + intros D q Q. specialize (M _ (in_map _ _ _ Q)). rewrite distance_differ in M. lra.
    + intros A. apply in_map_iff in I. destruct I as (q & <- & Q). rewrite distance_differ. now apply A.
  - apply map_eq_nil in L. subst db. split; [intros _ q []|reflexivity].
Qed.
Lemma good_sample_false : forall db p, is_good_sample db p = false -> exists q, In q db /\ differ p q <= 12 # 100.
Proof.
  intros db p. unfold is_good_sample. pose proof (least_spec (map (param_distance p) db)) as L. destruct (least (map (param_distance p) db)) as [d|]; [|discriminate].
  destruct L as [I M]. intros D. apply Qltb_ge in D. apply in_map_iff in I. destruct I as (q & <- & Q). exists q. split; [exact Q|]. rewrite <- distance_differ. exact D.
Qed.
Lemma take_used : forall {view} (par : view -> params) views seen k,
  used par seen k -> used par (seen ++ views) (good (take par (mkcalibrator (map par k) k) views)) /\
  db (take par (mkcalibrator (map par k) k) views) = map par (good (take par (mkcalibrator (map par k) k) views)).
Proof.
  intros view par. induction views as [|v views IH]; intros seen k U; cbn [take db good].
  - rewrite app_nil_r. now split.
  - replace (seen ++ v :: views)%list with ((seen ++ [v]) ++ views)%list by (now rewrite <- app_assoc). destruct (is_good_sample (map par k) (par v)) eqn:G.
    + change ([par v]) with (map par [v]). rewrite <- map_app. apply IH. apply used_new; [exact U|]. intros s S'. apply (proj1 (good_sample_spec _ _) G). now apply in_map.
    + apply IH. destruct (good_sample_false _ _ G) as (q & I & D). apply in_map_iff in I. destruct I as (s & <- & I). now apply (used_near par seen k v s).
Qed.
(** The description determines the views. *)
Lemma used_unique : forall {view} (par : view -> params) seen k, used par seen k -> forall k', used par seen k' -> k' = k.
Proof.
  intros view par seen k U. induction U as [|seen k v U IH A|seen k v s U IH I D]; intros k' U'.
  - inversion U' as [|seen' ? ? ? ? E|seen' ? ? ? ? ? ? E]; [reflexivity| |]; destruct seen'; discriminate.
  - inversion U' as [E|seen' k0 v' U0 A' E E'|seen' k0 v' s U0 I D E E']; [destruct seen; discriminate| |]; apply app_inj_tail in E; destruct E as [-> ->]; rewrite (IH _ U0) in *; [reflexivity|].
    specialize (A s I). exfalso. lra.
  - inversion U' as [E|seen' k0 v' U0 A' E E'|seen' k0 v' s' U0 I' D' E E']; [destruct seen; discriminate| |]; apply app_inj_tail in E; destruct E as [-> ->]; rewrite (IH _ U0) in *; [|reflexivity].
    specialize (A' s I). exfalso. lra.
Qed.
Lemma used_apart : forall {view} (par : view -> params) seen k, used par seen k ->
  (forall i j a b, (i < j)%nat -> nth_error k i = Some a -> nth_error k j = Some b -> 12 # 100 < differ (par b) (par a)) /\
  (forall v, In v seen -> In v k \/ exists s, In s k /\ differ (par v) (par s) <= 12 # 100) /\ (forall v, In v k -> In v seen).
Proof.
  intros view par seen k U. induction U as [|seen k v U (P & C & B) A|seen k v s U (P & C & B) I D].
  - split; [intros [|i] j a b _ H; discriminate|]. split; intros v [].
  - split; [|split].
    + intros i j a b L X Y. destruct (Nat.lt_ge_cases j (length k)) as [J|J].
      * rewrite nth_error_app1 in X, Y by lia. now apply (P i j).
      * rewrite nth_error_app2 in Y by lia. destruct (j - length k)%nat eqn:E; [|destruct n; discriminate]. injection Y as <-. rewrite nth_error_app1 in X by lia. apply A. now apply nth_error_In in X.
    + intros w W. apply in_app_or in W. destruct W as [W|[<-|[]]].
      * destruct (C w W) as [K|(s & S' & D)]; [left; apply in_or_app; now left|right; exists s; split; [apply in_or_app; now left|exact D]].
      * left. apply in_or_app. right. now left.
    + intros w W. apply in_app_or in W. apply in_or_app. destruct W as [W|W]; [left; now apply B|now right].
  - split; [exact P|]. split.
    + intros w W. apply in_app_or in W. destruct W as [W|[<-|[]]]; [now apply C|]. right. now exists s.
    + intros w W. apply in_or_app. left. now apply B.
Qed.

(** Calibration from images: the views used are those of the description; they are pairwise more than 0.12 apart and every other
    detection is within 0.12 of one of them.  An exception means that there was no detection. *)
Theorem C219_views : forall view (par : view -> params) views,
  match collect_corners par views with
  | None => views = []
  | Some (c, json) => used par views (good c) /\ (forall k, used par views k -> k = good c) /\
      (forall i j a b, (i < j)%nat -> nth_error (good c) i = Some a -> nth_error (good c) j = Some b -> 12 # 100 < differ (par b) (par a)) /\
      (forall v, In v views -> In v (good c) \/ exists s, In s (good c) /\ differ (par v) (par s) <= 12 # 100) /\
      json = views
  end.
Proof.
  intros view par views. unfold collect_corners. destruct (take_used par views [] [] (used_none par)) as [U E]. cbn [app map] in U, E. change (mkcalibrator [] []) with (@fresh view) in U, E.
  destruct (good (take par fresh views)) as [|g0 gs] eqn:G.
  - destruct (used_apart par _ _ U) as (_ & C & _). destruct views as [|v views]; [reflexivity|]. destruct (C v (or_introl eq_refl)) as [[]|(s & [] & _)].
  - rewrite G. split; [exact U|]. split; [intros k K; now apply (used_unique par views)|]. destruct (used_apart par _ _ U) as (P & C & B). repeat split; assumption.
Qed.
Print Assumptions C219_views.
(** Calibrating again from the JSON that the first run wrote, with a new calibrator, uses the same views. *)
Theorem C219_json : forall view (par : view -> params) views c json, collect_corners par views = Some (c, json) ->
  good (from_json par fresh json) = good c /\ db (from_json par fresh json) = db c.
Proof.
  intros view par views c json. unfold collect_corners, from_json. cbn [db fresh]. destruct (good (take par fresh views)) eqn:G; [discriminate|]. intros H. injection H as <- <-. now split.
Qed.
Print Assumptions C219_json.
(** Stereo: pairs are chosen by their left views, in the same way. *)
Theorem C219_stereo : forall view (par : view -> params) common,
  used (fun p => par (fst p)) common (good (pairs_from_json par fresh common)) /\
  length (db (pairs_from_json par fresh common)) = length (good (pairs_from_json par fresh common)).
Proof.
  intros view par common. unfold pairs_from_json. cbn [db fresh].
  destruct (take_used (fun p : view * view => par (fst p)) common [] [] (used_none _)) as [U E]. cbn [app map] in U, E. split; [exact U|]. rewrite E. apply map_length.
Qed.
Print Assumptions C219_stereo.

(** Matching of left and right views by name: same name (after "image", if the first name of that side begins with it). *)
Lemma indexes_in : forall {A B} (l : list A) (f : nat -> A -> list B) i b, In b (indexes i l f) <-> exists k a, nth_error l k = Some a /\ In b (f (i + k)%nat a).
Proof.
  intros A B. induction l as [|a l IH]; intros f i b; cbn [indexes].
  - split; [intros []|]. intros ([|k] & a & H & _); discriminate.
  - rewrite in_app_iff, IH. split.
    + intros [H|(k & a' & K & H)]; [exists 0%nat, a; rewrite Nat.add_0_r; now split|]. exists (S k), a'. replace (i + S k)%nat with (S i + k)%nat by lia. now split.
    + intros ([|k] & a' & K & H); [injection K as <-; left; now rewrite Nat.add_0_r in H|right]. exists k, a'. replace (S i + k)%nat with (i + S k)%nat by lia. now split.
Qed.
Definition tag (s : name) : bool := existsb (fun w => text_eqb (slice 23 25 s) (text w)) ["LC"; "RC"; "FC"; "AC"]%string.
(** What is compared: the name, without its first five characters if the first name of that side begins with the word image. *)
Definition compared (first n k : name) : Prop :=
  (firstn 5 first = ["i"; "m"; "a"; "g"; "e"]%char -> k = skipn 5 n) /\ (firstn 5 first <> ["i"; "m"; "a"; "g"; "e"]%char -> k = n).
Lemma compared_nth : forall first l i k,
  nth_error (if text_eqb (slice 0 5 first) (text "image") then map (skipn 5) l else l) i = Some k <-> exists n, nth_error l i = Some n /\ compared first n k.
Proof.
  intros first l i k. destruct (text_eqb (slice 0 5 first) (text "image")) eqn:E.
  - apply text_eqb_eq in E. rewrite nth_error_map. unfold compared. split.
    + destruct (nth_error l i) as [n|]; cbn [option_map]; [|discriminate]. intros H. injection H as <-. exists n. repeat split. intros X. contradiction.
    + intros (n & -> & H & _). cbn [option_map]. now rewrite H.
  - assert (N : firstn 5 first <> ["i"; "m"; "a"; "g"; "e"]%char) by (intros X; assert (text_eqb (slice 0 5 first) (text "image") = true) by (now apply text_eqb_eq); congruence).
    unfold compared. split; [intros H; exists k; split; [exact H|]; split; [contradiction|reflexivity]|]. intros (n & -> & _ & H). now rewrite H.
Qed.
(** The first left name has no two-letter camera code and at most 26 compared characters: left i and right j form a pair iff what is compared is equal. *)
Theorem C219_names : forall biocam acfr l0 lf r0 rf, tag l0 = false -> (forall k, compared l0 l0 k -> length k <= 26)%nat ->
  exists out, find_common biocam acfr (l0 :: lf) (r0 :: rf) = Some out /\
    forall i j, In (i, j) out <-> exists n m k, nth_error (l0 :: lf) i = Some n /\ nth_error (r0 :: rf) j = Some m /\ compared l0 n k /\ compared r0 m k.
Proof.
  intros biocam acfr l0 lf r0 rf T N. unfold find_common, common_format. fold (tag l0). rewrite T. cbn [bind].
  assert (X : nth_error (if text_eqb (slice 0 5 l0) (text "image") then map (skipn 5) (l0 :: lf) else l0 :: lf) 0
            = Some (hd [] (if text_eqb (slice 0 5 l0) (text "image") then map (skipn 5) (l0 :: lf) else l0 :: lf))) by (destruct (text_eqb _ _); reflexivity).
  apply compared_nth in X. destruct X as (n0 & X & X'). injection X as <-. apply N in X'. clear N.
  destruct (Nat.ltb_spec 26 (length (hd [] (if text_eqb (slice 0 5 l0) (text "image") then map (skipn 5) (l0 :: lf) else l0 :: lf)))); [lia|].
  eexists. split; [reflexivity|]. intros i j. rewrite indexes_in. split.
  - intros (k & a & K & H1). apply indexes_in in H1. destruct H1 as (k' & b & K' & H1). cbn [Nat.add] in H1. destruct (text_eqb a b) eqn:E; [|destruct H1]. destruct H1 as [H1|[]]. injection H1 as <- <-. apply text_eqb_eq in E. subst b.
    apply compared_nth in K, K'. destruct K as (n & K & C). destruct K' as (m & K' & C'). now exists n, m, a.
  - intros (n & m & a & I & J & C & C'). exists i, a. split; [apply compared_nth; now exists n|]. apply indexes_in. exists j, a. split; [apply compared_nth; now exists m|]. assert (E : text_eqb a a = true) by (now apply text_eqb_eq). rewrite E. now left.
Qed.
Print Assumptions C219_names.
(** Names with a two-letter camera code: the right view nearest in time (the first of equals), if it is within 50 ms. *)
Theorem C219_times : forall biocam acfr l0 lf r0 rf, tag l0 = true ->
  exists out, find_common biocam acfr (l0 :: lf) (r0 :: rf) = Some out /\
    forall i k, In (i, k) out <-> exists l r, nth_error (l0 :: lf) i = Some l /\ nth_error (r0 :: rf) k = Some r /\ Qabs (acfr l - acfr r) < 1 # 20 /\
      forall j r', nth_error (r0 :: rf) j = Some r' -> Qabs (acfr l - acfr r) <= Qabs (acfr l - acfr r') /\ ((j < k)%nat -> Qabs (acfr l - acfr r) < Qabs (acfr l - acfr r')).
Proof.
  intros biocam acfr l0 lf r0 rf T. unfold find_common, common_format. fold (tag l0). rewrite T. cbn [bind].
  destruct (C211_times (map acfr (l0 :: lf)) (map acfr (r0 :: rf))) as (out & E & O & _); [discriminate|]. exists out. split; [exact E|]. intros i k. rewrite O. unfold partner. split.
  - intros (t & r & L & R & C & H). rewrite nth_error_map in L, R. destruct (nth_error (l0 :: lf) i) as [l|]; [|discriminate]. destruct (nth_error (r0 :: rf) k) as [r1|] eqn:R1; [|discriminate].
    injection L as <-. injection R as <-. exists l, r1. repeat (split; [reflexivity || assumption|]). intros j r' J. apply H. rewrite nth_error_map, J. reflexivity.
  - intros (l & r & L & R & C & H). exists (acfr l), (acfr r). rewrite !nth_error_map, L, R. repeat (split; [reflexivity || assumption|]). intros j q J. rewrite nth_error_map in J. destruct (nth_error (r0 :: rf) j) as [r'|] eqn:J'; [|discriminate]. injection J as <-. now apply (H j).
Qed.
Print Assumptions C219_times.

(** A calibrator that has already been used rejects the views of the JSON: nothing is left to calibrate with. *)
Theorem C220_reuse_refuted : exists (views json : list params) c, collect_corners (fun p => p) views = Some (c, json) /\ good c = views /\ length views = 2%nat /\ good (from_json (fun p => p) c json) = [].
Proof.
  exists [mkparams 0 0 (1 # 2) 0; mkparams (1 # 2) 0 (1 # 2) 0], [mkparams 0 0 (1 # 2) 0; mkparams (1 # 2) 0 (1 # 2) 0]. eexists. split; [reflexivity|]. repeat split.
Qed.
Print Assumptions C220_reuse_refuted.
(** The number of views used does not depend on the order of the images: no. *)
Theorem C220_order_refuted : exists a b c : params,
  option_map (fun r => length (good (fst r))) (collect_corners (fun p => p) [a; b; c]) = Some 2%nat /\
  option_map (fun r => length (good (fst r))) (collect_corners (fun p => p) [b; a; c]) = Some 1%nat.
Proof. exists (mkparams 0 0 0 0), (mkparams (1 # 10) 0 0 0), (mkparams (2 # 10) 0 0 0). split; reflexivity. Qed.
Print Assumptions C220_order_refuted.
(** One right view per left view and the other way round: no, two left views may be paired with the same right view. *)
Theorem C220_shared_refuted : exists biocam acfr lf rf, find_common biocam acfr lf rf = Some [(0%nat, 0%nat); (1%nat, 0%nat)].
Proof.
  exists (fun _ => 0), (fun s => if text_eqb s (text "PR_20180811_153729_762_LC16") then 0 else if text_eqb s (text "PR_20180811_153729_802_LC16") then 4 # 100 else 2 # 100),
    [text "PR_20180811_153729_762_LC16"; text "PR_20180811_153729_802_LC16"], [text "PR_20180811_153729_782_RC16"]. reflexivity.
Qed.
Print Assumptions C220_shared_refuted.
(** A prefix "image" is removed from each name that has it: no, only the first name of each side is looked at. *)
Theorem C220_prefix_refuted : exists biocam acfr, find_common biocam acfr [text "0001"; text "image0002"] [text "0001"; text "0002"] = Some [(0%nat, 0%nat)].
Proof. exists (fun _ => 0), (fun _ => 0). reflexivity. Qed.
Print Assumptions C220_prefix_refuted.

(** Tests. *)
Example views_three : option_map (fun r => good (fst r)) (collect_corners (fun p => p) [mkparams 0 0 0 0; mkparams (1 # 10) 0 (1 # 100) 0; mkparams (1 # 10) (1 # 20) 0 0]) = Some [mkparams 0 0 0 0; mkparams (1 # 10) (1 # 20) 0 0].
Proof. reflexivity. Qed.
Example pairs_by_name : find_common (fun _ => 0) (fun _ => 0) [text "image01"; text "image02"] [text "02"; text "01"; text "02"] = Some [(0, 1); (1, 0); (1, 2)]%nat.
Proof. reflexivity. Qed.
Example tagged : tag (text "PR_20180811_153729_762_LC16") = true. Proof. reflexivity. Qed.
Example no_views : collect_corners (fun p : params => p) [] = None. Proof. reflexivity. Qed.
