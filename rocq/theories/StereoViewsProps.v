(** C309, C310: the pairs of views that a stereo calibration from images uses. *)
From Verif Require Import PyBase ViewsModel ViewsProps StereoViewsModel.
From Coq Require Import Lqa.
Open Scope Q_scope.

Section Props.
Context {image corners board : Type}.
Variable detect : image -> board -> option corners.
Variable sharp : image -> corners -> board -> bool.
Variable par : corners -> board -> params.

(** * Specification *)
(** A board is seen in an image: it is the first of the boards that is found. *)
Definition sees (boards : list board) (i : image) (c : corners) (b : board) : Prop :=
  exists before after, boards = before ++ b :: after /\ detect i b = Some c /\ forall x, In x before -> detect i x = None.
(** A pair with a sharp board on both sides, and what is kept of it *)
Definition usable (boards : list board) (p : image * image) (e : entry corners board) : Prop :=
  let '(lc, rc, lb) := e in exists rb, sees boards (fst p) lc lb /\ sees boards (snd p) rc rb /\ sharp (fst p) lc lb = true /\ sharp (snd p) rc rb = true.
(** The usable pairs of a list, in order *)
Inductive candidates (boards : list board) : list (image * image) -> list (entry corners board) -> Prop :=
| no_pair : candidates boards [] []
| use_pair p l e es : usable boards p e -> candidates boards l es -> candidates boards (p :: l) (e :: es)
| skip_pair p l es : (forall e, ~ usable boards p e) -> candidates boards l es -> candidates boards (p :: l) es.
Definition left_view (e : entry corners board) : params := par (fst (fst e)) (snd e).

(** * Lemmas *)
Lemma get_sees : forall boards i c b, get_corners detect boards i = Some (c, b) <-> sees boards i c b.
Proof.
  induction boards as [|x boards IH]; intros i c b; cbn [get_corners].
  - split; [discriminate|]. intros (before & after & E & _). destruct before; discriminate.
  - destruct (detect i x) as [cx|] eqn:D.
    + split; [intros H; injection H as -> ->; exists [], boards; split; [reflexivity|split; [exact D|intros y []]]|]. intros (before & after & E & C & N). destruct before as [|y before].
      * injection E as -> _. congruence.
      * injection E as -> _. rewrite N in D by (now left). discriminate.
    + rewrite IH. split.
      * intros (before & after & -> & C & N). exists (x :: before), after. split; [reflexivity|split; [exact C|]]. intros y [ <- |Y]; [exact D|now apply N].
      * intros (before & after & E & C & N). destruct before as [|y before]; injection E as -> E; [congruence|]. exists before, after. split; [exact E|split; [exact C|]]. intros z Z. apply N. now right.
Qed.
(** What is kept of a pair if it is not too like the others *)
Definition kept (boards : list board) (l r : image) : option (entry corners board) :=
  match get_corners detect boards l, get_corners detect boards r with
  | Some (lc, lb), Some (rc, rb) => if (sharp l lc lb && sharp r rc rb)%bool then Some (lc, rc, lb) else None
  | _, _ => None
  end.
Lemma kept_usable : forall boards l r e, kept boards l r = Some e <-> usable boards (l, r) e.
Proof.
  intros boards l r [[lc rc] lb]. unfold kept, usable. cbn [fst snd]. setoid_rewrite <- get_sees. destruct (get_corners detect boards l) as [[lc' lb']|]; [|split; [discriminate|now intros (rb & ? & _)]].
  destruct (get_corners detect boards r) as [[rc' rb']|]; [|split; [discriminate|now intros (rb & _ & ? & _)]].
  destruct (sharp l lc' lb' && sharp r rc' rb')%bool eqn:S.
  - apply andb_true_iff in S as [S1 S2]. split; [intros H; injection H as -> -> ->; now exists rb'|]. intros (rb & E1 & E2 & _). injection E1 as -> ->. injection E2 as -> ->. reflexivity.
  - split; [discriminate|]. intros (rb & E1 & E2 & S1 & S2). injection E1 as -> ->. injection E2 as -> ->. now rewrite S1, S2 in S.
Qed.
Lemma step_take : forall boards c l r, step detect sharp par boards c l r = take left_view c (match kept boards l r with Some e => [e] | None => [] end).
Proof.
  intros boards c l r. unfold step, kept. destruct (get_corners detect boards l) as [[lc lb]|]; [|reflexivity]. destruct (get_corners detect boards r) as [[rc rb]|]; [|reflexivity].
  destruct (sharp l lc lb && sharp r rc rb)%bool; cbn [take]; unfold left_view; cbn [fst snd]; destruct (is_good_sample (db c) (par lc lb)); reflexivity.
Qed.
Lemma take_app : forall {view} (f : view -> params) a b c, take f c (a ++ b) = take f (take f c a) b.
Proof. intros view f. induction a as [|v a IH]; intros b c; [reflexivity|]. cbn [app take]. apply IH. Qed.
Lemma pairs_take : forall boards l c, exists es, candidates boards l es /\ pairs detect sharp par boards c (map (fun p => (Some (fst p), Some (snd p))) l) = Some (take left_view c es).
Proof.
  intros boards. induction l as [|[a b] l IH]; intros c; [exists []; split; [constructor|reflexivity]|]. cbn [map pairs fst snd]. rewrite step_take.
  destruct (kept boards a b) as [e|] eqn:K.
  - destruct (IH (take left_view c [e])) as (es & C & E). exists (e :: es). split; [constructor; [now apply kept_usable|exact C]|]. rewrite E. change (e :: es) with ([e] ++ es). now rewrite take_app.
  - destruct (IH c) as (es & C & E). exists es. split; [constructor; [|exact C]|exact E]. intros e U. apply kept_usable in U. congruence.
Qed.
Lemma candidates_unique : forall boards l es, candidates boards l es -> forall es', candidates boards l es' -> es' = es.
Proof.
  intros boards l es C. induction C as [|p l e es U C IH|p l es U C IH]; intros es' C'; inversion C' as [|p' l' e' es0 U' C0|p' l' es0 U' C0]; subst; trivial.
  - f_equal; [|now apply IH]. destruct p as [a b]. apply kept_usable in U. apply kept_usable in U'. congruence.
  - now destruct (U' e).
  - now destruct (U e').
  - now apply IH.
Qed.
Lemma take_db : forall {view} (f : view -> params) vs c, exists more, good (take f c vs) = good c ++ more /\ db (take f c vs) = db c ++ map f more.
Proof.
  intros view f. induction vs as [|v vs IH]; intros c; cbn [take]; [exists []; cbn; now rewrite !app_nil_r|]. destruct (is_good_sample (db c) (f v)); [|apply IH].
  destruct (IH (mkcalibrator (db c ++ [f v]) (good c ++ [v]))) as (more & -> & ->). exists (v :: more). cbn [db good map]. now rewrite <- !app_assoc.
Qed.
Lemma take_near : forall {view} (f : view -> params) vs c v, In v vs -> is_good_sample (db (take f c vs)) (f v) = false.
Proof.
  intros view f. induction vs as [|w vs IH]; intros c v I; [destruct I|]. cbn [take]. destruct I as [ -> |I]; [|now apply IH].
  destruct (is_good_sample _ _) eqn:G at 1; [|reflexivity]. exfalso. rewrite good_sample_spec in G. destruct (is_good_sample (db c) (f v)) eqn:D.
  - destruct (take_db f vs (mkcalibrator (db c ++ [f v]) (good c ++ [v]))) as (more & _ & E). cbn [db] in E. assert (X : 12 # 100 < differ (f v) (f v)) by (apply G; rewrite E, !in_app_iff; left; right; now left).
    unfold differ in X. assert (Y : forall q, q - q == 0) by (intros; ring). rewrite !Y in X. discriminate X.
  - destruct (good_sample_false _ _ D) as (q & Q & N). destruct (take_db f vs c) as (more & _ & E). assert (X : 12 # 100 < differ (f v) q) by (apply G; rewrite E, in_app_iff; now left). lra.
Qed.
Lemma take_none : forall {view} (f : view -> params) vs c, (forall v, In v vs -> is_good_sample (db c) (f v) = false) -> take f c vs = c.
Proof. intros view f. induction vs as [|v vs IH]; intros c H; [reflexivity|]. cbn [take]. rewrite (H v (or_introl eq_refl)). apply IH. intros w W. apply H. now right. Qed.

Lemma read_all : forall (ls rs : list image), combine (map Some ls) (map Some rs) = map (fun p => (Some (fst p), Some (snd p))) (combine ls rs).
Proof. induction ls as [|l ls IH]; intros [|r rs]; trivial. cbn [map combine]. now rewrite IH. Qed.

(** * C309 *)
(** A new calibrator uses, of the pairs at the same places with a sharp board in both, those whose left view differs enough from all used before. *)
Theorem C309_pairs : forall boards ls rs, exists es, candidates boards (combine ls rs) es /\ (forall es', candidates boards (combine ls rs) es' -> es' = es) /\
  match collect detect sharp par boards fresh (map Some ls) (map Some rs) with
  | Crashes => False
  | Raises c => es = [] /\ good c = []
  | Collected c => es <> [] /\ used left_view es (good c) /\ forall k, used left_view es k -> k = good c
  end.
Proof.
  intros boards ls rs. unfold collect. rewrite read_all. destruct (pairs_take boards (combine ls rs) (mkcalibrator [] [])) as (es & C & E). exists es. split; [exact C|]. split; [now apply candidates_unique|].
  cbn [db fresh]. rewrite E. destruct (take_used left_view es [] [] (used_none left_view)) as [U _]. cbn [map app] in U.
  destruct (good (take left_view (mkcalibrator [] []) es)) as [|g gs] eqn:G.
  - split; [|exact G]. destruct es as [|e es]; [reflexivity|]. cbn [take db good] in G. change (is_good_sample [] (left_view e)) with true in G. cbv iota in G. destruct (take_db left_view es (mkcalibrator ([] ++ [left_view e]) ([] ++ [e]))) as (more & X & _). rewrite X in G. discriminate.
  - split; [intros ->; discriminate|]. rewrite G. split; [exact U|]. intros k K. now apply (used_unique left_view es).
Qed.
(** The images that are left over in the longer list are not looked at. *)
Theorem C309_longer : forall boards c ls rs more, length ls = length rs ->
  collect detect sharp par boards c (ls ++ more) rs = collect detect sharp par boards c ls rs /\ collect detect sharp par boards c ls (rs ++ more) = collect detect sharp par boards c ls rs.
Proof.
  intros boards c ls rs more L. unfold collect. assert (combine (ls ++ more) rs = combine ls rs /\ combine ls (rs ++ more) = combine ls rs) as [-> ->]; [|now split].
  revert rs L. induction ls as [|l ls IH]; intros [|r rs] L; try discriminate; [now destruct more|]. cbn [app combine]. injection L as L. destruct (IH rs L) as [-> ->]. now split.
Qed.
(** A second run over the same images uses none of them, whatever the calibrator had seen before. *)
Theorem C309_again : forall boards c ls rs c', collect detect sharp par boards c (map Some ls) (map Some rs) = Collected c' ->
  collect detect sharp par boards c' (map Some ls) (map Some rs) = Raises (mkcalibrator (db c') []).
Proof.
  intros boards c ls rs c' H. unfold collect in *. rewrite read_all in *. destruct (pairs_take boards (combine ls rs) (mkcalibrator (db c) [])) as (es & C & E). rewrite E in H.
  destruct (pairs_take boards (combine ls rs) (mkcalibrator (db c') [])) as (es' & C' & E'). rewrite E'. rewrite (candidates_unique boards _ _ C _ C') in *.
  destruct (good (take left_view (mkcalibrator (db c) []) es)) eqn:G; [discriminate|]. injection H as <-. rewrite take_none; [reflexivity|]. cbn [db]. intros v V. now apply take_near.
Qed.
End Props.
Print Assumptions C309_pairs. Print Assumptions C309_longer. Print Assumptions C309_again.

(** Images are numbers: the hundreds tell the board (100, 200) that is in them, the rest its place. *)
Definition seen (i b : N) : option N := if (i / 100 * 100 =? b)%N then Some (i mod 100)%N else None.
Definition in_focus (i c b : N) : bool := negb (c =? 99)%N.
Definition at_place (c b : N) : params := mkparams (Z.of_N c # 100) 0 0 0.
(** Not vacuous: the second pair is too like the first, the third is blurred on the right, the fourth is used. *)
Example C309_example : collect seen in_focus at_place [100%N; 200%N] fresh (map Some [110; 115; 150; 240; 170]%N) (map Some [120; 125; 199; 250; 30]%N) =
  Collected (mkcalibrator [at_place 10 100; at_place 40 200] [(10, 20, 100); (40, 50, 200)]%N).
Proof. reflexivity. Qed.

(** * C310: the claims without the conditions *)
(** "A calibrator can be used again": for the same images it raises. *)
Theorem C310_again_refuted : exists (boards : list N) ls rs c, collect seen in_focus at_place boards fresh ls rs = Collected c /\ collect seen in_focus at_place boards c ls rs <> Collected c.
Proof. exists [100%N], [Some 110%N], [Some 120%N]. eexists. split; [reflexivity|discriminate]. Qed.
(** "The corners of an entry are of its board": the right ones may be those of another one. *)
Theorem C310_board_refuted : exists boards l r c lc rc b, collect seen in_focus at_place boards fresh [Some l] [Some r] = Collected c /\ good c = [(lc, rc, b)] /\ seen l b = Some lc /\ seen r b = None.
Proof. exists [100%N; 200%N], 110%N, 220%N. do 4 eexists. split; [reflexivity|]. repeat split. Qed.
(** "An image that cannot be read is passed over": it ends the run, though other pairs are good. *)
Theorem C310_unread_refuted : exists boards ls rs c, collect seen in_focus at_place boards fresh (map Some ls) (map Some rs) = Collected c /\
  collect seen in_focus at_place boards fresh (map Some ls ++ [None]) (map Some rs ++ map Some rs) = Crashes.
Proof. exists [100%N], [110%N], [120%N]. eexists. split; reflexivity. Qed.
(** "Left and right views are taken together": without the first right image every left one is paired with the next right one. *)
Theorem C310_shift_refuted : exists boards ls r0 rs c, collect seen in_focus at_place boards fresh (map Some ls) (map Some (r0 :: rs)) = Collected c /\ good c = [(10, 11, 100); (40, 41, 100)]%N /\
  exists c', collect seen in_focus at_place boards fresh (map Some ls) (map Some rs) = Collected c' /\ good c' = [(10, 41, 100)]%N.
Proof. exists [100%N], [110%N; 140%N], 111%N, [141%N]. eexists. split; [reflexivity|]. split; [reflexivity|]. eexists. split; reflexivity. Qed.
Print Assumptions C310_again_refuted. Print Assumptions C310_board_refuted. Print Assumptions C310_unread_refuted. Print Assumptions C310_shift_refuted.
