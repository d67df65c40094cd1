(** C259, C260: the lines of the combined raw file of oplab_to_acfr. *)
From Coq Require Import Reals Lra Ascii String Sorted.
From Verif Require Import PyBase NmeaModel NmeaProofs CsvModel FilesModel FilesProps EivaModel EivaProps EulerModel EulerProps AcfrTextModel.
From Coq Require Import Lra.
Local Open Scope R_scope.
Local Open Scope list_scope.

(** ** What the file holds *)
(** The words of the lines that begin with the given word. *)
Definition lines_of (key : string) (file : text) : list (list text) :=
  filter (fun ws => match ws with w :: _ => text_eqb w (txt key) | [] => false end) (map words (split 10%N file)).
(** A navigation file as parse writes it: the record of the origin, then the records by time. *)
Definition navigation (origin : item) (js : list item) : Prop :=
  js <> [] /\ StronglySorted (fun a b => i_t a <= i_t b) js /\ i_content origin = Other.
Definition attitudes (js : list item) : list attitude := flat_map (fun i => match i_content i with Attitude o => [o] | _ => [] end) js.
Definition depths (js : list item) : list (option R * option R) := flat_map (fun i => match i_content i with DepthOf t d => [(t, d)] | _ => [] end) js.
Definition fixes (js : list item) : list fix_ := flat_map (fun i => match i_content i with Fix u => [u] | _ => [] end) js.
(** Stereo images of two cameras, with names that are one word. *)
Definition stereo (i : item) : Prop :=
  forall c1 c2 own, i_content i = Image c1 c2 own ->
    exists t1 f1 t2 f2, c1 = Some (mkphoto (Some t1) f1) /\ c2 = Some (mkphoto (Some t2) f2) /\ word f1 /\ word f2.
Definition photos (js : list item) : list (R * text) :=
  flat_map (fun i => match i_content i with
                     | Image (Some (mkphoto (Some t1) f1)) (Some (mkphoto (Some t2) f2)) _ => [(t1, f1); (t2, f2)]
                     | _ => []
                     end) js.
Definition names_fit (i : item) : Prop :=
  forall c1 c2 own p, i_content i = Image c1 c2 own -> c1 = Some p \/ c2 = Some p \/ own = Some p -> ~ In 10%N (p_file p).

(** ** Proof: the file as a list of tagged lines *)
Inductive tag := T_rdi (t x y z a : R) (o : attitude) | T_compass (o : attitude) | T_parosci (t d : option R) | T_ssbl (u : fix_) | T_vis (p : photo).
Definition shown (p : photo) : list tag := if contains (txt "xxx") (p_file p) then [] else [T_vis p].
Fixpoint tags (a : option R) (o : option attitude) (js : list item) : list tag :=
  match js with
  | [] => []
  | i :: js =>
      match i_content i with
      | Velocity (Some dvl) x y z =>
          if Rlt_dec (Rabs (i_t i - dvl)) 1 then
            match a, o with
            | Some h, Some o' => T_rdi dvl x y z h o' :: tags None None js
            | _, _ => tags a o js
            end
          else tags a o js
      | Velocity None _ _ _ | InertialVelocity | Other => tags a o js
      | Attitude o' => T_compass o' :: tags a (Some o') js
      | DepthOf t d => T_parosci t d :: tags a o js
      | AltitudeOf h => tags (Some h) o js
      | Fix u => T_ssbl u :: tags a o js
      | Image c1 c2 own => shown (from_json c1 own) ++ shown (from_json c2 own) ++ tags a o js
      end
  end.

Section Facts.
  Variable number : R -> text.
  Hypothesis number_word : forall x, word (number x).
  Definition full (g : tag) : text :=
    match g with
    | T_rdi t x y z a o => rdi number t x y z a o
    | T_compass o => compass number o
    | T_parosci t d => parosci number t d
    | T_ssbl u => ssbl number u
    | T_vis p => vis number p
    end.
  Definition key (g : tag) : string :=
    match g with T_rdi _ _ _ _ _ _ => "RDI:" | T_compass _ => "PHINS_COMPASS:" | T_parosci _ _ => "PAROSCI:" | T_ssbl _ => "SSBL_FIX:" | T_vis _ => "VIS:" end.

  Lemma shown_file : forall w p, add_photo number w p = mkwriter (w_alt w) (w_att w) (w_file w ++ concat (map full (shown p))).
  Proof.
    intros [a o f] p. unfold add_photo, shown, put. destruct contains; cbn [w_alt w_att w_file map concat full]; now rewrite app_nil_r.
  Qed.
  Lemma tags_file : forall js w, w_file (fold_left (add number) js w) = w_file w ++ concat (map full (tags (w_alt w) (w_att w) js)).
  Proof.
    induction js as [|i js IH]; intros w; [cbn; now rewrite app_nil_r|]. cbn [fold_left tags]. rewrite IH. unfold add.
    destruct (i_content i) as [[dvl|] x y z| |o|t d|a|u|c1 c2 own|]; cbn [w_alt w_att w_file put]; try reflexivity.
    - destruct Rlt_dec; [|reflexivity]. destruct (w_alt w) as [a|] eqn:A, (w_att w) as [o|] eqn:O; cbn [w_alt w_att w_file map concat full]; rewrite ?A, ?O; try reflexivity.
      now rewrite <- app_assoc.
    - cbn [map concat full]. now rewrite <- app_assoc.
    - cbn [map concat full]. now rewrite <- app_assoc.
    - cbn [map concat full]. now rewrite <- app_assoc.
    - rewrite !shown_file. cbn [w_alt w_att w_file]. rewrite !map_app, !concat_app, <- !app_assoc. reflexivity.
  Qed.

  Lemma sorted_last : forall js d, js <> [] -> StronglySorted (fun a b => i_t a <= i_t b) js -> forall i, In i js -> i_t i <= i_t (last js d).
  Proof.
    induction js as [|a js IH]; intros d N S i I; [now destruct I|]. inversion S as [|? ? S' F]; subst. destruct js as [|b js]; [destruct I as [->|[]]; cbn; apply Rle_refl|].
    change (last (a :: b :: js) d) with (last (b :: js) d). destruct I as [->|I]; [|apply IH; [discriminate|exact S'|exact I]].
    rewrite Forall_forall in F. apply F. clear. revert b. induction js as [|c js IH]; intros b; [now left|]. right. apply (IH c).
  Qed.
  Lemma all_within : forall (f : writer -> item -> writer) lo hi js w, (forall i, In i js -> lo <= i_t i <= hi) ->
    fold_left (fun w i => if within lo hi i then f w i else w) js w = fold_left f js w.
  Proof.
    intros f lo hi. induction js as [|i js IH]; intros w H; [reflexivity|]. cbn [fold_left]. rewrite IH by (intros; apply H; now right).
    specialize (H i (or_introl eq_refl)). unfold within. destruct Rle_dec as [|N]; [|now elim N]. destruct Rle_dec as [|N]; [reflexivity|now elim N].
  Qed.
  Lemma combined_tags : forall origin js, navigation origin js -> combined number (origin :: js) = Some (concat (map full (tags None None js))).
  Proof.
    intros origin js (N & S & O). unfold combined. destruct js as [|b js]; [congruence|]. f_equal. cbn [fold_left].
    set (hi := i_t (last (origin :: b :: js) b)). assert ((if within (i_t b) hi origin then add number (mkwriter None None []) origin else mkwriter None None []) = mkwriter None None []) as ->.
    { destruct within; [|reflexivity]. unfold add. now rewrite O. }
    set (G := fun w i => if within (i_t b) hi i then add number w i else w).
    change (w_file (fold_left G (b :: js) (mkwriter None None [])) = concat (map full (tags None None (b :: js)))). unfold G.
    rewrite all_within.
    - now rewrite tags_file.
    - intros i I. split.
      + inversion S as [|? ? _ F]; subst. destruct I as [<-|I]; [apply Rle_refl|]. rewrite Forall_forall in F. now apply F.
      + unfold hi. change (last (origin :: b :: js) b) with (last (b :: js) b). apply sorted_last; auto.
  Qed.

  (** *** Words *)
  Lemma step : forall acc w c s, word w -> is_space c = true -> words_from acc (w ++ c :: s) = (rev acc ++ w) :: words_from [] s.
  Proof.
    intros acc w c s [N W] C. rewrite words_from_word by exact W. cbn [words_from]. rewrite C.
    destruct (rev w ++ acc) eqn:E; [apply app_eq_nil in E as [E _]; now apply rev_not_nil in N|]. rewrite <- E, rev_app_distr, rev_involutive. reflexivity.
  Qed.
  Lemma maybe_word : forall x, word (maybe number x).
  Proof. intros [x|]; [apply number_word|]. split; [discriminate|]. repeat constructor. Qed.
  Ltac scan := repeat (rewrite step; [|first [apply number_word|apply maybe_word|assumption]|reflexivity]; cbn).

  Lemma words_compass : forall o, words (compass number o) =
    [txt "PHINS_COMPASS:"; number (o_t o); txt "r:"; number (o_roll o); txt "p:"; number (o_pitch o); txt "h:"; number (o_yaw o);
     txt "std_r:"; number (o_roll_std o); txt "std_p:"; number (o_pitch_std o); txt "std_h:"; number (o_yaw_std o)].
  Proof. intros o. unfold words, compass. cbn. scan. reflexivity. Qed.
  Ltac scan' := repeat (rewrite step; [|first [apply number_word|apply maybe_word|assumption]|reflexivity]; cbn - [maybe horizontal bearing Rmult Ropp IZR]).
  Lemma words_parosci : forall t d, words (parosci number t d) = [txt "PAROSCI:"; maybe number t; maybe number d].
  Proof. intros t d. unfold words, parosci. cbn - [maybe]. scan'. reflexivity. Qed.
  Lemma words_ssbl : forall u, words (ssbl number u) =
    [txt "SSBL_FIX:"; number (u_t u); txt "ship_x:"; maybe number (u_ship_north u); txt "ship_y:"; maybe number (u_ship_east u);
     txt "target_x:"; number (u_north u); txt "target_y:"; number (u_east u); txt "target_z:"; number (u_depth u);
     txt "target_hr:"; number (horizontal (u_range u) (u_depth u)); txt "target_sr:"; maybe number (u_range u); txt "target_bearing:"; number (bearing u)].
  Proof. intros u. unfold words, ssbl. cbn - [maybe horizontal bearing]. scan'. reflexivity. Qed.
  Lemma words_rdi : forall t x y z a o, words (rdi number t x y z a o) =
    [txt "RDI:"; number t; txt "alt:" ++ number a; txt "r1:0"; txt "r2:0"; txt "r3:0"; txt "r4:0"; txt "h:" ++ number (o_yaw o); txt "p:" ++ number (o_pitch o);
     txt "r:" ++ number (o_roll o); txt "vx:" ++ number x; txt "vy:" ++ number y; txt "vz:" ++ number z; txt "nx:0"; txt "ny:0"; txt "nz:0"; txt "COG:0"; txt "SOG:0";
     txt "bt_status:0"; txt "h_true:0"; txt "p_gimbal:0"; txt "sv:"; number (-9999)].
  Proof. intros. unfold words, rdi. cbn - [maybe IZR]. scan'. reflexivity. Qed.
  Lemma words_vis : forall t f, word f -> words (vis number (mkphoto (Some t) f)) =
    [txt "VIS:"; number t; txt "[" ++ number t ++ txt "]"; f; txt "exp:"; txt "0"].
  Proof.
    intros t f W. unfold words, vis. cbn - [maybe]. assert (forall x s, word x -> x ++ 93%N :: 32%N :: s = (x ++ [93%N]) ++ 32%N :: s) as E by (intros; now rewrite <- app_assoc).
    rewrite step; [|apply maybe_word|reflexivity]. cbn - [maybe]. rewrite E by apply maybe_word. rewrite step; [| |reflexivity].
    - cbn - [maybe]. rewrite step; [|exact W|reflexivity]. reflexivity.
    - destruct (maybe_word (Some t)) as [N F]. split; [destruct (maybe number (Some t)); discriminate|]. apply Forall_app. split; [exact F|]. now repeat constructor.
  Qed.
  Lemma words_newline : forall s acc, words_from acc (s ++ [10%N]) = words_from acc s.
  Proof. induction s as [|c s IH]; intros acc; [cbn; now destruct acc|]. cbn [app words_from]. now rewrite !IH. Qed.
  Lemma key_first : forall g, exists ws, words (full g) = txt (key g) :: ws.
  Proof.
    intros [t x y z a o|o|t d|u|p]; cbn [full key].
    - rewrite words_rdi. eauto.
    - rewrite words_compass. eauto.
    - rewrite words_parosci. eauto.
    - rewrite words_ssbl. eauto.
    - unfold words, vis. cbn - [maybe]. eauto.
  Qed.

  (** *** Lines *)
  Definition fits (g : tag) : Prop := match g with T_vis p => ~ In 10%N (p_file p) | _ => True end.
  Lemma number_line : forall x, ~ In 10%N (number x).
  Proof. intros x I. destruct (number_word x) as [_ W]. rewrite Forall_forall in W. specialize (W _ I). discriminate. Qed.
  Lemma maybe_line : forall x, ~ In 10%N (maybe number x).
  Proof. intros x I. destruct (maybe_word x) as [_ W]. rewrite Forall_forall in W. specialize (W _ I). discriminate. Qed.
  Lemma no_app : forall (a b : text), ~ In 10%N a -> ~ In 10%N b -> ~ In 10%N (a ++ b).
  Proof. intros a b A B I. apply in_app_or in I as [I|I]; auto. Qed.
  Lemma lit_line : forall s, forallb (fun c => negb (N.eqb c 10)) (txt s) = true -> ~ In 10%N (txt s).
  Proof. intros s H I. rewrite forallb_forall in H. specialize (H _ I). discriminate. Qed.
  Ltac clean_line := repeat (apply no_app); first [apply number_line|apply maybe_line|apply lit_line; reflexivity|assumption].
  Lemma full_line : forall g, fits g -> exists b, full g = b ++ [10%N] /\ ~ In 10%N b.
  Proof.
    intros g F. destruct g; cbn [full]; eexists; (split; [unfold rdi, compass, parosci, ssbl, vis; rewrite !app_assoc; reflexivity|]); cbn [fits] in F; clean_line.
  Qed.
  Lemma lines_tags : forall gs, (forall g, In g gs -> fits g) -> map words (split 10%N (concat (map full gs))) = map (fun g => words (full g)) gs ++ [[]].
  Proof.
    induction gs as [|g gs IH]; intros F; [reflexivity|]. cbn [map concat]. destruct (full_line g) as (b & E & N); [apply F; now left|].
    rewrite E, <- app_assoc. cbn [app]. rewrite split_app by exact N. cbn [map]. rewrite IH by (intros; apply F; now right). unfold words at 1 3. now rewrite words_newline.
  Qed.
  Lemma key_inj : forall g g', key g = key g' -> txt (key g) = txt (key g').
  Proof. congruence. Qed.
  Definition tagged (k : string) (g : tag) : bool := text_eqb (txt (key g)) (txt k).
  Lemma lines_of_tags : forall k gs, (forall g, In g gs -> fits g) -> lines_of k (concat (map full gs)) = map (fun g => words (full g)) (filter (tagged k) gs).
  Proof.
    intros k gs F. unfold lines_of. rewrite lines_tags by exact F. rewrite filter_app. cbn [filter]. rewrite app_nil_r. clear F.
    induction gs as [|g gs IH]; [reflexivity|]. cbn [map filter]. destruct (key_first g) as (ws & E). rewrite E at 1. unfold tagged at 1. destruct text_eqb; cbn [map]; now rewrite IH.
  Qed.
  Lemma fit_tags : forall js a o, (forall i, In i js -> names_fit i) -> forall g, In g (tags a o js) -> fits g.
  Proof.
    induction js as [|i js IH]; intros a o F g I; [destruct I|]. assert (forall i, In i js -> names_fit i) as F' by (intros; apply F; now right). specialize (F i (or_introl eq_refl)).
    cbn [tags] in I. unfold names_fit in F. destruct (i_content i) as [[dvl|] x y z| |o'|t d|h|u|c1 c2 own|] eqn:C.
    - destruct Rlt_dec; [destruct a, o; [destruct I as [<-|I]; [exact Logic.I|]| | |]|]; eapply IH; eassumption.
    - eapply IH; eassumption.
    - eapply IH; eassumption.
    - destruct I as [<-|I]; [exact Logic.I|]. eapply IH; eassumption.
    - destruct I as [<-|I]; [exact Logic.I|]. eapply IH; eassumption.
    - eapply IH; eassumption.
    - destruct I as [<-|I]; [exact Logic.I|]. eapply IH; eassumption.
    - assert (forall c, (c = c1 \/ c = c2) -> forall g, In g (shown (from_json c own)) -> fits g) as P.
      { intros c K g' I'. unfold shown in I'. destruct contains; [destruct I'|]. destruct I' as [<-|[]]. cbn [fits]. specialize (F c1 c2 own). unfold from_json.
        destruct c as [p|]; [apply (F p eq_refl); destruct K; auto|]. destruct own as [p|]; [apply (F p eq_refl); auto|]. intros []. }
      rewrite !in_app_iff in I. destruct I as [I|[I|I]]; [eapply P; [left; reflexivity|eassumption]|eapply P; [right; reflexivity|eassumption]|eapply IH; eassumption].
    - eapply IH; eassumption.
  Qed.
  Lemma shown_tagged : forall k p, txt "VIS:" <> txt k -> filter (tagged k) (shown p) = [].
  Proof. intros k p N. unfold shown. destruct contains; [reflexivity|]. cbn [filter]. unfold tagged. cbn [key]. destruct (text_eqb _ _) eqn:E; [apply text_eqb_iff in E; congruence|reflexivity]. Qed.
  Lemma select : forall {A} (k : string) (pick : item -> list A) (make : A -> tag),
    (forall i a o js, (forall a o, filter (tagged k) (tags a o js) = map make (flat_map pick js)) -> filter (tagged k) (tags a o (i :: js)) = map make (pick i) ++ map make (flat_map pick js)) ->
    forall js a o, filter (tagged k) (tags a o js) = map make (flat_map pick js).
  Proof.
    intros A k pick make H js. induction js as [|i js IH]; intros a o; [reflexivity|]. rewrite H by exact IH. cbn [flat_map]. now rewrite map_app.
  Qed.
  Lemma file_lines : forall k origin js, navigation origin js -> (forall i, In i js -> names_fit i) ->
    exists file, combined number (origin :: js) = Some file /\ lines_of k file = map (fun g => words (full g)) (filter (tagged k) (tags None None js)).
  Proof.
    intros k origin js N F. eexists. split; [apply combined_tags; exact N|]. apply lines_of_tags. now apply fit_tags.
  Qed.
End Facts.

Ltac one := let IH := fresh in intros it al at_ rest IH; cbn [tags]; destruct (i_content it) as [[dvl|] x y z| |o'|t d|h|u|c1 c2 own|];
    [destruct Rlt_dec; [destruct al, at_|]|..]; rewrite ?filter_app, ?shown_tagged by discriminate; cbn [filter map app]; rewrite ?IH; try reflexivity.

Lemma atan2_bounds : forall y x, - PI < atan2 y x <= PI.
Proof.
  intros y x. pose proof PI_RGT_0. pose proof (atan_bound (y / x)) as B. unfold atan2. destruct Rlt_dec as [X|X]; [lra|]. destruct Rlt_dec as [X'|X'].
  - destruct Rle_dec as [Y|Y].
    + assert (y / x <= 0) as K. { unfold Rdiv. assert (/ x < 0) by now apply Rinv_lt_0_compat. nra. }
      assert (atan (y / x) <= 0) by (destruct K as [K|K]; [left; rewrite <- atan_0; now apply atan_increasing|rewrite K, atan_0; lra]). lra.
    + assert (0 < y / x) as K. { unfold Rdiv. assert (/ x < 0) by now apply Rinv_lt_0_compat. nra. }
      assert (0 < atan (y / x)) by (rewrite <- atan_0; now apply atan_increasing). lra.
  - destruct Rlt_dec; [lra|]. destruct Rlt_dec; lra.
Qed.

(** ** C259 *)
(** Every orientation is one line. *)
Theorem C259_compass : forall number origin js, (forall x, word (number x)) -> navigation origin js -> (forall i, In i js -> names_fit i) ->
  exists file, combined number (origin :: js) = Some file /\
    lines_of "PHINS_COMPASS:" file = map (fun o => [txt "PHINS_COMPASS:"; number (o_t o); txt "r:"; number (o_roll o); txt "p:"; number (o_pitch o); txt "h:"; number (o_yaw o);
      txt "std_r:"; number (o_roll_std o); txt "std_p:"; number (o_pitch_std o); txt "std_h:"; number (o_yaw_std o)]) (attitudes js).
Proof.
  intros number origin js W N F. destruct (file_lines number W "PHINS_COMPASS:" origin js N F) as (file & E & L). exists file. split; [exact E|]. rewrite L.
  rewrite (select "PHINS_COMPASS:" (fun i => match i_content i with Attitude o => [o] | _ => [] end) T_compass); [|one].
  rewrite map_map. apply map_ext. intros o. now apply words_compass.
Qed.
Print Assumptions C259_compass.

(** Every depth: the time of the pressure sensor and the depth. *)
Theorem C259_depth : forall number origin js, (forall x, word (number x)) -> navigation origin js -> (forall i, In i js -> names_fit i) ->
  exists file, combined number (origin :: js) = Some file /\
    lines_of "PAROSCI:" file = map (fun td => [txt "PAROSCI:"; maybe number (fst td); maybe number (snd td)]) (depths js).
Proof.
  intros number origin js W N F. destruct (file_lines number W "PAROSCI:" origin js N F) as (file & E & L). exists file. split; [exact E|]. rewrite L.
  rewrite (select "PAROSCI:" (fun i => match i_content i with DepthOf t d => [(t, d)] | _ => [] end) (fun td => T_parosci (fst td) (snd td))); [|one].
  rewrite map_map. apply map_ext. intros o. now apply words_parosci.
Qed.
Print Assumptions C259_depth.

(** Every fix: the positions, the depth, the horizontal and slant range and a bearing. *)
Theorem C259_fix : forall number origin js, (forall x, word (number x)) -> navigation origin js -> (forall i, In i js -> names_fit i) ->
  exists file hr b, combined number (origin :: js) = Some file /\
    lines_of "SSBL_FIX:" file = map (fun u => [txt "SSBL_FIX:"; number (u_t u); txt "ship_x:"; maybe number (u_ship_north u); txt "ship_y:"; maybe number (u_ship_east u);
      txt "target_x:"; number (u_north u); txt "target_y:"; number (u_east u); txt "target_z:"; number (u_depth u); txt "target_hr:"; number (hr u);
      txt "target_sr:"; maybe number (u_range u); txt "target_bearing:"; number (b u)]) (fixes js) /\
    forall u, In u (fixes js) ->
      (forall d, u_range u = Some d -> Rabs (u_depth u) < d -> 0 < hr u /\ hr u ^ 2 + u_depth u ^ 2 = d ^ 2) /\
      (u_range u = None \/ (exists d, u_range u = Some d /\ d <= Rabs (u_depth u)) -> hr u = -1 \/ (hr u = 0 /\ exists d, u_range u = Some d /\ u_depth u = - d)) /\
      -180 < b u <= 180 /\
      exists r, 0 <= r /\ u_north u = r * cos (b u * PI / 180) /\ u_east u = r * sin (b u * PI / 180).
Proof.
  intros number origin js W N F. destruct (file_lines number W "SSBL_FIX:" origin js N F) as (file & E & L). exists file, (fun u => horizontal (u_range u) (u_depth u)), bearing.
  split; [exact E|]. split.
  { rewrite L. rewrite (select "SSBL_FIX:" (fun i => match i_content i with Fix u => [u] | _ => [] end) T_ssbl); [|one].
    rewrite map_map. apply map_ext. intros o. now apply words_ssbl. }
  intros u _. split; [|split; [|split]].
  - intros d -> H. unfold horizontal. pose proof (Rabs_pos (u_depth u)). pose proof (Rle_abs (u_depth u)). assert (Rabs (u_depth u) ^ 2 = u_depth u ^ 2) as Q by (unfold Rabs; destruct Rcase_abs; ring).
    assert (u_depth u ^ 2 < d ^ 2) by (rewrite <- Q; nra).
    destruct Rlt_dec; [|lra]. destruct Rlt_dec; [|lra]. destruct Rle_dec; [|lra]. split; [apply sqrt_lt_R0; lra|]. replace (sqrt (d ^ 2 - u_depth u ^ 2) ^ 2) with (sqrt (d ^ 2 - u_depth u ^ 2) * sqrt (d ^ 2 - u_depth u ^ 2)) by ring.
    rewrite sqrt_sqrt by lra. ring.
  - intros H. unfold horizontal. destruct (u_range u) as [d|]; [|now left]. destruct H as [H|(d' & E' & H)]; [discriminate|]. injection E' as <-.
    destruct Rlt_dec as [A|]; [|now left]. destruct Rlt_dec as [B|]; [|now left]. destruct Rle_dec as [C|]; [|now left]. right.
    assert (u_depth u = - d) as K. { unfold Rabs in H. destruct Rcase_abs in H; [|lra]. nra. }
    split; [|eauto]. rewrite K. replace (d ^ 2 - (- d) ^ 2) with 0 by ring. apply sqrt_0.
  - unfold bearing. pose proof (atan2_bounds (u_east u) (u_north u)) as B. pose proof PI_RGT_0. split.
    + apply Rmult_lt_reg_r with (PI / 180); [lra|]. replace (atan2 (u_east u) (u_north u) * 180 / PI * (PI / 180)) with (atan2 (u_east u) (u_north u)) by (field; lra). lra.
    + apply Rmult_le_reg_r with (PI / 180); [lra|]. replace (atan2 (u_east u) (u_north u) * 180 / PI * (PI / 180)) with (atan2 (u_east u) (u_north u)) by (field; lra). lra.
  - unfold bearing. pose proof PI_RGT_0. replace (atan2 (u_east u) (u_north u) * 180 / PI * PI / 180) with (atan2 (u_east u) (u_north u)) by (field; lra).
    set (q := u_north u * u_north u + u_east u * u_east u). assert (0 <= q) by (unfold q; nra). exists (sqrt q). split; [apply sqrt_pos|].
    destruct (Req_dec q 0) as [Z|Z].
    + assert (u_north u = 0 /\ u_east u = 0) as [-> ->] by (unfold q in Z; nra). rewrite Z, sqrt_0. lra.
    + assert (0 < sqrt q) as P by (apply sqrt_lt_R0; lra). destruct (atan2_dir (u_north u) (u_east u) (sqrt q) P) as [C S]; [rewrite sqrt_sqrt by lra; reflexivity|]. rewrite C, S. split; field; lra.
Qed.
Print Assumptions C259_fix.

(** Stereo images: two lines each, the first camera's first; names with xxx are left out. *)
Theorem C259_images : forall number origin js, (forall x, word (number x)) -> navigation origin js -> (forall i, In i js -> stereo i /\ names_fit i) ->
  exists file, combined number (origin :: js) = Some file /\
    lines_of "VIS:" file = map (fun p => [txt "VIS:"; number (fst p); txt "[" ++ number (fst p) ++ txt "]"; snd p; txt "exp:"; txt "0"])
      (filter (fun p => negb (contains (txt "xxx") (snd p))) (photos js)).
Proof.
  intros number origin js W N F. destruct (file_lines number W "VIS:" origin js N) as (file & E & L); [intros; now apply F|]. exists file. split; [exact E|]. rewrite L. clear file E L N.
  generalize (@None R) as a, (@None attitude) as o. induction js as [|i js IH]; intros a o; [reflexivity|].
  assert (forall a o, map (fun g => words (full number g)) (filter (tagged "VIS:") (tags a o js)) =
    map (fun p => [txt "VIS:"; number (fst p); txt "[" ++ number (fst p) ++ txt "]"; snd p; txt "exp:"; txt "0"]) (filter (fun p => negb (contains (txt "xxx") (snd p))) (photos js))) as K
    by (intros; apply IH; intros; apply F; now right). clear IH.
  destruct (F i (or_introl eq_refl)) as [S _]. unfold stereo in S. cbn [tags photos flat_map]. fold (photos js). destruct (i_content i) as [[dvl|] x y z| |o'|t d|h|u|c1 c2 own|].
  - destruct Rlt_dec; [destruct a, o|]; apply K.
  - apply K.
  - apply K.
  - apply K.
  - apply K.
  - apply K.
  - apply K.
  - destruct (S c1 c2 own eq_refl) as (t1 & f1 & t2 & f2 & -> & -> & W1 & W2). unfold from_json, shown. cbn [p_file]. rewrite !filter_app, !map_app, K.
    cbn [app filter snd fst]. destruct (contains (txt "xxx") f1), (contains (txt "xxx") f2); cbn [negb filter map app]; unfold tagged; cbn [key]; rewrite ?(proj2 (text_eqb_iff _ _) eq_refl);
      cbn [map app full fst snd]; rewrite ?words_vis by assumption; reflexivity.
  - apply K.
Qed.
Print Assumptions C259_images.

(** ** Velocities *)
Definition latest {A} (pick : content -> option A) (pre : list item) (v : A) : Prop :=
  exists p k q, pre = p ++ k :: q /\ pick (i_content k) = Some v /\ forall i, In i q -> pick (i_content i) = None.
Definition altitude_in (c : content) : option R := match c with AltitudeOf a => Some a | _ => None end.
Definition attitude_in (c : content) : option attitude := match c with Attitude o => Some o | _ => None end.
Definition rdi_words (number : R -> text) (t x y z a : R) (o : attitude) : list text :=
  [txt "RDI:"; number t; txt "alt:" ++ number a; txt "r1:0"; txt "r2:0"; txt "r3:0"; txt "r4:0"; txt "h:" ++ number (o_yaw o); txt "p:" ++ number (o_pitch o);
   txt "r:" ++ number (o_roll o); txt "vx:" ++ number x; txt "vy:" ++ number y; txt "vz:" ++ number z; txt "nx:0"; txt "ny:0"; txt "nz:0"; txt "COG:0"; txt "SOG:0";
   txt "bt_status:0"; txt "h_true:0"; txt "p_gimbal:0"; txt "sv:"; number (-9999)].
(** A velocity whose DVL clock is within a second of the main one. *)
Definition aligned (i : item) (t x y z : R) : Prop := i_content i = Velocity (Some t) x y z /\ Rabs (i_t i - t) < 1.

Lemma latest_more : forall {A} (pick : content -> option A) pre v i, latest pick pre v -> pick (i_content i) = None -> latest pick (pre ++ [i]) v.
Proof.
  intros A pick pre v i (p & k & q & -> & K & Q) E. exists p, k, (q ++ [i]). split; [now rewrite <- app_assoc|]. split; [exact K|]. intros j I. apply in_app_or in I as [I|[<-|[]]]; auto.
Qed.
Lemma latest_new : forall {A} (pick : content -> option A) pre v i, pick (i_content i) = Some v -> latest pick (pre ++ [i]) v.
Proof. intros A pick pre v i E. exists pre, i, []. split; [reflexivity|]. split; [exact E|]. intros j []. Qed.
Definition holds {A} (pick : content -> option A) (pre : list item) (x : option A) : Prop := forall v, x = Some v -> latest pick pre v.
Lemma holds_more : forall {A} (pick : content -> option A) pre x i, holds pick pre x -> pick (i_content i) = None -> holds pick (pre ++ [i]) x.
Proof. intros A pick pre x i H E v K. apply latest_more; auto. Qed.
Lemma holds_new : forall {A} (pick : content -> option A) pre v i, pick (i_content i) = Some v -> holds pick (pre ++ [i]) (Some v).
Proof. intros A pick pre v i E v' K. injection K as <-. now apply latest_new. Qed.

Lemma rdi_sound : forall js pre a o t x y z h att, holds altitude_in pre a -> holds attitude_in pre o -> In (T_rdi t x y z h att) (tags a o js) ->
  exists mid i post, js = mid ++ i :: post /\ aligned i t x y z /\ latest altitude_in (pre ++ mid) h /\ latest attitude_in (pre ++ mid) att.
Proof.
  induction js as [|i js IH]; intros pre a o t x y z h att HA HO I; [destruct I|].
  assert (forall a o, holds altitude_in (pre ++ [i]) a -> holds attitude_in (pre ++ [i]) o -> In (T_rdi t x y z h att) (tags a o js) ->
    exists mid j post, i :: js = mid ++ j :: post /\ aligned j t x y z /\ latest altitude_in (pre ++ mid) h /\ latest attitude_in (pre ++ mid) att) as STEP.
  { intros a' o' HA' HO' I'. destruct (IH _ _ _ _ _ _ _ _ _ HA' HO' I') as (mid & j & post & -> & AL & L1 & L2). exists (i :: mid), j, post. split; [reflexivity|]. split; [exact AL|].
    rewrite <- !app_assoc in *. cbn [app] in *. split; assumption. }
  clear IH. cbn [tags] in I. destruct (i_content i) as [[dvl|] vx vy vz| |o'|td d|h'|u|c1 c2 own|] eqn:C.
  - destruct Rlt_dec as [D|D].
    + destruct a as [a|], o as [o|].
      * destruct I as [I|I].
        -- injection I as <- <- <- <- <- <-. exists [], i, js. split; [reflexivity|]. split; [now split|]. rewrite app_nil_r. split; [apply HA|apply HO]; reflexivity.
        -- apply (STEP None None); [discriminate|discriminate|exact I].
      * apply (STEP (Some a) None); [apply holds_more; [assumption|now rewrite C]|discriminate|exact I].
      * apply (STEP None (Some o)); [discriminate|apply holds_more; [assumption|now rewrite C]|exact I].
      * apply (STEP None None); [discriminate|discriminate|exact I].
    + apply (STEP a o); [apply holds_more; [assumption|now rewrite C]..|exact I].
  - apply (STEP a o); [apply holds_more; [assumption|now rewrite C]..|exact I].
  - apply (STEP a o); [apply holds_more; [assumption|now rewrite C]..|exact I].
  - destruct I as [I|I]; [discriminate|]. apply (STEP a (Some o')); [apply holds_more; [assumption|now rewrite C]|apply holds_new; now rewrite C|exact I].
  - destruct I as [I|I]; [discriminate|]. apply (STEP a o); [apply holds_more; [assumption|now rewrite C]..|exact I].
  - apply (STEP (Some h') o); [apply holds_new; now rewrite C|apply holds_more; [assumption|now rewrite C]|exact I].
  - destruct I as [I|I]; [discriminate|]. apply (STEP a o); [apply holds_more; [assumption|now rewrite C]..|exact I].
  - rewrite !in_app_iff in I. assert (forall p, ~ In (T_rdi t x y z h att) (shown p)) as NS by (intros p K; unfold shown in K; destruct contains; [destruct K|destruct K as [K|[]]; discriminate]).
    destruct I as [I|[I|I]]; [now apply NS in I|now apply NS in I|]. apply (STEP a o); [apply holds_more; [assumption|now rewrite C]..|exact I].
  - apply (STEP a o); [apply holds_more; [assumption|now rewrite C]..|exact I].
Qed.

(** The latest altitude and orientation of a stretch without aligned velocities. *)
Lemma rdi_complete : forall q pre a o i post t x y z h att, aligned i t x y z -> (forall j t x y z, In j q -> ~ aligned j t x y z) ->
  latest altitude_in (pre ++ q) h -> latest attitude_in (pre ++ q) att ->
  (latest altitude_in pre h -> (forall j, In j q -> altitude_in (i_content j) = None) -> a = Some h) ->
  (latest attitude_in pre att -> (forall j, In j q -> attitude_in (i_content j) = None) -> o = Some att) -> In (T_rdi t x y z h att) (tags a o (q ++ i :: post)).
Proof.
  induction q as [|j q IH]; intros pre a o i post t x y z h att AL NA LH LO EA EO.
  - rewrite app_nil_r in *. cbn [app tags]. destruct AL as [C D]. rewrite C. destruct Rlt_dec; [|contradiction]. rewrite EA by (auto; intros ? []). rewrite EO by (auto; intros ? []). now left.
  - assert (forall a' o',
      (latest altitude_in (pre ++ [j]) h -> (forall k, In k q -> altitude_in (i_content k) = None) -> a' = Some h) ->
      (latest attitude_in (pre ++ [j]) att -> (forall k, In k q -> attitude_in (i_content k) = None) -> o' = Some att) -> In (T_rdi t x y z h att) (tags a' o' (q ++ i :: post))) as STEP.
    { intros a' o' A' O'. apply (IH (pre ++ [j])); auto; [intros; apply NA; now right| |]; rewrite <- app_assoc; assumption. }
    assert (forall {A} (pick : content -> option A) v, pick (i_content j) = None -> latest pick (pre ++ [j]) v -> latest pick pre v) as BACK.
    { intros A pick v E (p & k & r & K & P & R). destruct r as [|r0 r _] using rev_ind.
      - apply app_inj_tail in K as [-> ->]. rewrite E in P. discriminate.
      - rewrite app_comm_cons, app_assoc in K. apply app_inj_tail in K as [-> ->]. exists p, k, r. split; [reflexivity|]. split; [exact P|]. intros m I. apply R. apply in_or_app. now left. }
    assert (forall {A} (pick : content -> option A) v w, pick (i_content j) = Some w -> latest pick (pre ++ [j]) v -> v = w) as LAST.
    { intros A pick v w E (p & k & r & K & P & R). destruct r as [|r0 r _] using rev_ind.
      - apply app_inj_tail in K as [-> ->]. congruence.
      - rewrite app_comm_cons, app_assoc in K. apply app_inj_tail in K as [-> ->]. rewrite R in E by (apply in_or_app; right; now left). discriminate. }
    assert (altitude_in (i_content j) = None -> latest altitude_in (pre ++ [j]) h -> (forall k, In k q -> altitude_in (i_content k) = None) -> a = Some h) as KA.
    { intros E L R. apply EA; [eapply BACK; eassumption|]. intros k [<-|I]; [exact E|now apply R]. }
    assert (attitude_in (i_content j) = None -> latest attitude_in (pre ++ [j]) att -> (forall k, In k q -> attitude_in (i_content k) = None) -> o = Some att) as KO.
    { intros E L R. apply EO; [eapply BACK; eassumption|]. intros k [<-|I]; [exact E|now apply R]. }
    cbn [app tags]. pose proof (NA j) as NJ. unfold aligned in NJ. destruct (i_content j) as [[dvl|] vx vy vz| |o'|td d|h'|u|c1 c2 own|] eqn:C.
    + destruct Rlt_dec as [D|D]; [elim (NJ dvl vx vy vz (or_introl eq_refl)); now split|]. apply STEP; [apply KA|apply KO]; reflexivity.
    + apply STEP; [apply KA|apply KO]; reflexivity.
    + apply STEP; [apply KA|apply KO]; reflexivity.
    + right. apply STEP; [apply KA; reflexivity|]. intros L _. f_equal. symmetry. eapply (LAST _ attitude_in); [reflexivity|exact L].
    + right. apply STEP; [apply KA|apply KO]; reflexivity.
    + apply STEP; [|apply KO; reflexivity]. intros L _. f_equal. symmetry. eapply (LAST _ altitude_in); [reflexivity|exact L].
    + right. apply STEP; [apply KA|apply KO]; reflexivity.
    + rewrite !in_app_iff. right. right. apply STEP; [apply KA|apply KO]; reflexivity.
    + apply STEP; [apply KA|apply KO]; reflexivity.
Qed.
Lemma tags_app : forall js a o ks, exists a' o', tags a o (js ++ ks) = tags a o js ++ tags a' o' ks.
Proof.
  induction js as [|i js IH]; intros a o ks; [now exists a, o|]. cbn [app tags].
  destruct (i_content i) as [[dvl|] vx vy vz| |o'|td d|h'|u|c1 c2 own|].
  - destruct Rlt_dec; [destruct a as [a|], o as [o|]|]; match goal with |- context [tags ?x ?y (js ++ ks)] => destruct (IH x y ks) as (a' & o'' & E); rewrite E; exists a', o''; reflexivity end.
  - apply IH.
  - apply IH.
  - destruct (IH a (Some o') ks) as (a' & o'' & E). rewrite E. now exists a', o''.
  - destruct (IH a o ks) as (a' & o'' & E). rewrite E. now exists a', o''.
  - apply IH.
  - destruct (IH a o ks) as (a' & o'' & E). rewrite E. now exists a', o''.
  - destruct (IH a o ks) as (a' & o'' & E). rewrite E. exists a', o''. now rewrite !app_assoc.
  - apply IH.
Qed.

(** A velocity line gives a velocity with the latest altitude and the latest orientation before it. *)
Theorem C259_velocity : forall number origin js, (forall x, word (number x)) -> navigation origin js -> (forall i, In i js -> names_fit i) ->
  exists file, combined number (origin :: js) = Some file /\
    (forall ws, In ws (lines_of "RDI:" file) -> exists pre i post t x y z a o, js = pre ++ i :: post /\ aligned i t x y z /\
       latest altitude_in pre a /\ latest attitude_in pre o /\ ws = rdi_words number t x y z a o) /\
    (forall before q i post t x y z a o, js = before ++ q ++ i :: post -> aligned i t x y z -> (forall j t x y z, In j q -> ~ aligned j t x y z) ->
       latest altitude_in q a -> latest attitude_in q o -> In (rdi_words number t x y z a o) (lines_of "RDI:" file)).
Proof.
  intros number origin js W N F. destruct (file_lines number W "RDI:" origin js N F) as (file & E & L). exists file. split; [exact E|]. rewrite L. split.
  - intros ws I. apply in_map_iff in I as (g & <- & I). apply filter_In in I as [I T]. destruct g as [t x y z a o|o|t d|u|p]; cbn in T; try discriminate.
    destruct (rdi_sound js [] None None t x y z a o) as (mid & i & post & -> & AL & L1 & L2); [discriminate|discriminate|exact I|].
    exists mid, i, post, t, x, y, z, a, o. split; [reflexivity|]. split; [exact AL|]. split; [exact L1|]. split; [exact L2|]. now apply words_rdi.
  - intros before q i post t x y z a o -> AL NA L1 L2. apply in_map_iff. exists (T_rdi t x y z a o). split; [now apply words_rdi|]. apply filter_In. split; [|reflexivity].
    destruct (tags_app before None None (q ++ i :: post)) as (a' & o' & ->). apply in_or_app. right. apply (rdi_complete q []); auto; intros (? & ? & ? & K & _); destruct x0; discriminate.
Qed.
Print Assumptions C259_velocity.

(** Records are written as they come: more records only add to the end of the file. *)
Theorem C259_order : forall number origin js ks, navigation origin js -> navigation origin (js ++ ks) ->
  exists file rest, combined number (origin :: js) = Some file /\ combined number (origin :: js ++ ks) = Some (file ++ rest).
Proof.
  intros number origin js ks N N'. rewrite (combined_tags number _ _ N), (combined_tags number _ _ N'). destruct (tags_app js None None ks) as (a & o & E).
  exists (concat (map (full number) (tags None None js))), (concat (map (full number) (tags a o ks))). split; [reflexivity|]. now rewrite E, map_app, concat_app.
Qed.
Print Assumptions C259_order.
(** Nothing else is written. *)
Theorem C259_only : forall number origin js, (forall x, word (number x)) -> navigation origin js -> (forall i, In i js -> names_fit i) ->
  exists file, combined number (origin :: js) = Some file /\
    forall line, In line (split 10%N file) -> line = [] \/ exists k ws, In k ["RDI:"; "PHINS_COMPASS:"; "PAROSCI:"; "SSBL_FIX:"; "VIS:"]%string /\ words line = txt k :: ws.
Proof.
  intros number origin js W N F. eexists. split; [apply combined_tags; exact N|]. assert (forall g, In g (tags None None js) -> fits g) as FT by now apply fit_tags. revert FT. generalize (tags None None js).
  induction l as [|g gs IH]; intros FT line I; [destruct I as [<-|[]]; now left|]. cbn [map concat] in I. destruct (full_line number W g) as (b & E & NB); [apply FT; now left|].
  rewrite E, <- app_assoc in I. cbn [app] in I. rewrite split_app in I by exact NB. destruct I as [<-|I]; [|apply IH; [intros; apply FT; now right|exact I]].
  right. exists (key g). destruct (key_first number W g) as (ws & K). exists ws. split; [destruct g; cbn; auto 6|]. rewrite <- K, E. unfold words. symmetry. apply words_newline.
Qed.
Print Assumptions C259_only.

(** ** Examples *)
Definition ex_item (t : R) (c : content) : item := mkitem t c.
Definition ex_attitude (t : R) : attitude := mkattitude t 1 2 90 (1 / 10) (1 / 10) (2 / 10).
Definition ex_fix : fix_ := mkfix 12 5 0 3 (Some 5) (Some 10) (Some 0).
Definition ex_origin : item := mkitem 0 Other.
Definition ex_items : list item :=
  [mkitem 10 (Attitude (ex_attitude 10)); mkitem 11 (AltitudeOf 2); mkitem 12 (Velocity (Some (25 / 2)) (1 / 2) 0 0); mkitem 12 (Fix ex_fix);
   mkitem 13 (Velocity (Some 13) (1 / 2) 0 0); mkitem 14 (Image (Some (mkphoto (Some 14) (txt "a.png"))) (Some (mkphoto (Some 14) (txt "xxx.png"))) None)].
Lemma ex_navigation : navigation ex_origin ex_items.
Proof. split; [discriminate|]. split; [|reflexivity]. unfold ex_items. repeat (constructor; cbn [i_t]; try lra). Qed.
Lemma ex_names : forall i, In i ex_items -> stereo i /\ names_fit i.
Proof.
  intros i I. cbn in I. split.
  - intros c1 c2 own E. repeat (destruct I as [<-|I]; [try discriminate E|]); [|destruct I]. injection E as <- <- <-. exists 14, (txt "a.png"), 14, (txt "xxx.png").
    split; [reflexivity|]. split; [reflexivity|]. split; (split; [discriminate|repeat constructor]).
  - intros c1 c2 own p E K. repeat (destruct I as [<-|I]; [try discriminate E|]); [|destruct I]. injection E as <- <- <-.
    destruct K as [K|[K|K]]; try discriminate K; injection K as <-; cbn; intuition discriminate.
Qed.
(** One orientation, one image of the two, one velocity (the second comes without a new altitude). *)
Example ex_compass : forall number, (forall x, word (number x)) -> exists file, combined number (ex_origin :: ex_items) = Some file /\
  length (lines_of "PHINS_COMPASS:" file) = 1%nat /\ length (lines_of "VIS:" file) = 1%nat.
Proof.
  intros number W. destruct (C259_compass number ex_origin ex_items W ex_navigation) as (f & E & L); [intros; now apply ex_names|]. exists f. split; [exact E|].
  destruct (C259_images number ex_origin ex_items W ex_navigation ex_names) as (f' & E' & L'). assert (f' = f) as -> by congruence. rewrite L, L'. split; reflexivity.
Qed.
Example ex_velocity : forall number, (forall x, word (number x)) -> exists file, combined number (ex_origin :: ex_items) = Some file /\
  In (rdi_words number (25 / 2) (1 / 2) 0 0 2 (ex_attitude 10)) (lines_of "RDI:" file).
Proof.
  intros number W. destruct (C259_velocity number ex_origin ex_items W ex_navigation) as (f & E & _ & C); [intros; now apply ex_names|]. exists f. split; [exact E|].
  eapply (C [] [mkitem 10 (Attitude (ex_attitude 10)); mkitem 11 (AltitudeOf 2)]).
  - reflexivity.
  - split; [reflexivity|]. cbn [i_t]. replace (12 - 25 / 2) with (- (1 / 2)) by lra. rewrite Rabs_Ropp, Rabs_pos_eq; lra.
  - intros j t x y z [<-|[<-|[]]] [K _]; discriminate K.
  - exists [mkitem 10 (Attitude (ex_attitude 10))], (mkitem 11 (AltitudeOf 2)), []. split; [reflexivity|]. split; [reflexivity|intros ? []].
  - exists [], (mkitem 10 (Attitude (ex_attitude 10))), [mkitem 11 (AltitudeOf 2)]. split; [reflexivity|]. split; [reflexivity|]. intros i [<-|[]]. reflexivity.
Qed.
Example ex_range : horizontal (u_range ex_fix) (u_depth ex_fix) = 4.
Proof. cbn. destruct Rlt_dec; [|lra]. destruct Rlt_dec; [|lra]. destruct Rle_dec; [|lra]. apply sqrt_lem_1; lra. Qed.
Example ex_fixes : forall number, (forall x, word (number x)) -> exists file, combined number (ex_origin :: ex_items) = Some file /\ length (lines_of "SSBL_FIX:" file) = 1%nat /\ lines_of "PAROSCI:" file = [].
Proof.
  intros number W. destruct (C259_fix number ex_origin ex_items W ex_navigation) as (f & hr & b & E & L & _); [intros; now apply ex_names|]. exists f. split; [exact E|].
  destruct (C259_depth number ex_origin ex_items W ex_navigation) as (f' & E' & L'); [intros; now apply ex_names|]. assert (f' = f) as -> by congruence. rewrite L, L'. split; reflexivity.
Qed.

(** ** C260 *)
(** The words of the line of one record. *)
Definition written_as (number : R -> text) (c : content) (lines : list (list text)) : Prop :=
  exists file, combined number [ex_origin; mkitem 1 c] = Some file /\ map words (split 10%N file) = lines ++ [[]].
Lemma one_record : forall number c, (forall x, word (number x)) -> (forall g, In g (tags None None [mkitem 1 c]) -> fits g) ->
  written_as number c (map (fun g => words (full number g)) (tags None None [mkitem 1 c])).
Proof.
  intros number c W F. eexists. split; [apply combined_tags; split; [discriminate|]; split; [repeat constructor|reflexivity]|]. now apply lines_tags.
Qed.

(** A target straight below the ship, with its slant range: the horizontal range written is -1, not 0. *)
Theorem C260_below_refuted : exists u d, u_range u = Some d /\ 0 < d /\ u_depth u = d /\ forall number, (forall x, word (number x)) ->
  exists a b, written_as number (Fix u) [a ++ txt "target_hr:" :: number (-1) :: b] /\ length a = 12%nat.
Proof.
  exists (mkfix 0 0 0 10 (Some 10) (Some 0) (Some 0)), 10. split; [reflexivity|]. split; [lra|]. split; [reflexivity|]. intros number W.
  pose proof (one_record number (Fix (mkfix 0 0 0 10 (Some 10) (Some 0) (Some 0))) W ltac:(intros g [<-|[]]; exact I)) as H. cbn [tags i_content map full] in H. rewrite words_ssbl in H by exact W.
  cbn [u_range u_depth horizontal] in H. destruct Rlt_dec in H; [lra|]. match goal with H : written_as _ _ [?x] |- _ => exists (firstn 12 x), (skipn 14 x) end. split; [exact H|reflexivity].
Qed.
Print Assumptions C260_below_refuted.
(** The bearing is not that of the target from the ship: no distance along it leads from the ship to the target. *)
Theorem C260_bearing_refuted : exists u sn se, u_ship_north u = Some sn /\ u_ship_east u = Some se /\
  (forall number, (forall x, word (number x)) -> exists a, written_as number (Fix u) [a ++ [txt "target_bearing:"; number (bearing u)]]) /\
  ~ exists r, 0 <= r /\ u_north u - sn = r * cos (bearing u * PI / 180) /\ u_east u - se = r * sin (bearing u * PI / 180).
Proof.
  exists ex_fix, 10, 0. split; [reflexivity|]. split; [reflexivity|]. split.
  - intros number W. pose proof (one_record number (Fix ex_fix) W ltac:(intros g [<-|[]]; exact I)) as H. cbn [tags i_content map full] in H. rewrite words_ssbl in H by exact W.
    match goal with H : written_as _ _ [?x] |- _ => exists (firstn 16 x) end. exact H.
  - intros (r & P & N & _). unfold bearing, ex_fix in N. cbn [u_north u_east] in N. unfold atan2 in N. destruct Rlt_dec in N; [|lra].
    replace (0 / 5) with 0 in N by lra. rewrite atan_0 in N. replace (0 * 180 / PI * PI / 180) with 0 in N by (field; pose proof PI_RGT_0; lra). rewrite cos_0 in N. lra.
Qed.
Print Assumptions C260_bearing_refuted.
(** An unknown slant range is written as None. *)
Theorem C260_unknown_refuted : exists u, u_range u = None /\ forall number, (forall x, word (number x)) ->
  exists a b, written_as number (Fix u) [a ++ txt "target_sr:" :: txt "None" :: b] /\ length a = 14%nat.
Proof.
  exists (mkfix 0 0 0 10 None (Some 0) (Some 0)). split; [reflexivity|]. intros number W.
  pose proof (one_record number (Fix (mkfix 0 0 0 10 None (Some 0) (Some 0))) W ltac:(intros g [<-|[]]; exact I)) as H. cbn [tags i_content map full] in H. rewrite words_ssbl in H by exact W.
  match goal with H : written_as _ _ [?x] |- _ => exists (firstn 14 x), (skipn 16 x) end. split; [exact H|reflexivity].
Qed.
Print Assumptions C260_unknown_refuted.
(** An image of a single camera is written twice. *)
Theorem C260_twice_refuted : exists p, forall number, (forall x, word (number x)) -> exists l, written_as number (Image None None (Some p)) [l; l].
Proof.
  exists (mkphoto (Some 1) (txt "a.png")). intros number W. exists (words (vis number (mkphoto (Some 1) (txt "a.png")))).
  pose proof (one_record number (Image None None (Some (mkphoto (Some 1) (txt "a.png")))) W) as H. apply H. intros g I. cbn in I. destruct I as [<-|[<-|[]]]; cbn; intuition discriminate.
Qed.
Print Assumptions C260_twice_refuted.
(** An image whose second camera took none: a line without time and name. *)
Theorem C260_missing_refuted : exists p, forall number, (forall x, word (number x)) ->
  exists l, written_as number (Image (Some p) None None) [l; [txt "VIS:"; txt "None"; txt "[None]"; txt "exp:"; txt "0"]].
Proof.
  exists (mkphoto (Some 1) (txt "a.png")). intros number W. pose proof (one_record number (Image (Some (mkphoto (Some 1) (txt "a.png"))) None None) W) as H. exists (words (vis number (mkphoto (Some 1) (txt "a.png")))). apply H.
  intros g I. cbn in I. destruct I as [<-|[<-|[]]]; cbn; intuition discriminate.
Qed.
Print Assumptions C260_missing_refuted.
(** A name with a blank is more than one word. *)
Theorem C260_blank_refuted : exists p q, p_file p = txt "dive 1/a.png" /\ forall number, (forall x, word (number x)) ->
  exists l, written_as number (Image (Some p) (Some q) None) [[txt "VIS:"; number 1; txt "[" ++ number 1 ++ txt "]"; txt "dive"; txt "1/a.png"; txt "exp:"; txt "0"]; l].
Proof.
  exists (mkphoto (Some 1) (txt "dive 1/a.png")), (mkphoto (Some 1) (txt "b.png")). split; [reflexivity|]. intros number W.
  pose proof (one_record number (Image (Some (mkphoto (Some 1) (txt "dive 1/a.png"))) (Some (mkphoto (Some 1) (txt "b.png"))) None) W) as H.
  assert (words (vis number (mkphoto (Some 1) (txt "dive 1/a.png"))) = [txt "VIS:"; number 1; txt "[" ++ number 1 ++ txt "]"; txt "dive"; txt "1/a.png"; txt "exp:"; txt "0"]) as E.
  { unfold words, vis. cbn - [maybe IZR]. assert (forall x s, x ++ 93%N :: 32%N :: s = (x ++ [93%N]) ++ 32%N :: s) as A by (intros; now rewrite <- app_assoc).
    rewrite step; [|apply W|reflexivity]. cbn - [maybe IZR]. rewrite A. rewrite step; [reflexivity| |reflexivity].
    destruct (W 1) as [N F]. cbn [maybe]. split; [destruct (number 1); discriminate|]. apply Forall_app. split; [exact F|]. now repeat constructor. }
  rewrite <- E. exists (words (vis number (mkphoto (Some 1) (txt "b.png")))). apply H. intros g I. cbn in I. destruct I as [<-|[<-|[]]]; cbn; intuition discriminate.
Qed.
Print Assumptions C260_blank_refuted.
(** The times of the lines need not be in order: a depth has the time of the pressure sensor, a velocity that of the DVL. *)
Theorem C260_order_refuted : exists js t t', navigation ex_origin js /\ t' < t /\ forall number, (forall x, word (number x)) ->
  exists file l l', combined number (ex_origin :: js) = Some file /\ map words (split 10%N file) = [txt "PAROSCI:" :: number t :: l; txt "PAROSCI:" :: number t' :: l'; []].
Proof.
  exists [mkitem 1 (DepthOf (Some 1) (Some 5)); mkitem 2 (DepthOf (Some (1 / 2)) (Some 5))], 1, (1 / 2).
  split; [split; [discriminate|]; split; [|reflexivity]; repeat (constructor; cbn [i_t]; try lra)|]. split; [lra|]. intros number W. eexists. eexists. eexists.
  split; [apply combined_tags; split; [discriminate|]; split; [|reflexivity]; repeat (constructor; cbn [i_t]; try lra)|].
  rewrite lines_tags; [|exact W|intros g [<-|[<-|[]]]; exact I]. cbn [tags i_content map full app]. rewrite !words_parosci by exact W. reflexivity.
Qed.
Print Assumptions C260_order_refuted.
