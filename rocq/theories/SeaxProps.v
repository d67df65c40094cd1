(** C203, C204: the SeaXerocks image parser. *)
From Coq Require Import Ascii String.
From Verif Require Import PyBase TimeModel TimeSpec TimeProofs TimeProps Ae2000Model.
From Verif Require Import SeaxModel Ae2000Props.
Open Scope Z_scope.

(** ** The rows of FileTime.csv *)
Definition comma : ascii := ","%char.
(** A row with the number of an image and the local time [c], [n] seconds after 1970 on the clock of the zone.  What
    follows the three digits of the milliseconds does not matter.  A header is a row whose second cell is "date". *)
Inductive file_row (tz : Q) : text -> option (text * Q) -> Prop :=
| row_header index a b : ~ In comma index -> file_row tz (index ++ comma :: list_ascii_of_string "date" ++ comma :: a ++ comma :: b) None
| row_image index c n ms rest : ~ In comma index -> seconds_after_1970 n c -> c_y c <= 9999 -> 0 <= ms < 1000 ->
    (0 <= inject_Z n - 3600 * tz < 253402300800)%Q ->
    file_row tz (index ++ comma :: (pad 4 (c_y c) ++ pad 2 (c_mo c) ++ pad 2 (c_d c)) ++ comma :: (pad 2 (c_h c) ++ pad 2 (c_mi c) ++ pad 2 (c_s c)) ++ comma :: pad 3 ms ++ rest)
      (Some (index, (inject_Z n + inject_Z ms / 1000 - 3600 * tz)%Q)).
Definition present {A} (l : list (option A)) : list A := flat_map (fun o => match o with Some a => [a] | None => [] end) l.

Lemma split_first : forall sep a b, ~ In sep a -> exists w ws, split_at sep (a ++ b) = (a ++ w) :: ws.
Proof.
  intros sep a b. induction a as [|c a IH]; intros N.
  - cbn [app]. destruct b as [|x b]; cbn [split_at]; [eauto|]. destruct (Ascii.eqb x sep); [eauto|]. destruct (split_at sep b); eauto.
  - cbn [app split_at]. destruct (Ascii.eqb_spec c sep) as [->|_]; [destruct N; now left|]. destruct IH as (w & ws & ->); [intros I; apply N; now right|]. eauto.
Qed.
Lemma split_two : forall sep a b, exists w w' ws, split_at sep (a ++ sep :: b) = w :: w' :: ws.
Proof.
  intros sep a b. induction a as [|c a (w & w' & ws & IH)].
  - cbn [app split_at]. rewrite Ascii.eqb_refl. destruct b as [|x b]; cbn [split_at]; [eauto|]. destruct (Ascii.eqb x sep); [eauto|]. destruct (split_at sep b); eauto.
  - cbn [app split_at]. destruct (Ascii.eqb c sep); rewrite IH; eauto.
Qed.
Lemma text_eqb_refl : forall a, text_eqb a a = true.
Proof. intros a. unfold text_eqb. now destruct (list_eq_dec ascii_dec a a). Qed.
Lemma text_eqb_neq : forall a b, a <> b -> text_eqb a b = false.
Proof. intros a b N. unfold text_eqb. now destruct (list_eq_dec ascii_dec a b). Qed.
Lemma slice_pad : forall w n (r : text), slice 0 w (pad w n ++ r) = pad w n.
Proof. intros w n r. unfold slice. rewrite Nat.sub_0_r. cbn [skipn]. rewrite firstn_app, pad_length, Nat.sub_diag, firstn_all2 by (rewrite pad_length; lia). apply app_nil_r. Qed.
Lemma slice_app : forall k w n (a r : text), length a = k -> slice k (k + w) (a ++ pad w n ++ r) = pad w n.
Proof. intros k w n a r <-. unfold slice. rewrite Nat.add_comm, Nat.add_sub. rewrite skipn_app, skipn_all, Nat.sub_diag. cbn [app skipn]. rewrite firstn_app, pad_length, Nat.sub_diag, firstn_all2 by (rewrite pad_length; lia). apply app_nil_r. Qed.

Lemma civil_fields : forall n c, seconds_after_1970 n c -> 1 <= c_mo c <= 12 /\ 1 <= c_d c <= 31 /\ 0 <= c_h c <= 23 /\ 0 <= c_mi c <= 59 /\ 0 <= c_s c <= 59.
Proof.
  intros n c S. destruct (seconds_after_1970_csec _ _ S) as (_ & V & _). apply valid_civil_fields in V. destruct V as (M & D & R).
  assert (days_in_month (c_y c) (c_mo c) <= 31) by (unfold days_in_month; destruct (_ =? 2); [destruct (is_leap _); lia|destruct (_ || _)%bool; lia]). lia.
Qed.
Lemma epoch_zone : forall n c tz, seconds_after_1970 n c -> c_y c <= 9999 -> (0 <= inject_Z n - 3600 * tz < 253402300800)%Q ->
  exists t, date_time_to_epoch (c_y c) (c_mo c) (c_d c) (c_h c) (c_mi c) (c_s c) tz 0 = Some t /\ (t == inject_Z n - 3600 * tz)%Q.
Proof.
  intros n c tz S Y [L U]. destruct (seconds_after_1970_csec _ _ S) as (E & V & Y1 & _). unfold date_time_to_epoch. rewrite (valid_fields_spec c 0 ltac:(lia) ltac:(lia) V). cbv zeta.
  change (utc_seconds _ _ _ _ _ _) with (csec c). rewrite E.
  assert (EQ : (inject_Z n + inject_Z 0 / 1000000 - 3600 * tz == inject_Z n - 3600 * tz)%Q) by (change (inject_Z 0) with 0%Q; field).
  rewrite (proj2 (Qle_bool_iff _ _)) by (rewrite EQ; change (inject_Z (-62135596800)) with (-62135596800 # 1)%Q; lra).
  rewrite (proj2 (Qltb_lt _ _)) by (rewrite EQ; exact U). eexists. split; [reflexivity|exact EQ].
Qed.

Definition same_row (o : Q) (r r' : text * Q) : Prop := fst r' = fst r /\ (snd r' == snd r + o)%Q.
Lemma read_rows : forall strict tz o lines rows, Forall2 (file_row tz) lines rows ->
  exists out, read_file strict tz o lines = Some out /\ Forall2 (same_row o) (present rows) out.
Proof.
  intros strict tz o lines rows F. induction F as [|line row lines rows R F (out & E & S)]; [exists []; split; [reflexivity|constructor]|].
  cbn [read_file]. destruct R as [index a b N|index c n ms rest N T Y M B].
  - rewrite split_cons by exact N. rewrite split_cons by (unfold comma; cbn; intuition discriminate). destruct (split_two comma a b) as (w & w' & ws & ->).
    rewrite text_eqb_refl. exists out. auto.
  - fold comma. rewrite split_cons by exact N.
    assert (D : forall w k, ~ In comma (pad w k)) by (intros; apply digit_not; vm_compute; left; reflexivity).
    assert (D3 : forall w k w' k' w'' k'', ~ In comma (pad w k ++ pad w' k' ++ pad w'' k'')) by (intros w k w' k' w'' k'' I; apply in_app_or in I; destruct I as [I|I]; [exact (D _ _ I)|]; apply in_app_or in I; destruct I as [I|I]; exact (D _ _ I)).
    rewrite !split_cons by apply D3. destruct (split_first comma (pad 3 ms) rest (D _ _)) as (w & ws & ->).
    rewrite text_eqb_neq.
    2:{ intros K. apply (f_equal (@length ascii)) in K. rewrite !app_length, !pad_length in K. discriminate. }
    pose proof (civil_fields _ _ T) as (B1 & B2 & B3 & B4 & B5). destruct (seconds_after_1970_csec _ _ T) as (_ & _ & Y1 & _).
    unfold row_time. rewrite slice_pad.
    rewrite (slice_app 4 2) by apply pad_length.
    replace (slice 6 8 _) with (pad 2 (c_d c)) by (rewrite app_assoc; rewrite <- (app_nil_r (pad 2 (c_d c))) at 2; symmetry; apply (slice_app 6 2); rewrite app_length, !pad_length; reflexivity).
    rewrite slice_pad. rewrite (slice_app 2 2) by apply pad_length.
    replace (slice 4 6 _) with (pad 2 (c_s c)) by (rewrite app_assoc; rewrite <- (app_nil_r (pad 2 (c_s c))) at 2; symmetry; apply (slice_app 4 2); rewrite app_length, !pad_length; reflexivity).
    rewrite slice_pad. rewrite !py_int_pad by (cbn; lia). cbn [bind].
    destruct (epoch_zone n c tz T Y B) as (t & -> & Et). cbn [bind]. rewrite E. cbn [bind]. eexists. split; [reflexivity|].
    cbn [present flat_map app]. constructor; [|exact S]. split; [reflexivity|]. cbn [snd]. rewrite Et. ring.
Qed.

(** ** The search for times *)
Lemma dot_split : forall i : text, ~ In dot i \/ exists p q, i = p ++ dot :: q /\ ~ In dot p.
Proof.
  induction i as [|c i [N|(p & q & -> & N)]]; [left; intros []| |].
  - destruct (ascii_dec c dot) as [->|D]; [right; exists [], i; auto|]. left. intros [I|I]; auto.
  - destruct (ascii_dec c dot) as [->|D]; [right; exists [], (p ++ dot :: q); auto|]. right. exists (c :: p), q. split; [reflexivity|]. intros [I|I]; auto.
Qed.
Definition before_dot (i : text) : text := hd [] (split_at dot (raw i)).
Lemma before_dotless : forall i, ~ In dot i -> before_dot i = i.
Proof. intros i N. unfold before_dot, raw. change (list_ascii_of_string ".raw") with (dot :: list_ascii_of_string "raw"). now rewrite split_cons. Qed.
Lemma before_dotted : forall p q, ~ In dot p -> before_dot (p ++ dot :: q) = p.
Proof. intros p q N. unfold before_dot, raw. rewrite <- app_assoc. cbn [app]. now rewrite split_cons. Qed.
Lemma prefix_ltb : forall p c q, text_ltb p (p ++ c :: q) = true.
Proof. induction p as [|x p IH]; intros c q; [reflexivity|]. cbn [app text_ltb]. now rewrite N.ltb_irrefl. Qed.
Lemma item_mid : forall {A} (a b : list A) x, item (a ++ x :: b) (Z.of_nat (length a)) = Some x.
Proof. intros A a b x. unfold item. destruct (Z.leb_spec 0 (Z.of_nat (length a))); [|lia]. rewrite Nat2Z.id, nth_error_app2, Nat.sub_diag by lia. reflexivity. Qed.
Definition dotless (r : text * Q) : bool := if in_dec ascii_dec dot (fst r) then false else true.
Lemma search_found : forall rows past, search (map fst (past ++ rows)) (map snd (past ++ rows)) (Z.of_nat (length past)) (map (fun r => before_dot (fst r)) rows) = Some (map snd (filter dotless rows)).
Proof.
  induction rows as [|[i t] rows IH]; intros past; [reflexivity|]. cbn [map search fst].
  replace (length past) with (length (map fst past)) at 1 by apply map_length. rewrite map_app. cbn [map fst]. rewrite item_mid.
  specialize (IH (past ++ [(i, t)])). rewrite <- !app_assoc in IH. cbn [app] in IH. rewrite app_length, Nat2Z.inj_add in IH. cbn [length] in IH. change (Z.of_nat 1) with 1 in IH. rewrite map_app in IH. cbn [map fst] in IH.
  cbn [filter]. unfold dotless at 1. cbn [fst]. destruct (dot_split i) as [N|(p & q & -> & N)].
  - rewrite before_dotless, text_eqb_refl by exact N. destruct (in_dec ascii_dec dot i) as [I|_]; [tauto|]. cbn [map snd]. rewrite map_app. cbn [map snd].
    replace (length past) with (length (map (@snd text Q) past)) at 1 by apply map_length. rewrite item_mid. rewrite map_app in IH. cbn [map snd] in IH. rewrite IH. reflexivity.
  - rewrite before_dotted by exact N. rewrite text_eqb_neq by (intros K; apply (f_equal (@length ascii)) in K; rewrite app_length in K; cbn in K; lia). rewrite prefix_ltb.
    destruct (in_dec ascii_dec dot (p ++ dot :: q)) as [_|I]; [exact IH|]. destruct I. apply in_or_app. right. now left.
Qed.
(** ** Stereo pairs *)
(** The record of the image [index] taken at UTC time [t]. *)
Definition stereo_of (cam1 cam2 : camera) (o : Q) (row : text * Q) (r : stereo) : Prop :=
  (st_t1 r == snd row + o + c_off cam1)%Q /\ (st_t2 r == snd row + o + c_off cam2)%Q /\
  st_file1 r = c_path cam1 ++ "/"%char :: fst row ++ list_ascii_of_string ".raw" /\ st_file2 r = c_path cam2 ++ "/"%char :: fst row ++ list_ascii_of_string ".raw" /\
  st_serial1 r = serial (c_label cam1) /\ st_serial2 r = serial (c_label cam2).

Lemma stereo_all : forall cam1 cam2 o rows out, Forall2 (same_row o) rows out ->
  exists recs, stereo_records cam1 cam2 (map raw (map fst out)) (map snd out) = Some recs /\ Forall2 (stereo_of cam1 cam2 o) rows recs.
Proof.
  intros cam1 cam2 o rows out F. induction F as [|row [i t] rows out [Ei Et] F (recs & E & R)]; [exists []; split; [reflexivity|constructor]|].
  cbn [map fst snd stereo_records]. rewrite E. cbn [bind]. eexists. split; [reflexivity|]. constructor; [|exact R]. cbn in Ei, Et. subst i.
  unfold stereo_of. cbn [st_t1 st_t2 st_file1 st_file2 st_serial1 st_serial2]. rewrite Et. repeat split; try reflexivity.
Qed.
Lemma stereo_short : forall cam1 cam2 files times, (length times < length files)%nat -> stereo_records cam1 cam2 files times = None.
Proof.
  induction files as [|f files IH]; intros [|t times] H; cbn [length] in H; try lia; [reflexivity|]. cbn [stereo_records]. now rewrite IH by lia.
Qed.
Lemma dotless_true : forall r, ~ In dot (fst r) -> dotless r = true.
Proof. intros r N. unfold dotless. now destruct (in_dec _ _ _). Qed.
Lemma dotless_false : forall r, In dot (fst r) -> dotless r = false.
Proof. intros r N. unfold dotless. now destruct (in_dec _ _ _). Qed.
Lemma filter_all : forall out, (forall r, In r out -> ~ In dot (fst r)) -> filter dotless out = out.
Proof.
  induction out as [|r out IH]; intros H; [reflexivity|]. cbn [filter]. rewrite dotless_true by (apply H; now left).
  rewrite IH; [reflexivity|]. intros x I. apply H. now right.
Qed.
Lemma filter_some : forall out r, In r out -> In dot (fst r) -> (length (filter dotless out) < length out)%nat.
Proof.
  induction out as [|r out IH]; intros x I D; [destruct I|]; cbn [filter length]; destruct I as [->|I].
  - rewrite dotless_false by exact D. clear. induction out as [|y out IH]; cbn [filter length]; [lia|]. destruct (dotless y); cbn [length] in *; lia.
  - specialize (IH x I D). destruct (dotless r); cbn [length]; lia.
Qed.
Lemma same_rows_in : forall o rows out, Forall2 (same_row o) rows out -> forall r', In r' out -> exists r, In r rows /\ fst r = fst r'.
Proof. intros o rows out F. induction F as [|r r' rows out [E _] F IH]; intros x I0; [destruct I0|destruct I0 as [<-|H]]; [exists r; split; [now left|auto]|]. destruct (IH x H) as (y & I & Ey). exists y. split; [now right|auto]. Qed.
Lemma same_rows_in' : forall o rows out, Forall2 (same_row o) rows out -> forall r, In r rows -> exists r', In r' out /\ fst r' = fst r.
Proof. intros o rows out F. induction F as [|r r' rows out [E _] F IH]; intros x I0; [destruct I0|destruct I0 as [<-|H]]; [exists r'; split; [now left|auto]|]. destruct (IH x H) as (y & I & Ey). exists y. split; [now right|auto]. Qed.

(** Every image of the file, in its order, at its UTC time plus the mission's and the camera's offsets. *)
Theorem C203_stereo : forall cam1 cam2 tz o lines rows, Forall2 (file_row tz) lines rows -> (forall r, In r (present rows) -> ~ In dot (fst r)) ->
  exists out, parse_stereo cam1 cam2 tz o lines = Some out /\ Forall2 (stereo_of cam1 cam2 o) (present rows) out.
Proof.
  intros cam1 cam2 tz o lines rows F D. destruct (read_rows true tz o lines rows F) as (out & E & S). unfold parse_stereo. rewrite E. cbn [bind].
  pose proof (search_found out []) as K. cbn [app length] in K. change (Z.of_nat 0) with 0 in K. 
  replace (map _ (map raw (map fst out))) with (map (fun r : text * Q => before_dot (fst r)) out) by (rewrite !map_map; reflexivity). rewrite K. cbn [bind].
  rewrite filter_all; [now apply stereo_all|]. intros r' I. destruct (same_rows_in _ _ _ S r' I) as (r & I' & <-). now apply D.
Qed.
Print Assumptions C203_stereo.
(** An image number with a point stops the parser, wherever it is: no image is given the time of another. *)
Theorem C203_dots : forall cam1 cam2 tz o lines rows r, Forall2 (file_row tz) lines rows -> In r (present rows) -> In dot (fst r) ->
  parse_stereo cam1 cam2 tz o lines = None.
Proof.
  intros cam1 cam2 tz o lines rows r F I D. destruct (read_rows true tz o lines rows F) as (out & E & S). unfold parse_stereo. rewrite E. cbn [bind].
  pose proof (search_found out []) as K. cbn [app length] in K. change (Z.of_nat 0) with 0 in K. 
  replace (map _ (map raw (map fst out))) with (map (fun r : text * Q => before_dot (fst r)) out) by (rewrite !map_map; reflexivity). rewrite K. cbn [bind].
  apply stereo_short. rewrite !map_length. destruct (same_rows_in' _ _ _ S r I) as (r' & I' & E'). apply (filter_some out r' I'). now rewrite E'.
Qed.
Print Assumptions C203_dots.

(** ** Laser images *)
(** In the laser file, lines with fewer than four cells are left out. *)
Definition short_line (l : text) : Prop := (count_occ ascii_dec l comma < 3)%nat.
Definition laser_row (tz : Q) (l : text) (o : option (text * Q)) : Prop := file_row tz l o \/ short_line l /\ o = None.
Lemma split_count : forall sep l, length (split_at sep l) = S (count_occ ascii_dec l sep).
Proof.
  intros sep. induction l as [|c l IH]; [reflexivity|]. cbn [split_at count_occ]. destruct (Ascii.eqb_spec c sep) as [->|N].
  - destruct (ascii_dec sep sep); [|tauto]. cbn [length]. now rewrite IH.
  - destruct (ascii_dec c sep); [tauto|]. destruct (split_at sep l); cbn [length] in *; lia.
Qed.
Lemma read_laser_rows : forall tz o lines rows, Forall2 (laser_row tz) lines rows ->
  exists out, read_file false tz o lines = Some out /\ Forall2 (same_row o) (present rows) out.
Proof.
  intros tz o lines rows F. induction F as [|line row lines rows R F (out & E & S)]; [exists []; split; [reflexivity|constructor]|].
  destruct R as [R|[R ->]].
  - destruct (read_rows false tz o [line] [row] ltac:(constructor; [exact R|constructor])) as (o1 & E1 & S1).
    exists (o1 ++ out). split.
    + cbn [read_file] in E1 |- *. destruct (split_at _ line) as [|i [|d [|t [|m ws]]]]; try (injection E1 as <-; exact E).
      destruct (text_eqb d _); [injection E1 as <-; exact E|]. destruct (row_time _ _ _ _ _); [|discriminate]. cbn [bind] in *. injection E1 as <-. now rewrite E.
    + replace (present (row :: rows)) with (present [row] ++ present rows) by (unfold present; cbn [flat_map]; now rewrite app_nil_r). now apply Forall2_app.
  - exists out. split; [|exact S]. cbn [read_file]. pose proof (split_count comma line) as L. unfold short_line in R. fold comma.
    destruct (split_at comma line) as [|i [|d [|t [|m ws]]]]; cbn [length] in L; try lia; exact E.
Qed.
Lemma search_self : forall (rows past : list (text * Q)), search (map fst (past ++ rows)) (map snd (past ++ rows)) (Z.of_nat (length past)) (map fst rows) = Some (map snd rows).
Proof.
  induction rows as [|[i t] rows IH]; intros past; [reflexivity|]. cbn [map search fst].
  replace (length past) with (length (map fst past)) at 1 by apply map_length. rewrite map_app. cbn [map fst]. rewrite item_mid, text_eqb_refl.
  specialize (IH (past ++ [(i, t)])). rewrite <- !app_assoc in IH. cbn [app] in IH. rewrite app_length, Nat2Z.inj_add in IH. cbn [length] in IH. change (Z.of_nat 1) with 1 in IH. rewrite !map_app in IH. cbn [map fst snd] in IH.
  rewrite map_app. cbn [map snd]. replace (length past) with (length (map (@snd text Q) past)) at 1 by apply map_length. rewrite item_mid. now rewrite IH.
Qed.
(** [file]: the name chosen for the image below the camera's folder. *)
Definition laser_of (cam3 : camera) (o : Q) (file : text -> text) (row : text * Q) (r : laser) : Prop :=
  (la_t r == snd row + o + c_off cam3)%Q /\ la_file r = c_path cam3 ++ "/"%char :: file (fst row) /\ la_serial r = serial (c_label cam3).
(** The conventions: subfolders named by three digits of the number of the image from the first (10000 images in each) or from the second (1000 images). *)
Definition named (s : nat) (ext : string) (number : text) : text :=
  firstn 3 (skipn s number) ++ "/"%char :: list_ascii_of_string "image" ++ number ++ "."%char :: list_ascii_of_string ext.

Lemma laser_all : forall cam3 o s e rows out, Forall2 (same_row (o + c_off cam3)) rows out ->
  exists recs, laser_records cam3 (map (fun i => image_file i s (list_ascii_of_string e)) (map fst out)) (map snd out) = Some recs /\ Forall2 (laser_of cam3 o (named s e)) rows recs.
Proof.
  intros cam3 o s e rows out F. induction F as [|row [i t] rows out [Ei Et] F (recs & E & R)]; [exists []; split; [reflexivity|constructor]|].
  cbn [map fst snd laser_records]. rewrite E. cbn [bind]. eexists. split; [reflexivity|]. constructor; [|exact R]. cbn [fst snd] in Ei, Et. subst i.
  unfold laser_of. cbn [la_t la_file la_serial]. rewrite Et. split; [ring|]. split; [|reflexivity]. f_equal. unfold slash, named, image_file, slice. cbn [app].
  replace (s + 3 - s)%nat with 3%nat by lia. reflexivity.
Qed.
Lemma determine_some : forall is_file images, exists s e, determine is_file images = (s, list_ascii_of_string e) /\ In (s, e) [(0%nat, "jpg"%string); (1%nat, "jpg"%string); (0%nat, "tif"%string); (1%nat, "tif"%string)].
Proof.
  intros is_file images. unfold determine. repeat (match goal with |- context [if ?b then _ else _] => destruct b end; [eexists; eexists; split; [reflexivity|cbn; tauto]|]).
  eexists; eexists; split; [reflexivity|cbn; tauto].
Qed.

(** Every laser image, in the order of the file; all are named by one of the four conventions. *)
Theorem C203_laser : forall is_file cam3 tz o lines rows, Forall2 (laser_row tz) lines rows ->
  exists out s e, parse_laser is_file cam3 tz o lines = Some out /\ In (s, e) [(0%nat, "jpg"%string); (1%nat, "jpg"%string); (0%nat, "tif"%string); (1%nat, "tif"%string)] /\
  Forall2 (laser_of cam3 o (named s e)) (present rows) out.
Proof.
  intros is_file cam3 tz o lines rows F. destruct (read_laser_rows tz (o + c_off cam3) lines rows F) as (out & E & S). unfold parse_laser. rewrite E. cbn [bind].
  destruct (determine_some is_file (map fst out)) as (s & e & D & I). rewrite D. pose proof (search_self out []) as K. cbn [app length] in K. change (Z.of_nat 0) with 0 in K. rewrite K. cbn [bind].
  destruct (laser_all cam3 o s e _ _ S) as (recs & R & H). exists recs, s, e. auto.
Qed.
Print Assumptions C203_laser.

Lemma named_image : forall s e i, image_file i s (list_ascii_of_string e) = named s e i.
Proof. intros s e i. unfold slash, named, image_file, slice. replace (s + 3 - s)%nat with 3%nat by lia. reflexivity. Qed.
Lemma named_inj : forall s s' e e' i, (4 <= length i)%nat -> (s <= 1)%nat -> (s' <= 1)%nat -> String.length e = String.length e' -> named s e i = named s' e' i -> e = e' /\ firstn 3 (skipn s i) = firstn 3 (skipn s' i).
Proof.
  intros s s' e e' i L S S' EL H. unfold named in H.
  assert (LS : forall t, (t <= 1)%nat -> length (firstn 3 (skipn t i)) = 3%nat) by (intros t T; rewrite firstn_length, skipn_length; lia).
  assert (A : forall (x y u v : text), length x = length y -> x ++ u = y ++ v -> x = y /\ u = v).
  { clear. induction x as [|a x IH]; intros [|b y] u v L H; try discriminate; [now split|]. injection H as -> H. injection L as L. destruct (IH _ _ _ L H) as [-> ->]. now split. }
  apply A in H; [|now rewrite !LS]. destruct H as [H1 H2]. split; [|exact H1]. injection H2 as H2. apply app_inv_head in H2. injection H2 as H2.
  rewrite <- (string_of_list_ascii_of_string e), <- (string_of_list_ascii_of_string e'). now f_equal.
Qed.
Lemma last_row : forall o rows out, Forall2 (same_row o) rows out -> last (map fst out) [] = last (map fst rows) [].
Proof. intros o rows out F. replace (map fst out) with (map fst rows); [reflexivity|]. induction F as [|r r' rows out [E _] F IH]; [reflexivity|]. cbn [map]. now rewrite E, IH. Qed.

(** When every image is stored by one convention, the last one nowhere else, and its first and second digits tell the
    two sizes of folders apart (or cannot matter, as for the first 1000 images), every record names its image. *)
Theorem C203_laser_files : forall is_file cam3 tz o lines rows s e out, Forall2 (laser_row tz) lines rows ->
  In (s, e) [(0%nat, "jpg"%string); (1%nat, "jpg"%string); (0%nat, "tif"%string); (1%nat, "tif"%string)] ->
  (forall r, In r (present rows) -> length (fst r) = 7%nat /\ is_file (named s e (fst r)) = true) ->
  let last := last (map fst (present rows)) [] in
  (forall s' e', is_file (named s' e' last) = true -> named s' e' last = named s e last) ->
  (firstn 3 last <> firstn 3 (skipn 1 last) \/ forall r, In r (present rows) -> firstn 3 (fst r) = firstn 3 (skipn 1 (fst r))) ->
  parse_laser is_file cam3 tz o lines = Some out ->
  Forall (fun r => exists f, la_file r = c_path cam3 ++ "/"%char :: f /\ is_file f = true) out.
Proof.
  intros is_file cam3 tz o lines rows s e out F IC ST last0 ONLY AMB P.
  destruct (read_laser_rows tz (o + c_off cam3) lines rows F) as (rs & E & S). unfold parse_laser in P. rewrite E in P. cbn [bind] in P.
  destruct (present rows) as [|r0 pr] eqn:PR; [inversion S; subst rs; cbn in P; destruct (determine is_file []); injection P as <-; constructor|].
  assert (LI : exists r, In r (r0 :: pr) /\ fst r = last0).
  { subst last0. clear. revert r0. induction pr as [|r1 pr IH]; intros r0; [exists r0; split; [now left|reflexivity]|]. destruct (IH r1) as (r & I & Er). exists r. split; [now right|exact Er]. }
  destruct LI as (rl & IL & EL). destruct (ST rl IL) as [L7 OK]. rewrite EL in L7, OK.
  assert (D : exists s', determine is_file (map fst rs) = (s', list_ascii_of_string e) /\ (s' = s \/ forall r, In r (r0 :: pr) -> named s' e (fst r) = named s e (fst r))).
  { unfold determine. change jpg with (list_ascii_of_string "jpg"). change tif with (list_ascii_of_string "tif"). rewrite (last_row _ _ _ S). fold last0. rewrite !named_image.
    assert (T : forall s' e', (s' <= 1)%nat -> String.length e' = 3%nat -> is_file (named s' e' last0) = true -> e' = e /\ (s' = s \/ forall r, In r (r0 :: pr) -> named s' e (fst r) = named s e (fst r))).
    { intros s' e' B3 B4 T. apply ONLY in T.
      assert (SE : (s <= 1)%nat /\ String.length e = 3%nat) by (cbn in IC; destruct IC as [IC|[IC|[IC|[IC|[]]]]]; injection IC as <- <-; split; (lia || reflexivity)).
      destruct SE as [S1 E3]. apply named_inj in T; [|lia|exact B3|exact S1|now rewrite B4, E3]. destruct T as [-> T]. split; [reflexivity|].
      destruct (Nat.eq_dec s' s) as [->|NS]; [now left|right]. destruct AMB as [AMB|AMB].
      - exfalso. apply AMB. change (firstn 3 last0) with (firstn 3 (skipn 0 last0)). assert (s' = 0 /\ s = 1 \/ s' = 1 /\ s = 0)%nat as [[-> ->]|[-> ->]] by lia; congruence.
      - intros r I. specialize (AMB r I). change (firstn 3 (fst r)) with (firstn 3 (skipn 0 (fst r))) in AMB. unfold named. f_equal. assert (s' = 0 /\ s = 1 \/ s' = 1 /\ s = 0)%nat as [[-> ->]|[-> ->]] by lia; congruence. }
    destruct (is_file (named 0 "jpg" last0)) eqn:T1; [destruct (T 0%nat "jpg"%string ltac:(auto) eq_refl T1) as [<- ?]; eauto|].
    destruct (is_file (named 1 "jpg" last0)) eqn:T2; [destruct (T 1%nat "jpg"%string ltac:(auto) eq_refl T2) as [<- ?]; eauto|].
    destruct (is_file (named 0 "tif" last0)) eqn:T3; [destruct (T 0%nat "tif"%string ltac:(auto) eq_refl T3) as [<- ?]; eauto|].
    destruct (is_file (named 1 "tif" last0)) eqn:T4; [destruct (T 1%nat "tif"%string ltac:(auto) eq_refl T4) as [<- ?]; eauto|].
    exfalso. cbn in IC. destruct IC as [IC|[IC|[IC|[IC|[]]]]]; injection IC as <- <-; congruence. }
  destruct D as (s' & D & SAME). rewrite D in P. pose proof (search_self rs []) as K. cbn [app length] in K. change (Z.of_nat 0) with 0 in K. rewrite K in P. cbn [bind] in P.
  destruct (laser_all cam3 o s' e _ _ S) as (recs & R & H). rewrite R in P. injection P as <-.
  assert (G : forall r, In r (r0 :: pr) -> is_file (named s' e (fst r)) = true).
  { intros r I. destruct SAME as [->|SAME]; [now apply ST|]. rewrite SAME by exact I. now apply ST. }
  clear -H G. induction H as [|r rec l recs (_ & Hf & _) H IH]; constructor; [exists (named s' e (fst r)); split; [exact Hf|apply G; now left]|]. apply IH. intros x I. apply G. now right.
Qed.
Print Assumptions C203_laser_files.

(** The serial of a camera keeps everything but slashes, and has none left after its first letter. *)
Theorem C203_serial : forall label, length (serial label) = length label /\ ~ In "/"%char (skipn 1 (serial label)) /\
  forall i c, nth_error label i = Some c -> c <> "/"%char -> nth_error (serial label) i = Some c.
Proof.
  intros [|c0 label]; [split; [reflexivity|]; split; [intros []|intros i c H; exact (fun _ => H)]|]. cbn [serial]. split; [cbn [length]; now rewrite map_length|]. split.
  - cbn [skipn]. induction label as [|c label IH]; [intros []|]. cbn [map]. intros [I|I]; [|exact (IH I)]. destruct (Ascii.eqb_spec c "/"%char); congruence.
  - intros [|i] c H N; [exact H|]. cbn [nth_error] in *. rewrite nth_error_map, H. cbn. destruct (Ascii.eqb_spec c "/"%char); congruence.
Qed.
Print Assumptions C203_serial.
(** Both together: the parser succeeds exactly when the two parts do, and gives what they give. *)
Theorem C203_both : forall is_file cam1 cam2 cam3 tz o lines lines3 a b,
  parse_images is_file cam1 cam2 cam3 tz o lines lines3 = Some (a, b) <-> parse_stereo cam1 cam2 tz o lines = Some a /\ parse_laser is_file cam3 tz o lines3 = Some b.
Proof.
  intros. unfold parse_images. destruct (parse_stereo _ _ _ _ _); [|split; [discriminate|intros [H _]; discriminate]]. destruct (parse_laser _ _ _ _ _); cbn [bind]; split; (intros [= -> ->] || intros [H1 H2] || discriminate); try discriminate; [auto|]. congruence.
Qed.
Print Assumptions C203_both.

(** ** Example *)
Definition str := list_ascii_of_string.
Definition cam (p l : string) (o : Q) := mkcamera (str p) (str l) o.
Definition text_of (l : list ascii) := string_of_list_ascii l.
Definition disk (files : list string) (f : text) : bool := existsb (fun g => text_eqb f (str g)) files.
Definition stereo_lines := [str "index,date,time,ms"; str "0000017,20170817,034637,250000"; str "0000018,20170817,034638,007"].
Definition laser_lines := [str "index,date,time,ms"; str ""; str "0123456,20170817,034637,100,x"; str "0123457,20170817,034637,200"].
Example C203_example : option_map (fun p => (map (fun r => (Qred (st_t1 r), text_of (st_file1 r), Qred (st_t2 r), text_of (st_file2 r), text_of (st_serial2 r))) (fst p),
    map (fun r => (Qred (la_t r), text_of (la_file r))) (snd p)))
  (parse_images (disk ["123/image0123456.tif"; "123/image0123457.tif"]%string) (cam "image/c1" "Cam" 0) (cam "image/c2" "Cam/2" 1) (cam "image/c3" "LM165" 2) 9 10 stereo_lines laser_lines) =
  Some ([((6011636829 # 4)%Q, "image/c1/0000017.raw", (6011636833 # 4)%Q, "image/c2/0000017.raw", "Cam_2");
         ((1502909208007 # 1000)%Q, "image/c1/0000018.raw", (1502909209007 # 1000)%Q, "image/c2/0000018.raw", "Cam_2")],
        [((15029092091 # 10)%Q, "image/c3/123/image0123456.tif"); ((7514546046 # 5)%Q, "image/c3/123/image0123457.tif")])%string.
Proof. vm_compute. reflexivity. Qed.

(** ** C204 *)
(** An empty line in the stereo file stops the parser, though the laser file may have one. *)
Theorem C204_empty_line_refuted : exists lines, parse_stereo (cam "a" "b" 0) (cam "c" "d" 0) 0 0 lines = None /\ parse_laser (fun _ => false) (cam "a" "b" 0) 0 0 lines <> None.
Proof. exists [str "0000017,20170817,034637,250"; []]. split; [reflexivity|vm_compute; discriminate]. Qed.
Print Assumptions C204_empty_line_refuted.
(** The convention is taken from the last image only: when that file is missing, the others are named wrongly. *)
Theorem C204_last_missing_refuted : exists files lines out, parse_laser (disk files) (cam "c3" "l" 0) 0 0 lines = Some out /\
  In "001/image0001000.tif"%string files /\ exists r, In r out /\ la_file r = str "c3/000/image0001000.jpg".
Proof.
  exists ["001/image0001000.tif"%string], [str "0001000,20170817,034637,100"; str "0001001,20170817,034637,200"]. eexists. split; [vm_compute; reflexivity|]. split; [now left|].
  eexists. split; [left; reflexivity|reflexivity].
Qed.
Print Assumptions C204_last_missing_refuted.
(** With the files of all images in folders of 1000, the number of the last one can look like one in a folder of 10000. *)
Theorem C204_ambiguous_refuted : exists files lines out, parse_laser (disk files) (cam "c3" "l" 0) 0 0 lines = Some out /\
  files = ["100/image0100000.jpg"; "111/image1111000.jpg"]%string /\ map la_file out = [str "c3/010/image0100000.jpg"; str "c3/111/image1111000.jpg"].
Proof.
  exists ["100/image0100000.jpg"; "111/image1111000.jpg"]%string, [str "0100000,20170817,034637,100"; str "1111000,20170817,034637,200"]. eexists. split; [vm_compute; reflexivity|]. split; reflexivity.
Qed.
Print Assumptions C204_ambiguous_refuted.
(** A label starting with a slash keeps it in the serial. *)
Theorem C204_serial_refuted : exists label, In "/"%char (serial label).
Proof. exists (str "/Cam"). now left. Qed.
Print Assumptions C204_serial_refuted.
