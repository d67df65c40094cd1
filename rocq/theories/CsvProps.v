(** C37: navigation CSV files. *)
From Coq Require Import Ascii String.
From Verif Require Import PyBase NmeaModel NmeaProofs CsvModel.

(** ** Specification *)
Local Open Scope list_scope.
Arguments txt _%string_scope.
Definition clean (s : text) : Prop := ~ In comma s.
Definition columns (line : text) : list text := split comma line.

Lemma split_join : forall cells, cells <> [] -> (forall c, In c cells -> clean c) -> columns (row cells) = cells.
Proof.
  unfold columns, row. induction cells as [|c cells IH]; intros N H; [congruence|]. destruct cells as [|d cells].
  - cbn [join]. apply split_none, H. now left.
  - cbn [join]. rewrite split_app by (apply H; now left). f_equal. apply IH; [discriminate|]. intros x I. apply H. now right.
Qed.

Lemma write_some : forall c data, (2 <= length data)%nat -> write_csv c true data = Some (txt (c_header c) :: map (to_csv_row c) data).
Proof. intros c data L. unfold write_csv. destruct (Nat.ltb_spec 1 (length data)); [reflexivity|lia]. Qed.

(** With at least two records: the header and one row per record, in order. *)
Theorem C37_rows : forall c data, (2 <= length data)%nat ->
  exists file rows, write_csv c true data = Some file /\ file = txt (c_header c) :: rows /\ length rows = length data /\
    forall i r, nth_error data i = Some r -> nth_error rows i = Some (to_csv_row c r).
Proof.
  intros c data L. rewrite write_some by exact L.
  exists (txt (c_header c) :: map (to_csv_row c) data), (map (to_csv_row c) data).
  split; [reflexivity|]. split; [reflexivity|]. split; [apply map_length|]. intros i r H. now apply map_nth_error.
Qed.
Print Assumptions C37_rows.

(** A single record is not written at all. *)
Theorem C137_single_refuted : exists c r, write_csv c true [r] = None.
Proof. exists depth, (fun _ => txt "1"). reflexivity. Qed.
Print Assumptions C137_single_refuted.

(** Every class writes as many cells as its header has names, unless a cell contains a
    comma. *)
Theorem C37_columns : forall c r,
  In c [body_velocity; inertial_velocity; orientation; depth; altitude; usbl; tide; synced; camera] ->
  (forall a, clean (r a)) -> length (columns (to_csv_row c r)) = length (columns (txt (c_header c))).
Proof.
  intros c r I H. unfold to_csv_row. rewrite split_join.
  - rewrite map_length. repeat (destruct I as [<-|I]; [vm_compute; reflexivity|]). destruct I.
  - repeat (destruct I as [<-|I]; [discriminate|]). destruct I.
  - intros x J. apply in_map_iff in J as (a & <- & _). apply H.
Qed.
Print Assumptions C37_columns.

Definition comma_file : attrs := fun a => if String.eqb a "filename" then txt "dive 1, leg 2/a.tif"%string else txt "1".
Theorem C137_comma_refuted : exists r, length (columns (to_csv_row camera r)) <> length (columns (txt (c_header camera))) /\
  read_attr camera_columns (df_row (txt (c_header camera)) (to_csv_row camera r)) "filename" <> Some (r "filename"%string).
Proof. exists comma_file. split; vm_compute; discriminate. Qed.
Print Assumptions C137_comma_refuted.

(** The column names are those of the attributes written under them (for the classes
    whose header repeats the attribute names). *)
Theorem C37_names : forall c, In c [body_velocity; inertial_velocity; orientation; depth; altitude; usbl; tide] ->
  columns (txt (c_header c)) = map txt (c_attrs c).
Proof. intros c I. repeat (destruct I as [<-|I]; [vm_compute; reflexivity|]). destruct I. Qed.
Print Assumptions C37_names.

Lemma camera_columns_names : columns (txt (c_header camera)) = map (fun c => txt (snd c)) camera_columns /\ c_attrs camera = map fst camera_columns.
Proof. split; vm_compute; reflexivity. Qed.
Lemma synced_columns_names : columns (txt (c_header synced)) = map (fun c => txt (snd c)) synced_columns /\ c_attrs synced = map fst synced_columns.
Proof. split; vm_compute; reflexivity. Qed.

Lemma df_row_columns : forall h l, df_row h l = combine (columns h) (columns l).
Proof. reflexivity. Qed.
Lemma row_columns : forall c r, c_attrs c <> [] -> (forall x, In x (map r (c_attrs c)) -> clean x) -> columns (to_csv_row c r) = map r (c_attrs c).
Proof. intros c r N H. unfold to_csv_row. apply split_join; [|exact H]. destruct (c_attrs c); [congruence|discriminate]. Qed.
Lemma read_back : forall (r : attrs) cols attr, NoDup (map fst cols) -> NoDup (map (fun c => txt (snd c)) cols) -> In attr (map fst cols) ->
  read_attr cols (combine (map (fun c => txt (snd c)) cols) (map r (map fst cols))) attr = Some (r attr).
Proof.
  intros r cols attr ND1 ND2 I. unfold read_attr.
  destruct (find (fun c => String.eqb attr (fst c)) cols) as [[a k]|] eqn:F.
  - apply find_some in F as [J E]. apply String.eqb_eq in E. cbn in E. subst a. cbn [snd].
    clear I ND1. induction cols as [|[a' k'] cols IH]; [destruct J|].
    cbn [map combine fst snd lookup] in *. inversion ND2 as [|? ? NI ND]; subst. destruct J as [J|J].
    + injection J as -> ->. assert (text_eqb (txt k) (txt k) = true) as -> by now apply text_eqb_iff. reflexivity.
    + assert (text_eqb (txt k) (txt k') = false) as ->.
      { destruct (text_eqb (txt k) (txt k')) eqn:E; [|reflexivity]. apply text_eqb_iff in E. exfalso. apply NI.
        rewrite <- E. now apply (in_map (fun c => txt (snd c)) cols (attr, k)). }
      apply IH; assumption.
  - apply in_map_iff in I as ([a k] & E & J). cbn in E. subst a. apply find_none with (x := (attr, k)) in F; [|exact J].
    cbn in F. now rewrite String.eqb_refl in F.
Qed.

Fixpoint nodupb {A} (eqb : A -> A -> bool) (l : list A) : bool :=
  match l with [] => true | x :: r => (negb (existsb (eqb x) r) && nodupb eqb r)%bool end.
Lemma nodupb_sound : forall A (eqb : A -> A -> bool), (forall x y, eqb x y = true <-> x = y) -> forall l, nodupb eqb l = true -> NoDup l.
Proof.
  intros A eqb E. induction l as [|x l IH]; intros H; [constructor|]. cbn [nodupb] in H. apply Bool.andb_true_iff in H as [H1 H2].
  constructor; [|now apply IH]. intros I. apply Bool.negb_true_iff in H1. rewrite <- Bool.not_true_iff_false in H1. apply H1.
  apply existsb_exists. exists x. split; [exact I|now apply E].
Qed.
Ltac nodup := first [apply (nodupb_sound _ String.eqb String.eqb_eq)|apply (nodupb_sound _ text_eqb text_eqb_iff)]; vm_compute; reflexivity.

(** Camera records (and vehicle poses) come back attribute by attribute. *)
Theorem C37_camera_round_trip : forall data i r attr, (2 <= length data)%nat -> (forall r, In r data -> forall a, clean (r a)) ->
  nth_error data i = Some r -> In attr (c_attrs camera) ->
  exists file df, write_csv camera true data = Some file /\ nth_error (read_csv file) i = Some df /\
    read_attr camera_columns df attr = Some (r attr).
Proof.
  intros data i r attr L CL N I. rewrite write_some by exact L.
  eexists _, _. split; [reflexivity|]. split.
  - cbn [read_csv]. apply map_nth_error. apply map_nth_error. exact N.
  - destruct camera_columns_names as [E1 E2]. rewrite df_row_columns, E1, row_columns; [|rewrite E2; discriminate|].
    + rewrite E2. apply read_back; [nodup|nodup|]. now rewrite <- E2.
    + intros x J. apply in_map_iff in J as (a & <- & _). apply (CL r). eapply nth_error_In; eauto.
Qed.
Print Assumptions C37_camera_round_trip.
Theorem C37_synced_round_trip : forall data i r attr, (2 <= length data)%nat -> (forall r, In r data -> forall a, clean (r a)) ->
  nth_error data i = Some r -> In attr (c_attrs synced) ->
  exists file df, write_csv synced true data = Some file /\ nth_error (read_csv file) i = Some df /\
    read_attr synced_columns df attr = Some (r attr).
Proof.
  intros data i r attr L CL N I. rewrite write_some by exact L.
  eexists _, _. split; [reflexivity|]. split.
  - cbn [read_csv]. apply map_nth_error. apply map_nth_error. exact N.
  - destruct synced_columns_names as [E1 E2]. rewrite df_row_columns, E1, row_columns; [|rewrite E2; discriminate|].
    + rewrite E2. apply read_back; [nodup|nodup|]. now rewrite <- E2.
    + intros x J. apply in_map_iff in J as (a & <- & _). apply (CL r). eapply nth_error_In; eauto.
Qed.
Print Assumptions C37_synced_round_trip.

(** The velocities of the vehicle poses are in no column. *)
Theorem C137_synced_velocity_refuted : exists attr, In attr (c_attrs camera) /\ ~ In attr (c_attrs synced).
Proof. exists "x_velocity"%string. split; [cbn; tauto|]. cbn. intuition discriminate. Qed.
Print Assumptions C137_synced_velocity_refuted.

(** Payload rows: right for dictionaries with at least one entry, wrong for data frames
    and for lists. *)
Lemma join_snoc : forall a x, a <> [] -> join comma (a ++ [x]) = join comma a ++ comma :: x.
Proof.
  induction a as [|y a IH]; intros x N; [congruence|]. destruct a as [|z a]; [reflexivity|].
  change ((y :: z :: a) ++ [x]) with (y :: (z :: a) ++ [x]).
  transitivity (y ++ comma :: join comma ((z :: a) ++ [x])); [reflexivity|]. rewrite IH by discriminate.
  change (join comma (y :: z :: a)) with (y ++ comma :: join comma (z :: a)). now rewrite <- app_assoc.
Qed.
Lemma join_flat : forall b a, a <> [] -> join comma a ++ flat_map (fun x => comma :: x) b = join comma (a ++ b).
Proof.
  induction b as [|x b IH]; intros a N.
  - cbn [flat_map]. now rewrite !app_nil_r.
  - cbn [flat_map]. replace (a ++ x :: b) with ((a ++ [x]) ++ b) by now rewrite <- app_assoc.
    rewrite <- IH by (destruct a; discriminate). rewrite join_snoc by exact N. rewrite <- app_assoc. reflexivity.
Qed.
Lemma join_two : forall b a, a <> [] -> b <> [] -> join comma a ++ comma :: join comma b = join comma (a ++ b).
Proof.
  intros b a N M. rewrite <- join_flat by exact N. f_equal. destruct b as [|x b]; [congruence|]. cbn [flat_map app]. f_equal.
  symmetry. apply (join_flat b [x]). discriminate.
Qed.
Lemma names_clean : forall c, In c payload_names -> clean c.
Proof. intros c I J. repeat (destruct I as [<-|I]; [vm_compute in J; intuition discriminate|]). destruct I. Qed.

Theorem C37_payload : forall r items, (forall a, clean (r a)) -> items <> [] ->
  (forall kv, In kv items -> clean (fst kv) /\ clean (snd kv)) ->
  columns (payload_header (Dict items)) = payload_names ++ map fst items /\
  columns (payload_row r (Dict items)) = map r payload_cells ++ map snd items.
Proof.
  intros r items H N C. unfold payload_header, payload_row. split.
  - unfold row at 1 2. rewrite join_two; [|discriminate|destruct items; [congruence|discriminate]].
    apply (split_join (payload_names ++ map fst items)); [discriminate|]. intros x J. apply in_app_iff in J as [J|J].
    + now apply names_clean.
    + apply in_map_iff in J as (kv & <- & J). now apply C.
  - transitivity (columns (join comma (map r payload_cells ++ map snd items))).
    { f_equal. rewrite <- join_flat by discriminate. f_equal. clear.
      induction items as [|kv items IH]; [reflexivity|]. cbn [flat_map map]. now rewrite IH. }
    apply (split_join (map r payload_cells ++ map snd items)); [discriminate|]. intros x J. apply in_app_iff in J as [J|J].
    + apply in_map_iff in J as (a & <- & _). apply H.
    + apply in_map_iff in J as (kv & <- & J). now apply C.
Qed.
Print Assumptions C37_payload.

Definition ones : attrs := fun _ => txt "1".
Theorem C137_payload_frame_refuted : exists d r,
  length (columns (payload_row r d)) <> length (columns (payload_header d)) /\
  nth_error (columns (payload_row r d)) 5 <> Some (r "longitude"%string).
Proof. exists (Frame [txt "chl"] (txt "[[2.5]]")), ones. split; vm_compute; discriminate. Qed.
Print Assumptions C137_payload_frame_refuted.
Theorem C137_payload_list_refuted : exists d r, length (columns (payload_row r d)) <> length (columns (payload_header d)).
Proof. exists (Value (txt "[1, 2]")), ones. vm_compute; discriminate. Qed.
Print Assumptions C137_payload_list_refuted.

(** The covariance file has one row per record when every record has a covariance; it
    falls out of step, or is missing, when some record has none. *)
Theorem C37_cov : forall M (line : M -> text) header ms, (2 <= length ms)%nat ->
  write_cov line header (map Some ms) = Some (header :: map line ms).
Proof.
  intros M line header ms L. unfold write_cov. rewrite map_length. destruct (Nat.ltb_spec 1 (length ms)); [|lia].
  destruct ms as [|m ms]; [cbn in L; lia|]. cbn [map flat_map app]. do 3 f_equal. clear L H.
  induction ms as [|n ms IH]; [reflexivity|]. cbn [map flat_map app]. now rewrite IH.
Qed.
Print Assumptions C37_cov.
Theorem C137_cov_step_refuted : exists (data : list (option text)) f i m, write_cov (fun x => x) [] data = Some f /\
  nth_error data i = Some (Some m) /\ nth_error (tl f) i <> Some m.
Proof.
  exists [Some (txt "a"); None; Some (txt "b")], [[]; txt "a"; txt "b"], 2%nat, (txt "b").
  split; [reflexivity|]. split; [reflexivity|]. discriminate.
Qed.
Print Assumptions C137_cov_step_refuted.
Theorem C137_cov_missing_refuted : exists (data : list (option text)) m, In (Some m) data /\ (2 <= length data)%nat /\
  write_cov (fun x => x) [] data = None.
Proof. exists [None; Some (txt "b")], (txt "b"). split; [cbn; tauto|]. split; [cbn; lia|reflexivity]. Qed.
Print Assumptions C137_cov_missing_refuted.

(** ** load_states *)
Section Load.
  Context {R : Type} (name : R -> text) (start stop : text).
  Lemma load_true : forall mid rest z, (forall r, In r mid -> name r <> stop) -> name z = stop ->
    load name start stop true (mid ++ z :: rest) = mid ++ [z].
  Proof.
    induction mid as [|m mid IH]; intros rest z H Z; cbn [app load orb].
    - assert (text_eqb (name z) stop = true) as -> by now apply text_eqb_iff. reflexivity.
    - destruct (text_eqb (name m) stop) eqn:E; [apply text_eqb_iff in E; exfalso; apply (H m); [now left|exact E]|].
      cbn [app]. f_equal. apply IH; [|exact Z]. intros r I. apply H. now right.
  Qed.
  (** The rows from the first [start] to the first [stop], when it comes after it. *)
  Theorem C69_range : forall pre a mid z rest,
    (forall r, In r (pre ++ a :: mid) -> name r <> stop) -> (forall r, In r pre -> name r <> start) -> name a = start -> name z = stop ->
    load_states name start stop (pre ++ a :: mid ++ z :: rest) = a :: mid ++ [z].
  Proof.
    intros pre a mid z rest H S A Z. unfold load_states. induction pre as [|p pre IH]; cbn [app load orb].
    - assert (text_eqb (name a) start = true) as -> by now apply text_eqb_iff.
      destruct (text_eqb (name a) stop) eqn:E; [apply text_eqb_iff in E; exfalso; apply (H a); [now left|exact E]|].
      cbn [app]. f_equal. apply load_true; [|exact Z]. intros r I. apply H. now right.
    - destruct (text_eqb (name p) start) eqn:E1; [apply text_eqb_iff in E1; exfalso; apply (S p); [now left|exact E1]|].
      destruct (text_eqb (name p) stop) eqn:E2; [apply text_eqb_iff in E2; exfalso; apply (H p); [now left|exact E2]|].
      cbn [app]. apply IH; [intros r I; apply H; now right|intros r I; apply S; now right].
  Qed.
End Load.
Print Assumptions C69_range.
(** [stop] before [start]: nothing is loaded although both are there. *)
Theorem C169_order_refuted : exists rows start stop, In start rows /\ In stop rows /\
  load_states (fun r : text => r) start stop rows = [].
Proof. exists [txt "b"; txt "a"], (txt "a"), (txt "b"). split; [cbn; tauto|]. split; [cbn; tauto|reflexivity]. Qed.
Print Assumptions C169_order_refuted.

Definition r1 : attrs := fun a => if String.eqb a "filename" then txt "i/1.tif" else txt a.
Definition r2 : attrs := fun a => if String.eqb a "filename" then txt "i/2.tif" else txt a.
Example C37_example :
  (exists f, write_csv camera true [r1; r2] = Some f /\
     map (fun df => read_attr camera_columns df "filename") (read_csv f) = [Some (txt "i/1.tif"); Some (txt "i/2.tif")] /\
     map (fun df => read_attr camera_columns df "yaw_std") (read_csv f) = [Some (txt "yaw_std"); Some (txt "yaw_std")]) /\
  columns (payload_row ones (Dict [(txt "chl", txt "7"); (txt "o2", txt "8")])) = (repeat (txt "1") 6 ++ [txt "7"; txt "8"])%list.
Proof. split; [eexists; split; [reflexivity|split; vm_compute; reflexivity]|vm_compute; reflexivity]. Qed.
Example C69_example : load_states (fun r : text => r) (txt "b") (txt "d") (map txt ["a"; "b"; "c"; "d"; "e"]%string) = map txt ["b"; "c"; "d"]%string.
Proof. vm_compute. reflexivity. Qed.
