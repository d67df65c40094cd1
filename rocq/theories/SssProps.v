(** C257/C258: the files for side scan sonar and the positions of the particle filter. *)
From Coq Require Import Ascii String.
From Verif Require Import PyBase NmeaModel NmeaProofs TimeModel TimeSpec TimeProofs LatlonProps BagModel BagProps CsvModel CsvProps EivaModel EivaProps SssModel.
From Coq Require Import Qround NArith Nnat.
Open Scope Q_scope.
Open Scope list_scope.

(** [t] is a number with [n] decimals of value [q]. *)
Definition stands_for (t : text) (n : nat) (q : Q) : Prop :=
  exists (neg : bool) ds fs, t = (if neg then [45%N] else []) ++ spelled ds ++ [46%N] ++ spelled fs /\ all_digits ds /\ all_digits fs /\ ds <> [] /\ length fs = n /\
    q == (if neg then -1 else 1) * (inject_Z (place_value ds) + inject_Z (place_value fs) / inject_Z (10 ^ Z.of_nat n)).
Definition rounded (t : text) (n : nat) (q : Q) : Prop := exists v, stands_for t n v /\ Qabs (v - q) <= (1 # 2) / inject_Z (10 ^ Z.of_nat n).
(** [n] digits of value [z] *)
Definition numeral (t : text) (n : nat) (z : Z) : Prop := exists ds, t = spelled ds /\ all_digits ds /\ length ds = n /\ place_value ds = z.

Lemma place_app : forall a b, (place_value (a ++ b) = place_value a * 10 ^ Z.of_nat (length b) + place_value b)%Z.
Proof.
  induction a as [|d a IH]; intros b; cbn [app place_value]; [lia|]. rewrite IH, app_length, Nat2Z.inj_add, Z.pow_add_r by lia. ring.
Qed.
Lemma digits_app : forall a b, all_digits a -> all_digits b -> all_digits (a ++ b).
Proof. intros a b A B d I. apply in_app_or in I. destruct I; auto. Qed.
Lemma numeral_app : forall s t n m y z, numeral s n y -> numeral t m z -> numeral (s ++ t) (n + m) (y * 10 ^ Z.of_nat m + z).
Proof.
  intros s t n m y z (a & -> & A & La & Va) (b & -> & B & Lb & Vb). exists (a ++ b). split; [symmetry; apply spelled_app|]. split; [now apply digits_app|].
  split; [rewrite app_length; lia|]. rewrite place_app, Va, Vb, Lb. reflexivity.
Qed.
Lemma padded_numeral : forall n z, (0 <= z < 10 ^ Z.of_nat n)%Z -> numeral (padded n z) n z.
Proof.
  induction n as [|n IH]; intros z H.
  - exists []. cbn in H. split; [reflexivity|]. split; [intros d []|]. split; [reflexivity|]. cbn. lia.
  - unfold padded in *. cbn [pad]. rewrite map_app. replace (S n) with (n + 1)%nat by lia.
    rewrite Nat2Z.inj_succ, Z.pow_succ_r in H by lia. pose proof (Z.mod_pos_bound z 10 ltac:(lia)) as M. pose proof (Z.div_mod z 10 ltac:(lia)) as D.
    replace z with (z / 10 * 10 ^ Z.of_nat 1 + z mod 10)%Z at 3 by lia. apply numeral_app.
    + apply IH. split; [apply Z.div_pos; lia|]. apply Z.div_lt_upper_bound; lia.
    + exists [z mod 10]%Z. split; [|split; [intros d [<-|[]]; lia|split; [reflexivity|cbn; lia]]]. unfold spelled, chr_digit. cbn [map]. f_equal. apply N_ascii_embedding. lia.
Qed.
Lemma nearest_near : forall q, Qabs (inject_Z (nearest q) - q) <= 1 # 2.
Proof.
  intros q. unfold nearest. pose proof (Qfloor_le q) as L. pose proof (Qlt_floor q) as U. set (f := Qfloor q) in *. rewrite inject_Z_plus in U.
  apply Qabs_Qle_condition. destruct (Qltb (q - inject_Z f) (1 # 2)) eqn:A; [apply Qltb_lt in A; lra|]. apply Qltb_ge in A.
  destruct (Qltb (1 # 2) (q - inject_Z f)) eqn:B; [apply Qltb_lt in B; rewrite inject_Z_plus; change (inject_Z 1) with 1 in *; lra|]. apply Qltb_ge in B.
  destruct (Z.even f); [|rewrite inject_Z_plus]; change (inject_Z 1) with 1 in *; lra.
Qed.
Lemma nearest_nonneg : forall q, 0 <= q -> (0 <= nearest q)%Z.
Proof.
  intros q H. assert (0 <= Qfloor q)%Z as F. { apply (Qfloor_resp_le 0 q) in H. exact H. }
  unfold nearest. destruct (Qltb _ _); [exact F|]. destruct (Qltb _ _); [lia|]. destruct (Z.even _); lia.
Qed.
Lemma fixed_rounded : forall n q, rounded (fixed n q) n q.
Proof.
  intros n q. unfold fixed. set (u := (10 ^ Z.of_nat n)%Z). assert (0 < u)%Z as U by (apply Z.pow_pos_nonneg; lia). set (m := nearest (Qabs q * inject_Z u)).
  assert (0 <= m)%Z as M. { apply nearest_nonneg. apply Qmult_le_0_compat; [apply Qabs_nonneg|]. change 0 with (inject_Z 0). rewrite <- Zle_Qle. lia. }
  destruct (show_spec (Z.to_N (m / u))) as (ds & E & D & V & N). rewrite Z2N.id in V by (apply Z.div_pos; lia).
  destruct (padded_numeral n (m mod u)) as (fs & F & FD & FL & FV); [apply Z.mod_pos_bound; exact U|].
  exists ((if Qltb q 0 then -1 else 1) * (inject_Z m / inject_Z u)). assert (0 < inject_Z u) as UQ by (change 0 with (inject_Z 0); rewrite <- Zlt_Qlt; exact U). split.
  - exists (Qltb q 0), ds, fs. rewrite E, F. split; [reflexivity|]. split; [exact D|]. split; [exact FD|]. split; [exact N|]. split; [exact FL|]. rewrite V, FV. fold u.
    rewrite (Z.div_mod m u) at 1 by lia. rewrite inject_Z_plus, inject_Z_mult. destruct (Qltb q 0); field; lra.
  - pose proof (nearest_near (Qabs q * inject_Z u)) as A. fold m in A. fold u.
    setoid_replace ((if Qltb q 0 then -1 else 1) * (inject_Z m / inject_Z u) - q) with ((if Qltb q 0 then -1 else 1) * ((inject_Z m - Qabs q * inject_Z u) / inject_Z u)).
    + rewrite Qabs_Qmult. setoid_replace (Qabs (if Qltb q 0 then -1 else 1)) with 1 by (destruct (Qltb q 0); reflexivity). rewrite Qmult_1_l. unfold Qdiv at 1. rewrite Qabs_Qmult, (Qabs_pos (/ inject_Z u)) by (apply Qlt_le_weak, Qinv_lt_0_compat, UQ).
      apply Qmult_le_compat_r; [exact A|]. apply Qlt_le_weak, Qinv_lt_0_compat, UQ.
    + destruct (Qltb q 0) eqn:S.
      * apply Qltb_lt in S. rewrite (Qabs_neg q) by lra. field. lra.
      * apply Qltb_ge in S. rewrite (Qabs_pos q) by lra. field. lra.
Qed.

(** ** Rows *)
Lemma numeral_word : forall t n z, numeral t (S n) z -> word t.
Proof.
  intros t n z (ds & -> & D & L & _). split; [destruct ds; discriminate|]. apply Forall_forall. intros c I. unfold spelled in I. apply in_map_iff in I. destruct I as (d & <- & I).
  specialize (D d I). assert (In d [0; 1; 2; 3; 4; 5; 6; 7; 8; 9]%Z) as K by (cbn; lia). repeat (destruct K as [<-|K]; [reflexivity|]). destruct K.
Qed.
Lemma digits_nonspace : forall ds, all_digits ds -> Forall (fun c => is_space c = false) (spelled ds).
Proof.
  intros ds D. destruct ds as [|d ds]; [constructor|]. destruct (numeral_word (spelled (d :: ds)) (length ds) (place_value (d :: ds))) as (_ & W); [|exact W].
  exists (d :: ds). split; [reflexivity|]. split; [exact D|]. split; reflexivity.
Qed.
Lemma stands_word : forall t n q, stands_for t n q -> word t.
Proof.
  intros t n q (neg & ds & fs & -> & D & F & N & _ & _). split; [destruct neg, ds; discriminate|].
  apply Forall_app. split; [destruct neg; repeat constructor|]. apply Forall_app. split; [now apply digits_nonspace|]. apply Forall_app. split; [repeat constructor|now apply digits_nonspace].
Qed.
Lemma words_spaced : forall ws, Forall word ws -> words (spaced ws) = ws.
Proof.
  intros ws H. apply words_written. unfold spaced. induction H as [|w ws W H IH]; [apply wr_end; constructor|]. destruct ws as [|v ws].
  - apply (wr_last [] w); [constructor|exact W].
  - cbn [join]. apply (wr_word [] w 32%N _ (v :: ws)); [constructor|exact W|reflexivity|exact IH].
Qed.
Lemma civil_gmtime : forall t c, seconds_after_1970 (Qfloor t) c -> gmtime t = c.
Proof.
  intros t c H. destruct (seconds_after_1970_csec _ _ H) as (E & V & _). destruct (gmtime_valid t) as (V' & E'). apply csec_inj; auto. congruence.
Qed.
Lemma stamp_numerals : forall c, valid_civil c -> (0 <= c_y c <= 9999)%Z ->
  numeral (date_text c) 8 (c_y c * 10000 + c_mo c * 100 + c_d c) /\ numeral (clock_text c) 6 (c_h c * 10000 + c_mi c * 100 + c_s c).
Proof.
  intros c V Y. apply valid_civil_fields in V. destruct V as (M & D & H & Mi & S).
  assert (c_d c <= 31)%Z as D31. { pose proof (month_length_range _ _ _ (days_in_month_spec (c_y c) (c_mo c) M)). lia. }
  split.
  - unfold date_text. replace (c_y c * 10000 + c_mo c * 100 + c_d c)%Z with (c_y c * 10 ^ Z.of_nat (2 + 2) + (c_mo c * 10 ^ Z.of_nat 2 + c_d c))%Z by (cbn; lia).
    apply (numeral_app _ _ 4 (2 + 2)); [apply padded_numeral; cbn; lia|]. apply (numeral_app _ _ 2 2); apply padded_numeral; cbn; lia.
  - unfold clock_text. replace (c_h c * 10000 + c_mi c * 100 + c_s c)%Z with (c_h c * 10 ^ Z.of_nat (2 + 2) + (c_mi c * 10 ^ Z.of_nat 2 + c_s c))%Z by (cbn; lia).
    apply (numeral_app _ _ 2 (2 + 2)); [apply padded_numeral; cbn; lia|]. apply (numeral_app _ _ 2 2); apply padded_numeral; cbn; lia.
Qed.
Lemma words_header : words sidescan_header = map txt ["#Mission"; "Date"; "Time"; "NorthDeg"; "EastDeg"; "HeadingDeg"; "RollDeg"; "PitchDeg"; "Altitude"; "Depth"; "Speed"]%string.
Proof. vm_compute. reflexivity. Qed.

(** ** C257 *)
(** A state with all its values gives one row; split at blanks it has a field for every name of the header: the UTC date and time of the whole second, the
    position to 6 decimals, and heading, roll, pitch, altitude, depth and surge speed to 3.  A state without a position stands at 0, 0. *)
Definition position (s : state) (lat lon : Q) : Prop := (latitude s = Num lat /\ longitude s = Num lon) \/ (latitude s = Missing /\ lat = 0 /\ lon = 0).
Theorem C257_row : forall s c lat lon h r p a d v, seconds_after_1970 (Qfloor (epoch s)) c -> (c_y c <= 9999)%Z -> position s lat lon ->
  yaw s = Num h -> roll s = Num r -> pitch s = Num p -> altitude_m s = Num a -> depth_m s = Num d -> x_velocity s = Num v ->
  exists row date clock flat flon fh fr fp fa fd fv, sidescan_row s = Some row /\ words row = [txt "M150"; date; clock; flat; flon; fh; fr; fp; fa; fd; fv] /\
    numeral date 8 (c_y c * 10000 + c_mo c * 100 + c_d c) /\ numeral clock 6 (c_h c * 10000 + c_mi c * 100 + c_s c) /\
    rounded flat 6 lat /\ rounded flon 6 lon /\ rounded fh 3 h /\ rounded fr 3 r /\ rounded fp 3 p /\ rounded fa 3 a /\ rounded fd 3 d /\ rounded fv 3 v.
Proof.
  intros s c lat lon h r p a d v T Y P H R Pi A D V. destruct (seconds_after_1970_csec _ _ T) as (_ & VC & Y0 & _). destruct (stamp_numerals c VC ltac:(lia)) as (ND & NC).
  exists (spaced [txt "M150"; date_text c; clock_text c; fixed 6 lat; fixed 6 lon; fixed 3 h; fixed 3 r; fixed 3 p; fixed 3 a; fixed 3 d; fixed 3 v]).
  exists (date_text c), (clock_text c), (fixed 6 lat), (fixed 6 lon), (fixed 3 h), (fixed 3 r), (fixed 3 p), (fixed 3 a), (fixed 3 d), (fixed 3 v).
  split. { unfold sidescan_row. rewrite (civil_gmtime _ _ T), H, R, Pi, A, D, V. destruct P as [(-> & ->)|(-> & -> & ->)]; reflexivity. }
  assert (forall n q, word (fixed n q)) as W by (intros n q; destruct (fixed_rounded n q) as (x & S & _); now apply stands_word in S).
  split; [apply words_spaced; repeat (constructor; [first [apply W|now apply numeral_word in ND|now apply numeral_word in NC|split; [discriminate|repeat constructor]]|]); constructor|].
  split; [exact ND|]. split; [exact NC|]. repeat (split; [apply fixed_rounded|]). apply fixed_rounded.
Qed.
Print Assumptions C257_row.
(** The file: nothing without the flag or without states; else the header and one row per state in order, up to the first state that has no row. *)
Definition complete (s : state) : Prop := exists row, sidescan_row s = Some row.
Theorem C257_file : forall data, (forall s, In s data -> complete s) -> data <> [] ->
  exists rs, write_sidescan_csv data true = Some (sidescan_header :: rs, true) /\ Forall2 (fun s row => sidescan_row s = Some row) data rs.
Proof.
  intros data C N. assert (exists rs, rows data = (rs, true) /\ Forall2 (fun s row => sidescan_row s = Some row) data rs) as (rs & E & F).
  { clear N. induction data as [|s data IH]; [exists []; split; [reflexivity|constructor]|]. destruct (C s (or_introl eq_refl)) as (row & R).
    destruct IH as (rs & E & F); [intros; apply C; now right|]. exists (row :: rs). cbn [rows]. rewrite R, E. split; [reflexivity|now constructor]. }
  exists rs. split; [|exact F]. unfold write_sidescan_csv. destruct data; [congruence|]. now rewrite E.
Qed.
Theorem C257_stops : forall before s after, (forall s, In s before -> complete s) -> ~ complete s ->
  exists rs, write_sidescan_csv (before ++ s :: after) true = Some (sidescan_header :: rs, false) /\ Forall2 (fun s row => sidescan_row s = Some row) before rs.
Proof.
  intros before s after C I. assert (exists rs, rows (before ++ s :: after) = (rs, false) /\ Forall2 (fun s row => sidescan_row s = Some row) before rs) as (rs & E & F).
  { induction before as [|b before IH]; cbn [app rows].
    - destruct (sidescan_row s) as [row|] eqn:E; [elim I; now exists row|]. exists []. split; [reflexivity|constructor].
    - destruct (C b (or_introl eq_refl)) as (row & R). destruct IH as (rs & E & F); [intros; apply C; now right|]. exists (row :: rs). rewrite R, E. split; [reflexivity|now constructor]. }
  exists rs. split; [|exact F]. unfold write_sidescan_csv. rewrite E. destruct before; reflexivity.
Qed.
Theorem C257_nothing : forall data flag, write_sidescan_csv data flag = None <-> flag = false \/ data = [].
Proof. intros data [|]; unfold write_sidescan_csv; [destruct data as [|s data]; [|destruct (rows (s :: data))]|]; split; intros H; auto; try discriminate; destruct H; discriminate. Qed.
(** The header names 11 columns and every row has 11 fields. *)
Theorem C257_columns : forall s row c, seconds_after_1970 (Qfloor (epoch s)) c -> (c_y c <= 9999)%Z -> sidescan_row s = Some row ->
  length (words row) = 11%nat /\ length (words sidescan_header) = 11%nat.
Proof.
  intros s row c T Y E. split; [|rewrite words_header; reflexivity]. destruct (seconds_after_1970_csec _ _ T) as (_ & VC & Y0 & _). destruct (stamp_numerals c VC ltac:(lia)) as (ND & NC).
  assert (forall n q, word (fixed n q)) as W by (intros n q; destruct (fixed_rounded n q) as (x & S & _); now apply stands_word in S).
  unfold sidescan_row in E. rewrite (civil_gmtime _ _ T) in E.
  destruct (yaw s), (roll s), (pitch s), (altitude_m s), (depth_m s), (x_velocity s), (latitude s), (longitude s); try discriminate E; cbn [format all_of option_map] in E; injection E as <-;
  (rewrite words_spaced; [reflexivity|]); repeat (constructor; [first [apply W|now apply numeral_word in ND|now apply numeral_word in NC|split; [discriminate|repeat constructor]]|]); constructor.
Qed.
Print Assumptions C257_file. Print Assumptions C257_stops. Print Assumptions C257_nothing. Print Assumptions C257_columns.

(** The particle filter's trajectory at the vehicle's centre: moved by the offset, with the latitude and longitude of the moved position, and one cell for every name
    in its CSV file.  [record number p others]: the attributes of a state at [p]. *)
Definition record (number : Q -> text) (p : place) (others : attrs) : attrs := fun a =>
  if String.eqb a "northings" then number (northings p) else if String.eqb a "eastings" then number (eastings p)
  else if String.eqb a "latitude" then str number (p_latitude p) else if String.eqb a "longitude" then str number (p_longitude p) else others a.
Theorem C257_centre : forall number latlon dn de p others, (forall q, clean (number q)) -> (forall a, clean (others a)) ->
  let c := at_centre latlon (dn, de) p in let r := record number c others in
  northings c = northings p + dn /\ eastings c = eastings p + de /\
  r "latitude"%string = number (fst (latlon (eastings p + de) (northings p + dn))) /\ r "longitude"%string = number (snd (latlon (eastings p + de) (northings p + dn))) /\
  length (columns (to_csv_row synced r)) = 22%nat.
Proof.
  intros number latlon dn de p others N O c r. assert (forall a, clean (r a)) as C.
  { intros a. unfold r, record, c, at_centre. cbn [fst snd]. destruct (latlon _ _) as [la lo]. cbn [northings eastings p_latitude p_longitude str].
    destruct (String.eqb a "northings"), (String.eqb a "eastings"), (String.eqb a "latitude"), (String.eqb a "longitude"); auto. }
  split; [unfold c, at_centre; destruct (latlon _ _); reflexivity|]. split; [unfold c, at_centre; destruct (latlon _ _); reflexivity|].
  split; [unfold r, record, c, at_centre; cbn [fst snd]; destruct (latlon _ _); reflexivity|]. split; [unfold r, record, c, at_centre; cbn [fst snd]; destruct (latlon _ _); reflexivity|].
  rewrite (C37_columns synced r) by (cbn [In]; tauto || exact C). vm_compute. reflexivity.
Qed.
Print Assumptions C257_centre.

Definition ex_state (t : Q) (lat lon : field) : state := mkstate t lat lon (Num (359 # 2)) (Num (-1 # 4)) (Num (12 # 10)) (Num 2) (Num 105) (Num (1 # 2)).
Example row_example : sidescan_row (ex_state (1500000000 + 1 # 2) (Num (26 + 1 # 3)) (Num (-127 # 1))) <> None /\
  sidescan_row (ex_state (3000000001 # 2) (Num (79 # 3)) (Num (-127 # 1))) = Some (txt "M150 20170714 024000 26.333333 -127.000000 179.500 -0.250 1.200 2.000 105.000 0.500").
Proof. split; [discriminate|]. vm_compute. reflexivity. Qed.
Example fixed_example : fixed 3 (1 # 8) = txt "0.125" /\ fixed 2 (1 # 8) = txt "0.12" /\ fixed 2 (3 # 8) = txt "0.38" /\ fixed 3 (-1 # 10000) = txt "-0.000".
Proof. vm_compute. auto. Qed.
Example stops_example : write_sidescan_csv [ex_state 0 (Num 1) (Num 2); mkstate 1 (Num 1) (Num 2) (Num 0) (Num 0) (Num 0) Missing (Num 0) (Num 0); ex_state 2 (Num 1) (Num 2)] true =
  Some ([sidescan_header; txt "M150 19700101 000000 1.000000 2.000000 179.500 -0.250 1.200 2.000 105.000 0.500"], false).
Proof. vm_compute. reflexivity. Qed.

(** ** C258 *)
(** A known longitude is written, and a missing one stands as 0: the test asks for the latitude in both cases. *)
Theorem C258_longitude_refuted : exists s q, longitude s = Num q /\ ~ q == 0 /\ sidescan_row s = Some (txt "M150 19700101 000000 0.000000 0.000000 179.500 -0.250 1.200 2.000 105.000 0.500").
Proof. exists (ex_state 0 Missing (Num 127)), 127. split; [reflexivity|]. split; [discriminate|]. vm_compute. reflexivity. Qed.
Theorem C258_missing_refuted : exists s, latitude s = Num 26 /\ longitude s = Missing /\ sidescan_row s = None.
Proof. exists (ex_state 0 (Num 26) Missing). split; [reflexivity|]. split; reflexivity. Qed.
(** States at different times have different rows: those of one second may not. *)
Theorem C258_second_refuted : exists s s', epoch s < epoch s' /\ s' = mkstate (epoch s') (latitude s) (longitude s) (yaw s) (roll s) (pitch s) (altitude_m s) (depth_m s) (x_velocity s) /\
  sidescan_row s <> None /\ sidescan_row s = sidescan_row s'.
Proof. exists (ex_state 0 (Num 1) (Num 2)), (ex_state (9 # 10) (Num 1) (Num 2)). split; [reflexivity|]. split; [reflexivity|]. split; [discriminate|]. vm_compute. reflexivity. Qed.
(** One state without an altitude does not lose the states after it. *)
Theorem C258_rest_refuted : exists data rs, length data = 3%nat /\ write_sidescan_csv data true = Some (rs, false) /\ length rs = 2%nat /\ forall s, In s (skipn 2 data) -> complete s.
Proof.
  exists [ex_state 0 (Num 1) (Num 2); mkstate 1 (Num 1) (Num 2) (Num 0) (Num 0) (Num 0) Missing (Num 0) (Num 0); ex_state 2 (Num 1) (Num 2)]. eexists. split; [reflexivity|].
  split; [exact stops_example|]. split; [reflexivity|]. intros s [<-|[]]. eexists. vm_compute. reflexivity.
Qed.
(** The particle filter's trajectory at the DVL has a latitude, a longitude and a cell for every name: its longitude is the pair of both and its latitude None. *)
Theorem C258_dvl_refuted : exists number latlon p others, (forall q, clean (number q)) /\ (forall a, clean (others a)) /\ p_latitude p = Missing /\ p_longitude p = Missing /\
  let r := record number (at_dvl latlon p) others in r "latitude"%string = txt "None" /\ r "longitude"%string = txt "(50, 3)" /\ latlon (eastings p) (northings p) = (50, 3) /\
  length (columns (to_csv_row synced r)) = 23%nat /\ length (columns (txt (c_header synced))) = 22%nat.
Proof.
  exists (fun q => txt (if Qeq_bool q 50 then "50" else if Qeq_bool q 3 then "3" else "1")%string), (fun _ _ => (50, 3)), (mkplace 0 0 Missing Missing), (fun _ => txt "1").
  assert (clean (txt "1") /\ clean (txt "3") /\ clean (txt "50")) as (C & C3 & C50) by (repeat split; cbv; intuition discriminate).
  split; [intros q; destruct (Qeq_bool q 50); [exact C50|]; destruct (Qeq_bool q 3); assumption|]. repeat (split; [auto|]). vm_compute. auto.
Qed.
Print Assumptions C258_longitude_refuted. Print Assumptions C258_missing_refuted. Print Assumptions C258_second_refuted. Print Assumptions C258_rest_refuted. Print Assumptions C258_dvl_refuted.
