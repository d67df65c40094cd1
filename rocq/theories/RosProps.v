(** C215, C216: the measurements read from ROS bags. *)
From Coq Require Import List Ascii Reals Lra Psatz Bool Lia.
From Verif Require Import FramesModel FramesProps EulerModel EulerProps QuatModel RosModel.
From Verif Require QuatProps.
Import ListNotations.
Open Scope R_scope.

(** ** Specification *)
(** What is read of the bags: of each that opens, the messages before the first of an unknown type. *)
Fixpoint before {M} (known : M -> bool) (l : list M) : list M :=
  match l with [] => [] | m :: l => if known m then m :: before known l else [] end.
Definition read {M} (known : M -> bool) (bags : list (option (list M))) : list M :=
  flat_map (fun b => match b with Some l => before known l | None => [] end) bags.
(** [out] has, in the order of the messages, one record for each usable one and nothing else. *)
Inductive reported {A V} (usable : A -> Prop) (gives : A -> V -> Prop) : list A -> list V -> Prop :=
| rep_nil : reported usable gives [] []
| rep_use a l m out : usable a -> gives a m -> reported usable gives l out -> reported usable gives (a :: l) (m :: out)
| rep_skip a l out : ~ usable a -> reported usable gives l out -> reported usable gives (a :: l) out.
(** The time of a record: the stamp less the offset. *)
Definition time_of (tz : R) (s : stamp) : R := secs s + nsecs s / 1000000000 - tz.
(** A vector turned by an angle in degrees about the vertical. *)
Definition about_z (off : R) (v : vec) : vec :=
  let c := cos (off * (PI / 180)) in let s := sin (off * (PI / 180)) in (c * vx v - s * vy v, s * vx v + c * vy v, vz v).
(** The standard deviation of a variance. *)
Definition deviation (variance std : R) : Prop := 0 <= std /\ std * std = variance.

Lemma reported_app : forall {A V} u (g : A -> V -> Prop) l1 o1 l2 o2, reported u g l1 o1 -> reported u g l2 o2 -> reported u g (l1 ++ l2) (o1 ++ o2).
Proof. intros A V u g l1 o1 l2 o2 H1 H2. induction H1; [exact H2| |]; cbn [app]; now constructor. Qed.

Lemma reported_in : forall {A V} u (g : A -> V -> Prop) l o, reported u g l o -> forall r, In r o -> exists m, In m l /\ u m /\ g m r.
Proof.
  intros A V u g l o H. induction H as [|a l m o U G H IH|a l o U H IH]; intros r I; [destruct I| |].
  - destruct I as [->|I]; [exists a; repeat split; [now left|exact U|exact G]|]. destruct (IH r I) as (x & X & Y). exists x. split; [now right|exact Y].
  - destruct (IH r I) as (x & X & Y). exists x. split; [now right|exact Y].
Qed.
Lemma about_z_0 : forall v, about_z 0 v = v.
Proof. intros [[x y] z]. unfold about_z, vx, vy, vz. cbn [fst snd]. rewrite Rmult_0_l, cos_0, sin_0. f_equal. f_equal; ring. Qed.

(** ** Worker *)
Section worker.
Context {M St Rec : Type}.
Variables (from_ros : St -> M -> outcome St) (valid : St -> bool) (to_json : St -> Rec) (clear : St -> St).
Variables (known : M -> bool) (usable : M -> Prop) (gives : M -> Rec -> Prop) (ok : St -> Prop).
Definition steps : Prop := forall st m, ok st -> match from_ros st m with
  | Raised => known m = false
  | Done st' => known m = true /\ ((usable m /\ valid st' = true /\ gives m (to_json st') /\ ok (clear st')) \/ (~ usable m /\ valid st' = false /\ ok st'))
  end.
Lemma bag_app : forall f bag st out st' out', read_bag from_ros valid to_json clear f st bag out = (st', out') -> exists o, out' = (out ++ o)%list.
Proof.
  intros f. induction bag as [|m bag IH]; cbn [read_bag]; intros st out st' out' E; [inversion E; exists []; now rewrite app_nil_r|].
  destruct (from_ros st m) as [st1|]; [|inversion E; exists []; now rewrite app_nil_r]. destruct (valid st1); [|now apply IH in E].
  destruct (export _ _ _ _ _) as [[st2 [r|]]|]; [apply IH in E as (o & ->); exists (r :: o); now rewrite <- app_assoc|now apply IH in E|inversion E; exists []; now rewrite app_nil_r].
Qed.
Lemma bag_reported : steps -> forall bag st out, ok st -> exists st' o,
  read_bag from_ros valid to_json clear Oplab st bag out = (st', (out ++ o)%list) /\ reported usable gives (before known bag) o /\ ok st'.
Proof.
  intros H. induction bag as [|m bag IH]; cbn [read_bag before]; intros st out K.
  - exists st, []. rewrite app_nil_r. repeat split; [constructor|exact K].
  - pose proof (H st m K) as S. destruct (from_ros st m) as [st1|].
    + destruct S as [-> [(U & V & G & O)|(U & V & O)]]; rewrite V.
      * unfold export. rewrite V. destruct (IH (clear st1) (out ++ [to_json st1])%list O) as (st' & o & -> & R & O'). exists st', (to_json st1 :: o). rewrite <- app_assoc. repeat split; [now constructor|exact O'].
      * destruct (IH st1 out O) as (st' & o & -> & R & O'). exists st', o. repeat split; [now apply rep_skip|exact O'].
    + rewrite S. exists st, []. rewrite app_nil_r. repeat split; [constructor|exact K].
Qed.
Lemma worker_reported : steps -> forall bags st out, ok st -> exists o,
  topic_worker from_ros valid to_json clear Oplab st bags out = (out ++ o)%list /\ reported usable gives (read known bags) o.
Proof.
  intros H. induction bags as [|[bag|] bags IH]; cbn [topic_worker]; intros st out K.
  - exists []. rewrite app_nil_r. split; [reflexivity|constructor].
  - destruct (bag_reported H bag st out K) as (st' & o & -> & R & O). destruct (IH st' (out ++ o)%list O) as (o' & -> & R'). exists (o ++ o')%list. rewrite app_assoc. split; [reflexivity|]. unfold read. cbn [flat_map]. now apply reported_app.
  - destruct (IH st out K) as (o & -> & R). exists o. split; [reflexivity|exact R].
Qed.
End worker.

Lemma epoch_time : forall tz s, ros_stamp_to_epoch s - tz = time_of tz s.
Proof. intros. unfold ros_stamp_to_epoch, time_of. lra. Qed.
Lemma turn_z : forall off v, body_to_inertial 0 0 off v = about_z off v.
Proof. intros off [[x y] z]. unfold body_to_inertial, about_z, deg_to_rad, vx, vy, vz. cbn [fst snd]. rewrite !Rmult_0_l, sin_0, cos_0. f_equal; [f_equal|]; ring. Qed.
Lemma sqrt_dev : forall x, 0 <= x -> deviation x (sqrt x).
Proof. intros x H. split; [apply sqrt_pos|now apply sqrt_sqrt]. Qed.

(** ** Velocity *)
Definition known_vel (m : velocity_msg) : bool := match m with OtherVel => false | _ => true end.
(** A Cola2 DVL's message counts with bottom lock, a positive variance and less than 2.5 m/s. *)
Definition fine (a : axes) : Prop := -32768 < x_mms a /\ -32768 < y_mms a /\ -32768 < z_mms a.
Definition usable_vel (m : velocity_msg) : Prop := match m with
  | Cola2Dvl _ v cov alt => 0 < cov 0%nat /\ 0 <= alt /\ vx v * vx v + vy v * vy v < 6.25
  | Teledyne _ bi wi => (status bi = "A"%char \/ status wi = "A"%char) /\ (fine bi \/ fine wi)
  | HNavVel _ _ _ => True
  | OtherVel => False
  end.
(** [v] and [s]: the velocity and the deviations that the message carries. *)
Definition thousandth (a : axes) (v s : vec) : Prop := v = (x_mms a / 1000, y_mms a / 1000, z_mms a / 1000) /\
  vx s = Rabs (error_mms a) / 1000 /\ vy s = vx s /\ vz s = vx s.
Definition carries (m : velocity_msg) (st : stamp) (v s : vec) : Prop := match m with
  | Cola2Dvl t w cov _ => t = st /\ v = w /\ (0 <= cov 4%nat -> 0 <= cov 8%nat -> deviation (cov 0%nat) (vx s) /\ deviation (cov 4%nat) (vy s) /\ deviation (cov 8%nat) (vz s))
  | Teledyne t bi wi => t = st /\ ((status bi = "A"%char /\ thousandth bi v s) \/ (status bi <> "A"%char /\ thousandth wi v s))
  | HNavVel t w q => t = st /\ v = w /\ s = (q, q, q)
  | OtherVel => False
  end.
Definition vel_of (tz off : R) (m : velocity_msg) (r : velocity) : Prop := exists st v s, carries m st v s /\
  r = mkvel (Some (time_of tz st)) (Some (time_of tz st)) (Some (about_z off v)) (Some (about_z off s)).

Lemma speed_limit : forall a b, sqrt (a ^ 2 + b ^ 2) < 2.5 <-> a * a + b * b < 6.25.
Proof.
  intros a b. replace (a ^ 2 + b ^ 2) with (a * a + b * b) by ring. assert (0 <= a * a + b * b) as P by nra. pose proof (sqrt_pos (a * a + b * b)) as Q. pose proof (sqrt_sqrt _ P) as S. split; intros H; nra.
Qed.
Lemma above_fine : forall a, above a = true <-> fine a.
Proof. intros a. unfold above, fine. destruct (Rlt_dec _ (x_mms a)), (Rlt_dec _ (y_mms a)), (Rlt_dec _ (z_mms a)); cbn; split; intros H; try discriminate; try tauto; try reflexivity. Qed.
Lemma above_not : forall a, above a = false <-> ~ fine a.
Proof. intros a. rewrite <- above_fine. apply not_true_iff_false || (symmetry; apply not_true_iff_false). Qed.
Lemma thousandth_metres : forall a, thousandth a (metres a) (verr a).
Proof.
  intros a. unfold thousandth, metres, verr, vx, vy, vz. cbn [fst snd]. split; [f_equal; [f_equal|]; lra|]. split; [|split; reflexivity]. rewrite Rabs_mult, (Rabs_right 0.001) by lra. lra.
Qed.
Lemma vel_stamp_valid : forall tz off s t d v w, velocity_stamp tz off s (mkvel t d (Some v) (Some w)) =
  mkvel (Some (time_of tz s)) (Some (time_of tz s)) (Some (about_z off v)) (Some (about_z off w)).
Proof. intros. unfold velocity_stamp. cbn. rewrite epoch_time, !turn_z. reflexivity. Qed.
Lemma vel_stamp_invalid : forall tz off s t d w, exists t', velocity_stamp tz off s (mkvel t d None w) = mkvel t' t' None w.
Proof. intros. unfold velocity_stamp. cbn. eexists. reflexivity. Qed.
Lemma vel_steps : forall tz off, steps (velocity_from_ros tz off) velocity_valid (fun r => r) velocity_clear known_vel usable_vel (vel_of tz off) (fun v => v_xyz v = None).
Proof.
  intros tz off [t d xyz std] m O. cbn in O. subst xyz. destruct m as [s v cov alt|s bi wi|s v q|]; cbn [velocity_from_ros known_vel]; [| | |reflexivity].
  - destruct (Rle_dec (cov 0%nat) 0) as [C|C]; [split; [reflexivity|right; split; [intros (K & _); lra|split; reflexivity]]|]. destruct (Rlt_dec alt 0) as [A|A]; [split; [reflexivity|right; split; [intros (_ & K & _); lra|split; reflexivity]]|].
    split; [reflexivity|]. destruct (Rlt_dec (sqrt _) 2.5) as [V|V].
    + left. apply speed_limit in V. cbn [v_t v_dvl]. rewrite vel_stamp_valid. repeat split; try exact V; try lra. exists s, v, (sqrt (cov 0%nat), sqrt (cov 4%nat), sqrt (cov 8%nat)). repeat split; try (apply sqrt_pos); try (apply sqrt_sqrt; assumption). apply sqrt_sqrt. lra.
    + right. destruct (vel_stamp_invalid tz off s t d std) as (t' & ->). repeat split. intros (_ & _ & K). apply V. now apply speed_limit.
  - destruct (Ascii.eqb (status bi) "A") eqn:EB; [|destruct (Ascii.eqb (status wi) "A") eqn:EW].
    + apply Ascii.eqb_eq in EB. split; [reflexivity|]. cbn [v_t v_dvl v_std]. destruct (above bi || above wi)%bool eqn:AB.
      * left. rewrite vel_stamp_valid. apply orb_true_iff in AB. rewrite !above_fine in AB. repeat split; try tauto. exists s, (metres bi), (verr bi). split; [|reflexivity]. split; [reflexivity|]. left. split; [exact EB|apply thousandth_metres].
      * right. destruct (vel_stamp_invalid tz off s t d (Some (verr bi))) as (t' & ->). apply orb_false_iff in AB. rewrite !above_not in AB. repeat split. intros [_ K]. tauto.
    + apply Ascii.eqb_eq in EW. apply Ascii.eqb_neq in EB. split; [reflexivity|]. cbn [v_t v_dvl v_std]. destruct (above bi || above wi)%bool eqn:AB.
      * left. rewrite vel_stamp_valid. apply orb_true_iff in AB. rewrite !above_fine in AB. repeat split; try tauto. exists s, (metres wi), (verr wi). split; [|reflexivity]. split; [reflexivity|]. right. split; [exact EB|apply thousandth_metres].
      * right. destruct (vel_stamp_invalid tz off s t d (Some (verr wi))) as (t' & ->). apply orb_false_iff in AB. rewrite !above_not in AB. repeat split. intros [_ K]. tauto.
    + apply Ascii.eqb_neq in EB, EW. split; [reflexivity|]. right. repeat split. cbn. tauto.
  - split; [reflexivity|]. left. cbn [v_t v_dvl]. rewrite vel_stamp_valid. repeat split. exists s, v, (q, q, q). repeat split.
Qed.
Theorem C215_velocity : forall tz off bags,
  reported usable_vel (vel_of tz off) (read known_vel bags) (topic_worker (velocity_from_ros tz off) velocity_valid (fun r => r) velocity_clear Oplab velocity_new bags []).
Proof. intros tz off bags. destruct (worker_reported _ _ _ _ _ _ _ _ (vel_steps tz off) bags velocity_new [] eq_refl) as (o & -> & R). exact R. Qed.
Print Assumptions C215_velocity.
(** The turn keeps the vertical speed and the horizontal one. *)
Theorem C215_speed : forall tz off bags r, In r (topic_worker (velocity_from_ros tz off) velocity_valid (fun r => r) velocity_clear Oplab velocity_new bags []) ->
  exists m t v s w, In m (read known_vel bags) /\ carries m t v s /\ v_xyz r = Some w /\
    vx w * vx w + vy w * vy w = vx v * vx v + vy v * vy v /\ vz w = vz v /\ (off = 0 -> w = v /\ v_std r = Some s).
Proof.
  intros tz off bags r I. pose proof (C215_velocity tz off bags) as R. apply (reported_in _ _ _ _ R) in I as (m & M & _ & t & v & s & C & ->). exists m, t, v, s, (about_z off v). cbn [v_xyz v_std]. repeat split; try assumption.
  - unfold about_z, vx, vy, vz. cbn [fst snd]. pose proof (sin2_cos2 (off * (PI / 180))) as T. unfold Rsqr in T. set (c := cos _) in *. set (k := sin _) in *. clearbody c k. set (a := fst (fst v)). set (b := snd (fst v)).
    replace (_ + _) with ((k * k + c * c) * (a * a + b * b)) by ring. rewrite T. ring.
  - subst off. apply about_z_0.
  - subst off. now rewrite about_z_0.
Qed.
Print Assumptions C215_speed.

(** ** Altitude *)
Definition known_alt (m : altitude_msg) : bool := match m with OtherAlt => false | _ => true end.
(** The altitude that a message carries, if it counts. *)
Definition usable_alt (m : altitude_msg) : Prop := match m with
  | Cola2Alt _ x | Range _ x => 0 <= x
  | TeledyneAlt _ b _ => b <> "V"%char
  | HNavAlt _ x => x <> 0
  | OtherAlt => False
  end.
Definition alt_of (tz factor : R) (m : altitude_msg) (r : altitude) : Prop := match m with
  | Cola2Alt s x | Range s x | TeledyneAlt s _ x | HNavAlt s x =>
      r = mkalt (Some (time_of tz s)) (Some (time_of tz s)) (Some x) (Some (factor * x))
  | OtherAlt => False
  end.
Lemma alt_steps : forall tz k, steps (altitude_from_ros tz k) altitude_valid (fun r => r) altitude_clear known_alt usable_alt (alt_of tz k) (fun a => al_alt a = None).
Proof.
  intros tz k [t d a std] m O. cbn in O. subst a.
  assert (forall s x, altitude_stamp tz k s x = mkalt (Some (time_of tz s)) (Some (time_of tz s)) (Some x) (Some (k * x))) as S by (intros s x; unfold altitude_stamp; rewrite epoch_time, (Rmult_comm x k); reflexivity).
  destruct m as [s x|s x|s b x|s x|]; cbn [altitude_from_ros known_alt usable_alt alt_of]; [| | | |reflexivity]; (split; [reflexivity|]).
  - destruct (Rlt_dec x 0) as [X|X]; [right|left]; [split; [lra|split; reflexivity]|]. rewrite S. split; [lra|]. repeat split.
  - destruct (Rlt_dec x 0) as [X|X]; [right|left]; [split; [lra|split; reflexivity]|]. rewrite S. split; [lra|]. repeat split.
  - destruct (Ascii.eqb b "V") eqn:E; [right|left]; [apply Ascii.eqb_eq in E; split; [tauto|split; reflexivity]|]. apply Ascii.eqb_neq in E. rewrite S. split; [exact E|]. repeat split.
  - destruct (Req_EM_T x 0) as [X|X]; [right|left]; [split; [tauto|split; reflexivity]|]. rewrite S. split; [exact X|]. repeat split.
Qed.
Theorem C215_altitude : forall tz factor bags,
  reported usable_alt (alt_of tz factor) (read known_alt bags) (topic_worker (altitude_from_ros tz factor) altitude_valid (fun r => r) altitude_clear Oplab altitude_new bags []).
Proof. intros tz k bags. destruct (worker_reported _ _ _ _ _ _ _ _ (alt_steps tz k) bags altitude_new [] eq_refl) as (o & -> & R). exact R. Qed.
Print Assumptions C215_altitude.

(** ** Depth *)
Definition known_dep (m : depth_msg) : bool := match m with OtherDepth => false | _ => true end.
(** Depth [x] and deviation [std] of a message; a deviation of zero stands for none and is made a
    fraction of the depth. *)
Definition dep_of (tz factor : R) (m : depth_msg) (r : depth) : Prop := exists s x std,
  r = mkdep (Some (time_of tz s)) (Some (time_of tz s)) (Some x) (Some std) /\
  match m with
  | FluidPressure s' p _ => s' = s /\ x * (1030 * 9.80665) = p
  | PoseDepth s' z cov => s' = s /\ x = z /\ (0 < cov 14%nat -> deviation (cov 14%nat) std) /\ (cov 14%nat = 0 -> std = factor * z)
  | HNavDepth s' z c => s' = s /\ x = z /\ (c <> 0 -> std = 1.2 * c) /\ (c = 0 -> std = factor * z)
  | OtherDepth => False
  end.
Lemma dep_steps : forall tz k, steps (depth_from_ros tz k) depth_valid (fun r => r) depth_clear known_dep (fun _ => True) (dep_of tz k) (fun a => True).
Proof.
  intros tz k [t d a std] m _.
  assert (forall s x w, depth_stamp tz k s x w = mkdep (Some (time_of tz s)) (Some (time_of tz s)) (Some x) (Some (if Req_EM_T w 0 then x * k else w))) as S by (intros; unfold depth_stamp; rewrite epoch_time; reflexivity).
  destruct m as [s p v|s z cov|s x c|]; cbn [depth_from_ros known_dep]; [| | |reflexivity]; (split; [reflexivity|]); left; rewrite S; (split; [exact I|]); (split; [reflexivity|]); (split; [|exact I]).
  - do 3 eexists. split; [reflexivity|]. split; [reflexivity|]. field. lra.
  - do 3 eexists. split; [reflexivity|]. split; [reflexivity|]. split; [reflexivity|]. split; intros C.
    + destruct (Req_EM_T _ 0) as [E|E]; [pose proof (sqrt_lt_R0 _ C); lra|]. apply sqrt_dev. lra.
    + rewrite C, sqrt_0. destruct (Req_EM_T 0 0); [ring|lra].
  - do 3 eexists. split; [reflexivity|]. split; [reflexivity|]. split; [reflexivity|]. split; intros C; destruct (Req_EM_T _ 0) as [E|E]; lra.
Qed.
Theorem C215_depth : forall tz factor bags,
  reported (fun _ => True) (dep_of tz factor) (read known_dep bags) (topic_worker (depth_from_ros tz factor) depth_valid (fun r => r) depth_clear Oplab depth_new bags []).
Proof. intros tz k bags. destruct (worker_reported _ _ _ _ _ _ _ _ (dep_steps tz k) bags depth_new [] I) as (o & -> & R). exact R. Qed.
Print Assumptions C215_depth.

(** ** Orientation *)
Definition known_ori (m : orientation_msg) : bool := match m with OtherOri => false | _ => true end.
(** With no heading offset: an Imu's quaternion as in C79, and the INS's angles with the heading
    in [0, 360]. *)
Definition ori_of (tz : R) (m : orientation_msg) (r : option attitude) : Prop := exists a, r = Some a /\ match m with
  | Imu s q _ => a_stamp a = time_of tz s /\ (1 / 1000000000 <= QuatProps.norm2 q -> 1 / 1000000000 < QuatProps.nose q -> forall v, QuatProps.turned a v = QuatProps.rotate q v)
  | HNavOri s roll pitch h w => a_stamp a = time_of tz s /\ a_roll a = roll /\ a_pitch a = pitch /\ (0 <= h <= 360 -> a_yaw a = h) /\
      (-360 <= h <= 720 -> 0 <= a_yaw a <= 360) /\ (exists n, a_yaw a = h + 360 * IZR n) /\ a_roll_std a = w /\ a_pitch_std a = w /\ a_yaw_std a = w
  | OtherOri => False
  end.
Lemma ori_steps : forall tz, steps (orientation_from_ros tz 0) (fun s => is s) (fun r => r) orientation_clear known_ori (fun _ => True) (ori_of tz) (fun _ => True).
Proof.
  intros tz st m _. destruct m as [s q cov|s r p h w|]; cbn [orientation_from_ros known_ori]; [| |reflexivity]; (split; [reflexivity|]); left; (split; [exact I|]); (split; [reflexivity|]); (split; [|exact I]); eexists; (split; [reflexivity|]).
  - split; [unfold from_ros, apply_std_offset, apply_offset, read_imu; destruct (euler_from_quaternion q) as [[r p] y]; apply epoch_time|]. intros N G v. apply QuatProps.C79_rotation; unfold QuatProps.limit; lra.
  - unfold apply_std_offset, apply_offset. cbn [a_stamp a_roll a_pitch a_yaw a_roll_std a_pitch_std a_yaw_std]. rewrite !C05_identity_when_level. unfold vx, vy, vz. cbn [fst snd]. split; [apply epoch_time|]. split; [reflexivity|]. split; [reflexivity|].
    split; [|split; [|split; [|repeat split]]].
    + intros H. destruct (Rlt_dec 360 h); [lra|]. destruct (Rlt_dec h 0); lra.
    + intros H. destruct (Rlt_dec 360 h); (destruct (Rlt_dec _ 0); lra).
    + destruct (Rlt_dec 360 h).
      * destruct (Rlt_dec _ 0); [exists 0%Z; lra|exists (-1)%Z; lra].
      * destruct (Rlt_dec _ 0); [exists 1%Z; lra|exists 0%Z; lra].
Qed.
Theorem C215_orientation : forall tz bags,
  reported (fun _ => True) (ori_of tz) (read known_ori bags) (topic_worker (orientation_from_ros tz 0) (fun s => is s) (fun r => r) orientation_clear Oplab None bags []).
Proof. intros tz bags. destruct (worker_reported _ _ _ _ _ _ _ _ (ori_steps tz) bags None [] I) as (o & -> & R). exact R. Qed.
Print Assumptions C215_orientation.

(** ** Usbl *)
Section usbl.
Variables (Inverse : R -> R -> R -> R -> R * R) (Direct : R -> R -> R -> R -> R * R).
Variables (lat0 lon0 factor offset tz : R).
Definition known_us (m : usbl_msg) : bool := match m with OtherUsbl => false | _ => true end.
(** A satellite fix counts when its status is 0; the others always do. *)
Definition usable_us (m : usbl_msg) : Prop := match m with NavSatFix _ st _ _ _ => st = 0%Z | OtherUsbl => False | _ => True end.
(** A position [north], [east] of the reference: the point at the horizontal distance and bearing
    along the ellipsoid. *)
Definition placed (north east lat lon : R) : Prop := exists azimuth distance, Direct lat0 lon0 azimuth distance = (lat, lon) /\
  0 <= distance /\ east = distance * sin (azimuth * (PI / 180)) /\ north = distance * cos (azimuth * (PI / 180)).
(** The position of a point: its distance and bearing from the reference. *)
Definition located (lat lon north east : R) : Prop := let '(distance, azimuth) := Inverse lat0 lon0 lat lon in
  east = distance * sin (azimuth * (PI / 180)) /\ north = distance * cos (azimuth * (PI / 180)).
(** The deviation from a variance, the linear model standing in for none. *)
Definition or_model (variance depth std : R) : Prop := (0 < variance -> deviation variance std) /\ (variance = 0 -> std = factor * depth + offset).
Definition us_of (m : usbl_msg) (r : usbl) : Prop := exists lat lon north east depth,
  u_lat r = Some lat /\ u_lon r = Some lon /\ u_north r = Some north /\ u_east r = Some east /\ u_depth r = Some depth /\
  match m with
  | PoseUsbl s false p cov => u_t r = Some (time_of tz s) /\ (north, east, depth) = p /\ placed north east lat lon /\
      exists n e d, u_north_std r = Some n /\ u_east_std r = Some e /\ u_depth_std r = Some d /\ or_model (cov 0%nat) depth n /\ or_model (cov 7%nat) depth e /\ or_model (cov 14%nat) depth d
  | PoseUsbl s true p _ => u_t r = Some (time_of tz s) /\ (lat, lon, - depth) = p /\ located lat lon north east /\
      let std := factor * depth + offset in u_north_std r = Some std /\ u_east_std r = Some std /\ u_depth_std r = Some std /\
      u_lat_std r = Some (std / 111111) /\ u_lon_std r = Some (std / (111111 * cos (lat * PI / 180)))
  | NavSatFix s _ lat' lon' _ => u_t r = Some (time_of tz s) /\ lat = lat' /\ lon = lon' /\ depth = 0 /\ located lat lon north east /\
      u_lat_std r = Some (offset / 111111) /\ u_lon_std r = Some (offset / (111111 * cos (lat * PI / 180)))
  | Evologics s n e d => u_t r = Some (time_of tz s) /\ north = n /\ east = e /\ depth = d /\ placed north east lat lon
  | OtherUsbl => False
  end.
Lemma placed_direct : forall e n lat lon, metres_to_latlon Direct lat0 lon0 e n = (lat, lon) -> placed n e lat lon.
Proof.
  intros e n lat lon E. unfold metres_to_latlon in E. exists (degrees (atan2 e n)), (sqrt (e ^ 2 + n ^ 2)). split; [exact E|]. split; [apply sqrt_pos|]. replace (degrees (atan2 e n) * (PI / 180)) with (atan2 e n) by (unfold degrees; field; pose proof PI_RGT_0; lra).
  assert (0 <= e ^ 2 + n ^ 2) as P by nra. destruct (sqrt_pos (e ^ 2 + n ^ 2)) as [Q|Q].
  - destruct (atan2_dir n e (sqrt (e ^ 2 + n ^ 2)) Q) as [C S]; [rewrite sqrt_sqrt by exact P; ring|]. rewrite C, S. split; field; lra.
  - rewrite <- Q. symmetry in Q. apply sqrt_eq_0 in Q; [|exact P]. split; nra.
Qed.
Lemma or_linear_model : forall v d, or_model v d (or_linear factor offset (sqrt v) d).
Proof.
  intros v d. unfold or_model, or_linear. split; intros H.
  - destruct (Req_EM_T (sqrt v) 0) as [E|E]; [pose proof (sqrt_lt_R0 _ H); lra|]. apply sqrt_dev. lra.
  - subst v. rewrite sqrt_0. destruct (Req_EM_T 0 0); [reflexivity|lra].
Qed.
Definition us_ok (u : usbl) : Prop := u_lat u = None.
Lemma us_steps : steps (usbl_from_ros Inverse Direct lat0 lon0 factor offset tz) usbl_valid (fun r => r) usbl_clear known_us usable_us us_of us_ok.
Proof.
  intros st m O. unfold us_ok in *. destruct m as [s modem p cov|s z lat lon cov|s n e d|]; cbn [usbl_from_ros known_us]; [| | |reflexivity].
  - destruct (metres_to_latlon Direct lat0 lon0 (vy p) (vx p)) as [lat lon] eqn:E. destruct (metres_to_latlon Direct lat0 lon0 (or_linear factor offset (sqrt (cov 7%nat)) (vz p)) (or_linear factor offset (sqrt (cov 0%nat)) (vz p))) as [slat slon]. split; [reflexivity|]. left. split; [exact I|]. destruct modem.
    + unfold fill, latlon_to_metres. destruct (Inverse lat0 lon0 (vx p) (vy p)) as [dist az] eqn:F. split; [reflexivity|]. split; [|reflexivity]. exists (vx p), (vy p), (cos (az * PI / 180) * dist), (sin (az * PI / 180) * dist), (- vz p).
      unfold usbl_stamp. cbn [u_t u_lat u_lon u_north u_east u_depth u_lat_std u_lon_std u_north_std u_east_std u_depth_std]. do 5 (split; [reflexivity|]). rewrite epoch_time. split; [reflexivity|]. split; [destruct p as [[x y] w]; unfold vx, vy, vz; cbn [fst snd]; f_equal; ring|].
      unfold located, linear. rewrite F. replace (az * PI / 180) with (az * (PI / 180)) by (unfold Rdiv; ring). repeat split; ring.
    + split; [reflexivity|]. split; [|reflexivity]. exists lat, lon, (vx p), (vy p), (vz p). unfold usbl_stamp. cbn [u_t u_lat u_lon u_north u_east u_depth u_lat_std u_lon_std u_north_std u_east_std u_depth_std]. do 5 (split; [reflexivity|]). rewrite epoch_time.
      split; [reflexivity|]. split; [destruct p as [[x y] w]; reflexivity|]. split; [now apply placed_direct|]. do 3 eexists. do 3 (split; [reflexivity|]). repeat split; apply or_linear_model; assumption.
  - split; [reflexivity|]. destruct (Z.eq_dec z 0) as [Z|Z].
    + left. split; [exact Z|]. unfold fill, latlon_to_metres. destruct (Inverse lat0 lon0 lat lon) as [dist az] eqn:F. split; [reflexivity|]. split; [|reflexivity]. exists lat, lon, (cos (az * PI / 180) * dist), (sin (az * PI / 180) * dist), 0.
      unfold usbl_stamp. cbn [u_t u_lat u_lon u_north u_east u_depth u_lat_std u_lon_std u_north_std u_east_std u_depth_std]. do 5 (split; [reflexivity|]). rewrite epoch_time. do 4 (split; [reflexivity|]).
      unfold located, linear. rewrite F. replace (az * PI / 180) with (az * (PI / 180)) by (unfold Rdiv; ring). replace (factor * 0 + offset) with offset by ring. repeat split; ring.
    + right. split; [exact Z|]. unfold usbl_valid, usbl_stamp. cbn [u_lat]. rewrite O. split; reflexivity.
  - destruct (metres_to_latlon _ _ _ e n) as [lat lon] eqn:E. split; [reflexivity|]. left. split; [exact I|]. split; [reflexivity|]. split; [|reflexivity]. exists lat, lon, n, e, d. unfold usbl_stamp. cbn [u_t u_lat u_lon u_north u_east u_depth].
    do 5 (split; [reflexivity|]). rewrite epoch_time. do 4 (split; [reflexivity|]). now apply placed_direct.
Qed.
Theorem C215_usbl : forall bags,
  reported usable_us us_of (read known_us bags) (topic_worker (usbl_from_ros Inverse Direct lat0 lon0 factor offset tz) usbl_valid (fun r => r) usbl_clear Oplab usbl_new bags []).
Proof. intros bags. destruct (worker_reported _ _ _ _ _ _ _ _ us_steps bags usbl_new [] eq_refl) as (o & -> & R). exact R. Qed.
End usbl.
Print Assumptions C215_usbl.

(** ** Export *)
(** Data comes out exactly when the object is valid, and only once. *)
Theorem C215_export : forall {St Rec} (valid : St -> bool) (to_json : St -> Rec) clear, (forall st, valid (clear st) = false) -> forall st,
  (valid st = true -> export valid to_json clear Oplab st = Done (clear st, Some (to_json st)) /\ export valid to_json clear Oplab (clear st) = Done (clear st, None)) /\
  (valid st = false -> export valid to_json clear Oplab st = Done (st, None)).
Proof. intros St Rec valid to_json clear H st. unfold export. split; intros V; rewrite V; [|reflexivity]. now rewrite H. Qed.
Print Assumptions C215_export.
Theorem C215_cleared : (forall v, velocity_valid (velocity_clear v) = false) /\ (forall a, altitude_valid (altitude_clear a) = false) /\
  (forall d, depth_valid (depth_clear d) = false) /\ (forall u, usbl_valid (usbl_clear u) = false).
Proof. repeat split. Qed.
Print Assumptions C215_cleared.

(** Two bags, the first unreadable, a DVL without bottom lock, one with, and one too fast. *)
Definition t10 := mkstamp 10 500000000.
Definition unit_cov : nat -> R := fun _ => 1.
Example C215_ex : exists r, topic_worker (velocity_from_ros 0 0) velocity_valid (fun r => r) velocity_clear Oplab velocity_new
    [None; Some [Cola2Dvl t10 (1, 0, 0) unit_cov (-1); Cola2Dvl t10 (1, 0.5, 0) unit_cov 3; Cola2Dvl t10 (3, 0, 0) unit_cov 3]] [] = [r] /\
  v_t r = Some 10.5 /\ v_xyz r = Some (1, 0.5, 0) /\ v_std r = Some (1, 1, 1).
Proof.
  pose proof (C215_velocity 0 0 [None; Some [Cola2Dvl t10 (1, 0, 0) unit_cov (-1); Cola2Dvl t10 (1, 0.5, 0) unit_cov 3; Cola2Dvl t10 (3, 0, 0) unit_cov 3]]) as H.
  set (o := topic_worker _ _ _ _ _ _ _ _) in *. clearbody o. unfold read in H. cbn [flat_map before known_vel app] in H.
  inversion H as [|a l m out U G H1|a l out U H1]; subst; [cbn in U; lra|]. clear H U. inversion H1 as [|a l m out U G H2|a l out U H2]; subst; [|exfalso; apply U; cbn; unfold unit_cov, vx, vy; cbn; lra]. clear H1.
  inversion H2 as [|a l m' out' U' G' H3|a l out' U' H3]; subst; [cbn in U'; unfold vx, vy in U'; cbn in U'; lra|]. inversion H3. subst. exists m. split; [reflexivity|].
  destruct G as (t & v & s & (<- & -> & D) & ->). cbn [v_t v_xyz v_std]. rewrite !about_z_0. destruct D as [[P1 Q1] [[P2 Q2] [P3 Q3]]]; [unfold unit_cov; lra|unfold unit_cov; lra|]. unfold unit_cov in *.
  split; [f_equal; unfold time_of, t10; cbn; lra|]. split; [reflexivity|]. f_equal. destruct s as [[x y] z]. unfold vx, vy, vz in *. cbn [fst snd] in *. f_equal; [f_equal|]; nra.
Qed.

(** ** C216 *)
(** In the ACFR format nothing is ever reported, because the method that would is not defined. *)
Lemma acfr_bag : forall {M St Rec} (from_ros : St -> M -> outcome St) valid (to_json : St -> Rec) clear bag st out, snd (read_bag from_ros valid to_json clear Acfr st bag out) = out.
Proof.
  intros M St Rec from_ros valid to_json clear. induction bag as [|m bag IH]; intros st out; [reflexivity|]. cbn [read_bag]. destruct (from_ros st m) as [st1|]; [|reflexivity].
  destruct (valid st1) eqn:V; [|apply IH]. unfold export. rewrite V. reflexivity.
Qed.
Theorem C216_acfr_empty : forall {M St Rec} (from_ros : St -> M -> outcome St) valid (to_json : St -> Rec) clear bags st,
  topic_worker from_ros valid to_json clear Acfr st bags [] = [].
Proof.
  intros M St Rec from_ros valid to_json clear. induction bags as [|[bag|] bags IH]; intros st; cbn [topic_worker]; [reflexivity| |apply IH].
  pose proof (acfr_bag from_ros valid to_json clear bag st []) as E. destruct (read_bag _ _ _ _ _ _ _ _) as [st' out]. cbn [snd] in E. subst out. apply IH.
Qed.
Print Assumptions C216_acfr_empty.
Theorem C216_acfr_refuted : exists bags, read known_dep bags <> [] /\
  forall tz k, topic_worker (depth_from_ros tz k) depth_valid (fun r => r) depth_clear Acfr depth_new bags [] = [].
Proof. exists [Some [HNavDepth t10 5 1]]. split; [discriminate|]. intros. apply C216_acfr_empty. Qed.
Print Assumptions C216_acfr_refuted.
(** The zone counts twice: offset_s already holds its seconds, and 60 s for each hour are added (Japan is 9 minutes too far). *)
Theorem C216_timezone_refuted : exists hours s, forall timeoffset,
  ros_stamp_to_epoch s - tz_offset hours (offset_s hours timeoffset) <> time_of (hours * 3600 + timeoffset) s.
Proof. exists 9, t10. intros o. rewrite epoch_time. unfold time_of, tz_offset, offset_s. lra. Qed.
Print Assumptions C216_timezone_refuted.
(** A message after one of an unknown type is lost. *)
Theorem C216_unknown_refuted : exists bag m, In m bag /\ usable_vel m /\
  forall tz off, topic_worker (velocity_from_ros tz off) velocity_valid (fun r => r) velocity_clear Oplab velocity_new [Some bag] [] = [].
Proof. exists [OtherVel; HNavVel t10 (1, 0, 0) 1], (HNavVel t10 (1, 0, 0) 1). split; [right; now left|]. split; [exact I|]. reflexivity. Qed.
Print Assumptions C216_unknown_refuted.
(** A velocity's deviation turned as a vector can be negative. *)
Theorem C216_deviation_refuted : exists off m r s, usable_vel m /\ topic_worker (velocity_from_ros 0 off) velocity_valid (fun r => r) velocity_clear Oplab velocity_new [Some [m]] [] = [r] /\
  v_std r = Some s /\ vx s < 0.
Proof.
  exists 90, (HNavVel t10 (1, 0, 0) 1). pose proof (C215_velocity 0 90 [Some [HNavVel t10 (1, 0, 0) 1]]) as H. set (o := topic_worker _ _ _ _ _ _ _ _) in *. clearbody o. unfold read in H. cbn [flat_map before known_vel app] in H.
  inversion H as [|a l m out U G H1|a l out U H1]; subst; [|exfalso; apply U; exact I]. inversion H1. subst. destruct G as (t & v & s & (<- & -> & ->) & ->). do 2 eexists. split; [exact I|]. split; [reflexivity|]. split; [reflexivity|].
  unfold about_z, vx, vy. cbn [fst snd]. replace (90 * (PI / 180)) with (PI / 2) by field. rewrite cos_PI2, sin_PI2. lra.
Qed.
Print Assumptions C216_deviation_refuted.
(** A Teledyne record's bottom velocity of -32768 mm/s, its mark of no data, is used when the water
    velocity is there. *)
Theorem C216_no_data_refuted : exists bi wi, x_mms bi = -32768 /\ forall s, exists r v,
  topic_worker (velocity_from_ros 0 0) velocity_valid (fun r => r) velocity_clear Oplab velocity_new [Some [Teledyne s bi wi]] [] = [r] /\ v_xyz r = Some v /\ vx v = -32.768.
Proof.
  exists (mkaxes "A" (-32768) 0 0 0), (mkaxes "A" 100 0 0 0). split; [reflexivity|]. intros s. pose proof (C215_velocity 0 0 [Some [Teledyne s (mkaxes "A" (-32768) 0 0 0) (mkaxes "A" 100 0 0 0)]]) as H.
  set (o := topic_worker _ _ _ _ _ _ _ _) in *. clearbody o. unfold read in H. cbn [flat_map before known_vel app] in H.
  inversion H as [|a l m out U G H1|a l out U H1]; subst; [|exfalso; apply U; split; [now left|right; unfold fine; cbn; lra]]. inversion H1. subst.
  destruct G as (t & v & w & (<- & [[_ [-> _]]|[N _]]) & ->); [|now contradiction N]. do 2 eexists. split; [reflexivity|]. cbn [v_xyz]. split; [reflexivity|]. rewrite about_z_0. unfold vx. cbn [fst snd x_mms]. lra.
Qed.
Print Assumptions C216_no_data_refuted.
(** The depth's deviation is not that of the pressure divided by its gradient. *)
Theorem C216_pressure_refuted : exists p std, 0 < std /\ forall s k, exists r d,
  topic_worker (depth_from_ros 0 k) depth_valid (fun r => r) depth_clear Oplab depth_new [Some [FluidPressure s p (std * std)]] [] = [r] /\ d_std r = Some d /\ d <> std / (1030 * 9.80665).
Proof.
  exists 100000, (1030 * 9.80665). split; [lra|]. intros s k. do 2 eexists. split; [reflexivity|]. split; [reflexivity|].
  replace (1030 * 9.80665 * (1030 * 9.80665) / (1030 * 9.80665)) with (1030 * 9.80665) by (field; lra). replace (1030 * 9.80665 / (1030 * 9.80665)) with 1 by (field; lra).
  assert (1 < sqrt (1030 * 9.80665)) as L by (rewrite <- sqrt_1 at 1; apply sqrt_lt_1; lra). destruct (Req_EM_T _ 0); lra.
Qed.
Print Assumptions C216_pressure_refuted.
(** The deviation in latitude is a latitude: on a plane with 111111 m to the degree, 1 m at 50
    degrees north is more than 50 degrees. *)
Definition plane (lat lon azimuth distance : R) : R * R :=
  (lat + distance * cos (azimuth * (PI / 180)) / 111111, lon + distance * sin (azimuth * (PI / 180)) / 111111).
Theorem C216_latitude_refuted : exists lat0 p cov, forall Inverse s, exists r std,
  topic_worker (usbl_from_ros Inverse plane lat0 0 0 1 0) usbl_valid (fun r => r) usbl_clear Oplab usbl_new [Some [PoseUsbl s false p cov]] [] = [r] /\
  u_north_std r = Some 1 /\ u_lat_std r = Some std /\ 50 < std.
Proof.
  exists 50, (0, 0, 0), unit_cov. intros Inverse s. assert (or_linear 0 1 (sqrt 1) (vz (0, 0, 0)) = 1) as L by (unfold or_linear; rewrite sqrt_1; destruct (Req_EM_T 1 0); lra).
  unfold topic_worker, read_bag, usbl_from_ros. unfold unit_cov. cbv zeta. rewrite L. unfold metres_to_latlon, plane. do 2 eexists. split; [reflexivity|]. split; [reflexivity|]. split; [reflexivity|].
  replace (degrees (atan2 1 1) * (PI / 180)) with (atan2 1 1) by (unfold degrees; field; pose proof PI_RGT_0; lra). replace (1 ^ 2 + 1 ^ 2) with 2 by ring.
  assert (0 < sqrt 2) as S by (apply sqrt_lt_R0; lra). destruct (atan2_dir 1 1 (sqrt 2) S) as [C _]; [rewrite sqrt_sqrt; lra|]. rewrite C. assert (sqrt 2 * (1 / sqrt 2) = 1) as -> by (field; lra). lra.
Qed.
Print Assumptions C216_latitude_refuted.
(** A satellite fix's deviations are its variances. *)
Theorem C216_fix_refuted : exists cov, (forall i, cov i = 4) /\ forall Inverse Direct lat0 lon0 k o s lat lon, exists r,
  topic_worker (usbl_from_ros Inverse Direct lat0 lon0 k o 0) usbl_valid (fun r => r) usbl_clear Oplab usbl_new [Some [NavSatFix s 0 lat lon cov]] [] = [r] /\ u_east_std r = Some 4 /\ ~ deviation 4 4.
Proof.
  exists (fun _ => 4). split; [reflexivity|]. intros. unfold topic_worker, read_bag, usbl_from_ros, fill, latlon_to_metres. destruct (Inverse lat0 lon0 lat lon) as [d a]. destruct (Z.eq_dec 0 0) as [_|N]; [|now contradiction N].
  eexists. split; [reflexivity|]. split; [reflexivity|]. unfold deviation. lra.
Qed.
Print Assumptions C216_fix_refuted.
(** The record of an Evologics fix depends on the message before it. *)
Theorem C216_stale_refuted : exists m m', forall Inverse Direct, exists r r' r'',
  let worker bags := topic_worker (usbl_from_ros Inverse Direct 50 0 0 1 0) usbl_valid (fun r => r) usbl_clear Oplab usbl_new bags [] in
  worker [Some [m']] = [r'] /\ worker [Some [m; m']] = [r; r''] /\ u_north_std r' = None /\ u_north_std r'' = Some 4.
Proof.
  exists (NavSatFix t10 0 50 0 (fun _ => 4)), (Evologics t10 0 0 0). intros Inverse Direct. unfold topic_worker, read_bag, usbl_from_ros, fill, latlon_to_metres, metres_to_latlon. destruct (Inverse 50 0 50 0) as [d a]. destruct (Z.eq_dec 0 0) as [_|N]; [|now contradiction N].
  destruct (Direct 50 0 _ _) as [lat lon]. do 3 eexists. cbv zeta. split; [reflexivity|]. split; [reflexivity|]. split; reflexivity.
Qed.
Print Assumptions C216_stale_refuted.
