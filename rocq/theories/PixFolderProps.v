(** C263/C264: the script that brings the images of a folder to one brightness and contrast. *)
From Coq Require Import Qround Qfield.
From Verif Require Import PyBase StatsModel StatsProps PixelModel PixelProps PixFolderModel.
Open Scope Q_scope.

(** ** Interpolation *)
(** [v] is the value at the position [p] (in pixels; outside, that of the border) on the line through the neighbouring values of [f], of [n] pixels. *)
Definition on_line (n : nat) (f : nat -> Q) (p v : Q) : Prop :=
  (p < 0 /\ v == f 0%nat) \/ (q n - 1 <= p /\ v == f (n - 1)%nat) \/
  (exists k t, (S k < n)%nat /\ 0 <= t /\ t < 1 /\ p == q k + t /\ v == (1 - t) * f k + t * f (S k)).
(** The centre of pixel [i] of [m], in pixels of [n] *)
Definition centre (n m i : nat) : Q := (q i + (1 # 2)) * q n / q m - (1 # 2).

Lemma q_gt : forall n, (0 < n)%nat -> 0 < q n.
Proof. intros n H. unfold q. change 0 with (inject_Z 0). rewrite <- Zlt_Qlt. lia. Qed.
Lemma q_nonneg : forall n, 0 <= q n.
Proof. intros n. unfold q. change 0 with (inject_Z 0). rewrite <- Zle_Qle. lia. Qed.
Lemma scale_le : forall t x y, 0 <= t -> x <= y -> t * x <= t * y.
Proof. intros t x y T H. rewrite !(Qmult_comm t). now apply Qmult_le_compat_r. Qed.
Lemma stretch_line : forall n m f i, (0 < n)%nat -> (0 < m)%nat -> on_line n f (centre n m i) (stretch n m f i).
Proof.
  intros n m f i N M. unfold stretch. set (p := ((2 * q i + 1) * q n / q m - 1) / 2).
  assert (p == centre n m i) as E by (unfold p, centre; field; pose proof (q_gt m M); lra).
  pose proof (Qfloor_le p) as L. pose proof (Qlt_floor p) as U. set (k := Qfloor p) in *. cbv zeta.
  destruct (Z.ltb_spec k 0) as [A|A].
  - left. split; [|reflexivity]. rewrite <- E. apply Qlt_le_trans with (inject_Z (k + 1)); [exact U|]. change 0 with (inject_Z 0). rewrite <- Zle_Qle. lia.
  - destruct (Z.leb_spec (Z.of_nat n - 1) k) as [B|B].
    + right. left. split; [|reflexivity]. rewrite <- E. apply Qle_trans with (inject_Z k); [|exact L]. unfold q. change 1 with (inject_Z 1). unfold Qminus. rewrite <- inject_Z_opp, <- inject_Z_plus, <- Zle_Qle. lia.
    + right. right. exists (Z.to_nat k), (p - inject_Z k). rewrite inject_Z_plus in U. change (inject_Z 1) with 1 in U. split; [lia|]. split; [lra|]. split; [lra|]. split.
      * rewrite <- E. unfold q. rewrite Z2Nat.id by exact A. ring.
      * ring.
Qed.
Lemma line_between : forall n f p v lo hi, (0 < n)%nat -> on_line n f p v -> (forall i, (i < n)%nat -> lo <= f i /\ f i <= hi) -> lo <= v /\ v <= hi.
Proof.
  intros n f p v lo hi N [(_ & E)|[(_ & E)|(k & t & K & T0 & T1 & _ & E)]] H; rewrite E.
  - apply H; lia.
  - apply H; lia.
  - destruct (H k) as [A B]; [lia|]. destruct (H (S k)) as [C D]; [lia|]. split.
    + setoid_replace lo with ((1 - t) * lo + t * lo) by ring. apply Qplus_le_compat; apply scale_le; lra.
    + setoid_replace hi with ((1 - t) * hi + t * hi) by ring. apply Qplus_le_compat; apply scale_le; lra.
Qed.

(** A value of a resized image lies on lines through neighbouring pixels, at the place that corresponds to the pixel's. *)
Definition at_place (h w : nat) (a : plane) (row column v : Q) : Prop :=
  exists f, (forall r, (r < h)%nat -> on_line w (a r) column (f r)) /\ on_line h f row v.
Lemma resize_place : forall h w h' w' a y x, (0 < h)%nat -> (0 < w)%nat -> (0 < h')%nat -> (0 < w')%nat ->
  at_place h w a (centre h h' y) (centre w w' x) (resize h w h' w' a y x).
Proof.
  intros h w h' w' a y x H W H' W'. exists (fun r => stretch w w' (a r) x). split; [intros r _; now apply stretch_line|]. now apply stretch_line.
Qed.
Lemma place_between : forall h w a row column v lo hi, (0 < h)%nat -> (0 < w)%nat -> at_place h w a row column v ->
  (forall r c, (r < h)%nat -> (c < w)%nat -> lo <= a r c /\ a r c <= hi) -> lo <= v /\ v <= hi.
Proof.
  intros h w a row column v lo hi H W (f & R & C) B. refine (line_between h f row v lo hi H C _). intros r L. refine (line_between w (a r) column (f r) lo hi W (R r L) _). intros c M. now apply B.
Qed.

(** ** C263 *)
(** The sample: no more images than fit, at least one, all from the folder. *)
Lemma every_spec : forall A inc fuel (l : list A), (0 < inc)%nat -> (length l <= fuel)%nat ->
  (forall i, nth_error (every fuel inc l) i = nth_error l (i * inc)) /\ (inc * length (every fuel inc l) < length l + inc)%nat.
Proof.
  intros A inc. induction fuel as [|fuel IH]; intros l I F.
  - destruct l; [|cbn in F; lia]. cbn. split; [intros i; now rewrite !(proj2 (nth_error_None _ _)) by (cbn; lia)|lia].
  - destruct l as [|a l]; [cbn; split; [intros i; now rewrite !(proj2 (nth_error_None _ _)) by (cbn; lia)|lia]|]. cbn [every].
    destruct (IH (skipn inc (a :: l)) I) as [E L]; [rewrite skipn_length; cbn [length] in *; lia|]. split.
    + intros [|i]; [reflexivity|]. change (nth_error (every fuel inc (skipn inc (a :: l))) i = nth_error (a :: l) (inc + i * inc)). rewrite E. clear. generalize (a :: l) as b. revert inc.
      assert (forall n m (b : list A), nth_error (skipn n b) m = nth_error b (n + m)) as K by (induction n as [|n IHn]; intros m [|c b]; cbn; auto; now destruct m). intros inc b. apply K.
    + cbn [length]. rewrite skipn_length in L. set (n := length (every fuel inc (skipn inc (a :: l)))) in *. clearbody n. destruct n as [|n]; cbn [length] in *; [lia|]. assert (inc * S n = inc + inc * n)%nat by lia. assert (inc * S (S n) = inc + inc + inc * n)%nat by lia. lia.
Qed.
Lemma sample_facts : forall (random : bool) draw (k : Z) n (l : list image), (0 < n)%nat -> k = Z.of_nat n ->
  (forall l n, (n <= length l)%nat -> length (draw l n) = n /\ incl (draw l n) l) ->
  (length (sampled random draw k l) <= n)%nat /\ incl (sampled random draw k l) l /\ (l <> [] -> sampled random draw k l <> []) /\ ((length l <= n)%nat -> sampled random draw k l = l) /\
  (random = false -> exists inc, (0 < inc)%nat /\ (forall i, nth_error (sampled random draw k l) i = nth_error l (i * inc)) /\ ((n < length l)%nat -> (n < 2 * length (sampled random draw k l))%nat)).
Proof.
  intros random draw k n l N -> D. unfold sampled. rewrite Nat2Z.id. destruct (Z.leb_spec (Z.of_nat (length l)) (Z.of_nat n)) as [HS|HS].
  - split; [lia|]. split; [apply incl_refl|]. split; [auto|]. split; [reflexivity|]. intros _. exists 1%nat. split; [lia|]. split; [intros i; now rewrite Nat.mul_1_r|]. lia.
  - destruct random.
    + destruct (D l n) as [L I]; [lia|]. split; [lia|]. split; [exact I|]. split; [intros _ E; rewrite E in L; cbn in L; lia|]. split; [lia|discriminate].
    + set (inc := (length l / n + 1)%nat). destruct (every_spec image inc (length l) l) as [E L]; [unfold inc; lia|lia|].
      assert (n * (length l / n) <= length l < n * (length l / n) + n)%nat as DM by (pose proof (Nat.div_mod (length l) n ltac:(lia)); pose proof (Nat.mod_upper_bound (length l) n ltac:(lia)); lia).
      assert (length (every (length l) inc l) <= n)%nat as LE.
      { destruct (Nat.le_gt_cases (length (every (length l) inc l)) n) as [Q|Q]; [exact Q|exfalso]. assert (inc * S n <= inc * length (every (length l) inc l))%nat by (apply Nat.mul_le_mono_l; lia). unfold inc in *. nia. }
      assert (every (length l) inc l <> []) as NE by (destruct l as [|a l]; [cbn in HS; lia|discriminate]).
      split; [exact LE|]. split.
      { intros x I. apply In_nth_error in I as (i & I). rewrite E in I. eapply nth_error_In; exact I. }
      split; [auto|]. split; [lia|]. intros _. exists inc. split; [unfold inc; lia|]. split; [exact E|]. intros _.
      (* the last one taken is followed by less than [inc] images *)
      assert (length l <= inc * length (every (length l) inc l))%nat as C.
      { destruct (Nat.le_gt_cases (length l) (inc * length (every (length l) inc l))) as [Q|Q]; [exact Q|exfalso].
        pose proof (E (length (every (length l) inc l))) as X. rewrite (proj2 (nth_error_None _ _) (le_n _)) in X. symmetry in X. apply nth_error_None in X. rewrite Nat.mul_comm in X. lia. }
      destruct (every (length l) inc l) as [|e es]; [congruence|]. cbn [length] in *. unfold inc in *. nia.
Qed.
Theorem C263_sample : forall (random : bool) draw n (l : list image), (0 < n)%nat ->
  (forall l n, (n <= length l)%nat -> length (draw l n) = n /\ incl (draw l n) l) ->
  (length (sampled random draw (Z.of_nat n) l) <= n)%nat /\ incl (sampled random draw (Z.of_nat n) l) l /\ (l <> [] -> sampled random draw (Z.of_nat n) l <> []) /\
  ((length l <= n)%nat -> sampled random draw (Z.of_nat n) l = l) /\
  (random = false -> exists inc, (0 < inc)%nat /\ (forall i, nth_error (sampled random draw (Z.of_nat n) l) i = nth_error l (i * inc)) /\
     ((n < length l)%nat -> (n < 2 * length (sampled random draw (Z.of_nat n) l))%nat)).
Proof. intros random draw n l N D. now apply (sample_facts random draw (Z.of_nat n) n l). Qed.
Print Assumptions C263_sample.
(** The file of the sample, of four bytes a value, is not larger than 200 Gb (2^30 bytes each). *)
Theorem C263_space : forall (random : bool) draw (l : list image) h w, (0 < h)%nat -> (0 < w)%nat -> (0 < capacity h w 3)%Z ->
  (forall l n, (n <= length l)%nat -> length (draw l n) = n /\ incl (draw l n) l) ->
  (Z.of_nat (length (sampled random draw (capacity h w 3) l)) * Z.of_nat (h * w * 3) * 4 <= 200 * 2 ^ 30)%Z.
Proof.
  intros random draw l h w H W C D. destruct (sample_facts random draw (capacity h w 3) (Z.to_nat (capacity h w 3)) l) as (L & _); [lia|lia|exact D|]. set (len := length (sampled random draw (capacity h w 3) l)) in *. clearbody len.
  assert (0 < h * w * 3)%nat as P by lia. unfold capacity in L. set (v := (h * w * 3)%nat) in *.
  assert (Z.of_nat len <= Qfloor (200 / (q v * 8 / 1073741824)))%Z as F by (unfold capacity in *; fold v in C; lia).
  assert (inject_Z (Z.of_nat len) <= 200 / (q v * 8 / 1073741824)) as G. { eapply Qle_trans; [|apply Qfloor_le]. now rewrite <- Zle_Qle. }
  pose proof (q_gt v P) as QV. assert (inject_Z (Z.of_nat len) * q v * 8 <= 200 * 1073741824) as K.
  { setoid_replace (200 / (q v * 8 / 1073741824)) with (200 * 1073741824 / (q v * 8)) in G by (field; lra).
    apply (Qmult_le_compat_r _ _ (q v * 8)) in G; [|lra]. setoid_replace (200 * 1073741824 / (q v * 8) * (q v * 8)) with (200 * 1073741824) in G by (field; lra). rewrite <- Qmult_assoc. exact G. }
  unfold q in K. change 8 with (inject_Z 8) in K. change (200 * 1073741824) with (inject_Z 214748364800) in K. rewrite <- !inject_Z_mult, <- Zle_Qle in K.
  change (200 * 2 ^ 30)%Z with 214748364800%Z. nia.
Qed.
Print Assumptions C263_space.

(** What is loaded of an image of even sides: the averages of two by two pixels, over 256. *)
Lemma stretch_half : forall n f i, (i < n)%nat -> stretch (2 * n) n f i == (f (2 * i)%nat + f (2 * i + 1)%nat) / 2.
Proof.
  intros n f i I. unfold stretch. assert (0 < q n) as N by (apply q_gt; lia).
  assert (((2 * q i + 1) * q (2 * n) / q n - 1) / 2 == 2 * q i + (1 # 2)) as E.
  { assert (q (2 * n) == 2 * q n) as ->. { unfold q. rewrite Nat2Z.inj_mul, inject_Z_mult. reflexivity. } field. lra. }
  assert (Qfloor (2 * q i + (1 # 2)) = 2 * Z.of_nat i)%Z as F.
  { assert (2 * q i == inject_Z (2 * Z.of_nat i)) as G by (unfold q; rewrite inject_Z_mult; reflexivity). rewrite G.
    pose proof (Qfloor_le (inject_Z (2 * Z.of_nat i) + (1 # 2))) as L. pose proof (Qlt_floor (inject_Z (2 * Z.of_nat i) + (1 # 2))) as U. set (z := Qfloor (inject_Z (2 * Z.of_nat i) + (1 # 2))) in *. clearbody z.
    assert (inject_Z z < inject_Z (2 * Z.of_nat i + 1)) as A by (rewrite inject_Z_plus; change (inject_Z 1) with 1; lra).
    assert (inject_Z (2 * Z.of_nat i) < inject_Z (z + 1)) as B by lra. rewrite <- Zlt_Qlt in A, B. lia. }
  cbv zeta. set (p := ((2 * q i + 1) * q (2 * n) / q n - 1) / 2) in *. assert (Qfloor p = 2 * Z.of_nat i)%Z as -> by (now rewrite E). destruct (Z.ltb_spec (2 * Z.of_nat i) 0); [lia|]. destruct (Z.leb_spec (Z.of_nat (2 * n) - 1) (2 * Z.of_nat i)); [lia|].
  replace (Z.to_nat (2 * Z.of_nat i)) with (2 * i)%nat by lia. replace (S (2 * i)) with (2 * i + 1)%nat by lia.
  assert (inject_Z (2 * Z.of_nat i) == 2 * q i) as G by (unfold q; rewrite inject_Z_mult; reflexivity). rewrite G, E. field.
Qed.
Lemma stretch_ext : forall n m f g i, (0 < n)%nat -> (forall j, (j < n)%nat -> f j == g j) -> stretch n m f i == stretch n m g i.
Proof.
  intros n m f g i N H. unfold stretch. cbv zeta. set (k := Qfloor _). destruct (Z.ltb_spec k 0); [apply H; lia|]. destruct (Z.leb_spec (Z.of_nat n - 1) k); [apply H; lia|].
  rewrite (H (Z.to_nat k)), (H (S (Z.to_nat k))) by lia. reflexivity.
Qed.
Theorem C263_loaded : forall im h w k y x, rows im = (2 * h)%nat -> columns im = (2 * w)%nat -> (y < h)%nat -> (x < w)%nat ->
  loaded h w im k y x * 1024 ==
  inject_Z (level im (2 * y) (2 * x) k + level im (2 * y) (2 * x + 1) k + level im (2 * y + 1) (2 * x) k + level im (2 * y + 1) (2 * x + 1) k).
Proof.
  intros im h w k y x R C Y X. unfold loaded, resize. rewrite R, C, stretch_half by exact Y. rewrite !stretch_half by exact X. rewrite !inject_Z_plus. field.
Qed.
Print Assumptions C263_loaded.
(** The mean and the deviation of the sample, at the small size *)
Theorem C263_statistics : forall root h w sample k y x, sample <> [] ->
  is_mean (map (fun im => loaded h w im k y x) sample) (small_mean h w sample k y x) /\
  exists v, is_variance (map (fun im => loaded h w im k y x) sample) v /\ small_std root h w sample k y x = root v.
Proof.
  intros root h w sample k y x N. destruct (C42_array (map (fun im => loaded h w im k y x) sample)) as [M V]; [now destruct sample|]. split; [exact M|]. eexists. split; [exact V|reflexivity].
Qed.
Print Assumptions C263_statistics.
(** At the full size: between the least and the greatest, and taken at the place with row and column exchanged. *)
Theorem C263_range : forall h w height width a y x lo hi, (0 < h)%nat -> (0 < w)%nat -> (0 < height)%nat -> (0 < width)%nat ->
  (forall r c, (r < h)%nat -> (c < w)%nat -> lo <= a r c /\ a r c <= hi) -> lo <= enlarge h w height width a y x /\ enlarge h w height width a y x <= hi.
Proof.
  intros h w height width a y x lo hi H W HH WW B. unfold enlarge. eapply place_between; [exact H|exact W|now apply resize_place|exact B].
Qed.
Print Assumptions C263_range.
Theorem C263_used : forall h w height width a y x, (0 < h)%nat -> (0 < w)%nat -> (0 < height)%nat -> (0 < width)%nat ->
  at_place h w a (centre h width x) (centre w height y) (enlarge h w height width a y x).
Proof. intros. unfold enlarge. now apply resize_place. Qed.
Print Assumptions C263_used.

(** Where the mean and deviation are the same all over the image, the pixel is brought to brightness 25 and contrast 7. *)
Definition wanted (m s : Q) (level : Z) : Q := (inject_Z level / 256 - m) / s * (7 # 100) + (25 # 100).
Lemma clip_eq : forall x y, x == y -> clip 0 1 x == clip 0 1 y.
Proof. intros x y E. apply Qle_antisym; apply clip_mono; try discriminate; rewrite E; apply Qle_refl. Qed.
Lemma floor_eq : forall x y, x == y -> Qfloor x = Qfloor y.
Proof. intros x y E. now rewrite E. Qed.
Lemma pixel_value : forall m s m' s' l, m == m' -> s == s' -> 0 < s' -> exists v, pixel m s (inject_Z l / 256) = Some v /\ v == clip 0 1 (wanted m' s' l).
Proof.
  intros m s m' s' l M S P. unfold pixel. destruct (Qeq_bool s 0) eqn:Z; [apply Qeq_bool_iff in Z; lra|]. eexists. split; [reflexivity|]. unfold pixel_stat. apply clip_eq.
  unfold stretched, wanted, brightness, contrast. rewrite M, S. field. lra.
Qed.
Lemma uniform_value : forall root h w height width sample im y x k m s, (0 < h)%nat -> (0 < w)%nat -> (0 < height)%nat -> (0 < width)%nat -> 0 < s ->
  (forall r c, (r < h)%nat -> (c < w)%nat -> small_mean h w sample k r c == m /\ small_std root h w sample k r c == s) ->
  corrected root h w height width sample im y x k = Some (Qfloor (clip 0 1 (wanted m s (level im y x k)) * 256) mod 256)%Z.
Proof.
  intros root h w height width sample im y x k m s H W HH WW P U. unfold corrected.
  assert (enlarge h w height width (small_mean h w sample k) y x == m) as M.
  { destruct (C263_range h w height width (small_mean h w sample k) y x m m H W HH WW) as [A B]; [|lra]. intros r c R C. destruct (U r c R C) as [E _]. rewrite E. split; apply Qle_refl. }
  assert (enlarge h w height width (small_std root h w sample k) y x == s) as S.
  { destruct (C263_range h w height width (small_std root h w sample k) y x s s H W HH WW) as [A B]; [|lra]. intros r c R C. destruct (U r c R C) as [_ E]. rewrite E. split; apply Qle_refl. }
  destruct (pixel_value _ _ m s (level im y x k) M S P) as (v & E & V). rewrite E. unfold to_uint8. f_equal. f_equal. apply floor_eq. now rewrite V.
Qed.
Theorem C263_uniform : forall root h w height width sample im y x k m s, (0 < h)%nat -> (0 < w)%nat -> (0 < height)%nat -> (0 < width)%nat -> 0 < s ->
  (forall r c, (r < h)%nat -> (c < w)%nat -> small_mean h w sample k r c == m /\ small_std root h w sample k r c == s) ->
  (wanted m s (level im y x k) <= 0 -> corrected root h w height width sample im y x k = Some 0%Z) /\
  (0 <= wanted m s (level im y x k) -> wanted m s (level im y x k) < 1 -> exists z, corrected root h w height width sample im y x k = Some z /\
     inject_Z z <= 256 * wanted m s (level im y x k) /\ 256 * wanted m s (level im y x k) < inject_Z z + 1).
Proof.
  intros root h w height width sample im y x k m s H W HH WW P U. rewrite (uniform_value root h w height width sample im y x k m s H W HH WW P U). set (u := wanted m s (level im y x k)). split.
  - intros L. assert (clip 0 1 u == 0) as E. { destruct (clip_range 0 1 u) as [A _]; [discriminate|]. pose proof (clip_mono 0 1 u 0 ltac:(discriminate) L) as B. rewrite (clip_id 0 1 0) in B by discriminate. lra. }
    now rewrite (floor_eq _ 0) by (rewrite E; reflexivity).
  - intros L G. rewrite clip_id by lra. pose proof (Qfloor_le (u * 256)) as A. pose proof (Qlt_floor (u * 256)) as B. rewrite inject_Z_plus in B. change (inject_Z 1) with 1 in B.
    set (z := Qfloor (u * 256)) in *. clearbody z. exists z. split; [|split; lra]. f_equal. apply Z.mod_small. split.
    + assert (inject_Z (-1) < inject_Z z) as C by (change (inject_Z (-1)) with (-1); lra). rewrite <- Zlt_Qlt in C. lia.
    + assert (inject_Z z < inject_Z 256) as C by (change (inject_Z 256) with 256; lra). now rewrite <- Zlt_Qlt in C.
Qed.
Print Assumptions C263_uniform.
(** Everywhere: the darker of two images at one pixel does not come out brighter, as long as the brighter is not brought to 1. *)
Theorem C263_order : forall root h w height width sample a b y x k, (0 < enlarge h w height width (small_std root h w sample k) y x) ->
  (level a y x k <= level b y x k)%Z ->
  wanted (enlarge h w height width (small_mean h w sample k) y x) (enlarge h w height width (small_std root h w sample k) y x) (level b y x k) < 1 ->
  exists i j, corrected root h w height width sample a y x k = Some i /\ corrected root h w height width sample b y x k = Some j /\ (0 <= i <= j)%Z /\ (j <= 255)%Z.
Proof.
  intros root h w height width sample a b y x k P L B. unfold corrected. set (m := enlarge h w height width (small_mean h w sample k) y x) in *. set (s := enlarge h w height width (small_std root h w sample k) y x) in *.
  destruct (pixel_value m s m s (level a y x k) (Qeq_refl _) (Qeq_refl _) P) as (u & -> & U). destruct (pixel_value m s m s (level b y x k) (Qeq_refl _) (Qeq_refl _) P) as (v & -> & V).
  unfold to_uint8. eexists. eexists. split; [reflexivity|]. split; [reflexivity|]. rewrite (floor_eq (u * 256) _ ltac:(rewrite U; reflexivity)), (floor_eq (v * 256) _ ltac:(rewrite V; reflexivity)).
  assert (wanted m s (level a y x k) <= wanted m s (level b y x k)) as LE.
  { unfold wanted. apply Qplus_le_compat; [|apply Qle_refl]. apply Qmult_le_compat_r; [|discriminate]. unfold Qdiv. apply Qmult_le_compat_r; [|apply Qlt_le_weak, Qinv_lt_0_compat, P].
    rewrite Zle_Qle in L. apply Qplus_le_compat; [|apply Qle_refl]. apply Qmult_le_compat_r; [exact L|discriminate]. }
  set (p := wanted m s (level a y x k)) in *. set (r := wanted m s (level b y x k)) in *.
  pose proof (clip_mono 0 1 p r ltac:(discriminate) LE) as M. destruct (clip_range 0 1 p) as [A0 _]; [discriminate|].
  assert (clip 0 1 r < 1) as A1. { unfold clip. destruct (Qltb r 0); [reflexivity|]. destruct (Qltb 1 r) eqn:E; [apply Qltb_lt in E; lra|exact B]. }
  assert (forall t : Q, 0 <= t -> t < 1 -> (0 <= Qfloor (t * 256) < 256)%Z) as F.
  { intros t T0 T1. split; [change 0%Z with (Qfloor 0); apply Qfloor_resp_le; lra|]. pose proof (Qfloor_le (t * 256)) as G. assert (inject_Z (Qfloor (t * 256)) < inject_Z 256) as K by (change (inject_Z 256) with 256; lra). now rewrite <- Zlt_Qlt in K. }
  pose proof (F (clip 0 1 p) A0 ltac:(lra)). pose proof (F (clip 0 1 r) ltac:(lra) A1). rewrite !Z.mod_small by assumption.
  assert (Qfloor (clip 0 1 p * 256) <= Qfloor (clip 0 1 r * 256))%Z by (apply Qfloor_resp_le; lra). lia.
Qed.
Print Assumptions C263_order.
(** The script ends without an exception exactly for images with three channels and of one size, at least two by two; and then writes one for each. *)
Lemma capacity_iff : forall h w, (0 < h)%nat -> (0 < w)%nat -> (1 <= capacity h w 3 <-> Z.of_nat (h * w) * 24 <= 200 * 2 ^ 30)%Z.
Proof.
  intros h w H W. unfold capacity. set (v := (h * w * 3)%nat). assert (0 < v)%nat as P by (unfold v; lia). pose proof (q_gt v P) as QV.
  assert (200 / (q v * 8 / 1073741824) == 214748364800 / (q v * 8)) as -> by (field; lra). change (200 * 2 ^ 30)%Z with 214748364800%Z.
  assert (Z.of_nat (h * w) * 24 = Z.of_nat v * 8)%Z as -> by (unfold v; lia). split; intros L.
  - rewrite Zle_Qle. rewrite inject_Z_mult. fold (q v). change (inject_Z 8) with 8. assert (1 <= 214748364800 / (q v * 8)) as G.
    { eapply Qle_trans; [|apply Qfloor_le]. change 1 with (inject_Z 1). now rewrite <- Zle_Qle. }
    apply (Qmult_le_compat_r _ _ (q v * 8)) in G; [|lra]. setoid_replace (214748364800 / (q v * 8) * (q v * 8)) with 214748364800 in G by (field; lra). change (inject_Z 214748364800) with 214748364800. lra.
  - change 1%Z with (Qfloor 1). apply Qfloor_resp_le. apply Qle_shift_div_l; [lra|]. rewrite Zle_Qle, inject_Z_mult in L. fold (q v) in L. change (inject_Z 8) with 8 in L. change (inject_Z 214748364800) with 214748364800 in L. lra.
Qed.
Theorem C263_total : forall root random draw images,
  match run root random draw images with
  | Some outputs => map fst outputs = images
  | None => True
  end /\
  (run root random draw images <> None <-> exists first, hd_error images = Some first /\
     (forall im, In im images -> channels im = Some 3%nat /\ rows im = rows first /\ columns im = columns first) /\
     (2 <= rows first)%nat /\ (2 <= columns first)%nat /\ (Z.of_nat (rows first / 2 * (columns first / 2)) * 24 <= 200 * 2 ^ 30)%Z).
Proof.
  intros root random draw images. unfold run. destruct images as [|first l]; [split; [exact I|]; split; [congruence|intros (f & E & _); discriminate]|].
  set (images := first :: l). cbv zeta. unfold scaled. destruct (forallb _ images && _ && _ && _)%bool eqn:E.
  - split; [rewrite map_map; cbn [fst]; apply map_id|]. split; [intros _|discriminate].
    apply andb_true_iff in E as [E C]. apply andb_true_iff in E as [E W]. apply andb_true_iff in E as [E H]. rewrite forallb_forall in E. apply Nat.leb_le in W, H. apply Z.leb_le in C. exists first. split; [reflexivity|]. split.
    + intros im J. apply E in J. apply andb_true_iff in J as [T S]. unfold three in T. destruct (channels im) as [c|]; [|discriminate]. apply Nat.eqb_eq in T. subst c.
      unfold same_size in S. apply andb_true_iff in S as [R K]. apply Nat.eqb_eq in R, K. now split.
    + assert (forall n, 1 <= n / 2 -> 2 <= n)%nat as K. { intros n N. pose proof (Nat.mul_div_le n 2 ltac:(lia)). lia. }
      split; [now apply K|]. split; [now apply K|]. apply capacity_iff; lia.
  - split; [exact I|]. split; [congruence|]. intros (f & F & A & R & C & S) _. injection F as <-. enough (forallb (fun im => (three im && same_size first im)%bool) images && (1 <=? rows first / 2)%nat && (1 <=? columns first / 2)%nat && (1 <=? capacity (rows first / 2) (columns first / 2) 3)%Z = true)%bool by congruence.
    assert (forall n, 2 <= n -> 1 <= n / 2)%nat as K. { intros n N. now apply (Nat.div_le_mono 2 n 2). }
    pose proof (K _ R). pose proof (K _ C). rewrite !andb_true_iff. split; [split; [split|]|].
    + rewrite forallb_forall. intros im J. destruct (A im J) as (T & R' & C'). unfold three, same_size. rewrite T, R', C', !Nat.eqb_refl. reflexivity.
    + now apply Nat.leb_le.
    + now apply Nat.leb_le.
    + apply Z.leb_le. apply capacity_iff; [lia|lia|exact S].
Qed.
Print Assumptions C263_total.

(** Two images of two by two pixels, of levels 100 and 140 all over: brought to 25/100 less and plus 7/100 of the range. *)
Definition flat (h w : nat) (l : Z) : image := mkimage h w (Some 3%nat) (fun _ _ _ => l).
Definition the_root (v s : Q) : Q -> Q := fun x => if Qeq_bool x v then s else 0.
Example C263_example : match run (the_root ((20 # 256) * (20 # 256)) (20 # 256)) true (fun l n => firstn n l) [flat 2 2 100; flat 2 2 140] with
  | Some outs => map (fun o => snd o 0%nat 1%nat 2%nat) outs = [Some 46%Z; Some 81%Z]
  | None => False
  end.
Proof. vm_compute. reflexivity. Qed.
Example C263_example_capacity : capacity 512 640 3 = 27306%Z.
Proof. reflexivity. Qed.
Example C263_example_every : sampled false (fun l n => firstn n l) 3 [0; 1; 2; 3; 4; 5; 6; 7]%nat = [0; 3; 6]%nat.
Proof. reflexivity. Qed.
Example C263_example_between : let a := fun r c : nat => q (r * 10 + c) in
  resize 2 2 4 4 a 1%nat 2%nat == (5 # 2) + (3 # 4) /\ resize 2 2 4 4 a 0%nat 0%nat == 0 /\ resize 4 4 2 2 a 1%nat 0%nat == 25 + (1 # 2).
Proof. repeat split; reflexivity. Qed.

(** ** C264: what one would expect, and is not so *)
(** "The brighter an image is at a pixel the brighter it comes out": what is brought to 1 becomes 256, which as a byte is 0, black.  A folder with 121 black
    images and one bright: *)
Lemma mean_unique : forall xs m m', xs <> [] -> is_mean xs m -> is_mean xs m' -> m == m'.
Proof.
  intros xs m m' N A B. unfold is_mean in *. apply Qmult_inj_r with (size xs); [|now rewrite A, B]. destruct xs as [|x xs]; [congruence|]. unfold size. cbn [length]. pose proof (StatsProps.q_pos (length xs)) as P. intros E. rewrite E in P. discriminate.
Qed.
Lemma variance_unique : forall xs m v v', xs <> [] -> is_mean xs m -> is_variance xs v -> is_variance xs v' -> v == v'.
Proof.
  intros xs m v v' N M A B. specialize (A m M). specialize (B m M). apply Qmult_inj_r with (size xs); [|now rewrite A, B]. destruct xs as [|x xs]; [congruence|]. unfold size. cbn [length]. pose proof (StatsProps.q_pos (length xs)) as P. intros E. rewrite E in P. discriminate.
Qed.
Lemma total_shift : forall m m' l, m == m' -> total (fun x => (x - m) * (x - m)) l == total (fun x => (x - m') * (x - m')) l.
Proof. intros m m' l E. induction l as [|x l IH]; [reflexivity|]. rewrite !total_cons, IH, E. reflexivity. Qed.
Definition bright_folder : list image := flat 2 2 244 :: repeat (flat 2 2 0) 121.
Lemma loaded_flat : forall l k, loaded 1 1 (flat 2 2 l) k 0%nat 0%nat == inject_Z l / 256.
Proof.
  intros l k. pose proof (C263_loaded (flat 2 2 l) 1 1 k 0 0 eq_refl eq_refl ltac:(lia) ltac:(lia)) as H. cbn [level flat] in H. rewrite !inject_Z_plus in H.
  apply Qmult_inj_r with 1024; [discriminate|]. rewrite H. field.
Qed.
Lemma total_ext : forall A (f : Q -> Q) (g h : A -> Q) l, (forall x, In x l -> f (g x) == f (h x)) -> total f (map g l) == total f (map h l).
Proof. intros A f g h. induction l as [|x l IH]; intros H; [reflexivity|]. cbn [map]. rewrite !total_cons, IH by (intros y I; apply H; now right). rewrite H by now left. reflexivity. Qed.
Lemma bright_stats : forall root k, root = the_root ((22 # 256) * (22 # 256)) (22 # 256) -> forall r c, (r < 1)%nat -> (c < 1)%nat ->
  small_mean 1 1 bright_folder k r c == 2 # 256 /\ small_std root 1 1 bright_folder k r c == 22 # 256.
Proof.
  intros root k -> r c R C. replace r with 0%nat by lia. replace c with 0%nat by lia.
  destruct (C263_statistics (the_root ((22 # 256) * (22 # 256)) (22 # 256)) 1 1 bright_folder k 0 0) as (M & v & V & S); [discriminate|].
  set (xs := map (fun im => loaded 1 1 im k 0%nat 0%nat) bright_folder) in *.
  assert (forall f : Q -> Q, (forall a b, a == b -> f a == f b) -> total f xs == total f ((244 # 256) :: repeat 0 121)) as T.
  { intros f F. unfold xs, bright_folder. cbn [map]. rewrite !total_cons. rewrite (F _ _ (loaded_flat 244 k)). change (inject_Z 244 / 256) with (244 # 256).
    assert (forall n, total f (map (fun im => loaded 1 1 im k 0%nat 0%nat) (repeat (flat 2 2 0) n)) == total f (repeat 0 n)) as ->; [|reflexivity].
    induction n as [|n IH]; [reflexivity|]. cbn [repeat map]. rewrite !total_cons, IH, (F _ _ (loaded_flat 0 k)). rewrite (F (inject_Z 0 / 256) 0) by reflexivity. reflexivity. }
  assert (size xs == 122) as Z by reflexivity.
  assert (is_mean xs (2 # 256)) as M'. { unfold is_mean. rewrite T by auto. rewrite Z. vm_compute. reflexivity. }
  split; [apply (mean_unique xs); [discriminate|exact M|exact M']|]. rewrite S.
  assert (v == (22 # 256) * (22 # 256)) as E.
  { apply (variance_unique xs (2 # 256)); [discriminate|exact M'|exact V|]. intros m Hm. assert (m == 2 # 256) as K by (apply (mean_unique xs); [discriminate|exact Hm|exact M']). rewrite (total_shift _ _ _ K).
    rewrite T by (intros a b ->; reflexivity). rewrite Z. vm_compute. reflexivity. }
  unfold the_root. apply Qeq_bool_iff in E. rewrite E. reflexivity.
Qed.
Theorem C264_white_refuted : exists root images outs, run root true (fun l n => firstn n l) images = Some outs /\
  (forall v, is_variance (map (fun im => inject_Z (level im 0%nat 0%nat 0%nat) / 256) images) v -> 0 < root v /\ root v * root v == v) /\
  exists bright dark fb fd, In (bright, fb) outs /\ In (dark, fd) outs /\ level bright 0%nat 0%nat 0%nat = 244%Z /\ level dark 0%nat 0%nat 0%nat = 0%Z /\
  fb 0%nat 0%nat 0%nat = Some 0%Z /\ fd 0%nat 0%nat 0%nat = Some 62%Z.
Proof.
  set (root := the_root ((22 # 256) * (22 # 256)) (22 # 256)). exists root, bright_folder. eexists. split; [reflexivity|]. split.
  { set (xs := map _ _). intros v V. assert (is_mean xs (2 # 256)) as M by (vm_compute; reflexivity). assert (v == (22 # 256) * (22 # 256)) as E.
    { apply (variance_unique xs (2 # 256)); [discriminate|exact M|exact V|]. intros m Hm. assert (m == 2 # 256) as K by (apply (mean_unique xs); [discriminate|exact Hm|exact M]).
      rewrite (total_shift _ _ _ K). vm_compute. reflexivity. }
    unfold root, the_root. apply Qeq_bool_iff in E as F. rewrite F. split; [reflexivity|]. now rewrite E. }
  exists (flat 2 2 244), (flat 2 2 0). eexists. eexists. split; [left; reflexivity|]. split; [right; left; reflexivity|]. split; [reflexivity|]. split; [reflexivity|].
  assert (sampled true (fun (l : list image) (n : nat) => firstn n l) (capacity 1 1 3) bright_folder = bright_folder) as E by reflexivity.
  pose proof (bright_stats root 0%nat eq_refl) as U. pose proof (fun l => uniform_value root 1 1 2 2 bright_folder (flat 2 2 l) 0 0 0 (2 # 256) (22 # 256) ltac:(lia) ltac:(lia) ltac:(lia) ltac:(lia) ltac:(reflexivity) U) as V.
  change (scaled (rows (flat 2 2 244))) with 1%nat. change (scaled (columns (flat 2 2 244))) with 1%nat. rewrite E. change (rows (flat 2 2 244)) with 2%nat. change (columns (flat 2 2 244)) with 2%nat.
  split; rewrite V; vm_compute; reflexivity.
Qed.
Print Assumptions C264_white_refuted.

(** "A pixel is corrected by the mean of the images at that pixel": by the one at the place with row and column exchanged.  Two square images whose lower halves
    are brighter; the pixel in the upper right corner is treated as if it were below left. *)
Definition halves (upper lower : Z) : image := mkimage 4 4 (Some 3%nat) (fun y _ _ => if (y <? 2)%nat then upper else lower).
Theorem C264_own_mean_refuted : exists root images outs im f, run root true (fun l n => firstn n l) images = Some outs /\ In (im, f) outs /\
  exists m s, is_mean (map (fun im => inject_Z (level im 0%nat 3%nat 0%nat) / 256) images) m /\ 0 < s /\
    is_variance (map (fun im => inject_Z (level im 0%nat 3%nat 0%nat) / 256) images) (s * s) /\ root (s * s) = s /\
    46 <= wanted m s (level im 0%nat 3%nat 0%nat) * 256 /\ f 0%nat 3%nat 0%nat = Some 0%Z.
Proof.
  exists (the_root (1 # 64) (1 # 8)), [halves 0 128; halves 64 192]. eexists. exists (halves 0 128). eexists. split; [reflexivity|]. split; [left; reflexivity|].
  exists (1 # 8), (1 # 8). split; [reflexivity|]. split; [reflexivity|]. split.
  - intros m M. set (xs := map _ _) in *. assert (m == 1 # 8) as K by (apply (mean_unique xs); [discriminate|exact M|reflexivity]).
    rewrite (total_shift _ _ _ K). vm_compute. reflexivity.
  - split; [reflexivity|]. split; [vm_compute; discriminate|]. vm_compute. reflexivity.
Qed.
Print Assumptions C264_own_mean_refuted.
(** "Every folder of images of one size is corrected": not grey ones, nor with a fourth channel; "images of two sizes can be mixed": they cannot; *)
Theorem C264_grey_refuted : exists images, images <> [] /\ (forall im, In im images -> channels im = None /\ rows im = 480%nat /\ columns im = 640%nat) /\ forall root random draw, run root random draw images = None.
Proof.
  exists [mkimage 480 640 None (fun _ _ _ => 7%Z)]. split; [discriminate|]. split; [intros im [<-|[]]; now split|]. intros root random draw. reflexivity.
Qed.
Print Assumptions C264_grey_refuted.
Theorem C264_alpha_refuted : exists images, images <> [] /\ (forall im, In im images -> channels im = Some 4%nat /\ rows im = 480%nat /\ columns im = 640%nat) /\ forall root random draw, run root random draw images = None.
Proof.
  exists [mkimage 480 640 (Some 4%nat) (fun _ _ _ => 7%Z)]. split; [discriminate|]. split; [intros im [<-|[]]; now split|]. intros root random draw. reflexivity.
Qed.
Print Assumptions C264_alpha_refuted.
Theorem C264_sizes_refuted : exists images, images <> [] /\ (forall im, In im images -> channels im = Some 3%nat /\ (2 <= rows im)%nat /\ (2 <= columns im)%nat) /\ forall root random draw, run root random draw images = None.
Proof.
  exists [flat 4 6 9; flat 6 4 9]. split; [discriminate|]. split; [intros im [<-|[<-|[]]]; cbn; repeat split; lia|]. intros root random draw. reflexivity.
Qed.
Print Assumptions C264_sizes_refuted.
(** "Every pixel gets a level": not where all images are alike, such as in a folder with one flat image. *)
Theorem C264_alike_refuted : exists images outs im f,
  run (fun _ => 0) true (fun l n => firstn n l) images = Some outs /\ In (im, f) outs /\
  (forall v, is_variance (map (fun im => inject_Z (level im 0%nat 0%nat 0%nat) / 256) images) v -> v == 0) /\ f 0%nat 0%nat 0%nat = None.
Proof.
  exists [flat 2 2 90; flat 2 2 90]. eexists. exists (flat 2 2 90). eexists. split; [reflexivity|]. split; [left; reflexivity|]. split; [|vm_compute; reflexivity].
  intros v V. specialize (V (90 # 256) ltac:(reflexivity)). unfold size in V. cbn [length map] in V. rewrite !total_cons in V. cbn [level flat] in V. unfold total in V. cbn [fold_right] in V. change (q 2) with 2 in V.
  apply Qmult_inj_r with 2; [discriminate|]. rewrite V. reflexivity.
Qed.
Print Assumptions C264_alike_refuted.
