(** C265/C266: the file of a point cloud. *)
From Coq Require Import Ascii String.
From Verif Require Import PyBase NmeaModel NmeaProofs TimeModel TimeSpec TimeProofs LatlonProps BagModel BagProps CsvModel CsvProps EivaModel EivaProps SssModel SssProps PlyModel.
From Coq Require Import NArith.
Open Scope Q_scope.
Open Scope list_scope.

(** A line without a newline in it *)
Lemma split_file : forall ls, Forall (fun l => ~ In 10%N l) ls -> split 10%N (flat_map (fun l => l ++ [10%N]) ls) = ls ++ [[]].
Proof.
  intros ls H. induction H as [|l ls L H IH]; [reflexivity|]. cbn [flat_map]. rewrite <- app_assoc. cbn [app]. rewrite split_app by exact L. now rewrite IH.
Qed.
Lemma fixed_word : forall n q, word (fixed n q).
Proof. intros n q. destruct (fixed_rounded n q) as (x & S & _). now apply stands_word in S. Qed.
Lemma word_line : forall w, word w -> ~ In 10%N w.
Proof. intros w [_ F] I. rewrite Forall_forall in F. specialize (F 10%N I). discriminate. Qed.
Lemma show_word : forall n, word (show n).
Proof.
  intros n. destruct (show_spec n) as (ds & E & A & _ & N). rewrite E. split; [destruct ds; [congruence|discriminate]|]. now apply digits_nonspace.
Qed.
Lemma header_lines : forall n, Forall (fun l => ~ In 10%N l) (ply_header n).
Proof.
  intros n. assert (forall l, forallb (fun c => negb (N.eqb c 10)) l = true -> ~ In 10%N l) as K.
  { intros l F I. rewrite forallb_forall in F. specialize (F _ I). discriminate. }
  unfold ply_header. repeat (constructor; [first [apply K; reflexivity|intros I; apply in_app_or in I; destruct I as [I|I]; [revert I; apply K; reflexivity|revert I; apply word_line, show_word]]|]). constructor.
Qed.
Lemma point_lines : forall cloud, Forall (fun l => ~ In 10%N l) (map point_line cloud).
Proof.
  intros cloud. apply Forall_forall. intros l I. apply in_map_iff in I. destruct I as ([[x y] z] & <- & _). unfold point_line, spaced. cbn [join]. intros I.
  repeat (apply in_app_or in I; destruct I as [I|I]; [revert I; apply word_line, fixed_word|]; try (destruct I as [I|I]; [discriminate|])). revert I. apply word_line, fixed_word.
Qed.
(** Split into lines and these at blanks, the file says: seven header lines with the number of points, then one line per point, in order, with the coordinates to
    five decimals; and nothing after the last newline. *)
Definition coordinates (line : text) (p : point3) : Prop :=
  let '(x, y, z) := p in exists u v w, words line = [u; v; w] /\ rounded u 5 x /\ rounded v 5 y /\ rounded w 5 z.
Theorem C265_ply : forall cloud, exists header body, split 10%N (save_cloud cloud) = header ++ body ++ [[]] /\
  (exists n ds, map words header = [[txt "ply"]; [txt "format"; txt "ascii"; txt "1.0"]; [txt "element"; txt "vertex"; n]; [txt "property"; txt "float"; txt "x"]; [txt "property"; txt "float"; txt "y"]; [txt "property"; txt "float"; txt "z"]; [txt "end_header"]] /\
     n = spelled ds /\ all_digits ds /\ ds <> [] /\ place_value ds = Z.of_nat (length cloud)) /\
  Forall2 coordinates body cloud.
Proof.
  intros cloud. exists (ply_header (length cloud)), (map point_line cloud). split.
  { unfold save_cloud. rewrite split_file by (apply Forall_app; split; [apply header_lines|apply point_lines]). now rewrite app_assoc. }
  split.
  - destruct (show_spec (N.of_nat (length cloud))) as (ds & E & A & V & N). exists (show (N.of_nat (length cloud))), ds. split; [|rewrite V, nat_N_Z; auto].
    unfold ply_header. cbn [map]. assert (words (indented "element vertex " ++ show (N.of_nat (length cloud))) = [txt "element"; txt "vertex"; show (N.of_nat (length cloud))]) as ->.
    { change (indented "element vertex ") with (repeat 32%N 18 ++ txt "element" ++ [32%N] ++ txt "vertex" ++ [32%N]). rewrite <- !app_assoc. cbn [app]. apply words_written.
      apply (wr_word (repeat 32%N 18) (txt "element") 32%N); [repeat constructor|split; [discriminate|repeat constructor]|reflexivity|]. apply (wr_word [] (txt "vertex") 32%N); [constructor|split; [discriminate|repeat constructor]|reflexivity|].
      apply (wr_last [] (show (N.of_nat (length cloud)))); [constructor|apply show_word]. }
    reflexivity.
  - induction cloud as [|[[x y] z] cloud IH]; [constructor|]. cbn [map]. constructor; [|exact IH]. exists (fixed 5 x), (fixed 5 y), (fixed 5 z). split; [apply words_spaced; repeat (constructor; [apply fixed_word|]); constructor|]. repeat split; apply fixed_rounded.
Qed.
Print Assumptions C265_ply.
Example C265_example_ply : save_cloud [(1 # 2, -3, 4 # 3)] = txt "ply
                  format ascii 1.0
                  element vertex 1
                  property float x
                  property float y
                  property float z
                  end_header
0.50000 -3.00000 1.33333
".
Proof. vm_compute. reflexivity. Qed.

(** "The lines of the header start with their keywords": all but the first start with a blank. *)
Theorem C266_ply_refuted : exists cloud lines, split 10%N (save_cloud cloud) = lines /\ nth_error lines 1 = Some (repeat 32%N 18 ++ txt "format ascii 1.0").
Proof. exists []. eexists. split; [reflexivity|]. vm_compute. reflexivity. Qed.
Print Assumptions C266_ply_refuted.
(** "Different clouds give different files": coordinates nearer than half of 0.00001 do not. *)
Theorem C266_precision_refuted : exists a b, ~ fst (fst a) == fst (fst b) /\ save_cloud [a] = save_cloud [b].
Proof. exists (1, 0, 0), (1 + (1 # 1000000), 0, 0). split; [discriminate|]. vm_compute. reflexivity. Qed.
Print Assumptions C266_precision_refuted.
