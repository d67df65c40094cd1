(** auv_cal/laser_calibrator.py:565-590 save_cloud: the text of a point cloud's file.  Numbers are rationals (-0.0 is not modelled). *)
From Coq Require Import Ascii String.
From Verif Require Import PyBase NmeaModel TimeModel BagModel CsvModel SssModel.
From Coq Require Import NArith.
Open Scope Q_scope.
Open Scope list_scope.

Definition point3 := (Q * Q * Q)%type.
(** 575-583: the lines of the literal continue with its indentation *)
Definition indented (s : string) : text := repeat 32%N 18 ++ txt s.
Definition ply_header (n : nat) : list text :=
  [txt "ply"; indented "format ascii 1.0"; indented "element vertex " ++ show (N.of_nat n); indented "property float x"; indented "property float y"; indented "property float z"; indented "end_header"].
(** 590 *)
Definition point_line (p : point3) : text := let '(x, y, z) := p in spaced [fixed 5 x; fixed 5 y; fixed 5 z].
Definition save_cloud (cloud : list point3) : text := flat_map (fun l => l ++ [10%N]) (ply_header (length cloud) ++ map point_line cloud).
