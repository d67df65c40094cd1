(** auv_cal/laser_calibrator.py:238-317 draw_laser, and its use on the pairs of images (520-562, 1041-1063).

    An image is what there is to draw on after cv2.imread(IMREAD_ANYDEPTH), which gives one channel, resize_with_padding and remap: the value of the
    pixel in a row and column.  Folders are always made; a path is a number.  [near dr dc]: cv2.circle with radius 1 and thickness -1 paints the pixel
    [dr] rows and [dc] columns from the centre.  Pixels outside the image are painted too, but nothing looks at them.  The pairs are drawn in parallel by
    the program; here one after the other. *)
From Verif Require Import PyBase.
From Coq Require Import NArith.
Open Scope Z_scope.

Definition image := Z -> Z -> N.
(** blue, green, red *)
Definition colour : Type := (N * N * N)%type.
Definition overlay := Z -> Z -> colour.
Definition peak : Type := (Q * Q)%type.
(** int(): towards zero *)
Definition py_trunc (x : Q) : Z := Z.quot (Qnum x) (Zpos (Qden x)).

Section Draw.
  Variable near : Z -> Z -> bool.
  (** 307-314: cv2.circle *)
  Definition circle (o : overlay) (p : peak) (k : colour) : overlay :=
    fun r c => if near (r - py_trunc (fst p)) (c - py_trunc (snd p)) then k else o r c.
  (** 286-304: in the green channel of an array of uint8 *)
  Definition green (i : image) : overlay := fun r c => (0%N, (i r c mod 256)%N, 0%N).
  Definition drawn (i : image) (top bottom : list peak) (k kb : colour) : overlay :=
    fold_left (fun o p => circle o p kb) bottom (fold_left (fun o p => circle o p k) top (green i)).

  Definition files := Z -> option overlay.
  Definition put (f : files) (n : Z) (o : overlay) : files := fun m => if m =? n then Some o else f m.
  Record pair := mkpair { l_file : Z; r_file : Z; l_image : image; r_image : image;
                          top_left : list peak; top_right : list peak; bottom_left : list peak; bottom_right : list peak }.
  (** 255-317 *)
  Definition draw_laser (f : files) (p : pair) : files :=
    match f (l_file p), f (r_file p) with
    | Some _, Some _ => f
    | _, _ => put (put f (l_file p) (drawn (l_image p) (top_left p) (bottom_left p) (0, 0, 255)%N (255, 0, 127)%N))
                  (r_file p) (drawn (r_image p) (top_right p) (bottom_right p) (255, 0, 0)%N (0, 255, 127)%N)
    end.
  Definition draw_all (f : files) (ps : list pair) : files := fold_left draw_laser ps f.
End Draw.
