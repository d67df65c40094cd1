(** Model of parse_biocam_images.py:272-386 [correct_timestamps].  A record is a stereo
    pair with the computer and camera timestamps of both cameras, a laser image with
    those of camera 3 (the same camera as camera 2), or something else. *)
From Verif Require Import PyBase.
Open Scope Q_scope.

Inductive frame :=
| StereoFrame (cpu1 cam1 cpu2 cam2 : Q)
| LaserFrame (cpu3 cam3 : Q)
| OtherFrame.

(** The timestamps written back at 368-383: the record's own and its cameras'. *)
Inductive stamped :=
| StampStereo (epoch camera1 camera2 : Q)
| StampLaser (epoch camera3 : Q)
| Untouched.

Section Correct.
  (** scipy.stats.linregress(x, y): slope and intercept, whatever they are. *)
  Variable linregress : list Q -> list Q -> Q * Q.

  (** 279-305: the camera times and offsets (computer minus camera). *)
  Definition cam1_times (l : list frame) : list Q :=
    flat_map (fun f => match f with StereoFrame _ c1 _ _ => [c1] | _ => [] end) l.
  Definition cam1_offsets (l : list frame) : list Q :=
    flat_map (fun f => match f with StereoFrame p1 c1 _ _ => [p1 - c1] | _ => [] end) l.
  Definition cam2_times (l : list frame) : list Q :=
    flat_map (fun f => match f with StereoFrame _ _ _ c2 => [c2] | _ => [] end) l.
  Definition cam2_offsets (l : list frame) : list Q :=
    flat_map (fun f => match f with StereoFrame _ _ p2 c2 => [p2 - c2] | _ => [] end) l.
  Definition cam3_times (l : list frame) : list Q :=
    flat_map (fun f => match f with LaserFrame _ c3 => [c3] | _ => [] end) l.
  Definition cam3_offsets (l : list frame) : list Q :=
    flat_map (fun f => match f with LaserFrame p3 c3 => [p3 - c3] | _ => [] end) l.

  (** np.min of a list, which raises on an empty one. *)
  Fixpoint np_min (l : list Q) : option Q :=
    match l with
    | [] => None
    | x :: l' => match np_min l' with None => Some x | Some y => Some (if Qltb y x then y else x) end
    end.

  (** 313-319 [line_fit]. *)
  Definition line_fit (xs ys : list Q) : option (Q * Q) :=
    let '(m, c) := linregress xs ys in
    match np_min (map (fun p => snd p - m * fst p - c) (combine xs ys)) with
    | None => None
    | Some max_diff => Some (m, c + max_diff)
    end.

  (** 324-330 [predict_cpu_time]. *)
  Definition predict (m c x : Q) : Q := (m + 1) * x + c.

  (** 368-383: [i] and [j] index the predictions. *)
  Fixpoint write_back (p1 p2 p3 : list Q) (i j : nat) (l : list frame) : option (list stamped) :=
    match l with
    | [] => Some []
    | StereoFrame _ _ _ _ :: l' =>
        match nth_error p1 i, nth_error p2 i, write_back p1 p2 p3 (S i) j l' with
        | Some a, Some b, Some r => Some (StampStereo a a b :: r)
        | _, _, _ => None
        end
    | LaserFrame _ _ :: l' =>
        match nth_error p3 j, write_back p1 p2 p3 i (S j) l' with
        | Some a, Some r => Some (StampLaser a a :: r)
        | _, _ => None
        end
    | OtherFrame :: l' =>
        match write_back p1 p2 p3 i j l' with Some r => Some (Untouched :: r) | None => None end
    end.

  (** 321-386; lines 338-345 read elements 1 and -2 of the camera lists and raise an
      IndexError when there are fewer than two. *)
  Definition correct_timestamps (l : list frame) : option (list stamped) :=
    match line_fit (cam1_times l) (cam1_offsets l),
          line_fit (cam2_times l ++ cam3_times l) (cam2_offsets l ++ cam3_offsets l) with
    | Some (m1, c1), Some (m2, c2) =>
        match nth_error (cam1_times l) 1, nth_error (cam2_times l) 1 with
        | Some _, Some _ =>
            write_back (map (predict m1 c1) (cam1_times l)) (map (predict m2 c2) (cam2_times l))
                       (map (predict m2 c2) (cam3_times l)) 0 0 l
        | _, _ => None
        end
    | _, _ => None
    end.
End Correct.
