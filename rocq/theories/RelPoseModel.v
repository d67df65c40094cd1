(** Relative pose uncertainties (auv_nav process with --relative_pose_uncertainty): process.py:94-100, 1323-1373, 1385-1406, 1435-1535, with
    load_states (tools/csv_tools.py:173-206) and write_csv (31-103).  The filter is an argument; its contract is C18.  The files of the
    covariances of the states are read with the states (cells as text, covariances as 36 numbers, row after row).  Reading back the time of a
    row may give another number than the one of the image, so rows have their own times.  Not modelled: plots, the order of the threads
    (each writes its own file), missing files and columns. *)
From Coq Require Import Ascii String.
From Verif Require Import PyBase NmeaModel CsvModel EkfCamModel SortQ.
Open Scope Q_scope.
Open Scope list_scope.

(** A row of the states file and of its covariance file, an image of the laser camera. *)
Record row := mkrow { r_name : text; r_cov_name : text; r_time : Q; r_cells : attrs; r_cov : list Q }.
Record image := mkimg { i_name : text; i_time : Q }.

Inductive outcome (F : Type) := Quits (why : string) | Raises (why : string) | Done (files : F).
Arguments Quits {F}. Arguments Raises {F}. Arguments Done {F}.

(** sorted(set(l)) *)
Fixpoint unique (l : list Q) : list Q :=
  match l with
  | a :: l' => match l' with b :: _ => if Qeq_bool a b then unique l' else a :: unique l' | [] => [a] end
  | [] => []
  end.
Definition sorted_set (l : list Q) : list Q := unique (qsort (fun q => q) l).

(** csv_tools.py:190-203: the attributes that load_states sets; the others keep None. *)
Definition kept : list string :=
  ["filename"; "northings"; "eastings"; "depth"; "roll"; "pitch"; "yaw"; "x_velocity"; "y_velocity"; "z_velocity"; "epoch_timestamp"]%string.
Definition loaded_cells (a : attrs) : attrs := fun k => if existsb (String.eqb k) kept then a k else txt "None".
Definition load_row (r : row) : row := mkrow (r_name r) (r_name r) (r_time r) (loaded_cells (r_cells r)) (r_cov r).

(** process.py:1356-1365 *)
Fixpoint crop (use : bool) (start stop : text) (l : list image) : list image :=
  match l with
  | [] => []
  | i :: l' =>
      let use := (use || text_eqb (i_name i) start)%bool in
      let out := if use then [i] else [] in
      if text_eqb (i_name i) stop then out else out ++ crop use start stop l'
  end.

(** 1447-1451 *)
Definition plus (a b : list Q) : list Q := map (fun p => fst p + snd p) (combine a b).
Definition with_cov (r : row) (c : list Q) : row := mkrow (r_name r) (r_cov_name r) (r_time r) (r_cells r) c.
Definition subtracted (l : list row) : list row :=
  match l with
  | [] => []
  | r0 :: l' => with_cov r0 (map (fun _ => 0) (r_cov r0)) :: map (fun r => with_cov r (plus (r_cov r) (r_cov r0))) l'
  end.

Section Relative.
  (** A state of the filter: time, pose and the first 6x6 entries of its covariance.  [shift] moves a pose from the DVL to the origin of the vehicle
      (localisation/ekf.py:1085-1097). *)
  Variable pose : Type.
  Record state := mkstate { s_time : Q; s_pose : pose; s_cov : list Q }.
  Variable shift : pose -> pose.
  (** The filter: initial state, its time, the end, the initial covariance and the times asked for. *)
  Variable ekf : row -> Q -> Q -> (nat -> nat -> Q) -> list Q -> list state.

  (** 1345-1347: no uncertainty of position and attitude at the start. *)
  Definition known (P : nat -> nat -> Q) : nat -> nat -> Q := fun i j => if ((i <? 6) && (j <? 6))%nat%bool then 0 else P i j.

  (** The rows of the two files; [None]: the file is not written (csv_tools.py:49). *)
  Definition file {A} (l : list A) : option (list A) := if (1 <? length l)%nat then Some l else None.
  Record files := mkfiles { f_subtraction : option (list row); f_propagation : option (list (text * pose * list Q)) }.

  (** [cameras]: how many the mission has; [others]: the times of the images of the other cameras and of the payloads. *)
  Definition relative (start stop : option text) (cameras : nat) (rows : list row) (laser : list image) (others : list Q) (P : nat -> nat -> Q) : outcome files :=
    match start, stop with
    | Some start, Some stop =>
        if (cameras <? 3)%nat then Raises "IndexError" else
        let states := map load_row (load_states r_name start stop rows) in
        match states with
        | [] => Quits "pose not found"
        | s0 :: _ =>
            let cropped := crop false start stop laser in
            match cropped with
            | [] => Quits "cropped list empty"
            | _ =>
                let found := ekf s0 (r_time s0 - (1 # 1000000)) (r_time (last states s0)) (known P) (sorted_set (map i_time laser ++ others)) in
                match update_camera_list image state i_time s_time cropped found with
                | None => Raises "out of fuel"
                | Some pairs =>
                    if (length pairs =? length states)%nat
                    then Done (mkfiles (file (subtracted states)) (file (map (fun p => (i_name (fst p), shift (s_pose (snd p)), s_cov (snd p))) pairs)))
                    else Raises "AssertionError"
                end
            end
        end
    | _, _ => Quits "identifiers needed"
    end.
End Relative.
