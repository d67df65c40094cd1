(** auv_cal/calibration.py: which files the commands "mono", "stereo" and "laser" read and write (calibrate_mono 71-115, calibrate_stereo
    118-195, calibrate_laser 198-249, Calibrator 263-668).  Detection and solvers are arguments; a solution from fresh detections is that from the
    detections just written (C219).  A file is named by what it holds, which leaves out that names with underscores could coincide;
    entries missing in calibration.yaml are left out. *)
From Coq Require Import Ascii String.
From Verif Require Import PyBase.
Open Scope string_scope.

Definition name := string.
(** 288-290 *)
Definition normal_suffix (s : string) : string :=
  match s with EmptyString => s | String c _ => if Ascii.eqb c "_"%char then s else "_" ++ s end.

Inductive file :=
| MonoYaml (c : name) (suffix : string) | MonoJson (c : name) (suffix : string)
| ResizedYaml (c : name) | ResizedJson (c : name)
| Stereo (l r : name) (suffix : string)
| LaserTop (c : name) (suffix : string) | LaserBottom (c : name) (suffix : string).
Definition file_eqb (a b : file) : bool :=
  match a, b with
  | MonoYaml c s, MonoYaml c' s' | MonoJson c s, MonoJson c' s' | LaserTop c s, LaserTop c' s' | LaserBottom c s, LaserBottom c' s' => ((c =? c') && (s =? s'))%bool
  | ResizedYaml c, ResizedYaml c' | ResizedJson c, ResizedJson c' => c =? c'
  | Stereo l r s, Stereo l' r' s' => ((l =? l') && (r =? r') && (s =? s'))%bool
  | _, _ => false
  end.
Inductive status := Done | Quits | Raises.

Section Run.
  (** Detections of the boards, camera, stereo and laser calibrations *)
  Context {J M S L : Type}.
  Inductive content := Detections (j : J) | Mono (m : M) | Pair (s : S) | Plane (l : L).
  Definition folder := file -> option content.
  Definition write (f : file) (c : content) (fs : folder) : folder := fun g => if file_eqb g f then Some c else fs g.
  Definition there (fs : folder) (f : file) : bool := match fs f with Some _ => true | None => false end.

  (** The raw (false) and the processed (true) folder of a camera: existence, number of images, detections after resizing to a size
      (None: none found, CalibrationException) *)
  Variable has : bool -> name -> bool.
  Variable count : bool -> name -> nat.
  Variable detect : bool -> name -> option (nat * nat) -> option J.
  Variable solve : J -> M.
  Variable size : M -> nat * nat.
  Variable solve_pair : M -> M -> J -> J -> option S.
  (** the same for the images of the laser; [solve_laser]: one or two planes *)
  Variable laser_has : bool -> name -> bool.
  Variable laser_count : bool -> name -> nat.
  Variable solve_laser : S -> bool -> bool -> option (L * option L).
  (** -F and -FF (284-285: the second implies the first), the suffix as typed, the cameras of calibration.yaml *)
  Variables force force2 : bool.
  Variable typed : string.
  Variable cameras : list name.
  Definition fo : bool := (force || force2)%bool.
  Definition suffix : string := normal_suffix typed.

  (** 71-115; [processed]: the folder given is the processed one.  Else, or if it does not exist, the raw one. *)
  Definition chosen (processed : bool) (c : name) : bool := if (processed && has true c)%bool then true else false.
  Definition calibrate_mono (c : name) (processed : bool) (yaml json : file) (target : option (nat * nat)) (fs : folder) : folder * status :=
    let d := chosen processed c in
    if (count d c <? 8)%nat then (fs, Quits)
    else match fs json, force2 with
         | Some (Detections j), false => (write yaml (Mono (solve j)) fs, Done)
         | Some _, false => (fs, Raises)
         | _, _ => match detect d c target with
                   | Some j => (write yaml (Mono (solve j)) (write json (Detections j) fs), Done)
                   | None => (fs, Done)
                   end
         end.
  (** 118-195; the mono calibrations read have no suffix. *)
  Definition finish (out : file) (ml mr : M) (jl jr : J) (fs : folder) : folder * status :=
    match solve_pair ml mr jl jr with Some s => (write out (Pair s) fs, Done) | None => (fs, Done) end.
  Definition same_size (a b : M) : bool := ((fst (size a) =? fst (size b)) && (snd (size a) =? snd (size b)))%nat%bool.
  Definition calibrate_stereo (l : name) (lp : bool) (r : name) (rp : bool) (out : file) (fs : folder) : folder * status :=
    if ((count (chosen lp l) l <? 8) || (count (chosen rp r) r <? 8))%nat%bool then (fs, Quits)
    else match fs (MonoJson l ""), fs (MonoJson r ""), fs (MonoYaml l ""), fs (MonoYaml r "") with
         | Some (Detections jl), Some (Detections jr), Some (Mono ml), Some (Mono mr) =>
             if same_size ml mr then finish out ml mr jl jr fs
             else
               let '(fs, st) := if there fs (ResizedJson r) then (fs, Done)
                                else calibrate_mono r rp (ResizedYaml r) (ResizedJson r) (Some (size ml)) fs in
               match st, fs (ResizedYaml r), fs (ResizedJson r) with
               | Done, Some (Mono mr), Some (Detections jr) => finish out ml mr jl jr fs
               | Done, _, _ => (fs, Raises)
               | st, _, _ => (fs, st)
               end
         | _, _, _, _ => (fs, Raises)
         end.
  (** 318-356 *)
  Fixpoint mono_from (cs : list name) (fs : folder) : folder * status :=
    match cs with
    | [] => (fs, Done)
    | c :: cs =>
        if (there fs (MonoYaml c suffix) && negb fo)%bool then mono_from cs fs
        else match calibrate_mono c true (MonoYaml c suffix) (MonoJson c suffix) None fs with
             | (fs, Done) => mono_from cs fs
             | r => r
             end
    end.
  Definition mono (fs : folder) : folder * status := mono_from cameras fs.
  (** 412-433, 494-515 *)
  Definition ready (l r : name) (fs : folder) : folder * status :=
    if (there fs (MonoYaml l "") && there fs (MonoYaml r ""))%bool then (fs, Done)
    else match suffix with EmptyString => mono fs | _ => (fs, Quits) end.
  (** 358-455 *)
  Definition first_pair (fs : folder) : folder * status :=
    match cameras with
    | c0 :: c1 :: _ =>
        if (there fs (Stereo c0 c1 suffix) && negb fo)%bool then (fs, Quits)
        else match ready c0 c1 fs with
             | (fs, Done) => calibrate_stereo c0 true c1 true (Stereo c0 c1 suffix) fs
             | r => r
             end
    | _ => (fs, Done)
    end.
  (** 456-555: the images of the third camera are looked for in the raw folder (482-484); the other direction is written without a check. *)
  Definition second_pair (fs : folder) : folder * status :=
    match cameras with
    | c0 :: _ :: c2 :: _ =>
        if (there fs (Stereo c0 c2 suffix) && negb fo)%bool then (fs, Quits)
        else match ready c0 c2 fs with
             | (fs, Done) =>
                 match calibrate_stereo c0 true c2 false (Stereo c0 c2 suffix) fs with
                 | (fs, Done) => calibrate_stereo c2 false c0 true (Stereo c2 c0 suffix) fs
                 | r => r
                 end
             | r => r
             end
    | _ => (fs, Done)
    end.
  Definition stereo (fs : folder) : folder * status :=
    match first_pair fs with (fs, Done) => second_pair fs | r => r end.
  (** 557-668, 198-249: planes of the first camera, from the pair of the first two *)
  Definition laser_folder (c : name) : option bool := if laser_has false c then Some false else if laser_has true c then Some true else None.
  Definition laser (fs : folder) : folder * status :=
    match cameras with
    | c0 :: c1 :: _ =>
        if (there fs (LaserTop c0 suffix) && negb fo)%bool then (fs, Quits)
        else
          match (if there fs (Stereo c0 c1 "") then (fs, Done) else match suffix with EmptyString => stereo fs | _ => (fs, Quits) end) with
          | (fs, Done) =>
              match laser_folder c1, laser_folder c0 with
              | Some d1, Some d0 =>
                  if ((laser_count d0 c0 <? 8) || (laser_count d1 c1 <? 8))%nat%bool then (fs, Done)
                  else match fs (Stereo c0 c1 "") with
                       | Some (Pair s) =>
                           match solve_laser s d0 d1 with
                           | None => (fs, Done)
                           | Some (top, bottom) =>
                               let fs := write (LaserTop c0 suffix) (Plane top) fs in
                               (match bottom with Some b => write (LaserBottom c0 suffix) (Plane b) fs | None => fs end, Done)
                           end
                       | _ => (fs, Raises)
                       end
              | _, _ => (fs, Quits)
              end
          | r => r
          end
    | _ => (fs, Raises)
    end.
End Run.
