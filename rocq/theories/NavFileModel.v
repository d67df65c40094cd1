(** scripts/simplify_nav_file.py, scripts/generate_nav_file_for_squidle.py and scripts/image_acquisition_stats.py.  A table has the path and the
    cells of each row by their headers; missing columns and NaN are left out, as are thumbnails (only counted for the console). *)
From Coq Require Import Ascii String Qround Qminmax.
From Verif Require Import PyBase NmeaModel CsvModel FilesModel CamSysModel.
Open Scope list_scope.

Record row := mkrow { r_path : text; r_cell : string -> Q }.
Definition TIME : string := "timestamp [s]".
Definition LAT : string := "latitude [deg]".
Definition LON : string := "longitude [deg]".
Definition PNG : text := [46; 112; 110; 103]%N.
Definition JPG : text := [46; 106; 112; 103]%N.
Inductive outcome := Message | Written (rows : list (text * list Q)).

Section Sort.
  (** df.sort_values(by="timestamp [s]"): pandas' default is not stable, so only its contract is used. *)
  Variable sort : list row -> list row.

  (** simplify_nav_file.py:116-148 *)
  Definition simple_columns (short long : bool) : list string :=
    if short then [LAT; LON]
    else if long then [TIME; LAT; LON; "depth [m]"; "altitude [m]"; "roll [deg]"; "pitch [deg]"; "heading [deg]"; "northing [m]"; "easting [m]"]%string
    else [TIME; LAT; LON; "depth [m]"; "altitude [m]"; "roll [deg]"; "pitch [deg]"; "heading [deg]"]%string.
  Definition write_rows (filename : row -> text) (columns : list string) (rows : list row) : outcome :=
    Written (map (fun r => (filename r, map (r_cell r) columns)) (sort rows)).
  (** 43-154; [folder]: the names in the image folder, if one is given; [nav]: the table, if the file exists *)
  Definition simplify (short long out_exists force : bool) (nav : option (list row)) (folder : option (list text)) : outcome :=
    if (short && long)%bool then Message
    else if (out_exists && negb force)%bool then Message
    else match nav with
         | None | Some [] => Message
         | Some rows =>
             match folder with
             | None => write_rows (fun r => name (r_path r)) (simple_columns short long) rows
             | Some names =>
                 let png := filter (ends_with PNG) names in
                 let jpg := filter (ends_with JPG) names in
                 match png, jpg with
                 | [], [] | _ :: _, _ :: _ => Message
                 | _, _ =>
                     let ext := match jpg with [] => PNG | _ => JPG end in
                     let filename r := stem (r_path r) ++ ext in
                     match filter (fun r => text_in (filename r) (filter (ends_with ext) names)) rows with
                     | [] => Message
                     | rows => write_rows filename (simple_columns short long) rows
                     end
                 end
             end
         end.

  (** generate_nav_file_for_squidle.py:93-127: the columns written, with those they are renamed from; timestamp_start is the time in another form (91) *)
  Definition squidle_columns : list (string * string) :=
    [("pose.lat", LAT); ("pose.lon", LON); ("pose.dep", "depth [m]"); ("pose.alt", "altitude [m]"); ("timestamp_start", TIME);
     ("pose.data.northing_m", "northing [m]"); ("pose.data.easting_m", "easting [m]"); ("pose.data.roll", "roll [deg]");
     ("pose.data.pitch", "pitch [deg]"); ("pose.data.heading", "heading [deg]")]%string.
  (** 37-127 *)
  Definition squidle (out_exists force : bool) (nav : option (list row)) (names : list text) : outcome :=
    if (out_exists && negb force)%bool then Message
    else match nav with
         | None | Some [] => Message
         | Some rows =>
             let png := filter (ends_with PNG) names in
             let jpg := filter (ends_with JPG) names in
             match png, jpg with
             | [], [] | _ :: _, _ :: _ => Message
             | _, _ =>
                 let '(images, ext) := match png with _ :: _ => (png, PNG) | [] => (jpg, JPG) end in
                 match filter (fun r => text_in (stem (r_path r) ++ ext) images) rows with
                 | [] => Message
                 | rows => write_rows (fun r => stem (r_path r)) (map snd squidle_columns) rows
                 end
             end
         end.
End Sort.

(** simplify_nav_file.py:33-40: the two numbers printed *)
Definition deg_min (deg : Q) : Z * Q :=
  let sign := if Qle_bool 0 deg then 1%Z else (-1)%Z in
  let deg := (deg * inject_Z sign)%Q in
  let d := Qfloor deg in
  ((sign * d)%Z, (inject_Z sign * (deg - inject_Z d) * 60)%Q).
(** 156-162: north, south, east, west *)
Definition greatest (x : Q) (l : list Q) : Q := fold_left Qmax l x.
Definition least (x : Q) (l : list Q) : Q := fold_left Qmin l x.
Definition box (r : row) (rs : list row) : Q * Q * Q * Q :=
  (greatest (r_cell r LAT) (map (fun r => r_cell r LAT) rs), least (r_cell r LAT) (map (fun r => r_cell r LAT) rs),
   greatest (r_cell r LON) (map (fun r => r_cell r LON) rs), least (r_cell r LON) (map (fun r => r_cell r LON) rs)).

(** image_acquisition_stats.py, over the reals: images by time, northing, easting, altitude *)
From Coq Require Import Reals Lra.
Open Scope R_scope.
Record image := mkimage { i_t : R; i_n : R; i_e : R; i_alt : R }.
Definition Rleb (a b : R) : bool := if Rle_dec a b then true else false.
Definition Rltb (a b : R) : bool := if Rlt_dec a b then true else false.
(** 59-62 *)
Definition window (start stop : option R) (l : list image) : list image :=
  let l := match start with Some s => filter (fun i => Rleb s (i_t i)) l | None => l end in
  match stop with Some e => filter (fun i => Rleb (i_t i) e) l | None => l end.
(** 68 *)
Definition bottom (thr : R) (l : list image) : list image := filter (fun i => Rltb (i_alt i) thr) l.
Definition latest (x : R) (l : list R) : R := fold_left Rmax l x.
Definition earliest (x : R) (l : list R) : R := fold_left Rmin l x.
(** 85-95: differences to the row before, of the rows at the bottom *)
Definition step (a b : image) : R := sqrt ((i_n b - i_n a) ^ 2 + (i_e b - i_e a) ^ 2).
Fixpoint travelled (l : list image) : R := match l with a :: ((b :: _) as r) => step a b + travelled r | _ => 0 end.
Fixpoint covered (tan_half : R) (l : list image) : R := match l with a :: ((b :: _) as r) => step a b * i_alt b * tan_half * 2 + covered tan_half r | _ => 0 end.
Record stats := mkstats { s_count : nat; s_altitude : R; s_distance : R; s_area : R; s_time : R; s_images : nat }.
(** 59-127; [alpha] in degrees; None: a message *)
Definition acquisition (start stop : option R) (thr alpha : R) (l : list image) : option stats :=
  let l := window start stop l in
  match bottom thr l with
  | [] => None
  | i :: b =>
      let first := earliest (i_t i) (map i_t b) in
      let last := latest (i_t i) (map i_t b) in
      Some (mkstats (length (i :: b)) (fold_right Rplus 0 (map i_alt (i :: b)) / INR (length (i :: b)))
              (travelled (i :: b)) (covered (tan (alpha / 2 * PI / 180)) (i :: b)) (last - first)
              (length (filter (fun j => (Rleb first (i_t j) && Rleb (i_t j) last)%bool) l)))
  end.
(** 122-123, divmod: hours, minutes, seconds *)
Definition divmod60 (x : R) : Z * R := let q := Int_part (x / 60) in (q, x - 60 * IZR q).
Definition clock (t : R) : Z * Z * R := let '(m, s) := divmod60 t in ((m / 60)%Z, (m mod 60)%Z, s).
