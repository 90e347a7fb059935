(** Model of the time steps of a run and of the tables read from input files:
    smrf/framework/model_framework.py 183-206, smrf/utils/utils.py 470-481, smrf/data/csv.py,
    smrf/data/netcdf.py, smrf/data/wrf.py and smrf/data/input_data.py 70-173.

    Times are integers, in minutes: an instant is counted in UTC, a wall time on the clocks of a
    time zone.  Numbers are exact rationals, [None] is NaN.  What the files contain is given;
    a file's times are distinct and in order (pandas' slices need that). *)
From Coq Require Import List ZArith Bool Arith QArith Qcanon String DecimalString.
From Verif Require Import Num WinsModel StepModel.
Import ListNotations.
Local Open Scope Z_scope.

(** ** Time zones *)
(** A time zone: its offset from UTC at every instant, and the list of the offsets that occur. *)
Record zone := mkZone { z_offset : Z -> Z; z_offsets : list Z }.
Definition wall (z : zone) (u : Z) : Z := u + z_offset z u.

(** pandas' tz_localize with ambiguous='raise', nonexistent='raise', the defaults, as called in
    model_framework.py 195-197 and csv.py 61 and by DatetimeIndex(..., tz=...) in netcdf.py 84-86 *)
Definition tz_localize (z : zone) (w : Z) : res Z :=
  match filter (fun o => z_offset z (w - o) =? o) (z_offsets z) with
  | [o] => Ok (w - o)
  | _ => Err ValueError
  end.

(** date_range, utils.py 470-481: a frequency of minutes counts instants *)
Definition date_range (start stop increment : Z) : list Z :=
  if stop <? start then []
  else map (fun k => start + increment * Z.of_nat k) (seq 0 (Z.to_nat ((stop - start) / increment) + 1)).

(** _setup_date_and_time, model_framework.py 183-206, for the wall times of the configuration.
    UTC is the zone whose offset is always 0. *)
Definition setup_dates (z : zone) (wstart wstop increment : Z) : res (list Z) :=
  bind (tz_localize z wstart) (fun start =>
  bind (tz_localize z wstop) (fun stop => Ok (date_range start stop increment))).

(** ** Tables with named columns *)
Record table (N : Type) := mkTable { t_cols : list N; t_rows : list (Z * list num) }.
Arguments mkTable {N}. Arguments t_cols {N}. Arguments t_rows {N}.

Fixpoint mapM {A B} (f : A -> res B) (l : list A) : res (list B) :=
  match l with
  | [] => Ok []
  | a :: r => bind (f a) (fun b => bind (mapM f r) (fun bs => Ok (b :: bs)))
  end.

(** str.upper, for ASCII letters *)
Definition upper_char (c : Ascii.ascii) : Ascii.ascii :=
  let n := Ascii.nat_of_ascii c in
  if (97 <=? n)%nat && (n <=? 122)%nat then Ascii.ascii_of_nat (n - 32) else c.
Fixpoint upper (s : string) : string :=
  match s with EmptyString => EmptyString | String c r => String (upper_char c) (upper r) end.

(** InputCSV.load for one variable, csv.py 51-76: the file's columns are named as in its header, its rows
    carry wall times.  A table without rows or without columns is empty. *)
Definition keep_cols (keep : string -> bool) (cols : list string) (row : list num) : list num :=
  map snd (filter (fun p => keep (fst p)) (combine cols row)).
Definition csv_load (z : zone) (stations : option (list string)) (start stop : Z) (f : table string) : res (table string) :=
  bind (mapM (fun r => bind (tz_localize z (fst r)) (fun u => Ok (u, snd r))) (t_rows f)) (fun rows => (* 61 *)
  let cols := map upper (t_cols f) in                                                                 (* 62 *)
  let keep c := match stations with None => true | Some l => existsb (String.eqb c) l end in
  let rows := map (fun r => (fst r, keep_cols keep cols (snd r))) rows in                             (* 64-65 *)
  let cols := filter keep cols in
  let rows := slice start stop rows in                                                                (* 68 *)
  match rows, cols with
  | [], _ | _, [] => Err PlainException                                                               (* 70-72 *)
  | _, _ => Ok (mkTable cols rows)
  end).

(** The value a module finds for a station in [self.data.<variable>.loc[t]], model_framework.py 428 on *)
Fixpoint pick {N} (eqb : N -> N -> bool) (s : N) (cols : list N) (row : list num) : res num :=
  match cols, row with
  | c :: cs, x :: xs => if eqb s c then Ok x else pick eqb s cs xs
  | _, _ => Err KeyError
  end.
Definition value {N} (eqb : N -> N -> bool) (d : table N) (t : Z) (s : N) : res num :=
  bind (loc t (t_rows d)) (fun row => pick eqb s (t_cols d) row).

(** ** Gridded files *)
(** metadata_name_from_index, netcdf.py 9-10 *)
Definition decimal (n : nat) : string := NilEmpty.string_of_uint (Nat.to_uint n).
Definition cell_name (c : nat * nat) : string :=
  String.append "grid_y" (String.append (decimal (fst c)) (String.append "_x" (decimal (snd c)))).

(** The coordinates of a netCDF file: one latitude per row and one longitude per column, or both per cell *)
Inductive coords :=
| Lines (lat lon : list num)
| Cells (ny nx : nat) (lat lon : nat -> nat -> num).
Definition ndim (c : coords) : Z := match c with Lines _ _ => 1 | Cells _ _ _ _ => 2 end.

(** netcdf.py 48: [mlat.ndim != 2 & mlon.ndim != 2] is a chain of two comparisons with [2 & mlon.ndim] *)
Definition make_grid (nlat nlon : Z) : bool :=
  let m := Z.land 2 nlon in negb (nlat =? m) && negb (m =? 2).
(** 44-49: rows, columns, latitudes and longitudes of the cells.  One-dimensional coordinates without
    meshgrid, or meshgrid of two-dimensional ones, do not fit the elevation: IndexError at 59. *)
Definition file_cells (c : coords) : res (nat * nat * (nat -> nat -> num) * (nat -> nat -> num)) :=
  match c, make_grid (ndim c) (ndim c) with
  | Lines lat lon, true => Ok (List.length lat, List.length lon, fun i _ => nth i lat None, fun _ j => nth j lon None)
  | Cells ny nx lat lon, false => Ok (ny, nx, lat, lon)
  | _, _ => Err IndexError
  end.

(** bbox = [lonmin, latmin, lonmax, latmax].  52-55; wrf.py 62-65.  A comparison with NaN is false. *)
Record bbox := mkBbox { lonmin : Qc; latmin : Qc; lonmax : Qc; latmax : Qc }.
Definition nle (a b : num) : bool := match a, b with Some x, Some y => Qcleb x y | _, _ => false end.
Definition in_bbox (b : bbox) (lat lon : num) : bool :=
  nle (Some (latmin b)) lat && nle lat (Some (latmax b)) && nle (Some (lonmin b)) lon && nle lon (Some (lonmax b)).

(** np.argwhere(ind), 62: row by row *)
Definition selected (b : bbox) (ny nx : nat) (lat lon : nat -> nat -> num) : list (nat * nat) :=
  filter (fun c => in_bbox b (lat (fst c) (snd c)) (lon (fst c) (snd c))) (list_prod (seq 0 ny) (seq 0 nx)).

(** metadata, 57-79: one row per cell.  [utm]: utm.from_latlon with the topography's zone, utils.py 452-467 *)
Record station := mkStation { s_name : string; s_lat : num; s_lon : num; s_elev : num; s_utm : num * num }.
Definition metadata (utm : num -> num -> num * num) (lat lon elev : nat -> nat -> num) (cells : list (nat * nat)) : list station :=
  map (fun c => let la := lat (fst c) (snd c) in let lo := lon (fst c) (snd c) in
                mkStation (cell_name c) la lo (elev (fst c) (snd c)) (utm la lo)) cells.

(** 95-98: an empty table with the columns [primary_id], filled column by column, [df[g] = ...] *)
Definition set_col (g : string) (series : list num) (cols : list (string * list num)) : list (string * list num) :=
  map (fun p => if String.eqb (fst p) g then (fst p, series) else p) cols.
(** 100-105: [df.replace(fv, np.nan)], if the variable has a fill value *)
Definition drop_fill (fv : option Qc) (x : num) : num :=
  match x, fv with
  | Some v, Some f => if Qceqb v f then None else Some v
  | _, _ => x
  end.
Definition fill_columns (nt : nat) (fv : option Qc) (var : nat -> nat -> nat -> num) (cells : list (nat * nat)) : list (string * list num) :=
  let empty := map (fun c => (cell_name c, repeat (None : num) nt)) cells in
  let df := fold_left (fun df c => set_col (cell_name c) (map (fun k => var k (fst c) (snd c)) (seq 0 nt)) df) cells empty in
  map (fun p => (fst p, map (drop_fill fv) (snd p))) df.

(** 80-86: the time axis.  [t[:].astype(int)] cuts fractions off; [minutes] is the unit of the axis, [origin] its
    zero, a wall time of the model's time zone *)
Definition trunc (q : Q) : Z := Z.quot (Qnum q) (Zpos (Qden q)).
Definition file_time (z : zone) (origin minutes : Z) (v : Q) : res Z := tz_localize z (origin + minutes * trunc v).

(** InputNetcdf.load, 33-110, for one variable, and set_variables, input_data.py 116-126 *)
Definition netcdf_load (z : zone) (b : bbox) (utm : num -> num -> num * num) (c : coords)
    (eny enx : nat) (elev : nat -> nat -> num) (origin minutes : Z) (times : list Q) (fv : option Qc)
    (var : nat -> nat -> nat -> num) (start stop : Z) : res (list station * table string) :=
  bind (file_cells c) (fun g =>
  let '(ny, nx, lat, lon) := g in
  if negb ((eny =? ny)%nat && (enx =? nx)%nat) then Err IndexError else                                (* 59 *)
  let cells := selected b ny nx lat lon in
  bind (mapM (file_time z origin minutes) times) (fun ts =>
  let cols := fill_columns (List.length times) fv var cells in
  let rows := map (fun kt => (snd kt, map (fun p => nth (fst kt) (snd p) None) cols)) (combine (seq 0 (List.length times)) ts) in
  Ok (metadata utm lat lon elev cells, mkTable (map fst cols) (slice start stop rows)))).

(** InputWRF.get_file_times, wrf.py 31-57, and the comparison with the dates of the run, 124-125: times
    without a time zone cannot be compared with times that have one. *)
Definition wrf_time_ind (model_in_utc : bool) (times : list Z) (start stop : Z) : res (list bool) :=
  if model_in_utc then Ok (map (fun t => (start <=? t) && (t <=? stop)) times) else Err TypeError.

(** wrf.py 152: the cloud factor is 1 minus the mean of CLDFRA over the levels (axis 1) *)
Definition qsum (l : list Qc) : Qc := fold_right Qcplus 0%Qc l.
Definition wrf_cloud_factor (cldfra : list Qc) : Qc :=
  (1 - qsum cldfra / Q2Qc (inject_Z (Z.of_nat (List.length cldfra))))%Qc.

(** ** The box around the model domain: model_domain_grid, input_data.py 143-173.  [latlon]: utm.to_latlon in the
    topography's zone, from (x, y) to (latitude, longitude). *)
Definition OFFSET : Qc := Q2Qc (1 # 10).
Definition model_domain_grid (latlon : Qc -> Qc -> Qc * Qc) (xmin xmax ymin ymax : Qc) : bbox :=
  let ur := latlon xmax ymax in
  let ll := latlon xmin ymin in
  mkBbox (snd ll - OFFSET)%Qc (fst ll - OFFSET)%Qc (snd ur + OFFSET)%Qc (fst ur + OFFSET)%Qc.

(** ** Which loader: __determine_data_type, input_data.py 70-114.  [csv] and [gridded]: whether the configuration has
    these sections; [data_type]: of the gridded section. *)
Inductive loader := LCsv | LHrrr | LNetcdf | LWrf.
Inductive choice := Use (l : loader) | AttributeError.
Definition determine_data_type (csv : bool) (gridded : option string) : choice :=
  if csv then Use LCsv
  else match gridded with
       | Some d => if String.eqb d "hrrr_grib" then Use LHrrr
                   else if String.eqb d "netcdf" then Use LNetcdf
                   else if String.eqb d "wrf" then Use LWrf
                   else AttributeError
       | None => AttributeError
       end.
