(** The tables made of HRRR data: InputGribHRRR.parse_data and calculate_wind, smrf/data/hrrr_grib.py 124-195.
    Reals stand for floats, [None] is NaN.  A table of integers only is one of floats here (with it, the NaN that
    calculate_wind writes into a copy of the air temperature, 179-182, would be a ValueError). *)
From Coq Require Import Reals List Bool ZArith Arith.
From Verif Require Import RNum WinsModel SatModel GridWindModel SolarModel.
Import ListNotations.

(** A DataFrame: the labels of its rows (times, in minutes) and columns (pixels), and its cells by position. *)
Record frame (A : Type) := mkFrame { f_index : list Z; f_cols : list nat; f_cell : nat -> nat -> A }.
Arguments mkFrame {A}. Arguments f_index {A}. Arguments f_cols {A}. Arguments f_cell {A}.
Definition rows {A} (f : frame A) : nat := length (f_index f).
Definition width {A} (f : frame A) : nat := length (f_cols f).

(** The keys of the dictionary that get_saved_data returns, 80-90. *)
Inductive key := AirTemp | Humidity | WindU | WindV | PrecipInt | ShortWave.
Definition keys : list key := [AirTemp; Humidity; WindU; WindV; PrecipInt; ShortWave].

Section Parse.
(** An entry of the library's tables, of dtype object or a number. *)
Variable E : Type.
(** pd.to_numeric of an entry, 134; [None]: an exception *)
Variable numeric : E -> option rnum.
(** tz_localize of a time of the index, 135; [None]: an exception (a time that does not exist or exists twice) *)
Variable zone : Z -> option Z.
(** model_solar at a time and the place of the basin, cloud.py 66-71 (see SunModel) *)
Variable model_solar : Z -> rnum.

Fixpoint all_of {A B} (f : A -> option B) (l : list A) : option (list B) :=
  match l with
  | [] => Some []
  | x :: l' => match f x, all_of f l' with Some y, Some r => Some (y :: r) | _, _ => None end
  end.
Definition is_some {A} (x : option A) : bool := match x with Some _ => true | None => false end.

(** 133-135, one table.  The exceptions are ValueErrors here (a simplification: those of pytz have their own
    classes). *)
Definition convert (f : frame E) : res (frame rnum) :=
  match all_of zone (f_index f) with
  | None => Err ValueError
  | Some idx =>
      if all_cells (rows f) (width f) (fun i j => is_some (numeric (f_cell f i j)))
      then Ok (mkFrame idx (f_cols f) (fun i j => match numeric (f_cell f i j) with Some x => x | None => None end))
      else Err ValueError
  end.
(** 133-135, every table that is there *)
Fixpoint convert_all (data : key -> option (frame E)) (ks : list key) : res (list (key * frame rnum)) :=
  match ks with
  | [] => Ok []
  | k :: ks' =>
      match data k with
      | None => convert_all data ks'
      | Some f => bind (convert f) (fun g => bind (convert_all data ks') (fun r => Ok ((k, g) :: r)))
      end
  end.
Definition key_eqb (a b : key) : bool :=
  match a, b with
  | AirTemp, AirTemp | Humidity, Humidity | WindU, WindU | WindV, WindV | PrecipInt, PrecipInt | ShortWave, ShortWave => true
  | _, _ => false
  end.
(** [data[key]] *)
Definition get (tables : list (key * frame rnum)) (k : key) : res (frame rnum) :=
  match find (fun p => key_eqb (fst p) k) tables with Some p => Ok (snd p) | None => Err KeyError end.

(** ** pd.DataFrame(table, index=idx, columns=cols): reindexing, one axis after the other *)
Fixpoint list_eqb {A} (eqb : A -> A -> bool) (a b : list A) : bool :=
  match a, b with
  | [], [] => true
  | x :: a', y :: b' => eqb x y && list_eqb eqb a' b'
  | _, _ => false
  end.
Fixpoint repeats {A} (eqb : A -> A -> bool) (l : list A) : bool :=
  match l with [] => false | x :: l' => existsb (eqb x) l' || repeats eqb l' end.
Fixpoint find_label {A} (eqb : A -> A -> bool) (x : A) (l : list A) : option nat :=
  match l with [] => None | y :: l' => if eqb x y then Some 0 else option_map S (find_label eqb x l') end.
(** Where the new labels are among the old: an equal axis is kept as it is; otherwise labels that occur twice are
    a ValueError and labels that do not occur have no place. *)
Definition places {A} (eqb : A -> A -> bool) (old new : list A) : res (nat -> option nat) :=
  if list_eqb eqb old new then Ok Some
  else if repeats eqb old then Err ValueError
  else Ok (fun i => match nth_error new i with Some x => find_label eqb x old | None => None end).
Definition reindex (f : frame rnum) (idx : list Z) (cols : list nat) : res (frame rnum) :=
  bind (places Nat.eqb (f_cols f) cols) (fun pc =>
  bind (places Z.eqb (f_index f) idx) (fun pr =>
  Ok (mkFrame idx cols (fun i j => match pr i, pc j with Some i', Some j' => f_cell f i' j' | _, _ => None end)))).

(** ** The vapour pressure, 145-150 *)
(** The cells of a table in the order of [.flat] *)
Definition flat {A} (n m : nat) (cell : nat -> nat -> A) : list A :=
  flat_map (fun i => map (fun j => cell i j) (seq 0 m)) (seq 0 n).
(** [air.values] and [humidity.values] are combined by position.  numpy repeats an axis of length 1; the result
    must have the shape of the air temperature's table.  [rh.flat[0]] of an empty table is an IndexError.  (rh2vp
    takes its flag from the first humidity, which is paired with the first temperature.) *)
Definition stretched (n' n : nat) : bool := (n' =? n)%nat || (n' =? 1)%nat.
Definition at_axis (n' i : nat) : nat := if (n' =? 1)%nat then 0%nat else i.
Definition vapor (air rh : frame rnum) : res (frame rnum) :=
  if (rows rh =? 0)%nat || (width rh =? 0)%nat then Err IndexError
  else if stretched (rows rh) (rows air) && stretched (width rh) (width air) then
    let vp := rh2vp (flat (rows air) (width air) (fun i j =>
                (f_cell air i j, f_cell rh (at_axis (rows rh) i) (at_axis (width rh) j)))) in
    Ok (mkFrame (f_index air) (f_cols air) (fun i j => nth (i * width air + j) vp None))
  else Err ValueError.

(** ** calculate_wind, 167-195 *)
(** The components have the same labels (the simplification: otherwise versions of pandas differ, and here it is a
    ValueError). *)
Definition same_labels (u v : frame rnum) : bool :=
  list_eqb Z.eqb (f_index u) (f_index v) && list_eqb Nat.eqb (f_cols u) (f_cols v).
Definition calculate_wind (load_wind : bool) (tables : list (key * frame rnum)) (air : frame rnum)
  : res (frame rnum * frame rnum) :=
  if load_wind then
    bind (get tables WindU) (fun u => bind (get tables WindV) (fun v =>
    if same_labels u v then
      let both (f : R -> R -> R) := mkFrame (f_index u) (f_cols u) (fun i j => rlift2 f (f_cell u i j) (f_cell v i j)) in
      bind (reindex (both grid_speed) (f_index air) (f_cols air)) (fun s =>
      bind (reindex (both grid_direction) (f_index air) (f_cols air)) (fun d => Ok (s, d)))
    else Err ValueError))
  else
    let nan := mkFrame (f_index air) (f_cols air) (fun _ _ => None) in Ok (nan, nan).

(** ** get_hrrr_cloud, cloud.py 48-88: column by column *)
Definition cloud (solar : frame rnum) : frame rnum :=
  mkFrame (f_index solar) (f_cols solar) (fun i j =>
    nth i (hrrr_cloud (map (fun i' => f_cell solar i' j) (seq 0 (rows solar))) (map model_solar (f_index solar))) None).

(** ** parse_data, 124-165 *)
Record tables := mkTables {
  t_air : frame rnum; t_vapor : frame rnum; t_speed : frame rnum; t_direction : frame rnum;
  t_precip : frame rnum; t_cloud : frame rnum }.
Definition parse_data (load_wind : bool) (data : key -> option (frame E)) : res tables :=
  bind (convert_all data keys) (fun ts =>
  bind (get ts AirTemp) (fun air =>
  bind (get ts Humidity) (fun rh =>
  bind (vapor air rh) (fun vp =>
  bind (calculate_wind load_wind ts air) (fun w =>
  bind (get ts PrecipInt) (fun p =>
  bind (reindex p (f_index air) (f_cols air)) (fun precip =>
  bind (get ts ShortWave) (fun s =>
  bind (reindex s (f_index air) (f_cols air)) (fun solar =>
  Ok (mkTables air vp (fst w) (snd w) precip (cloud solar))))))))))).
End Parse.
