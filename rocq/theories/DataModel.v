(** Model of small data-handling functions: smrf/utils/utils.py (set_min_max,
    check_station_colocation, interp_weights, grid_interpolate), smrf/data/input_data.py
    (find_pixel_location), smrf/data/load_topo.py (readImages), smrf/data/wrf.py and
    smrf/data/hrrr_grib.py (precipitation, cloud factor memory),
    smrf/distribute/image_data.py (getStations), smrf/distribute/precipitation.py (restart
    of the storm days, choice of the density pipeline) and
    smrf/framework/model_framework.py (station filter).

    Numbers are exact rationals, NaN is [None]; infinities are not values. *)
From Coq Require Import List Arith Bool ZArith QArith Qcanon.
From Verif Require Import Num.
Import ListNotations.
Local Open Scope Qc_scope.

(** ** set_min_max, utils.py 137-161.  The source works in place and returns its argument;
    the returned list is also the new content of the caller's array. *)
Definition apply_min (lo : option Qc) (x : num) : num :=
  match lo, x with
  | Some l, Some v => if Qcleb v l then Some l else Some v
  | _, _ => x
  end.
Definition apply_max (hi : option Qc) (x : num) : num :=
  match hi, x with
  | Some h, Some v => if Qcleb h v then Some h else Some v
  | _, _ => x
  end.
(** [None] as a bound is an infinite bound (149-152): no number is replaced. *)
Definition set_min_max (data : list num) (lo hi : option Qc) : list num :=
  let ind := map (fun x => match x with None => true | Some _ => false end) data in
  let d1 := map (apply_min lo) data in
  let d2 := map (apply_max hi) d1 in
  map (fun p => if fst p : bool then None else snd p) (combine ind d2).

(** ** find_pixel_location, input_data.py 193-205: [np.argmin(np.abs(vec - row[a]))].
    numpy's argmin returns the first NaN if there is one, else the first minimum, and
    raises on an empty array ([None] here). *)
Definition qabs (x : Qc) : Qc := if Qclt_le_dec x 0 then - x else x.

Fixpoint argmin_from (best : nat) (bv : num) (i : nat) (l : list num) : nat :=
  match l with
  | [] => best
  | x :: t =>
      let better := match bv, x with
                    | None, _ => false
                    | Some _, None => true
                    | Some b, Some v => Qcltb v b
                    end in
      if better then argmin_from i x (S i) t else argmin_from best bv (S i) t
  end.
Definition argmin (l : list num) : option nat :=
  match l with
  | [] => None
  | x :: t => Some (argmin_from 0 x 1 t)
  end.
Definition find_pixel_location (coord : num) (vec : list Qc) : option nat :=
  argmin (map (fun v => match coord with Some c => Some (qabs (v - c)) | None => None end) vec).

(** ** check_station_colocation, utils.py 267-303 (metadata given as a table).
    A row is (primary_id, (xi, yi)). *)
Fixpoint unique (l : list nat) : list nat :=
  match l with
  | [] => []
  | x :: t => x :: filter (fun y => negb (Nat.eqb x y)) (unique t)
  end.
Definition at_pixel {A} (meta : list (A * (nat * nat))) (x y : nat) : list A :=
  map fst (filter (fun r => Nat.eqb (fst (snd r)) x && Nat.eqb (snd (snd r)) y) meta).
Definition check_station_colocation {A} (meta : list (A * (nat * nat))) : option (list (list A)) :=
  let unique_x := unique (map (fun r => fst (snd r)) meta) in
  let unique_y := unique (map (fun r => snd (snd r)) meta) in
  let repeat_sta :=
    flat_map (fun x => flat_map (fun y =>
      let stations := at_pixel meta x y in
      if (1 <? length stations)%nat then [stations] else []) unique_y) unique_x in
  if (length repeat_sta =? 0)%nat then None else Some repeat_sta.

(** ** interp_weights and grid_interpolate, utils.py 377-427.
    Qhull's output is an input of the model: for every target point the three vertex
    numbers of a simplex and its affine transform ([tri.transform]): rows t0, t1 and the
    offset r.  Line 401-404: bary = T (uv - r), last weight 1 - sum. *)
Definition pt := (Qc * Qc)%type.
Record simplex := mkSx { sx_vtx : list nat; sx_t0 : pt; sx_t1 : pt; sx_r : pt }.
Definition interp_weights (s : simplex) (uv : pt) : list Qc :=
  let dx := fst uv - fst (sx_r s) in
  let dy := snd uv - snd (sx_r s) in
  let b0 := fst (sx_t0 s) * dx + snd (sx_t0 s) * dy in
  let b1 := fst (sx_t1 s) * dx + snd (sx_t1 s) * dy in
  [b0; b1; 1 - (b0 + b1)].

(** einsum('nj,nj->n'): NaN times anything is NaN *)
Fixpoint wsum (vals : list num) (wts : list Qc) : num :=
  match vals, wts with
  | v :: vs, w :: ws => nadd (option_map (fun x => x * w) v) (wsum vs ws)
  | _, _ => Some 0
  end.
(** One target point, lines 422-423 (the reshape is not modelled); [fill] is fill_value.
    An index outside the values raises in numpy; the model's [nth] would give NaN. *)
Definition interp_point (values : list num) (vtx : list nat) (wts : list Qc) (fill : num) : num :=
  if existsb (fun w => Qcltb w 0) wts then fill
  else wsum (map (fun k => nth k values None) vtx) wts.
Definition grid_interpolate (values : list num) (vtx : list (list nat)) (wts : list (list Qc))
    (fill : num) : list num :=
  map (fun p => interp_point values (fst p) (snd p) fill) (combine vtx wts).

(** ** Topo.readImages, load_topo.py 96-113.  [file v] is the content of variable v,
    [to_int]/[to_float] the conversions of 109 and 111.  The variable [result] survives from
    one pass of the loop to the next; unset it raises ([None]). *)
Inductive image := Dem | Mask | VegType | VegHeight | VegK | VegTau.
Definition IMAGES : list image := [Dem; Mask; VegType; VegHeight; VegK; VegTau].
Definition is_veg_type (v : image) : bool := match v with VegType => true | _ => false end.
Fixpoint read_images {A} (file : image -> option A) (to_int to_float : A -> A)
    (result : option A) (todo : list image) : option (list (image * A)) :=
  match todo with
  | [] => Some []
  | v :: t =>
      let result := match file v with
                    | Some a => Some (if is_veg_type v then to_int a else to_float a)
                    | None => result
                    end in
      match result with
      | None => None
      | Some r => option_map (cons (v, r)) (read_images file to_int to_float (Some r) t)
      end
  end.
Definition readImages {A} (file : image -> option A) (to_int to_float : A -> A) :=
  read_images file to_int to_float None IMAGES.

(** ** storm_days restart, precipitation.py 133-162.  [times]: the file's time axis,
    [recs]: its storm_days records, [zeros]: the initial grid (127).  [has_var]: the file has
    a storm_days variable.  Negative positions count from the end, as in numpy. *)
Fixpoint where_eq (start : Z) (i : nat) (times : list Z) : list nat :=
  match times with
  | [] => []
  | t :: r => if Z.eqb t start then i :: where_eq start (S i) r else where_eq start (S i) r
  end.
Definition py_nth {A} (l : list A) (i : Z) : option A :=
  if (i <? 0)%Z then nth_error l (Z.to_nat (i + Z.of_nat (length l))) else nth_error l (Z.to_nat i).
Definition storm_days_restart {A} (has_var : bool) (times : list Z) (recs : list A) (zeros : A)
    (start : Z) : option A :=
  if has_var then
    match where_eq start 0 times with
    | [] => Some zeros
    | i :: _ => py_nth recs (Z.of_nat i - 1)
    end
  else Some zeros.

(** ** image_data.getStations, image_data.py 110-125: the new value of [self.stations] and
    the configured list after the call ([list.sort] sorts in place and returns None).
    Station names are numbers ordered as the names are. *)
Fixpoint insert (x : nat) (l : list nat) : list nat :=
  match l with
  | [] => [x]
  | y :: t => if (x <=? y)%nat then x :: l else y :: insert x t
  end.
Fixpoint isort (l : list nat) : list nat :=
  match l with [] => [] | x :: t => insert x (isort t) end.
(** outer option: is there a "stations" key; inner: its value *)
Definition getStations (cfg : option (option (list nat)))
  : option (list nat) * option (option (list nat)) :=
  match cfg with
  | Some (Some l) => (None, Some (Some (isort l)))
  | _ => (None, cfg)
  end.

(** ** station filter, model_framework.py 315-333.  A table is its list of columns (name,
    data).  Variables and modules in the order of MODULE_VARIABLES (input_data.py 35-43). *)
Inductive variable := AirTemp | VaporPressure | Precip | WindSpeed | WindDirection | CloudFactor | Thermal.
Inductive module := MAirTemp | MVaporPressure | MPrecipitation | MWind | MCloudFactor | MThermal.
Definition MODULE_VARIABLES : list (variable * module) :=
  [(AirTemp, MAirTemp); (VaporPressure, MVaporPressure); (Precip, MPrecipitation);
   (WindSpeed, MWind); (WindDirection, MWind); (CloudFactor, MCloudFactor); (Thermal, MThermal)].
Definition var_eqb (a b : variable) : bool :=
  match a, b with
  | AirTemp, AirTemp | VaporPressure, VaporPressure | Precip, Precip | WindSpeed, WindSpeed
  | WindDirection, WindDirection | CloudFactor, CloudFactor | Thermal, Thermal => true
  | _, _ => false
  end.
Definition mod_eqb (a b : module) : bool :=
  match a, b with
  | MAirTemp, MAirTemp | MVaporPressure, MVaporPressure | MPrecipitation, MPrecipitation
  | MWind, MWind | MCloudFactor, MCloudFactor | MThermal, MThermal => true
  | _, _ => false
  end.
Definition table (A : Type) := list (nat * A).
Record loaded (A : Type) := mkLd { ld_table : variable -> option (table A);
                                   ld_stations : module -> option (list nat) }.
Arguments mkLd {A}. Arguments ld_table {A}. Arguments ld_stations {A}.

Definition isin (l : list nat) (c : nat) : bool := existsb (Nat.eqb c) l.
(** one pass of the loop; a missing table reads as an empty one (322) *)
Definition filter_step {A} (s : loaded A) (vm : variable * module) : loaded A :=
  let (v, m) := vm in
  let data := match ld_table s v with Some t => t | None => [] end in
  match ld_stations s m with
  | Some st =>
      let kept := filter (fun c => isin st (fst c)) data in
      mkLd (fun v' => if var_eqb v' v then Some kept else ld_table s v')
           (fun m' => if mod_eqb m' m then Some (map fst kept) else ld_stations s m')
  | None =>
      mkLd (ld_table s)
           (fun m' => if mod_eqb m' m then Some (map fst data) else ld_stations s m')
  end.
Definition load_filter {A} (s : loaded A) : loaded A := fold_left filter_step MODULE_VARIABLES s.

(** ** WRF precipitation, wrf.py 179-180: [diff(axis=0)], then row 0 set to 0.  Rows are time
    steps. *)
Definition nsub (a b : num) : num :=
  match a, b with Some x, Some y => Some (x - y) | _, _ => None end.
Fixpoint diff_rows (prev : list num) (rows : list (list num)) : list (list num) :=
  match rows with
  | [] => []
  | r :: t => map (fun p => nsub (fst p) (snd p)) (combine r prev) :: diff_rows r t
  end.
Definition wrf_precip (rows : list (list num)) : list (list num) :=
  match rows with
  | [] => []
  | r :: t => map (fun _ => Some 0) r :: diff_rows r t
  end.

(** ** HRRR cloud factor memory, hrrr_grib.py 197-221.  One column is a list of values in time
    order.  pandas' [interpolate(method='linear')] fills a NaN between two values linearly in
    position and a NaN after the last value with that value; [ffill] adds nothing to that. *)
Fixpoint prev_valid (l : list num) (i : nat) : option (nat * Qc) :=
  match nth i l None with
  | Some v => Some (i, v)
  | None => match i with O => None | S i' => prev_valid l i' end
  end.
Fixpoint next_valid (l : list num) (i : nat) : option (nat * Qc) :=
  match l with
  | [] => None
  | Some v :: _ => Some (i, v)
  | None :: t => next_valid t (S i)
  end.
Definition qnat (n : nat) : Qc := Q2Qc (inject_Z (Z.of_nat n)).
Definition interp_at (l : list num) (i : nat) : num :=
  match prev_valid l i, next_valid (skipn i l) i with
  | Some (a, va), Some (b, vb) =>
      if Nat.eqb a b then Some va else Some (va + (vb - va) * (qnat (i - a) / qnat (b - a)))
  | Some (_, va), None => Some va
  | None, _ => None
  end.
Definition interpolate (l : list num) : list num := map (interp_at l) (seq 0 (length l)).
(** pandas ffill *)
Fixpoint ffill (last : num) (l : list num) : list num :=
  match l with
  | [] => []
  | x :: t => let y := match x with Some _ => x | None => last end in y :: ffill y t
  end.

(** the loaded frame as a list of columns; [mem] is [cf_memory.tail(1)] of the previous call.
    The result is the new one-row [cloud_factor], one value per column. *)
Definition has_nan (l : list num) : bool := existsb (fun x => match x with None => true | _ => false end) l.
Definition check_cloud_factor (mem : option (list num)) (cols : list (list num)) : list num :=
  let frame :=
    match mem with
    | None => if existsb has_nan cols then map (map (fun _ => Some 1)) cols else cols
    | Some m => map (fun p => fst p :: snd p) (combine m cols)
    end in
  map (fun c => last (ffill None (interpolate c)) None) frame.

(** Successive time steps: 409 of model_framework.py (or load_timestep_thread) calls it once
    per time step with the frame just loaded. *)
Fixpoint cloud_run (mem : option (list num)) (frames : list (list (list num))) : list (list num) :=
  match frames with
  | [] => []
  | f :: t => let out := check_cloud_factor mem f in out :: cloud_run (Some out) t
  end.

(** ** ppt.distribute, precipitation.py 236-325: which density pipeline runs.
    [D]: a row of station data, [S]: the module's state.  [adjust]: adjust_for_undercatch,
    [marks]/[susong]: distribute_for_marks2017 / _susong1999, [drift]: dist_precip_wind applied
    to the state's precipitation, [cold]: [np.any(dpt < 0.5)].  The marks2017 row comes from
    the table prepared by initialize ([corrected]), which is updated in place (278). *)
Record ppt_cfg := mkPpt { c_grid : bool; c_marks : bool; c_under : bool; c_winstral : bool }.
Definition ppt_distribute {D S : Type} (adjust : D -> D) (marks susong : D -> S -> S) (drift : S -> S)
    (c : ppt_cfg) (cold : bool) (corrected data : D) (s : S) : D * S :=
  let corrected' := if negb (c_grid c) && c_marks c && c_under c then adjust corrected else corrected in
  let s1 :=
    if negb (c_grid c) then
      if c_marks c then marks corrected' s
      else if c_under c then susong (adjust data) s
      else s
    else susong data s in
  (corrected', if c_winstral c then (if cold then drift s1 else s1) else s1).
