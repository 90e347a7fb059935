(** Model of DK, smrf/spatial/dk/dk.py: detrended kriging on top of the C solver.

    Station and grid coordinates enter only through distances, which are given as functions
    (the square roots of lines 113-114 and 123 are not modelled); elevations and data are
    exact rationals; a NaN reading is [None].  np.polyfit(z, y, 1) is the parameter [fit],
    with the slope first. *)
From Coq Require Import List Arith Bool QArith Qcanon.
From Verif Require Import Num KrigeModel.
Import ListNotations.
Local Open Scope Qc_scope.

(** DK.__init__, 20-60: [mz], the distances, [GridZ] flattened to a list of cells, and
    config['detrend_slope'] *)
Record dk := mkDk { dk_mz : list Qc; dk_sdist : nat -> nat -> Qc; dk_gdist : nat -> nat -> Qc;
                    dk_gz : list Qc; dk_slope : Z; dk_fit : list Qc -> list Qc -> Qc * Qc }.
(** the attributes nan_val and weights *)
Record dk_state := mkDkState { st_nan : list bool; st_weights : list (list Qc) }.
Definition dk_init : dk_state := mkDkState [] [].

(** pd.isnull, 74 *)
Definition isnull (data : list num) : list bool := map (fun x => match x with None => true | Some _ => false end) data.
(** the positions selected by [~nan_val] *)
Fixpoint kept_from (i : nat) (nan : list bool) : list nat :=
  match nan with
  | [] => []
  | true :: t => kept_from (S i) t
  | false :: t => i :: kept_from (S i) t
  end.
Definition kept (nan : list bool) : list nat := kept_from 0 nan.
(** [mz[~nan_val]] *)
Definition select_nan {A} (nan : list bool) (l : list A) : list A :=
  map snd (filter (fun p => negb (fst p)) (combine nan l)).
(** [data[~nan_val]] as numbers *)
Fixpoint values (data : list num) : list Qc :=
  match data with
  | [] => []
  | None :: t => values t
  | Some x :: t => x :: values t
  end.

(** calculateWeights, 98-137.  [None]: the process has exited inside krige. *)
Definition dk_weights (k : dk) (nan : list bool) : option (list (list Qc)) :=
  let idx := kept nan in
  let nsta := length idx in
  let at_ i := nth i idx 0%nat in
  let ad := fun i j => if Nat.ltb i j then dk_sdist k (at_ i) (at_ j)
                       else if Nat.ltb j i then dk_sdist k (at_ j) (at_ i) else 0 in
  let dgrid := map (fun c i => dk_gdist k c (at_ i)) (seq 0 (length (dk_gz k))) in
  let mz := select_nan nan (dk_mz k) in
  krige_grid nsta ad dgrid (fun i => nth i mz 0).

(** detrendData, 139-160: the trend kept in [pv] *)
Definition constrain (flag : Z) (pv : Qc * Qc) : Qc * Qc :=
  if (Z.eqb flag 1 && Qcltb (fst pv) 0)%bool then (0, 0)
  else if (Z.eqb flag (-1) && Qcltb 0 (fst pv))%bool then (0, 0) else pv.
Definition dk_trend (k : dk) (nan : list bool) (data : list num) : Qc * Qc :=
  constrain (dk_slope k) (dk_fit k (select_nan nan (dk_mz k)) (values data)).
Definition residuals (pv : Qc * Qc) (z y : list Qc) : list Qc :=
  map (fun p => snd p - (fst p * fst pv + snd pv)) (combine z y).
(** [np.nansum(weights * residuals, 2)], 91 *)
Definition dot (w r : list Qc) : Qc := fold_right (fun p s => fst p * snd p + s) 0 (combine w r).
(** retrendData, 162-168 *)
Definition retrend (pv : Qc * Qc) (r gz : Qc) : Qc := r + fst pv * gz + snd pv.

Definition bools_eqb (a b : list bool) : bool := if list_eq_dec Bool.bool_dec a b then true else false.

(** calculate, 62-96 *)
Definition dk_calculate (k : dk) (s : dk_state) (data : list num) : option (dk_state * list Qc) :=
  let nan := isnull data in
  match (if bools_eqb nan (st_nan s) then Some s
         else option_map (mkDkState nan) (dk_weights k nan)) with
  | None => None
  | Some s' =>
      let pv := dk_trend k (st_nan s') data in
      let res := residuals pv (select_nan (st_nan s') (dk_mz k)) (values data) in
      let r := map (fun w => dot w res) (st_weights s') in
      Some (s', map (fun p => retrend pv (fst p) (snd p)) (combine r (dk_gz k)))
  end.

(** a history of calls on one object *)
Fixpoint dk_run (k : dk) (s : dk_state) (hist : list (list num)) : option dk_state :=
  match hist with
  | [] => Some s
  | d :: t => match dk_calculate k s d with None => None | Some (s', _) => dk_run k s' t end
  end.

(** image_data.getStations, smrf/distribute/image_data.py 109-125: [list.sort()] sorts in
    place and returns None.  The second component is the configuration afterwards. *)
Section Stations.
  Context {A : Type} (sort : list A -> list A).
  Definition get_stations (config : option (option (list A))) : option (list A) * option (option (list A)) :=
    match config with
    | Some (Some l) => (None, Some (Some (sort l)))
    | c => (None, c)
    end.
  (** image_data._initialize, 158-163: the stations of the variable, given those of the metadata *)
  Definition initialize_stations (stations : option (list A)) (metadata : list A) : list A :=
    match stations with Some l => l | None => metadata end.
End Stations.
