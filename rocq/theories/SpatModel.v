(** Model of the interpolation classes smrf/spatial/idw.py, smrf/spatial/grid.py and
    smrf/spatial/kriging.py.

    Numbers are reals extended with the infinities and NaN that numpy produces from a
    division by a zero distance; rounding and overflow are not modelled.  np.polyfit(z, y, 1)
    is the parameter [fit] on (elevation, value) pairs, slope first; scipy's griddata and
    interpolators and pykrige's OrdinaryKriging are parameters too. *)
From Coq Require Import Reals List Bool.
From Verif Require Import RNum.
Import ListNotations.
Local Open Scope R_scope.

(** ** numpy floats *)
Inductive fl := F (r : R) | PInf | MInf | Nan.
Definition fadd (a b : fl) : fl :=
  match a, b with
  | F x, F y => F (x + y)
  | Nan, _ | _, Nan => Nan
  | PInf, MInf | MInf, PInf => Nan
  | PInf, _ | _, PInf => PInf
  | MInf, _ | _, MInf => MInf
  end.
Definition fmul_r (w : fl) (x : R) : fl :=
  match w with
  | F a => F (a * x)
  | Nan => Nan
  | PInf => if rltb 0 x then PInf else if rltb x 0 then MInf else Nan
  | MInf => if rltb 0 x then MInf else if rltb x 0 then PInf else Nan
  end.
Definition fdiv (a b : fl) : fl :=
  match a, b with
  | Nan, _ | _, Nan => Nan
  | F x, F y => if reqb y 0 then (if rltb 0 x then PInf else if rltb x 0 then MInf else Nan) else F (x / y)
  | F _, _ => F 0
  | PInf, F y => if rltb y 0 then MInf else PInf
  | MInf, F y => if rltb y 0 then PInf else MInf
  | _, _ => Nan
  end.
Definition fsum (l : list fl) : fl := fold_left fadd l (F 0).
(** np.nansum *)
Definition fnansum (l : list fl) : fl :=
  fold_left (fun s x => match x with Nan => s | _ => fadd s x end) l (F 0).
Definition fadd_r (a : fl) (x : R) : fl := fadd a (F x).

(** ** IDW *)
(** calculateDistances, idw.py 54-69, before line 69: one cell *)
Definition distances (sta : list (R * R)) (cell : R * R) : list R :=
  map (fun s => sqrt ((fst cell - fst s) ^ 2 + (snd cell - snd s) ^ 2)) sta.
(** line 69: zeros become the smallest distance of the whole array *)
Fixpoint list_min (l : list R) : option R :=
  match l with
  | [] => None
  | x :: t => match list_min t with None => Some x | Some m => Some (Rmin x m) end
  end.
Definition replace_zeros (d : list (list R)) : list (list R) :=
  match list_min (concat d) with
  | None => d
  | Some m => map (map (fun x => if reqb x 0 then m else x)) d
  end.
(** np.power(d, p) for d >= 0, and calculateWeights, 71-77 *)
Definition fpower (d p : R) : fl :=
  if reqb d 0 then (if reqb p 0 then F 1 else if rltb 0 p then F 0 else PInf) else F (Rpower d p).
Definition weight (p d : R) : fl :=
  match fpower d p with
  | F x => if reqb x 0 then PInf else F (1 / x)
  | _ => F 0
  end.
Definition idw_weights (p : R) (sta cells : list (R * R)) : list (list fl) :=
  map (map (weight p)) (replace_zeros (map (distances sta) cells)).
(** calculateIDW, 82-94: one cell; NaN readings dropped together with their weights *)
Fixpoint reported {A} (w : list A) (data : list rnum) : list (A * R) :=
  match w, data with
  | a :: w', Some x :: data' => (a, x) :: reported w' data'
  | _ :: w', None :: data' => reported w' data'
  | _, _ => []
  end.
Definition idw_cell (w : list fl) (data : list rnum) : fl :=
  let wd := reported w data in
  fdiv (fnansum (map (fun p => fmul_r (fst p) (snd p)) wd)) (fsum (map fst wd)).
Definition calculate_idw (p : R) (sta cells : list (R * R)) (data : list rnum) : list fl :=
  map (fun w => idw_cell w data) (idw_weights p sta cells).

(** ** trends *)
(** the constraint of idw.py 124-128, grid.py 190-194, kriging.py 124-127; [flag] 1, -1 or 0 *)
Inductive sign := Positive | Negative | Any.
Definition constrain (flag : sign) (pv : R * R) : R * R :=
  match flag with
  | Positive => if rltb (fst pv) 0 then (0, 0) else pv
  | Negative => if rltb 0 (fst pv) then (0, 0) else pv
  | Any => pv
  end.
Definition trend (fit : list (R * R) -> R * R) (flag : sign) (mz : list R) (data : list rnum) : R * R :=
  constrain flag (fit (reported mz data)).
(** [data - (mz * pv[0] + pv[1])] *)
Definition detrended (pv : R * R) (mz : list R) (data : list rnum) : list rnum :=
  map2 (fun z x => rlift (fun v => v - (z * fst pv + snd pv)) x) mz data.
Definition retrended (pv : R * R) (v : fl) (gz : R) : fl := fadd_r (fadd_r v (fst pv * gz)) (snd pv).

(** detrendedIDW, 96-110, with zeros=None (no caller passes anything else, image_data.py 235-238) *)
Definition detrended_idw (fit : list (R * R) -> R * R) (flag : sign) (p : R)
    (sta : list (R * R)) (mz : list R) (cells : list (R * R)) (gz : list R) (data : list rnum) : list fl :=
  let pv := trend fit flag mz data in
  map2 (retrended pv) (calculate_idw p sta cells (detrended pv mz data)) gz.

(** ** GRID *)
(** np.argmin(np.abs(x - v)), grid.py 89-90: first position of the smallest distance *)
Fixpoint argmin (v : R) (l : list R) : nat :=
  match l with
  | [] => 0
  | x :: t => match list_min (map (fun y => Rabs (y - v)) t) with
              | None => 0
              | Some m => if rleb (Rabs (x - v)) m then 0 else S (argmin v t)
              end
  end.
(** grid.py 79-94: the mask value of the cell nearest to the station; [mask] by row and column *)
Definition station_mask (mask : nat -> nat -> bool) (xs ys : list R) (s : R * R) : bool :=
  mask (argmin (snd s) ys) (argmin (fst s) xs).

(** detrendedInterpolationMask, 179-212.  [griddata values]: the interpolated grid.  The data
    have no NaN here (np.polyfit would raise).  [mask]: the stations used for the trend. *)
Definition select {A} (m : list bool) (l : list A) : list A :=
  map snd (filter fst (combine m l)).
Definition detrended_grid (fit : list (R * R) -> R * R) (griddata : list R -> list fl) (flag : sign)
    (mask : list bool) (mz : list R) (gz : list R) (data : list R) : list fl :=
  let pv := constrain flag (fit (select mask (combine mz data))) in
  let dtrend := map2 (fun z x => x - (z * fst pv + snd pv)) mz data in
  map2 (retrended pv) (griddata dtrend) gz.

(** detrendedInterpolationLocal, 115-177.  [near i]: the grid_local_n cells closest to cell i,
    closest first (50-72); [interp values]: the interpolator on the triangulation, which only
    returns finite values or NaN.  After dropping duplicates the elevation and data of cell i are
    those of its first neighbour. *)
Definition local_fit (fit : list (R * R) -> R * R) (flag : sign) (near : nat -> list nat)
    (elev data : nat -> R) (i : nat) : R * R :=
  constrain flag (fit (map (fun j => (elev j, data j)) (near i))).
Definition first (near : nat -> list nat) (i : nat) : nat := hd 0%nat (near i).
Definition detrended_local (fit : list (R * R) -> R * R) (interp : list R -> list rnum) (flag : sign)
    (near : nat -> list nat) (n : nat) (elev data : nat -> R) (gz : list R) : list rnum :=
  let lf := local_fit fit flag near elev data in
  let slope := interp (map (fun i => fst (lf i)) (seq 0 n)) in
  let icept := interp (map (fun i => snd (lf i)) (seq 0 n)) in
  let dtrend := map (fun i => let j := first near i in data j - (elev j * fst (lf i) + snd (lf i))) (seq 0 n) in
  map2 (rlift2 Rplus) (map2 (rlift2 Rplus) (interp dtrend) (map2 (fun s z => rlift (fun s => s * z) s) slope gz)) icept.

(** ** KRIGE.calculate, kriging.py 57-104, detrended.  [ok pts values]: pykrige on the reporting
    stations.  detrendData is called without a flag (line 77), so the configured slope constraint
    [flag] plays no part. *)
Definition krige_calculate (fit : list (R * R) -> R * R) (ok : list (R * R) -> list R -> list R) (flag : sign)
    (sta : list (R * R)) (mz : list R) (gz : list R) (data : list rnum) : list R :=
  let pv := trend fit Any mz data in
  let d := reported sta (detrended pv mz data) in
  map2 (fun v z => v + fst pv * z + snd pv) (ok (map fst d) (map snd d)) gz.
