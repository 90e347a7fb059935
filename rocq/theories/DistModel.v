(** Model of smrf/distribute/image_data.py: from a table of stations and a row of readings to the grid of
    a variable, through smrf/distribute/air_temp.py and cloud_factor.py, which only add the limits.

    Names of stations are numbers.  The row of readings is a pandas Series with one entry per name.  External:
    np.polyfit ([fit]), the detrended kriging of smrf/spatial/dk ([dk], modelled in DkModel.v with its own
    numbers), scipy's griddata and the interpolator on a triangulation ([griddata], [interp]), the grid_local_n
    nearest stations of grid.py 50-72 ([near], positions in the table) and pykrige ([ok]). *)
From Coq Require Import Ascii String Reals List Bool Arith.
From Verif Require Import RNum SpatModel.
Import ListNotations.
Local Open Scope R_scope.

Inductive exc := KeyError | AttributeError | Undetermined | AllMissing | LinAlgError | TypeError.
Inductive res (A : Type) := Ok (a : A) | Err (e : exc).
Arguments Ok {A}. Arguments Err {A}.
Definition bind {A B} (r : res A) (f : A -> res B) : res B := match r with Ok a => f a | Err e => Err e end.

(** The metadata DataFrame: its index and its columns; utm_x with utm_y, or X with Y of old databases, may be
    missing. *)
Record table := mk_table { t_index : list nat; t_utm : option (nat -> R * R); t_old : option (nat -> R * R); t_elev : nat -> R }.
(** The section of the variable.  [c_distribution]: absent for a section without the key.  The other keys are
    filled in from the master configuration. *)
(** grid_method: the three options of the master configuration. *)
Inductive gmethod := Nearest | Linear | Cubic.
Record config := mk_config {
  c_distribution : option string; c_detrend : bool; c_slope : sign; c_power : R;
  c_grid_local : bool; c_grid_mask : bool; c_method : gmethod; c_min : option R; c_max : option R }.
(** What the topography gives: cells with their elevation, grid lines, mask by row and column. *)
Record topo := mk_topo { p_cells : list (R * R); p_gz : list R; p_xs : list R; p_ys : list R; p_mask : nat -> nat -> bool }.

(** The object after initialization *)
Record variable := mk_variable {
  v_config : config; v_topo : topo; v_table : table; v_stations : list nat;
  v_xy : list (R * R); v_mz : list R; v_used : list bool }.

Definition known (d : string) : bool :=
  (String.eqb d "idw" || String.eqb d "dk" || String.eqb d "grid" || String.eqb d "kriging")%bool.
(** _initialize, 127-208.  [stations] is [self.stations] (C48: always None when it is called): 158-163 take the
    rows of the table.  166-171: old names.  GRID.__init__ (grid.py 75-94) builds the mask of the stations; the
    coordinates of the cells and the elevations are passed on as they are. *)
Definition place (t : table) : res (nat -> R * R) :=
  match t_utm t with
  | Some f => Ok f
  | None => match t_old t with Some f => Ok f | None => Err AttributeError end
  end.
Definition rows (stations : option (list nat)) (t : table) : res (list nat) :=
  match stations with
  | None => Ok (t_index t)
  | Some l => if forallb (fun s => existsb (Nat.eqb s) (t_index t)) l then Ok l else Err KeyError
  end.
Definition initialize (c : config) (stations : option (list nat)) (p : topo) (t : table) : res variable :=
  bind (rows stations t) (fun ss =>
  bind (place t) (fun xy =>
  let used := map (fun s => if c_grid_mask c then station_mask (p_mask p) (p_xs p) (p_ys p) (xy s) else true) ss in
  let v := mk_variable c p t ss (map xy ss) (map (t_elev t) ss) used in
  match c_distribution c with
  | None => Ok v
  | Some d => if known d then Ok v else Err Undetermined
  end)).

(** [data[self.stations]], 229 *)
Fixpoint get (row : list (nat * rnum)) (s : nat) : option rnum :=
  match row with
  | [] => None
  | (k, x) :: r => if Nat.eqb k s then Some x else get r s
  end.
Fixpoint pick (row : list (nat * rnum)) (ss : list nat) : res (list rnum) :=
  match ss with
  | [] => Ok []
  | s :: r => match get row s with
              | None => Err KeyError
              | Some x => bind (pick row r) (fun l => Ok (x :: l))
              end
  end.
Definition isnull (x : rnum) : bool := match x with None => true | Some _ => false end.
Definition count_null (l : list rnum) : nat := length (filter isnull l).
Fixpoint full (l : list rnum) : option (list R) :=
  match l with
  | [] => Some []
  | Some x :: r => option_map (cons x) (full r)
  | None :: _ => None
  end.
Definition value (data : list rnum) (j : nat) : rnum := nth j data None.
Definition num (x : rnum) : R := match x with Some v => v | None => 0 end.
Definition to_fl (x : rnum) : fl := match x with Some v => F v | None => Nan end.

Section Dist.
Context (fit : list (R * R) -> R * R)
        (dk : list (R * R) -> list R -> sign -> list rnum -> list fl)
        (griddata : gmethod -> list (R * R) -> list rnum -> list fl)
        (interp : gmethod -> list (R * R) -> list R -> list rnum) (near : list nat -> nat -> list nat)
        (ok : list (R * R) -> list R -> list R).

(** grid.py 96-113, 115-177 and 179-212: np.polyfit raises LinAlgError when a NaN is among its data and
    TypeError without data.  The triangulation (147-150) needs utm_x and utm_y.  utils.py
    430-449: grid_interpolate_deconstructed returns None for the method nearest, which the sum of line 175 does
    not take. *)
Definition grid_mask (v : variable) (data : list rnum) : res (list fl) :=
  let used := select (v_used v) data in
  match used with
  | [] => Err TypeError
  | _ => if forallb (fun x => negb (isnull x)) used
         then let pv := constrain (c_slope (v_config v)) (fit (map (fun q => (fst q, num (snd q))) (select (v_used v) (combine (v_mz v) data)))) in
              let dtrend := map2 (fun z x => rlift (fun a => a - (z * fst pv + snd pv)) x) (v_mz v) data in
              Ok (map2 (retrended pv) (griddata (c_method (v_config v)) (v_xy v) dtrend) (p_gz (v_topo v)))
         else Err LinAlgError
  end.
Definition grid_local (v : variable) (data : list rnum) : res (list fl) :=
  let n := length (v_stations v) in
  let nb := near (v_stations v) in
  if forallb (fun i => forallb (fun j => negb (isnull (value data j))) (nb i)) (seq 0 n)
  then match t_utm (v_table v) with
       | None => Err AttributeError
       | Some utm =>
           match c_method (v_config v) with
           | Nearest => Err TypeError
           | m => Ok (map to_fl (detrended_local fit (interp m (map utm (v_stations v))) (c_slope (v_config v)) nb n
                                   (fun j => nth j (v_mz v) 0) (fun j => num (value data j)) (p_gz (v_topo v))))
           end
       end
  else Err LinAlgError.
(** _distribute, 210-263, before the attribute is set.  kriging.py 57-104. *)
Definition interpolate (v : variable) (row : list (nat * rnum)) : res (list fl) :=
  bind (pick row (v_stations v)) (fun data =>
  if Nat.eqb (count_null data) (length data) then Err AllMissing
  else match c_distribution (v_config v) with
       | None => Err KeyError
       | Some d =>
           let c := v_config v in let p := v_topo v in
           if String.eqb d "idw" then
             Ok (if c_detrend c then detrended_idw fit (c_slope c) (c_power c) (v_xy v) (v_mz v) (p_cells p) (p_gz p) data
                 else calculate_idw (c_power c) (v_xy v) (p_cells p) data)
           else if String.eqb d "dk" then Ok (dk (v_xy v) (v_mz v) (c_slope c) data)
           else if String.eqb d "grid" then
             if c_detrend c then (if c_grid_local c then grid_local v data else grid_mask v data)
             else Ok (griddata (c_method c) (v_xy v) data)
           else Ok (map F (if c_detrend c then krige_calculate fit ok (c_slope c) (v_xy v) (v_mz v) (p_gz p) data
                           else ok (map fst (reported (v_xy v) data)) (map snd (reported (v_xy v) data))))
       end).

(** utils.set_min_max, utils/utils.py 137-161, on one number; no limit is an infinite one (image_data.py
    148-154). *)
Definition limit (lo hi : option R) (x : fl) : fl :=
  let x := match lo, x with
           | Some l, F a => if rleb a l then F l else x
           | Some l, MInf => F l
           | _, _ => x
           end in
  match hi, x with
  | Some h, F a => if rleb h a then F h else x
  | Some h, PInf => F h
  | _, _ => x
  end.
(** ta.distribute, air_temp.py 72-86 (the same in cloud_factor.py 73-86): the attribute before and after, and
    how the call ends. *)
Definition distribute (v : variable) (before : option (list fl)) (row : list (nat * rnum)) : option (list fl) * option exc :=
  match interpolate v row with
  | Ok g => (Some (map (limit (c_min (v_config v)) (c_max (v_config v))) g), None)
  | Err e => (before, Some e)
  end.
End Dist.
