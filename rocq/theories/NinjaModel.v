(** Model of smrf/distribute/wind/wind_ninja.py: wind fields read from WindNinja files.
    Reals stand for floats, [None] is NaN.  The grid of the model has [ny] rows and [nx]
    columns with coordinates [ys] (by row) and [xs] (by column), load_topo.py 63-65.  What
    np.loadtxt reads from a file is given. *)
From Coq Require Import Reals List Bool Arith ZArith.
From Verif Require Import RNum RTrig WinsModel.
Import ListNotations.
Local Open Scope R_scope.

Definition isnan (a : rnum) : bool := match a with None => true | Some _ => false end.

(** scipy's interp1d, linear with extrapolation, as called in interpx, 12-24: the points are
    sorted by argsort(kind='mergesort'); searchsorted counts the points below [x] and is
    clipped to 1 .. len - 1; fewer than two points are a ValueError (see fill_data). *)
Fixpoint insert (p : R * rnum) (l : list (R * rnum)) : list (R * rnum) :=
  match l with
  | [] => [p]
  | q :: l' => if rleb (fst p) (fst q) then p :: l else q :: insert p l'
  end.
Definition sort (l : list (R * rnum)) : list (R * rnum) := fold_right insert [] l.
Definition searchsorted (l : list (R * rnum)) (x : R) : nat := length (filter (fun p => rltb (fst p) x) l).
Definition line (p q : R * rnum) (x : R) : rnum :=
  rlift2 (fun yp yq => (yq - yp) / (fst q - fst p) * (x - fst p) + yp) (snd p) (snd q).
Definition interpx (points : list (R * rnum)) (x : R) : rnum :=
  let l := sort points in
  let i := Nat.min (Nat.max (searchsorted l x) 1) (length l - 1) in
  line (nth (i - 1) l (0, None)) (nth i l (0, None)) x.

(** fill_data, 245-288.  [g_vel[:, ix+1]] outside the grid is an IndexError (265), as is the
    first row of an empty grid.  Slices stop at the edges of the array: columns ix .. ix+9
    and rows ny-iy-10 .. ny-iy-1.  The array is changed in place and returned. *)
Definition count (n : nat) (p : nat -> bool) : nat := length (filter p (seq 0 n)).
Definition fill_left (nx : nat) (xs : nat -> R) (ix : nat) (g : grid rnum) : grid rnum :=      (* 268-274 *)
  fun i j => if (j <? ix)%nat
             then interpx (map (fun k => (xs k, g i k)) (seq ix (Nat.min 10 (nx - ix)))) (xs j)
             else g i j.
Definition fill_bottom (ny : nat) (ys : nat -> R) (iy : nat) (g : grid rnum) : grid rnum :=    (* 277-283 *)
  fun i j => if (ny - iy <=? i)%nat
             then interpx (map (fun k => (ys k, g k j)) (seq (ny - iy - 10) (ny - iy - (ny - iy - 10)))) (ys i)
             else g i j.
Definition fill_data (ny nx : nat) (xs ys : nat -> R) (g : grid rnum) : res (grid rnum) :=
  let ix := count nx (fun j => isnan (g 0%nat j)) in                                           (* 264 *)
  if (ny =? 0)%nat || (nx <=? ix + 1)%nat then Err IndexError
  else
    let iy := count ny (fun i => isnan (g i (ix + 1)%nat)) in                                  (* 265 *)
    let g := if (0 <? ix)%nat then fill_left nx xs ix g else g in
    if (0 <? iy)%nat && (ny - iy <? 2)%nat then Err ValueError
    else
      let g := if (0 <? iy)%nat then fill_bottom ny ys iy g else g in
      if all_cells ny nx (fun i j => negb (isnan (g i j))) then Ok g else Err ValueError.      (* 285-286 *)

(** utils.grid_interpolate, utils.py 407-427, for one model cell with the vertices and
    weights of its triangle *)
Definition weighted (values : nat -> rnum) (tri : list (nat * R)) : rnum :=
  if existsb (fun vw => rltb (snd vw) 0) tri then None
  else fold_right (fun vw s => rlift2 Rplus (rlift (fun v => v * snd vw) (values (fst vw))) s) (Some 0) tri.

(** The roughness of the vegetation and the factor of the logarithmic law, initialize 129-142 *)
Definition veg_roughness (height : rnum) : R :=
  let z := rlift (fun h => h / 7.39) height in
  let z := if ncmp rltb z (Some 0.01) then Some 0.01 else z in
  let z := match z with None => 0.01 | Some r => r end in
  if rltb 1.6 z then 1.6 else z.
Definition ln_wind_scale (wn_roughness wind_height : R) (veg_height : rnum) : R :=
  let z := veg_roughness veg_height in
  ln ((z + wind_height) / z) / ln ((wn_roughness + wind_height) / wn_roughness).

(** The configuration and the topography: wind_ninja_dxdy, wind_ninja_roughness,
    wind_ninja_height, the vegetation heights, and the weights of initialize_interp. *)
Record ninja := mkNinja {
  n_ny : nat; n_nx : nat; n_xs : nat -> R; n_ys : nat -> R;
  n_dxdy : R; n_roughness : R; n_height : R;
  n_veg : grid rnum;
  n_tri : grid (list (nat * R)) }.

(** np.mean(np.diff(topo.x)), 115: the differences add up to last minus first *)
Definition model_dxdy (c : ninja) : R := (n_xs c (n_nx c - 1)%nat - n_xs c 0%nat) / INR (n_nx c - 1).

(** convert_wind_ninja, 192-243, on the flattened arrays of the two files *)
Definition convert_speed (c : ninja) (vel : nat -> rnum) : res (grid rnum) :=
  let g : grid rnum := fun i j => weighted vel (n_tri c i j) in
  bind (if reqb (model_dxdy c) (n_dxdy c) then Ok g                                            (* 217-220 *)
        else fill_data (n_ny c) (n_nx c) (n_xs c) (n_ys c) g) (fun g =>
  Ok (fun i j => rlift (fun v => v * ln_wind_scale (n_roughness c) (n_height c) (n_veg c i j)) (g i j))).
Definition compass (u v : R) : R :=                                                            (* 240-241 *)
  let a := arctan2 u v * 180 / PI in if rltb a 0 then a + 360 else a.
Definition convert_direction (c : ninja) (ang : nat -> rnum) : res (grid rnum) :=
  let u k := rlift (fun a => sin (a * PI / 180)) (ang k) in
  let v k := rlift (fun a => cos (a * PI / 180)) (ang k) in
  bind (fill_data (n_ny c) (n_nx c) (n_xs c) (n_ys c) (fun i j => weighted u (n_tri c i j))) (fun uf =>
  bind (fill_data (n_ny c) (n_nx c) (n_xs c) (n_ys c) (fun i j => weighted v (n_tri c i j))) (fun vf =>
  Ok (fun i j => rlift2 compass (uf i j) (vf i j)))).
Definition convert (c : ninja) (vel ang : nat -> rnum) : res (grid rnum * grid rnum) :=
  bind (convert_speed c vel) (fun s => bind (convert_direction c ang) (fun d => Ok (s, d))).

(** wind_ninja_path, 75-101: the day in the name of the directory and the local day and minute
    in the name of the file.  Times are minutes since the epoch, [offset] is the time zone's
    difference from UTC in minutes at a time; strftime of both is one to one on whole
    minutes and left out. *)
Definition path (offset : Z -> Z) (t : Z) : Z * Z := ((t / 1440)%Z, (t + offset t)%Z).
