(** Model of the Winstral wind model, smrf/distribute/wind/winstral.py, and of the wind direction and
    limits of smrf/distribute/wind/wind.py.  Reals stand for floats; [None] is NaN. *)
From Coq Require Import Reals ZArith String Ascii List Bool.
From Verif Require Import RNum RTrig.
Import ListNotations.
Local Open Scope R_scope.

(** The Python exceptions this code can raise. *)
Inductive error := IndexError | ValueError | KeyError | UnboundLocalError | TypeError | AssertionError | ZeroDivisionError | ProcessExit | PlainException.
Inductive res (A : Type) : Type := Ok (a : A) | Err (e : error).
Arguments Ok {A} a.
Arguments Err {A} e.
Definition bind {A B} (r : res A) (f : A -> res B) : res B :=
  match r with Ok a => f a | Err e => Err e end.

(** A two-dimensional array of [ny] rows and [nx] columns, indexed by row then column. *)
Definition grid (A : Type) := nat -> nat -> A.
Definition all_cells (ny nx : nat) (p : nat -> nat -> bool) : bool :=
  forallb (fun y => forallb (fun x => p y x) (seq 0 nx)) (seq 0 ny).

(** A pandas Series: values by station name, in the order of the columns of the CSV file. *)
Definition series := list (string * rnum).
Fixpoint get (s : series) (m : string) : option rnum :=
  match s with
  | [] => None
  | (k, v) :: s' => if String.eqb k m then Some v else get s' m
  end.

(** np.ceil *)
Definition rceil (x : R) : R := - IZR (Int_part (- x)).
(** int(x): towards zero *)
Definition rtrunc (x : R) : Z := if rleb 0 x then Int_part x else (- Int_part (- x))%Z.

(** combining the distributed components to an azimuth, winstral.py 203-206 and wind.py 175-178 *)
Definition azimuth (u v : R) : R :=
  let az := arctan2 u v * 180 / PI in
  if rltb az 0 then az + 360 else az.
Definition azimuth_n : rnum -> rnum -> rnum := rlift2 azimuth.

(** self.nstep = 360/self.nbins, winstral.py 315 *)
Definition nstep (n : nat) : R := 360 / INR n.

(** dir_round_cell, winstral.py 208-212.  Line 211 only turns -0.0 into 0.0, which reals do not
    distinguish. *)
Definition dir_round (n : nat) (az : R) : R :=
  let s := nstep n in
  let d := rceil ((az - s / 2) / s) * s in
  let d := if rltb d 0 then d + 360 else d in
  if reqb d 360 then 0 else d.

(** np.argwhere(self.maxus_direction == d)[0][0], line 221: the first index that matches *)
Fixpoint first_index (dirs : list R) (d : R) : option nat :=
  match dirs with
  | [] => None
  | e :: dirs' => if reqb e d then Some 0%nat else option_map S (first_index dirs' d)
  end.

(** the library: maxus[i][y][x] *)
Definition library := nat -> grid rnum.

(** classification loop, 214-222.  np.unique keeps a NaN direction, for which no library direction
    matches either, so that a cell without a direction fails like an unknown one. *)
Definition cell_index (dirs : list R) (d : rnum) : option nat :=
  match d with Some d => first_index dirs d | None => None end.
Definition classify (ny nx : nat) (dirs : list R) (maxus : library) (dr : grid rnum) : res (grid rnum) :=
  if all_cells ny nx (fun y x => match cell_index dirs (dr y x) with Some _ => true | None => false end)
  then Ok (fun y x => match cell_index dirs (dr y x) with Some i => maxus i y x | None => None end)
  else Err IndexError.

(** The [wind] options used here: the vegetation corrections other than the default (keys already
    turned into numbers as int(k) does, line 229), in dictionary order. *)
Record wind_cfg := mk_wind_cfg {
  veg : list (Z * R);
  veg_default : R;
  reduction_factor : R;
  wmin : option R; (* None when the bound is infinite *)
  wmax : option R
}.

(** vegetation corrections of one cell, 225-235, and the cap, 238-239 *)
Definition veg_adjust (c : wind_cfg) (v : Z) (m : rnum) : rnum :=
  let m1 := fold_left (fun a kv => if (v =? fst kv)%Z then rlift (fun x => x + snd kv) a else a) (veg c) m in
  let mask := forallb (fun kv => negb (v =? fst kv)%Z) (veg c) in
  if negb (reqb (veg_default c) 0) && mask then rlift (fun x => x + veg_default c) m1 else m1.
Definition cap (lim : R) (m : rnum) : rnum :=
  let m := if ncmp rltb (Some lim) m then Some lim else m in
  if ncmp rltb m (Some (- lim)) then Some (- lim) else m.
Definition cell_maxus (c : wind_cfg) (v : Z) (m : rnum) : rnum := cap 32 (veg_adjust c v m).

(** the two polynomials, 249-250 and 255-256 *)
Definition poly_hi (c : R) : R := 1.756507 - 0.1678945 * c + 0.01927844 * c ^ 2 - 0.0003651592 * c ^ 3.
Definition poly_lo (c : R) : R := 1.0 + 0.1031717 * c - 0.008003561 * c ^ 2 + 0.0003996581 * c ^ 3.

(** the six masked assignments, 242-271, one after the other on an array of zeros, then 274 *)
Definition cell_wind (factor : R) (flat mx : rnum) : rnum :=
  let w := Some 0 in
  let w := if ncmp rltb mx (Some (-30.10)) then rlift (fun f => factor * f * 4.211) flat else w in
  let w := if ncmp rltb (Some (-30.10)) mx && ncmp rltb mx (Some (-21.3))
           then rlift2 (fun f m => factor * f * poly_hi (Rabs m)) flat mx else w in
  let w := if ncmp rltb (Some (-21.3)) mx && ncmp rltb mx (Some 0)
           then rlift2 (fun f m => factor * f * poly_lo (Rabs m)) flat mx else w in
  let w := if ncmp rltb (Some 30.10) mx then rlift (fun f => f / 4.211) flat else w in
  let w := if ncmp rltb mx (Some 30.10) && ncmp rltb (Some 21.3) mx
           then rlift2 (fun f m => f / poly_hi m) flat mx else w in
  let w := if ncmp rltb mx (Some 21.3) && ncmp rleb (Some 0) mx
           then rlift2 (fun f m => f / poly_lo m) flat mx else w in
  rlift (fun x => x * 1.07985) w.

(** [cellwind[self.metadata.yi, self.metadata.xi] = data_speed], 277: positional; numpy repeats a
    single value and refuses any other difference in length; of two stations in a pixel the later one
    wins.  Pixels are taken to be inside the grid. *)
Definition set_cell {A} (g : grid A) (p : nat * nat) (v : A) : grid A :=
  fun y x => if Nat.eqb y (fst p) && Nat.eqb x (snd p) then v else g y x.
Definition put_stations (pix : list (nat * nat)) (speeds : list rnum) (g : grid rnum) : res (grid rnum) :=
  let put vs := Ok (fold_left (fun g pv => set_cell g (fst pv) (snd pv)) (combine pix vs) g) in
  if Nat.eqb (length speeds) (length pix) then put speeds
  else match speeds with [v] => put (repeat v (length pix)) | _ => Err ValueError end.

(** np.interp(x, xp, fp) for sample points p :: ps with non-decreasing xp: the last point whose xp is
    at most x starts the interval; left of the first and right of the last point the value is constant *)
Fixpoint interp_from (x : R) (p : R * R) (ps : list (R * R)) : R :=
  match ps with
  | [] => snd p
  | q :: ps' => if rleb (fst q) x then interp_from x q ps'
                else (snd q - snd p) / (fst q - fst p) * (x - fst p) + snd p
  end.
Definition np_interp (x : R) (p : R * R) (ps : list (R * R)) : R :=
  if rltb x (fst p) then snd p else interp_from x p ps.

(** cellwind[~nans] with x(~nans), 280-283 and utils.py 115-134.  [z.nonzero()[0]] of a
    two-dimensional mask is the row number of every selected cell, in row-major order. *)
Definition row_points (nx : nat) (g : grid rnum) (y : nat) : list (R * R) :=
  flat_map (fun x => match g y x with Some w => [(INR y, w)] | None => [] end) (seq 0 nx).
Definition points (ny nx : nat) (g : grid rnum) : list (R * R) :=
  flat_map (row_points nx g) (seq 0 ny).
Definition fill_nan (ny nx : nat) (g : grid rnum) : res (grid rnum) :=
  if all_cells ny nx (fun y x => match g y x with Some _ => true | None => false end) then Ok g
  else match points ny nx g with
       | [] => Err ValueError (* array of sample points is empty *)
       | p :: ps => Ok (fun y x => match g y x with Some w => Some w | None => Some (np_interp (INR y) p ps) end)
       end.

(** utils.set_min_max, utils.py 137-161, per cell *)
Definition set_min_max (lo hi : option R) (v : rnum) : rnum :=
  let v := match lo with Some l => if ncmp rleb v (Some l) then Some l else v | None => v end in
  match hi with Some h => if ncmp rleb (Some h) v then Some h else v | None => v end.

Record wind_out := mk_wind_out {
  o_speed : grid rnum;
  o_direction : grid rnum;
  o_maxus : grid rnum;
  o_dir_round : grid rnum
}.

(** WinstralWindModel.simulateWind, 190-288.  [pix] are the station pixels in metadata order, [speeds]
    the measured speeds in the order of the data. *)
Definition simulate_wind (ny nx : nat) (c : wind_cfg) (dirs : list R) (maxus : library)
    (veg_type : grid Z) (flat u v : grid rnum) (pix : list (nat * nat)) (speeds : list rnum) : res wind_out :=
  let az := fun y x => azimuth_n (u y x) (v y x) in
  let dr := fun y x => rlift (dir_round (length dirs)) (az y x) in
  bind (classify ny nx dirs maxus dr) (fun raw =>
  let cm := fun y x => cell_maxus c (veg_type y x) (raw y x) in
  let w := fun y x => cell_wind (reduction_factor c) (flat y x) (cm y x) in
  bind (put_stations pix speeds w) (fun w =>
  bind (fill_nan ny nx w) (fun w =>
  Ok (mk_wind_out (fun y x => set_min_max (wmin c) (wmax c) (w y x)) az cm dr)))).

(** ** stationMaxus, 290-369 *)
Record station := mk_station {
  st_name : string;
  st_yi : nat;
  st_xi : nat;
  st_enhancement : R
}.

(** str.upper, for ASCII letters *)
Definition upper_ascii (a : ascii) : ascii :=
  let n := nat_of_ascii a in
  if (Nat.leb 97 n && Nat.leb n 122)%bool then ascii_of_nat (n - 32) else a.
Fixpoint upper (s : string) : string :=
  match s with EmptyString => EmptyString | String a s' => String (upper_ascii a) (upper s') end.

(** np.min, NaN if any value is *)
Definition min2 (a b : rnum) : rnum := rlift2 Rmin a b.
Definition np_min (l : list rnum) : res rnum :=
  match l with [] => Err ValueError | a :: l' => Ok (fold_left min2 l' a) end.

(** expVal, 346-356 *)
Definition exp_val (ma : R) : R :=
  if rltb 21.3 ma && rltb ma 30.0 then poly_hi ma
  else if rleb 30.0 ma then 4.21 else poly_lo ma.
(** flat wind of one station from its measured speed and maxus value, 344-361 *)
Definition flat_wind (speed : rnum) (mx : rnum) : rnum :=
  rlift2 (fun s m => if rltb 0 m then s * exp_val (Rabs m) else s / exp_val (Rabs m)) speed mx.

(** the values of the library at the station pixel, one per direction *)
Definition lib_column (n : nat) (maxus : library) (s : station) : list rnum :=
  map (fun i => maxus i (st_yi s) (st_xi s)) (seq 0 n).
(** 325-336, given the value left in [val_maxus] by the stations before.  In the branch without a
    peak list the mask selects one element; none or several make the assignments or tests that follow
    raise an error. *)
Definition station_val (peaks : option (list string)) (dirs : list R) (maxus : library)
    (val : option rnum) (s : station) (d : R) : res (option rnum) :=
  let n := length dirs in
  match peaks with
  | Some l =>
      if existsb (String.eqb (upper (st_name s))) l
      then bind (np_min (map (rlift (fun m => m + st_enhancement s)) (lib_column n maxus s))) (fun v => Ok (Some v))
      else Ok val
  | None =>
      let idx := rtrunc (rceil ((d - nstep n / 2) / nstep n) * nstep n) in
      let idx := if (idx =? 360)%Z then 0%Z else idx in
      match filter (fun p => reqb (fst p) (IZR idx)) (combine dirs (lib_column n maxus s)) with
      | [(_, m)] => Ok (Some (rlift (fun m => m + st_enhancement s) m))
      | _ => Err ValueError
      end
  end.
(** the loop over the stations, 317-364: flat wind in metadata order *)
Fixpoint station_loop (peaks : option (list string)) (dirs : list R) (maxus : library)
    (speed direction : series) (val : option rnum) (sts : list station) : res (list rnum) :=
  match sts with
  | [] => Ok []
  | s :: sts' =>
      match get direction (st_name s) with
      | None => Err KeyError
      | Some None => bind (station_loop peaks dirs maxus speed direction val sts') (fun l => Ok (None :: l))
      | Some (Some d) =>
          bind (station_val peaks dirs maxus val s d) (fun val =>
          match val with
          | None => Err UnboundLocalError
          | Some m =>
              let m := cap 35 m in
              match get speed (st_name s) with
              | None => Err KeyError
              | Some sp =>
                  bind (station_loop peaks dirs maxus speed direction (Some m) sts')
                       (fun l => Ok (flat_wind sp m :: l))
              end
          end)
      end
  end.
Definition station_maxus (peaks : option (list string)) (dirs : list R) (maxus : library)
    (speed direction : series) (sts : list station) : res (list rnum) :=
  station_loop peaks dirs maxus speed direction None sts.

(** wind direction components, 368-369, and wind.py 166-167 *)
Definition u_direction (d : R) : R := sin (d * PI / 180).
Definition v_direction (d : R) : R := cos (d * PI / 180).
