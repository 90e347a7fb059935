(** Model of the netCDF files of several runs with the same output directory: OutputNetcdf.__init__ and
    OutputNetcdf.output, output_netcdf.py 20-188, for any number of runs one after another.  The records of
    one file are those of OutputModel.v. *)
From Coq Require Import List Arith Bool ZArith QArith Qcanon.
From Verif Require Import Num OutputModel.
Import ListNotations.
Local Open Scope nat_scope.

(** A grid row by row; [None] is NaN. *)
Definition grid := list (list num).

(** What a run brings along: [time['start_date']] in minutes of wall clock time (99-101), [time['time_zone']]
    as its distance from UTC in minutes (103; zones with changing distances are left out), the vectors and
    the mask of the topo (48-50), [netcdf_output_precision] (59), [mask_output] (183) and for each variable
    its module, units and long_name (117-125), here one number each. *)
Record setup := mkSetup {
  u_start : Z; u_zone : Z; u_x : list Qc; u_y : list Qc; u_double : bool;
  u_mask_output : bool; u_mask : list (list Qc); u_info : nat -> nat * nat * nat }.

(** What a file says besides its records: the attributes units and time_zone of the time (99-103), the
    variables x and y (142-143), the type of the data (89-92) and their attributes (116-125).  The other
    attributes, constants or texts about the moment of writing, are left out, and so is the projection. *)
Record header := mkHeader {
  h_origin : Z; h_zone : Z; h_x : list Qc; h_y : list Qc; h_double : bool; h_info : nat * nat * nat }.
Record ncfile := mkFile { n_head : header; n_records : list (Qc * option grid) }.

(** The output directory: the file of each variable, [out_location/variable.nc] (36-38). *)
Definition disk := nat -> option ncfile.
Definition put (d : disk) (v : nat) (f : ncfile) : disk := fun w => if w =? v then Some f else d w.

(** 75-143: a new file; x and y have type 'f' (87-88) *)
Definition create (u : setup) (v : nat) : ncfile :=
  mkFile (mkHeader (u_start u) (u_zone u) (map float32 (u_x u)) (map float32 (u_y u)) (u_double u) (u_info u v)) [].

(** 61-146 for one variable: an existing file is opened and keeps what it says (65-73) *)
Definition open (u : setup) (d : disk) (v : nat) : disk :=
  match d v with Some _ => d | None => put d v (create u v) end.
(** __init__, 20-146 *)
Definition open_all (u : setup) (names : list nat) (d : disk) : disk := fold_left (open u) names d.

(** [data*self.mask], 184; an exception if the shapes differ (numpy also accepts sides of one cell, left
    out: data and mask come from the same topo) *)
Fixpoint map2o {X Y Z} (f : X -> Y -> option Z) (a : list X) (b : list Y) : option (list Z) :=
  match a, b with
  | [], [] => Some []
  | x :: a', y :: b' =>
      match f x y, map2o f a' b' with Some z, Some r => Some (z :: r) | _, _ => None end
  | _, _ => None
  end.
Definition masked (u : setup) (g : grid) : option grid :=
  if u_mask_output u
  then map2o (map2o (fun x m => Some (option_map (fun y => Qcmult y m) x))) g (u_mask u)
  else Some g.

(** the type of the data variable: 'f' or 'd', 59 and 89-92 *)
Definition to_type (double : bool) : grid -> grid :=
  map (map (option_map (fun x : Qc => Q2Qc (binary (if double then 53 else 24) x)))).

Section Library.
(** how numpy compares the times, see OutputModel.v *)
Variable promote : bool.
(** netCDF4: how data are fitted into a record of a number of rows and columns, [None] if it raises *)
Variable conform : nat -> nat -> grid -> option grid.

(** output, 148-188: the file after the call and whether it returned *)
Definition output (u : setup) (names : list nat) (d : disk) (c : call grid) : disk * bool :=
  if existsb (Nat.eqb (c_var c)) names then
    match d (c_var c) with
    | None => (d, false)
    | Some f =>
        let h := n_head f in
        let t := date2num (c_time c - h_origin h) in
        let (i, r) := write_time promote float32 t (n_records f) in
        match masked u (c_data c) with
        | None => (put d (c_var c) (mkFile h r), false)
        | Some m =>
            match conform (length (h_y h)) (length (h_x h)) m with
            | None => (put d (c_var c) (mkFile h r), false)
            | Some g => (put d (c_var c) (mkFile h (put_data (to_type (h_double h)) i g r)), true)
            end
        end
    end
  else (d, false).

(** the calls of a run, up to the first exception *)
Fixpoint outputs (u : setup) (names : list nat) (d : disk) (cs : list (call grid)) : disk * bool :=
  match cs with
  | [] => (d, true)
  | c :: r =>
      let (d', ok) := output u names d c in
      if ok then outputs u names d' r else (d', false)
  end.

(** One run: the setup, the variables and the calls.  A run that ended early is one with fewer calls. *)
Record run := mkRun { r_setup : setup; r_names : list nat; r_calls : list (call grid) }.
Definition execute (d : disk) (r : run) : disk * bool :=
  outputs (r_setup r) (r_names r) (open_all (r_setup r) (r_names r) d) (r_calls r).
(** one run after another, whatever the end of the earlier ones *)
Fixpoint history (d : disk) (rs : list run) : disk * list bool :=
  match rs with
  | [] => (d, [])
  | r :: rest =>
      let (d1, ok) := execute d r in
      let (d2, oks) := history d1 rest in (d2, ok :: oks)
  end.
End Library.
