(** Model of the files of upwind slopes: wind_model.__init__, maxus, tbreak, output_init, output and what windower
    reads, smrf/utils/wind/model.py 49-157, 230-269 and 442-512.  Reals with the NaN of [SpatModel]; the rounding to the
    32 bit floats and the 32 bit integers of the file is not modelled.  A run may be killed: [k] is the number of
    directions it gets done. *)
From Coq Require Import Reals ZArith String List Bool.
From Verif Require Import RNum WinsModel SpatModel BresModel HordModel WindowModel.
Import ListNotations.
Local Open Scope R_scope.

(** __init__, 49-65: coordinates of columns and rows, elevations *)
Record terrain := mkTerrain { t_nx : Z; t_ny : Z; t_x : Z -> R; t_y : Z -> R; t_dem : Z * Z -> R }.
(** 59-60 *)
Definition t_dx (g : terrain) : R := Rabs (t_x g 1%Z - t_x g 0%Z).
Definition t_dy (g : terrain) : R := Rabs (t_y g 1%Z - t_y g 0%Z).

(** [d % dx != 0], 81 and 123: numpy's remainder has the sign of dx and is NaN, so different from 0, for dx = 0 *)
Definition uneven (d dx : R) : bool :=
  if reqb dx 0 then true else negb (reqb (d - dx * IZR (Int_part (d / dx))) 0).

(** maxus_angle, 159-215, for one cell *)
Definition maxus_angle (g : terrain) (height : R) (angle : Z) (dmax : R) (c : Z * Z) : option fl :=
  maxus_cell height (t_nx g) (t_ny g) (t_x g) (t_y g) (t_dem g) c (end_cell (t_dx g) (t_dy g) dmax (IZR angle) c).
(** the difference of line 155 *)
Definition fsub (a b : fl) : fl :=
  fadd a (match b with F x => F (- x) | PInf => MInf | MInf => PInf | Nan => Nan end).
Definition tbreak_angle (g : terrain) (height : R) (angle : Z) (dmax sepdist : R) (c : Z * Z) : option fl :=
  match maxus_angle g height angle dmax c, maxus_angle g height angle sepdist c with
  | Some outlying, Some local => Some (fsub local outlying)
  | _, _ => None
  end.

(** ** The file: its variable for the slopes is named maxus or tbreak.  [Fill]: never written. *)
Inductive kind := Maxus | Tbreak.
Inductive slot := Fill | Stored (v : option fl).
Record file := mkFile { f_kind : kind; f_attrs : list (string * R); f_dirs : list (option Z); f_vals : nat -> Z * Z -> slot }.
(** output_init, 442-497 *)
Definition output_init (kd : kind) (directions : list Z) (attrs : list (string * R)) : file :=
  mkFile kd attrs (map (fun _ => None) directions) (fun _ _ => Fill).
(** output, 499-512 *)
Definition output (directions : list Z) (i : nat) (vals : Z * Z -> option fl) (f : file) : file :=
  mkFile (f_kind f) (f_attrs f) (map Some directions)
    (fun j c => if Nat.eqb j i then Stored (vals c) else f_vals f j c).
(** the loops of 101-104 and 147-157, the first [k] rounds *)
Definition rounds (k : nat) (calc : Z -> Z * Z -> option fl) (directions : list Z) (f : file) : file :=
  fold_left (fun f ia => output directions (fst ia) (calc (snd ia)) f)
    (firstn k (combine (seq 0 (length directions)) directions)) f.

Definition disk := string -> option file.
Definition put (d : disk) (name : string) (f : file) : disk := fun m => if String.eqb m name then Some f else d m.
(** np.arange(0, 360, inc), 89 and 133, for a whole number *)
Definition all_angles (inc : Z) : res (list Z) := if Z.eqb inc 0 then Err ZeroDivisionError else Ok (WindowModel.directions inc).

(** maxus, 67-104 *)
Definition maxus (g : terrain) (height dmax : R) (inc : Z) (name : string) (k : nat) (d : disk) : res disk :=
  if uneven dmax (t_dx g) then Err ValueError
  else bind (all_angles inc) (fun swa =>
    Ok (put d name (rounds k (fun a => maxus_angle g height a dmax) swa (output_init Maxus swa [("dmax"%string, dmax)])))).
(** tbreak, 106-157 *)
Definition tbreak (g : terrain) (height dmax sepdist : R) (inc : Z) (name : string) (k : nat) (d : disk) : res disk :=
  if uneven sepdist (t_dx g) || uneven dmax (t_dx g) then Err ValueError
  else bind (all_angles inc) (fun swa =>
    Ok (put d name (rounds k (fun a => tbreak_angle g height a dmax sepdist) swa
                     (output_init Tbreak swa [("dmax"%string, dmax); ("sepdist"%string, sepdist)])))).

(** windower, 264, for a file with the variable asked for: netCDF4 gives a masked array for the directions included, and
    np.mean of one leaves the masked, never written values out; the mean of nothing is masked and stays unwritten *)
Definition stored (s : slot) : list fl := match s with Stored (Some v) => [v] | _ => [] end.
Definition window_value (inc width d : Z) (f : file) (c : Z * Z) : option fl :=
  let swa := WindowModel.directions inc in
  let idx := filter (fun ie => included inc width d (snd ie)) (combine (seq 0 (length swa)) swa) in
  match flat_map (fun ie => stored (f_vals f (fst ie) c)) idx with
  | [] => None
  | l => Some (fdiv (fold_left fadd l (F 0)) (F (INR (length l))))
  end.
