(** From the time steps of a run to its netCDF files: initializeOutput and output of model_framework.py 663-749
    with the writer of output_netcdf.py, for a run without threads (386-402) and for the output thread
    (queue.py 261-295).  Puts OutputModel.v and RunsModel.v together. *)
From Coq Require Import List Arith Bool ZArith QArith Qcanon.
From Verif Require Import Num SmrfTopo OutputModel RunsModel.
Import ListNotations.
Local Open Scope nat_scope.

Section Library.
Variable promote : bool.
Variable conform : nat -> nat -> grid -> option grid.

(** [np.zeros((self.topo.ny, self.topo.nx))], 744-745 *)
Definition zeros (u : setup) : grid := repeat (repeat (Some (Q2Qc 0)) (length (u_x u))) (length (u_y u)).

(** A run without threads: the variables that exist get their files (634-661, 663-702), then every time step
    is offered to the output (386-402).  The files and whether the run ended normally; an exception of the
    writer ends the run like one of the framework. *)
Definition serial_files (u : setup) (requested : list nat) (dts : list Z) (freq : nat)
    (attr : nat -> nat -> option (option grid)) (d : disk) : disk * bool :=
  let names := create_output_variable_dict requested in
  let steps := serial_run (zeros u) names dts freq attr in
  let written := execute promote conform d (mkRun u names (fst steps)) in
  (fst written, snd written && snd steps).

(** A run with threads: what the output thread (268-295) writes of the values on the queues; [None] if it
    raises *)
Definition threaded_files (u : setup) (requested : list nat) (dts : list Z) (freq : nat)
    (queued : nat -> bool) (value : nat -> nat -> option grid) (d : disk) : option (disk * bool) :=
  let names := create_output_variable_dict requested in
  option_map (fun p => execute promote conform d (mkRun u names (fst p)))
    (thread_run (zeros u) names dts freq queued value).
End Library.
