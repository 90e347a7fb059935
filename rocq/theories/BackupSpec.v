(** The backup of a run's input, seen from outside. *)
From Coq Require Import Ascii String.
From Coq Require Import List ZArith Bool QArith Qcanon.
From Verif Require Import Num WinsModel LoadModel BackupModel.
Import ListNotations.
Local Open Scope Z_scope.

(** The tables that are saved *)
Definition saved_variables : list string :=
  ["air_temp"; "vapor_pressure"; "precip"; "wind_speed"; "wind_direction"; "cloud_factor"]%string.
Definition saved (k : string) : Prop := k = "metadata"%string \/ In k saved_variables.
(** Settings of the topo section that are not files *)
Definition setting (k : string) : Prop :=
  k = "northern_hemisphere"%string \/ k = "gradient_method"%string \/ k = "sky_view_factor_angles"%string.

(** The value of a configuration *)
Definition cfg_get (cfg : config) (sec k : string) : option cval :=
  match dget sec cfg with Some s => dget k s | None => None end.
Definition backup_dir (loc : string) : string := join loc "input_backup".
Definition saved_as (loc k : string) : string := join (backup_dir loc) (append k ".csv").

(** [src] is a file that the configuration names in the topo section under [k] *)
Definition topo_file (cfg : config) (k src : string) : Prop :=
  ~ setting k /\ (cfg_get cfg "topo" k = Some (VStr src) \/ cfg_get cfg "topo" k = Some (VList [src])).
(** No such file is called like one of the files of the backup, or like another one *)
Definition topo_apart (cfg : config) : Prop :=
  (forall k src, topo_file cfg k src ->
     basename src <> "backup_config.ini"%string /\ forall v, saved v -> basename src <> append v ".csv") /\
  (forall k src k' src', topo_file cfg k src -> topo_file cfg k' src' -> basename src = basename src' -> k = k').
(** A dictionary has every key once *)
Definition dict {V} (d : list (string * V)) : Prop := NoDup (map fst d).

(** A table has [x] for station [s] at instant [u] *)
Definition data_says (d : data) (u : Z) (s : string) (x : num) : Prop :=
  exists row, In (u, row) (t_rows (d_table d)) /\ In (s, x) (combine (t_cols (d_table d)) row).
(** A file has a line for the time [w] with offset [o], which is the instant [w - o], with [x] below [s] *)
Definition text_says (t : text) (u : Z) (s : string) (x : num) : Prop :=
  exists w o row, In (Time w (Some o) :: row) (x_lines t) /\ w - o = u /\ In (s, Number x) (combine (tl (x_header t)) row).
