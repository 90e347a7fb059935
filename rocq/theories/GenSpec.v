(** Vocabulary for the command that makes the files of upwind slopes. *)
From Coq Require Import Ascii String.
From Coq Require Import List ZArith Reals.
From Verif Require Import SpatModel HordModel TbreakModel TbreakSpec StartModel GenModel.
Import ListNotations.
Local Open Scope R_scope.

(** the command finds the terrain [g] in the file it is given, and the directory for the slopes *)
Definition sees (w : world) (a : args) (g : terrain) : Prop :=
  isfile w (a_dem a) = true /\ dirname (a_out a) <> ""%string /\ isdir w (dirname (a_out a)) = true /\
  last_part (a_dem a) = "nc"%string /\
  exists f, opens w (a_dem a) = Some f /\ n_has f (a_var a) = true /\ n_has f "x" = true /\ n_has f "y" = true /\
    g = n_grid f (a_var a) /\ (2 <= t_nx g)%Z /\ (2 <= t_ny g)%Z.
(** a file with a value for each of the directions 0, inc, 2 inc ... below 360 *)
Definition whole_file (f : file) (kd : kind) (attrs : list (string * R)) (inc : Z) (value : Z -> Z * Z -> option fl) : Prop :=
  holds f kd attrs inc (length (f_dirs f)) value.
(** the upwind slope of a cell, searched over a distance *)
Definition upwind (g : terrain) (a : args) (dist angle : Z) (c : Z * Z) : option fl :=
  maxus_cell (IZR (a_height a)) (t_nx g) (t_ny g) (t_x g) (t_y g) (t_dem g) c
    (end_cell (spacing (t_x g)) (spacing (t_y g)) (IZR dist) (IZR angle) c).
(** the break of a cell: the slope seen nearby minus the slope seen from afar *)
Definition is_break (g : terrain) (a : args) (value : Z -> Z * Z -> option fl) : Prop :=
  forall angle c l o, upwind g a (a_sep a) angle c = Some (F l) -> upwind g a (a_dmax a) angle c = Some (F o) ->
    value angle c = Some (F (l - o)).
(** the names of the two windowed files *)
Definition maxus_window (a : args) : string := window_name (a_out a) (a_window a).
Definition tbreak_window (a : args) : string := window_name (a_out_tb a) (a_window a).
(** the file of slopes and its windowed companion are on the disk [s] *)
Definition has_maxus (a : args) (g : terrain) (s : disk) : Prop :=
  exists f fw, s (a_out a) = Some f /\ s (maxus_window a) = Some fw /\
    whole_file f Maxus [("dmax"%string, IZR (a_dmax a))] (a_inc a) (upwind g a (a_dmax a)) /\
    whole_file fw Maxus [] (a_inc a) (fun angle c => window_value (a_inc a) (a_window a) angle f c).
Definition has_tbreak (a : args) (g : terrain) (s : disk) : Prop :=
  exists f fw value, s (a_out_tb a) = Some f /\ s (tbreak_window a) = Some fw /\
    whole_file f Tbreak [("dmax"%string, IZR (a_dmax a)); ("sepdist"%string, IZR (a_sep a))] (a_inc a) value /\ is_break g a value /\
    whole_file fw Tbreak [] (a_inc a) (fun angle c => window_value (a_inc a) (a_window a) angle f c).
(** an increment of at least two directions, and distances of whole grid spacings *)
Definition fine (a : args) (g : terrain) : Prop :=
  (0 < a_inc a < 360)%Z /\ 0 < spacing (t_x g) /\ whole (IZR (a_dmax a)) (spacing (t_x g)).
(** characters of a name *)
Definition without (c : ascii) (s : string) : Prop := ~ In c (list_ascii_of_string s).
Definition a_dir (s : string) : Prop := s = ""%string \/ exists t, s = (t ++ "/")%string.

(** ** The five things that can happen first *)
Definition found (w : world) (a : args) : Prop :=
  isfile w (a_dem a) = true /\ dirname (a_out a) <> ""%string /\ isdir w (dirname (a_out a)) = true /\ last_part (a_dem a) = "nc"%string.
(** no file, no directory, not a netCDF file, or no such variable *)
Definition lost (w : world) (a : args) : Prop := ~ found w a \/ (forall f, opens w (a_dem a) = Some f -> n_has f (a_var a) = false).
(** no coordinates *)
Definition nokey (w : world) (a : args) : Prop :=
  found w a /\ exists f, opens w (a_dem a) = Some f /\ n_has f (a_var a) = true /\ ~ (n_has f "x" = true /\ n_has f "y" = true).
(** a single row or column *)
Definition tiny (w : world) (a : args) : Prop :=
  found w a /\ exists f, opens w (a_dem a) = Some f /\ n_has f (a_var a) = true /\ n_has f "x" = true /\ n_has f "y" = true /\
  ((t_nx (n_grid f (a_var a)) < 2)%Z \/ (t_ny (n_grid f (a_var a)) < 2)%Z).
(** not a whole number of columns *)
Definition odd (w : world) (a : args) : Prop := exists g, sees w a g /\ (spacing (t_x g) = 0 \/ ~ whole (IZR (a_dmax a)) (spacing (t_x g))).
Definition starts (w : world) (a : args) : Prop := exists g, sees w a g /\ fine a g.

(** ** The options given for one setting, in order *)
Definition given {A} (pick : opt -> option A) (opts : list opt) : list A :=
  flat_map (fun o => match pick o with Some v => [v] | None => [] end) opts.
