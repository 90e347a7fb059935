(** The start of a run, seen from outside. *)
From Coq Require Import Ascii String.
From Coq Require Import List ZArith Bool.
From Verif Require Import WinsModel LoadModel LoadSpec BackupModel StartModel.
Import ListNotations.
Local Open Scope Z_scope.

(** A name that ends in ".ini", or is "ini" *)
Definition ini_name (f : string) : Prop := f = "ini"%string \/ exists a, f = append a ".ini".
(** [f] is the only such name of a list *)
Definition only_ini (l : list string) (f : string) : Prop :=
  exists l1 l2, l = l1 ++ f :: l2 /\ ini_name f /\ forall g, In g (l1 ++ l2) -> ~ ini_name g.

(** The dates of the albedo section are not configured, or both are *)
Definition decay_given (c : settings) (d : option (Z * Z)) : Prop :=
  (s_decay_start c = Missing /\ d = None) \/
  (exists a b, s_decay_start c = Date a /\ s_decay_end c = Date b /\ d = Some (a - s_lmt c, b - s_lmt c)).
(** The data are not gridded and the run is not over yet *)
Definition in_future (now : Z) (c : settings) (start stop : Z) : Prop :=
  s_gridded c = None /\ (now < start \/ now < stop).

(** The configuration a run is given: itself, or by the name of a file *)
Definition given (isfile : string -> bool) (read : string -> settings) (a : argument) (c : settings) : Prop :=
  a = Config c \/ exists p, a = Path p /\ isfile p = true /\ c = read p.
