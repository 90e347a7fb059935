(** Specification vocabulary for SMRF's own thread graph. *)
From Coq Require Import List ZArith Bool Arith.
From Verif Require Import SmrfTopo.
Import ListNotations.

(** Which thread fills a queue (thread numbers as in SmrfTopo). *)
Definition smrf_owner (q : nat) : nat :=
  nth q [0;0;1;10;2;3;3;3;4;4;4;4;4;5;5;5;5;5;5;6;6;7;8;8;8;8;8;8;8;8;8;8;8;8;8;9;9;9;9] 0.

(** The configurations in which every queue is filled at every date: output at every
    date, both solar corrections on, "output" is not itself an output variable, and
    precipitation is rescaled with the Winstral wind only if that wind model runs. *)
Definition good (c : cfg) : Prop :=
  frequency c = 1 /\ s_cloud c = true /\ s_veg c = true /\ ~ In output (outvars c) /\
  (rescaling c = true -> winstral c = true).

(** A bound on the number of reads of any thread per date. *)
Definition Bnd (c : cfg) : nat := 10 + length (outvars c).
