(** What the property about the files of a run talks about. *)
From Coq Require Import List Arith Bool ZArith QArith Qcanon Sorted.
From Verif Require Import Num OutputModel OutputSpec RunsModel RunsSpec.
Import ListNotations.
Local Open Scope nat_scope.

(** a topo and its mask have one size *)
Definition consistent (u : setup) : Prop := shaped (length (u_y u)) (length (u_x u)) (u_mask u).
(** a grid of the topo *)
Definition on_topo (u : setup) (g : grid) : Prop := shaped (length (u_y u)) (length (u_x u)) g.
(** the grid of zeros *)
Definition all_zero (u : setup) (g : grid) : Prop :=
  on_topo u g /\ forall row x, In row g -> In x row -> x = Some (Q2Qc 0).

(** the record of a grid that was computed for a date *)
Definition record_of (u : setup) (date : Z) (g : grid) (r : Qc * option grid) : Prop :=
  fst r = float32 (date2num (date - u_start u)) /\
  exists g', shown u g g' /\ snd r = Some (held (u_double u) g').

(** increasing dates less than 131072 hours from the start *)
Definition usable (u : setup) (dts : list Z) : Prop :=
  StronglySorted Z.lt dts /\ forall t, In t dts -> (Z.abs (t - u_start u) < 60 * 131072)%Z.
Definition increasing (l : list Qc) : Prop := StronglySorted Qclt l.
