(** Specification vocabulary for a run with the storm counters of [time_since_storm]. *)
From Coq Require Import List Arith ZArith QArith Qcanon.
From Verif Require Import Num StormsSpec.
Import ListNotations.
Local Open Scope Qc_scope.

(** Some station (or pixel of the input) has precipitation at step [t]. *)
Definition measured (rows : list (list num)) (t : nat) : Prop :=
  exists r v, nth_error rows t = Some r /\ In (Some v) r /\ 0 < v.

(** The row of step [t] with every station's value times its gauge correction. *)
Definition adjusted (gauge : nat -> nat -> Qc) (rows : list (list num)) (width t : nat) : list num :=
  map (fun c => option_map (fun v => v * gauge t c) (cell rows t c)) (seq 0 width).

(** There is no snow anywhere in a grid of percents of snow. *)
Definition no_snow (ps : list num) : Prop := forall x, In x ps -> x = Some 0.

(** Snow at cell [x]: at least half of the precipitation there. *)
Definition snows (ps : list num) (x : nat) : Prop := exists v, nth x ps None = Some v /\ q 1 2 <= v.

(** What a run needs: rows of [width] stations, no negative precipitation, positive gauge
    corrections, a grid of temperatures for every step, and percents of snow that are not
    negative. *)
Definition run_input (width : nat) (gauge : nat -> nat -> Qc) (phase : list num -> list num -> list num * list num)
    (rows temps : list (list num)) : Prop :=
  Forall (fun r => length r = width) rows /\ nonneg rows /\ (forall t c, 0 < gauge t c) /\
  length temps = length rows /\ (forall tp p v, In (Some v) (snd (phase tp p)) -> 0 <= v).
