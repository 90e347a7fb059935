(** Specification vocabulary for a station run with the density model marks2017.  [rows] is
    the station precipitation (one row per time step, [width] stations, [None] is missing),
    [spans] the storms of the record as intervals of time steps. *)
From Coq Require Import List Arith ZArith QArith Qcanon.
From Verif Require Import Num StormsSpec.
Import ListNotations.
Local Open Scope Qc_scope.

(** Step [t] has precipitation: it lies in a storm and a station measured some. *)
Definition raining (rows : list (list num)) (spans : list (nat * nat)) (t : nat) : Prop :=
  (exists s, In s spans /\ (fst s <= t <= snd s)%nat) /\
  (exists r v, nth_error rows t = Some r /\ In (Some v) r /\ 0 < v).

(** What is interpolated at step [t] of a storm: every station's value, raised so that what
    the station measured outside the storms is not lost, times its gauge correction. *)
Definition used (gauge : nat -> nat -> Qc) (rows : list (list num)) (spans : list (nat * nat))
    (width t : nat) : list num :=
  map (fun c => option_map (fun v =>
         v * (total (fun _ => true) c 0 rows / total (in_storms spans) c 0 rows) * gauge t c)
       (cell rows t c)) (seq 0 width).

(** [tot] are the station totals of the storm [a..b]: the sums over its wet steps, missing as
    soon as one of these values is. *)
Definition storm_sums (thr : Qc) (rows : list (list num)) (width a b : nat) (tot : list num) : Prop :=
  length tot = width /\
  forall c keep, (c < width)%nat ->
    (forall i, keep i = true <-> (a <= i <= b)%nat /\ wet_station thr rows i) ->
    nth c tot None = sum_rows keep c 0 rows.

(** All temperatures of a grid are known and some cell is below 2 C. *)
Definition snow_cold (temps : list num) : Prop :=
  ~ In None temps /\ exists v, In (Some v) temps /\ v < q 2 1.

(** The totals of the storm [a..b] are needed, as it starts cold, and no station has one. *)
Definition no_totals (thr : Qc) (rows temps : list (list num)) (width a b : nat) : Prop :=
  snow_cold (nth a temps []) /\ storm_sums thr rows width a b (repeat None width).

(** Some station measured some precipitation at some time. *)
Definition any_rain (rows : list (list num)) : Prop :=
  exists r v, In r rows /\ In (Some v) r /\ 0 < v.

(** What a station run needs: rows of [width] stations, no negative precipitation, a threshold
    that is not negative, positive gauge corrections, a grid of temperatures for every step,
    and [spans] are the storms of the record. *)
Definition station_input (thr : Qc) (steps width : nat) (gauge : nat -> nat -> Qc)
    (rows temps : list (list num)) (spans : list (nat * nat)) : Prop :=
  Forall (fun r => length r = width) rows /\ nonneg rows /\ 0 <= thr /\
  (forall t c, 0 < gauge t c) /\ length temps = length rows /\
  is_storms (length rows) (wet_station thr rows)
    (station_storm (length rows) steps (wet_station thr rows)) spans.

(** The storm total after step [t]: that of the last storm that has started by then among those
    that started cold, interpolated and limited; zero when there is none. *)
Definition total_after (interp : list num -> list num) (limits : list num -> list num) (thr : Qc)
    (rows temps : list (list num)) (spans : list (nat * nat)) (width cells t : nat) (tot : list num) : Prop :=
  ((forall a b, In (a, b) spans -> (a <= t)%nat -> ~ snow_cold (nth a temps [])) /\
   tot = repeat (Some 0) cells) \/
  (exists a b sums, In (a, b) spans /\ (a <= t)%nat /\ snow_cold (nth a temps []) /\
     storm_sums thr rows width a b sums /\ tot = limits (interp sums) /\
     forall a' b', In (a', b') spans -> (a' <= t)%nat -> snow_cold (nth a' temps []) -> (a' <= a)%nat).
