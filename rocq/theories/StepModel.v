(** Model of HRRR input loaded one time step at a time (hrrr_load_method 'timestep'),
    smrf/data/hrrr_grib.py 27-53, 94-122 and 197-221, smrf/data/input_data.py 61-63 and
    116-126, smrf/framework/model_framework.py 404-410 and 533-558.

    Times are integers, in minutes.  What weather_forecast_retrieval returns for a window of
    time, with vapor pressure, wind and cloud factor computed by parse_data (124-165), is a
    list of rows in time order: a time, the cloud factor of every cell ([None] is NaN) and
    the remaining variables, of arbitrary type [V].  A reply without rows ends the loading
    with an IndexError (a simplification: which exception it is depends on the library).
    The six variables' tables have the same index and are kept together. *)
From Coq Require Import List ZArith Bool Qcanon.
From Verif Require Import Num DataModel QueueModel WinsModel.
Import ListNotations.
Local Open Scope Z_scope.

Record row (V : Type) := mkRow { r_time : Z; r_data : V; r_cloud : list num }.
Arguments mkRow {V}. Arguments r_time {V}. Arguments r_data {V}. Arguments r_cloud {V}.

Section Step.
Variable V : Type.
(** FileLoader.get_saved_data(start, end), hrrr_grib.py 80-90, and parse_data *)
Variable archive : Z -> Z -> list (row V).
(** The number of cells of the input data *)
Variable ncell : nat.

(** TIME_STEP, hrrr_grib.py 27, and timestep_dates, 52-53 *)
Definition TIME_STEP : Z := 20.
Definition load (t : Z) : list (row V) := archive t (t + TIME_STEP).

(** The cloud factor's table as columns *)
Definition columns (f : list (row V)) : list (list num) :=
  map (fun j => map (fun r => nth j (r_cloud r) None) f) (seq 0 ncell).

(** load_timestep, 94-104: the tables of the load class afterwards.  The cloud factor's has
    one row (221), with the last time of the frame, and is also the memory ([mem]) of the next call. *)
Record loaded := mkLoaded { l_rows : list (Z * V); l_cloud : Z * list num }.
Definition load_timestep (mem : option (list num)) (t : Z) : res loaded :=
  match load t with
  | [] => Err IndexError
  | f => Ok (mkLoaded (map (fun r => (r_time r, r_data r)) f)
                      (last (map r_time f) 0, check_cloud_factor mem (columns f)))
  end.

(** InputData.set_variables, input_data.py 116-126: both ends of the slice are included *)
Definition slice {A} (start stop : Z) (l : list (Z * A)) : list (Z * A) :=
  filter (fun p => (start <=? fst p) && (fst p <=? stop)) l.
(** [table.loc[t]] *)
Definition loc {A} (t : Z) (l : list (Z * A)) : res A :=
  match find (fun p => fst p =? t) l with Some p => Ok (snd p) | None => Err KeyError end.

(** distribute_single_timestep, model_framework.py 404-410, and the [.loc[t]] that follow, for
    all the dates of the serial run: what the modules are given, until an exception. *)
Fixpoint serial_steps (start stop : Z) (mem : option (list num)) (dates : list Z)
  : list (V * list num) * option error :=
  match dates with
  | [] => ([], None)
  | t :: rest =>
      match load_timestep mem t with
      | Err e => ([], Some e)
      | Ok l =>
          match loc t (slice start stop (l_rows l)), loc t (slice start stop [l_cloud l]) with
          | Ok v, Ok c => let '(o, e) := serial_steps start stop (Some (snd (l_cloud l))) rest in ((v, c) :: o, e)
          | Err e, _ | _, Err e => ([], Some e)
          end
      end
  end.

(** create_data_queue, model_framework.py 538-550: the rows loaded when InputData was made, by
    a plain [load] for the first date (hrrr_grib.py 32-35, input_data.py 61-63), go on the
    queues before the threads start. *)
Definition first_puts (start stop : Z) (dates : list Z) : list (Z * (V * list num)) :=
  slice start stop (map (fun r => (r_time r, (r_data r, r_cloud r))) (load (hd 0 dates))).

(** load_timestep_thread, hrrr_grib.py 106-122: [dates] is [date_times[1:]] *)
Fixpoint thread_puts (mem : option (list num)) (dates : list Z) : list (Z * (V * list num)) :=
  match dates with
  | [] => []
  | t :: rest =>
      match load_timestep mem t with
      | Err _ => []
      | Ok l =>
          match l_rows l with
          | [] => []
          | p :: _ => (t, (snd p, snd (l_cloud l))) :: thread_puts (Some (snd (l_cloud l))) rest
          end
      end
  end.

(** Everything that is put on the data queues, in order *)
Definition data_puts (start stop : Z) (dates : list Z) : list (Z * (V * list num)) :=
  first_puts start stop dates ++ thread_puts None (tl dates).

(** The data queue after the first [k] of these puts: DateQueueThreading(timeout=...), so its
    maxsize is 0 (queue.py 24); the QueueCleaner is not given the data queues
    (model_framework.py 518-519). *)
Definition data_queue (timeout : option Z) (start stop : Z) (dates : list Z) (k : nat) : queue (V * list num) :=
  fold_left (fun q p => fst (@try_put (V * list num) q (fst p) (snd p) true false))
            (firstn k (data_puts start stop dates)) (q_new 0 timeout).

End Step.
Arguments l_rows {V}. Arguments l_cloud {V}.
