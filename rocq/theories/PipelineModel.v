(** Model of the threaded run of SMRF:
    smrf/framework/model_framework.py 486-632 (disttribute_data_threaded,
    create_distributed_threads), smrf/utils/queue.py 197-297 (QueueCleaner,
    QueueOutput) and the [distribute_thread] loops of smrf/distribute/*.py,
    smrf/envphys/sunang.py 54-79, smrf/envphys/solar/model.py 10-41.

    All those loops have the shape
        for i, t in enumerate(date_time):
            x = queue['a'].get(t); y = queue['b'].get(t); ...
            compute
            queue['u'].put([t, ...]); queue['v'].put([t, ...]); ...
    A thread is given by which queue it reads next after having read some values
    ([nextq], so that a read may be conditional on earlier values), by what it
    computes ([finish], with a private state of type [L]) and by the queues it
    then fills, in order ([outs]).

    Simplifications: one atomic action per step is one queue operation made while
    holding that queue's lock, or one private computation; values are immutable
    once put (the mutable storm_days array is treated separately in StormRace*.v);
    the data queues (data_queue[...]), which are unbounded, filled before the threads
    start and never cleaned (model_framework.py 533-558), are not queues of the
    model: reading them is part of the private computation; queue time-outs
    are None (the default of queue time_out); a thread that raises is not modelled. *)
From Coq Require Import List ZArith Bool Arith.
From Verif Require Import QueueModel.
Import ListNotations.

Section Pipeline.
Variables V L : Type.

Record topo := mkTopo {
  nthreads : nat;                 (* threads 0 .. nthreads-1, the cleaner is extra *)
  qids : list nat;                (* the keys of the dict smrf_queue, in its order *)
  qmax : Z;                       (* queue_max_values *)
  dates : list Z;                 (* self.date_time *)
  nextq : nat -> nat -> L -> list V -> option nat;
  finish : nat -> nat -> L -> list V -> (nat -> V) * L;
  outs : nat -> nat -> list nat;  (* thread, date index: queues filled at that date *)
  init_local : nat -> L }.

(** [tputs = None]: still reading; [Some r]: computed, [r] remains to be put. *)
Record tstate := mkT {
  tdate : nat; tlocal : L; treads : list V; tputs : option (list (nat * V)) }.

(** QueueCleaner.run, queue.py 217-235: first a get on every queue, then a clean on
    every queue; the list holds the queues still to be visited in that pass. *)
Inductive cphase := CGet (r : list nat) | CClean (r : list nat).
Record cstate := mkC { cdate : nat; cph : cphase }.

Record state := mkS {
  threads : nat -> tstate; queues : nat -> queue V; cleaner : cstate }.

Definition upd {A} (f : nat -> A) (k : nat) (x : A) : nat -> A :=
  fun j => if j =? k then x else f j.

(** What a step did, as seen from outside: which thread read or filled which queue
    for which date with which value, or which queue the cleaner emptied of a date. *)
Inductive event :=
| EGet (k q : nat) (d : Z) (v : V)
| EPut (k q : nat) (d : Z) (v : V)
| EClean (q : nat) (d : Z)
| ETau (k : nat).

Variable T : topo.


(** model_framework.py 580-600: a fresh queue per variable; all threads at their
    first date. *)
Definition init : state := {|
  threads := fun k => mkT 0 (init_local T k) [] None;
  queues := fun _ => q_new (qmax T) None;
  cleaner := mkC 0 (CGet (qids T)) |}.

(** One step of thread [k]; [None] when it has finished its loop or is blocked in
    a [get] or [put]. *)
Definition tstep (s : state) (k : nat) : option (state * event) :=
  let t := threads s k in
  match nth_error (dates T) (tdate t) with
  | None => None
  | Some d =>
    match tputs t with
    | None =>
      match nextq T k (tdate t) (tlocal t) (treads t) with
      | Some q =>
        match try_get (queues s q) d true None false with
        | (q', OVal v) =>
          Some (mkS (upd (threads s) k (mkT (tdate t) (tlocal t) (treads t ++ [v]) None))
                    (upd (queues s) q q') (cleaner s), EGet k q d v)
        | _ => None
        end
      | None =>
        let '(f, l') := finish T k (tdate t) (tlocal t) (treads t) in
        Some (mkS (upd (threads s) k
                       (mkT (tdate t) l' (treads t)
                            (Some (map (fun q => (q, f q)) (outs T k (tdate t))))))
                  (queues s) (cleaner s), ETau k)
      end
    | Some [] =>
      Some (mkS (upd (threads s) k (mkT (S (tdate t)) (tlocal t) [] None))
                (queues s) (cleaner s), ETau k)
    | Some ((q, v) :: r) =>
      match try_put (queues s q) d v true false with
      | (q', ODone) =>
        Some (mkS (upd (threads s) k (mkT (tdate t) (tlocal t) (treads t) (Some r)))
                  (upd (queues s) q q') (cleaner s), EPut k q d v)
      | _ => None
      end
    end
  end.

(** One step of the cleaner, queue.py 217-235. *)
Definition cstep (s : state) : option (state * event) :=
  let c := cleaner s in
  match nth_error (dates T) (cdate c) with
  | None => None
  | Some d =>
    match cph c with
    | CGet [] => Some (mkS (threads s) (queues s) (mkC (cdate c) (CClean (qids T))),
                       ETau (nthreads T))
    | CGet (q :: r) =>
      match try_get (queues s q) d true None false with
      | (q', OVal v) => Some (mkS (threads s) (upd (queues s) q q') (mkC (cdate c) (CGet r)),
                              EGet (nthreads T) q d v)
      | _ => None
      end
    | CClean [] => Some (mkS (threads s) (queues s) (mkC (S (cdate c)) (CGet (qids T))),
                         ETau (nthreads T))
    | CClean (q :: r) =>
      Some (mkS (threads s) (upd (queues s) q (fst (do_clean (queues s q) d)))
                (mkC (cdate c) (CClean r)), EClean q d)
    end
  end.

(** Thread ids below [nthreads] are the workers, [nthreads] is the cleaner. *)
Definition pstep (s : state) (k : nat) : option (state * event) :=
  if k <? nthreads T then tstep s k
  else if k =? nthreads T then cstep s
  else None.

(** A schedule is any list of thread ids; scheduling a blocked or finished thread
    changes nothing. *)
Fixpoint exec (s : state) (sch : list nat) : state * list event :=
  match sch with
  | [] => (s, [])
  | k :: r => match pstep s k with
              | None => exec s r
              | Some (s1, e) => let '(s2, l) := exec s1 r in (s2, e :: l)
              end
  end.

(** Everybody has left its loop over the dates (and join() returns,
    model_framework.py 527-531). *)
Definition finished (s : state) : Prop :=
  (forall k, k < nthreads T -> tdate (threads s k) = length (dates T)) /\
  cdate (cleaner s) = length (dates T).

End Pipeline.

Arguments mkTopo {V L}. Arguments nthreads {V L}. Arguments qids {V L}.
Arguments qmax {V L}. Arguments dates {V L}. Arguments nextq {V L}. Arguments finish {V L}.
Arguments outs {V L}. Arguments init_local {V L}.
Arguments mkT {V L}. Arguments tdate {V L}. Arguments tlocal {V L}. Arguments treads {V L}.
Arguments tputs {V L}. Arguments mkS {V L}. Arguments threads {V L}. Arguments queues {V L}.
Arguments cleaner {V L}. Arguments EGet {V}. Arguments EPut {V}. Arguments EClean {V}.
Arguments ETau {V}. Arguments init {V L}. Arguments tstep {V L}. Arguments cstep {V L}.
Arguments pstep {V L}. Arguments exec {V L}. Arguments finished {V L}.
