(** Specification vocabulary for the threaded run: which thread graphs are well
    formed, and the serial evaluation (model_framework.py 365-484: for every date,
    every module in order) that a threaded run is compared with. *)
From Coq Require Import List ZArith Bool Arith.
From Verif Require Import QueueModel PipelineModel.
Import ListNotations.

Section Spec.
Variables V L : Type.
Variable T : topo V L.

(** A well-formed thread graph: the dates and the queue names are distinct; a thread only reads queues
    filled by lower-numbered threads, at most [B] per date; every queue is filled by
    exactly one thread ([owner]), at every date, and every thread fills at least
    one queue. *)
Record wf (B : nat) (owner : nat -> nat) : Prop := {
  wf_dates : NoDup (dates T);
  wf_qids : NoDup (qids T);
  wf_reads : forall k i l vs q, k < nthreads T -> nextq T k i l vs = Some q ->
               In q (qids T) /\ owner q < k;
  wf_bound : forall k i l vs, k < nthreads T -> B <= length vs -> nextq T k i l vs = None;
  wf_outs : forall k i q, k < nthreads T ->
              (In q (outs T k i) <-> In q (qids T) /\ owner q = k);
  wf_outs_nodup : forall k i, k < nthreads T -> NoDup (outs T k i);
  wf_outs_some : forall k i, k < nthreads T -> outs T k i <> [];
  wf_owner : forall q, In q (qids T) -> owner q < nthreads T }.

(** Serial evaluation.  A store gives the value of each variable at the current
    date, if computed already. *)
Definition store := nat -> option V.

Fixpoint read_all (fuel : nat) (k i : nat) (l : L) (st : store) (vs : list V)
  : option (list V) :=
  match nextq T k i l vs with
  | None => Some vs
  | Some q => match fuel, st q with
              | S n, Some v => read_all n k i l st (vs ++ [v])
              | _, _ => None
              end
  end.

Definition set_many (st : store) (qs : list nat) (f : nat -> V) : store :=
  fun q => if in_dec Nat.eq_dec q qs then Some (f q) else st q.

Definition serial_thread (B k i : nat) (x : store * (nat -> L)) : option (store * (nat -> L)) :=
  let '(st, loc) := x in
  match read_all B k i (loc k) st [] with
  | None => None
  | Some vs => let '(f, l') := finish T k i (loc k) vs in
               Some (set_many st (outs T k i) f, upd loc k l')
  end.

Fixpoint serial_threads (B i n : nat) (x : store * (nat -> L)) : option (store * (nat -> L)) :=
  match n with
  | 0 => Some x
  | S m => match serial_threads B i m x with
           | None => None
           | Some y => serial_thread B m i y
           end
  end.

(** one date: all modules in order, starting from an empty store *)
Definition serial_date (B i : nat) (loc : nat -> L) : option (store * (nat -> L)) :=
  serial_threads B i (nthreads T) (fun _ => None, loc).

(** private states after the first [i] dates *)
Fixpoint serial_locals (B i : nat) : option (nat -> L) :=
  match i with
  | 0 => Some (init_local T)
  | S j => match serial_locals B j with
           | None => None
           | Some loc => match serial_date B j loc with
                         | None => None
                         | Some (_, loc') => Some loc'
                         end
           end
  end.

(** value of variable [q] at date index [i] in the serial run *)
Definition serial_value (B i q : nat) : option V :=
  match serial_locals B i with
  | None => None
  | Some loc => match serial_date B i loc with
                | None => None
                | Some (st, _) => st q
                end
  end.

(** A schedule in which every thread gets its turn again and again. *)
Definition fair (f : nat -> nat) : Prop :=
  forall k, k <= nthreads T -> forall m, exists m', m <= m' /\ f m' = k.

(** The puts made on queue [q] during a run, in order: date and value. *)
Fixpoint puts_on (q : nat) (l : list (event V)) : list (Z * option V) :=
  match l with
  | [] => []
  | EPut _ q' d v :: r => if q' =? q then (d, Some v) :: puts_on q r else puts_on q r
  | _ :: r => puts_on q r
  end.

End Spec.
Arguments puts_on {V}.
Arguments wf {V L}. Arguments read_all {V L}. Arguments set_many {V}.
Arguments serial_thread {V L}. Arguments serial_threads {V L}. Arguments serial_date {V L}.
Arguments serial_locals {V L}. Arguments serial_value {V L}. Arguments fair {V L}.
Arguments wf_dates {V L T B owner}. Arguments wf_qids {V L T B owner}. Arguments wf_reads {V L T B owner}.
Arguments wf_bound {V L T B owner}. Arguments wf_outs {V L T B owner}.
Arguments wf_outs_nodup {V L T B owner}. Arguments wf_outs_some {V L T B owner}.
Arguments wf_owner {V L T B owner}.
