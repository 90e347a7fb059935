(** Model of smrf/utils/queue.py, class DateQueueThreading (lines 16-194).

    Dates (datetime objects, used only as dictionary keys) are integers.
    The values are of an arbitrary type [V].  A call is modelled as an *attempt*
    made at one instant while holding the queue's lock: the attempt either
    completes, or would have to wait ([OWaiting]); a blocked call is a sequence
    of waiting attempts followed by a completing one (the [while ... wait()]
    loops of lines 101-102, 108-118, 165-166 and 172-182 re-test their condition
    after every notification).  Wall-clock time enters only through the boolean
    [expired] = "endtime - _time() <= 0 at this attempt". *)
From Coq Require Import List ZArith Bool.
Import ListNotations.
Local Open Scope Z_scope.

Section Queue.
Variable V : Type.

(** queue.py 26-29, 41-42: the attributes of the object. [items] is the python
    dict [self.queue], in insertion order.  [tasks] is [unfinished_tasks] of the
    base class queue.Queue, which starts at 0. [timeout] is in abstract ticks. *)
Record queue := mkQ { maxsize : Z; timeout : option Z; items : list (Z * V); tasks : nat }.

(** queue.py 26-42 *)
Definition q_new (m : Z) (t : option Z) : queue := mkQ m t [] 0.

(** Python dict primitives used by queue.py: [d[k]], [k in d], [d.update({k: v})]
    (replaces in place, otherwise appends), [del d[k]]. *)
Fixpoint d_find (k : Z) (l : list (Z * V)) : option V :=
  match l with
  | [] => None
  | (k', v) :: r => if k =? k' then Some v else d_find k r
  end.
Fixpoint d_update (k : Z) (v : V) (l : list (Z * V)) : list (Z * V) :=
  match l with
  | [] => [(k, v)]
  | (k', v') :: r => if k =? k' then (k', v) :: r else (k', v') :: d_update k v r
  end.
Fixpoint d_del (k : Z) (l : list (Z * V)) : list (Z * V) :=
  match l with
  | [] => []
  | (k', v') :: r => if k =? k' then r else (k', v') :: d_del k r
  end.

(** queue.py 44-45 *)
Definition qsize (q : queue) : Z := Z.of_nat (length (items q)).

(** The calls a client can make: put (133), get (68), clean (56).
    [expired] is consulted only by the timed branches. *)
Inductive op :=
| OPut (d : Z) (v : V) (block : bool) (expired : bool)
| OGet (d : Z) (block : bool) (tmo : option Z) (expired : bool)
| OClean (d : Z).

(** the exceptions caught *)
Inductive caught := E_Empty | E_KeyError | E_Full.
(** What the caller (and the log) can see of one attempt. *)
Inductive out :=
| ODone               (* put / clean returned None, nothing logged *)
| OVal (v : V)        (* get returned the value *)
| OLogged (e : caught)  (* an exception was caught and logged (lines 125-126, 188-189);
                         the call returned None *)
| OWaiting            (* would block: the caller is still inside the call *)
| OExit.              (* timed out: logged, then sys.exit() (lines 130-131, 193-194) *)

(** queue.py 133-194.  Line 147 overwrites the timeout argument with None, so the
    argument never matters and is not modelled.  Lines 153-186. *)
Definition try_put (q : queue) (d : Z) (v : V) (block expired : bool) : queue * out :=
  let full := qsize q =? maxsize q in
  let store := (mkQ (maxsize q) (timeout q) (d_update d v (items q)) (S (tasks q)), ODone) in
  if 0 <? maxsize q then
    if negb block then if full then (q, OLogged E_Full) else store
    else if full then
           match timeout q with
           | None => (q, OWaiting)
           | Some _ => if expired then (q, OExit) else (q, OWaiting)
           end
         else store
  else store.

(** queue.py 68-131.  Lines 89-90: a timeout argument replaces [self.timeout]. *)
Definition try_get (q : queue) (d : Z) (block : bool) (tmo : option Z) (expired : bool)
  : queue * out :=
  let q := match tmo with None => q | Some t => mkQ (maxsize q) (Some t) (items q) (tasks q) end in
  match d_find d (items q) with
  | Some v => (q, OVal v)
  | None =>
      if negb block then
        if qsize q =? 0 then (q, OLogged E_Empty) else (q, OLogged E_KeyError)
      else match timeout q with
           | None => (q, OWaiting)
           | Some _ => if expired then (q, OExit) else (q, OWaiting)
           end
  end.

(** queue.py 56-66 *)
Definition do_clean (q : queue) (d : Z) : queue * out :=
  (mkQ (maxsize q) (timeout q) (d_del d (items q)) (tasks q), ODone).

Definition step (q : queue) (o : op) : queue * out :=
  match o with
  | OPut d v b e => try_put q d v b e
  | OGet d b t e => try_get q d b t e
  | OClean d => do_clean q d
  end.

(** A history of attempts and what each of them showed, oldest first. *)
Fixpoint run (q : queue) (h : list op) : queue * list (op * out) :=
  match h with
  | [] => (q, [])
  | o :: r => let '(q1, x) := step q o in
              let '(q2, l) := run q1 r in (q2, (o, x) :: l)
  end.

End Queue.

Arguments mkQ {V}. Arguments maxsize {V}. Arguments timeout {V}. Arguments items {V}.
Arguments tasks {V}. Arguments q_new {V}. Arguments d_find {V}. Arguments d_update {V}.
Arguments d_del {V}. Arguments qsize {V}.
Arguments OPut {V}. Arguments OGet {V}. Arguments OClean {V}.
Arguments ODone {V}. Arguments OVal {V}. Arguments OLogged {V}. Arguments OWaiting {V}.
Arguments OExit {V}.
Arguments try_put {V}. Arguments try_get {V}. Arguments do_clean {V}. Arguments step {V}.
Arguments run {V}.
