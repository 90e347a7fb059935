(** Specification vocabulary for the date queue: only the log of calls and their
    visible outcomes, nothing of the queue's representation. *)
From Coq Require Import List ZArith.
From Verif Require Import QueueModel.
Import ListNotations.
Local Open Scope Z_scope.

Section Spec.
Variable V : Type.

(** Did this logged event store [v] under date [d]?  A put that returned without
    logging an error did. *)
Definition stores (ev : op V * out V) (d : Z) (v : V) : Prop :=
  exists b e, ev = (OPut d v b e, ODone).
(** Did this logged event remove date [d]? *)
Definition removes (ev : op V * out V) (d : Z) : Prop := ev = (OClean d, ODone).

(** [v] is the current value for [d] after log [l] (oldest first): some event
    stored it, and no later event stored or removed [d]. *)
Definition current (l : list (op V * out V)) (d : Z) (v : V) : Prop :=
  exists l1 ev l2, l = l1 ++ ev :: l2 /\ stores ev d v /\
    forall ev', In ev' l2 -> ~ removes ev' d /\ forall v', ~ stores ev' d v'.

(** [ds] lists the dates that currently have a value, once each. *)
Definition present (l : list (op V * out V)) (ds : list Z) : Prop :=
  NoDup ds /\ forall d, In d ds <-> exists v, current l d v.

(** the time-out in force after log [l] when the queue was created with [t0]:
    that of the latest get that was given one. *)
Fixpoint timeout_in_force (t0 : option Z) (l : list (op V * out V)) : option Z :=
  match l with
  | [] => t0
  | (OGet _ _ (Some t) _, _) :: r => timeout_in_force (Some t) r
  | _ :: r => timeout_in_force t0 r
  end.
Definition nputs (l : list (op V * out V)) : nat :=
  length (filter (fun ev => match ev with (OPut _ _ _ _, ODone) => true | _ => false end) l).
(** What a get of an absent date shows: a blocking call without any time-out in
    force waits; with one it waits until the time is up and then ends the thread; a
    non-blocking call returns None, logging Empty when the queue holds nothing at
    all and KeyError otherwise. *)
Definition get_absent_outcome (tmo_in_force : option Z) (block : bool) (tm : option Z)
           (expired anything : bool) : out V :=
  if block then
    match tm, tmo_in_force with
    | None, None => OWaiting
    | _, _ => if expired then OExit else OWaiting
    end
  else OLogged (if anything then E_KeyError else E_Empty).
End Spec.
Arguments stores {V}. Arguments removes {V}. Arguments current {V}. Arguments present {V}.
Arguments timeout_in_force {V}. Arguments nputs {V}. Arguments get_absent_outcome {V}.
