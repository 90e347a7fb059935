(** Specification vocabulary for the shared array: what it holds in the serial run
    (model_framework.py 434-459: for every date, precipitation and then albedo). *)
From Coq Require Import List ZArith Bool Arith.
From Verif Require Import QueueModel PipelineModel PipelineSpec StormRaceModel.
Import ListNotations.

Section Spec.
Context {V L A : Type}.
Variable R : race V L A.
Variable B : nat.

Definition no_look : topo V L := inst R (fun _ _ => []).

(** The in-place statements of date index [m] in the serial run. *)
Definition date_ops (m : nat) : option (list (A -> A)) :=
  match serial_locals no_look B m with
  | None => None
  | Some loc =>
      match read_all no_look B (writer R) m (loc (writer R)) (serial_value no_look B m) [] with
      | None => None
      | Some vs => Some (ops R m (loc (writer R)) vs)
      end
  end.

Definition apply_ops (l : list (A -> A)) (x : A) : A := fold_left (fun y f => f y) l x.

(** The array after the first [m] dates of the serial run: what the serial run hands to
    albedo at date index [i] is [arr_after (S i)]. *)
Fixpoint arr_after (m : nat) : option A :=
  match m with
  | 0 => Some (arr0 R)
  | S n => match arr_after n, date_ops n with
           | Some x, Some l => Some (apply_ops l x)
           | _, _ => None
           end
  end.

(** [x] is the array between two in-place statements: all those of the first [m] dates
    and the first [j] ones of date index [m] have been executed. *)
Definition arr_at (m j : nat) (x : A) : Prop :=
  exists y, arr_after m = Some y /\
    match j with
    | 0 => x = y
    | _ => exists l, date_ops m = Some l /\ j <= length l /\ x = apply_ops (firstn j l) y
    end.

(** A well-formed graph with a shared array: the writer fills the queues that carry the
    reference, and it starts every date by reading queue [firstq].  [clean]: threads whose results cannot depend on the array, themselves
    included in what they read; the writer's queue values are of this kind. *)
Record race_wf (owner : nat -> nat) (clean : nat -> Prop) (firstq : nat) : Prop := {
  rw_wf : wf (skel R) B owner;
  rw_writer : writer R < nthreads (skel R);
  rw_refq : forall q, In q (refq R) -> In q (qids (skel R)) /\ owner q = writer R;
  rw_first : forall i l, nextq (skel R) (writer R) i l [] = Some firstq;
  rw_clean : clean (writer R);
  rw_blind : forall k i l vs x y, clean k -> k < nthreads (skel R) ->
    lfinish R k i l vs x = lfinish R k i l vs y;
  rw_closed : forall k i l vs q, clean k -> k < nthreads (skel R) ->
    nextq (skel R) k i l vs = Some q -> clean (owner q) }.

End Spec.
Arguments rw_wf {V L A R B owner clean firstq}. Arguments rw_writer {V L A R B owner clean firstq}.
Arguments rw_first {V L A R B owner clean firstq}. Arguments rw_refq {V L A R B owner clean firstq}. Arguments rw_clean {V L A R B owner clean firstq}.
Arguments rw_blind {V L A R B owner clean firstq}. Arguments rw_closed {V L A R B owner clean firstq}.
