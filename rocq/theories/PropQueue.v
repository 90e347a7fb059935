(** C01, C02, C54: the date queue (smrf/utils/queue.py, DateQueueThreading). *)
From Coq Require Import List ZArith Bool Lia.
From Verif Require Import QueueModel QueueSpec QueueProofs.
Import ListNotations.
Local Open Scope Z_scope.

(** C01: after any history, a get returns [v] exactly when [v] is the value of the
    latest accepted put for that date not followed by a clean of it; what get, put
    and clean do to the other dates is part of [current]. *)
Theorem C01_get_returns_latest :
  forall (V : Type) (m : Z) (t0 : option Z) (h : list (op V)) q l d b tm e v,
    run (q_new m t0) h = (q, l) ->
    (snd (step q (OGet d b tm e)) = OVal v <-> current l d v).
Proof. intros V m t0 h q l d b tm e v. exact (get_current m t0 h q l d b tm e v). Qed.

Theorem C01_get_of_absent_date :
  forall (V : Type) (m : Z) (t0 : option Z) (h : list (op V)) q l d b tm e ds,
    run (q_new m t0) h = (q, l) -> present l ds -> ~ In d ds ->
    snd (step q (OGet d b tm e)) =
    get_absent_outcome (timeout_in_force t0 l) b tm e (match ds with [] => false | _ => true end).
Proof. intros V m t0 h q l d b tm e ds. exact (get_absent m t0 h q l d b tm e ds). Qed.

(** C02: capacity. *)
Theorem C02_never_above_maxsize :
  forall (V : Type) (m : Z) (t0 : option Z) (h : list (op V)) q l ds,
    0 < m -> run (q_new m t0) h = (q, l) -> present l ds -> Z.of_nat (length ds) <= m.
Proof. intros V m t0 h q l ds. exact (capacity m t0 h q l ds). Qed.

(** C02: the outcome of every put, and that a put which did not report success
    leaves the whole object unchanged. *)
Theorem C02_put_outcome :
  forall (V : Type) (m : Z) (t0 : option Z) (h : list (op V)) q l ds d v b e,
    run (q_new m t0) h = (q, l) -> present l ds ->
    snd (step q (OPut d v b e)) =
    (if (0 <? m) && (Z.of_nat (length ds) =? m) then
       if b then match timeout_in_force t0 l with
                 | None => OWaiting
                 | Some _ => if e then OExit else OWaiting
                 end
       else OLogged E_Full
     else ODone).
Proof. intros V m t0 h q l ds d v b e. exact (put_outcome m t0 h q l ds d v b e). Qed.

Theorem C02_refused_put_changes_nothing :
  forall (V : Type) (q : queue V) d v b e,
    snd (step q (OPut d v b e)) <> ODone -> fst (step q (OPut d v b e)) = q.
Proof. intros V q d v b e. exact (not_done_unchanged q d v b e). Qed.

(** every history has a [present] list, so the hypotheses above are always met *)
Theorem C02_present_exists :
  forall (V : Type) (m : Z) (t0 : option Z) (h : list (op V)) q l,
    run (q_new m t0) h = (q, l) -> exists ds, present l ds.
Proof. intros V m t0 h q l H. exact (ex_intro _ _ (present_exists m t0 h q l H)). Qed.

Theorem C02_unfinished_tasks_counts_accepted_puts :
  forall (V : Type) (m : Z) (t0 : option Z) (h : list (op V)) q l,
    run (q_new m t0) h = (q, l) -> tasks q = nputs l.
Proof. intros V m t0 h q l. exact (tasks_count m t0 h q l). Qed.

(** C54: a time-out passed to one get stays in force for every later put and get:
    a blocking put on a full queue made after [get(..., timeout=t)] can end the
    calling thread although the queue was created without time-out. *)
Theorem C54_timeout_is_sticky :
  forall (V : Type) (m : Z) (h1 h2 : list (op V)) d b t e,
    Forall (fun o => match o with OGet _ _ (Some _) _ => False | _ => True end) h2 ->
    timeout (fst (run (q_new m None) (h1 ++ OGet d b (Some t) e :: h2))) = Some t.
Proof. exact (fun V m h1 h2 d b t e => @timeout_sticky V m None h1 h2 d b t e). Qed.

(** Concrete non-trivial cases. *)
Definition ex_hist : list (op Z) :=
  [OPut 1 10 true false; OPut 2 20 true false; OGet 1 true None false; OPut 3 30 false false;
   OPut 1 11 true false; OClean 1; OPut 1 12 true false; OPut 4 40 true false].

Example C01_example :
  exists q l, run (q_new 2 None) ex_hist = (q, l) /\ current l 1 12 /\ current l 2 20 /\
              present l [2; 1] /\
              map snd l = [ODone; ODone; OVal 10; OLogged E_Full; OWaiting; ODone; ODone; OWaiting].
Proof.
  destruct (run (q_new 2 None) ex_hist) as [q l] eqn:E. exists q, l. split; [reflexivity|].
  pose proof (present_exists _ _ _ _ _ E) as Hp.
  pose proof (fun d b tm e v => get_current _ _ _ _ _ d b tm e v E) as Hg.
  vm_compute in E. injection E as <- <-.
  split; [|split; [|split]].
  - apply (Hg 1 true None false). reflexivity.
  - apply (Hg 2 true None false). reflexivity.
  - exact Hp.
  - reflexivity.
Qed.
Example C54_example :
  snd (step (fst (run (q_new 1 None) [OPut 1 10 true false; OGet 1 true (Some 5) false]))
            (OPut 2 20 true true)) = (OExit : out Z).
Proof. reflexivity. Qed.

Print Assumptions C01_get_returns_latest.
Print Assumptions C01_get_of_absent_date.
Print Assumptions C02_never_above_maxsize.
Print Assumptions C02_put_outcome.
Print Assumptions C02_refused_put_changes_nothing.
Print Assumptions C02_present_exists.
Print Assumptions C02_unfinished_tasks_counts_accepted_puts.
Print Assumptions C54_timeout_is_sticky.
