(** Model of the array [storm_days] that the precipitation thread puts on its queue and
    goes on changing: smrf/distribute/precipitation.py 327-519, smrf/envphys/storms.py
    5-111, smrf/distribute/albedo.py 158-186, smrf/utils/queue.py 259-288.

    [self.storm_days] is one numpy array for the whole run.  Every statement that
    changes it changes it in place: [self.storm_days += ...] (precipitation.py 395,
    447), [stormDays += 1] and [stormDays[idx_mass] = 0] (storms.py 44, 65),
    [stormDays += time_step] and [stormDays[...] = 0] (storms.py 99, 109); the functions
    of storms.py return the array they were given (67, 111).  So what is put on the
    queue for a date (precipitation.py 515) is a reference to that one array, and a
    thread that got it from the queue sees its content at the moment it looks.

    The threads are those of PipelineModel.v.  Added to them are the array [arr], the
    number [ndone] of in-place statements that the writer has executed for its current
    date, and what each thread has seen of the array for its current date ([looks]).

    Simplifications: an in-place statement on the whole array is atomic (numpy may
    release the interpreter lock in the middle, which gives more mixed contents);
    assignments of the writer that do not touch the array are part of its private
    computation. *)
From Coq Require Import List ZArith Bool Arith QArith Qcanon.
From Verif Require Import Num StormsModel QueueModel PipelineModel SmrfTopo.
Import ListNotations.
Local Open Scope nat_scope.

Section Race.
Variables V L A : Type.

Record race := mkRace {
  skel : topo V L;                  (* the graph; its [finish] is not used *)
  lfinish : nat -> nat -> L -> list V -> list A -> (nat -> V) * L;
                                    (* as [finish], with what the thread saw of the array *)
  writer : nat;                     (* the thread that owns the array *)
  refq : list nat;                  (* the queues that carry the reference *)
  ops : nat -> L -> list V -> list (A -> A);
                                    (* the writer's in-place statements for a date *)
  arr0 : A }.

Variable R : race.

(** The graph in which thread [k] has seen [a k i] at date index [i]. *)
Definition inst (a : nat -> nat -> list A) : topo V L :=
  mkTopo (nthreads (skel R)) (qids (skel R)) (qmax (skel R)) (dates (skel R))
         (nextq (skel R)) (fun k i l vs => lfinish R k i l vs (a k i))
         (outs (skel R)) (init_local (skel R)).

Record rstate := mkRS {
  base : state V L; arr : A; ndone : nat; looks : nat -> list A }.

(** precipitation.py 127 or 157 (initialize): the array is created once. *)
Definition rinit : rstate := mkRS (init (skel R)) (arr0 R) 0 (fun _ => []).

(** The thread has made all its gets for its date and is computing. *)
Definition computing (b : state V L) (k : nat) : bool :=
  let t := threads b k in
  match nth_error (dates (skel R)) (tdate t), tputs t, nextq (skel R) k (tdate t) (tlocal t) (treads t) with
  | Some _, None, None => true
  | _, _, _ => false
  end.

(** The in-place statements of the writer for its current date. *)
Definition cur_ops (b : state V L) : list (A -> A) :=
  let t := threads b (writer R) in ops R (tdate t) (tlocal t) (treads t).

(** The thread got the reference from a queue for its current date and has not yet put
    its results. *)
Definition holds (b : state V L) (k : nat) : bool :=
  let t := threads b k in
  match tputs t with
  | Some _ => false
  | None =>
      existsb (fun n => match nextq (skel R) k (tdate t) (tlocal t) (firstn n (treads t)) with
                        | Some q => existsb (Nat.eqb q) (refq R)
                        | None => false
                        end) (seq 0 (length (treads t)))
  end.

(** What the scheduler may do: let a thread make its next queue operation or finish its
    computation, let the writer execute its next in-place statement, or let a thread
    that holds the reference look at the array. *)
Inductive act := Step (k : nat) | Mutate | Look (k : nat).

Definition rstep (s : rstate) (x : act) : option (rstate * list (event V)) :=
  match x with
  | Step k =>
      let c := (k <? nthreads (skel R)) && computing (base s) k in
      if c && (k =? writer R) && (ndone s <? length (cur_ops (base s))) then None
      else match pstep (inst (fun j _ => looks s j)) (base s) k with
           | None => None
           | Some (b, e) =>
               Some (mkRS b (arr s)
                       (if c && (k =? writer R) then 0 else ndone s)
                       (if c then upd (looks s) k [] else looks s), [e])
           end
  | Mutate =>
      if computing (base s) (writer R) then
        match nth_error (cur_ops (base s)) (ndone s) with
        | Some f => Some (mkRS (base s) (f (arr s)) (S (ndone s)) (looks s), [])
        | None => None
        end
      else None
  | Look k =>
      if (k <? nthreads (skel R)) && holds (base s) k then
        Some (mkRS (base s) (arr s) (ndone s) (upd (looks s) k (looks s k ++ [arr s])), [])
      else None
  end.

(** As [exec]: what cannot be done is skipped. *)
Fixpoint rexec (s : rstate) (sch : list act) : rstate * list (event V) :=
  match sch with
  | [] => (s, [])
  | x :: r => match rstep s x with
              | None => rexec s r
              | Some (s1, e) => let '(s2, l) := rexec s1 r in (s2, e ++ l)
              end
  end.
End Race.
Arguments mkRace {V L A}. Arguments skel {V L A}. Arguments lfinish {V L A}.
Arguments writer {V L A}. Arguments refq {V L A}. Arguments ops {V L A}. Arguments arr0 {V L A}.
Arguments inst {V L A}. Arguments mkRS {V L A}. Arguments base {V L A}. Arguments arr {V L A}.
Arguments ndone {V L A}. Arguments looks {V L A}. Arguments rinit {V L A}.
Arguments computing {V L A}. Arguments cur_ops {V L A}. Arguments holds {V L A}.
Arguments rstep {V L A}. Arguments rexec {V L A}.

(** ** The in-place statements *)
Local Open Scope Qc_scope.

(** Per pixel: (storm_days, storm_total).  [susong_ops]: precipitation.py 447 or
    storms.py 44 followed by 45-48 (no snow), or by 50-59 and 61-65.  The assignments to
    storm_total (56, 59 in place, 47 a new array) belong to the writer's own state: no
    thread but the output thread reads storm_total, and its races are not modelled. *)
Definition add_days (x : Qc) (st : list (Qc * Qc)) : list (Qc * Qc) :=
  map (fun p => (fst p + x, snd p)) st.
Definition set_totals (time : Qc) (f : list (Qc * Qc)) (st : list (Qc * Qc)) : list (Qc * Qc) :=
  map (fun x => (fst (snd x),
                 if Qcleb (q 1 2) (snd (fst x)) then fst (fst x)
                 else if Qcleb time (fst (snd x)) then 0 else snd (snd x))) (combine f st).
Definition zero_totals (f : list (Qc * Qc)) (st : list (Qc * Qc)) : list (Qc * Qc) :=
  map (fun x => (fst (snd x), 0)) (combine f st).
Definition reset_days (mass : Qc) (st : list (Qc * Qc)) : list (Qc * Qc) :=
  map (fun p => (if Qcleb mass (snd p) then 0 else fst p, snd p)) st.

Definition susong_ops (ts mass time : Qc) (e : sstep) : list (list (Qc * Qc) -> list (Qc * Qc)) :=
  match e with
  | SDry => [add_days ts]
  | SWet f => if Qceqb (qsum (map (fun x => snd x) f)) 0 then [add_days 1; zero_totals f]
              else [add_days 1; set_totals time f; reset_days mass]
  end.

(** Per pixel storm_days.  [marks_ops]: precipitation.py 395, or storms.py 99 and, when
    storming and cold, 109. *)
Definition marks_reset (mass : Qc) (f : list (num * num * num)) (st : list Qc) : list Qc :=
  map (fun x => if geb (fst (fst (fst x))) mass && geb (snd (fst (fst x))) (q 1 2) then 0 else snd x)
      (combine f st).
Definition marks_ops (ts mass : Qc) (e : mstep) : list (list Qc -> list Qc) :=
  match e with
  | MDry => [map (fun d => d + ts)]
  | MWet storming f =>
      let cold := match np_min (map snd f) with Some m => Qcltb m (q 2 1) | None => false end in
      map (fun d => d + ts) :: (if storming && cold then [marks_reset mass f] else [])
  end.

(** ** SMRF *)
Local Open Scope nat_scope.
Section SmrfRace.
Variables V L A : Type.
Variable positive : V -> bool.
(** The modules' computations; only the albedo thread (albedo.py 178-180) and the output
    thread (queue.py 275, 284) are given what they saw of the array. *)
Variable comp : nat -> nat -> L -> list V -> list A -> (nat -> V) * L.
Variable loc0 : nat -> L.
Variable sops : nat -> L -> list V -> list (A -> A).
Variable days0 : A.

Definition smrf_finish (k i : nat) (l : L) (vs : list V) (seen : list A) : (nat -> V) * L :=
  comp k i l vs (if (k =? 6) || (k =? 10) then seen else []).

Definition smrf_race (c : cfg) (order : list nat) (maxvals : Z) (dts : list Z) : race V L A :=
  mkRace (smrf_topo positive (fun k i l vs => smrf_finish k i l vs []) loc0 c order maxvals dts)
         smrf_finish 5 [storm_days] sops days0.
End SmrfRace.
Arguments smrf_finish {V L A}. Arguments smrf_race {V L A}.
