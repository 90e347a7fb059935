(** C03, C04, C05, C06, C08, C55: the threaded run.  Each property is stated for every
    well-formed thread graph ([wf], PipelineSpec.v) and then for the graph that SMRF
    builds ([smrf_topo], SmrfTopo.v) under the configurations [good] (SmrfSpec.v).
    The computations of the modules ([comp], [positive], [loc0]) are arbitrary, a
    schedule is any list of thread numbers. *)
From Coq Require Import List ZArith Bool Arith Lia Permutation.
From Verif Require Import QueueModel PipelineModel PipelineSpec PipelineProofs StallProofs
  TraceProofs SmrfTopo SmrfSpec SmrfProofs.
Import ListNotations.

(** ** C03 no deadlock, termination *)
Theorem C03_no_deadlock :
  forall (V L : Type) (T : topo V L) B owner, wf T B owner ->
  forall sch s l, exec T (init T) sch = (s, l) -> ~ finished T s ->
  exists k s' e, k <= nthreads T /\ pstep T s k = Some (s', e).
Proof.
  intros V L T B owner Hwf sch s l E Hn.
  destruct (progress T B owner Hwf s (reach_inv T B owner Hwf _ _ _ E) Hn) as (k & s' & e & H).
  exists k, s', e. split; [exact (pstep_id_le T _ _ _ _ H)|exact H].
Qed.

Theorem C03_fair_runs_finish :
  forall (V L : Type) (T : topo V L) B owner, wf T B owner ->
  forall f, fair T f -> exists n, forall n', n <= n' ->
    finished T (fst (exec T (init T) (map f (seq 0 n')))).
Proof. intros V L T B owner Hwf f Hf. exact (fair_terminates T B owner Hwf f Hf). Qed.

(** The number of effective steps of any run is bounded, whatever the schedule. *)
Theorem C03_step_bound :
  forall (V L : Type) (T : topo V L) B owner, wf T B owner ->
  forall sch s l, exec T (init T) sch = (s, l) ->
  length l <= length (dates T) *
    (list_sum (map (fun k => B + owidth T owner k + 2) (seq 0 (nthreads T))) + (2 * length (qids T) + 3)).
Proof.
  intros V L T B owner Hwf sch s l E.
  pose proof (exec_meas T B owner Hwf _ _ _ _ (init_inv T B owner Hwf) E) as H.
  rewrite (meas_init T B owner) in H.
  change (fun k => B + owidth T owner k + 2) with (twidth T B owner).
  change (2 * length (qids T) + 3) with (cwidth T). lia.
Qed.

Theorem C03_smrf_no_deadlock :
  forall (V L : Type) (positive : V -> bool) comp (loc0 : nat -> L) c order maxvals dts,
  good c -> Permutation order (queue_names c) -> NoDup dts ->
  let T := smrf_topo positive comp loc0 c order maxvals dts in
  (forall sch s l, exec T (init T) sch = (s, l) -> ~ finished T s ->
     exists k s' e, pstep T s k = Some (s', e)) /\
  (forall f, fair T f -> exists n, forall n', n <= n' ->
     finished T (fst (exec T (init T) (map f (seq 0 n'))))).
Proof.
  intros V L positive comp loc0 c order m dts Hg Hp Hn T.
  pose proof (smrf_wf positive comp loc0 c order m dts Hg Hp Hn) as Hwf. split.
  - intros sch s l E Hnf. destruct (C03_no_deadlock _ _ T _ _ Hwf sch s l E Hnf) as (k & s' & e & _ & H).
    exists k, s', e; exact H.
  - exact (C03_fair_runs_finish _ _ T _ _ Hwf).
Qed.

(** ** C04 schedule independence *)
(** The serial run is defined for every date ... *)
Theorem C04_serial_defined :
  forall (V L : Type) (T : topo V L) B owner, wf T B owner ->
  forall i, (exists loc, serial_locals T B i = Some loc) /\
            (forall q, In q (qids T) -> exists v, serial_value T B i q = Some v).
Proof.
  intros V L T B owner Hwf i. split; [exact (serial_locals_total T B owner Hwf i)|].
  intros q Hq. destruct (serial_locals_total T B owner Hwf i) as [loc El].
  pose proof (wf_owner Hwf q Hq) as Ho.
  destruct (serial_fix T B owner Hwf i loc (owner q) El Ho) as (vs & loc' & _ & _ & _ & H).
  eexists. apply H. apply (wf_outs Hwf (owner q) i q Ho). auto.
Qed.

(** ... and every value ever put or read in a threaded run is the serial value. *)
Theorem C04_values_are_serial :
  forall (V L : Type) (T : topo V L) B owner, wf T B owner ->
  forall sch s l, exec T (init T) sch = (s, l) ->
  forall e, In e l ->
    match e with
    | EGet _ q d v | EPut _ q d v =>
        exists i, nth_error (dates T) i = Some d /\ serial_value T B i q = Some v
    | _ => True
    end.
Proof.
  intros V L T B owner Hwf sch s l E.
  exact (proj1 (Forall_forall _ _) (trace_values T B owner Hwf _ _ _ _ (init_inv T B owner Hwf) E)).
Qed.

(** A complete run puts on every queue exactly one value per date, in order, the
    serial one; and leaves every thread (the output thread in particular) in the
    private state that the serial run leaves it in. *)
Theorem C04_complete_run :
  forall (V L : Type) (T : topo V L) B owner, wf T B owner ->
  forall sch s l, exec T (init T) sch = (s, l) -> finished T s ->
  (forall q, In q (qids T) ->
     puts_on q l = combine (dates T)
                     (map (fun i => serial_value T B i q) (seq 0 (length (dates T)))) /\
     items (queues s q) = []) /\
  (forall loc k, serial_locals T B (length (dates T)) = Some loc -> k < nthreads T ->
     tlocal (threads s k) = loc k).
Proof.
  intros V L T B owner Hwf sch s l E Hf. pose proof (reach_inv T B owner Hwf _ _ _ E) as HI.
  split.
  - intros q Hq. split; [exact (finished_puts T B owner Hwf sch s l q E Hf Hq)|].
    exact (final_empty T B owner Hwf s q HI Hf Hq).
  - intros loc k El Hk. exact (final_locals T B owner s k loc HI Hf Hk El).
Qed.

(** Two complete runs of SMRF's graph under any two schedules, any two queue sizes and
    any two orders of the queue dict agree. *)
Theorem C04_smrf_schedule_independent :
  forall (V L : Type) (positive : V -> bool) comp (loc0 : nat -> L) c dts,
  good c -> NoDup dts ->
  forall order1 maxvals1 sch1 s1 l1 order2 maxvals2 sch2 s2 l2,
  Permutation order1 (queue_names c) -> Permutation order2 (queue_names c) ->
  let T1 := smrf_topo positive comp loc0 c order1 maxvals1 dts in
  let T2 := smrf_topo positive comp loc0 c order2 maxvals2 dts in
  exec T1 (init T1) sch1 = (s1, l1) -> finished T1 s1 ->
  exec T2 (init T2) sch2 = (s2, l2) -> finished T2 s2 ->
  (forall q, In q (queue_names c) -> puts_on q l1 = puts_on q l2) /\
  (forall k, k < 11 -> tlocal (threads s1 k) = tlocal (threads s2 k)).
Proof.
  intros V L positive comp loc0 c dts Hg Hn order1 m1 sch1 s1 l1 order2 m2 sch2 s2 l2 Hp1 Hp2 T1 T2 E1 F1 E2 F2.
  pose proof (smrf_wf positive comp loc0 c order1 m1 dts Hg Hp1 Hn) as W1.
  pose proof (smrf_wf positive comp loc0 c order2 m2 dts Hg Hp2 Hn) as W2.
  destruct (C04_complete_run _ _ T1 _ _ W1 _ _ _ E1 F1) as [A1 A2].
  destruct (C04_complete_run _ _ T2 _ _ W2 _ _ _ E2 F2) as [B1 B2].
  split.
  - intros q Hq. destruct (A1 q (Permutation_in _ (Permutation_sym Hp1) Hq)) as [-> _].
    destruct (B1 q (Permutation_in _ (Permutation_sym Hp2) Hq)) as [-> _]. reflexivity.
  - intros k Hk. destruct (serial_locals_total T1 _ _ W1 (length dts)) as [loc El].
    rewrite (A2 loc k El Hk). symmetry. apply (B2 loc k); [exact El|exact Hk].
Qed.

(** ** C05 a cleaned date is never read again, by anybody on any queue *)
Theorem C05_clean_then_no_get :
  forall (V L : Type) (T : topo V L) B owner, wf T B owner ->
  forall sch s l1 q d l2, exec T (init T) sch = (s, l1 ++ EClean q d :: l2) ->
  forall k q' v, ~ In (EGet k q' d v) l2.
Proof.
  intros V L T B owner Hwf sch s l1 q d l2 E k q' v.
  exact (clean_then_no_get T B owner Hwf _ _ _ _ _ _ _ _ _ _ (init_inv T B owner Hwf) E).
Qed.

(** ... and when the cleaner removes a date nobody is waiting for it. *)
Theorem C05_no_reader_waits_for_removed :
  forall (V L : Type) (T : topo V L) B owner, wf T B owner ->
  forall sch s l1 q d l2, exec T (init T) sch = (s, l1 ++ EClean q d :: l2) ->
  forall k, k < nthreads T -> nth_error (dates T) (tdate (threads s k)) = Some d ->
  tputs (threads s k) <> None.
Proof.
  intros V L T B owner Hwf sch s l1 q d l2 E k Hk Hd.
  exact (cleaned_not_reading T B owner Hwf _ _ _ _ _ _ E k Hk Hd).
Qed.

Theorem C05_smrf_clean_then_no_get :
  forall (V L : Type) (positive : V -> bool) comp (loc0 : nat -> L) c order maxvals dts,
  good c -> Permutation order (queue_names c) -> NoDup dts ->
  let T := smrf_topo positive comp loc0 c order maxvals dts in
  forall sch s l1 q d l2, exec T (init T) sch = (s, l1 ++ EClean q d :: l2) ->
  forall k q' v, ~ In (EGet k q' d v) l2.
Proof.
  intros V L positive comp loc0 c order m dts Hg Hp Hn T.
  exact (C05_clean_then_no_get _ _ T _ _ (smrf_wf positive comp loc0 c order m dts Hg Hp Hn)).
Qed.

(** ** C06 bounded memory *)
Theorem C06_bounded :
  forall (V L : Type) (T : topo V L) B owner, wf T B owner -> (0 < qmax T)%Z ->
  forall sch s l, exec T (init T) sch = (s, l) ->
  (forall q, In q (qids T) -> (qsize (queues s q) <= qmax T)%Z) /\
  (forall k, k < nthreads T ->
     (Z.of_nat (tdate (threads s k)) <= Z.of_nat (cdate (cleaner s)) + qmax T + 1)%Z).
Proof.
  intros V L T B owner Hwf Hm sch s l E. pose proof (reach_inv T B owner Hwf _ _ _ E) as HI. split.
  - intros q Hq. exact (queue_size T B owner s q HI Hq Hm).
  - intros k Hk. exact (ahead T B owner Hwf s k HI Hk Hm).
Qed.

Theorem C06_smrf_bounded :
  forall (V L : Type) (positive : V -> bool) comp (loc0 : nat -> L) c order maxvals dts,
  good c -> Permutation order (queue_names c) -> NoDup dts -> (0 < maxvals)%Z ->
  let T := smrf_topo positive comp loc0 c order maxvals dts in
  forall sch s l, exec T (init T) sch = (s, l) ->
  (forall q, In q (queue_names c) -> (qsize (queues s q) <= maxvals)%Z) /\
  (forall k, k < 11 ->
     (Z.of_nat (tdate (threads s k)) <= Z.of_nat (cdate (cleaner s)) + maxvals + 1)%Z).
Proof.
  intros V L positive comp loc0 c order m dts Hg Hp Hn Hm T sch s l E.
  destruct (C06_bounded _ _ T _ _ (smrf_wf positive comp loc0 c order m dts Hg Hp Hn) Hm sch s l E) as [A1 A2].
  split; [|exact A2]. intros q Hq. apply A1. exact (Permutation_in _ (Permutation_sym Hp) Hq).
Qed.

(** ** C08 output frequency above one: the cleaner never passes the second date, no
    module thread gets past date index maxvals + 2, the run never finishes. *)
Theorem C08_frequency_stalls :
  forall (V L : Type) (positive : V -> bool) comp (loc0 : nat -> L) c order maxvals d0 d1 rest,
  2 <= frequency c -> Permutation order (queue_names c) -> NoDup (d0 :: d1 :: rest) ->
  let T := smrf_topo positive comp loc0 c order maxvals (d0 :: d1 :: rest) in
  forall sch s l, exec T (init T) sch = (s, l) ->
  cdate (cleaner s) <= 1 /\ ~ finished T s /\
  ((0 < maxvals)%Z -> forall k, k < 10 -> (Z.of_nat (tdate (threads s k)) <= maxvals + 2)%Z).
Proof.
  intros V L positive comp loc0 c order m d0 d1 rest Hf Hp Hn T sch s l E.
  pose proof (freq_stall positive comp loc0 c order m _ sch s l d0 d1 rest Hf Hp Hn eq_refl E) as H.
  split; [exact H|]. split.
  - intros [_ Hfin]. simpl in Hfin. lia.
  - intros Hm k Hk.
    pose proof (smrf_ahead positive comp loc0 c order m _ sch s l k Hn
      (Permutation_NoDup (Permutation_sym Hp) (queue_names_nodup c)) Hm Hk E). lia.
Qed.

(** ** C55 solar cloud or vegetation correction off: nothing is ever cleaned, the run
    never finishes and no module thread gets past date index maxvals + 1. *)
Theorem C55_solar_correction_off_stalls :
  forall (V L : Type) (positive : V -> bool) comp (loc0 : nat -> L) c order maxvals d0 rest,
  s_cloud c = false \/ s_veg c = false ->
  Permutation order (queue_names c) -> NoDup (d0 :: rest) ->
  let T := smrf_topo positive comp loc0 c order maxvals (d0 :: rest) in
  forall sch s l, exec T (init T) sch = (s, l) ->
  cdate (cleaner s) = 0 /\ ~ finished T s /\
  ((0 < maxvals)%Z -> forall k, k < 10 -> (Z.of_nat (tdate (threads s k)) <= maxvals + 1)%Z).
Proof.
  intros V L positive comp loc0 c order m d0 rest Hf Hp Hn T sch s l E.
  pose proof (no_cloud_queue positive comp loc0 c order m _ sch s l d0 rest Hf Hp Hn eq_refl E) as H.
  split; [exact H|]. split.
  - intros [_ Hfin]. simpl in Hfin. lia.
  - intros Hm k Hk.
    pose proof (smrf_ahead positive comp loc0 c order m _ sch s l k Hn
      (Permutation_NoDup (Permutation_sym Hp) (queue_names_nodup c)) Hm Hk E). lia.
Qed.

(** ** Non-vacuity: a concrete SMRF graph, run with queues of one date over two dates
    under round robin, finishes; so all hypotheses above are met. *)
Definition ex_cfg := mkCfg true true true true true true true 1 [air_temp; net_solar; soil_temp].
Definition ex_comp (k i : nat) (l : list nat) (vs : list nat) : (nat -> nat) * list nat :=
  (fun q => 100 * i + q + list_sum vs, l ++ [list_sum vs]).
Definition ex_topo (c : cfg) (m : Z) (dts : list Z) :=
  smrf_topo Nat.even ex_comp (fun _ => []) c (rev (queue_names c)) m dts.

Example ex_good : good ex_cfg.
Proof. repeat split; auto. simpl. unfold output. intuition discriminate. Qed.

Example ex_wf : wf (ex_topo ex_cfg 1 [10; 20; 30]%Z) (Bnd ex_cfg) smrf_owner.
Proof.
  apply smrf_wf; [exact ex_good|apply Permutation_sym, Permutation_rev|].
  repeat constructor; simpl; intuition discriminate.
Qed.

Example ex_fair : fair (ex_topo ex_cfg 1 [10; 20; 30]%Z) (fun i => i mod 12).
Proof.
  intros k Hk m. simpl in Hk. unfold n_smrf_threads in Hk. exists (12 * m + k). split; [lia|].
  rewrite Nat.mul_comm, Nat.add_comm, Nat.mod_add by lia. apply Nat.mod_small. lia.
Qed.

Fixpoint robin (n : nat) : list nat :=
  match n with 0 => [] | S m => seq 0 12 ++ robin m end.

Example ex_run_finishes :
  let s := fst (exec (ex_topo ex_cfg 1 [10; 20]%Z) (init (ex_topo ex_cfg 1 [10; 20]%Z)) (robin 220)) in
  map (fun k => tdate (threads s k)) (seq 0 11) = repeat 2 11 /\ cdate (cleaner s) = 2.
Proof. vm_compute. split; reflexivity. Qed.

Example ex_run_frequency_2 :
  let c := mkCfg true true true true true true true 2 [air_temp] in
  let T := ex_topo c 1 [10; 20; 30; 40; 50]%Z in
  let s := fst (exec T (init T) (robin 220)) in
  cdate (cleaner s) = 1 /\ tdate (threads s 2) = 2.
Proof. vm_compute. split; reflexivity. Qed.

Example ex_run_no_cloud :
  let c := mkCfg true true true false true true true 1 [air_temp] in
  let T := ex_topo c 1 [10; 20; 30; 40; 50]%Z in
  let s := fst (exec T (init T) (robin 220)) in
  cdate (cleaner s) = 0 /\ tdate (threads s 2) = 1.
Proof. vm_compute. split; reflexivity. Qed.

Print Assumptions C03_no_deadlock.
Print Assumptions C03_fair_runs_finish.
Print Assumptions C03_step_bound.
Print Assumptions C03_smrf_no_deadlock.
Print Assumptions C04_serial_defined.
Print Assumptions C04_values_are_serial.
Print Assumptions C04_complete_run.
Print Assumptions C04_smrf_schedule_independent.
Print Assumptions C05_clean_then_no_get.
Print Assumptions C05_no_reader_waits_for_removed.
Print Assumptions C05_smrf_clean_then_no_get.
Print Assumptions C06_bounded.
Print Assumptions C06_smrf_bounded.
Print Assumptions C08_frequency_stalls.
Print Assumptions C55_solar_correction_off_stalls.
