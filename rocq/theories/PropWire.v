(** C78: the threaded run and the serial run compute the same fields and write the same
    files.  The computations of the modules are arbitrary; the schedule is any list of
    thread numbers. *)
From Coq Require Import List ZArith Bool Arith Lia Permutation.
From Verif Require Import QueueModel PipelineModel PipelineSpec TraceProofs SmrfTopo SmrfSpec SmrfProofs
  WireModel WireSpec WireProofs PropPipeline.
Import ListNotations.

(** Every value that a thread puts on a queue or gets from it for a date is the variable
    of that name after the serial run's step for that date. *)
Theorem C78_same_values :
  forall (V L Row : Type) (P : parts V L Row) c (o0 : objs V L) order maxvals dts,
  good c -> Permutation order (queue_names c) -> NoDup dts ->
  rescaling c = false \/ same_speed P ->
  let T := smrf_topo (positive P) (thread_step P c dts) o0 c order maxvals dts in
  forall sch s l, exec T (init T) sch = (s, l) ->
  forall e, In e l ->
    match e with
    | EGet _ q d v | EPut _ q d v =>
        q <> output -> exists i, nth_error dts i = Some d /\
          v = variable P (serial_distribute P c (serial_run P c o0 0 (firstn i dts)) d) q
    | _ => True
    end.
Proof.
  intros V L Row P c o0 order maxvals dts Hg Hp Hn Hs T sch s l E e He.
  pose proof (HW P c o0 dts order maxvals Hg Hp Hn) as Hwf.
  assert (K : forall q d v, (exists i, nth_error dts i = Some d /\ serial_value T (Bnd c) i q = Some v) ->
    In q (queue_names c) -> q <> output -> exists i, nth_error dts i = Some d /\
    v = variable P (serial_distribute P c (serial_run P c o0 0 (firstn i dts)) d) q).
  { intros q d v (i & Hi & Hv) Hq Ho. exists i. split; [exact Hi|].
    pose proof (value_at P c o0 dts order maxvals Hg Hp Hn Hs i d q Hi Hq Ho) as H.
    change (serial_value T (Bnd c) i q = Some (variable P (serial_distribute P c (objs_at P c o0 dts i) d) q)) in H.
    rewrite Hv in H. injection H as H. exact H. }
  pose proof (C04_values_are_serial _ _ T _ _ Hwf sch s l E e He) as H.
  assert (Hq : match e with EGet _ q _ _ | EPut _ q _ _ => In q (queue_names c) | _ => True end).
  { destruct e as [k q d v|k q d v|q d|k]; try exact I;
    destruct H as (i & Hi & Hv);
    (destruct (in_dec Nat.eq_dec q (queue_names c)) as [Hin|Hni]; [exact Hin|exfalso]);
    exact (serial_value_in P c o0 dts order maxvals Hg Hs i q v Hni Hv). }
  destruct e as [k q d v|k q d v|q d|k]; try exact I; intros Ho; apply K; assumption.
Qed.

(** When a threaded run has finished, every module is in the state in which the serial
    run leaves it, and so are the output files when every output variable has a queue. *)
Theorem C78_same_files :
  forall (V L Row : Type) (P : parts V L Row) c (o0 : objs V L) order maxvals dts,
  good c -> Permutation order (queue_names c) -> NoDup dts ->
  rescaling c = false \/ same_speed P ->
  let T := smrf_topo (positive P) (thread_step P c dts) o0 c order maxvals dts in
  forall sch s l, exec T (init T) sch = (s, l) -> finished T s ->
  (forall k, 2 <= k <= 9 -> tlocal (threads s k) = serial_run P c o0 0 dts k) /\
  (outputs_queued c -> tlocal (threads s 10) = serial_run P c o0 0 dts 10).
Proof.
  intros V L Row P c o0 order maxvals dts Hg Hp Hn Hs T sch s l E F.
  pose proof (HW P c o0 dts order maxvals Hg Hp Hn) as Hwf.
  destruct (C04_complete_run _ _ T _ _ Hwf sch s l E F) as [_ A].
  destruct (C04_serial_defined _ _ T _ _ Hwf (length dts)) as [[loc El] _].
  destruct (locals_at P c o0 dts order maxvals Hg Hp Hn Hs (length dts) (le_n _) loc El) as [I1 I2].
  unfold objs_at in I1, I2. rewrite firstn_all in I1, I2. split.
  - intros k Hk. rewrite (A loc k El); [exact (I1 k Hk)|]. change (k < 11). lia.
  - intros Ho. rewrite (A loc 10 El); [exact (I2 Ho)|]. change (10 < 11). lia.
Qed.

(** ** A concrete set of modules: values and states are numbers, every argument counts *)
Definition ex_obj (n : Z) : obj Z Z := mkObj n (fun v => n + Z.of_nat v)%Z.
Definition ex_parts : parts Z Z Z := (
  mkParts (fun t => (t mod 3, t)) (fun a c => 2 * a + c) (fun v => 0 <? v) 0 (fun v => v) 1
    (fun s t => t + match s with DAirTemp => 1 | DVaporPressure => 2 | DPrecip => 3 | DWindSpeed => 4
                             | DWindDirection => 5 | DCloudFactor => 6 end)
    (fun o r => ex_obj (inner o + r))
    (fun o r a => ex_obj (inner o + 2 * r + 3 * a))
    (fun l r1 r2 t => l + r1 + 2 * r2) (fun l => l) (fun l v => l + Z.of_nat v)
    (fun o r a b d t r1 r2 => ex_obj (inner o + r + 2 * a + 3 * b + 4 * d + 5 * r1 + 6 * r2))
    (fun o a b d e f => ex_obj (inner o + a + 2 * b + 3 * d + 4 * e + 5 * f))
    (fun o t a b => ex_obj (inner o + a + 2 * b))
    (fun o r => ex_obj (inner o + r))
    (fun o t a b d e f g => ex_obj (inner o + a + 2 * b + 3 * d + 4 * e + 5 * f + 6 * g))
    (fun o t a b d e => ex_obj (inner o + a + 2 * b + 3 * d + 4 * e))
    (fun o v x t => ex_obj (inner o * 2 + Z.of_nat v + x)))%Z.
Definition ex_objs (k : nat) : obj Z Z := ex_obj (Z.of_nat k).

Definition ex_conf (r : bool) := mkCfg true r true true true true true 1 [precip; net_solar; thermal].
Definition ex_wire (r : bool) :=
  smrf_topo (positive ex_parts) (thread_step ex_parts (ex_conf r) [10; 20]%Z) ex_objs (ex_conf r)
    (queue_names (ex_conf r)) 1 [10; 20]%Z.

(** a finished run: all threads at the end *)
Lemma finished_by (V L : Type) (T : topo V L) (s : state V L) :
  nthreads T = 11 -> length (dates T) = 2 ->
  map (fun k => tdate (threads s k)) (seq 0 11) = repeat 2 11 -> cdate (cleaner s) = 2 -> finished T s.
Proof.
  intros H11 H2 E1 E2. split; [|rewrite H2; exact E2]. intros k Hk. rewrite H11 in Hk. rewrite H2.
  set (f := fun k => tdate (threads s k)) in *. change (f k = 2). clearbody f.
  assert (H : nth_error (map f (seq 0 11)) k = Some (f k)).
  { rewrite (map_nth_error f k (seq 0 11) (d := k)); [reflexivity|].
    clear - Hk. do 11 (destruct k as [|k]; [reflexivity|]). lia. }
  rewrite E1 in H. clear - H Hk. do 11 (destruct k as [|k]; [injection H as <-; reflexivity|]). lia.
Qed.

Lemma ex_runs (r : bool) : let x := exec (ex_wire r) (init (ex_wire r)) (robin 220) in
  map (fun k => tdate (threads (fst x) k)) (seq 0 11) = repeat 2 11 /\ cdate (cleaner (fst x)) = 2.
Proof. destruct r; vm_compute; split; reflexivity. Qed.

Lemma ex_good (r : bool) : good (ex_conf r).
Proof. repeat split; auto. cbn. unfold output, precip, net_solar, thermal. intuition discriminate. Qed.

Lemma ex_dates : NoDup [10; 20]%Z.
Proof. repeat constructor; cbn; intuition discriminate. Qed.

Example C78_hypotheses_met :
  good (ex_conf false) /\ NoDup [10; 20]%Z /\ outputs_queued (ex_conf false) /\
  finished (ex_wire false) (fst (exec (ex_wire false) (init (ex_wire false)) (robin 220))).
Proof.
  split; [|split; [|split]].
  - exact (ex_good false).
  - exact ex_dates.
  - intros v Hv. cbn [outvars ex_conf In] in Hv.
    destruct Hv as [<-|[<-|[<-|[]]]]; (split; [vm_compute; tauto|vm_compute; discriminate]).
  - destruct (ex_runs false) as [E1 E2]. apply finished_by; [reflexivity|reflexivity|exact E1|exact E2].
Qed.

(** ** With rescaling, precipitation gets the wind speed in a serial run and the flat
    wind in a threaded run: the runs differ. *)
Lemma ex_threaded_precip :
  inner (tlocal (threads (fst (exec (ex_wire true) (init (ex_wire true)) (robin 220))) 5)) <>
  inner (serial_run ex_parts (ex_conf true) ex_objs 0 [10; 20]%Z 5).
Proof. vm_compute. discriminate. Qed.

Theorem C78_rescaling_refuted :
  ~ (forall (V L Row : Type) (P : parts V L Row) c (o0 : objs V L) order maxvals dts,
     good c -> Permutation order (queue_names c) -> NoDup dts ->
     let T := smrf_topo (positive P) (thread_step P c dts) o0 c order maxvals dts in
     forall sch s l, exec T (init T) sch = (s, l) -> finished T s ->
     forall k, 2 <= k <= 9 -> tlocal (threads s k) = serial_run P c o0 0 dts k).
Proof.
  intros H.
  specialize (H Z Z Z ex_parts (ex_conf true) ex_objs (queue_names (ex_conf true)) 1%Z [10; 20]%Z (ex_good true)
    (Permutation_refl _) ex_dates). cbv zeta in H. fold (ex_wire true) in H.
  pose proof (ex_runs true) as R. pose proof ex_threaded_precip as D. revert H R D. cbv zeta.
  generalize (serial_run ex_parts (ex_conf true) ex_objs 0 [10; 20]%Z). intros o H.
  specialize (H (robin 220)). revert H.
  destruct (exec (ex_wire true) (init (ex_wire true)) (robin 220)) as [s l]. cbn [fst]. intros H [E1 E2] D.
  apply D. f_equal. apply (H s l eq_refl); [|lia].
  apply finished_by; [reflexivity|reflexivity|exact E1|exact E2].
Qed.

Print Assumptions C78_same_values.
Print Assumptions C78_same_files.
Print Assumptions C78_rescaling_refuted.
