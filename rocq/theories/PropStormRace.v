(** C50: the array of storm days is put on the queue by reference and changed in place
    afterwards.  The machine is in StormRaceModel.v, the serial contents of the array
    ([arr_after], [arr_at]) in StormRaceSpec.v. *)
From Coq Require Import List ZArith Bool Arith Lia Permutation QArith Qcanon.
From Verif Require Import Num StormsModel QueueModel PipelineModel PipelineSpec PipelineProofs
  SmrfTopo SmrfSpec SmrfProofs StormRaceModel StormRaceSpec StormRaceProofs StormRaceDrive.
Import ListNotations.
Local Open Scope nat_scope.

(** The threads that neither look at the array nor read anything computed from it: all
    but albedo (6), solar (8) and output (10). *)
Definition smrf_clean (k : nat) : Prop := k <> 6 /\ k <> 8 /\ k <> 10.

Ltac is_clean := unfold smrf_clean; vm_compute; repeat split; intros X; discriminate X.

Section Smrf.
Context {V L A : Type}.
Variables (positive : V -> bool)
  (comp : nat -> nat -> L -> list V -> list A -> (nat -> V) * L) (loc0 : nat -> L)
  (sops : nat -> L -> list V -> list (A -> A)) (days0 : A).

Notation R c order m dts := (smrf_race positive comp loc0 sops days0 c order m dts).

Lemma smrf_race_wf c order m dts :
  good c -> Permutation order (queue_names c) -> NoDup dts ->
  race_wf (R c order m dts) (Bnd c) smrf_owner smrf_clean dew_point.
Proof.
  intros Hg Hp Hn. split.
  - exact (smrf_wf positive (fun k i l vs => smrf_finish comp k i l vs []) loc0 c order m dts Hg Hp Hn).
  - simpl. unfold n_smrf_threads. lia.
  - simpl. intros q [<-|[]]. split; [|reflexivity].
    apply (Permutation_in _ (Permutation_sym Hp)). apply in_queue_names_base. simpl. tauto.
  - intros i l. reflexivity.
  - unfold smrf_clean; simpl; lia.
  - intros k i l vs x y (H6 & _ & H10) _. simpl. unfold smrf_finish.
    destruct (Nat.eqb_spec k 6); [contradiction|]. destruct (Nat.eqb_spec k 10); [contradiction|]. reflexivity.
  - intros k i l vs q (H6 & H8 & H10) Hk Hq. simpl in Hk, Hq. unfold n_smrf_threads in Hk.
    unfold smrf_nextq in Hq. destruct (Nat.eqb_spec k 1) as [->|H1].
    + destruct vs as [|v [|]]; [injection Hq as <-; is_clean| |discriminate].
      destruct (positive v); [|discriminate]. injection Hq as <-. is_clean.
    + apply nth_error_In in Hq.
      destruct k as [|[|[|[|[|[|[|[|[|[|[|k]]]]]]]]]]]; try contradiction; try (now destruct H6);
        try (now destruct H8); try (now destruct H10).
      * simpl in Hq. destruct Hq as [<-|[]]. is_clean.
      * simpl in Hq.
        destruct (rescaling c); simpl in Hq;
          repeat (destruct Hq as [<-|Hq]; [is_clean|]); contradiction.
      * simpl in Hq.
        repeat (destruct Hq as [<-|Hq]; [is_clean|]); contradiction.
Qed.

(** Whatever the schedule, what a thread sees of the array for the date with index [i]
    is its serial content after [m] whole dates and [j] statements of the next one,
    where [i < m] and, with queues of [maxvals] dates, date index [m - 1] (or [m], if
    [j] is not 0) is at most [i + maxvals - 1]. *)
Theorem C50_seen :
  forall c order maxvals dts, good c -> Permutation order (queue_names c) -> NoDup dts ->
  forall sch s l, rexec (R c order maxvals dts) (rinit (R c order maxvals dts)) sch = (s, l) ->
  forall k x, k < 11 -> In x (looks s k) ->
  exists m j, arr_at (R c order maxvals dts) (Bnd c) m j x /\
    tdate (threads (base s) k) < m /\
    ((0 < maxvals)%Z ->
     (Z.of_nat (m + (if j =? 0 then 0 else 1)%nat) <= Z.of_nat (tdate (threads (base s) k)) + maxvals)%Z).
Proof.
  intros c order mv dts Hg Hp Hn sch s l E k x Hk Hx.
  pose proof (smrf_race_wf c order mv dts Hg Hp Hn) as HW.
  exact (ri_sight _ _ _ _ (reach_rinv _ _ _ _ _ HW sch s l E) k x Hk Hx).
Qed.

(** Hence no race with queues of one date: everybody sees what the serial run shows. *)
Theorem C50_capacity_one :
  forall c order dts, good c -> Permutation order (queue_names c) -> NoDup dts ->
  forall sch s l, rexec (R c order 1 dts) (rinit (R c order 1 dts)) sch = (s, l) ->
  forall k x, k < 11 -> In x (looks s k) ->
  arr_after (R c order 1 dts) (Bnd c) (S (tdate (threads (base s) k))) = Some x.
Proof.
  intros c order dts Hg Hp Hn sch s l E k x Hk Hx.
  destruct (C50_seen c order 1%Z dts Hg Hp Hn sch s l E k x Hk Hx) as (m & j & (y & Hy & Hj) & H1 & H2).
  specialize (H2 ltac:(lia)). destruct j as [|j]; cbn [Nat.eqb] in H2; [|lia].
  subst x. replace (S (tdate (threads (base s) k))) with m by lia. exact Hy.
Qed.

(** The bound is reached: for any number [n] of dates that fit in the queues there is a
    schedule in which albedo sees, for the very first date, the array of the [n]-th. *)
Theorem C50_ahead_reached :
  forall c order maxvals dts n, good c -> Permutation order (queue_names c) -> NoDup dts ->
  0 < n -> n <= length dts -> ((0 < maxvals)%Z -> (Z.of_nat n <= maxvals)%Z) ->
  exists sch s l x, rexec (R c order maxvals dts) (rinit (R c order maxvals dts)) sch = (s, l) /\
    tdate (threads (base s) 6) = 0 /\ looks s 6 = [x] /\
    arr_after (R c order maxvals dts) (Bnd c) n = Some x.
Proof.
  intros c order mv dts n Hg Hp Hn H0 HN Hcap.
  pose proof (smrf_race_wf c order mv dts Hg Hp Hn) as HW.
  destruct (drive_ahead _ _ _ _ _ HW n 6) as (s & (sch & l & E) & Hc & Hd & Hl & Hlk & Ha).
  - simpl. lia.
  - simpl. unfold n_smrf_threads. lia.
  - intros i l vs q Hq. simpl in Hq. unfold smrf_nextq in Hq. simpl in Hq.
    destruct vs as [|a [|b vs]]; simpl in Hq.
    + injection Hq as <-. vm_compute. lia.
    + injection Hq as <-. vm_compute. lia.
    + destruct (length vs); discriminate.
  - exact H0.
  - exact HN.
  - exact Hcap.
  - exists (sch ++ [Look 6]).
    pose (s' := mkRS (base s) (arr s) (ndone s) (upd (looks s) 6 (looks s 6 ++ [arr s]))).
    exists s', (l ++ []), (arr s).
    assert (Hh : holds (R c order mv dts) (base s) 6 = true).
    { unfold computing in Hc. unfold holds.
      set (t := threads (base s) 6) in *.
      destruct (nth_error _ _); [|discriminate]. destruct (tputs t); [discriminate|].
      cbn [skel smrf_race smrf_topo nextq] in Hc |- *. unfold smrf_nextq in Hc |- *.
      cbn [Nat.eqb ins] in Hc |- *.
      destruct (treads t) as [|a [|b rs]]; cbn [length nth_error] in Hc; [discriminate|discriminate|].
      apply existsb_exists. exists 1. split; [apply in_seq; simpl; lia|]. reflexivity. }
    split; [|split; [exact Hd|split; [|exact Ha]]].
    + rewrite (rexec_app (R c order mv dts)), E. cbn [rexec rstep].
      replace (6 <? nthreads (skel (R c order mv dts))) with true by reflexivity.
      cbn [andb]. rewrite Hh. reflexivity.
    + unfold s'. cbn [looks]. rewrite upd_eq, Hlk. reflexivity.
Qed.

(** All the other threads are not affected: every value they put or anybody reads from
    their queues is the one of the serial run, whatever was seen of the array. *)
Theorem C50_others_unaffected :
  forall c order maxvals dts, good c -> Permutation order (queue_names c) -> NoDup dts ->
  forall sch s l, rexec (R c order maxvals dts) (rinit (R c order maxvals dts)) sch = (s, l) ->
  forall e, In e l ->
    match e with
    | EGet _ q d v | EPut _ q d v => smrf_clean (smrf_owner q) ->
        exists i, nth_error dts i = Some d /\
          serial_value (no_look (R c order maxvals dts)) (Bnd c) i q = Some v
    | _ => True
    end.
Proof.
  intros c order mv dts Hg Hp Hn sch s l E e He.
  pose proof (smrf_race_wf c order mv dts Hg Hp Hn) as HW.
  destruct (ri_base _ _ _ _ (reach_rinv _ _ _ _ _ HW sch s l E)) as (a & bs & Ha).
  specialize (Ha a (fun _ _ _ => eq_refl)).
  pose proof (inst_wf _ _ _ _ _ HW a) as Hwf.
  pose proof (proj1 (Forall_forall _ _)
    (trace_values (inst (R c order mv dts) a) (Bnd c) smrf_owner Hwf _ _ _ _ (init_inv _ _ _ Hwf) Ha) e He) as H.
  assert (G : forall i q v, serial_value (inst (R c order mv dts) a) (Bnd c) i q = Some v ->
     smrf_clean (smrf_owner q) ->
     In q (qids (skel (R c order mv dts))) ->
     serial_value (no_look (R c order mv dts)) (Bnd c) i q = Some v).
  { intros i q v Hv Hc Hq. rewrite <- Hv. unfold no_look.
    apply (clean_serial_value (R c order mv dts) (Bnd c) smrf_owner smrf_clean dew_point HW); assumption. }
  destruct e as [k q d v|k q d v|q d|k]; auto; destruct H as (i & Hi & Hv); intros Hc; exists i; (split; [exact Hi|]);
    apply (G i q v Hv Hc).
  all: destruct (in_dec Nat.eq_dec q (qids (skel (R c order mv dts)))) as [Hq|Hq]; [exact Hq|exfalso].
  all: pose proof (serial_value_known (inst (R c order mv dts) a) (Bnd c) smrf_owner Hwf i q v Hv) as Hk; exact (Hq Hk).
Qed.

(** The machine never gets stuck before every thread has finished. *)
Theorem C50_no_deadlock :
  forall c order maxvals dts, good c -> Permutation order (queue_names c) -> NoDup dts ->
  forall sch s l, rexec (R c order maxvals dts) (rinit (R c order maxvals dts)) sch = (s, l) ->
  ~ finished (skel (R c order maxvals dts)) (base s) ->
  exists x s' e, (forall k, x <> Look k) /\ rstep (R c order maxvals dts) s x = Some (s', e).
Proof.
  intros c order mv dts Hg Hp Hn sch s l E Hf.
  pose proof (smrf_race_wf c order mv dts Hg Hp Hn) as HW.
  exact (race_progress _ _ _ _ _ HW s l (reach_rinv _ _ _ _ _ HW sch s l E) Hf).
Qed.
End Smrf.

(** ** What the array holds *)
(** The in-place statements of a date, one after the other, do what [susong_step] and
    [marks_step] (StormsModel.v, C15, C56) say. *)
Local Open Scope Qc_scope.
Lemma qsum_snd f (st : list (Qc * Qc)) : length f = length st ->
  map t_ps (map mk_tpx (combine f st)) = map snd f.
Proof.
  revert st; induction f as [|x f IH]; intros [|y st] H; simpl in *; try discriminate; [reflexivity|].
  f_equal. apply IH. congruence.
Qed.

Theorem C50_susong_statements :
  forall ts mass time e st,
  match e with SDry => True | SWet f => length f = length st end ->
  apply_ops (susong_ops ts mass time e) st = susong_step ts mass time st e.
Proof.
  intros ts mass time [|f] st Hlen; [reflexivity|].
  unfold susong_step, time_since_storm, susong_ops.
  rewrite qsum_snd by exact Hlen.
  change (map (fun x : Qc * Qc => snd x) f) with (map snd f).
  destruct (Qceqb (qsum (map snd f)) 0).
  - cbn [apply_ops fold_left]. unfold zero_totals, add_days. clear - Hlen.
    revert st Hlen; induction f as [|x f IH]; intros [|y st] H; simpl in *; try discriminate; [reflexivity|].
    f_equal. apply IH. congruence.
  - cbn [apply_ops fold_left]. unfold set_totals, reset_days, add_days. clear - Hlen.
    revert st Hlen; induction f as [|x f IH]; intros [|y st] H; simpl in *; try discriminate; [reflexivity|].
    f_equal. apply IH. congruence.
Qed.

Theorem C50_marks_statements :
  forall ts mass e st,
  match e with MDry => True | MWet _ f => length f = length st end ->
  apply_ops (marks_ops ts mass e) st = marks_step ts mass st e.
Proof.
  intros ts mass [|b f] st Hlen; [reflexivity|].
  unfold marks_step, time_since_storm_pixel, marks_ops.
  assert (E : map p_dpt (map mk_ppx (combine f st)) = map snd f).
  { clear - Hlen. revert st Hlen; induction f as [|x f IH]; intros [|y st] H; simpl in *; try discriminate; [reflexivity|].
    f_equal. apply IH. congruence. }
  rewrite E.
  destruct (b && _).
  - cbn [apply_ops fold_left]. unfold marks_reset. clear - Hlen.
    revert st Hlen; induction f as [|x f IH]; intros [|y st] H; simpl in *; try discriminate; [reflexivity|].
    f_equal. apply IH. congruence.
  - cbn [apply_ops fold_left]. clear - Hlen.
    revert st Hlen; induction f as [|x f IH]; intros [|y st] H; simpl in *; try discriminate; [reflexivity|].
    f_equal. apply IH. congruence.
Qed.

(** So the serial content of the array after [m] dates is the run of C15 (per pixel storm
    days and storm total) over the weather of those dates. *)
Theorem C50_serial_content :
  forall (V L : Type) (positive : V -> bool) comp (loc0 : nat -> L) c order maxvals dts,
  good c -> Permutation order (queue_names c) -> NoDup dts ->
  forall ts mass time (weather : nat -> sstep) st0,
  (forall i, match weather i with SDry => True | SWet f => length f = length st0 end) ->
  forall m,
  arr_after (smrf_race positive comp loc0 (fun i _ _ => susong_ops ts mass time (weather i)) st0
               c order maxvals dts) (Bnd c) m =
  Some (susong_run ts mass time st0 (map weather (seq 0 m))).
Proof.
  intros V L positive comp loc0 c order mv dts Hg Hp Hn ts mass time weather st0 Hlen.
  set (R := smrf_race positive comp loc0 (fun i _ _ => susong_ops ts mass time (weather i)) st0 c order mv dts).
  pose proof (smrf_race_wf positive comp loc0 (fun i _ _ => susong_ops ts mass time (weather i)) st0
                c order mv dts Hg Hp Hn) as HW. fold R in HW.
  assert (Hl : forall n, length (susong_run ts mass time st0 (map weather (seq 0 n))) = length st0).
  { induction n as [|n IHn]; [reflexivity|].
    rewrite seq_S, map_app. unfold susong_run in *. rewrite fold_left_app. simpl.
    set (z := fold_left _ _ _) in *. specialize (Hlen n). destruct (weather n) as [|f]; simpl.
    - rewrite map_length. exact IHn.
    - unfold time_since_storm. destruct (Qceqb _ _); rewrite !map_length, combine_length; lia. }
  induction m as [|m IH]; [reflexivity|].
  cbn [arr_after]. rewrite IH.
  unfold date_ops, no_look.
  pose proof (inst_wf _ _ _ _ _ HW (fun _ _ => [])) as Hwf.
  destruct (serial_locals_total _ _ _ Hwf m) as [loc El]. rewrite El.
  destruct (serial_fix _ _ _ Hwf m loc (writer R) El (rw_writer HW)) as (vs & loc' & Er & _).
  rewrite Er. f_equal. cbn [ops smrf_race R].
  unfold R. cbn [ops smrf_race].
  rewrite C50_susong_statements.
  - rewrite seq_S, map_app. unfold susong_run. rewrite fold_left_app. reflexivity.
  - rewrite Hl. apply Hlen.
Qed.

(** ** The intended claim is false *)
(** One pixel, hourly steps, queues of the default two dates: snow in the first hour, dry
    afterwards.  The serial run gives albedo 0 days for the first hour; there is a
    schedule in which the albedo thread sees an hour more. *)
Definition ex_weather (i : nat) : sstep := match i with O => SWet [(q 5 1, 1)] | _ => SDry end.
Definition ex_rcomp (k i : nat) (l : unit) (vs : list nat) (seen : list (list (Qc * Qc))) :=
  (fun qu : nat => (100 * i + qu)%nat, l).
Definition ex_rcfg := mkCfg true true false true true true true 1 [air_temp; storm_days].
Definition ex_race (maxvals : Z) (dts : list Z) :=
  smrf_race Nat.even ex_rcomp
    (fun _ => tt) (fun i _ _ => susong_ops (q 1 24) 1 (q 4 1) (ex_weather i)) [(q 3 1, 0)]
    ex_rcfg (queue_names ex_rcfg) maxvals dts.

Lemma ex_race_good : good ex_rcfg.
Proof. repeat split; auto. simpl. unfold output. intuition discriminate. Qed.

Theorem C50_threaded_is_serial_refuted :
  ~ (forall sch s l, rexec (ex_race 2 [10; 20; 30]%Z) (rinit (ex_race 2 [10; 20; 30]%Z)) sch = (s, l) ->
     forall k x, (k < 11)%nat -> In x (looks s k) ->
     arr_after (ex_race 2 [10; 20; 30]%Z) 12 (S (tdate (threads (base s) k))) = Some x).
Proof.
  intros H. unfold ex_race in H.
  destruct (C50_ahead_reached Nat.even ex_rcomp (fun _ => tt) (fun i _ _ => susong_ops (q 1 24) 1 (q 4 1) (ex_weather i))
              [(q 3 1, 0)] _ _ 2%Z [10; 20; 30]%Z 2%nat ex_race_good (Permutation_refl _))
    as (sch & s & l & x & E & Ed & El & Ea).
  - repeat constructor; simpl; intuition discriminate.
  - lia.
  - simpl. lia.
  - simpl. lia.
  - specialize (H sch s l E 6%nat x ltac:(lia)). rewrite El, Ed in H. specialize (H (or_introl eq_refl)).
    change 12%nat with (Bnd ex_rcfg) in H.
    rewrite C50_serial_content in H, Ea.
    + rewrite <- Ea in H. vm_compute in H. discriminate H.
    + exact ex_race_good.
    + apply Permutation_refl.
    + repeat constructor; simpl; intuition discriminate.
    + intros [|i]; simpl; auto.
    + exact ex_race_good.
    + apply Permutation_refl.
    + repeat constructor; simpl; intuition discriminate.
    + intros [|i]; simpl; auto.
Qed.

(** Not even the content of any date: with dry weather first and snow in the second
    hour, a thread may look between [stormDays += 1] and [stormDays[idx_mass] = 0] and see a
    whole day added.  (Explicit schedule: threads 0 to 5 do the first date, albedo makes
    its gets, threads 0 to 4 do the second
    date, precipitation makes its gets and one
    statement, albedo looks.) *)
Definition ex_weather2 (i : nat) : sstep := match i with 1%nat => SWet [(q 5 1, 1)] | _ => SDry end.
Definition ex_race2 (maxvals : Z) (dts : list Z) :=
  smrf_race Nat.even ex_rcomp
    (fun _ => tt) (fun i _ _ => susong_ops (q 1 24) 1 (q 4 1) (ex_weather2 i)) [(q 3 1, 0)]
    ex_rcfg (queue_names ex_rcfg) maxvals dts.
Definition steps (k n : nat) : list act := repeat (Step k) n.
Definition torn_schedule : list act :=
  steps 0 4 ++ steps 1 5 ++ steps 2 3 ++ steps 3 6 ++ steps 4 7 ++
  (steps 5 7 ++ [Mutate] ++ steps 5 7) ++ steps 6 2 ++
  steps 0 4 ++ steps 1 5 ++ steps 2 3 ++ steps 3 6 ++ steps 4 7 ++
  (steps 5 7 ++ [Mutate]) ++ [Look 6].

Example C50_torn_content :
  let s := fst (rexec (ex_race2 2 [10; 20; 30]%Z) (rinit (ex_race2 2 [10; 20; 30]%Z)) torn_schedule) in
  map (map fst) (looks s 6) = [[q 97 24]] /\ tdate (threads (base s) 6) = 0%nat /\
  map fst (susong_run (q 1 24) 1 (q 4 1) [(q 3 1, 0)] (map ex_weather2 (seq 0 1))) = [q 73 24] /\
  map fst (susong_run (q 1 24) 1 (q 4 1) [(q 3 1, 0)] (map ex_weather2 (seq 0 2))) = [0].
Proof. vm_compute. repeat split; reflexivity. Qed.

Print Assumptions C50_seen.
Print Assumptions C50_capacity_one.
Print Assumptions C50_ahead_reached.
Print Assumptions C50_others_unaffected.
Print Assumptions C50_no_deadlock.
Print Assumptions C50_susong_statements.
Print Assumptions C50_marks_statements.
Print Assumptions C50_serial_content.
Print Assumptions C50_threaded_is_serial_refuted.
