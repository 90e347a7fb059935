(** Output properties C07, C09, C49, C59, C60. *)
From Coq Require Import List Arith Bool ZArith QArith Qround Qabs Qcanon Sorted Lia.
From Verif Require Import Num SmrfTopo OutputModel OutputSpec OutputProofs NcTimeProofs.
Import ListNotations.
Local Open Scope nat_scope.

(** ** C07 which time steps are written *)
Theorem C07_serial {A} (zeros : A) vars dts freq attr ps : 0 < freq -> NoDup dts ->
  multiples_below freq (length dts) ps ->
  (forall i v, In i ps -> In v vars -> attr i v <> None) ->
  serial_run zeros vars dts freq attr =
    (all_calls dts vars (fun i v => data_of zeros (attr i v)) ps, true).
Proof. exact (serial_run_ok zeros vars dts freq attr ps). Qed.
Print Assumptions C07_serial.

(** the threaded run also signals exactly these dates to the cleaner *)
Theorem C07_threaded {A} (zeros : A) vars dts freq queued value ps : 0 < freq ->
  multiples_below freq (length dts) ps ->
  thread_run zeros vars dts freq queued value =
    Some (all_calls dts (filter queued vars) (fun i v => queue_data zeros (value i v)) ps,
          map (fun i => nth i dts 0%Z) ps).
Proof. exact (thread_run_ok zeros vars dts freq queued value ps). Qed.
Print Assumptions C07_threaded.

(** such a list of positions exists and is unique *)
Theorem C07_positions freq n : 0 < freq ->
  exists ps, multiples_below freq n ps /\ forall ps', multiples_below freq n ps' -> ps' = ps.
Proof. exact (positions_exist freq n). Qed.
Print Assumptions C07_positions.

(** the last time step is written only when its position is a multiple of the frequency *)
Theorem C07_last_step_not_always freq n ps : 0 < freq -> 0 < n -> multiples_below freq n ps ->
  In (n - 1) ps <-> exists k, n = k * freq + 1.
Proof. exact (last_step freq n ps). Qed.
Print Assumptions C07_last_step_not_always.

Theorem C07_frequency_zero {A} (zeros : A) vars dts attr queued value : dts <> [] ->
  serial_run zeros vars dts 0 attr = ([], false) /\ thread_run zeros vars dts 0 queued value = None.
Proof. exact (run_freq_zero zeros vars dts attr queued value). Qed.
Print Assumptions C07_frequency_zero.

(** asking for one variable: both a module and a variable name, or neither *)
Theorem C07_request {A} (zeros : A) vars dts freq attr i : 0 < freq -> NoDup dts -> i < length dts ->
  let out := smrf_output zeros vars dts freq attr (nth i dts 0%Z) in
  (forall v, attr v <> None) ->
  ((exists k, i = k * freq) ->
     out None None = (map (fun v => mkCall v (data_of zeros (attr v)) (nth i dts 0%Z)) vars, true) /\
     (forall m v, In v vars -> out (Some m) (Some v) = ([mkCall v (data_of zeros (attr v)) (nth i dts 0%Z)], true)) /\
     (forall m v, ~ In v vars -> out (Some m) (Some v) = ([], false)) /\
     (forall x, out (Some x) None = ([], false) /\ out None (Some x) = ([], false))) /\
  ((~ exists k, i = k * freq) -> forall m v, out m v = ([], true)).
Proof. exact (smrf_output_cases zeros vars dts freq attr i). Qed.
Print Assumptions C07_request.

Example C07_ex : serial_run 0 [4; 5] [100; 200; 300; 400]%Z 2 (fun i v => Some (Some (10 * i + v)))
  = ([mkCall 4 4 100%Z; mkCall 5 5 100%Z; mkCall 4 24 300%Z; mkCall 5 25 300%Z], true).
Proof. reflexivity. Qed.
Example C07_ex_ps : multiples_below 2 4 [0; 2].
Proof.
  split; [repeat constructor|]. intros i. simpl. split.
  - intros [<-|[<-|[]]]; (split; [lia|]); [exists 0|exists 1]; reflexivity.
  - intros (H & k & ->). lia.
Qed.

(** ** C09 one record per time, latest data wins *)
(** For any precision of the file's time variable: one record per time as the file can show it, in order of
    first output, with the data of the last call; older records of other times are kept. *)
Theorem C09_records {A} store (enc : A -> A) f calls : NoDup (map fst f) ->
  let run := nc_run false store enc f calls in
  let shown := map (fun c => (store (fst c), snd c)) calls in
  NoDup (map fst run) /\
  first_seen (map fst f) (map store (map fst calls)) (map fst run) /\
  forall s e, has_record run s e <->
    (exists d, last_call s shown d /\ e = Some (enc d)) \/
    (~ In s (map store (map fst calls)) /\ has_record f s e).
Proof. exact (records_round store enc f calls). Qed.
Print Assumptions C09_records.

(** Dates in whole minutes, less than 131072 hours (almost 15 years) from the date in the units of the file:
    any history of calls leaves exactly one record per date, with the data of the last call for the date. *)
Theorem C09_one_record_per_date {A} (enc : A -> A) calls :
  (forall c, In c calls -> (Z.abs (fst c) < 60 * 131072)%Z) ->
  exists dates, first_seen [] (map fst calls) dates /\
    one_record_each (fun m => float32 (date2num m)) enc calls dates
      (nc_run false float32 enc [] (map (fun c => (date2num (fst c), snd c)) calls)).
Proof.
  intros H. exists (seen Z.eq_dec [] (map fst calls)). split; [apply seen_spec|].
  set (P := fun m => (Z.abs m < 60 * 131072)%Z).
  pose proof (records_round float32 enc [] (map (fun c => (date2num (fst c), snd c)) calls) (NoDup_nil _)) as (_ & F & R).
  apply (each_of_spec Z.eq_dec _ enc P key_injective); [exact H| |].
  - rewrite map_map. rewrite map_map, map_map in F. exact F.
  - intros s e Hi. apply R in Hi. destruct Hi as [(d & L & E)|(_ & [])]. exists d. split; [|exact E].
    unfold rounded in L. rewrite map_map in L. exact L.
Qed.
Print Assumptions C09_one_record_per_date.

(** the time shown in the file is less than half a minute from the date *)
Theorem C09_shown_time m : (Z.abs m < 60 * 131072)%Z ->
  (Qabs (this (float32 (date2num m)) - (m # 60)) < 1 # 120)%Q.
Proof. exact (err_minutes m). Qed.
Print Assumptions C09_shown_time.

(** After 30 years this is no longer so: one minute overwrites the minute before it. *)
Theorem C09_one_record_per_date_refuted : exists m n : Z, m <> n /\
  forall A (enc : A -> A) x y,
    nc_run false float32 enc [] [(date2num m, x); (date2num n, y)] = [(float32 (date2num m), Some (enc y))].
Proof.
  exists 15728641%Z, 15728642%Z. split; [discriminate|]. intros A enc x y.
  assert (E : float32 (date2num 15728642) = float32 (date2num 15728641)) by (apply Qc_is_canon; vm_compute; reflexivity).
  rewrite run_round. unfold rounded. cbn [map fst snd]. rewrite E. set (k := float32 (date2num 15728641)).
  unfold nc_run, nc_output, write_time. cbn [fold_left fst snd find_record put_time put_data].
  unfold same_time. cbn [fst]. destruct (Qceqb_spec k k); [reflexivity|congruence].
Qed.
Print Assumptions C09_one_record_per_date_refuted.

(** From numpy 2 on the array of times is compared in double precision.  Quarters of an hour still have one
    record each; any other minute is appended again by every call. *)
Theorem C09_numpy2_quarters {A} (enc : A -> A) calls :
  (forall c, In c calls -> (15 | fst c)%Z /\ (Z.abs (fst c) <= 60 * 2097152)%Z) ->
  exists dates, first_seen [] (map fst calls) dates /\
    one_record_each date2num enc calls dates
      (nc_run true float32 enc [] (map (fun c => (date2num (fst c), snd c)) calls)).
Proof.
  intros H. exists (seen Z.eq_dec [] (map fst calls)). split; [apply seen_spec|].
  set (P := fun m => (15 | m)%Z /\ (Z.abs m <= 60 * 2097152)%Z).
  assert (K : forall m n, P m -> P n -> date2num m = date2num n -> m = n).
  { intros m n (D1 & B1) (D2 & B2) E. destruct (quarter_exact m D1 B1) as (E1 & _), (quarter_exact n D2 B2) as (E2 & _).
    rewrite E, E2 in E1. unfold Qeq in E1. cbn [Qnum Qden] in E1. lia. }
  destruct (nc_run_spec float32 enc [] (map (fun c => (date2num (fst c), snd c)) calls) (NoDup_nil _)) as (_ & F & R).
  { intros c Hc. apply in_map_iff in Hc. destruct Hc as (c' & <- & Hc). cbn [fst].
    destruct (H c' Hc) as (D & B). now apply quarter_exact. }
  apply (each_of_spec Z.eq_dec _ enc P K); [exact H| |].
  - rewrite map_map. rewrite map_map in F. exact F.
  - intros s e Hi. apply R in Hi. destruct Hi as [(d & L & E)|(_ & [])]. exists d. split; [|exact E]. exact L.
Qed.
Print Assumptions C09_numpy2_quarters.

Theorem C09_numpy2_other_minutes_appended {A} (enc : A -> A) calls m d :
  ~ (15 | m)%Z -> (Z.abs m <= 60 * 2097152)%Z ->
  nc_run true float32 enc [] (calls ++ [(date2num m, d)]) =
  nc_run true float32 enc [] calls ++ [(float32 (date2num m), Some (enc d))].
Proof.
  intros D B. apply nc_unrepresentable; [intros t []|exact float32_idem|]. now apply not_quarter.
Qed.
Print Assumptions C09_numpy2_other_minutes_appended.

Example C09_ex :
  map (fun r => (this (fst r), snd r))
      (nc_run false float32 (fun x => x) [] (map (fun c => (date2num (fst c), snd c))
         [(60, 10); (20, 20); (60, 11); (20, 30); (120, 40)]%Z))
  = [((1)%Q, Some 11); ((11184811 # 33554432)%Q, Some 30); ((2)%Q, Some 40)]%Z.
Proof. vm_compute. reflexivity. Qed.
Example C09_ex_numpy2 :
  map (fun r => (this (fst r), snd r))
      (nc_run true float32 (fun x => x) [] (map (fun c => (date2num (fst c), snd c))
         [(60, 10); (20, 20); (60, 11); (20, 30)]%Z))
  = [((1)%Q, Some 11); ((11184811 # 33554432)%Q, Some 20); ((11184811 # 33554432)%Q, Some 30)]%Z.
Proof. vm_compute. reflexivity. Qed.

(** ** C59 a run that was interrupted can be repeated *)
(** Whatever point a run is killed at (between two calls, or between the time and the data of
    a call), repeating the whole run into the same files leaves exactly the records the
    uninterrupted run would have left. *)
Theorem C59_rerun_after_crash {A} store (enc : A -> A) f done rest k : NoDup (map fst f) -> crash_point rest k ->
  nc_run false store enc (interrupted false store enc f done k) (done ++ rest) = nc_run false store enc f (done ++ rest).
Proof. exact (rerun_round store enc f done rest k). Qed.
Print Assumptions C59_rerun_after_crash.

(** With the comparison of numpy 2 this needs times that the file can show exactly (quarters of an hour, by
    C09_numpy2_quarters); without it, repeating a completed run doubles its records. *)
Theorem C59_numpy2_rerun_after_crash {A} store (enc : A -> A) f done rest k : NoDup (map fst f) ->
  (forall c, In c (done ++ rest) -> store (fst c) = fst c) -> crash_point rest k ->
  nc_run true store enc (interrupted true store enc f done k) (done ++ rest) = nc_run true store enc f (done ++ rest).
Proof. exact (rerun_after_crash store enc f done rest k). Qed.
Print Assumptions C59_numpy2_rerun_after_crash.

Theorem C59_numpy2_rerun_refuted {A} (enc : A -> A) x :
  let calls := [(date2num 20, x)] in
  nc_run true float32 enc (interrupted true float32 enc [] calls Before) calls <> nc_run true float32 enc [] calls.
Proof.
  intros calls H. apply (f_equal (@length _)) in H. revert H. unfold interrupted.
  assert (E : nc_run true float32 enc (nc_run true float32 enc [] calls) calls = nc_run true float32 enc [] (calls ++ calls)).
  { unfold nc_run. now rewrite fold_left_app. }
  rewrite E. change (calls ++ calls) with ([(date2num 20, x)] ++ [(date2num 20, x)]).
  assert (D : ~ (15 | 20)%Z) by (intros (k & K); lia).
  rewrite C09_numpy2_other_minutes_appended by (exact D || lia).
  change (nc_run true float32 enc [] calls) with (nc_run true float32 enc [] ([] ++ [(date2num 20, x)])).
  change [(date2num 20, x)] with ([] ++ [(date2num 20, x)]).
  rewrite C09_numpy2_other_minutes_appended by (exact D || lia). simpl. discriminate.
Qed.
Print Assumptions C59_numpy2_rerun_refuted.

Example C59_ex :
  let calls := [(60, 10); (80, 20); (100, 30)]%Z in
  let at_date := map (fun c : Z * Z => (date2num (fst c), snd c)) in
  let f := interrupted false float32 (fun x => x) [] (at_date [(60, 10)%Z]) (Between (date2num 80, 20%Z)) in
  map snd f = [Some 10%Z; None] /\
  nc_run false float32 (fun x => x) f (at_date calls) = nc_run false float32 (fun x => x) [] (at_date calls).
Proof. split; vm_compute; reflexivity. Qed.

(** ** C49 output variables without a queue *)
(** The variables written at all are the requested ones that exist. *)
Theorem C49_variable_dict requested : NoDup (create_output_variable_dict requested) /\
  forall v, In v (create_output_variable_dict requested) <-> In v requested /\ In v output_variables.
Proof. exact (variable_dict_spec requested). Qed.
Print Assumptions C49_variable_dict.

(** Exactly these have no queue, so by C07_threaded a threaded run never writes them. *)
Theorem C49_without_queue c v : In v output_variables ->
  (~ In v (queue_names c) <->
   v = last_storm_day \/ v = soil_temp \/ (v = flatwind /\ winstral c = false) \/
   (v = thermal_cloud /\ t_cloud c = false) \/ (v = thermal_veg /\ t_veg c = false)).
Proof. exact (no_queue c v). Qed.
Print Assumptions C49_without_queue.

(** They are different variables. *)
Theorem C49_distinct : NoDup output_variables.
Proof. replace output_variables with (nodup Nat.eq_dec output_variables) by reflexivity. apply NoDup_nodup. Qed.
Print Assumptions C49_distinct.

Theorem C49_never_written {A} (zeros : A) c requested dts freq value calls puts v :
  0 < freq ->
  thread_run zeros (create_output_variable_dict requested) dts freq (fun v => mem_nat v (queue_names c)) value
    = Some (calls, puts) ->
  (exists x, In x calls /\ c_var x = v) <->
  (dts <> [] /\ In v requested /\ In v output_variables /\ In v (queue_names c)).
Proof. exact (written_variables zeros c requested dts freq value calls puts v). Qed.
Print Assumptions C49_never_written.

Example C49_ex : let c := mkCfg true false false true true true false 1 [] in
  thread_run 0 (create_output_variable_dict [thermal; soil_temp; 77; thermal; thermal_veg]) [100; 200]%Z 1
    (fun v => mem_nat v (queue_names c)) (fun i v => if i =? 0 then None else Some v)
  = Some ([mkCall thermal 0 100%Z; mkCall thermal thermal 200%Z], [100; 200]%Z).
Proof. vm_compute. reflexivity. Qed.

(** ** C60 the serial run dies on some output variables *)
(** Exactly these attributes do not exist after step i of a serial run. *)
Theorem C60_missing_attribute c interp sun i v : In v output_variables ->
  (attr_kind c interp sun i v = Absent <->
   (v = flatwind /\ interp = false) \/
   (In v cloud_vars /\ s_cloud c = false /\ forall j, j <= i -> sun j = true) \/
   (In v veg_vars /\ s_veg c = false /\ forall j, j <= i -> sun j = true) \/
   (v = thermal_cloud /\ t_cloud c = false) \/ (v = thermal_veg /\ t_veg c = false)).
Proof. exact (attr_absent c interp sun i v). Qed.
Print Assumptions C60_missing_attribute.

(** The first output step at which one is requested ends the run there: the variables before
    it have been written for that step, it and everything later has not. *)
Theorem C60_run_ends {A} (zeros : A) pre v post dts freq attr p before :
  0 < freq -> NoDup dts -> p < length dts -> (exists k, p = k * freq) ->
  multiples_below freq p before ->
  (forall i u, In i before -> In u (pre ++ v :: post) -> attr i u <> None) ->
  (forall u, In u pre -> attr p u <> None) -> attr p v = None ->
  serial_run zeros (pre ++ v :: post) dts freq attr =
    (all_calls dts (pre ++ v :: post) (fun i v => data_of zeros (attr i v)) before ++
     all_calls dts pre (fun i v => data_of zeros (attr i v)) [p], false).
Proof. exact (serial_run_fail zeros pre v post dts freq attr p before). Qed.
Print Assumptions C60_run_ends.

(** So a serial run that outputs flatwind with the Winstral or the WindNinja model writes
    nothing for it and dies at the first step. *)
Theorem C60_flatwind {A} (zeros : A) c sun vars dts freq (attr : nat -> attributes) :
  0 < freq -> NoDup dts -> dts <> [] -> In flatwind vars ->
  (forall i v, attr i v = None <-> attr_kind c false sun i v = Absent) ->
  snd (serial_run zeros vars dts freq attr) = false /\
  forall x, In x (fst (serial_run zeros vars dts freq attr)) -> c_time x = hd 0%Z dts /\ c_var x <> flatwind.
Proof. exact (flatwind_dies zeros c sun vars dts freq attr). Qed.
Print Assumptions C60_flatwind.

Example C60_ex : let c := mkCfg true false false true true true true 1 [] in
  let attr i v := match attr_kind c false (fun _ => true) i v with Absent => None | IsNone => Some None | Value => Some (Some v) end in
  serial_run 0 [wind_speed; flatwind; precip] [100; 200]%Z 1 attr = ([mkCall wind_speed wind_speed 100%Z], false).
Proof. vm_compute. reflexivity. Qed.
