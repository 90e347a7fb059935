(** Property C94: the files of a run. *)
From Coq Require Import List Arith Bool ZArith QArith Qcanon Sorted Lia.
From Verif Require Import Num SmrfTopo QueueModel OutputModel OutputSpec OutputProofs RunsModel RunsSpec RunsProofs FilesModel FilesSpec FilesProofs.
Import ListNotations.
Local Open Scope nat_scope.

(** A run without threads into an empty directory.  Each variable that was asked for and exists has a file that
    describes the run, with one record, in increasing time, for each time step whose position is a multiple of the
    frequency, holding what its module had after this step (zeros if it had None).  No other file appears. *)
Theorem C94_serial conform u requested dts freq attr ps z :
  keeps_matching conform -> consistent u -> usable u dts -> 0 < freq -> all_zero u z ->
  multiples_below freq (length dts) ps ->
  (forall i v, In i ps -> In v requested -> In v output_variables ->
     attr i v <> None /\ forall g, attr i v = Some (Some g) -> on_topo u g) ->
  let after := serial_files false conform u requested dts freq attr empty in
  snd after = true /\
  forall v,
    (In v requested /\ In v output_variables -> exists f, fst after v = Some f /\ describes u v (n_head f) /\
       increasing (map fst (n_records f)) /\
       Forall2 (fun i r => record_of u (nth i dts 0%Z) (data_of z (attr i v)) r) ps (n_records f)) /\
    (~ (In v requested /\ In v output_variables) -> fst after v = None).
Proof. intros K CU US Hf AZ MP SH. exact (serial_ok conform u requested dts freq z K CU US Hf AZ attr ps MP SH). Qed.
Print Assumptions C94_serial.

(** A run with threads: the same for the variables that have a queue; the file of a variable that has none is
    made, but stays without records. *)
Theorem C94_threaded conform u requested dts freq queued value ps z :
  keeps_matching conform -> consistent u -> usable u dts -> 0 < freq -> all_zero u z ->
  multiples_below freq (length dts) ps ->
  (forall i v g, In i ps -> value i v = Some g -> on_topo u g) ->
  exists after, threaded_files false conform u requested dts freq queued value empty = Some (after, true) /\
  forall v,
    (In v requested /\ In v output_variables -> exists f, after v = Some f /\ describes u v (n_head f) /\
       increasing (map fst (n_records f)) /\
       (queued v = true -> Forall2 (fun i r => record_of u (nth i dts 0%Z) (queue_data z (value i v)) r) ps (n_records f)) /\
       (queued v = false -> n_records f = [])) /\
    (~ (In v requested /\ In v output_variables) -> after v = None).
Proof. intros K CU US Hf AZ MP SH. exact (threaded_ok conform u requested dts freq z K CU US Hf AZ queued value ps MP SH). Qed.
Print Assumptions C94_threaded.

(** Both runs leave the same files if the variables asked for have queues and the queues hold what the modules
    had. *)
Theorem C94_same_files conform u requested dts freq attr queued value ps d :
  usable u dts -> 0 < freq -> multiples_below freq (length dts) ps ->
  (forall i v, In i ps -> In v requested -> In v output_variables -> queued v = true /\ attr i v = Some (value i v)) ->
  threaded_files false conform u requested dts freq queued value d =
    Some (serial_files false conform u requested dts freq attr d).
Proof.
  intros US Hf MP A. unfold threaded_files, serial_files. set (names := create_output_variable_dict requested).
  rewrite (thread_run_ok (zeros u) names dts freq queued value ps Hf MP). cbn [option_map fst].
  assert (VS := proj2 (variable_dict_spec requested)). fold names in VS.
  rewrite (serial_run_ok (zeros u) names dts freq attr ps Hf (sorted_nodup _ (proj1 US)) MP).
  2:{ intros i v Hi Hv. apply VS in Hv. destruct (A i v Hi (proj1 Hv) (proj2 Hv)) as (_ & ->). discriminate. }
  cbn [fst snd]. rewrite andb_true_r.
  assert (E : all_calls dts names (fun i v => data_of (zeros u) (attr i v)) ps =
              all_calls dts (filter queued names) (fun i v => match value i v with Some x => x | None => zeros u end) ps).
  { destruct ps as [|j ps']; [reflexivity|]. remember (j :: ps') as ps eqn:EP. rewrite filter_all.
    2:{ intros v Hv. apply VS in Hv. apply (A j v); [rewrite EP; now left|apply Hv|apply Hv]. }
    unfold all_calls. clear - A VS. induction ps as [|i ps IH]; [reflexivity|]. cbn [flat_map]. f_equal.
    - apply map_ext_in. intros v Hv. apply VS in Hv. destruct (A i v (or_introl eq_refl) (proj1 Hv) (proj2 Hv)) as (_ & ->). reflexivity.
    - apply IH. intros j v Hj. apply A. now right. }
  rewrite E. now destruct (execute false conform d _).
Qed.
Print Assumptions C94_same_files.

(** A variable whose attribute does not exist ends the run at the first step that is written: the variables asked
    for before it have this step, all others only those before, and every file exists. *)
Theorem C94_missing_attribute conform u requested dts freq z attr a v b p before :
  keeps_matching conform -> consistent u -> usable u dts -> 0 < freq -> all_zero u z ->
  requested = a ++ v :: b -> ~ In v a -> In v output_variables ->
  p < length dts -> (exists k, p = k * freq) -> multiples_below freq p before ->
  (forall i w, In i before -> In w requested -> In w output_variables -> attr i w <> None) ->
  (forall w, In w a -> In w output_variables -> attr p w <> None) -> attr p v = None ->
  (forall i w g, attr i w = Some (Some g) -> on_topo u g) ->
  let after := serial_files false conform u requested dts freq attr empty in
  snd after = false /\
  forall w,
    (In w requested /\ In w output_variables -> exists f, fst after w = Some f /\ describes u w (n_head f) /\
       increasing (map fst (n_records f)) /\
       (In w a -> Forall2 (fun i r => record_of u (nth i dts 0%Z) (data_of z (attr i w)) r) (before ++ [p]) (n_records f)) /\
       (~ In w a -> Forall2 (fun i r => record_of u (nth i dts 0%Z) (data_of z (attr i w)) r) before (n_records f))) /\
    (~ (In w requested /\ In w output_variables) -> fst after w = None).
Proof. intros K CU US Hf AZ. exact (missing_ok conform u requested dts freq z K CU US Hf AZ attr a v b p before). Qed.
Print Assumptions C94_missing_attribute.

(** ** Examples and what does not hold *)
Definition ex_conform (ny nx : nat) (g : grid) : option grid :=
  if (length g =? ny) && forallb (fun row => length row =? nx) g then Some g else None.
Lemma ex_conform_ok : keeps_matching ex_conform.
Proof.
  intros ny nx g (L & S). unfold ex_conform. rewrite L, Nat.eqb_refl. cbn [andb].
  replace (forallb (fun row => length row =? nx) g) with true; [reflexivity|].
  symmetry. apply forallb_forall. intros row H. apply Nat.eqb_eq. now apply S.
Qed.
Definition ex_u : setup :=
  mkSetup 600 0 [Q2Qc 0; Q2Qc 10] [Q2Qc 100] false true [[Q2Qc 1; Q2Qc 0]] (fun v => (v, 7, 8)).
Definition ex_dts : list Z := [600; 660; 720]%Z.
Definition ex_value (i v : nat) : option grid :=
  if v =? thermal then None else Some [[Some (Q2Qc (Z.of_nat i # 1)); Some (Q2Qc 5)]].
Definition ex_attr (i v : nat) : option (option grid) := if v =? flatwind then None else Some (ex_value i v).
Definition show (f : option ncfile) : option (list (Q * option (list (list (option Q))))) :=
  option_map (fun f => map (fun r => (this (fst r), option_map (map (map (option_map this))) (snd r))) (n_records f)) f.

Example C94_ex_hypotheses : consistent ex_u /\ usable ex_u ex_dts /\ all_zero ex_u [[Some (Q2Qc 0); Some (Q2Qc 0)]] /\
  multiples_below 2 (length ex_dts) [0; 2] /\ forall i v g, ex_value i v = Some g -> on_topo ex_u g.
Proof.
  split; [split; [reflexivity|]; intros row [<-|[]]; reflexivity|].
  split; [split; [repeat constructor|]; intros t H; cbn in H; repeat (destruct H as [<-|H]); try contradiction; cbn; lia|].
  split; [split; [split; [reflexivity|]; intros row [<-|[]]; reflexivity|]; intros row x [<-|[]] Hx; cbn in Hx; intuition|].
  split; [split; [repeat constructor|]|].
  - intros i. cbn. split.
    + intros [<-|[<-|[]]]; (split; [lia|]); [now exists 0|now exists 1].
    + intros (L & k & ->). destruct k as [|[|k]]; [now left|right; now left|lia].
  - intros i v g E. unfold ex_value in E. destruct (v =? thermal); [discriminate|]. injection E as <-.
    split; [reflexivity|]. intros row [<-|[]]. reflexivity.
Qed.
(** every second step; the masked cell has zero, the attribute that is None gives zeros *)
Example C94_ex_serial :
  let after := serial_files false ex_conform ex_u [air_temp; thermal; air_temp; 1000] ex_dts 2 ex_attr empty in
  snd after = true /\
  show (fst after air_temp) = Some [(0%Q, Some [[Some 0%Q; Some 0%Q]]); (2%Q, Some [[Some 2%Q; Some 0%Q]])] /\
  show (fst after thermal) = Some [(0%Q, Some [[Some 0%Q; Some 0%Q]]); (2%Q, Some [[Some 0%Q; Some 0%Q]])] /\
  show (fst after vapor_pressure) = None.
Proof. repeat split; vm_compute; reflexivity. Qed.
Example C94_ex_threaded :
  option_map (fun p => (show (fst p air_temp), show (fst p soil_temp), snd p))
    (threaded_files false ex_conform ex_u [air_temp; soil_temp] ex_dts 2 (fun v => negb (v =? soil_temp)) ex_value empty) =
  Some (Some [(0%Q, Some [[Some 0%Q; Some 0%Q]]); (2%Q, Some [[Some 2%Q; Some 0%Q]])], Some [], true).
Proof. vm_compute. reflexivity. Qed.
Example C94_ex_missing :
  let after := serial_files false ex_conform ex_u [air_temp; flatwind; soil_temp] ex_dts 2 ex_attr empty in
  snd after = false /\
  show (fst after air_temp) = Some [(0%Q, Some [[Some 0%Q; Some 0%Q]])] /\
  show (fst after flatwind) = Some [] /\ show (fst after soil_temp) = Some [].
Proof. repeat split; vm_compute; reflexivity. Qed.

(** It is not so that, with threads, the file of every variable asked for gets records: whatever the
    configuration, that of the soil temperature stays empty. *)
Theorem C94_every_variable_refuted : forall c : cfg, exists conform u dts value after f,
  keeps_matching conform /\ consistent u /\ usable u dts /\ dts <> [] /\
  (forall i v, exists g, value i v = Some g /\ on_topo u g) /\
  threaded_files false conform u [soil_temp] dts 1 (fun v => mem_nat v (queue_names c)) value empty = Some (after, true) /\
  after soil_temp = Some f /\ n_records f = [].
Proof.
  intros c. destruct C94_ex_hypotheses as (CU & US & AZ & _ & _).
  set (value := fun _ _ : nat => Some [[Some (Q2Qc 1); Some (Q2Qc 5)]] : option grid).
  assert (V : forall i v, exists g, value i v = Some g /\ on_topo ex_u g).
  { intros i v. eexists. split; [reflexivity|]. split; [reflexivity|]. intros row [<-|[]]. reflexivity. }
  destruct (C94_threaded ex_conform ex_u [soil_temp] ex_dts 1 (fun v => mem_nat v (queue_names c)) value [0; 1; 2] _
              ex_conform_ok CU US (Nat.lt_0_succ 0) AZ) as (after & E & F).
  - split; [repeat constructor|]. intros i. cbn. split.
    + intros [<-|[<-|[<-|[]]]]; (split; [lia|]); [exists 0|exists 1|exists 2]; reflexivity.
    + intros (L & _). lia.
  - intros i v g _ Q. destruct (V i v) as (g' & E' & S). congruence.
  - destruct (proj1 (F soil_temp)) as (f & A & _ & _ & _ & N); [split; [now left|unfold output_variables; vm_compute; tauto]|].
    exists ex_conform, ex_u, ex_dts, value, after, f. repeat (split; [first [exact ex_conform_ok|exact CU|exact US|discriminate|exact V|exact E|exact A]|]).
    apply N. destruct (mem_natP soil_temp (queue_names c)) as [H|H]; [|reflexivity]. exfalso.
    apply (proj2 (no_queue c soil_temp ltac:(unfold output_variables; vm_compute; tauto))); [right; now left|exact H].
Qed.
Print Assumptions C94_every_variable_refuted.
