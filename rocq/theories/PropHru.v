(** C84: output of means over hydrologic response units.  Model: HruModel.v; specification: HruSpec.v *)
From Coq Require Import List ZArith Bool Arith Lia QArith Qcanon.
From Verif Require Import Num WinsModel OutputModel HruModel HruSpec HruProofs.
Import ListNotations.

(** The number of HRU is the largest number in the file, and creating the output creates nothing (csv) or a header per
    variable (PRMS).  A type of output that is neither ends with UnboundLocalError. *)
Theorem C84_make ty f vars dates ncell hru w :
  make ty f vars dates ncell hru = Ok w <->
  ty <> TOther /\
  (exists c, (c < ncell)%nat /\ hru c = w_max w) /\ (forall c, (c < ncell)%nat -> (hru c <= w_max w)%Z) /\
  w = mkWriter ty f ncell hru (w_max w) dates 0 (w_files w) /\
  w_files w = (fun v => match ty with TPrms => if existsb (Nat.eqb v) vars then [LPrms v (w_max w)] else [] | _ => [] end).
Proof.
  assert (MX : forall m, max_of (map hru (seq 0 ncell)) = Some m <->
    (exists c, (c < ncell)%nat /\ hru c = m) /\ forall c, (c < ncell)%nat -> (hru c <= m)%Z).
  { intros m. rewrite max_of_spec. split.
    - intros [I M]. apply in_map_iff in I. destruct I as (c & E & I). apply in_seq in I. split; [exists c; split; [lia|exact E]|].
      intros c' L. apply M. apply in_map. apply in_seq. lia.
    - intros [(c & L & E) M]. split; [apply in_map_iff; exists c; split; [exact E|apply in_seq; lia]|].
      intros x I. apply in_map_iff in I. destruct I as (c' & <- & I). apply in_seq in I. apply M. lia. }
  unfold make. split.
  - intros H. assert (ty <> TOther) by (intros ->; discriminate H).
    destruct (max_of _) as [m|] eqn:E; [|destruct ty; discriminate H].
    destruct (proj1 (MX m) eq_refl) as [E1 E2].
    destruct ty; [| |contradiction]; injection H as <-; cbn; auto.
  - intros (N & E1 & E2 & E3 & E4). rewrite (proj2 (MX (w_max w)) (conj E1 E2)).
    rewrite E4 in E3. destruct ty; [| |contradiction]; f_equal; symmetry; exact E3.
Qed.
Theorem C84_unknown_type f vars dates ncell hru : make TOther f vars dates ncell hru = Err UnboundLocalError.
Proof. reflexivity. Qed.

(** Everything the calls of a run leave in the files.  csv: no call fails, and the file of each variable has one row for each of
    its calls, with the means over each HRU of the numbers of the data, in the units asked for; the date of the row is the one at
    the position of the call among the calls for *all* variables (no date beyond the last), and the line of column names is in
    the file of the variable called first. *)
Theorem C84_csv f vars dates ncell hru w calls :
  make TCsv f vars dates ncell hru = Ok w ->
  exists w', outputs w calls = (w', None) /\
  forall v, written (is_row ncell hru (w_max w) f) dates true v 0 calls (w_files w' v).
Proof.
  intros M. assert (C := M). apply C84_make in C. destruct C as (_ & _ & _ & E & F).
  assert (T : csvb w = true) by (rewrite E; reflexivity).
  destruct (outputs_csv calls w T) as (w' & O & W). exists w'. split; [exact O|]. intros v.
  destruct (W v) as (ls & E1 & R). rewrite F in E1. cbn [app] in E1. rewrite E1. rewrite E in R. exact R.
Qed.
(** PRMS: the same without column names, as long as there are no more calls than dates.  The next call ends with ValueError. *)
Theorem C84_prms f vars dates ncell hru w calls :
  make TPrms f vars dates ncell hru = Ok w ->
  exists w', outputs w calls = (w', if (length calls <=? length dates)%nat then None else Some ValueError) /\
  forall v, exists ls, w_files w' v = (if existsb (Nat.eqb v) vars then [LPrms v (w_max w)] else []) ++ ls /\
    written (is_row ncell hru (w_max w) f) dates false v 0 (firstn (length dates) calls) ls.
Proof.
  intros M. assert (C := M). apply C84_make in C. destruct C as (_ & _ & _ & E & F).
  assert (T : w_type w = TPrms) by (rewrite E; reflexivity).
  assert (D : w_dates w = dates) by (rewrite E; reflexivity). assert (I : w_idx w = 0%nat) by (rewrite E; reflexivity).
  destruct (outputs_prms calls w T) as (w' & O & W). rewrite D, I, Nat.sub_0_r in O, W. exists w'. split; [exact O|]. intros v.
  destruct (W v) as (ls & E1 & R). exists ls. rewrite F in E1. split; [exact E1|]. rewrite E in R. exact R.
Qed.
(** The means are determined by the data *)
Theorem C84_mean_unique ncell hru id data m m' : is_mean ncell hru id data m -> is_mean ncell hru id data m' -> m = m'.
Proof. apply mean_det. Qed.

(** One variable, one call for each date of the run in order (frequency 1), or for the first of them: the file is a header and one row
    for each call, with the date of the call. *)
Theorem C84_one_variable ty f v dates ncell hru w (calls : list (call (nat -> num))) :
  make ty f [v] dates ncell hru = Ok w -> calls <> [] ->
  (forall c, In c calls -> c_var c = v) -> map c_time calls = firstn (length calls) dates ->
  exists w' rows, outputs w calls = (w', None) /\
    w_files w' v = match ty with TPrms => LPrms v (w_max w) | _ => LHeader end :: rows /\
    Forall2 (fun c l => exists values, l = LRow (Some (c_time c)) values /\ is_row ncell hru (w_max w) f (c_data c) values) calls rows.
Proof.
  intros M NE V T.
  assert (L : (length calls <= length dates)%nat).
  { rewrite <- (map_length c_time calls), T, firstn_length. lia. }
  assert (TT : forall i c, nth_error calls i = Some c -> nth_error dates (0 + i) = Some (c_time c)).
  { intros i c H. cbn [Nat.add]. pose proof (map_nth_error c_time i calls H) as E. rewrite T in E.
    rewrite <- (firstn_skipn (length calls) dates), nth_error_app1; [exact E|]. apply nth_error_Some. congruence. }
  destruct ty.
  - destruct (C84_csv _ _ _ _ _ _ calls M) as (w' & O & W). destruct (written_one _ _ _ _ _ _ _ (W v) V TT) as (rows & E & F).
    exists w', rows. split; [exact O|]. split; [|exact F]. rewrite E. destruct calls; [contradiction|reflexivity].
  - destruct (C84_prms _ _ _ _ _ _ calls M) as (w' & O & W). rewrite (proj2 (Nat.leb_le _ _) L) in O.
    destruct (W v) as (ls & E & R). rewrite firstn_all2 in R by exact L.
    destruct (written_one _ _ _ _ _ _ _ R V TT) as (rows & E' & F). exists w', rows. split; [exact O|]. split; [|exact F].
    rewrite E, E'. cbn [existsb]. rewrite Nat.eqb_refl. reflexivity.
  - discriminate M.
Qed.

(** A run that the framework makes never gets as far as that: with HRU output, every run with at least one date ends with an
    exception at the first date, before any variable is written, because the framework looks for an attribute the output does not have.
    With NetCDF output the run is the one of C07. *)
Theorem C84_run_fails {A} (zeros : A) w dts freq attr : dts <> [] -> any_serial_run zeros (Hru w) dts freq attr = ([], false).
Proof. apply any_hru. Qed.
Theorem C84_run_netcdf {A} (zeros : A) d dts freq attr :
  any_serial_run zeros (Netcdf d) dts freq attr = serial_run zeros d dts freq attr.
Proof. apply any_netcdf. Qed.

(** ** A concrete case: two HRU, three cells, one of them in no HRU *)
Definition ex_hru (c : nat) : Z := match c with 0%nat => 1%Z | 1%nat => 2%Z | 2%nat => 2%Z | _ => 0%Z end.
Definition ex_data (a : Z) (c : nat) : num := match c with 3%nat => None | _ => Some (Q2Qc (inject_Z (a + Z.of_nat c))) end.
Definition ex_calls : list (call (nat -> num)) := [mkCall 7 (ex_data 10) 100%Z; mkCall 7 (ex_data 20) 101%Z].
Example C84_one_variable_case : exists w, make TPrms FC2F [7%nat] [100%Z; 101%Z; 102%Z] 4 ex_hru = Ok w /\ ex_calls <> [] /\
  (forall c, In c ex_calls -> c_var c = 7%nat) /\ map c_time ex_calls = firstn (length ex_calls) [100%Z; 101%Z; 102%Z] /\
  w_files (fst (outputs w ex_calls)) 7%nat =
    [LPrms 7 2; LRow (Some 100%Z) [Some (Q2Qc (50 # 1)); Some (Q2Qc (527 # 10))]; LRow (Some 101%Z) [Some (Q2Qc (68 # 1)); Some (Q2Qc (707 # 10))]].
Proof.
  eexists. split; [reflexivity|]. split; [discriminate|]. split; [intros c [<-|[<-|[]]]; reflexivity|]. split; [reflexivity|].
  vm_compute. repeat (f_equal; try (apply Qc_is_canon; reflexivity)).
Qed.

(** ** What a user may expect and does not get *)
(** Two variables, each with one call for each date: a row of the file of the second has the date of the next date of the run,
    only the first file has column names, and the last rows have no date; the PRMS form ends with ValueError half way. *)
Definition ex_two : list (call (nat -> num)) :=
  [mkCall 7 (ex_data 10) 100%Z; mkCall 8 (ex_data 0) 100%Z; mkCall 7 (ex_data 20) 101%Z; mkCall 8 (ex_data 0) 101%Z].
Definition dates_of (ls : list line) : list (option Z) := flat_map (fun l => match l with LRow d _ => [d] | _ => [] end) ls.
Theorem C84_two_variables_refuted :
  ~ (forall ty f vars dates ncell hru w calls, make ty f vars dates ncell hru = Ok w ->
       (forall c, In c calls -> In (c_time c) dates /\ In (c_var c) vars) ->
       forall v, dates_of (w_files (fst (outputs w calls)) v) =
                 map (fun c => Some (c_time c)) (filter (fun c => Nat.eqb (c_var c) v) calls)).
Proof.
  intros H.
  specialize (H TCsv FNone [7%nat; 8%nat] [100%Z; 101%Z] 4%nat ex_hru _ ex_two eq_refl).
  assert (I : forall c, In c ex_two -> In (c_time c) [100%Z; 101%Z] /\ In (c_var c) [7%nat; 8%nat])
    by (intros c [<-|[<-|[<-|[<-|[]]]]]; cbn; tauto).
  specialize (H I 8%nat). vm_compute in H. discriminate H.
Qed.
Example C84_two_variables_case : exists w, make TCsv FNone [7%nat; 8%nat] [100%Z; 101%Z] 4 ex_hru = Ok w /\
  dates_of (w_files (fst (outputs w ex_two)) 7%nat) = [Some 100%Z; None] /\
  dates_of (w_files (fst (outputs w ex_two)) 8%nat) = [Some 101%Z; None] /\
  hd_error (w_files (fst (outputs w ex_two)) 7%nat) = Some LHeader /\ ~ In LHeader (w_files (fst (outputs w ex_two)) 8%nat).
Proof.
  eexists. split; [reflexivity|]. split; [reflexivity|]. split; [reflexivity|]. split; [reflexivity|].
  intros [H|[H|[]]]; discriminate H.
Qed.
Example C84_two_variables_prms_case : exists w, make TPrms FNone [7%nat; 8%nat] [100%Z; 101%Z] 4 ex_hru = Ok w /\
  snd (outputs w ex_two) = Some ValueError.
Proof. eexists. split; reflexivity. Qed.
(** Output at every second date: the rows have consecutive dates *)
Theorem C84_frequency_refuted :
  ~ (forall ty f v dates ncell hru w (calls : list (call (nat -> num))), make ty f [v] dates ncell hru = Ok w ->
       (forall c, In c calls -> In (c_time c) dates /\ c_var c = v) ->
       dates_of (w_files (fst (outputs w calls)) v) = map (fun c => Some (c_time c)) calls).
Proof.
  intros H.
  specialize (H TCsv FNone 7%nat [100%Z; 101%Z; 102%Z] 4%nat ex_hru _ [mkCall 7 (ex_data 10) 100%Z; mkCall 7 (ex_data 10) 102%Z] eq_refl).
  assert (I : forall c, In c [mkCall 7 (ex_data 10) 100%Z; mkCall 7 (ex_data 10) 102%Z] -> In (c_time c) [100%Z; 101%Z; 102%Z] /\ c_var c = 7%nat)
    by (intros c [<-|[<-|[]]]; cbn; tauto).
  specialize (H I). vm_compute in H. discriminate H.
Qed.
Example C84_run_fails_case : exists w, make TCsv FNone [7%nat] [100%Z; 101%Z] 4 ex_hru = Ok w /\
  any_serial_run (ex_data 0) (Hru w) [100%Z; 101%Z] 1 (fun i v => Some (Some (ex_data 3))) = ([], false) /\
  length (fst (any_serial_run (ex_data 0) (Netcdf [7%nat]) [100%Z; 101%Z] 1 (fun i v => Some (Some (ex_data 3))))) = 2%nat.
Proof. eexists. split; [reflexivity|]. split; reflexivity. Qed.

Print Assumptions C84_make.
Print Assumptions C84_unknown_type.
Print Assumptions C84_csv.
Print Assumptions C84_prms.
Print Assumptions C84_mean_unique.
Print Assumptions C84_one_variable.
Print Assumptions C84_run_fails.
Print Assumptions C84_run_netcdf.
Print Assumptions C84_two_variables_refuted.
Print Assumptions C84_frequency_refuted.
