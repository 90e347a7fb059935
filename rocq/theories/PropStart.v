(** C88: the start of a run. *)
From Coq Require Import Ascii String.
From Coq Require Import List ZArith Bool Lia Arith Reals Lra.
From Verif Require Import RNum WinsModel LoadModel LoadSpec LoadProofs AlbedoModel BackupModel StartModel StartSpec StartProofs.
Import ListNotations.
Local Open Scope Z_scope.

(** The command takes the file it is given, or the only *.ini of the directory it is given; a directory without one is an
    IndexError, anything else ends the command with status 0. *)
Theorem C88_config_file isdir isfile listdir arg :
  (forall c, handle_run_script_options isdir isfile listdir arg = Go c <->
     isfile c = true /\ ((isdir arg = false /\ c = arg) \/ (isdir arg = true /\ exists f, only_ini (listdir arg) f /\ c = join arg f))) /\
  (forall s, handle_run_script_options isdir isfile listdir arg = Stop s ->
     (s = Failed (Raised IndexError) <-> isdir arg = true /\ forall f, In f (listdir arg) -> ~ ini_name f) /\
     (s = Failed (Raised IndexError) \/ s = Exit 0)).
Proof. split; [intros c; apply options_go|intros s; apply options_stop]. Qed.
Print Assumptions C88_config_file.

Lemma init_starts now c b : zone_ok (s_zone c) ->
  (snd (init now c) = Go b <->
   s_errors c = O /\
   exists start stop d, shown_once (s_zone c) (s_start c) start /\ shown_once (s_zone c) (s_end c) stop /\
     decay_given c d /\ ~ in_future now c start stop /\
     setup_dates (s_zone c) (s_start c) (s_end c) (s_step c) = Ok (b_dates b) /\
     b_decay b = d /\ (b_gridded b = true <-> s_gridded c <> None) /\
     (b_timestep b = true <-> s_gridded c = Some ("hrrr_grib"%string, "timestep"%string))).
Proof.
  intros Z0. rewrite (init_go now c b Z0).
  assert (DR : forall start stop, shown_once (s_zone c) (s_start c) start -> shown_once (s_zone c) (s_end c) stop ->
             setup_dates (s_zone c) (s_start c) (s_end c) (s_step c) = Ok (date_range start stop (s_step c))).
  { intros start stop A B. unfold setup_dates. apply (localize_ok _ _ _ Z0) in A. apply (localize_ok _ _ _ Z0) in B. rewrite A, B. reflexivity. }
  assert (G1 : gridded c = true <-> s_gridded c <> None).
  { unfold gridded. destruct (s_gridded c); split; congruence. }
  assert (G2 : hrrr_data_timestep c = true <-> s_gridded c = Some ("hrrr_grib"%string, "timestep"%string)).
  { unfold hrrr_data_timestep. destruct (s_gridded c) as [[d m]|]; [|split; discriminate].
    rewrite andb_true_iff, !String.eqb_eq. split; [intros [-> ->]; reflexivity|intros [= -> ->]; auto]. }
  split; (intros [E (start & stop & d & A & B & D & F & X)]; split; [exact E|]; exists start, stop, d;
          split; [exact A|]; split; [exact B|]; split; [exact D|]; split; [exact F|]).
  - subst b. cbn [b_dates b_decay b_gridded b_timestep]. split; [exact (DR _ _ A B)|]. split; [reflexivity|]. split; assumption.
  - destruct X as (X1 & X2 & X3 & X4). rewrite (DR _ _ A B) in X1. injection X1 as X1. destruct b as [bd bc bg bt].
    cbn [b_dates b_decay b_gridded b_timestep] in *. subst bd bc. f_equal.
    + destruct bg, (gridded c); tauto || (symmetry; tauto) || (exfalso; intuition discriminate).
    + destruct bt, (hrrr_data_timestep c); tauto || (exfalso; intuition discriminate).
Qed.
(** A run starts exactly if the configuration has no errors, the clocks show its start and end once each, the dates of the
    albedo section are given both or not at all, and its end and start are not in the future unless the data are gridded;
    its dates are those of C81. *)
Theorem C88_starts isfile read now a b : (forall c, given isfile read a c -> zone_ok (s_zone c)) ->
  (snd (SMRF isfile read now a) = Go b <->
   exists c, given isfile read a c /\ s_errors c = O /\
   exists start stop d, shown_once (s_zone c) (s_start c) start /\ shown_once (s_zone c) (s_end c) stop /\
     decay_given c d /\ ~ in_future now c start stop /\
     setup_dates (s_zone c) (s_start c) (s_end c) (s_step c) = Ok (b_dates b) /\
     b_decay b = d /\ (b_gridded b = true <-> s_gridded c <> None) /\
     (b_timestep b = true <-> s_gridded c = Some ("hrrr_grib"%string, "timestep"%string))).
Proof.
  intros Z0. destruct a as [p|c|]; cbn [SMRF].
  - destruct (isfile p) eqn:F.
    + assert (G : given isfile read (Path p) (read p)) by (right; eauto).
      rewrite (init_starts now (read p) b (Z0 _ G)). split.
      * intros X. exists (read p). split; [exact G|exact X].
      * intros (c & [[=]|(p' & [= <-] & _ & ->)] & X). exact X.
    + split; [discriminate|]. intros (c & [[=]|(p' & [= <-] & F' & _)] & X). congruence.
  - assert (G : given isfile read (Config c) c) by (left; reflexivity).
    rewrite (init_starts now c b (Z0 _ G)). split.
    + intros X. exists c. split; [exact G|exact X].
    + intros (c' & [[= <-]|(p' & [=] & _)] & X). exact X.
  - split; [discriminate|]. intros (c & [[=]|(p' & [=] & _)] & X).
Qed.
Print Assumptions C88_starts.

(** What a start writes: the output directory in any case, the configuration in it unless it has errors - even when the run does
    not start. *)
Theorem C88_written isfile read now a :
  match a with
  | Path p => fst (SMRF isfile read now a) =
      if isfile p then MakeDirs (s_out (read p)) ::
                       (if (s_errors (read p) =? 0)%nat then [WriteConfig (join (s_out (read p)) "config.ini")] else []) else []
  | Config c => fst (SMRF isfile read now a) =
      MakeDirs (s_out c) :: (if (s_errors c =? 0)%nat then [WriteConfig (join (s_out c) "config.ini")] else [])
  | SomethingElse => SMRF isfile read now a = ([], Stop (Failed (Raised PlainException)))
  end.
Proof.
  destruct a as [p|c|]; cbn [SMRF]; [destruct (isfile p); [apply init_effects|reflexivity]|apply init_effects|reflexivity].
Qed.
Print Assumptions C88_written.
(** "A run does not change the configuration file it is given" is false if the output goes to the directory of a file called
    config.ini. *)
Theorem C88_own_config_refuted isfile read now p :
  isfile p = true -> s_errors (read p) = O -> join (s_out (read p)) "config.ini" = p ->
  In (WriteConfig p) (fst (SMRF isfile read now (Path p))).
Proof.
  intros F E J. rewrite (C88_written isfile read now (Path p)), F, E, J. right. left. reflexivity.
Qed.
Print Assumptions C88_own_config_refuted.

(** The stages are run in order, up to the first that fails; the files of the output are prepared before the data are read. *)
Theorem C88_stages isfile read now a does fx tr o b :
  SMRF isfile read now a = (fx, Go b) -> run_smrf isfile read now a does = (fx, tr, o) ->
  (tr = [LoadTopo; CreateDistribution; InitializeOutput; LoadData; Distribute; PostProcess] /\ o = Go tt /\ forall s, does b s = None) \/
  (exists l1 s l2 e, [LoadTopo; CreateDistribution; InitializeOutput; LoadData; Distribute; PostProcess] = l1 ++ s :: l2 /\
     tr = l1 ++ [s] /\ o = Stop e /\ does b s = Some e /\ forall s', In s' l1 -> does b s' = None).
Proof.
  intros S1 R. unfold run_smrf in R. rewrite S1 in R.
  destruct (run_stages_spec (does b) stages) as [(E1 & E2 & A)|(l1 & s & l2 & e & E & E1 & E2 & D & A)];
    destruct (run_stages (does b) stages) as [tr' o']; cbn [fst snd] in *; injection R as <- <-.
  - left. split; [exact E1|]. split; [exact E2|]. intros s. apply A. destruct s; cbn; auto 10.
  - right. exists l1, s, l2, e. auto.
Qed.
Print Assumptions C88_stages.

(** The exit status of the command is 0 exactly if all stages were run, or the argument does not lead to one configuration
    file, or the configuration has errors (as long as no stage calls sys.exit), and 1 otherwise. *)
Theorem C88_status isdir isfile listdir read now arg does fx tr o :
  (forall b s n, does b s <> Some (Exit n)) ->
  command isdir isfile listdir read now arg does = (fx, tr, o) ->
  (status o = 0 <->
   o = Go tt \/
   handle_run_script_options isdir isfile listdir arg = Stop (Exit 0) \/
   exists c, handle_run_script_options isdir isfile listdir arg = Go c /\ s_errors (read c) <> O) /\
  (status o <> 0 -> status o = 1) /\
  (o = Go tt -> tr = [LoadTopo; CreateDistribution; InitializeOutput; LoadData; Distribute; PostProcess]).
Proof.
  intros NX H. unfold command in H.
  destruct (handle_run_script_options isdir isfile listdir arg) as [c|s] eqn:HO.
  - assert (IF : isfile c = true) by (apply options_go in HO; apply HO).
    unfold run_smrf in H. cbn [SMRF] in H. rewrite IF in H.
    destruct (init now (read c)) as [fx0 [b|s]] eqn:IN.
    + destruct (run_stages_spec (does b) stages) as [(E1 & E2 & A)|(l1 & s & l2 & e & E & E1 & E2 & D & A)];
      destruct (run_stages (does b) stages) as [tr' o']; cbn [fst snd] in *; injection H as <- <- <-; subst.
      * split; [split; [intros _; left; reflexivity|intros _; reflexivity]|]. split; [intros N; destruct N; reflexivity|reflexivity].
      * destruct e as [n|f]; [destruct (NX _ _ _ D)|]. split; [|split; [reflexivity|discriminate]]. cbn [status]. split; [discriminate|].
        intros [X|[X|(c' & [= <-] & X)]]; try discriminate.
        exfalso. pose proof (init_effects now (read c)) as F. unfold init in IN.
        destruct (Nat.eqb_spec (s_errors (read c)) 0); [contradiction|]. cbn [negb] in IN. discriminate.
    + injection H as <- <- <-.
      destruct (init_stop now (read c) s) as [[-> N]|[E [f ->]]]; [rewrite IN; reflexivity| |]; cbn [status]; (split; [|split; [now auto|discriminate]]).
      * split; [intros _; right; right; eauto|reflexivity].
      * split; [discriminate|]. intros [X|[X|(c' & [= <-] & X)]]; [discriminate..|contradiction].
  - injection H as <- <- <-.
    destruct (options_stop _ _ _ _ _ HO) as [_ [->| ->]]; cbn [status]; (split; [|split; [now auto|discriminate]]).
    + split; [discriminate|]. intros [X|[X|(c' & X & _)]]; discriminate.
    + split; [intros _; right; left; reflexivity|reflexivity].
Qed.
Print Assumptions C88_status.
(** "A status of 0 means that the run was made" is false: a configuration with errors ends with status 0 before the first stage. *)
Theorem C88_status_refuted isdir isfile listdir read now p does :
  isdir p = false -> isfile p = true -> s_errors (read p) <> O ->
  exists fx, command isdir isfile listdir read now p does = (fx, [], Stop (Exit 0)) /\ status (Stop (Exit 0)) = 0.
Proof.
  intros D F E. unfold command, handle_run_script_options. cbv zeta. rewrite D, F. unfold run_smrf. cbn [SMRF]. rewrite F.
  unfold init. destruct (Nat.eqb_spec (s_errors (read p)) 0); [contradiction|]. cbn [negb]. eexists. split; reflexivity.
Qed.
Print Assumptions C88_status_refuted.

(** The dates between which the albedo decays are off by the difference between the zone's offset and its first offset, the local
    mean time. *)
Theorem C88_decay now c b u v : zone_ok (s_zone c) -> snd (init now c) = Go b -> b_decay b = Some (u, v) ->
  exists wu wv, s_decay_start c = Date wu /\ s_decay_end c = Date wv /\ v - u = wv - wu /\
    wall (s_zone c) u = wu + (z_offset (s_zone c) u - s_lmt c) /\ wall (s_zone c) v = wv + (z_offset (s_zone c) v - s_lmt c) /\
    (wall (s_zone c) u = wu <-> z_offset (s_zone c) u = s_lmt c).
Proof.
  intros Z0 G D. apply (init_go now c b Z0) in G. destruct G as (_ & start & stop & d & _ & _ & DG & _ & ->).
  cbn [b_decay] in D. subst d. destruct DG as [[_ X]|(a & e & A & B & X)]; [discriminate|]. injection X as -> ->.
  exists a, e. split; [exact A|]. split; [exact B|]. unfold wall. repeat split; lia.
Qed.
Print Assumptions C88_decay.

(** "The albedo decays from the configured date on" is false in America/Boise (UTC-7 in winter, local mean time 7:45 behind UTC):
    for three quarters of an hour after that date nothing is taken off. *)
Definition boise : settings :=
  mkSettings "/out" 0 (mkZone (fun _ => -420) [-420]) (-465) 0 1440 60 (Date 600) (Date 6000) None.
Theorem C88_decay_refuted :
  zone_ok (s_zone boise) /\
  exists b u v, snd (init 5000 boise) = Go b /\ b_decay b = Some (u, v) /\
    forall t, wall (s_zone boise) t < 600 + 45 ->
      forall veg veg_type pwr, decay_power veg veg_type (u * 60000000) (v * 60000000) (t * 60000000) pwr = Ok 0%R.
Proof.
  split; [split; [intros t; left; reflexivity|repeat constructor; intros []]|].
  eexists _, _, _. split; [vm_compute; reflexivity|]. split; [vm_compute; reflexivity|].
  intros t W veg veg_type pwr. unfold wall in W. cbn in W. unfold decay_power.
  assert (H : (hours (t * 60000000 - 1065 * 60000000) <= 0)%R).
  { assert (L : t - 1065 < 0) by lia.
    unfold hours. replace (t * 60000000 - 1065 * 60000000) with ((t - 1065) * 60000000) by lia.
    set (us := (t - 1065) * 60000000). assert (us < 0) by (unfold us; lia).
    assert (D1 : us / 86400000000 <= -1) by (enough (us / 86400000000 < 0) by lia; apply Z.div_lt_upper_bound; lia).
    assert (D2 : (us mod 86400000000) / 1000000 < 86400).
    { apply Z.div_lt_upper_bound; [lia|]. pose proof (Z.mod_pos_bound us 86400000000 ltac:(lia)). lia. }
    apply IZR_le in D1. apply IZR_lt in D2. lra. }
  destruct (rleb_spec (hours (t * 60000000 - 1065 * 60000000)) 0) as [X|X]; [reflexivity|lra].
Qed.
Print Assumptions C88_decay_refuted.

(** A directory with one configuration, a run of three hours in UTC that starts and runs all its stages; the same with data for
    tomorrow. *)
Definition utc0 : zone := mkZone (fun _ => 0) [0].
Definition ex_set (e : nat) (stop : Z) : settings :=
  mkSettings "/out" e utc0 0 0 stop 60 (Date 100) (Date 200) None.
Example C88_ex :
  zone_ok utc0 /\
  command (fun p => String.eqb p "/run") (fun p => String.eqb p "/run/my.ini") (fun _ => ["a.txt"; "my.ini"; "x.ini~"]%string)
    (fun _ => ex_set 0 120) 1000 "/run" (fun _ _ => None)
  = ([MakeDirs "/out"; WriteConfig "/out/config.ini"], stages, Go tt) /\
  snd (init 1000 (ex_set 0 120)) = Go (mkBegun [0; 60; 120] (Some (100, 200)) false false) /\
  snd (init 1000 (ex_set 0 1440)) = Stop (Failed (Raised ValueError)) /\
  snd (init 1000 (ex_set 1 120)) = Stop (Exit 0).
Proof.
  split; [split; [intros t; left; reflexivity|repeat constructor; intros []]|]. repeat split; vm_compute; reflexivity.
Qed.
