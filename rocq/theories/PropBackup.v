(** C87: the backup of a run's input, and runs from it. *)
From Coq Require Import Ascii String.
From Coq Require Import List ZArith Bool Lia Arith QArith Qcanon.
From Verif Require Import Num WinsModel StepModel LoadModel LoadSpec BackupModel BackupSpec BackupProofs.
Import ListNotations.
Local Open Scope Z_scope.

(** What a finished backup holds: the table of the stations, line by line, and for each of the six variables exactly the
    run's values, every time written with its offset from UTC. *)
Theorem C87_saved z l cfg fs fs' cfg' loc :
  (forall s, dget "topo" cfg = Some s -> dict s) -> topo_apart cfg ->
  cfg_get cfg "output" "out_location" = Some (VStr loc) ->
  backup_input z l cfg fs = (fs', Done cfg') ->
  (exists t, fs' (saved_as loc "metadata") = Some (Csv t) /\ tl (x_header t) = m_cols (l_meta l) /\
     forall s cells, In (Text s :: cells) (x_lines t) <-> In (s, cells) (m_rows (l_meta l))) /\
  (forall k, In k saved_variables -> exists d t, dget k (l_vars l) = Some d /\ fs' (saved_as loc k) = Some (Csv t) /\
     tl (x_header t) = t_cols (d_table d) /\ List.length (x_lines t) = List.length (t_rows (d_table d)) /\
     forall u s x, text_says t u s x <-> data_says d u s x).
Proof.
  intros DT AP CL H. pose proof (backup_tables z l cfg fs fs' cfg' loc DT AP H CL) as T. split.
  - destruct (T "metadata"%string) as (t & A & F & _); [left; reflexivity|]. exists t. split; [exact F|].
    cbn in A. injection A as <-. split; [reflexivity|]. apply meta_text.
  - intros k K. destruct (T k) as (t & A & F & _); [right; exact K|].
    unfold attribute in A. destruct (String.eqb_spec k "metadata") as [->|_]; [cbn in K; intuition discriminate|].
    destruct (dget k (l_vars l)) as [d|]; [|discriminate]. injection A as <-. exists d, (data_to_csv z d).
    split; [reflexivity|]. split; [exact F|]. split; [reflexivity|]. split; [apply map_length|]. apply data_text_says.
Qed.
Print Assumptions C87_saved.

(** For a run from CSV files, these are the values of the run's files for the dates of the run and the configured stations. *)
Theorem C87_saved_from_csv z start stop fs0 sec l0 pixels cfg fs fs' cfg' loc st k p t0 :
  (forall s, dget "topo" cfg = Some s -> dict s) -> topo_apart cfg ->
  cfg_get cfg "output" "out_location" = Some (VStr loc) ->
  zone_ok z ->
  (forall line, In line (x_lines t0) -> List.length line = List.length (x_header t0)) ->
  (forall c cells, In (c :: cells) (x_lines t0) -> forall y, In y cells -> exists x, y = Number x) ->
  load_csv z start stop fs0 sec = Done l0 -> dget "stations" sec = Some st ->
  In k saved_variables -> dget k sec = Some (VStr p) -> fs0 p = Some (Csv t0) ->
  backup_input z (set_variables pixels start stop l0) cfg fs = (fs', Done cfg') ->
  exists t, fs' (saved_as loc k) = Some (Csv t) /\
    forall u s x, text_says t u s x <->
      start <= u <= stop /\ allowed (station_list st) s /\
      exists c cells, capitals c = s /\ In (Time (wall z u) None :: cells) (x_lines t0) /\ In (c, Number x) (combine (tl (x_header t0)) cells).
Proof.
  intros DT AP CL Z0 LEN NUM L ST K G P H.
  destruct (C87_saved z _ cfg fs fs' cfg' loc DT AP CL H) as [_ B]. destruct (B k K) as (d & t & D & F & _ & _ & S1).
  exists t. split; [exact F|]. intros u s x. rewrite S1.
  destruct (csv_run_values z start stop fs0 sec l0 pixels k p t0 st Z0 LEN NUM L ST K G P) as (d' & D' & _ & _ & V).
  rewrite D in D'. injection D' as <-. apply V.
Qed.
Print Assumptions C87_saved_from_csv.

(** The configuration of the backup is the run's with the saved tables and the copied files in place of the originals, without
    a further backup and without a database client; nothing else differs. *)
Theorem C87_config z l cfg fs fs' cfg' loc :
  (forall s, dget "topo" cfg = Some s -> dict s) -> (forall s, dget "stations" cfg = Some s -> dict s) -> topo_apart cfg ->
  cfg_get cfg "output" "out_location" = Some (VStr loc) ->
  backup_input z l cfg fs = (fs', Done cfg') ->
  fs' (join (backup_dir loc) "backup_config.ini") = Some (Ini cfg') /\
  (forall k, saved k -> cfg_get cfg' "csv" k = Some (VStr (saved_as loc k))) /\
  cfg_get cfg' "output" "input_backup" = Some (VBool false) /\
  cfg_get cfg' "stations" "client" = None /\
  (forall k src, topo_file cfg k src -> cfg_get cfg' "topo" k = Some (VStr (join (backup_dir loc) (basename src)))) /\
  (forall sec k,
     ~ (sec = "csv"%string /\ saved k) -> ~ (sec = "output"%string /\ k = "input_backup"%string) ->
     ~ (sec = "stations"%string /\ k = "client"%string) -> ~ (sec = "topo"%string /\ exists src, topo_file cfg k src) ->
     cfg_get cfg' sec k = cfg_get cfg sec k).
Proof.
  intros DT DS AP CL H. destruct (backup_config z l cfg fs fs' cfg' loc DT DS H CL) as (A & B & C & D & E).
  split; [exact A|]. split; [|auto].
  intros k K. destruct (backup_tables z l cfg fs fs' cfg' loc DT AP H CL k K) as (t & _ & _ & G). exact G.
Qed.
Print Assumptions C87_config.

(** The files of the topography are copied, and remain. *)
Theorem C87_topo z l cfg fs fs' cfg' loc :
  (forall s, dget "topo" cfg = Some s -> dict s) -> topo_apart cfg ->
  (forall k src n, topo_file cfg k src -> src <> join (backup_dir loc) n) ->
  cfg_get cfg "output" "out_location" = Some (VStr loc) ->
  backup_input z l cfg fs = (fs', Done cfg') ->
  forall k src, topo_file cfg k src ->
    fs src <> None /\ fs' (join (backup_dir loc) (basename src)) = fs src /\ fs' src = fs src.
Proof. intros DT AP OUT CL H. exact (backup_topo z l cfg fs fs' cfg' loc DT AP OUT H CL). Qed.
Print Assumptions C87_topo.

(** Whether the backup is finished or fails, no file outside its directory changes. *)
Theorem C87_outside z l cfg fs loc p :
  (forall s, dget "topo" cfg = Some s -> dict s) ->
  cfg_get cfg "output" "out_location" = Some (VStr loc) -> (forall n, p <> join (backup_dir loc) n) ->
  fst (backup_input z l cfg fs) p = fs p.
Proof. apply backup_outside. Qed.
Print Assumptions C87_outside.

(** A run that does not load all six variables (a cloud factor, for one) fails at the backup with AttributeError; the
    configuration of the backup is then not written. *)
Theorem C87_incomplete z l cfg fs loc :
  cfg_get cfg "output" "out_location" = Some (VStr loc) ->
  (snd (backup_input z l cfg fs) = Fail NoAttribute <-> exists k, In k saved_variables /\ dget k (l_vars l) = None) /\
  (snd (backup_input z l cfg fs) = Fail NoAttribute ->
   fst (backup_input z l cfg fs) (join (backup_dir loc) "backup_config.ini") = fs (join (backup_dir loc) "backup_config.ini")).
Proof. apply backup_incomplete. Qed.
Print Assumptions C87_incomplete.

(** With all six variables, and every file of the topography there and not in the backup's directory, it is finished. *)
Theorem C87_finishes z l cfg fs loc topo :
  cfg_get cfg "output" "out_location" = Some (VStr loc) -> dget "topo" cfg = Some topo -> dict topo ->
  (forall k, In k saved_variables -> dget k (l_vars l) <> None) ->
  (forall k, cfg_get cfg "topo" k <> None -> setting k \/ cfg_get cfg "topo" k = Some VNone \/
     exists src, topo_file cfg k src /\ fs src <> None /\ forall n, src <> join (backup_dir loc) n) ->
  exists fs' cfg', backup_input z l cfg fs = (fs', Done cfg').
Proof. apply backup_finishes. Qed.
Print Assumptions C87_finishes.

(** "A user can rerun a run with the exact data used for a run" (the function's description) is false for every run: no run
    from a backup's configuration gets past the loading of the data, whatever its dates and time zone. *)
Theorem C87_rerun_refuted z l cfg fs fs' cfg' loc :
  (forall s, dget "topo" cfg = Some s -> dict s) -> topo_apart cfg ->
  cfg_get cfg "output" "out_location" = Some (VStr loc) ->
  backup_input z l cfg fs = (fs', Done cfg') ->
  forall z2 start stop, exists f, replay z2 start stop fs' (join (backup_dir loc) "backup_config.ini") = Fail f.
Proof.
  intros DT AP CL H z2 start stop. unfold replay.
  destruct (backup_done _ _ _ _ _ _ H) as (out & loc' & fs1 & csv' & topo & fs2 & topo' & EO & EL & _ & _ & _ & _ & EFS).
  assert (loc' = loc) by (unfold cfg_get in CL; rewrite EO in CL; congruence). subst loc'.
  assert (E : fs' (join (backup_dir loc) "backup_config.ini") = Some (Ini cfg')) by (rewrite EFS; apply fwrite_same).
  rewrite E. exact (replay_fails z l cfg fs fs' cfg' loc z2 start stop DT AP H CL).
Qed.
Print Assumptions C87_rerun_refuted.

(** Why: after a run from CSV files the metadata have lost the name of their index, so that the saved table has no column
    'primary_id', ValueError; and the saved times have offsets, on which the next tz_localize would fail with TypeError. *)
Theorem C87_rerun_csv_fails z start stop fs0 sec l0 pixels p mt cfg fs fs' cfg' loc :
  (forall s, dget "topo" cfg = Some s -> dict s) -> topo_apart cfg ->
  cfg_get cfg "output" "out_location" = Some (VStr loc) ->
  load_csv z start stop fs0 sec = Done l0 -> dget "metadata" sec = Some (VStr p) -> fs0 p = Some (Csv mt) -> NoDup (x_header mt) ->
  backup_input z (set_variables pixels start stop l0) cfg fs = (fs', Done cfg') ->
  forall z2 start2 stop2,
    replay z2 start2 stop2 fs' (join (backup_dir loc) "backup_config.ini") = Fail (Raised ValueError).
Proof.
  intros DT AP CL L M P ND H z2 start2 stop2.
  destruct (csv_run_meta z start stop fs0 sec l0 pixels p mt L M P ND) as [N C].
  unfold replay.
  destruct (backup_done _ _ _ _ _ _ H) as (out & loc' & fs1 & csv' & topo & fs2 & topo' & EO & EL & _ & _ & _ & _ & EFS).
  assert (loc' = loc) by (unfold cfg_get in CL; rewrite EO in CL; congruence). subst loc'.
  assert (E : fs' (join (backup_dir loc) "backup_config.ini") = Some (Ini cfg')) by (rewrite EFS; apply fwrite_same).
  rewrite E.
  exact (replay_value_error z _ cfg fs fs' cfg' loc z2 start2 stop2 DT AP H CL N C).
Qed.
Print Assumptions C87_rerun_csv_fails.
Theorem C87_saved_times_fail z start stop fs0 sec l0 pixels cfg fs fs' cfg' loc st k p t0 :
  (forall s, dget "topo" cfg = Some s -> dict s) -> topo_apart cfg ->
  cfg_get cfg "output" "out_location" = Some (VStr loc) ->
  zone_ok z ->
  (forall line, In line (x_lines t0) -> List.length line = List.length (x_header t0)) ->
  (forall c cells, In (c :: cells) (x_lines t0) -> forall y, In y cells -> exists x, y = Number x) ->
  load_csv z start stop fs0 sec = Done l0 -> dget "stations" sec = Some st ->
  In k saved_variables -> dget k sec = Some (VStr p) -> fs0 p = Some (Csv t0) ->
  backup_input z (set_variables pixels start stop l0) cfg fs = (fs', Done cfg') ->
  exists t, fs' (saved_as loc k) = Some (Csv t) /\
    forall z2 stations start2 stop2, read_data z2 stations start2 stop2 t = Fail (Raised TypeError).
Proof.
  intros DT AP CL Z0 LEN NUM L ST K G P H.
  destruct (csv_run_values z start stop fs0 sec l0 pixels k p t0 st Z0 LEN NUM L ST K G P) as (d & D & N & R & _).
  destruct (backup_tables z _ cfg fs fs' cfg' loc DT AP H CL k (or_intror K)) as (t & A & F & _).
  exists t. split; [exact F|]. intros.
  unfold attribute in A. destruct (String.eqb_spec k "metadata") as [->|_]; [cbn in K; intuition discriminate|].
  rewrite D in A. injection A as <-. apply read_backup_type; assumption.
Qed.
Print Assumptions C87_saved_times_fail.

(** A run in UTC-7 from CSV files with two stations, of which one is configured, and two of three lines *)
Definition mst : zone := mkZone (fun _ => -420) [-420].
Definition n1 (k : Z) : cell := Number (Some (Q2Qc (inject_Z k))).
Definition ex_in (k : string) : string := append "/in/" (append k ".csv").
Definition ex_meta : text := mkText ["primary_id"; "elevation"]%string [[Text "rme"; n1 2000]; [Text "tff"; n1 2100]]%string.
Definition ex_text : text :=
  mkText ["date_time"; "rme"; "tff"]%string
    [[Time 0 None; n1 1; n1 2]; [Time 60 None; n1 3; Number None]; [Time 120 None; n1 5; n1 6]].
Definition ex_fs : files := fun p =>
  if String.eqb p (ex_in "metadata") then Some (Csv ex_meta)
  else if existsb (String.eqb p) (map ex_in saved_variables) then Some (Csv ex_text)
  else if String.eqb p "/in/topo.nc" then Some (Other 7) else None.
Definition ex_csv : section :=
  (map (fun k => (k, VStr (ex_in k))) csv_var ++ [("stations", VList ["TFF"])]%string)%list.
Definition ex_cfg : config :=
  [("topo", [("filename", VList ["/in/topo.nc"]); ("northern_hemisphere", VBool true)]);
   ("csv", ex_csv); ("output", [("out_location", VStr "/out"); ("input_backup", VBool true)])]%string.
Definition ex_pix (s : string) : cell * cell := (n1 3, n1 4).
Example C87_ex :
  zone_ok mst /\ topo_apart ex_cfg /\ cfg_get ex_cfg "output" "out_location" = Some (VStr "/out"%string) /\
  exists l0 fs' cfg',
    load_csv mst 420 480 ex_fs ex_csv = Done l0 /\
    backup_input mst (set_variables ex_pix 420 480 l0) ex_cfg ex_fs = (fs', Done cfg') /\
    fs' "/out/input_backup/air_temp.csv"%string =
      Some (Csv (mkText ["date_time"; "TFF"]%string [[Time 0 (Some (-420)); n1 2]; [Time 60 (Some (-420)); Number None]])) /\
    fs' "/out/input_backup/metadata.csv"%string =
      Some (Csv (mkText [""; "elevation"; "xi"; "yi"]%string [[Text "RME"; n1 2000; n1 3; n1 4]; [Text "TFF"; n1 2100; n1 3; n1 4]]%string)) /\
    fs' "/out/input_backup/topo.nc"%string = Some (Other 7) /\
    cfg_get cfg' "topo" "filename" = Some (VStr "/out/input_backup/topo.nc"%string) /\
    cfg_get cfg' "csv" "stations" = Some (VList ["TFF"%string]) /\
    replay mst 420 480 fs' "/out/input_backup/backup_config.ini" = Fail (Raised ValueError).
Proof.
  split; [split; [intros u; left; reflexivity|repeat constructor; intros []]|].
  assert (T : forall k src, topo_file ex_cfg k src -> k = "filename"%string /\ src = "/in/topo.nc"%string).
  { intros k src [NS G]. unfold cfg_get, ex_cfg in G. cbn in G.
    destruct (String.eqb_spec k "filename") as [->|N1]; [destruct G as [G|G]; [discriminate|injection G as <-; auto]|].
    destruct (String.eqb_spec k "northern_hemisphere") as [->|N2]; [destruct G; discriminate|destruct G; discriminate]. }
  split; [|split; [reflexivity|]].
  - split.
    + intros k src M. destruct (T k src M) as [-> ->]. split; [discriminate|].
      intros v [->|I]; [discriminate|]. cbn in I. intuition (subst; discriminate).
    + intros k src k' src' M M' _. destruct (T k src M) as [-> _]. destruct (T k' src' M') as [-> _]. reflexivity.
  - eexists _, _, _. split; [vm_compute; reflexivity|]. split; [vm_compute; reflexivity|].
    repeat split; vm_compute; reflexivity.
Qed.
(** Without a file of cloud factors the backup, which is made unless switched off, stops the run. *)
Example C87_ex_incomplete :
  exists l0, load_csv mst 420 480 ex_fs (ddel "cloud_factor" ex_csv) = Done l0 /\
  snd (backup_input mst (set_variables ex_pix 420 480 l0) ex_cfg ex_fs) = Fail NoAttribute.
Proof. eexists. split; vm_compute; reflexivity. Qed.
