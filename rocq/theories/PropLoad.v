(** C81 dates of a run, C82 data from CSV files, C83 data from gridded files. *)
From Coq Require Import List ZArith Bool Lia Arith QArith Qcanon String.
From Verif Require Import Num WinsModel StepModel LoadModel LoadSpec LoadProofs.
Import ListNotations.
Local Open Scope Z_scope.

(** ** C81: the dates of a run *)
(** The setup succeeds exactly when the clocks of the time zone show the configured start and end once each; the
    dates are then the instants start, start + step, ... up to and including the end, in order. *)
Theorem C81_dates z wstart wstop step : zone_ok z -> 0 < step ->
  (forall dates, setup_dates z wstart wstop step = Ok dates ->
     exists start stop, shown_once z wstart start /\ shown_once z wstop stop /\
       (forall t, In t dates <-> exists k, 0 <= k /\ t = start + step * k /\ t <= stop) /\
       (forall k t, nth_error dates k = Some t -> t = start + step * Z.of_nat k)) /\
  ((exists dates, setup_dates z wstart wstop step = Ok dates) <->
   (exists start, shown_once z wstart start) /\ (exists stop, shown_once z wstop stop)) /\
  (forall e, setup_dates z wstart wstop step = Err e -> e = ValueError).
Proof.
  intros Z0 P. unfold setup_dates.
  destruct (tz_localize z wstart) as [s|e1] eqn:E1; cbn [bind];
  destruct (tz_localize z wstop) as [e|e2] eqn:E2; cbn [bind].
  - pose proof (proj1 (localize_ok z wstart s Z0) E1) as S1. pose proof (proj1 (localize_ok z wstop e Z0) E2) as S2.
    split; [|split; [split; [intros _; eauto|intros _; eauto]|discriminate]].
    intros dates [= <-]. exists s, e. split; [exact S1|]. split; [exact S2|]. split.
    + intros t. apply in_date_range. exact P.
    + intros k t. apply date_range_nth.
  - split; [discriminate|]. split; [|intros e' [= <-]; exact (localize_err _ _ _ E2)].
    split; [intros [? ?]; discriminate|]. intros [_ [v Hv]]. apply (localize_ok z _ _ Z0) in Hv. congruence.
  - split; [discriminate|]. split; [|intros e' [= <-]; exact (localize_err _ _ _ E1)].
    split; [intros [? ?]; discriminate|]. intros [[v Hv] _]. apply (localize_ok z _ _ Z0) in Hv. congruence.
  - split; [discriminate|]. split; [|intros e' [= <-]; exact (localize_err _ _ _ E1)].
    split; [intros [? ?]; discriminate|]. intros [[v Hv] _]. apply (localize_ok z _ _ Z0) in Hv. congruence.
Qed.
Print Assumptions C81_dates.

Theorem C81_number_of_steps start stop step : 0 < step -> start <= stop ->
  Z.of_nat (List.length (date_range start stop step)) = (stop - start) / step + 1 /\
  (In stop (date_range start stop step) <-> (stop - start) mod step = 0).
Proof.
  intros P L. split; [exact (date_range_length start stop step P L)|].
  rewrite in_date_range by exact P. split.
  - intros (k & Hk & E & _). replace (stop - start) with (k * step) by lia. apply Z.mod_mul. lia.
  - intros E. exists ((stop - start) / step). split; [apply Z.div_pos; lia|]. split; [|lia].
    pose proof (Z.div_mod (stop - start) step ltac:(lia)). lia.
Qed.
Print Assumptions C81_number_of_steps.

(** A zone that sets its clocks back from 120 to 60 (from +60 to +0 at instant 60) *)
Definition back : zone := mkZone (fun u => if u <? 60 then 60 else 0) [60; 0].
Lemma back_ok : zone_ok back.
Proof.
  split; [intros u; cbn; destruct (u <? 60); auto|].
  repeat constructor; cbn; intuition discriminate.
Qed.
(** "The clocks show a different time at every date of a run" is false when they are set back. *)
Theorem C81_distinct_wall_times_refuted :
  zone_ok back /\
  setup_dates back 0 180 60 = Ok [-60; 0; 60; 120; 180] /\
  map (wall back) [-60; 0; 60; 120; 180] = [0; 60; 60; 120; 180].
Proof. split; [exact back_ok|]. split; vm_compute; reflexivity. Qed.
Print Assumptions C81_distinct_wall_times_refuted.
(** "Every time the clocks show can be the start of a run" is false. *)
Theorem C81_start_refuted : zone_ok back /\ wall back 0 = 60 /\ setup_dates back 60 180 60 = Err ValueError.
Proof. split; [exact back_ok|]. split; vm_compute; reflexivity. Qed.
Print Assumptions C81_start_refuted.
(** With a fixed offset every start and end is accepted, and the clocks show start, start + step, ... *)
Theorem C81_fixed_offset o wstart wstop step : 0 < step ->
  let z := mkZone (fun _ => o) [o] in
  zone_ok z /\
  exists dates, setup_dates z wstart wstop step = Ok dates /\
    forall k t, nth_error dates k = Some t -> wall z t = wstart + step * Z.of_nat k.
Proof.
  intros P z.
  assert (Z0 : zone_ok z) by (split; [intros u; left; reflexivity|repeat constructor; intros []]).
  split; [exact Z0|].
  assert (S1 : forall w, shown_once z w (w - o)) by (intros w; split; [unfold wall; cbn; lia|unfold wall; cbn; intros; lia]).
  destruct (C81_dates z wstart wstop step Z0 P) as (A & B & _).
  destruct (proj2 B) as [dates E]; [split; eexists; apply S1|]. exists dates. split; [exact E|].
  destruct (A dates E) as (s & e & Ss & _ & _ & N). intros k t Hk. rewrite (N k t Hk).
  destruct Ss as [Ss _]. unfold wall in *. cbn in *. lia.
Qed.
Print Assumptions C81_fixed_offset.

(** ** C82: data from CSV files *)
(** What a module is given for a station at a date is the file's number below that station's name (in capitals) in
    the line whose time the clocks show at that date, for the dates of the run, both ends included, and the
    configured stations; for anything else there is no value. *)
Theorem C82_value z stations start stop f d t s x : zone_ok z -> file_ok f ->
  csv_load z stations start stop f = Ok d ->
  (value String.eqb d t s = Ok x <->
   start <= t <= stop /\ allowed stations s /\ exists c, capitals c = s /\ file_says f (wall z t) c x).
Proof. apply csv_value. Qed.
Print Assumptions C82_value.

(** The stations of a variable are the file's, in the file's order, without those not configured; there is at
    least one, and at least one line. *)
Theorem C82_columns z stations start stop f d : csv_load z stations start stop f = Ok d ->
  t_cols d <> [] /\ t_rows d <> [] /\
  exists p, t_cols d = filter p (map capitals (t_cols f)) /\ forall s, p s = true <-> allowed stations s.
Proof. apply csv_columns. Qed.
Print Assumptions C82_columns.

(** Loading fails with ValueError exactly when the file has a line, inside the run or not, for a time the clocks never
    show or show twice, and otherwise with the exception "No CSV data found" exactly when no line is for a date of
    the run or no column is for a configured station. *)
Theorem C82_fails z stations start stop f : zone_ok z ->
  (csv_load z stations start stop f = Err ValueError <->
     exists w row, In (w, row) (t_rows f) /\ forall u, ~ shown_once z w u) /\
  ((forall w row, In (w, row) (t_rows f) -> exists u, shown_once z w u) ->
   (csv_load z stations start stop f = Err PlainException <->
     (forall u row, In (wall z u, row) (t_rows f) -> ~ start <= u <= stop) \/
     (forall c, In c (t_cols f) -> ~ allowed stations (capitals c)))).
Proof. apply csv_fails. Qed.
Print Assumptions C82_fails.

(** A date without a line in the file does not stop the loading; the run stops there with a KeyError. *)
Theorem C82_missing_date z stations start stop f d t s : zone_ok z -> file_ok f ->
  csv_load z stations start stop f = Ok d -> In s (t_cols d) -> (forall row, ~ In (wall z t, row) (t_rows f)) ->
  value String.eqb d t s = Err KeyError.
Proof. apply value_keyerror. Qed.
Print Assumptions C82_missing_date.

Definition one (z : Z) : num := Some (Q2Qc (inject_Z z)).
Definition ex_file : table string :=
  mkTable ["rme"; "Tff"]%string [(0, [one 1; one 2]); (180, [one 3; None]); (240, [one 5; one 6])].
Example C82_ex : file_ok ex_file /\
  exists d, csv_load back (Some ["TFF"]%string) (-60) 180 ex_file = Ok d /\ t_cols d = ["TFF"]%string /\
    value String.eqb d (-60) "TFF"%string = Ok (one 2) /\ value String.eqb d 180 "TFF"%string = Ok None /\
    value String.eqb d 240 "TFF"%string = Err KeyError.
Proof.
  split.
  - split; [intros w row [[= <- <-]|[[= <- <-]|[[= <- <-]|[]]]]; reflexivity|].
    split; repeat constructor; cbn; intuition discriminate.
  - eexists. split; [reflexivity|]. repeat split; reflexivity.
Qed.
(** "A run can be driven by a file with a line for every time its clocks show" is false when they are set back in the
    run: the hour shown twice cannot be read, whatever the dates of the run. *)
Theorem C82_all_hours_refuted :
  zone_ok back /\
  forall stations start stop rows cols row,
    csv_load back stations start stop (mkTable cols ((60, row) :: rows)) = Err ValueError.
Proof.
  split; [exact back_ok|]. intros. apply (C82_fails back stations start stop _ back_ok).
  exists 60, row. split; [left; reflexivity|]. intros u [_ U].
  assert (A : 0 = u) by (apply U; reflexivity). assert (B : 60 = u) by (apply U; reflexivity). lia.
Qed.
Print Assumptions C82_all_hours_refuted.
(** "A station configured under the name it has in the file is found" is false unless the name is in capitals (the
    configuration's checker, which is not modelled, may have put it in capitals before). *)
Theorem C82_case_refuted :
  csv_load back (Some ["rme"]%string) (-60) 180 ex_file = Err PlainException.
Proof. reflexivity. Qed.
Print Assumptions C82_case_refuted.

(** ** C83: data from gridded files *)
(** The stations of a netCDF file are its cells inside the box, edges included, each with its own coordinates and
    elevation, under distinct names. *)
Theorem C83_netcdf_cells z b utm c eny enx elev origin minutes times fv var start stop meta d : zone_ok z ->
  netcdf_load z b utm c eny enx elev origin minutes times fv var start stop = Ok (meta, d) ->
  map s_name meta = t_cols d /\ NoDup (t_cols d) /\
  forall m, In m meta <-> exists i j lat lon, coords_of c i j lat lon /\ inside b lat lon /\
     m = mkStation (cell_name (i, j)) lat lon (elev i j) (utm lat lon).
Proof. intros Z0. apply netcdf_meta. exact Z0. Qed.
Print Assumptions C83_netcdf_cells.

(** What a module is given for a cell at a date is the file's value of that cell in the record whose time, cut to a
    whole number, the clocks show at that date; the fill value is missing. *)
Theorem C83_netcdf_value z b utm c eny enx elev origin minutes times fv var start stop meta d t i j x : zone_ok z ->
  netcdf_load z b utm c eny enx elev origin minutes times fv var start stop = Ok (meta, d) ->
  NoDup (map (fun v => origin + minutes * trunc v) times) ->
  (value String.eqb d t (cell_name (i, j)) = Ok x <->
   start <= t <= stop /\
   (exists lat lon, coords_of c i j lat lon /\ inside b lat lon) /\
   exists k v, nth_error times k = Some v /\ wall z t = origin + minutes * trunc v /\
     x = match var k i j, fv with Some y, Some f => if Qc_eq_dec y f then None else Some y | y, _ => y end).
Proof.
  intros Z0 H N. rewrite (netcdf_value z b utm c eny enx elev origin minutes times fv var start stop Z0 meta d t i j x H N).
  unfold drop_fill, Qceqb.
  assert (E : forall k, match var k i j with Some v => match fv with Some f => if (if Qc_eq_dec v f then true else false) then None else Some v | None => var k i j end | None => var k i j end
     = match var k i j, fv with Some y, Some f => if Qc_eq_dec y f then None else Some y | y, _ => y end).
  { intros k. destruct (var k i j) as [y|]; [|reflexivity]. destruct fv as [f|]; [|reflexivity]. destruct (Qc_eq_dec y f); reflexivity. }
  split; intros (W & C & k & v & A & B & X); (split; [exact W|]; split; [exact C|]; exists k, v; split; [exact A|]; split; [exact B|]).
  - rewrite X. apply E.
  - rewrite X. symmetry. apply E.
Qed.
Print Assumptions C83_netcdf_value.

Theorem C83_netcdf_loads z b utm c eny enx elev origin minutes times fv var start stop : zone_ok z ->
  ((exists r, netcdf_load z b utm c eny enx elev origin minutes times fv var start stop = Ok r) <->
   eny = rows_of c /\ enx = cols_of c /\
   forall v, In v times -> exists t, shown_once z (origin + minutes * trunc v) t).
Proof. intros Z0. apply netcdf_loads. exact Z0. Qed.
Print Assumptions C83_netcdf_loads.

(** Cutting a time to a whole number *)
Theorem C83_cut v : (0 <= v)%Q ->
  (inject_Z (trunc v) <= v)%Q /\ (v < inject_Z (trunc v + 1))%Q /\ forall n, trunc (inject_Z n) = n.
Proof. apply trunc_spec. Qed.
Print Assumptions C83_cut.

(** Two cells, one latitude and one longitude outside the box by the other axis; hourly *)
Definition utc : zone := mkZone (fun _ => 0) [0].
Lemma utc_ok : zone_ok utc. Proof. split; [intros u; left; reflexivity|repeat constructor; intros []]. Qed.
Definition box : bbox := mkBbox (q (-120) 1) (q 40 1) (q (-110) 1) (q 45 1).
Definition grid_file := Lines [Some (q 40 1); Some (q 46 1)] [Some (q (-115) 1); Some (q (-110) 1); Some (q (-109) 1)].
Definition ex_var (k i j : nat) : num := if (k =? 1)%nat then Some (q (-9999) 1) else one (Z.of_nat (100 * k + 10 * i + j)).
Example C83_ex : exists meta d,
  netcdf_load utc box (fun a o => (o, a)) grid_file 2 3 (fun _ _ => one 7) 0 60 [0; 1; 2]%Q (Some (q (-9999) 1)) ex_var 0 120
    = Ok (meta, d) /\ map s_name meta = ["grid_y0_x0"; "grid_y0_x1"]%string /\
  value String.eqb d 0 "grid_y0_x1"%string = Ok (one 1) /\ value String.eqb d 60 "grid_y0_x1"%string = Ok None /\
  value String.eqb d 120 "grid_y0_x0"%string = Ok (one 200).
Proof. do 2 eexists. split; [reflexivity|]. repeat split; reflexivity. Qed.

(** "The value used at a date is the one the file has for that time" is false for fractions of the unit: a value for
    half past two is used at two, and there is none at half past. *)
Theorem C83_time_refuted :
  exists meta d,
    netcdf_load utc box (fun a o => (o, a)) grid_file 2 3 (fun _ _ => one 7) 0 60 [5 # 2]%Q None (fun _ _ _ => one 9) 0 200
      = Ok (meta, d) /\
    value String.eqb d 120 "grid_y0_x0"%string = Ok (one 9) /\ value String.eqb d 150 "grid_y0_x0"%string = Err KeyError.
Proof. do 2 eexists. split; [reflexivity|]. split; reflexivity. Qed.
Print Assumptions C83_time_refuted.

(** Coordinates of one and two dimensions.  "A grid of cells is made of the coordinates exactly when they are not
    two-dimensional": true if both have the same number; in a mixed file only the longitude's counts. *)
Theorem C83_make_grid nlat nlon : 1 <= nlat <= 2 -> 1 <= nlon <= 2 -> make_grid nlat nlon = (nlon =? 1).
Proof.
  intros A B. assert (nlat = 1 \/ nlat = 2) as [->| ->] by lia; assert (nlon = 1 \/ nlon = 2) as [->| ->] by lia; reflexivity.
Qed.
Print Assumptions C83_make_grid.

(** WRF files: the records used are those of the run, both ends included, if the run is in UTC; in every other time zone
    loading fails. *)
Theorem C83_wrf_times utc_run times start stop :
  (utc_run = true -> exists ind, wrf_time_ind utc_run times start stop = Ok ind /\ List.length ind = List.length times /\
     forall k t, nth_error times k = Some t -> (nth k ind false = true <-> start <= t <= stop)) /\
  (utc_run = false -> wrf_time_ind utc_run times start stop = Err TypeError).
Proof.
  split; intros ->; [|reflexivity]. eexists. split; [reflexivity|]. split; [apply map_length|].
  intros k t H. assert (L : (k < List.length times)%nat) by (apply nth_error_Some; congruence).
  rewrite (nth_indep _ false ((start <=? 0) && (0 <=? stop))) by (rewrite map_length; exact L).
  rewrite (map_nth (fun t => (start <=? t) && (t <=? stop)) times 0).
  rewrite (nth_error_nth _ _ _ H). rewrite andb_true_iff, !Z.leb_le. reflexivity.
Qed.
Print Assumptions C83_wrf_times.

(** The cloud factor from WRF is 1 under a clear sky and 0 if every level is covered, and between the two otherwise. *)
Theorem C83_wrf_cloud cldfra : cldfra <> [] -> (forall x, In x cldfra -> 0 <= x /\ x <= 1)%Qc ->
  (0 <= wrf_cloud_factor cldfra /\ wrf_cloud_factor cldfra <= 1)%Qc /\
  (wrf_cloud_factor cldfra = 1%Qc <-> forall x, In x cldfra -> x = 0%Qc) /\
  (wrf_cloud_factor cldfra = 0%Qc <-> forall x, In x cldfra -> x = 1%Qc).
Proof. intros N H. split; [apply cloud_factor_bounds; assumption|]. apply cloud_factor_ends; assumption. Qed.
Print Assumptions C83_wrf_cloud.
Example C83_wrf_ex : wrf_cloud_factor [q 0 1; q 1 1; q 1 2; q 1 2] = q 1 2 /\ wrf_cloud_factor [q 0 1] = 1%Qc.
Proof. split; reflexivity. Qed.

(** The box contains the whole domain, with a tenth of a degree to spare, if latitude grows to the north and does not
    depend on the easting, and longitude likewise. *)
Theorem C83_box (latlon : Qc -> Qc -> Qc * Qc) xmin xmax ymin ymax x y (lat lon : Qc -> Qc) :
  (forall x y, latlon x y = (lat y, lon x)) ->
  (forall a b, a <= b -> lat a <= lat b)%Qc -> (forall a b, a <= b -> lon a <= lon b)%Qc ->
  (xmin <= x /\ x <= xmax)%Qc -> (ymin <= y /\ y <= ymax)%Qc ->
  let b := model_domain_grid latlon xmin xmax ymin ymax in
  (latmin b + q 1 10 <= lat y /\ lat y <= latmax b - q 1 10 /\
   lonmin b + q 1 10 <= lon x /\ lon x <= lonmax b - q 1 10)%Qc.
Proof.
  intros E La Lo [X1 X2] [Y1 Y2] b. unfold b, model_domain_grid, OFFSET. rewrite !E. cbn [fst snd latmin latmax lonmin lonmax].
  fold (q 1 10).
  apply La in Y1. apply La in Y2. apply Lo in X1. apply Lo in X2.
  repeat split.
  - replace (lat ymin - q 1 10 + q 1 10)%Qc with (lat ymin) by ring. exact Y1.
  - replace (lat ymax + q 1 10 - q 1 10)%Qc with (lat ymax) by ring. exact Y2.
  - replace (lon xmin - q 1 10 + q 1 10)%Qc with (lon xmin) by ring. exact X1.
  - replace (lon xmax + q 1 10 - q 1 10)%Qc with (lon xmax) by ring. exact X2.
Qed.
Print Assumptions C83_box.
(** "The box contains the domain" is false for a projection whose grid is turned against north: only two of the four
    corners are looked at. *)
Theorem C83_box_refuted :
  let latlon x y := (y - x, x + y)%Qc in
  let b := model_domain_grid latlon 0 1 0 1 in
  ~ inside b (Some (fst (latlon 1 0)))%Qc (Some (snd (latlon 1 0)))%Qc.
Proof.
  intros latlon b (la & lo & [= <-] & [= <-] & H & _). revert H. vm_compute. intros H. apply H. reflexivity.
Qed.
Print Assumptions C83_box_refuted.

(** Which loader is used: csv if there is such a section, whatever else there is, then the gridded section's
    data_type; anything else is an AttributeError. *)
Theorem C83_loader csv gridded :
  (determine_data_type csv gridded = Use LCsv <-> csv = true) /\
  (determine_data_type csv gridded = Use LHrrr <-> csv = false /\ gridded = Some "hrrr_grib"%string) /\
  (determine_data_type csv gridded = Use LNetcdf <-> csv = false /\ gridded = Some "netcdf"%string) /\
  (determine_data_type csv gridded = Use LWrf <-> csv = false /\ gridded = Some "wrf"%string).
Proof.
  unfold determine_data_type. destruct csv.
  - repeat split; intros; try discriminate; try reflexivity; destruct H; discriminate.
  - destruct gridded as [s|].
    + destruct (String.eqb_spec s "hrrr_grib"%string) as [->|N1]; [repeat split; intros; try discriminate; try reflexivity; destruct H; discriminate|].
      destruct (String.eqb_spec s "netcdf"%string) as [->|N2]; [repeat split; intros; try discriminate; try reflexivity; destruct H; discriminate|].
      destruct (String.eqb_spec s "wrf"%string) as [->|N3]; [repeat split; intros; try discriminate; try reflexivity; destruct H; discriminate|].
      repeat split; intros; try discriminate; destruct H as [_ [= ->]]; contradiction.
    + repeat split; intros; try discriminate; destruct H; discriminate.
Qed.
Print Assumptions C83_loader.
