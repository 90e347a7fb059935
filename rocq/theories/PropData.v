(** Data-handling properties C20, C41-C48, C52, C53. *)
From Coq Require Import List Arith Bool ZArith QArith Qcanon Permutation Sorted.
From Verif Require Import Num DataModel DataSpec DataProofs.
Import ListNotations.
Local Open Scope Qc_scope.

(** ** C20 set_min_max *)
Theorem C20_set_min_max data lo hi :
  length (set_min_max data lo hi) = length data /\
  forall i,
    (nth i data None = None -> nth i (set_min_max data lo hi) None = None) /\
    (forall x, nth i data None = Some x ->
       exists y, nth i (set_min_max data lo hi) None = Some y /\
       (consistent lo hi ->
          at_least lo y /\ at_most hi y /\
          (at_least lo x -> at_most hi x -> y = x) /\
          (forall l, lo = Some l -> x < l -> y = l) /\
          (forall h, hi = Some h -> h < x -> y = h)) /\
       (forall l h, lo = Some l -> hi = Some h -> h < l -> y = h)).
Proof. exact (set_min_max_spec data lo hi). Qed.
Print Assumptions C20_set_min_max.

Theorem C20_idempotent data lo hi :
  set_min_max (set_min_max data lo hi) lo hi = set_min_max data lo hi.
Proof. exact (set_min_max_idem data lo hi). Qed.
Print Assumptions C20_idempotent.

Example C20_ex :
  map (option_map this) (set_min_max [Some (q (-3) 1); None; Some (q 1 2); Some (q 7 1)] (Some 0) (Some (q 5 1)))
  = [Some 0%Q; None; Some (1 # 2)%Q; Some 5%Q].
Proof. vm_compute. reflexivity. Qed.
Example C20_ex_consistent : consistent (Some 0) (Some (q 5 1)) /\ consistent None (Some 0).
Proof. split; intros l h [= <-] [= <-]; vm_compute; discriminate. Qed.

(** ** C41 nearest grid line *)
Theorem C41_nearest c vec : vec <> [] ->
  exists i, find_pixel_location (Some c) vec = Some i /\ (i < length vec)%nat /\
  forall j dj di, (j < length vec)%nat ->
    dist1 (nth j vec 0) c dj -> dist1 (nth i vec 0) c di ->
    di <= dj /\ ((j < i)%nat -> di < dj).
Proof. exact (find_pixel_spec c vec). Qed.
Print Assumptions C41_nearest.

(** a station without coordinates is silently put on the first grid line *)
Theorem C41_missing_coordinate vec : vec <> [] -> find_pixel_location None vec = Some 0%nat.
Proof. exact (find_pixel_nan vec). Qed.
Print Assumptions C41_missing_coordinate.

Theorem C41_empty c : find_pixel_location c [] = None.
Proof. exact (find_pixel_empty c). Qed.
Print Assumptions C41_empty.

Example C41_ex : find_pixel_location (Some (q 24 1)) [q 10 1; q 20 1; q 28 1; q 30 1] = Some 1%nat.
Proof. vm_compute. reflexivity. Qed.

(** ** C42 HRRR cloud factor memory *)
(** The first call: if anything is missing, every cell becomes 1 (clear sky), else the
    last loaded row is handed on. *)
Theorem C42_first_call_missing cols : (exists c x, In c cols /\ In x c /\ x = None) ->
  (forall c, In c cols -> c <> []) ->
  check_cloud_factor None cols = map (fun _ => Some 1) cols.
Proof. exact (check_first_nan cols). Qed.
Print Assumptions C42_first_call_missing.

Theorem C42_first_call_complete cols : (forall c x, In c cols -> In x c -> x <> None) ->
  (forall c, In c cols -> c <> []) ->
  check_cloud_factor None cols = map (fun c => last c None) cols.
Proof. exact (check_first_ok cols). Qed.
Print Assumptions C42_first_call_complete.

(** Later calls: the last number loaded for the cell, or the remembered value if nothing
    was loaded for it. *)
Theorem C42_next_call mem cols j m : length cols = length mem -> (j < length mem)%nat -> nth j mem None = Some m ->
  (forall v, last_number (nth j cols []) v -> nth j (check_cloud_factor (Some mem) cols) None = Some v) /\
  ((forall x, In x (nth j cols []) -> x = None) -> nth j (check_cloud_factor (Some mem) cols) None = Some m).
Proof. exact (check_next mem cols j m). Qed.
Print Assumptions C42_next_call.

(** No step of a run hands on a missing value. *)
Theorem C42_never_missing n frames : (forall f, In f frames -> length f = n) ->
  (forall f, hd_error frames = Some f -> forall c, In c f -> c <> []) ->
  length (cloud_run None frames) = length frames /\
  forall row x, In row (cloud_run None frames) -> In x row -> x <> None.
Proof. exact (cloud_run_no_nan n frames). Qed.
Print Assumptions C42_never_missing.

Example C42_ex :
  map (map (option_map this))
      (cloud_run None [ [[None]; [Some (q 1 2)]];
                        [[Some (q 1 4); None]; [None; None]];
                        [[None]; [Some (q 3 4)]] ])
  = [[Some 1; Some 1]; [Some (1 # 4); Some 1]; [Some (1 # 4); Some (3 # 4)]]%Q.
Proof. vm_compute. reflexivity. Qed.

(** ** C43 co-located stations *)
Theorem C43_colocation {A} (meta : list (A * (nat * nat))) :
  exists pixels, NoDup pixels /\
    (forall x y, In (x, y) pixels <-> exists l, on_pixel x y meta l /\ (2 <= length l)%nat) /\
    (pixels = [] -> check_station_colocation meta = None) /\
    (pixels <> [] -> exists groups, check_station_colocation meta = Some groups /\
       Forall2 (fun p g => on_pixel (fst p) (snd p) meta g) pixels groups).
Proof. exact (colocation_spec meta). Qed.
Print Assumptions C43_colocation.

Example C43_ex : check_station_colocation [(1, (4, 7)); (2, (4, 8)); (3, (4, 7)); (5, (9, 8)); (6, (9, 8))]%nat
  = Some [[1; 3]; [5; 6]]%nat /\ check_station_colocation [(1, (4, 7)); (2, (7, 4))]%nat = None.
Proof. split; reflexivity. Qed.

(** ** C44 missing topo images *)
Theorem C44_readImages {A} (file : image -> option A) (to_int to_float : A -> A) :
  (readImages file to_int to_float = None <-> file Dem = None) /\
  (forall l, readImages file to_int to_float = Some l ->
     map fst l = [Dem; Mask; VegType; VegHeight; VegK; VegTau] /\
     forall v r, In (v, r) l ->
       exists w a, last_present file v w /\ file w = Some a /\ r = conv to_int to_float w a).
Proof. exact (readImages_spec file to_int to_float). Qed.
Print Assumptions C44_readImages.

Example C44_ex :
  readImages (fun v => match v with Dem => Some 10 | Mask => Some 20 | VegHeight => Some 30 | _ => None end)%nat
             (fun n => n) (fun n => S n)
  = Some [(Dem, 11); (Mask, 21); (VegType, 21); (VegHeight, 31); (VegK, 31); (VegTau, 31)]%nat.
Proof. reflexivity. Qed.

(** ** C45 which precipitation pipeline runs *)
Theorem C45_skipped {D S} adjust (marks susong : D -> S -> S) drift c cold corrected data s :
  c_grid c = false -> c_marks c = false -> c_under c = false ->
  ppt_distribute adjust marks susong drift c cold corrected data s =
    (corrected, if c_winstral c && cold then drift s else s).
Proof. exact (ppt_skip adjust marks susong drift c cold corrected data s). Qed.
Print Assumptions C45_skipped.

Theorem C45_otherwise_one_pipeline {D S} adjust (marks susong : D -> S -> S) drift c cold corrected data s :
  let post := fun x => if c_winstral c && cold then drift x else x in
  (c_grid c = true ->
     ppt_distribute adjust marks susong drift c cold corrected data s = (corrected, post (susong data s))) /\
  (c_grid c = false -> c_marks c = true ->
     let row := if c_under c then adjust corrected else corrected in
     ppt_distribute adjust marks susong drift c cold corrected data s = (row, post (marks row s))) /\
  (c_grid c = false -> c_marks c = false -> c_under c = true ->
     ppt_distribute adjust marks susong drift c cold corrected data s = (corrected, post (susong (adjust data) s))).
Proof. exact (ppt_runs adjust marks susong drift c cold corrected data s). Qed.
Print Assumptions C45_otherwise_one_pipeline.

Example C45_ex :
  ppt_distribute (fun d => d * 2)%nat (fun d s => d + s)%nat (fun d s => d * s)%nat (fun s => s)
     (mkPpt false false false false) true 1%nat 5%nat 7%nat = (1, 7)%nat.
Proof. reflexivity. Qed.

(** ** C46 storm days restart *)
Theorem C46_restart {A} times (recs : list A) zeros start : length recs = length times ->
  (forall k, nth_error times (S k) = Some start -> (forall j, (j <= k)%nat -> nth_error times j <> Some start) ->
     storm_days_restart true times recs zeros start = nth_error recs k /\ (k < length recs)%nat) /\
  (nth_error times 0 = Some start ->
     storm_days_restart true times recs zeros start = nth_error recs (length recs - 1) /\ recs <> []) /\
  ((forall t, In t times -> t <> start) -> storm_days_restart true times recs zeros start = Some zeros).
Proof. exact (restart_spec times recs zeros start). Qed.
Print Assumptions C46_restart.

Example C46_ex :
  storm_days_restart true [10; 20; 30]%Z [100; 200; 300]%nat 0%nat 20 = Some 100%nat /\
  storm_days_restart true [10; 20; 30]%Z [100; 200; 300]%nat 0%nat 10 = Some 300%nat /\
  storm_days_restart true [10; 20; 30]%Z [100; 200; 300]%nat 0%nat 15 = Some 0%nat.
Proof. repeat split. Qed.

(** ** C47 station filter *)
Theorem C47_station_filter {A} (s : loaded A) :
  (forall v m, In (v, m) [(AirTemp, MAirTemp); (VaporPressure, MVaporPressure);
                          (Precip, MPrecipitation); (CloudFactor, MCloudFactor); (Thermal, MThermal)] ->
     ld_table (load_filter s) v = filtered (ld_stations s m) (ld_table s v) /\
     ld_stations (load_filter s) m = Some (columns (filtered (ld_stations s m) (ld_table s v)))) /\
  let speed := filtered (ld_stations s MWind) (ld_table s WindSpeed) in
  let dirn := filtered (Some (columns speed)) (ld_table s WindDirection) in
  ld_table (load_filter s) WindSpeed = speed /\
  ld_table (load_filter s) WindDirection = dirn /\
  ld_stations (load_filter s) MWind = Some (columns dirn).
Proof. exact (load_filter_spec s). Qed.
Print Assumptions C47_station_filter.

Example C47_ex :
  let s := mkLd (fun v => match v with
                 | AirTemp => Some [(1, 11); (2, 22); (3, 33)]
                 | WindSpeed => Some [(2, 5); (3, 6)] | WindDirection => Some [(3, 90); (1, 0)]
                 | _ => None end)%nat
               (fun m => match m with MAirTemp => Some [3; 1; 8] | _ => None end)%nat in
  ld_table (load_filter s) AirTemp = Some [(1, 11); (3, 33)]%nat /\
  ld_stations (load_filter s) MAirTemp = Some [1; 3]%nat /\
  ld_table (load_filter s) WindDirection = Some [(3, 90)]%nat /\
  ld_stations (load_filter s) MWind = Some [3]%nat /\ ld_stations (load_filter s) MThermal = Some [].
Proof. repeat split. Qed.

(** ** C48 configured station lists are dropped *)
Theorem C48_getStations cfg : fst (getStations cfg) = None /\
  (forall l, cfg = Some (Some l) -> exists l', snd (getStations cfg) = Some (Some l') /\
     Permutation l l' /\ Sorted le l') /\
  ((forall l, cfg <> Some (Some l)) -> snd (getStations cfg) = cfg).
Proof. exact (getStations_spec cfg). Qed.
Print Assumptions C48_getStations.

Example C48_ex : getStations (Some (Some [3; 1; 2]%nat)) = (None, Some (Some [1; 2; 3]%nat)).
Proof. reflexivity. Qed.

(** ** C52 interpolation on a triangulation *)
Theorem C52_weights_sum_to_one s uv : fold_right Qcplus 0 (interp_weights s uv) = 1.
Proof. exact (weights_sum s uv). Qed.
Print Assumptions C52_weights_sum_to_one.

(** fields that are affine in the coordinates are reproduced exactly *)
Theorem C52_affine_exact s v0 v1 uv a b c : inverse_edges s v0 v1 ->
  wsum [Some (affine a b c v0); Some (affine a b c v1); Some (affine a b c (sx_r s))] (interp_weights s uv)
  = Some (affine a b c uv).
Proof. exact (weights_reproduce s v0 v1 uv a b c). Qed.
Print Assumptions C52_affine_exact.

Theorem C52_pointwise values vtx wts fill i : (i < length vtx)%nat -> length wts = length vtx ->
  let r := nth i (grid_interpolate values vtx wts fill) None in
  (forall w, In w (nth i wts []) -> w < 0 -> r = fill) /\
  ((forall w, In w (nth i wts []) -> 0 <= w) ->
     r = wsum (map (fun k => nth k values None) (nth i vtx [])) (nth i wts [])).
Proof. exact (grid_interpolate_point values vtx wts fill i). Qed.
Print Assumptions C52_pointwise.

Theorem C52_between lo hi values vtx wts fill i : (i < length vtx)%nat -> length wts = length vtx ->
  length (nth i vtx []) = length (nth i wts []) ->
  (forall w, In w (nth i wts []) -> 0 <= w) -> fold_right Qcplus 0 (nth i wts []) = 1 ->
  (forall k, In k (nth i vtx []) -> exists v, nth k values None = Some v /\ lo <= v /\ v <= hi) ->
  exists y, nth i (grid_interpolate values vtx wts fill) None = Some y /\ lo <= y /\ y <= hi.
Proof. exact (grid_interpolate_between lo hi values vtx wts fill i). Qed.
Print Assumptions C52_between.

Example C52_ex :
  let s := mkSx [0; 1; 2]%nat (1, 0) (0, 1) (0, 0) in
  inverse_edges s (1, 0) (0, 1) /\
  map (option_map this)
    (grid_interpolate [Some (q 10 1); Some (q 20 1); Some (q 30 1)] [sx_vtx s; sx_vtx s]
       [interp_weights s (q 1 4, q 1 4); interp_weights s (q 1 1, q 1 1)] None) = [Some (45 # 2)%Q; None].
Proof. split; [repeat split; apply Qc_is_canon; reflexivity|vm_compute; reflexivity]. Qed.

(** ** C53 WRF precipitation *)
Theorem C53_wrf_precip rows n : (forall r, In r rows -> length r = n) ->
  length (wrf_precip rows) = length rows /\
  forall i j, (i < length rows)%nat -> (j < n)%nat ->
    nth j (nth i (wrf_precip rows) []) None =
      match i with
      | O => Some 0
      | S i' => nsub (nth j (nth i rows []) None) (nth j (nth i' rows []) None)
      end.
Proof. exact (wrf_precip_spec rows n). Qed.
Print Assumptions C53_wrf_precip.

Theorem C53_running_total rows n i j : (forall r, In r rows -> length r = n) ->
  (forall r x, In r rows -> In x r -> x <> None) ->
  (i < length rows)%nat -> (j < n)%nat ->
  total (S i) (fun k => nth j (nth k (wrf_precip rows) []) None) =
    nsub (nth j (nth i rows []) None) (nth j (nth 0 rows []) None).
Proof. exact (wrf_precip_total rows n i j). Qed.
Print Assumptions C53_running_total.

Example C53_ex : map (map (option_map this)) (wrf_precip [[Some (q 5 1)]; [Some (q 7 1)]; [Some (q 7 1)]; [Some (q 8 1)]])
  = [[Some 0]; [Some 2]; [Some 0]; [Some 1]]%Q.
Proof. vm_compute. reflexivity. Qed.
