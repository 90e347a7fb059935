(** C32, C33, C34, C67: wind directions, simulated wind, station wind, measured values. *)
From Coq Require Import Reals ZArith String List Bool Lra Lia.
From Verif Require Import RNum RTrig WinsModel WinsSpec WinsProofs.
Import ListNotations.
Local Open Scope R_scope.

(** ** C32: directions *)
(** The direction output is that of the vector of the distributed components, between 0 and 360. *)
Theorem C32_azimuth : forall u v,
  0 <= azimuth u v < 360 /\
  u = sqrt (u * u + v * v) * sin (azimuth u v * PI / 180) /\
  v = sqrt (u * u + v * v) * cos (azimuth u v * PI / 180).
Proof. intros u v. split; [exact (azimuth_range u v) | exact (azimuth_polar u v)]. Qed.
Print Assumptions C32_azimuth.

(** Where the components are those of one direction, that direction is recovered. *)
Theorem C32_azimuth_recovered : forall d, 0 <= d < 360 -> azimuth (u_direction d) (v_direction d) = d.
Proof. exact azimuth_direction. Qed.
Print Assumptions C32_azimuth_recovered.
Example C32_azimuth_recovered_case : azimuth (u_direction 225) (v_direction 225) = 225.
Proof. apply C32_azimuth_recovered. lra. Qed.

(** Binning: the nearest of n evenly spaced directions, the lower one at a tie, around the circle. *)
Theorem C32_bin : forall n az, (0 < n)%nat -> 0 <= az < 360 ->
  (exists j : nat, (j < n)%nat /\ dir_round n az = 360 / INR n * INR j) /\
  within_angle az (dir_round n az) (180 / INR n) /\
  (forall j : nat, (0 < j < n)%nat ->
     (dir_round n az = 360 / INR n * INR j <->
      360 / INR n * (INR j - 1 / 2) < az <= 360 / INR n * (INR j + 1 / 2))) /\
  (dir_round n az = 0 <-> az <= 180 / INR n \/ 360 - 180 / INR n < az).
Proof. exact dir_round_spec. Qed.
Print Assumptions C32_bin.
Example C32_bin_case : dir_round 72 358 = 0 /\ dir_round 72 7 = 5.
Proof.
  split.
  - apply (proj2 (proj2 (proj2 (dir_round_spec 72 358 ltac:(lia) ltac:(lra))))). right. rewrite (INR_IZR_INZ 72). simpl Z.of_nat. lra.
  - replace 5 with (360 / INR 72 * INR 1) by (rewrite !INR_IZR_INZ; simpl Z.of_nat; lra).
    apply (proj1 (proj2 (proj2 (dir_round_spec 72 7 ltac:(lia) ltac:(lra)))) 1%nat); [lia|].
    rewrite !INR_IZR_INZ. simpl Z.of_nat. lra.
Qed.

(** The binned direction is always found in an evenly spaced library. *)
Theorem C32_found : forall n dirs az, (0 < n)%nat -> even_library n dirs -> 0 <= az < 360 ->
  exists j, (j < n)%nat /\ first_index dirs (dir_round n az) = Some j /\
            within_angle az (360 / INR n * INR j) (180 / INR n).
Proof.
  intros n dirs az N E A. destruct (dir_round_spec n az N A) as ((j & J & D) & W & _). exists j.
  split; [exact J|]. rewrite <- D. split; [rewrite D; apply first_index_even; assumption | exact W].
Qed.
Print Assumptions C32_found.

(** It is not found when the spacing of the library does not divide 360: with directions every 50
    degrees a wind from 45 degrees stops the run. *)
Definition every_50 : list R := [0; 50; 100; 150; 200; 250; 300; 350].
Theorem C32_uneven_refuted : forall ny nx c maxus vt flat u v pix speeds y x,
  (y < ny)%nat -> (x < nx)%nat -> u y x = Some (u_direction 45) -> v y x = Some (v_direction 45) ->
  simulate_wind ny nx c every_50 maxus vt flat u v pix speeds = Err IndexError.
Proof.
  intros ny nx c maxus vt flat u v pix speeds y x Y X U V.
  apply (simulate_unknown_direction ny nx c every_50 maxus vt flat u v pix speeds y x 45 Y X).
  - rewrite U, V. cbn [azimuth_n rlift2]. rewrite azimuth_direction by lra. reflexivity.
  - assert (E : dir_round (length every_50) 45 = 45).
    { transitivity (360 / INR 8 * INR 1); [|rewrite !INR_IZR_INZ; simpl Z.of_nat; lra].
      apply (proj1 (proj2 (proj2 (dir_round_spec 8 45 ltac:(lia) ltac:(lra)))) 1%nat); [lia|].
      rewrite !INR_IZR_INZ. simpl Z.of_nat. lra. }
    rewrite E. unfold every_50. simpl. intuition lra.
Qed.
Print Assumptions C32_uneven_refuted.

(** A single cell without a direction stops the run. *)
Theorem C32_missing_direction : forall ny nx c dirs maxus vt flat u v pix speeds y x,
  (y < ny)%nat -> (x < nx)%nat -> u y x = None \/ v y x = None ->
  simulate_wind ny nx c dirs maxus vt flat u v pix speeds = Err IndexError.
Proof. exact simulate_missing_direction. Qed.
Print Assumptions C32_missing_direction.

(** ** C33: the simulated wind *)
(** Everything simulateWind outputs, cell by cell: the direction and its bin, the maxus of that bin with
    the vegetation correction, the measured speed on station pixels and Winstral's relation elsewhere,
    missing cells filled along the row, and the limits applied last. *)
Theorem C33_simulated_wind : forall ny nx c dirs maxus vt flat u v pix speeds o,
  simulate_wind ny nx c dirs maxus vt flat u v pix speeds = Ok o -> proper (wmin c) (wmax c) ->
  exists (pre : grid rnum) (vs : list rnum),
    length vs = length pix /\
    (vs = speeds \/ exists a, speeds = [a] /\ vs = repeat a (length pix)) /\
    forall y x, (y < ny)%nat -> (x < nx)%nat ->
      exists az i corr w s,
        azimuth_n (u y x) (v y x) = Some az /\
        o_direction o y x = Some az /\
        o_dir_round o y x = Some (dir_round (length dirs) az) /\
        nth_error dirs i = Some (dir_round (length dirs) az) /\
        (forall j, (j < i)%nat -> nth_error dirs j <> Some (dir_round (length dirs) az)) /\
        veg_correction (veg c) (veg_default c) (vt y x) corr /\
        o_maxus o y x = option_map (fun m => Rmax (-32) (Rmin 32 (m + corr))) (maxus i y x) /\
        (In (y, x) pix -> assigned pix vs (y, x) (pre y x)) /\
        (~ In (y, x) pix -> terrain_wind (reduction_factor c) (flat y x) (o_maxus o y x) (pre y x)) /\
        (pre y x = Some w \/ pre y x = None /\ filled pre ny nx y w) /\
        o_speed o y x = Some s /\ limited (wmin c) (wmax c) w s.
Proof. exact simulate_ok. Qed.
Print Assumptions C33_simulated_wind.

(** With an evenly spaced library and complete input the simulation succeeds. *)
Theorem C33_succeeds : forall ny nx c n dirs maxus vt flat u v pix speeds,
  (0 < n)%nat -> even_library n dirs -> length speeds = length pix ->
  (forall y x, (y < ny)%nat -> (x < nx)%nat -> flat y x <> None /\ u y x <> None /\ v y x <> None) ->
  (forall a, In a speeds -> a <> None) ->
  exists o, simulate_wind ny nx c dirs maxus vt flat u v pix speeds = Ok o.
Proof. exact simulate_succeeds. Qed.
Print Assumptions C33_succeeds.
Definition demo_cfg : wind_cfg := mk_wind_cfg [(41%Z, 3.3); (42%Z, 3.3)] 0 1 (Some 0.447) (Some 35).
Definition demo_lib : library := fun i y x => Some (INR i + INR x).
Lemma demo_even : even_library 4 (map (fun k => 360 / INR 4 * INR k) (seq 0 4)).
Proof. reflexivity. Qed.
Example C33_succeeds_case : exists o,
  simulate_wind 2 3 demo_cfg (map (fun k => 360 / INR 4 * INR k) (seq 0 4)) demo_lib (fun _ _ => 41%Z)
    (fun _ _ => Some 6) (fun _ _ => Some 1) (fun _ _ => Some (-1)) [(0%nat, 1%nat)] [Some 4] = Ok o /\
  proper (wmin demo_cfg) (wmax demo_cfg).
Proof.
  destruct (C33_succeeds 2 3 demo_cfg 4 (map (fun k => 360 / INR 4 * INR k) (seq 0 4)) demo_lib (fun _ _ => 41%Z)
    (fun _ _ => Some 6) (fun _ _ => Some 1) (fun _ _ => Some (-1)) [(0%nat, 1%nat)] [Some 4] ltac:(lia) demo_even eq_refl) as (o & H).
  - intros. repeat split; discriminate.
  - intros a [<-|[]]. discriminate.
  - exists o. split; [exact H | simpl; lra].
Qed.

(** A different number of measured speeds than stations stops the run. *)
Theorem C33_wrong_count : forall ny nx c n dirs maxus vt flat u v pix speeds,
  (0 < n)%nat -> even_library n dirs -> length speeds <> length pix -> length speeds <> 1%nat ->
  (forall y x, (y < ny)%nat -> (x < nx)%nat -> u y x <> None /\ v y x <> None) ->
  simulate_wind ny nx c dirs maxus vt flat u v pix speeds = Err ValueError.
Proof. exact simulate_wrong_count. Qed.
Print Assumptions C33_wrong_count.

(** Positive, and between a quarter of and four times the flat wind, except in the four gaps, where the
    wind before the limits is zero. *)
Theorem C33_bounds : forall factor f m, 0 < f -> 0 < factor ->
  (gap m -> cell_wind factor (Some f) (Some m) = Some 0) /\
  (~ gap m -> exists r, cell_wind factor (Some f) (Some m) = Some r /\ 0 < r /\
    (0 <= m -> 1.07985 * f / 4.2112 <= r <= 1.07985 * f) /\
    (m < 0 -> 1.07985 * (factor * f) <= r <= 1.07985 * (factor * f) * 4.2112)).
Proof.
  intros factor f m F K. split.
  - intros G. exact (proj1 (cell_wind_terrain factor (Some f) (Some m)) G).
  - intros G. exact (terrain_bounds factor f m _ F K G (cell_wind_terrain factor (Some f) (Some m))).
Qed.
Print Assumptions C33_bounds.
Example C33_bounds_case : gap (-21.3) /\ ~ gap 12.
Proof. unfold gap. rewrite (Rabs_left (-21.3)), (Rabs_right 12) by lra. split; lra. Qed.

(** Within a band, more shelter never means more wind ... *)
Theorem C33_shelter_monotone : forall factor f a b wa wb, 0 < f -> 0 < factor -> a < b -> ~ gap a -> ~ gap b ->
  (0 <= a /\ same_band a b \/ b < 0 /\ same_band (- b) (- a) \/ a < 0 <= b /\ 1 <= factor) ->
  cell_wind factor (Some f) (Some a) = Some wa -> cell_wind factor (Some f) (Some b) = Some wb -> wb <= wa.
Proof.
  intros factor f a b wa wb F K AB GA GB C A B.
  apply (terrain_less_wind factor f a b wa wb F K AB GA GB C); [rewrite <- A | rewrite <- B]; apply cell_wind_terrain.
Qed.
Print Assumptions C33_shelter_monotone.
Example C33_shelter_monotone_case : 0 <= 5 /\ same_band 5 20 /\ same_band 22 29.
Proof. unfold same_band. lra. Qed.
(** ... but across the two bands it can: 21.301 degrees of shelter leave more wind than 21.2999. *)
Theorem C33_shelter_monotone_refuted : exists a b wa wb, a < b /\ ~ gap a /\ ~ gap b /\
  cell_wind 1 (Some 10) (Some a) = Some wa /\ cell_wind 1 (Some 10) (Some b) = Some wb /\ wa < wb.
Proof.
  exists 21.2999, 21.301. pose proof (cell_wind_terrain 1 (Some 10) (Some 21.2999)) as [_ TA].
  pose proof (cell_wind_terrain 1 (Some 10) (Some 21.301)) as [_ TB].
  assert (GA : ~ gap 21.2999) by (unfold gap; rewrite Rabs_right by lra; lra).
  assert (GB : ~ gap 21.301) by (unfold gap; rewrite Rabs_right by lra; lra).
  destruct (TA GA) as [_ A]. destruct (TB GB) as [_ B]. specialize (A ltac:(lra)). specialize (B ltac:(lra)).
  eexists _, _. split; [lra | split; [exact GA | split; [exact GB | split; [exact A | split; [exact B|]]]]].
  unfold shelter. destruct (Rlt_dec 21.2999 21.3); [|lra]. destruct (Rlt_dec 21.301 21.3); [lra|]. destruct (Rlt_dec 21.301 30.1); [|lra].
  apply Rmult_lt_compat_l; [lra|]. unfold Rdiv. apply Rmult_lt_compat_l; [lra|]. apply Rinv_lt_contravar; lra.
Qed.
Print Assumptions C33_shelter_monotone_refuted.

(** ** C34: wind of the stations reduced to flat ground *)
(** Without a peak list: the maxus of the station's own pixel for the bin nearest to its direction, plus
    its enhancement, limited to 35 degrees. *)
Theorem C34_own_maxus : forall n dirs maxus speed direction sts l (q : Z),
  (0 < n)%nat -> even_library n dirs -> (q * Z.of_nat n = 360)%Z ->
  (forall s d, In s sts -> get direction (st_name s) = Some (Some d) -> 0 <= d <= 360) ->
  station_maxus None dirs maxus speed direction sts = Ok l ->
  length l = length sts /\
  forall k s, nth_error sts k = Some s -> exists r, nth_error l k = Some r /\
    (get direction (st_name s) = Some None /\ r = None \/
     exists d sp j, get direction (st_name s) = Some (Some d) /\ get speed (st_name s) = Some sp /\
       (j < n)%nat /\ within_angle d (360 / INR n * INR j) (180 / INR n) /\
       flattened sp (option_map (fun m => m + st_enhancement s) (maxus j (st_yi s) (st_xi s))) r).
Proof. intros n dirs maxus speed direction sts l q. exact (loop_free n dirs maxus speed direction None sts l q). Qed.
Print Assumptions C34_own_maxus.

(** With a peak list: the least maxus of the last station up to and including this one that is listed. *)
Theorem C34_peaks : forall peaks dirs maxus speed direction sts l,
  station_maxus (Some peaks) dirs maxus speed direction sts = Ok l ->
  length l = length sts /\
  forall k s, nth_error sts k = Some s -> exists r, nth_error l k = Some r /\
    (get direction (st_name s) = Some None /\ r = None \/
     exists d sp m p, get direction (st_name s) = Some (Some d) /\ get speed (st_name s) = Some sp /\
       governs peaks direction sts k p /\
       least (map (option_map (fun m => m + st_enhancement p)) (lib_column (length dirs) maxus p)) m /\
       flattened sp m r).
Proof.
  intros peaks dirs maxus speed direction sts l H.
  destruct (loop_peaks _ _ _ _ _ _ _ _ H) as [L F]. split; [exact L|]. intros k s K.
  destruct (F k s K) as (r & N & [C|(d & sp & m & A & B & -> & [(p & P & Q)|[_ E]])]); [eauto| |discriminate].
  eexists. split; [exact N|]. right. exists d, sp, m, p. repeat split; auto. apply flat_wind_spec.
Qed.
Print Assumptions C34_peaks.

(** A station with a direction and no listed station up to it stops the run. *)
Theorem C34_no_earlier_peak : forall peaks dirs maxus speed direction sts k s d,
  nth_error sts k = Some s -> get direction (st_name s) = Some (Some d) -> never_peak peaks direction sts k ->
  (forall i t, (i < k)%nat -> nth_error sts i = Some t -> get direction (st_name t) <> None) ->
  station_maxus (Some peaks) dirs maxus speed direction sts = Err UnboundLocalError.
Proof. intros. eapply loop_unbound; eassumption. Qed.
Print Assumptions C34_no_earlier_peak.

(** The loop comes to its end when every station has a column in both series and, with a peak list, one governs every
    station that has a direction. *)
Theorem C34_completes : forall n dirs maxus speed direction sts (q : Z),
  (0 < n)%nat -> even_library n dirs -> (q * Z.of_nat n = 360)%Z ->
  (forall s, In s sts -> get direction (st_name s) <> None /\ get speed (st_name s) <> None /\
     forall d, get direction (st_name s) = Some (Some d) -> 0 <= d <= 360) ->
  (exists l, station_maxus None dirs maxus speed direction sts = Ok l) /\
  forall peaks,
    (forall k s d, nth_error sts k = Some s -> get direction (st_name s) = Some (Some d) -> exists p, governs peaks direction sts k p) ->
    exists l, station_maxus (Some peaks) dirs maxus speed direction sts = Ok l.
Proof.
  intros n dirs maxus speed direction sts q N EL Q D. split; [exact (loop_free_completes n dirs maxus speed direction None sts q N EL Q D)|].
  intros peaks G. apply loop_peaks_completes; [|intros s I; split; apply (D s I)|right; exact G].
  rewrite EL. destruct n; [lia|discriminate].
Qed.
Print Assumptions C34_completes.

(** Without a list, a station whose direction is rounded to whole degrees the library does not have stops the run. *)
Theorem C34_not_in_library : forall dirs maxus speed direction s sts d k z,
  (0 < length dirs)%nat -> get direction (st_name s) = Some (Some d) ->
  360 / INR (length dirs) * INR k = IZR z -> (z < 360)%Z ->
  360 / INR (length dirs) * (INR k - 1 / 2) < d <= 360 / INR (length dirs) * (INR k + 1 / 2) ->
  ~ In (IZR z) dirs -> station_maxus None dirs maxus speed direction (s :: sts) = Err ValueError.
Proof.
  intros dirs maxus speed direction s sts d k z N GD Z Z3 B NI. unfold station_maxus. cbn [station_loop]. rewrite GD.
  assert (V : station_val None dirs maxus None s d = Err ValueError); [|rewrite V; reflexivity].
  unfold station_val. destruct (nstep_pos (length dirs) N) as [S _].
  change (360 / INR (length dirs)) with (nstep (length dirs)) in Z, B.
  assert (C : rceil ((d - nstep (length dirs) / 2) / nstep (length dirs)) = INR k).
  { rewrite INR_IZR_INZ. apply rceil_unique. rewrite <- INR_IZR_INZ.
    set (w := (d - nstep (length dirs) / 2) / nstep (length dirs)).
    assert (W : d = nstep (length dirs) * (w + 1 / 2)) by (unfold w; field; lra). rewrite W in B. destruct B as [B1 B2].
    apply Rmult_lt_reg_l in B1; [|exact S]. apply Rmult_le_reg_l in B2; [|exact S]. lra. }
  rewrite C, (Rmult_comm (INR k)), Z, rtrunc_IZR. cbv zeta. destruct (Z.eqb_spec z 360); [lia|].
  assert (F : filter (fun p : R * rnum => reqb (fst p) (IZR z)) (combine dirs (lib_column (length dirs) maxus s)) = []); [|rewrite F; reflexivity].
  generalize (lib_column (length dirs) maxus s). revert NI. clear. induction dirs as [|a dirs IH]; intros NI [|c col]; try reflexivity.
  cbn [combine filter fst]. destruct (reqb_spec a (IZR z)) as [E|E]; [exfalso; apply NI; left; exact E|]. apply IH. intros I. apply NI. right. exact I.
Qed.
Print Assumptions C34_not_in_library.

(** So the option changes stations that are not on the list: B, sheltered by 10 degrees in every
    direction, is treated as flat ground because A, listed before it, is. *)
Definition st_a := mk_station "A" 0 0 0.
Definition st_b := mk_station "B" 0 1 0.
Definition two_lib : library := fun _ _ x => Some (if Nat.eqb x 0 then 0 else 10).
Definition two_dir : series := [("A"%string, Some 90); ("B"%string, Some 90)].
Definition two_speed : series := [("A"%string, Some 3); ("B"%string, Some 5)].
Lemma exp_val_0 : exp_val 0 = 1.
Proof. destruct (exp_val_spec 0) as (E & _). rewrite E; lra. Qed.
Lemma flat_at_zero s : flat_wind (Some s) (cap 35 (Some (0 + 0))) = Some s.
Proof.
  rewrite cap_spec by lra. rewrite Rplus_0_l, Rmin_right, Rmax_right by lra. unfold flat_wind. cbn [rlift2].
  destruct (rltb_spec 0 0); [lra|]. rewrite Rabs_R0, exp_val_0. f_equal. field.
Qed.
Theorem C34_unlisted_unaffected_refuted :
  station_maxus (Some ["A"%string]) [0] two_lib two_speed two_dir [st_a; st_b] = Ok [Some 3; Some 5] /\
  (forall i, two_lib i (st_yi st_b) (st_xi st_b) = Some 10) /\
  (forall r, flattened (Some 5) (Some 10) r -> r <> Some 5).
Proof.
  split; [|split].
  - unfold station_maxus. cbn [station_loop]. unfold two_dir, two_speed. cbn [get st_name st_a String.eqb Ascii.eqb Bool.eqb].
    unfold station_val. cbn [length upper upper_ascii existsb]. change (upper (st_name st_a)) with "A"%string. change (upper (st_name st_b)) with "B"%string.
    cbn [existsb String.eqb Ascii.eqb Bool.eqb orb lib_column seq map st_yi st_xi st_a two_lib Nat.eqb rlift option_map st_enhancement np_min fold_left bind].
    cbn [get st_name st_b String.eqb Ascii.eqb Bool.eqb]. rewrite cap_idem by lra. cbn [bind]. rewrite !flat_at_zero. reflexivity.
  - reflexivity.
  - intros r (c & k & C & K & P & _) ->. specialize (P ltac:(lra)). injection P as P.
    rewrite Rabs_right, Rmin_right in C by lra. subst c. destruct K as (K & _). specialize (K ltac:(lra)). lra.
Qed.
Print Assumptions C34_unlisted_unaffected_refuted.
(** Without a list B is sheltered by its own 10 degrees; with B alone on the list A, which comes before it, stops the run. *)
Lemma two_series : forall s, In s [st_a; st_b] -> get two_dir (st_name s) <> None /\ get two_speed (st_name s) <> None /\
  forall d, get two_dir (st_name s) = Some (Some d) -> 0 <= d <= 360.
Proof.
  intros s [<-|[<-|[]]]; (split; [discriminate|]); (split; [discriminate|]); intros d [= <-]; lra.
Qed.
Example C34_own_maxus_case : exists a b, station_maxus None (map (fun k => 360 / INR 4 * INR k) (seq 0 4)) two_lib two_speed two_dir [st_a; st_b] = Ok [a; b] /\
  flattened (Some 5) (Some 10) b /\ b <> Some 5.
Proof.
  destruct (C34_completes 4 _ two_lib two_speed two_dir [st_a; st_b] 90%Z ltac:(lia) demo_even eq_refl two_series) as [[l E] _].
  destruct (C34_own_maxus 4 _ two_lib two_speed two_dir [st_a; st_b] l 90%Z ltac:(lia) demo_even eq_refl
    (fun s d I => proj2 (proj2 (two_series s I)) d) E) as [L F].
  destruct l as [|a [|b [|c l]]]; try discriminate L. exists a, b. split; [exact E|].
  destruct (F 1%nat st_b eq_refl) as (r & R & [[X _]|(d & sp & j & D & S & _ & _ & FL)]); [discriminate X|].
  injection R as <-. injection S as <-. cbn in FL. replace (10 + 0) with 10 in FL by ring. split; [exact FL|].
  exact (proj2 (proj2 C34_unlisted_unaffected_refuted) b FL).
Qed.
(** four directions that are not a quarter apart *)
Example C34_not_in_library_case : station_maxus None [0; 80; 180; 270] two_lib two_speed two_dir [st_a; st_b] = Err ValueError.
Proof.
  apply (C34_not_in_library _ _ _ _ _ _ 90 1 90%Z); try reflexivity; try (cbn [length INR]; lra); [cbn; lia|].
  cbn [In]. intros [E|[E|[E|[E|[]]]]]; lra.
Qed.
Example C34_no_earlier_peak_case :
  station_maxus (Some ["B"%string]) (map (fun k => 360 / INR 4 * INR k) (seq 0 4)) two_lib two_speed two_dir [st_a; st_b] = Err UnboundLocalError.
Proof.
  apply (C34_no_earlier_peak _ _ _ _ _ _ 0%nat st_a 90); try reflexivity; [|intros; lia].
  intros [|i] s I; [|lia]. intros [= <-] [[P|[]] _]. discriminate P.
Qed.

(** Reduction: a sheltered station is raised, an exposed one lowered, by at most a factor 4.2112. *)
Theorem C34_reduction : forall s m r, 0 <= s -> flattened (Some s) (Some m) (Some r) ->
  (0 < m -> s <= r <= 4.2112 * s) /\ (m <= 0 -> s / 4.2112 <= r <= s).
Proof.
  intros s m r S (c & k & C & K & P & N).
  assert (C0 : 0 <= c). { subst c. apply Rmin_glb; [lra | apply Rabs_pos]. }
  pose proof (station_shelter_bounds c k C0 K) as B. split; intros H.
  - specialize (P H). injection P as ->. nra.
  - specialize (N H). injection N as ->. assert (D : s / k * k = s) by (field; lra).
    assert (D2 : s / 4.2112 * 4.2112 = s) by lra. set (t := s / k) in *. set (t2 := s / 4.2112) in *.
    assert (0 <= t). { unfold t, Rdiv. apply Rmult_le_pos; [lra|]. left. apply Rinv_0_lt_compat. lra. } nra.
Qed.
Print Assumptions C34_reduction.
Example C34_reduction_case : exists r, flattened (Some 5) (Some 10) (Some r).
Proof. eexists. exists 10, (exp_val 10). split; [rewrite Rabs_right, Rmin_right by lra; reflexivity|]. split; [apply exp_val_spec|]. split; intros; [reflexivity | lra]. Qed.

(** Simulating the wind where it was measured returns the measured speed, scaled to 5 m (and by the
    reduction factor on exposed ground). *)
Theorem C34_round_trip : forall factor s m, Rabs m < 30 -> Rabs m <> 21.3 ->
  cell_wind factor (flat_wind (Some s) (Some m)) (Some m) = Some (1.07985 * (if Rlt_dec m 0 then factor * s else s)).
Proof. exact round_trip. Qed.
Print Assumptions C34_round_trip.

(** ** C67: measured values *)
(** When the columns of the speed data are in the order of the metadata, every station pixel shows the
    measured speed, limited. *)
Theorem C67_measured : forall ny nx c dirs maxus vt flat u v sts speed o k s val,
  simulate_wind ny nx c dirs maxus vt flat u v (map (fun s => (st_yi s, st_xi s)) sts) (map snd speed) = Ok o ->
  proper (wmin c) (wmax c) ->
  map fst speed = map st_name sts -> NoDup (map st_name sts) -> NoDup (map (fun s => (st_yi s, st_xi s)) sts) ->
  nth_error sts k = Some s -> (st_yi s < ny)%nat -> (st_xi s < nx)%nat ->
  get speed (st_name s) = Some (Some val) ->
  exists r, o_speed o (st_yi s) (st_xi s) = Some r /\ limited (wmin c) (wmax c) val r.
Proof. exact simulate_measured. Qed.
Print Assumptions C67_measured.

(** In any other order the speeds are given to the wrong pixels: here A measures 3 and its pixel shows
    the 7 measured by B. *)
Definition swapped : series := [("B"%string, Some 7); ("A"%string, Some 3)].
Theorem C67_any_order_refuted : exists o,
  simulate_wind 1 2 demo_cfg (map (fun k => 360 / INR 4 * INR k) (seq 0 4)) demo_lib (fun _ _ => 41%Z)
    (fun _ _ => Some 6) (fun _ _ => Some 1) (fun _ _ => Some (-1))
    (map (fun s => (st_yi s, st_xi s)) [st_a; st_b]) (map snd swapped) = Ok o /\
  get swapped (st_name st_a) = Some (Some 3) /\ o_speed o (st_yi st_a) (st_xi st_a) = Some 7 /\
  o_speed o (st_yi st_b) (st_xi st_b) = Some 3.
Proof.
  destruct (C33_succeeds 1 2 demo_cfg 4 (map (fun k => 360 / INR 4 * INR k) (seq 0 4)) demo_lib (fun _ _ => 41%Z)
    (fun _ _ => Some 6) (fun _ _ => Some 1) (fun _ _ => Some (-1))
    (map (fun s => (st_yi s, st_xi s)) [st_a; st_b]) (map snd swapped) ltac:(lia) demo_even eq_refl) as (o & H).
  - intros. repeat split; discriminate.
  - intros a [<-|[<-|[]]]; discriminate.
  - exists o. split; [exact H | split; [reflexivity|]].
    assert (PR : proper (wmin demo_cfg) (wmax demo_cfg)) by (simpl; lra).
    assert (LIM : forall v r, 0.447 <= v <= 35 -> limited (wmin demo_cfg) (wmax demo_cfg) v r -> r = v).
    { intros v r V (_ & _ & E & _). apply E; simpl; lra. }
    destruct (C67_measured 1 2 demo_cfg _ _ _ _ _ _ [mk_station "B" 0 0 0; mk_station "A" 0 1 0] swapped o 0%nat (mk_station "B" 0 0 0) 7 H PR) as (r & R & L);
      try reflexivity; try (simpl; lia);
      try (repeat constructor; simpl; intuition discriminate).
    destruct (C67_measured 1 2 demo_cfg _ _ _ _ _ _ [mk_station "B" 0 0 0; mk_station "A" 0 1 0] swapped o 1%nat (mk_station "A" 0 1 0) 3 H PR) as (r' & R' & L');
      try reflexivity; try (simpl; lia);
      try (repeat constructor; simpl; intuition discriminate).
    simpl in R, R'. simpl. rewrite R, R'. split; f_equal; apply LIM; try assumption; lra.
Qed.
Print Assumptions C67_any_order_refuted.
