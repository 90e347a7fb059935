(** Properties C35, C36 and C66: gauge undercatch, wind redistribution of precipitation and the choice of
    the distribution that measured precipitation reaches. *)
From Coq Require Import Reals ZArith String List Bool Lra Lia.
From Verif Require Import RNum WinsModel WinsSpec WinsProofs PptModel PptSpec PptProofs.
Import ListNotations.
Local Open Scope string_scope.
Local Open Scope R_scope.

(** ** C35 *)
(** Every station keeps its place; without a wind or a temperature record it is unchanged, otherwise its
    precipitation is divided by the catch ratio of its own gauge (or of the default gauge). *)
Theorem C35_adjusted (types : list (string * string)) (p_vec wind temp out : series) :
  (forall k g, find_type types k = Some g ->
     k = "station_undercatch_model_default" \/ (exists v, In (k, v) p_vec) -> exists h, g = gauge_name h) ->
  adjust_for_undercatch p_vec wind temp types = Ok out ->
  map fst out = map fst p_vec /\
  forall k sta v, nth_error p_vec k = Some (sta, v) -> exists a, nth_error out k = Some (sta, a) /\
    (get temp sta = None \/ get wind sta = None -> a = v) /\
    (forall t ws, get temp sta = Some t -> get wind sta = Some ws ->
       exists g r, (find_type types sta = Some (gauge_name g) \/
                    find_type types sta = None /\ find_type types "station_undercatch_model_default" = Some (gauge_name g)) /\
                   catch_ratio g t ws r /\ a = option_map (fun x => x / r) v).
Proof. exact (adjust_ok types wind temp p_vec out). Qed.
Print Assumptions C35_adjusted.

Theorem C35_succeeds (types : list (string * string)) (p_vec wind temp : series) :
  (forall k g, find_type types k = Some g -> exists h, g = gauge_name h) ->
  find_type types "station_undercatch_model_default" <> None ->
  exists out, adjust_for_undercatch p_vec wind temp types = Ok out.
Proof. exact (adjust_total types wind temp p_vec). Qed.
Print Assumptions C35_succeeds.

(** A gauge that is neither of the two is refused, as soon as its station has wind and temperature. *)
Theorem C35_unknown_gauge (types : list (string * string)) (wind temp : series) sta p rest t ws g :
  get temp sta = Some t -> get wind sta = Some ws -> find_type types sta = Some g ->
  (forall h, g <> gauge_name h) -> adjust_for_undercatch ((sta, p) :: rest) wind temp types = Err ValueError.
Proof.
  intros T W G H. cbn [adjust_for_undercatch]. unfold adjust_one. rewrite T, W, G. unfold catchment_ratios.
  destruct (String.eqb_spec g "us_nws_8_shielded") as [E|E]; [destruct (H Shielded E)|].
  destruct (String.eqb_spec g "us_nws_8_unshielded") as [E2|E2]; [destruct (H Unshielded E2)|]. reflexivity.
Qed.
Print Assumptions C35_unknown_gauge.

(** The ratio is determined, and positive, whatever the wind and the temperature. *)
Theorem C35_ratio_exists g t ws : exists r, catch_ratio g t ws r.
Proof. destruct (ratio_spec g t ws) as (r & _ & H). eauto. Qed.
Print Assumptions C35_ratio_exists.
Theorem C35_positive g t ws r x : catch_ratio g t ws r -> (0 < x <-> 0 < x / r).
Proof.
  intros H. apply ratio_positive in H. pose proof (Rinv_0_lt_compat _ H). unfold Rdiv. split; intros X; [apply Rmult_lt_0_compat; assumption|].
  apply (Rmult_lt_reg_r (/ r)); [assumption | lra].
Qed.
Print Assumptions C35_positive.

(** With a wind speed of zero or more: at most 1/0.4 (shielded) or 1/0.205 (unshielded) times the measured
    snow, and not less than measured once the wind reaches a threshold. *)
Theorem C35_bounds g t w r x : 0 <= w -> 0 <= x -> catch_ratio g t (Some w) r ->
  (snowing t -> x / r <= x / fst (least_ratio g)) /\
  (~ snowing t -> x / r <= x / snd (least_ratio g)) /\
  (~ calm g (snowing t) w -> x <= x / r).
Proof.
  intros W X H. pose proof (ratio_positive _ _ _ _ H) as P. destruct (ratio_lower _ _ _ _ W H) as [A B].
  assert (INV : forall c, 0 < c -> c <= r -> x / r <= x / c).
  { intros c C L. apply Rmult_le_compat_l; [exact X|]. apply Rinv_le_contravar; assumption. }
  split; [|split].
  - intros S. apply INV; [destruct g; simpl; lra | exact (A S)].
  - intros S. apply INV; [destruct g; simpl; lra | exact (B S)].
  - intros C. pose proof (ratio_upper _ _ _ _ W H C) as U. apply (Rmult_le_reg_r r); [exact P|].
    unfold Rdiv. rewrite Rmult_assoc, Rinv_l by lra. nra.
Qed.
Print Assumptions C35_bounds.

(** Every speed above 6 m/s gives the ratio of 6 m/s. *)
Theorem C35_capped g t w r : 6 <= w -> (catch_ratio g t (Some w) r <-> catch_ratio g t (Some 6) r).
Proof.
  intros W. unfold catch_ratio. rewrite (Rmin_left 6 w), (Rmin_left 6 6) by lra.
  split; intros [A B]; (split; [intros S; split; [intros; lra | intros _; apply A; [exact S | lra]] | exact B]).
Qed.
Print Assumptions C35_capped.

(** "The adjustment never reduces precipitation" is false: in calm air every gauge, snow or rain, is
    taken to catch more than fell. *)
Theorem C35_not_reduced_refuted :
  forall g t r x, 0 < x -> catch_ratio g t (Some 0) r -> x / r < x.
Proof.
  intros g t r x X H. pose proof (ratio_calm _ _ _ H). apply (Rmult_lt_reg_r r); [lra|].
  unfold Rdiv. rewrite Rmult_assoc, Rinv_l by lra. nra.
Qed.
Print Assumptions C35_not_reduced_refuted.

Definition two_gauges : list (string * string) :=
  [("station_undercatch_model_default", "us_nws_8_shielded"); ("b", "us_nws_8_unshielded")].
Example C35_case :
  exists out, adjust_for_undercatch [("a", Some 10); ("b", Some 10); ("c", Some 10)]
    [("a", Some 2); ("b", Some 8)] [("a", Some 4); ("b", Some 4); ("c", Some (-3))] two_gauges = Ok out /\
  exists a b, out = [("a", Some a); ("b", Some b); ("c", Some 10)] /\ a = 10 / 0.898 /\ b = 10 / 0.5073.
Proof.
  eexists. split.
  - cbn [adjust_for_undercatch adjust_one get String.eqb Ascii.eqb Bool.eqb find_type two_gauges catchment_ratios ncmp].
    destruct (rltb_spec 6.0 2); [lra|]. destruct (rltb_spec 6.0 8); [|lra]. destruct (rltb_spec 4 (-0.5)); [lra|].
    cbn [bind rlift option_map]. reflexivity.
  - eexists _, _. split; [reflexivity|]. split; f_equal; lra.
Qed.

(** ** C36 *)
Theorem C36_redistributed ny nx c precip ptemp dr wind maxus tbreak tdirs vt vf out :
  dist_precip_wind ny nx c precip ptemp dr wind maxus tbreak tdirs vt vf = Ok out ->
  exists l tbl, cfg_get c "tbreak_threshold" = Ok (threshold l) /\ cfg_get c "winstral_min_scour" = Ok (min_scour l) /\
    cfg_get c "winstral_max_scour" = Ok (max_scour l) /\ cfg_get c "winstral_min_drift" = Ok (min_drift l) /\
    cfg_get c "winstral_max_drift" = Ok (max_drift l) /\ veg_keys vf = Ok tbl /\
    (min_scour l <= max_scour l -> min_drift l <= max_drift l ->
     forall y x, (y < ny)%nat -> (x < nx)%nat ->
       exists d i, dr y x = Some d /\ nth_error tdirs i = Some d /\ (forall j, (j < i)%nat -> nth_error tdirs j <> Some d) /\
         redistributed l tbl (precip y x) (ptemp y x) (tbreak i y x) (wind y x) (maxus y x) (vt y x) (out y x)).
Proof. exact (dist_ok ny nx c precip ptemp dr wind maxus tbreak tdirs vt vf out). Qed.
Print Assumptions C36_redistributed.

(** The bounds the specification of a cell implies: a factor between the limits that apply to the cell. *)
Theorem C36_bounds l tbl p ptemp tb ws mx v o :
  redistributed l tbl (Some p) ptemp tb ws mx v (Some o) ->
  (forall t, ptemp = Some t -> 0.5 <= t -> o = p) /\
  (forall t b, ptemp = Some t -> t < 0.5 -> tb = Some b ->
     (threshold l < b -> exists k, min_drift l <= k <= max_drift l /\ o = k * p) /\
     (b <= threshold l -> exists k, min_scour l <= k <= max_scour l /\ o = k * p)).
Proof.
  intros (W & _ & C). split.
  - intros t T L. specialize (W t T L). congruence.
  - intros t b T L B. destruct (C t T L) as [_ CC]. destruct (CC b B) as [D S]. split; intros H.
    + destruct (D H) as [N F]. destruct ws as [w|]; [|specialize (N eq_refl); discriminate].
      destruct (F w eq_refl) as (k & K & E). exists k. split; [eapply limited_between; exact K|]. simpl in E. congruence.
    + destruct (S H) as [P NP]. destruct (pine_spec v) as [PV|PV].
      * destruct (P PV) as (k & K & E). exists k. split; [eapply limited_between; exact K|]. simpl in E. congruence.
      * destruct (NP PV) as [N F]. destruct mx as [m|]; [|specialize (N eq_refl); discriminate].
        destruct (F m eq_refl) as (k & K & E). exists k. split; [eapply limited_between; exact K|]. simpl in E. congruence.
Qed.
Print Assumptions C36_bounds.

(** Redistribution of missing data: a cell without a temperature, or a cold cell without a tbreak, gets no
    precipitation, whatever fell. *)
Theorem C36_missing_temperature_refuted d vf p ptemp tb ws mx v t :
  ptemp = None \/ ptemp = Some t /\ t < 0.5 /\ tb = None -> drift_cell d vf (Some p) ptemp tb ws mx v = Some 0.
Proof.
  intros [-> | (-> & T & ->)]; unfold drift_cell; cbn [ncmp].
  - rewrite !andb_false_r. reflexivity.
  - cbn [andb]. destruct (rleb_spec 0.5 t); [lra | reflexivity].
Qed.
Print Assumptions C36_missing_temperature_refuted.

(** The cubic of the paper has the constant 0.5929 (it is defined, and not used): on level ground the
    scour factor is the lower limit instead, for every lower limit from 0.0001737 up. *)
Theorem C36_level_ground_refuted d vf v :
  d_min_scour d < d_max_scour d -> 0.0001737 <= d_min_scour d < 0.5929 -> ~ pine v -> veg_product vf v = 1 ->
  scour_factor d vf v (Some 0) = Some (d_min_scour d) /\
  set_min_max (Some (d_min_scour d)) (Some (d_max_scour d)) (Some 0.5929) <> Some (d_min_scour d).
Proof.
  intros NE [L H] P V. assert (SC : d_min_scour d <= d_max_scour d) by lra. split.
  - unfold scour_factor. cbv zeta. destruct (pine_spec v); [contradiction|]. rewrite veg_prod_fold, V. cbn [rlift option_map].
    match goal with |- set_min_max _ _ (Some ?z) = _ => replace z with 0.0001737 by field;
      destruct (set_min_max_spec (Some (d_min_scour d)) (Some (d_max_scour d)) 0.0001737 SC) as (k & -> & LIM) end.
    f_equal. destruct LIM as (A & B & C & D & _). simpl in *. destruct (Rle_lt_or_eq_dec _ _ L) as [L'|L'].
    + assert (N : ~ d_min_scour d <= 0.0001737) by lra. apply D in N. congruence.
    + rewrite <- L'. apply C; lra.
  - destruct (set_min_max_spec (Some (d_min_scour d)) (Some (d_max_scour d)) 0.5929 SC) as (k & -> & LIM).
    intros [= ->]. destruct LIM as (A & B & C & D & E). simpl in *. destruct (Rle_dec 0.5929 (d_max_scour d)) as [X|X].
    + specialize (C ltac:(lra) X). lra.
    + specialize (E X). injection E as E. lra.
Qed.
Print Assumptions C36_level_ground_refuted.

(** As configured the redistribution never happens: a configuration has the option under the name
    winstral_tbreak_threshold, so the first step with a dew point below 0.5 C ends the run. *)
Theorem C36_configured_refuted ny nx c precip dpt dr wind maxus tbreak tdirs vt :
  cfg_get c "tbreak_threshold" = Err KeyError ->
  (exists y x t, (y < ny)%nat /\ (x < nx)%nat /\ dpt y x = Some t /\ t < 0.5) ->
  rescale_step true ny nx c precip dpt dr wind maxus tbreak tdirs vt = Err KeyError.
Proof.
  intros K (y & x & t & Y & X & D & T). unfold rescale_step. rewrite (any_cell_spec ny nx _ y x Y X).
  - unfold dist_precip_wind, read_cfg. rewrite K. reflexivity.
  - rewrite D. cbn [ncmp]. destruct (rltb_spec t 0.5); [reflexivity | contradiction].
Qed.
Print Assumptions C36_configured_refuted.

(** With that option under the other name too, one vegetation class with a factor is enough: the class is
    looked up in the wrong part of the option's name. *)
Theorem C36_vegetation_refuted ny nx c precip dpt dr wind maxus tbreak tdirs vt s v out :
  In (String.append "winstral_veg_" s, v) c -> s <> "default" ->
  (exists y x t, (y < ny)%nat /\ (x < nx)%nat /\ dpt y x = Some t /\ t < 0.5) ->
  rescale_step true ny nx c precip dpt dr wind maxus tbreak tdirs vt <> Ok out.
Proof.
  intros I S (y & x & t & Y & X & D & T). unfold rescale_step. rewrite (any_cell_spec ny nx _ y x Y X).
  2:{ rewrite D. cbn [ncmp]. destruct (rltb_spec t 0.5); [reflexivity | contradiction]. }
  unfold dist_precip_wind. destruct (read_cfg c); [|discriminate]. cbn [bind].
  destruct (classify _ _ _ _ _); [|discriminate]. cbn [bind].
  destruct (init_veg_has c _ v s I eq_refl S) as (w & W). rewrite (veg_keys_bad _ _ W). discriminate.
Qed.
Print Assumptions C36_vegetation_refuted.

(** Without rescaling, or where nothing is cold, the precipitation is left alone. *)
Theorem C36_no_redistribution winstral ny nx c precip dpt dr wind maxus tbreak tdirs vt :
  winstral = false \/ (forall y x t, (y < ny)%nat -> (x < nx)%nat -> dpt y x = Some t -> 0.5 <= t) ->
  rescale_step winstral ny nx c precip dpt dr wind maxus tbreak tdirs vt = Ok precip.
Proof.
  intros H. unfold rescale_step. destruct winstral; [|reflexivity]. destruct H as [H|H]; [discriminate|].
  destruct (any_cell _ _ _) eqn:E; [|reflexivity]. exfalso. unfold any_cell in E.
  apply existsb_exists in E. destruct E as (y & Y & E). apply existsb_exists in E. destruct E as (x & X & E).
  apply in_seq in Y, X. destruct (dpt y x) as [t|] eqn:D; [|discriminate]. cbn [ncmp] in E.
  destruct (rltb_spec t 0.5); [|discriminate]. specialize (H y x t ltac:(lia) ltac:(lia) D). lra.
Qed.
Print Assumptions C36_no_redistribution.

Definition drift_options : config :=
  [("tbreak_threshold", 7); ("winstral_min_scour", 0.55); ("winstral_max_scour", 1); ("winstral_min_drift", 1); ("winstral_max_drift", 3.5)].
(** a warm cell, a drift cell in still air and a pine cell *)
Example C36_case :
  exists out, dist_precip_wind 1 3 drift_options (fun _ _ => Some 10)
    (fun _ x => if (x =? 0)%nat then Some 1 else Some (-1)) (fun _ _ => Some 0) (fun _ _ => Some 0) (fun _ _ => Some 5)
    (fun _ _ x => if (x =? 1)%nat then Some 8 else Some 2) [0] (fun _ x => if (x =? 2)%nat then 42%Z else 0%Z) [("3011", 0.7)] = Ok out /\
  out 0%nat 0%nat = Some 10 /\ out 0%nat 1%nat = Some 10.00761 /\ out 0%nat 2%nat = Some 10.
Proof.
  eexists. split.
  - unfold dist_precip_wind, read_cfg. cbn [cfg_get drift_options String.eqb Ascii.eqb Bool.eqb bind].
    unfold classify. cbn [all_cells forallb seq cell_index first_index]. destruct (reqb_spec 0 0); [|lra]. cbn [bind veg_keys].
    match goal with |- context [py_int "3011"] => change (py_int "3011") with (Some 3011%Z) end. cbn [bind]. reflexivity.
  - cbv beta. unfold drift_cell, cell_index, first_index. destruct (reqb_spec 0 0); [|lra]. cbn [Nat.eqb ncmp d_thr].
    split; [destruct (rleb_spec 0.5 1); [reflexivity | lra]|].
    destruct (rleb_spec 0.5 (-1)); [lra|]. destruct (rltb_spec (-1) 0.5); [|lra].
    destruct (rltb_spec 7 8); [|lra]. destruct (rleb_spec 8 7); [lra|]. destruct (rltb_spec 7 2); [lra|]. destruct (rleb_spec 2 7); [|lra].
    cbn [andb]. split.
    + unfold drift_factor. cbn [rlift option_map d_min_drift d_max_drift].
      replace (-0.0956 * 0 + 0.0289 * 0 ^ 2) with 0 by (simpl; lra). rewrite exp_0, Rmult_1_r.
      destruct (set_min_max_spec (Some 1) (Some 3.5) 1.000761) as (k & -> & LIM); [simpl; lra|]. destruct LIM as (_ & _ & C & _).
      rewrite (C ltac:(simpl; lra) ltac:(simpl; lra)). cbn [rlift2]. f_equal. lra.
    + unfold scour_factor. cbv zeta. cbn [Z.eqb Pos.eqb orb d_min_scour d_max_scour].
      destruct (set_min_max_spec (Some 0.55) (Some 1) 1.0) as (k & -> & LIM); [simpl; lra|]. destruct LIM as (_ & _ & C & _).
      rewrite (C ltac:(simpl; lra) ltac:(simpl; lra)). cbn [rlift2]. f_equal. lra.
Qed.

(** ** C66 *)
(** Steps of a run, one after the other. *)
Fixpoint run_steps {S D} (step : S -> D -> D -> res S) (st : S) (l : list (D * D)) : res S :=
  match l with
  | [] => Ok st
  | (d, k) :: l' => bind (step st d k) (fun st' => run_steps step st' l')
  end.
(** "Measured precipitation is distributed at every step" is false: with stations, a density model other
    than marks2017 and no undercatch adjustment, no step of any run changes the state, whatever falls. *)
Theorem C66_distributed_refuted {S D} (adjust : D -> res D) (marks susong : S -> D -> res S) (st : S) (l : list (D * D)) :
  run_steps (distribute_ppt (mk_ppt_cfg false false false) adjust marks susong) st l = Ok st.
Proof. induction l as [|[d k] l IH]; [reflexivity|]. cbn [run_steps distribute_ppt gridded nasde_marks2017 undercatch bind]. exact IH. Qed.
Print Assumptions C66_distributed_refuted.

(** In every other configuration each step distributes exactly one time, with the data that belongs to the
    configuration: the clipped series for marks2017, the measured one otherwise, adjusted if asked. *)
Theorem C66_distributed {S D} c (adjust : D -> res D) (marks susong : S -> D -> res S) st data corrected st' :
  gridded c = true \/ nasde_marks2017 c = true \/ undercatch c = true ->
  distribute_ppt c adjust marks susong st data corrected = Ok st' ->
  exists d, (gridded c = false /\ nasde_marks2017 c = true -> marks st d = Ok st') /\
            (gridded c = true \/ nasde_marks2017 c = false -> susong st d = Ok st') /\
            let given := if gridded c then data else if nasde_marks2017 c then corrected else data in
            (gridded c = true \/ undercatch c = false -> d = given) /\
            (gridded c = false /\ undercatch c = true -> adjust given = Ok d).
Proof.
  intros H. unfold distribute_ppt. destruct c as [g m u]. cbn [gridded nasde_marks2017 undercatch] in *.
  destruct g; [|destruct m; [|destruct u]].
  - intros E. exists data. cbn zeta. repeat split; intros; intuition congruence.
  - destruct u; intros E.
    + destruct (adjust corrected) as [d|] eqn:A; [|discriminate]. cbn [bind] in E. exists d. cbn zeta. repeat split; intros; intuition congruence.
    + exists corrected. cbn zeta. repeat split; intros; intuition congruence.
  - intros E. destruct (adjust data) as [d|] eqn:A; [|discriminate]. cbn [bind] in E. exists d. cbn zeta. repeat split; intros; intuition congruence.
  - intuition discriminate.
Qed.
Print Assumptions C66_distributed.

(** with the adjustment the same stations are distributed *)
Example C66_case :
  run_steps (distribute_ppt (mk_ppt_cfg false false true) (fun d => Ok (2 * d)%nat) (fun st d => Ok (st + 100)%nat) (fun st d => Ok (st + d)%nat)) 0%nat [(1, 7); (3, 7)]%nat = Ok 8%nat.
Proof. reflexivity. Qed.
