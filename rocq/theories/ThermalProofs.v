(** Proofs about thermal radiation. *)
From Coq Require Import Reals List Bool Lra Lia.
From Verif Require Import RNum WinsModel WinsSpec WinsProofs PptProofs SolarProofs SatModel SatSpec SatProofs DewSpec WetProofs ThermalModel ThermalSpec.
Import ListNotations.
Local Open Scope R_scope.

Lemma cap1_min x : cap1 (Some x) = Some (Rmin 1 x).
Proof. unfold cap1, ncmp, Rmin. destruct (rltb_spec 1 x); destruct (Rle_dec 1 x); f_equal; lra. Qed.
Lemma ndiv_some x y : y <> 0 -> ndiv (Some x) (Some y) = Some (x / y).
Proof. intros Y. unfold ndiv. destruct (reqb_spec y 0); [contradiction | reflexivity]. Qed.
Lemma nroot7_pos x : 0 < x -> nroot7 (Some x) = Some (Rpower x (1 / 7)).
Proof. intros X. unfold nroot7. destruct (rltb_spec x 0); [lra|]. destruct (reqb_spec x 0); [lra | reflexivity]. Qed.
Lemma stefan t : STEF_BOLTZ * t * t * t * t = blackbody t.
Proof. unfold STEF_BOLTZ, blackbody, sigma. cbn [pow]. lra. Qed.
Lemma sati_c_pos x : 0 < x -> sati_c (Some x) = Ok (Some (saturation x)).
Proof. intros X. unfold sati_c. rewrite sat_is. destruct (rleb_spec x 0); [lra | reflexivity]. Qed.
Definition gas_power : R := 9.80665 * 28.9644 / (8314.32 * 6.5 / 1000).
Lemma gas_power_pos : 0 < gas_power. Proof. unfold gas_power. apply Rdiv_lt_0_compat; lra. Qed.
Lemma hystat_ratio t z : 0 < t -> 0 < sea_temperature t z ->
  hystat SEA_LEVEL (Some (sea_temperature t z)) STD_LAPSE (Some (z / 1000)) 9.80665 28.9644 = Some (SEA_LEVEL * pressure_ratio t z).
Proof.
  intros T S. unfold hystat. cbn [rlift option_map nadd rlift2].
  replace (sea_temperature t z + STD_LAPSE * (z / 1000)) with t by (unfold sea_temperature, STD_LAPSE; lra).
  rewrite ndiv_some by lra. assert (Q : 0 < sea_temperature t z / t) by (apply Rdiv_lt_0_compat; assumption).
  destruct (rleb_spec (sea_temperature t z / t) 0); [lra|]. f_equal. f_equal. unfold pressure_ratio, Rpower.
  replace (sea_temperature t z / t) with (/ (t / sea_temperature t z)) by (field; lra).
  rewrite ln_Rinv by (apply Rdiv_lt_0_compat; assumption). f_equal.
  replace (9.80665 * 28.9644 / (8314.32 * STD_LAPSE * 0.001)) with (- (9.80665 * 28.9644 / (8314.32 * 6.5 / 1000))) by (unfold STD_LAPSE; lra). ring.
Qed.
Lemma emitted_spec e t z v : 0 < t -> 0 < sea_temperature t z ->
  emitted (Some e) (Some t) (Some z) (Some v) = Some (Rmin 1 (v * (e * pressure_ratio t z) + (1 - v)) * blackbody t).
Proof.
  intros T S. unfold emitted. cbn [nsub rlift option_map rlift2].
  replace (t - z * STD_LAPSE_M) with (sea_temperature t z) by (unfold sea_temperature, STD_LAPSE_M; lra).
  rewrite (hystat_ratio t z T S). cbn [rlift option_map nmul nadd rlift2]. rewrite cap1_min. cbn [rlift2]. rewrite stefan.
  replace (SEA_LEVEL * pressure_ratio t z / SEA_LEVEL) with (pressure_ratio t z) by (field; unfold SEA_LEVEL; lra).
  cbn [nmul rlift2]. f_equal. f_equal. f_equal. ring.
Qed.
Lemma humidity_pos t td : 0 < humidity t td <= 1.
Proof.
  unfold humidity. split; [|apply Rmin_l]. apply Rmin_glb_lt; [lra|]. apply Rdiv_lt_0_compat; apply saturation_pos.
Qed.
Lemma brutsaert_spec t td z : 0 < t -> 0 < sea_temperature t z ->
  brutsaert (Some (saturation t)) (Some (saturation (sea_temperature t z))) (Some t) (Some (saturation (Rmin t td))) (Some z) SEA_LEVEL =
  Some (brutsaert_emissivity t td z).
Proof.
  intros T S. unfold brutsaert. cbn [nsub rlift option_map rlift2].
  replace (t - STD_LAPSE_M * z) with (sea_temperature t z) by (unfold sea_temperature, STD_LAPSE_M; lra).
  rewrite ndiv_some by (pose proof (saturation_pos t); lra). rewrite cap1_min. fold (humidity t td). cbn [nmul rlift2 rlift option_map].
  rewrite ndiv_some by lra. pose proof (humidity_pos t td). pose proof (saturation_pos (sea_temperature t z)).
  rewrite nroot7_pos by (apply Rdiv_lt_0_compat; [nra | exact S]). cbn [rlift option_map]. rewrite cap1_min. unfold brutsaert_emissivity. cbv zeta. f_equal. f_equal.
  field. unfold SEA_LEVEL. lra.
Qed.
Lemma marks_spec ta td z v : 0 < kelvin ta -> 0 < kelvin td -> 0 < sea_temperature (kelvin ta) z ->
  topotherm_c (Some ta) (Some td) (Some z) (Some v) = Ok (Some (marks_radiation (kelvin ta) (kelvin td) z v)).
Proof.
  intros TA TD S. unfold topotherm_c. cbn [rlift option_map ncmp]. change FREEZE with 273.16. fold (kelvin ta). fold (kelvin td).
  destruct (rltb_spec (kelvin ta) 0); [lra|]. destruct (rltb_spec (kelvin td) 0); [lra|]. cbn [orb].
  assert (TW : (if rltb (kelvin ta) (kelvin td) then Some (kelvin ta) else Some (kelvin td)) = Some (Rmin (kelvin ta) (kelvin td))).
  { unfold Rmin. destruct (rltb_spec (kelvin ta) (kelvin td)); destruct (Rle_dec (kelvin ta) (kelvin td)); f_equal; lra. }
  rewrite TW. cbn [nsub rlift2]. 
  replace (kelvin ta - STD_LAPSE_M * z) with (sea_temperature (kelvin ta) z) by (unfold sea_temperature, STD_LAPSE_M; lra).
  rewrite !sati_c_pos by (try apply Rmin_glb_lt; assumption). cbn [bind]. rewrite brutsaert_spec by assumption. rewrite emitted_spec by assumption. reflexivity.
Qed.
(** ** the range and the slopes of the Marks radiation *)
Lemma blackbody_pos t : 0 < t -> 0 < blackbody t.
Proof. intros T. unfold blackbody, sigma. apply Rmult_lt_0_compat; [lra | apply pow_lt; exact T]. Qed.
Lemma pressure_ratio_pos t z : 0 < pressure_ratio t z. Proof. apply exp_pos. Qed.
Lemma pressure_ratio_le t z : 0 < t -> 0 <= z -> pressure_ratio t z <= 1.
Proof.
  intros T Z. unfold pressure_ratio. fold gas_power. pose proof gas_power_pos.
  assert (S : t <= sea_temperature t z) by (unfold sea_temperature; lra).
  assert (Q : 0 < t / sea_temperature t z <= 1).
  { split; [apply Rdiv_lt_0_compat; lra|]. apply Rmult_le_reg_r with (sea_temperature t z); [lra|]. unfold Rdiv. rewrite Rmult_assoc, Rinv_l by lra. lra. }
  unfold Rpower. rewrite <- exp_0. apply exp_le. assert (ln (t / sea_temperature t z) <= 0); [|nra].
  rewrite <- ln_1. destruct (Req_dec (t / sea_temperature t z) 1) as [->|]; [lra|]. left. apply ln_increasing; lra.
Qed.
Lemma brutsaert_pos t td z : 0 < brutsaert_emissivity t td z <= 1.
Proof. unfold brutsaert_emissivity. cbv zeta. split; [|apply Rmin_l]. apply Rmin_glb_lt; [lra|]. apply Rmult_lt_0_compat; [lra | apply exp_pos]. Qed.
Lemma marks_emissivity_range t td z : 0 < t -> 0 <= z -> 0 < marks_emissivity t td z <= 1.
Proof.
  intros T Z. unfold marks_emissivity. pose proof (brutsaert_pos t td z). pose proof (pressure_ratio_pos t z). pose proof (pressure_ratio_le t z T Z). split; nra.
Qed.
Lemma marks_emissivity_pos t td z : 0 < marks_emissivity t td z.
Proof. unfold marks_emissivity. pose proof (brutsaert_pos t td z). pose proof (pressure_ratio_pos t z). nra. Qed.
Lemma marks_range t td z v : 0 < t -> 0 <= v <= 1 -> 0 < marks_radiation t td z v <= blackbody t.
Proof.
  intros T V. unfold marks_radiation. pose proof (blackbody_pos t T). pose proof (marks_emissivity_pos t td z) as M.
  set (m := v * marks_emissivity t td z + (1 - v)) in *. assert (0 < m) by (unfold m; destruct (Req_dec v 0) as [->|]; nra).
  assert (0 < Rmin 1 m <= 1) by (split; [apply Rmin_glb_lt; lra | apply Rmin_l]). split; nra.
Qed.
Lemma marks_uncapped t td z v : 0 < t -> 0 <= z -> 0 <= v <= 1 -> marks_radiation t td z v = (1 - v * (1 - marks_emissivity t td z)) * blackbody t.
Proof.
  intros T Z V. unfold marks_radiation. pose proof (marks_emissivity_range t td z T Z). rewrite Rmin_right by nra. ring.
Qed.
Lemma humidity_le t td td' : 0 < td <= td' -> t <= 1300 -> 0 < t -> humidity t td <= humidity t td'.
Proof.
  intros TD T T0. unfold humidity. apply Rle_min_compat_l. apply Rmult_le_compat_r; [left; apply Rinv_0_lt_compat; apply saturation_pos|].
  apply saturation_le; unfold Rmin; repeat destruct (Rle_dec _ _); lra.
Qed.
Lemma humidity_lt t td td' : 0 < td < td' -> td' <= t <= 1300 -> humidity t td < humidity t td'.
Proof.
  intros TD T. unfold humidity. rewrite (Rmin_right t td), (Rmin_right t td') by lra.
  assert (Q : forall x, 0 < x <= t -> saturation x / saturation t <= 1).
  { intros x X. pose proof (saturation_pos t). apply Rmult_le_reg_r with (saturation t); [assumption|]. unfold Rdiv. rewrite Rmult_assoc, Rinv_l by lra.
    pose proof (saturation_le x t ltac:(lra) ltac:(lra)). lra. }
  rewrite !Rmin_right by (apply Q; lra). apply Rmult_lt_compat_r; [apply Rinv_0_lt_compat; apply saturation_pos|]. apply saturation_increasing; lra.
Qed.
Lemma root7_le a b : 0 < a <= b -> Rpower a (1 / 7) <= Rpower b (1 / 7).
Proof. intros H. apply Rle_Rpower_l; lra. Qed.
Lemma root7_lt a b : 0 < a < b -> Rpower a (1 / 7) < Rpower b (1 / 7).
Proof. intros H. unfold Rpower. apply exp_increasing. apply Rmult_lt_compat_l; [lra|]. apply ln_increasing; lra. Qed.
Lemma brutsaert_le t td td' z : 0 < t <= 1300 -> 0 < td <= td' -> 0 < sea_temperature t z -> brutsaert_emissivity t td z <= brutsaert_emissivity t td' z.
Proof.
  intros T TD S. unfold brutsaert_emissivity. cbv zeta. apply Rle_min_compat_l. apply Rmult_le_compat_l; [lra|].
  pose proof (humidity_pos t td). pose proof (humidity_le t td td' TD ltac:(lra) ltac:(lra)). pose proof (saturation_pos (sea_temperature t z)).
  apply root7_le. split; [apply Rdiv_lt_0_compat; [nra | exact S]|]. apply Rmult_le_compat_r; [left; apply Rinv_0_lt_compat; exact S|]. nra.
Qed.
Lemma brutsaert_lt t td td' z : 0 < t <= 1300 -> 0 < td < td' -> td' <= t -> 0 < sea_temperature t z -> brutsaert_emissivity t td z < 1 ->
  brutsaert_emissivity t td z < brutsaert_emissivity t td' z.
Proof.
  intros T TD TT S L. unfold brutsaert_emissivity in *. cbv zeta in *.
  pose proof (humidity_pos t td). pose proof (humidity_lt t td td' TD ltac:(lra)). pose proof (saturation_pos (sea_temperature t z)).
  set (x := 1.24 * Rpower (humidity t td * saturation (sea_temperature t z) / 100 / sea_temperature t z) (1 / 7)) in *.
  set (y := 1.24 * Rpower (humidity t td' * saturation (sea_temperature t z) / 100 / sea_temperature t z) (1 / 7)).
  assert (XY : x < y).
  { unfold x, y. apply Rmult_lt_compat_l; [lra|]. apply root7_lt. split; [apply Rdiv_lt_0_compat; [nra | exact S]|]. apply Rmult_lt_compat_r; [apply Rinv_0_lt_compat; exact S|]. nra. }
  unfold Rmin in *. destruct (Rle_dec 1 x); destruct (Rle_dec 1 y); lra.
Qed.
(** ** compiled and Python versions *)
Lemma sati_agree x s : sati_c x = Ok s -> sati_py x = s.
Proof.
  destruct x as [x|]; cbn; [|intros H; injection H as <-; reflexivity]. destruct (rleb_spec x 0); [discriminate|]. intros H. injection H as <-.
  destruct (rltb_spec x 0); [lra|]. destruct (reqb_spec x 0); [lra | reflexivity].
Qed.
Lemma topotherm_agree ta tw z v r : topotherm_c ta tw z v = Ok r -> topotherm_py ta tw z v = r.
Proof.
  unfold topotherm_c, topotherm_py. cbv zeta. set (a := rlift (fun t => t + FREEZE) ta). set (w := rlift (fun t => t + FREEZE) tw).
  destruct (ncmp rltb a (Some 0)) eqn:A; [discriminate|]. destruct (ncmp rltb w (Some 0)) eqn:W; [discriminate|]. cbn [orb].
  set (w' := if ncmp rltb a w then a else w). destruct (sati_c w') as [ea|] eqn:E1; [|discriminate]. cbn [bind].
  destruct (sati_c a) as [sa|] eqn:E2; [|discriminate]. cbn [bind]. destruct (sati_c (nsub a _)) as [sp|] eqn:E3; [|discriminate]. cbn [bind].
  intros H. injection H as <-. rewrite (sati_agree _ _ E1), (sati_agree _ _ E2), (sati_agree _ _ E3). reflexivity.
Qed.
(** ** the other clear skies *)
Lemma long_wave e t : calc_long_wave (Some e) (Some t) = Some (e * blackbody t).
Proof. unfold calc_long_wave, STEF_BOLTZ, blackbody, sigma. cbn [rlift option_map nmul rlift2]. f_equal. lra. Qed.
Lemma water_spec t e : 0 < t -> precipitable_water (Some t) (Some (e / 1000)) = Some (water t e).
Proof. intros T. unfold precipitable_water. cbn [rlift option_map]. rewrite ndiv_some by lra. reflexivity. Qed.
Lemma water_nonneg t e : 0 < t -> 0 <= e -> 0 <= water t e.
Proof. intros T E. unfold water. apply Rmult_le_pos; [lra | left; apply Rinv_0_lt_compat; exact T]. Qed.
Lemma water_lt t e e' : 0 < t -> e < e' -> water t e < water t e'.
Proof. intros T E. unfold water. apply Rmult_lt_compat_r; [apply Rinv_0_lt_compat; exact T | lra]. Qed.
Lemma nsqrt_nonneg x : 0 <= x -> nsqrt (Some x) = Some (sqrt x).
Proof. intros X. unfold nsqrt. destruct (rltb_spec x 0); [lra | reflexivity]. Qed.
Lemma dilley_spec c e : 0 < kelvin c -> 0 <= e -> Dilly1998 (Some c) (Some (e / 1000)) = Some (dilley (kelvin c) e).
Proof.
  intros C E. unfold Dilly1998. cbn [rlift option_map]. change FREEZE with 273.16. fold (kelvin c). rewrite water_spec by exact C. cbn [rlift option_map].
  pose proof (water_nonneg _ _ C E). rewrite nsqrt_nonneg by lra. cbn [rlift option_map nadd rlift2]. reflexivity.
Qed.
Lemma prata_spec c e : 0 < kelvin c -> 0 <= e -> Prata1996 (Some c) (Some (e / 1000)) = Some (prata_emissivity (kelvin c) e * blackbody (kelvin c)).
Proof.
  intros C E. unfold Prata1996. cbn [rlift option_map]. change FREEZE with 273.16. fold (kelvin c). rewrite water_spec by exact C. cbn [rlift option_map].
  pose proof (water_nonneg _ _ C E). rewrite nsqrt_nonneg by lra. cbn [rlift option_map nmul rlift2]. rewrite long_wave. reflexivity.
Qed.
Lemma angstrom_spec c e : Angstrom1918 (Some c) (Some (e / 1000)) = Some (angstrom_emissivity e * blackbody (kelvin c)).
Proof. unfold Angstrom1918. cbn [rlift option_map]. rewrite long_wave. reflexivity. Qed.
Lemma exp_quadratic x : 0 <= x -> 1 + x + x * x / 2 <= exp x.
Proof.
  intros X. destruct (Req_dec x 0) as [->|N]; [rewrite exp_0; lra|].
  destruct (MVT_cor2 (fun y => exp y - (1 + y + y * y / 2)) (fun y => exp y - (1 + y)) 0 x) as (c & E & C); [lra| |].
  - intros c C. apply derivable_pt_lim_minus; [apply derivable_pt_lim_exp|].
    replace (1 + c) with (0 + 1 + (1 * c + c * 1) * / 2) by lra. apply derivable_pt_lim_plus.
    + apply derivable_pt_lim_plus; [apply derivable_pt_lim_const | apply derivable_pt_lim_id].
    + replace ((1 * c + c * 1) * / 2) with ((1 * c + c * 1) * / 2 + c * c * 0) by ring.
      apply (derivable_pt_lim_mult (fun y => y * y) (fun _ => / 2)); [|apply derivable_pt_lim_const].
      apply (derivable_pt_lim_mult (fun y => y) (fun y => y)); apply derivable_pt_lim_id.
  - rewrite exp_0 in E. pose proof (exp_ineq1_le c). nra.
Qed.
Lemma prata_step w w' : 0 <= w < w' -> (1 + w') * exp (- sqrt (1.2 + 3 * w')) < (1 + w) * exp (- sqrt (1.2 + 3 * w)).
Proof.
  intros W. set (s := sqrt (1.2 + 3 * w)). set (s' := sqrt (1.2 + 3 * w')).
  assert (S2 : s * s = 1.2 + 3 * w) by (apply sqrt_sqrt; lra). assert (S0 : 0 <= s) by apply sqrt_pos.
  assert (S2' : s' * s' = 1.2 + 3 * w') by (apply sqrt_sqrt; lra). assert (S0' : 0 <= s') by apply sqrt_pos.
  set (d := ln ((1 + w') / (1 + w))).
  assert (Q : 1 < (1 + w') / (1 + w)). { apply Rmult_lt_reg_r with (1 + w); [lra|]. unfold Rdiv. rewrite Rmult_assoc, Rinv_l by lra. lra. }
  assert (D : 0 < d) by (unfold d; rewrite <- ln_1; apply ln_increasing; lra).
  assert (ED : (1 + w) * exp d = 1 + w') by (unfold d; rewrite exp_ln by lra; field; lra).
  pose proof (exp_quadratic d ltac:(lra)) as EQ.
  assert (SD : s + d < s').
  { apply Rnot_le_lt. intros C. assert (s' * s' <= (s + d) * (s + d)) by nra.
    assert (3 * (w' - w) <= 2 * s * d + d * d) by nra. assert (w' - w = (1 + w) * (exp d - 1)) by lra.
    assert ((1 + w) * (d + d * d / 2) <= w' - w) by nra. assert (s < 1.5 * (1 + w)) by nra. nra. }
  rewrite <- ED. assert (EX : exp d * exp (- s') < exp (- s)) by (rewrite <- exp_plus; apply exp_increasing; lra). nra.
Qed.
Lemma prata_range w : 0 <= w -> 0.66 < 1 - (1 + w) * exp (- sqrt (1.2 + 3 * w)) < 1.
Proof.
  intros W. assert (B : (1 + 0) * exp (- sqrt (1.2 + 3 * 0)) < 0.34).
  { assert (R : 1.095 <= sqrt (1.2 + 3 * 0)) by (replace 1.095 with (sqrt (1.095 * 1.095)) by (apply sqrt_square; lra); apply sqrt_le_1_alt; lra).
    set (s := sqrt (1.2 + 3 * 0)) in *. pose proof (exp_quadratic (s / 4) ltac:(lra)) as Q. rewrite exp_Ropp.
    assert (E4 : exp s = exp (s / 4) * exp (s / 4) * (exp (s / 4) * exp (s / 4))) by (rewrite <- !exp_plus; f_equal; lra).
    assert (1.311 <= exp (s / 4)) by nra. assert (1.7187 <= exp (s / 4) * exp (s / 4)) by nra. assert (2.953 <= exp s) by nra.
    apply Rmult_lt_reg_r with (exp s); [lra|]. rewrite Rmult_assoc, Rinv_l by lra. lra. }
  assert (P : 0 < (1 + w) * exp (- sqrt (1.2 + 3 * w))) by (apply Rmult_lt_0_compat; [lra | apply exp_pos]). split; [|lra].
  destruct (Req_dec w 0) as [->|N]; [lra|]. pose proof (prata_step 0 w ltac:(lra)). lra.
Qed.
Lemma prata_emissivity_range t e : 0 < t -> 0 <= e -> 0.66 < prata_emissivity t e < 1.
Proof. intros T E. apply prata_range. apply water_nonneg; assumption. Qed.
Lemma prata_increasing t e e' : 0 < t -> 0 <= e < e' -> prata_emissivity t e < prata_emissivity t e'.
Proof.
  intros T E. unfold prata_emissivity. pose proof (water_nonneg t e T ltac:(lra)). pose proof (water_lt t e e' T ltac:(lra)).
  pose proof (prata_step (water t e) (water t e') ltac:(lra)). lra.
Qed.
Lemma dilley_increasing t e e' : 0 < t -> 0 <= e < e' -> 59.38 < dilley t e < dilley t e'.
Proof.
  intros T E. unfold dilley. pose proof (water_nonneg t e T ltac:(lra)). pose proof (water_lt t e e' T ltac:(lra)).
  assert (sqrt (water t e / 25) < sqrt (water t e' / 25)) by (apply sqrt_lt_1_alt; lra).
  assert (0 < (t / 273.16) ^ 6) by (apply pow_lt; lra). pose proof (sqrt_pos (water t e / 25)). lra.
Qed.
Lemma angstrom_range e : 0 <= e -> 0.65 <= angstrom_emissivity e < 0.83.
Proof.
  intros E. unfold angstrom_emissivity, Rpower. pose proof (exp_pos (-0.067 * (e / 1000) * ln 10)).
  assert (exp (-0.067 * (e / 1000) * ln 10) <= 1).
  { rewrite <- exp_0. apply exp_le. assert (0 < ln 10) by (rewrite <- ln_1; apply ln_increasing; lra). nra. }
  lra.
Qed.
Lemma angstrom_increasing e e' : e < e' -> angstrom_emissivity e < angstrom_emissivity e'.
Proof.
  intros E. unfold angstrom_emissivity, Rpower. assert (0 < ln 10) by (rewrite <- ln_1; apply ln_increasing; lra).
  assert (exp (-0.067 * (e' / 1000) * ln 10) < exp (-0.067 * (e / 1000) * ln 10)) by (apply exp_increasing; nra). lra.
Qed.
(** ** corrections *)
Lemma garen_spec x f : Garen2005 (Some x) (Some f) = Some (garen f x).
Proof. unfold Garen2005, garen. cbn [rlift option_map nmul rlift2]. f_equal. ring. Qed.
Lemma unsworth_spec x c f : 0 < kelvin c -> Unsworth1975 (Some x) (Some c) (Some f) = Some (unsworth (kelvin c) f x).
Proof.
  intros C. unfold Unsworth1975. cbn [rlift option_map]. change FREEZE with 273.16. fold (kelvin c). change STEF_BOLTZ with 0.000000056697.
  replace (0.000000056697 * kelvin c ^ 4) with (blackbody (kelvin c)) by (unfold blackbody, sigma; lra). pose proof (blackbody_pos _ C).
  rewrite ndiv_some by lra. cbn [nmul nadd rlift2]. rewrite long_wave. f_equal. unfold unsworth. field. lra.
Qed.
Lemma crawford_spec x c f : Crawford1999 (Some x) (Some c) (Some f) = Some (crawford (kelvin c) f x).
Proof. unfold Crawford1999. cbn [rlift option_map]. rewrite long_wave. cbn [nmul nadd rlift2]. f_equal. unfold crawford, kelvin, FREEZE. ring. Qed.
Lemma kimball_spec x c e f : 0 < kelvin c -> Kimball1982 (Some x) (Some c) (Some (e / 1000)) f = Some (kimball (kelvin c) e x).
Proof.
  intros C. unfold Kimball1982. cbn [rlift option_map]. change FREEZE with 273.16. fold (kelvin c). rewrite ndiv_some by lra. cbn [rlift option_map nmul nadd rlift2]. rewrite long_wave. cbn [rlift2].
  f_equal. unfold kimball, window. cbv zeta. set (t := kelvin c). set (ex := exp (3000 / t)). set (q := (e / 1000) ^ 2).
  replace (2.98 * 0.000001 * q * ex) with (2.98e-6 * q * ex) by lra. set (w := 0.24 + 2.98e-6 * q * ex). 
  replace (-0.6732 + 0.6240 * 0.01 * (t - 11) - 0.9140 * 0.00001 * (t - 11) ^ 2) with (-0.6732 + 0.00624 * (t - 11) - 0.00000914 * (t - 11) ^ 2) by lra. reflexivity.
Qed.
Lemma canopy_spec x c tau h : thermal_correct_canopy (Some x) (Some c) (Some tau) (Some h) = Some (under_canopy (kelvin c) tau h x).
Proof.
  unfold thermal_correct_canopy, under_canopy. cbn [ncmp rlift option_map]. destruct (rltb_spec 2 h); destruct (Rlt_dec 2 h); try lra; [|reflexivity].
  cbn [nadd nmul rlift2]. f_equal. unfold blackbody, sigma, STEF_BOLTZ, EMISS_VEG, kelvin, FREEZE. lra.
Qed.
Lemma canopy_open x c tau : thermal_correct_canopy x c tau None = x.
Proof. reflexivity. Qed.
Lemma terrain_spec m t cl vg mn mx ta vp dw cf dm tau h x v : m <> Marks1979 ->
  terrain_factor (mk_th_cfg m cl vg t mn mx) (mk_th_in (Some ta) vp dw cf dm (Some v) tau h) (Some x) =
  Some (other_terrain (if t then Some v else None) ta x).
Proof.
  intros M. unfold terrain_factor, other_terrain. cbn [th_sky th_terrain i_skv i_ta]. destruct m; try contradiction; destruct t; try reflexivity;
  cbn [nadd nmul rlift2 rlift option_map]; f_equal; unfold sigma, STEF_BOLTZ; lra.
Qed.

(** ** missing data *)
Lemma rlift2_none_r f (a : rnum) : rlift2 f a None = None. Proof. destruct a; reflexivity. Qed.
Lemma ndiv_none_r (a : rnum) : ndiv a None = None. Proof. destruct a; reflexivity. Qed.
Lemma emitted_none_e t z v : emitted None t z v = None.
Proof. unfold emitted. cbn [nmul nadd rlift2 cap1 ncmp]. reflexivity. Qed.
Lemma emitted_none_t e z v : emitted e None z v = None.
Proof. unfold emitted. cbn [rlift option_map]. apply rlift2_none_r. Qed.
Lemma emitted_none_z e t v : emitted e t None v = None.
Proof. unfold emitted, nsub. cbn [rlift option_map]. rewrite rlift2_none_r. unfold hystat. cbn [ndiv rlift option_map]. unfold nmul at 3. rewrite rlift2_none_r. reflexivity. Qed.
Lemma emitted_none_v e t z : emitted e t z None = None.
Proof. unfold emitted, nadd. cbn [rlift option_map]. rewrite rlift2_none_r. reflexivity. Qed.
Lemma brutsaert_none sa sp ta z p : brutsaert sa sp ta None z p = None.
Proof. reflexivity. Qed.
