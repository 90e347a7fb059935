(** Property C40 (thermal radiation) and C75 (its corrections). *)
From Coq Require Import Reals List Bool Lra Lia.
From Verif Require Import RNum WinsModel WinsSpec WinsProofs SatModel SatSpec SatProofs DewSpec WetProofs ThermalModel ThermalSpec ThermalProofs.
Import ListNotations.
Local Open Scope R_scope.

(** ** C40: clear sky radiation *)
(** a cell the compiled routine accepts: temperatures above absolute zero, at the site and moved to sea level *)
Definition valid_air (ta td z : R) : Prop := 0 < kelvin ta /\ 0 < kelvin td /\ 0 < sea_temperature (kelvin ta) z.
(** The default method: sky and terrain at air temperature, with Brutsaert's emissivity for the sky; never more than a black body
    at air temperature, and never zero. *)
Theorem C40_marks (ta td z v : R) : valid_air ta td z ->
  topotherm_c (Some ta) (Some td) (Some z) (Some v) = Ok (Some (marks_radiation (kelvin ta) (kelvin td) z v)) /\
  (0 <= v <= 1 -> 0 < marks_radiation (kelvin ta) (kelvin td) z v <= blackbody (kelvin ta)) /\
  (v = 0 -> marks_radiation (kelvin ta) (kelvin td) z v = blackbody (kelvin ta)).
Proof.
  intros (A & D & S). split; [apply marks_spec; assumption|]. split; [intros V; apply marks_range; assumption|].
  intros ->. unfold marks_radiation. replace (0 * marks_emissivity (kelvin ta) (kelvin td) z + (1 - 0)) with 1 by ring. rewrite Rmin_left by lra. ring.
Qed.
Print Assumptions C40_marks.
(** Moister air radiates at least as much; strictly more up to saturation, at or above sea level, where some sky is seen and its
    emissivity is below one. *)
Theorem C40_moister (t td td' z v : R) : 0 < t <= 1300 -> 0 < td <= td' -> 0 < sea_temperature t z -> 0 <= v <= 1 ->
  marks_radiation t td z v <= marks_radiation t td' z v /\
  (0 <= z -> 0 < v -> td < td' -> td' <= t -> brutsaert_emissivity t td z < 1 -> marks_radiation t td z v < marks_radiation t td' z v).
Proof.
  intros T TD S V. pose proof (blackbody_pos t ltac:(lra)) as B. pose proof (pressure_ratio_pos t z) as P. pose proof (brutsaert_le t td td' z T TD S) as L. split.
  - unfold marks_radiation. apply Rmult_le_compat_r; [lra|]. apply Rle_min_compat_l. unfold marks_emissivity.
    apply Rplus_le_compat_r, Rmult_le_compat_l; [lra|]. apply Rmult_le_compat_r; lra.
  - intros Z V0 D T' E. rewrite !marks_uncapped by lra. apply Rmult_lt_compat_r; [exact B|]. unfold marks_emissivity.
    pose proof (brutsaert_lt t td td' z T ltac:(lra) T' S E) as LT.
    assert (brutsaert_emissivity t td z * pressure_ratio t z < brutsaert_emissivity t td' z * pressure_ratio t z) by (apply Rmult_lt_compat_r; assumption). nra.
Qed.
Print Assumptions C40_moister.
(** A dew point above the air temperature counts as saturated air. *)
Theorem C40_saturated (t td z v : R) : t <= td -> marks_radiation t td z v = marks_radiation t t z v.
Proof.
  intros H. unfold marks_radiation, marks_emissivity, brutsaert_emissivity, humidity. rewrite (Rmin_left t td), (Rmin_left t t) by lra. reflexivity.
Qed.
Print Assumptions C40_saturated.
(** The more sky a cell sees, the less it receives (at or above sea level). *)
Theorem C40_sky_view (t td z v v' : R) : 0 < t -> 0 <= z -> 0 <= v <= v' -> v' <= 1 ->
  marks_radiation t td z v' <= marks_radiation t td z v /\
  (v < v' -> marks_emissivity t td z < 1 -> marks_radiation t td z v' < marks_radiation t td z v).
Proof.
  intros T Z V V'. rewrite !marks_uncapped by lra. pose proof (marks_emissivity_range t td z T Z). pose proof (blackbody_pos t T). split.
  - apply Rmult_le_compat_r; [lra|]. nra.
  - intros L E. apply Rmult_lt_compat_r; [assumption|]. nra.
Qed.
Print Assumptions C40_sky_view.
(** Temperatures at or below absolute zero end the process; missing data give missing radiation. *)
Theorem C40_impossible (ta td : R) (z v : rnum) : kelvin ta <= 0 \/ kelvin td <= 0 -> topotherm_c (Some ta) (Some td) z v = Err ProcessExit.
Proof.
  intros H. unfold topotherm_c. cbn [rlift option_map ncmp]. change FREEZE with 273.16. fold (kelvin ta). fold (kelvin td).
  destruct (rltb_spec (kelvin ta) 0); [reflexivity|]. destruct (rltb_spec (kelvin td) 0); [reflexivity|]. cbn [orb].
  destruct (rltb_spec (kelvin ta) (kelvin td)); unfold sati_c at 1.
  - destruct (rleb_spec (kelvin ta) 0); [reflexivity | lra].
  - destruct (rleb_spec (kelvin td) 0); [reflexivity | lra].
Qed.
Print Assumptions C40_impossible.
Theorem C40_missing (ta td z v : rnum) (r : rnum) : ta = None \/ td = None \/ z = None \/ v = None -> topotherm_c ta td z v = Ok r -> r = None.
Proof.
  intros M H. apply topotherm_agree in H. subst r. unfold topotherm_py. cbv zeta.
  destruct M as [-> | [-> | [-> | ->]]]; cbn [rlift option_map ncmp].
  - apply emitted_none_t.
  - assert (N : forall a, ncmp rltb a None = false) by (intros [x|]; reflexivity). rewrite N. cbn [sati_py]. rewrite brutsaert_none. apply emitted_none_e.
  - apply emitted_none_z.
  - apply emitted_none_v.
Qed.
Print Assumptions C40_missing.
(** The Python version agrees with the compiled one wherever that returns; where a temperature is below absolute zero it gives NaN. *)
Theorem C40_versions_agree (ta td z v : rnum) :
  (forall r, topotherm_c ta td z v = Ok r -> topotherm_py ta td z v = r) /\
  (forall c, kelvin c < 0 -> topotherm_py (Some c) td z v = None /\ topotherm_py ta (Some c) z v = None).
Proof.
  split; [intros r; apply topotherm_agree|]. intros c C.
  assert (N : (if ncmp rltb (rlift (fun t => t + FREEZE) (Some c)) (Some 0) then None else rlift (fun t => t + FREEZE) (Some c)) = None).
  { cbn [rlift option_map ncmp]. change FREEZE with 273.16. fold (kelvin c). destruct (rltb_spec (kelvin c) 0); [reflexivity | lra]. }
  unfold topotherm_py. cbv zeta. rewrite N. split; [apply emitted_none_t|].
  assert (N' : forall a, ncmp rltb a None = false) by (intros [x|]; reflexivity). rewrite N'. cbn [sati_py]. rewrite brutsaert_none. apply emitted_none_e.
Qed.
Print Assumptions C40_versions_agree.
(** The other methods: emissivities between 0.66 and 1 (Prata), 0.65 and 0.83 (Angstrom), all strictly increasing with humidity. *)
Theorem C40_other_methods (c e e' : R) : 0 < kelvin c -> 0 <= e < e' ->
  Dilly1998 (Some c) (Some (e / 1000)) = Some (dilley (kelvin c) e) /\
  Prata1996 (Some c) (Some (e / 1000)) = Some (prata_emissivity (kelvin c) e * blackbody (kelvin c)) /\
  Angstrom1918 (Some c) (Some (e / 1000)) = Some (angstrom_emissivity e * blackbody (kelvin c)) /\
  0.66 < prata_emissivity (kelvin c) e < 1 /\ 0.65 <= angstrom_emissivity e < 0.83 /\
  59.38 < dilley (kelvin c) e < dilley (kelvin c) e' /\ prata_emissivity (kelvin c) e < prata_emissivity (kelvin c) e' /\ angstrom_emissivity e < angstrom_emissivity e'.
Proof.
  intros C E. split; [apply dilley_spec; lra|]. split; [apply prata_spec; lra|]. split; [apply angstrom_spec|]. split; [apply prata_emissivity_range; lra|].
  split; [apply angstrom_range; lra|]. split; [apply dilley_increasing; lra|]. split; [apply prata_increasing; lra | apply angstrom_increasing; lra].
Qed.
Print Assumptions C40_other_methods.

(** ** C75: the whole distribution *)
Definition sky_of (m : sky_method) : option other_sky :=
  match m with Dilley1998 => Some ByDilley | Prata => Some ByPrata | Angstrom => Some ByAngstrom | _ => None end.
Definition clear_value (c : th_cfg) (ta td e z v : R) : R :=
  match sky_of (th_sky c) with
  | Some m => other_terrain (if th_terrain c then Some v else None) ta (other_clear m ta e)
  | None => marks_radiation (kelvin ta) (kelvin td) z v
  end.
Definition cloud_value (c : th_cfg) (ta e f x : R) : R :=
  match th_cloud c with
  | Some Garen => garen f x
  | Some Unsworth => unsworth (kelvin ta) f x
  | Some Kimball => kimball (kelvin ta) e x
  | Some Crawford => crawford (kelvin ta) f x
  | Some OtherCloud | None => x
  end.
Definition canopy_value (c : th_cfg) (ta tau h x : R) : R := if th_veg c then under_canopy (kelvin ta) tau h x else x.
(** Clear sky, then clouds, then canopy, then limits; each stage is written before the next one changes it. *)
Theorem C75_stages (c : th_cfg) (ta td e f z v tau h : R) :
  valid_air ta td z -> 0 <= e -> proper (th_min c) (th_max c) -> th_sky c <> OtherSky -> (th_sky c = Marks1979 -> th_terrain c = true) ->
  let clear := clear_value c ta td e z v in let cloudy := cloud_value c ta e f clear in let canopy := canopy_value c ta tau h cloudy in
  exists r, distribute_thermal c (mk_th_in (Some ta) (Some e) (Some td) (Some f) (Some z) (Some v) (Some tau) (Some h)) =
    Ok (mk_th_out (Some clear) (match th_cloud c with Some _ => Some (Some cloudy) | None => None end) (if th_veg c then Some (Some canopy) else None) (Some r)) /\
    limited (th_min c) (th_max c) canopy r.
Proof.
  intros A E P O M clear cloudy canopy. destruct (set_min_max_spec (th_min c) (th_max c) canopy P) as (r & R & L). exists r. split; [|exact L].
  destruct c as [sky cl vg tr mn mx]. cbn [th_sky th_cloud th_veg th_terrain th_min th_max] in *.
  set (i := mk_th_in (Some ta) (Some e) (Some td) (Some f) (Some z) (Some v) (Some tau) (Some h)).
  assert (CL : exists x, clear_sky (mk_th_cfg sky cl vg tr mn mx) i = Ok (Some x) /\ terrain_factor (mk_th_cfg sky cl vg tr mn mx) i (Some x) = Some clear).
  { destruct A as (A1 & A2 & A3). unfold clear_sky, i. cbn [th_sky th_terrain i_ta i_vp i_dew i_cf i_dem i_skv rlift option_map]. unfold clear, clear_value. cbn [th_sky th_terrain].
    destruct sky; cbn [sky_of other_clear].
    - rewrite (M eq_refl). rewrite marks_spec by assumption. eexists. split; reflexivity.
    - rewrite dilley_spec by assumption. eexists. split; [reflexivity|]. apply terrain_spec. discriminate.
    - rewrite prata_spec by assumption. eexists. split; [reflexivity|]. apply terrain_spec. discriminate.
    - rewrite angstrom_spec. eexists. split; [reflexivity|]. apply terrain_spec. discriminate.
    - exfalso. apply O. reflexivity. }
  destruct CL as (x & C1 & C2). unfold distribute_thermal. rewrite C1. cbn [bind th_cloud th_veg th_min th_max]. rewrite C2.
  assert (CC : match cl with Some m => cloud_correction m i (Some clear) | None => Some clear end = Some cloudy).
  { unfold cloudy, cloud_value, cloud_correction, i. cbn [th_cloud i_cf i_ta i_vp rlift option_map]. destruct cl as [[]|]; try reflexivity.
    - apply garen_spec.
    - apply unsworth_spec. apply A.
    - apply kimball_spec. apply A.
    - apply crawford_spec. }
  rewrite CC.
  assert (CV : (if vg then thermal_correct_canopy (Some cloudy) (i_ta i) (i_tau i) (i_height i) else Some cloudy) = Some canopy).
  { unfold canopy, canopy_value, i. cbn [th_veg i_ta i_tau i_height]. destruct vg; [apply canopy_spec | reflexivity]. }
  rewrite CV, R. reflexivity.
Qed.
Print Assumptions C75_stages.
(** With the default clear sky and a correction that mixes in black-body radiation, no stage exceeds a black body at air temperature. *)
Theorem C75_bounded (c : th_cfg) (ta td e f z v tau h : R) :
  valid_air ta td z -> 0 <= f <= 1 -> 0 <= v <= 1 -> 0 <= tau <= 1 -> th_sky c = Marks1979 ->
  th_cloud c = None \/ th_cloud c = Some Unsworth \/ th_cloud c = Some Crawford ->
  let clear := clear_value c ta td e z v in let cloudy := cloud_value c ta e f clear in let canopy := canopy_value c ta tau h cloudy in
  0 < clear <= blackbody (kelvin ta) /\ clear <= cloudy <= blackbody (kelvin ta) /\ 0 < canopy <= blackbody (kelvin ta).
Proof.
  intros (A1 & A2 & A3) F V TAU S C clear cloudy canopy. set (b := blackbody (kelvin ta)). assert (B : 0 < b) by (apply blackbody_pos; exact A1).
  assert (CL : 0 < clear <= b) by (unfold clear, clear_value; rewrite S; cbn [sky_of]; apply marks_range; assumption).
  assert (CC : clear <= cloudy <= b).
  { unfold cloudy, cloud_value, unsworth, crawford. destruct C as [-> | [-> | ->]]; fold b; nra. }
  split; [exact CL|]. split; [exact CC|]. unfold canopy, canopy_value, under_canopy. destruct (th_veg c); [|lra]. destruct (Rlt_dec 2 h); [|lra]. fold b. nra.
Qed.
Print Assumptions C75_bounded.
(** Cloud corrections at their ends: Unsworth and Crawford leave a clear sky alone and stay between clear sky and black body;
    Garen's factor falls from 1.485 to 0.997. *)
Theorem C75_clouds (t f x : R) : 0 <= f <= 1 ->
  unsworth t 1 x = x /\ crawford t 1 x = x /\ crawford t 0 x = blackbody t /\
  between x (blackbody t) (unsworth t f x) /\ between x (blackbody t) (crawford t f x) /\
  (0 <= x -> 0.997 * x <= garen f x <= 1.485 * x) /\ (forall f', f < f' -> 0 < x -> garen f' x < garen f x).
Proof.
  intros F. unfold unsworth, crawford, garen, between. repeat split; try lra; try nra; try (intros; nra).
  - unfold Rmin. destruct (Rle_dec x (blackbody t)); nra.
  - unfold Rmax. destruct (Rle_dec x (blackbody t)); nra.
  - unfold Rmin. destruct (Rle_dec x (blackbody t)); nra.
  - unfold Rmax. destruct (Rle_dec x (blackbody t)); nra.
Qed.
Print Assumptions C75_clouds.
(** Garen's correction does not leave a clear sky alone. *)
Theorem C75_garen_clear_refuted (x : R) : 0 < x -> Garen2005 (Some x) (Some 1) = Some (0.997 * x) /\ 0.997 * x < x.
Proof. intros X. split; [rewrite garen_spec; unfold garen; f_equal; lra | lra]. Qed.
Print Assumptions C75_garen_clear_refuted.
(** Kimball's correction does not depend on the clouds; it adds radiation to a clear sky. *)
Theorem C75_kimball_refuted : (forall th ta ea f f', Kimball1982 th ta ea f = Kimball1982 th ta ea f') /\
  exists r, Kimball1982 (Some 250) (Some 0) (Some 0) (Some 1) = Some r /\ 250 + 10 < r.
Proof.
  split; [reflexivity|]. pose proof (kimball_spec 250 0 0 (Some 1) ltac:(unfold kelvin; lra)) as K. replace (0 / 1000) with 0 in K by lra. eexists. split; [exact K|].
  unfold kimball, window, kelvin, blackbody, sigma. cbv zeta. replace ((0 / 1000) ^ 2) with 0 by (cbn; lra). rewrite Rmult_0_r, Rmult_0_l. lra.
Qed.
Print Assumptions C75_kimball_refuted.
(** With the other clear sky methods the terrain radiates with the fourth power of its Celsius temperature: a cell that sees only
    terrain gets nothing at freezing, where the default method gives it a black body. *)
Theorem C75_terrain_refuted (m : sky_method) : m = Dilley1998 \/ m = Prata \/ m = Angstrom ->
  exists out, distribute_thermal (mk_th_cfg m None false true None None) (mk_th_in (Some 0) (Some 500) (Some (-2)) (Some 1) (Some 2000) (Some 0) (Some 1) (Some 0)) = Ok out /\
    o_thermal out = Some 0 /\ 315 < blackbody (kelvin 0).
Proof.
  intros M. set (c := mk_th_cfg m None false true None None).
  assert (VA : valid_air 0 (-2) 2000) by (unfold valid_air, kelvin, sea_temperature; lra).
  destruct (C75_stages c 0 (-2) 500 1 2000 0 1 0 VA ltac:(lra) I) as (r & E & L).
  { cbn. intros H. rewrite H in M. destruct M as [M|[M|M]]; discriminate M. }
  { cbn. intros H. rewrite H in M. destruct M as [M|[M|M]]; discriminate M. }
  eexists. split; [exact E|]. cbn [o_thermal]. split; [|unfold blackbody, sigma, kelvin; lra].
  f_equal. destruct L as (_ & _ & L & _). rewrite L by exact I. unfold canopy_value, cloud_value, clear_value, c. cbn [th_veg th_cloud th_sky th_terrain].
  destruct M as [-> | [-> | ->]]; cbn [sky_of]; unfold other_terrain; ring.
Qed.
Print Assumptions C75_terrain_refuted.
(** The default method needs the terrain correction switched on. *)
Theorem C75_marks_needs_terrain (cl : option cloud_method) (vg : bool) (mn mx : option R) (i : th_in) :
  distribute_thermal (mk_th_cfg Marks1979 cl vg false mn mx) i = Err ValueError.
Proof. reflexivity. Qed.
Print Assumptions C75_marks_needs_terrain.
(** Missing cloud factors make the corrected radiation missing, except under Kimball's; a missing vegetation height leaves the
    canopy correction out. *)
Theorem C75_missing (x ta e tau : rnum) :
  Garen2005 x None = None /\ Unsworth1975 x ta None = None /\ Crawford1999 x ta None = None /\ thermal_correct_canopy x ta tau None = x.
Proof.
  split; [destruct x; reflexivity|]. split.
  { unfold Unsworth1975, calc_long_wave, nmul, nadd. cbn [rlift option_map rlift2]. reflexivity. }
  split; [unfold Crawford1999, calc_long_wave, nmul, nadd; cbn [rlift option_map rlift2]; reflexivity | reflexivity].
Qed.
Print Assumptions C75_missing.
Example C40_example : valid_air 5 (-3) 2500 /\ 0 < marks_radiation (kelvin 5) (kelvin (-3)) 2500 0.9 <= blackbody (kelvin 5).
Proof. assert (V : valid_air 5 (-3) 2500) by (unfold valid_air, kelvin, sea_temperature; lra). split; [exact V|]. apply (C40_marks 5 (-3) 2500 0.9 V). lra. Qed.
Example C75_example : exists r, distribute_thermal (mk_th_cfg Marks1979 (Some Garen) true true (Some (-600)) (Some 600))
  (mk_th_in (Some 5) (Some 500) (Some (-3)) (Some 0.6) (Some 2500) (Some 0.9) (Some 0.4) (Some 12)) = Ok r.
Proof.
  destruct (C75_stages (mk_th_cfg Marks1979 (Some Garen) true true (Some (-600)) (Some 600)) 5 (-3) 500 0.6 2500 0.9 0.4 12) as (r & E & _).
  - unfold valid_air, kelvin, sea_temperature. lra.
  - lra.
  - cbn. lra.
  - discriminate.
  - reflexivity.
  - eexists. exact E.
Qed.
