(** Properties C37 (clouds), C38 (canopy), C68 (net radiation), C69 (clear sky radiation with elevation) and
    C70 (cloud factor of gridded runs). *)
From Coq Require Import Reals ZArith List Bool Lra Lia.
From Verif Require Import RNum WinsModel WinsSpec WinsProofs SolarModel SolarSpec SolarProofs TwoStreamProofs.
Import ListNotations.
Local Open Scope R_scope.

(** ** C37 *)
Theorem C37_clouded (b d c : R) : exists g e, cf_cloud (Some b) (Some d) (Some c) = (Some g, Some e) /\ clouded b d c g e.
Proof. exact (cf_cloud_spec b d c). Qed.
Print Assumptions C37_clouded.
(** The diffuse part stays between nothing and all of the radiation. *)
Theorem C37_bounds (b d c g e : R) : 0 <= d <= b -> 0 <= c ->
  cf_cloud (Some b) (Some d) (Some c) = (Some g, Some e) -> 0 <= e <= g /\ g = b * c.
Proof.
  intros D C H. destruct (cf_cloud_spec b d c) as (g' & e' & E & K). rewrite E in H. injection H as <- <-.
  split; [exact (clouded_bounds b d c g' e' D C K) | apply K].
Qed.
Print Assumptions C37_bounds.
(** Missing data stay missing; each result needs only what it is computed from. *)
Theorem C37_missing (b d c : rnum) :
  (fst (cf_cloud b d c) = None <-> b = None \/ c = None) /\
  (snd (cf_cloud b d c) = None <-> c = None \/ exists y, c = Some y /\ (y <= 0.99 /\ b = None \/ 0.99 < y /\ d = None)).
Proof.
  unfold cf_cloud. destruct c as [y|].
  - cbn [rlift rlift2 option_map ncmp fst snd]. split.
    + destruct b; cbn [rlift2]; split; intros H; try discriminate; try (left; reflexivity); try reflexivity; destruct H; discriminate.
    + destruct (rltb_spec 0.99 y) as [L|L].
      * destruct d as [z|]; split; intros H; try discriminate.
        -- destruct H as [H|(y' & H & [[H1 _]|[_ H2]])]; try discriminate. injection H as <-. lra.
        -- right. exists y. split; [reflexivity|]. right. split; [exact L | reflexivity].
        -- reflexivity.
      * destruct b as [z|]; split; intros H.
        -- destruct (rleb y 0.15); discriminate.
        -- destruct H as [H|(y' & H & [[_ H1]|[H2 _]])]; try discriminate. injection H as <-. lra.
        -- right. exists y. split; [reflexivity|]. left. split; [lra | reflexivity].
        -- destruct (rleb y 0.15); reflexivity.
  - destruct b; cbn; split; split; intros; auto.
Qed.
Print Assumptions C37_missing.
(** More cloud does not always mean a larger diffuse share: just above a factor of 0.99 the clear sky's own
    share is used, at 0.99 only 0.026272 of the global radiation is diffuse. *)
Theorem C37_diffuse_share_refuted (b d g e g' e' : R) : 0 < b -> 0.03 * b <= d <= b ->
  cf_cloud (Some b) (Some d) (Some 0.99) = (Some g, Some e) ->
  cf_cloud (Some b) (Some d) (Some 1) = (Some g', Some e') -> e / g < e' / g' /\ e < e'.
Proof.
  intros B D H H'. destruct (cf_cloud_spec b d 0.99) as (g1 & e1 & E1 & (G1 & _ & K1 & _)). rewrite E1 in H. injection H as <- <-.
  destruct (cf_cloud_spec b d 1) as (g2 & e2 & E2 & (G2 & _ & _ & K2)). rewrite E2 in H'. injection H' as <- <-.
  rewrite (K1 ltac:(lra)), (K2 ltac:(lra)), G1, G2. rewrite !Rmult_1_r. split; [|nra].
  replace (b * 0.99 * (1 - 1.38 * ((0.99 - 0.15) * (0.99 - 0.15))) / (b * 0.99)) with (1 - 1.38 * ((0.99 - 0.15) * (0.99 - 0.15))).
  2:{ unfold Rdiv. rewrite (Rmult_comm (b * 0.99)), Rmult_assoc, Rinv_r; [ring | lra]. }
  apply Rlt_le_trans with 0.03; [lra|]. apply Rmult_le_reg_r with b; [exact B|]. unfold Rdiv. rewrite Rmult_assoc, Rinv_l; lra.
Qed.
Print Assumptions C37_diffuse_share_refuted.
Example C37_case : exists e, cf_cloud (Some 800) (Some 100) (Some 0.65) = (Some 520, Some e) /\ 340 < e < 341.
Proof.
  destruct (cf_cloud_spec 800 100 0.65) as (g & e & E & (G & _ & K & _)). rewrite E. exists e. rewrite (K ltac:(lra)), G.
  split; [repeat f_equal; lra | lra].
Qed.

(** ** C38 *)
Theorem C38_below_canopy (b h mu k : R) : exists r, solar_veg_beam (Some b) (Some h) (Some mu) (Some k) = Some r /\ below_canopy b h mu k r.
Proof. exact (veg_beam_spec b h mu k). Qed.
Print Assumptions C38_below_canopy.
Theorem C38_bounds (b h mu k d tau r q : R) : 0 <= b -> 0 <= h -> 0 <= k -> 0 <= d -> 0 <= tau <= 1 ->
  solar_veg_beam (Some b) (Some h) (Some mu) (Some k) = Some r -> solar_veg_diffuse (Some d) (Some tau) = Some q ->
  0 <= r <= b /\ q = tau * d /\ 0 <= q <= d /\ (h = 0 -> r = b).
Proof.
  intros B H K D T E F. destruct (veg_beam_spec b h mu k) as (r' & E' & W). rewrite E' in E. injection E as <-.
  injection F as <-. split; [exact (canopy_bounds b h mu k r' B K H W)|]. split; [reflexivity|]. split; [nra|].
  intros ->. destruct W as [P N]. destruct (Rlt_dec 0 mu); [rewrite P by assumption | rewrite N by lra];
    (match goal with |- b * exp ?x = b => replace x with 0; [rewrite exp_0; ring | unfold Rdiv; ring] end).
Qed.
Print Assumptions C38_bounds.
(** Under taller vegetation there is never more radiation. *)
Theorem C38_taller (b h h' mu k r r' : R) : 0 <= b -> 0 <= k -> h <= h' ->
  solar_veg_beam (Some b) (Some h) (Some mu) (Some k) = Some r ->
  solar_veg_beam (Some b) (Some h') (Some mu) (Some k) = Some r' -> r' <= r.
Proof.
  intros B K H E E'. destruct (veg_beam_spec b h mu k) as (r1 & E1 & W1). destruct (veg_beam_spec b h' mu k) as (r2 & E2 & W2).
  rewrite E1 in E. injection E as <-. rewrite E2 in E'. injection E' as <-. exact (canopy_taller b h h' mu k r1 r2 B K H W1 W2).
Qed.
Print Assumptions C38_taller.
(** The illumination the caller passed is changed: cells that do not see the sun get the cosine 0.01. *)
Theorem C38_illumination_kept_refuted (mu : R) : (mu <= 0 -> veg_cosz (Some mu) = Some 0.01) /\ (0 < mu -> veg_cosz (Some mu) = Some mu).
Proof. unfold veg_cosz. cbn [ncmp]. destruct (rleb_spec mu 0); split; intros; try lra; reflexivity. Qed.
Print Assumptions C38_illumination_kept_refuted.
Example C38_case : exists r, solar_veg_beam (Some 800) (Some 10) (Some (1/2)) (Some 0.03) = Some r /\ 300 < r < 800.
Proof.
  destruct (veg_beam_spec 800 10 (1/2) 0.03) as (r & E & W). exists r. split; [exact E|]. destruct W as [P _]. rewrite P by lra.
  replace (- (0.03 * 10) / (1 / 2)) with (-0.6) by lra. pose proof (exp_ineq1 (-0.6) ltac:(lra)).
  assert (exp (-0.6) < 1) by (rewrite <- exp_0; apply exp_increasing; lra). lra.
Qed.

(** ** C68 *)
(** By day, the whole of a cell: cloud and canopy corrections where they are switched on, absorption by the
    surface, and the limits, applied to each band and to the sum. *)
Theorem C68_net (c : solar_cfg) (cosz vb vd ib id cf h mu k t av ai : R)
    (clear : nat -> nat -> (rnum * rnum) * (rnum * rnum)) (gcf gh gmu gk gt gav gai : grid rnum) (y x : nat) :
  proper (s_min c) (s_max c) -> 0 < cosz ->
  clear y x = ((Some vb, Some vd), (Some ib, Some id)) -> gcf y x = Some cf -> gh y x = Some h -> gmu y x = Some mu ->
  gk y x = Some k -> gt y x = Some t -> gav y x = Some av -> gai y x = Some ai ->
  exists net gv ev gi ei rv qv ri qi nv ni n,
    distribute_solar c cosz clear gcf gh gmu gk gt gav gai = Some net /\ net y x = Some n /\
    (if correct_cloud c then clouded vb vd cf gv ev /\ clouded ib id cf gi ei else gv = vb /\ ev = vd /\ gi = ib /\ ei = id) /\
    (if correct_veg c then below_canopy gv h mu k rv /\ qv = t * ev /\ below_canopy gi h mu k ri /\ qi = t * ei
     else rv = gv /\ qv = ev /\ ri = gi /\ qi = ei) /\
    limited (s_min c) (s_max c) ((rv + qv) * (1 - av)) nv /\
    limited (s_min c) (s_max c) ((ri + qi) * (1 - ai)) ni /\
    limited (s_min c) (s_max c) (nv + ni) n.
Proof.
  intros P C E1 E2 E3 E4 E5 E6 E7 E8. destruct (net_spec c vb vd ib id cf h mu k t av ai P) as (gv & ev & gi & ei & rv & qv & ri & qi & nv & ni & n & N & R).
  unfold distribute_solar. destruct (rltb_spec 0 cosz); [|lra]. eexists _, gv, ev, gi, ei, rv, qv, ri, qi, nv, ni, n.
  split; [reflexivity|]. cbv beta. rewrite E1, E2, E3, E4, E5, E6, E7, E8. cbn [fst snd]. split; [exact N | exact R].
Qed.
Print Assumptions C68_net.
Theorem C68_night (c : solar_cfg) (cosz : R) clear gcf gh gmu gk gt gav gai : cosz <= 0 ->
  distribute_solar c cosz clear gcf gh gmu gk gt gav gai = None.
Proof. intros C. unfold distribute_solar. destruct (rltb_spec 0 cosz); [lra | reflexivity]. Qed.
Print Assumptions C68_night.
Theorem C68_limits (c : solar_cfg) (cosz : R) clear gcf gh gmu gk gt gav gai net y x w : proper (s_min c) (s_max c) ->
  distribute_solar c cosz clear gcf gh gmu gk gt gav gai = Some net -> net y x = Some w -> at_least (s_min c) w /\ at_most (s_max c) w.
Proof.
  intros P. unfold distribute_solar. destruct (rltb 0 cosz); [|discriminate]. intros [= <-] H. exact (net_limits _ _ _ _ _ _ _ _ _ _ _ P H).
Qed.
Print Assumptions C68_limits.
(** The radiation absorbed should be (1 - albedo) times the radiation arriving, band by band.  It is more:
    the first result of toporad already contains the diffuse part, which is then added once again. *)
Theorem C68_absorbed_refuted (smin smax : option R) (clear : nat -> nat -> (rnum * rnum) * (rnum * rnum))
    (gcf gh gmu gk gt gav gai : grid rnum) (y x : nat) (cosz av ai gv dv gi di bv0 dv0 bi0 di0 ill svf tcf : R) :
  0 < cosz -> toporad bv0 dv0 ill svf tcf cosz av = (gv, dv) -> toporad bi0 di0 ill svf tcf cosz ai = (gi, di) ->
  clear y x = ((Some gv, Some dv), (Some gi, Some di)) -> gav y x = Some av -> gai y x = Some ai ->
  av < 1 -> ai < 1 -> 0 < dv -> 0 < di -> smin = None -> smax = None ->
  exists net, distribute_solar (mk_solar_cfg false false smin smax) cosz clear gcf gh gmu gk gt gav gai = Some net /\
    gv = bv0 * ill + dv /\ gi = bi0 * ill + di /\
    net y x = Some ((1 - av) * (bv0 * ill + 2 * dv) + (1 - ai) * (bi0 * ill + 2 * di)) /\
    (1 - av) * gv + (1 - ai) * gi < (1 - av) * (bv0 * ill + 2 * dv) + (1 - ai) * (bi0 * ill + 2 * di).
Proof.
  intros C T1 T2 E A1 A2 LV LI DV DI -> ->. unfold distribute_solar. destruct (rltb_spec 0 cosz); [|lra]. eexists. split; [reflexivity|]. cbv beta.
  assert (GV : gv = bv0 * ill + dv) by (unfold toporad in T1; injection T1 as <- <-; ring).
  assert (GI : gi = bi0 * ill + di) by (unfold toporad in T2; injection T2 as <- <-; ring).
  split; [exact GV|]. split; [exact GI|]. rewrite E, A1, A2. cbn [fst snd]. split.
  - unfold net_solar, correct_band. cbn [correct_cloud correct_veg fst snd s_min s_max]. unfold calc_net, set_min_max. cbn [rlift rlift2 option_map]. f_equal. rewrite GV, GI. ring.
  - rewrite GV, GI. nra.
Qed.
Print Assumptions C68_absorbed_refuted.
Example C68_case : exists gv dv gi di, toporad 500 100 0.8 0.9 0.1 0.7 0.6 = (gv, dv) /\ toporad 300 20 0.8 0.9 0.1 0.7 0.5 = (gi, di) /\ 0 < dv /\ 0 < di.
Proof. do 4 eexists. split; [reflexivity|]. split; [reflexivity|]. split; lra. Qed.
Example C68_case_night : forall c clear g, distribute_solar c (-0.1) clear g g g g g g g = None.
Proof. intros. apply C68_night. lra. Qed.

(** The clear sky radiation of a cell: the diffuse part from the visible sky and from the surrounding terrain,
    and the beam where the terrain does not hide the sun. *)
Theorem C68_clear_sky (S0 cosz h illum svf tcf tau tz omega g R0 z albedo gl df : R) : 0 < cosz < 1 -> Rabs h < PI / 2 ->
  stoporad_cell S0 cosz h illum svf tcf tau tz omega g R0 z albedo = Ok (gl, df) ->
  exists b d, elevrad S0 cosz tau tz omega g R0 z = Ok (b, d) /\
    df = svf * d + tcf * albedo * ((1 - svf) * d + cosz * b) /\
    (Rabs h <= asin cosz -> gl = df + b * illum) /\ (asin cosz < Rabs h -> gl = df).
Proof.
  intros C H E. destruct (stoporad_spec S0 cosz h illum svf tcf tau tz omega g R0 z albedo gl df ltac:(lra) E) as (b & d & A & B & V & N).
  pose proof (no_sun_spec cosz h C H) as [S1 S2]. exists b, d. split; [exact A|]. split; [exact B|]. split.
  - intros L. apply V. destruct (no_sun cosz h); [|reflexivity]. specialize (S1 eq_refl). lra.
  - intros L. apply N. apply S2. exact L.
Qed.
Print Assumptions C68_clear_sky.
Theorem C68_clear_sky_night (S0 cosz h illum svf tcf tau tz omega g R0 z albedo : R) : cosz < 0 ->
  stoporad_cell S0 cosz h illum svf tcf tau tz omega g R0 z albedo = Ok (0, 0).
Proof. intros C. unfold stoporad_cell. destruct (rltb_spec cosz 0); [reflexivity | lra]. Qed.
Print Assumptions C68_clear_sky_night.

(** ** C69 *)
(** The standard atmosphere: the optical depth of a cell is the configured one at the reference elevation
    and does not grow with elevation; elevations up to 44.3 km are covered. *)
Theorem C69_optical_depth (tau tz z : R) : tz < 44300 -> z < 44300 -> exists t, tau_domain tau tz z = Some t /\
  (z = tz -> t = tau) /\ (0 < tau -> 0 < t) /\ (tau = 0 -> t = 0) /\
  forall z' t', 0 <= tau -> z <= z' -> z' < 44300 -> tau_domain tau tz z' = Some t' -> t' <= t.
Proof. exact (tau_spec tau tz z). Qed.
Print Assumptions C69_optical_depth.
(** The beam never exceeds the radiation at the top of the atmosphere, and there is none without sun. *)
Theorem C69_bounds (S0 cosz tau tz omega g R0 z b d : R) : 0 <= S0 -> 0 <= tau -> tz < 44300 -> z < 44300 ->
  elevrad S0 cosz tau tz omega g R0 z = Ok (b, d) -> 0 <= b <= S0 /\ (cosz <= 0 -> b = 0 /\ d = 0).
Proof. exact (elevrad_bounds S0 cosz tau tz omega g R0 z b d). Qed.
Print Assumptions C69_bounds.
(** A higher cell never gets less beam radiation. *)
Theorem C69_higher (S0 cosz tau tz omega g R0 z z' b d b' d' : R) :
  0 < cosz -> 0 < S0 -> 0 < tau -> tz < 44300 -> z <= z' -> z' < 44300 ->
  elevrad S0 cosz tau tz omega g R0 z = Ok (b, d) -> elevrad S0 cosz tau tz omega g R0 z' = Ok (b', d') -> b <= b'.
Proof. exact (elevrad_higher S0 cosz tau tz omega g R0 z z' b d b' d'). Qed.
Print Assumptions C69_higher.
(** The beam and the diffuse radiation are those of the two-stream equations for the cell's optical depth
    and the scattering coefficients (any absorption at all: g2 <> g1; a cell that is not optically infinite). *)
Theorem C69_two_stream (S0 mu tau tz omega g R0 z t b d g1 g2 g3 g4 : R) : 0 < mu -> 0 <= R0 -> 0 <= omega <= 1 ->
  tau_domain tau tz z = Some t -> t <> 0 -> mwgamma mu omega g = Ok (g1, g2, g3, g4) -> g2 <> g1 ->
  elevrad S0 mu tau tz omega g R0 z = Ok (b, d) -> b <> 0 ->
  b = S0 * exp (- t / mu) /\
  exists Up Down, two_stream_solution mu omega R0 g1 g2 g3 g4 t Up Down /\ d = S0 * Down t.
Proof. exact (elevrad_solves S0 mu tau tz omega g R0 z t b d g1 g2 g3 g4). Qed.
Print Assumptions C69_two_stream.
(** An optical depth of 0 stands for an infinite one: no radiation at all. *)
Theorem C69_zero_depth (S0 cosz tz omega g R0 z b d g1 g2 g3 g4 : R) : 0 < cosz -> tz < 44300 -> z < 44300 -> 0 <= omega <= 1 ->
  mwgamma cosz omega g = Ok (g1, g2, g3, g4) -> 0.000000000001 * 0.000000000001 <= (g1 - g2) * (g2 + g1) ->
  elevrad S0 cosz 0 tz omega g R0 z = Ok (b, d) -> b = 0 /\ d = 0.
Proof. exact (elevrad_infinite S0 cosz tz omega g R0 z b d g1 g2 g3 g4). Qed.
Print Assumptions C69_zero_depth.
(** The backscattered share is half of what the Legendre series leaves, summed up to the first negligible
    term, or to the one of order 2047. *)
Theorem C69_backscatter (cosz g b : R) : 0 < g -> beta_0 cosz g = Ok b ->
  exists M, (1 <= M <= Z.to_nat 1023)%nat /\ b = (1 - backscatter_sum g cosz M) / 2 /\
    (M = Z.to_nat 1023 \/ negligible g cosz M) /\ forall j, (1 <= j < M)%nat -> ~ negligible g cosz j.
Proof. exact (beta_series cosz g b). Qed.
Print Assumptions C69_backscatter.
Theorem C69_isotropic (cosz : R) : 0 < cosz <= 1 -> beta_0 cosz 0 = Ok (1 / 2).
Proof.
  intros C. unfold beta_0. destruct (rltb_spec 0 cosz), (rleb_spec cosz 1), (rleb_spec 0 0), (rleb_spec 0 1); try lra. cbn [andb negb].
  destruct (reqb_spec 0 0); [|lra]. f_equal. lra.
Qed.
Print Assumptions C69_isotropic.
(** The scattering coefficients are ordered for every single-scattering albedo up to 1, so that the
    calculation never ends with the error that checks for it. *)
Theorem C69_coefficients (cosz omega g g1 g2 g3 g4 : R) : 0 <= omega <= 1 -> mwgamma cosz omega g = Ok (g1, g2, g3, g4) ->
  g2 <= g1 /\ 0 <= g1 + g2 /\ 0 <= g3 <= 1 / 2 /\ g3 + g4 = 1.
Proof. exact (gamma_spec cosz omega g g1 g2 g3 g4). Qed.
Print Assumptions C69_coefficients.
(** They are those of Meador and Weaver's hybrid approximation (1980, table 1), for the single-scattering
    albedo if the asymmetry is not 1 ... *)
Theorem C69_hybrid (cosz omega g g1 g2 g3 g4 : R) : g <> 1 -> mwgamma cosz omega g = Ok (g1, g2, g3, g4) ->
  hybrid_gamma1 cosz omega g g3 g1 /\ hybrid_gamma2 cosz omega g g3 g2.
Proof. exact (gamma_hybrid cosz omega g g1 g2 g3 g4). Qed.
Print Assumptions C69_hybrid.
(** ... and for an albedo of 1, whatever the albedo is, if the asymmetry is 1: then the atmosphere absorbs
    nothing (the test is on the asymmetry where the formula is the one for an albedo of 1). *)
Theorem C69_forward (cosz omega g1 g2 g3 g4 : R) : mwgamma cosz omega 1 = Ok (g1, g2, g3, g4) ->
  hybrid_gamma1 cosz 1 1 g3 g1 /\ hybrid_gamma2 cosz 1 1 g3 g2 /\ g1 = g2 /\
  (hybrid_gamma1 cosz omega 1 g3 g1 <-> omega = 1) /\
  forall omega', mwgamma cosz omega' 1 = Ok (g1, g2, g3, g4).
Proof. exact (gamma_forward cosz omega g1 g2 g3 g4). Qed.
Print Assumptions C69_forward.
(** Above a cell that is optically infinite the reflectance is that of the solution of the two-stream
    equations that dies out with depth, and nothing is transmitted. *)
Theorem C69_infinite (mu S0 tau omega g R0 g1 g2 g3 g4 : R) r : 0 < mu -> 0 <= omega <= 1 ->
  mwgamma mu omega g = Ok (g1, g2, g3, g4) -> g2 <> g1 -> let xi := sqrt ((g1 - g2) * (g2 + g1)) in mu * xi <> 1 ->
  twostream mu S0 tau omega g R0 = Ok r -> t_btrans r = 0 ->
  t_trans r = 0 /\
  exists Up Down K,
    (forall t, derivable_pt_lim Up t (g1 * Up t - g2 * Down t - omega * g3 * exp (- t / mu))) /\
    (forall t, derivable_pt_lim Down t (g2 * Up t - g1 * Down t + omega * g4 * exp (- t / mu))) /\
    Down 0 = 0 /\ Up 0 = t_refl r * mu /\
    forall t, Rabs (Up t) <= K * (exp (- xi * t) + exp (- t / mu)) /\ Rabs (Down t) <= K * (exp (- xi * t) + exp (- t / mu)).
Proof. exact (twostream_infinite mu S0 tau omega g R0 g1 g2 g3 g4 r). Qed.
Print Assumptions C69_infinite.
Theorem C69_no_value_error (cosz S0 tau omega g R0 : R) : 0 < S0 -> 0 <= omega <= 1 -> twostream cosz S0 tau omega g R0 <> Err ValueError.
Proof. exact (twostream_no_value_error cosz S0 tau omega g R0). Qed.
Print Assumptions C69_no_value_error.
Theorem C69_no_sun (cosz S0 tau omega g R0 : R) : cosz <= 0 -> twostream cosz S0 tau omega g R0 = Ok (mk_two 0 0 0).
Proof. exact (twostream_night cosz S0 tau omega g R0). Qed.
Print Assumptions C69_no_sun.
(** The optical depth used for a cell: 0 stands for an infinite one. *)
Definition used_depth (t : R) : R := if reqb t 0 then 1000000000000000 else t.
(** In a grid every cell's direct transmittance is that of its own optical depth, as long as no cell is
    optically infinite (scaled depth of 10^15 in the exponential). *)
Theorem C69_own_depth (ny nx : nat) (cosz xi : R) (tau : nat -> nat -> R) :
  (forall y x, (y < ny)%nat -> (x < nx)%nat -> exp (used_depth (tau y x) * xi) < 1000000000000000) ->
  exists b, btrans_grid ny nx cosz xi tau = Ok b /\ forall y x, (y < ny)%nat -> (x < nx)%nat -> b y x = exp (- used_depth (tau y x) / cosz).
Proof. exact (btrans_grid_finite ny nx cosz xi tau). Qed.
Print Assumptions C69_own_depth.
(** One infinite cell (y,x) blackens the whole of row y and of row x, or ends the run when there is no row x. *)
Theorem C69_infinite_refuted (ny nx : nat) (cosz xi : R) (tau : nat -> nat -> R) (y x : nat) :
  (y < ny)%nat -> (x < nx)%nat -> 1000000000000000 <= exp (used_depth (tau y x) * xi) ->
  ((ny <= x)%nat -> btrans_grid ny nx cosz xi tau = Err IndexError) /\
  (forall b, btrans_grid ny nx cosz xi tau = Ok b -> forall j, b y j = 0 /\ b x j = 0).
Proof.
  intros Y X E. split.
  - intros W. exact (btrans_grid_wide ny nx cosz xi tau y x Y X W E).
  - intros b B. exact (proj2 (btrans_grid_rows ny nx cosz xi tau b y x Y X E B)).
Qed.
Print Assumptions C69_infinite_refuted.
(** So the documented optical depth 0 ("infinite") fails on every grid that is wider than high. *)
Theorem C69_zero_depth_refuted (ny nx : nat) (cosz xi : R) (tau : nat -> nat -> R) : (0 < ny < nx)%nat -> 0.000000000001 <= xi ->
  (forall y x, tau y x = 0) -> btrans_grid ny nx cosz xi tau = Err IndexError.
Proof.
  intros W X T. apply (btrans_grid_wide ny nx cosz xi tau 0 ny); try lia. unfold depth. rewrite T. destruct (reqb_spec 0 0); [|lra].
  assert (E : forall n, 2 ^ n <= exp (INR n)).
  { induction n as [|n IH]; [simpl; rewrite exp_0; lra|]. rewrite S_INR, exp_plus. simpl. pose proof (exp_ineq1 1 ltac:(lra)). pose proof (exp_pos (INR n)).
    assert (0 < 2 ^ n) by (apply pow_lt; lra). nra. }
  apply Rle_trans with (2 ^ 50); [simpl; lra|]. eapply Rle_trans; [apply E|]. apply exp_le. simpl INR. lra.
Qed.
Print Assumptions C69_zero_depth_refuted.
(** an absorbing atmosphere, at two elevations *)
Example C69_case : forall z z', 0 <= z <= z' -> z' <= 4000 -> exists b b', elevrad 1000 (1/2) 0.2 0 0 0 0 z = Ok (b, 0) /\
  elevrad 1000 (1/2) 0.2 0 0 0 0 z' = Ok (b', 0) /\ 0 < b <= b'.
Proof.
  intros z z' Z Z'.
  assert (G : forall w, 0 <= w <= 4000 -> exists b, elevrad 1000 (1/2) 0.2 0 0 0 0 w = Ok (b, 0) /\ 0 < b).
  { intros w W. unfold elevrad. destruct (tau_spec 0.2 0 w ltac:(lra) ltac:(lra)) as (t & E & _ & P & _). rewrite E.
    destruct (tau_spec 0.2 0 0 ltac:(lra) ltac:(lra)) as (t0 & E0 & Q & _ & _ & M). specialize (Q eq_refl). specialize (M w t ltac:(lra) ltac:(lra) ltac:(lra) E).
    specialize (P ltac:(lra)). rewrite absorbing by lra. cbn [bind t_btrans t_trans]. eexists. split; [|apply (Rmult_lt_0_compat 1000 (exp (- t / (1 / 2)))); [lra | apply exp_pos]]. f_equal. f_equal. ring. }
  destruct (G z ltac:(lra)) as (b & E & B), (G z' ltac:(lra)) as (b' & E' & B'). exists b, b'. split; [exact E|]. split; [exact E'|]. split; [exact B|].
  exact (C69_higher 1000 (1/2) 0.2 0 0 0 0 z z' b 0 b' 0 ltac:(lra) ltac:(lra) ltac:(lra) ltac:(lra) ltac:(lra) ltac:(lra) E E').
Qed.
Example C69_case_coefficients : exists g1 g2 g3 g4, mwgamma (1/2) 0.85 0 = Ok (g1, g2, g3, g4) /\ g1 = 0.9 /\ g2 = 0.6 /\ g3 = 1/2 /\ g4 = 1/2.
Proof.
  unfold mwgamma. rewrite C69_isotropic by lra. cbn [bind]. destruct (reqb_spec 0 1); [lra|]. cbv zeta. do 4 eexists. split; [reflexivity|]. repeat split; lra.
Qed.
Example C69_case_hybrid : hybrid_gamma1 (1/2) 0.85 0 (1/2) 0.9 /\ hybrid_gamma2 (1/2) 0.85 0 (1/2) 0.6.
Proof.
  destruct C69_case_coefficients as (g1 & g2 & g3 & g4 & M & -> & -> & -> & ->). exact (C69_hybrid (1/2) 0.85 0 _ _ _ _ ltac:(lra) M).
Qed.
(** An asymmetry of 1, and a sun for which the series ends at the term of order 5. *)
Example C69_case_forward : exists cosz g1 g2 g3 g4, mwgamma cosz 0.85 1 = Ok (g1, g2, g3, g4) /\ ~ hybrid_gamma1 cosz 0.85 1 g3 g1.
Proof.
  set (q := sqrt 70). assert (Q : q * q = 70) by (apply sqrt_sqrt; lra). assert (Q0 : 0 <= q) by apply sqrt_pos.
  assert (QB : 8.36 < q < 8.37) by nra.
  set (x := sqrt ((35 + 2 * q) / 63)). assert (X : x * x = (35 + 2 * q) / 63) by (apply sqrt_sqrt; lra). assert (X0 : 0 <= x) by apply sqrt_pos.
  assert (XB : 0.905 < x < 0.907) by nra. clearbody q x.
  assert (B : exists b, beta_0 x 1 = Ok b).
  { unfold beta_0. destruct (rltb_spec 0 x), (rleb_spec x 1), (rleb_spec 0 1), (rleb_spec 1 1); try lra. cbn [andb negb].
    destruct (reqb_spec 1 0); [lra|].
    replace (Z.to_nat 2046) with (S (S (S (S (Z.to_nat 2042))))) by lia.
    cbn [beta_loop Nat.odd Nat.even negb]. 
    set (p2 := ((2 * INR 2 - 1) * x * x + (1 - INR 2) * 1) / INR 2).
    assert (P2 : p2 = (3 * (x * x) - 1) / 2) by (unfold p2; cbn [INR]; field). clearbody p2.
    set (p3 := ((2 * INR 3 - 1) * x * p2 + (1 - INR 3) * x) / INR 3).
    assert (P3 : p3 = (5 * x * p2 - 2 * x) / 3) by (unfold p3; cbn [INR]; field). clearbody p3.
    set (p4 := ((2 * INR 4 - 1) * x * p3 + (1 - INR 4) * p2) / INR 4).
    assert (P4 : p4 = (7 * x * p3 - 3 * p2) / 4) by (unfold p4; cbn [INR]; field). clearbody p4.
    set (p5 := ((2 * INR 5 - 1) * x * p4 + (1 - INR 5) * p3) / INR 5).
    assert (P5 : p5 = 0).
    { assert (E : p5 = x * (63 * (x * x) * (x * x) - 70 * (x * x) + 15) / 8) by (unfold p5; rewrite P4, P3, P2; cbn [INR]; field).
      rewrite E, X. replace (63 * ((35 + 2 * q) / 63) * ((35 + 2 * q) / 63) - 70 * ((35 + 2 * q) / 63) + 15) with ((4 * (q * q) - 280) / 63) by field. rewrite Q. field. }
    clearbody p5. subst p5.
    assert (E3 : p3 = x * (5 * (x * x) - 3) / 2) by (rewrite P3, P2; field). rewrite X in E3.
    assert (B3 : 0.48 < p3 < 0.52) by (rewrite E3; nra).
    set (last := 3 * 1 * x / 2). assert (L : 1.3575 < last < 1.3605) by (unfold last; lra). clearbody last.
    set (sum := last + 7 * 1 * 1 * 1 * (-1 / 8) * p3). assert (S : 0.9 < sum < 0.95) by (unfold sum; lra).
    assert (SD : sum - last <= -0.4) by (unfold sum; lra). clearbody sum.
    destruct (reqb_spec sum 0); [lra|].
    assert (T : 0.4 <= Rabs ((sum - last) / sum)).
    { rewrite Rabs_left; [|unfold Rdiv; pose proof (Rinv_0_lt_compat sum ltac:(lra)); nra]. apply Rmult_le_reg_r with sum; [lra|].
      replace (- ((sum - last) / sum) * sum) with (last - sum) by (field; lra). lra. }
    destruct (rltb_spec (Rabs ((sum - last) / sum)) 0.000000001); [lra|]. cbn [andb].
    rewrite Rmult_0_r, Rplus_0_r. destruct (reqb_spec sum 0); [lra|].
    replace ((sum - sum) / sum) with 0 by (field; lra). rewrite Rabs_R0.
    destruct (rltb_spec 0 0.000000001); [|lra]. destruct (rleb_spec sum 1); [|lra]. cbn [andb bind].
    destruct (rleb_spec 0 sum); [|lra]. destruct (rleb_spec sum 1); [|lra]. cbn [andb]. eauto. }
  destruct B as (b & B).
  assert (M : exists g1 g2 g3 g4, mwgamma x 0.85 1 = Ok (g1, g2, g3, g4)) by (unfold mwgamma; rewrite B; cbn [bind]; destruct (reqb 1 1); cbv zeta; eauto).
  destruct M as (g1 & g2 & g3 & g4 & M). exists x, g1, g2, g3, g4. split; [exact M|].
  destruct (C69_forward x 0.85 g1 g2 g3 g4 M) as (_ & _ & _ & I & _). rewrite I. lra.
Qed.
(** An optical depth of 0, which stands for an infinite one. *)
Example C69_case_infinite : exists (Up Down : R -> R) two, twostream (1/2) 1000 0 0.85 0 0.3 = Ok two /\ t_trans two = 0 /\
  Down 0 = 0 /\ Up 0 = t_refl two * (1/2) /\ 0 < t_refl two.
Proof.
  destruct C69_case_coefficients as (g1 & g2 & g3 & g4 & M & -> & -> & -> & ->).
  set (xi := sqrt ((0.9 - 0.6) * (0.6 + 0.9))). assert (X : xi * xi = 0.45) by (unfold xi; rewrite sqrt_sqrt; lra).
  assert (X0 : 0 <= xi) by apply sqrt_pos. assert (XB : 0.6 < xi < 0.7) by nra.
  assert (BIG : 1000000000000000 <= exp (1000000000000000 * xi)).
  { replace (1000000000000000 * xi) with (500000000000000 * xi + 500000000000000 * xi) by ring. rewrite exp_plus.
    assert (1 + 500000000000000 * xi < exp (500000000000000 * xi)) by (apply exp_ineq1; lra). nra. }
  assert (T : exists two, twostream (1/2) 1000 0 0.85 0 0.3 = Ok two /\ t_btrans two = 0 /\ 0 < t_refl two).
  { unfold twostream. destruct (rleb_spec (1/2) 0); [lra|]. destruct (rleb_spec 1000 0); [lra|].
    destruct (reqb_spec 0 0); [|lra]. cbv zeta. rewrite M. cbn [bind]. destruct (rltb_spec 0.9 0.6); [lra|].
    unfold two_cell. cbv zeta. destruct (reqb_spec 0.9 0.6); [lra|]. fold xi.
    destruct (rleb_spec 1000000000000000 (exp (1000000000000000 * xi))); [|contradiction]. cbn [negb andb].
    assert (RP : 0 < 0.85 * (1 / 2 * xi + (0.6 * (1 / 2) + 0.9 * (1 / 2))) / ((xi + 0.9) * (1 / 2 * xi + 1))).
    { apply Rdiv_lt_0_compat; [lra | apply Rmult_lt_0_compat; lra]. }
    destruct (rleb_spec 0 (0.85 * (1 / 2 * xi + (0.6 * (1 / 2) + 0.9 * (1 / 2))) / ((xi + 0.9) * (1 / 2 * xi + 1)))); [|lra].
    destruct (rleb_spec 0 0); [|lra]. destruct (rleb_spec (0 * (1/2)) 0); [|lra]. cbn [andb]. eexists. split; [reflexivity|]. cbn [t_btrans t_refl]. split; [reflexivity | exact RP]. }
  destruct T as (two & T & BT & RP).
  destruct (C69_infinite (1/2) 1000 0 0.85 0 0.3 _ _ _ _ two ltac:(lra) ltac:(lra) M ltac:(lra) ltac:(fold xi; lra) T BT) as (TT & Up & Down & K & _ & _ & D0 & U0 & _).
  exists Up, Down, two. split; [exact T|]. split; [exact TT|]. split; [exact D0|]. split; [exact U0 | exact RP].
Qed.
(** A scattering atmosphere whose terms are all rational: an albedo of 2/3, the sun at 60 degrees from the zenith and
    an optical depth of ln 2, so that a quarter of the beam is left. *)
Example C69_case_two_stream : exists d Up Down, elevrad 1000 (1/2) (ln 2) 0 (2/3) 0 0.3 0 = Ok (250, d) /\ 0 < d /\
  two_stream_solution (1/2) (2/3) 0.3 (13/12) (5/12) (1/2) (1/2) (ln 2) Up Down /\ d = 1000 * Down (ln 2).
Proof.
  assert (LP : 0 < ln 2) by (rewrite <- ln_1; apply ln_increasing; lra).
  assert (E1 : exp (ln 2 * 1) = 2) by (rewrite Rmult_1_r; apply exp_ln; lra).
  assert (E2 : exp (- ln 2 * 1) = 1 / 2) by (rewrite Rmult_1_r, exp_Ropp, exp_ln by lra; field).
  assert (E3 : exp (- ln 2 / (1 / 2)) = 1 / 4).
  { replace (- ln 2 / (1 / 2)) with (- ln 2 * 1 + - ln 2 * 1) by field. rewrite exp_plus, E2. field. }
  assert (M : mwgamma (1/2) (2/3) 0 = Ok (13/12, 5/12, 1/2, 1/2)).
  { unfold mwgamma. rewrite C69_isotropic by lra. cbn [bind]. destruct (reqb_spec 0 1); [lra|]. cbv zeta. apply f_equal, f_equal2; [apply f_equal2; [apply f_equal2|]|]; lra. }
  destruct (tau_spec (ln 2) 0 0 ltac:(lra) ltac:(lra)) as (t & TD & TE & _). specialize (TE eq_refl). subst t.
  assert (X : sqrt ((13 / 12 - 5 / 12) * (5 / 12 + 13 / 12)) = 1) by (replace ((13 / 12 - 5 / 12) * (5 / 12 + 13 / 12)) with (1 * 1) by field; apply sqrt_square; lra).
  assert (T : exists two, twostream (1/2) 1000 (ln 2) (2/3) 0 0.3 = Ok two /\ t_btrans two = 1 / 4 /\ 1 / 4 < t_trans two).
  { unfold twostream. destruct (rleb_spec (1/2) 0); [lra|]. destruct (rleb_spec 1000 0); [lra|].
    destruct (reqb_spec (ln 2) 0); [lra|]. cbv zeta. rewrite M. cbn [bind]. destruct (rltb_spec (13/12) (5/12)); [lra|].
    destruct (rltb_spec 0.3 0); [lra|].
    unfold two_cell. cbv zeta. destruct (reqb_spec (13/12) (5/12)); [lra|]. rewrite X, E1, E2, E3.
    destruct (rleb_spec 1000000000000000 2); [lra|]. cbn [negb andb].
    repeat match goal with |- context [reqb ?a 0] => destruct (reqb_spec a 0); [exfalso; lra|] end. cbn [orb].
    repeat match goal with |- context [rleb ?a ?b] => destruct (rleb_spec a b); [|exfalso; lra] end. cbn [andb].
    eexists. split; [reflexivity|]. cbn [t_btrans t_trans]. split; lra. }
  destruct T as (two & T & BT & TT).
  assert (EV : elevrad 1000 (1/2) (ln 2) 0 (2/3) 0 0.3 0 = Ok (250, 1000 * (1/2) * (t_trans two - t_btrans two))).
  { unfold elevrad. rewrite TD, T. cbn [bind]. rewrite BT. do 2 f_equal. lra. }
  destruct (C69_two_stream 1000 (1/2) (ln 2) 0 (2/3) 0 0.3 0 (ln 2) _ _ _ _ _ _ ltac:(lra) ltac:(lra) ltac:(lra) TD ltac:(lra) M ltac:(lra) EV ltac:(lra))
    as (_ & Up & Down & SOL & D).
  exists (1000 * (1/2) * (t_trans two - t_btrans two)), Up, Down. split; [exact EV|]. split; [lra|]. split; [exact SOL | exact D].
Qed.
Example C69_case_zero_depth : exists b d, elevrad 1000 (1/2) 0 0 0.85 0 0.3 1500 = Ok (b, d) /\ b = 0 /\ d = 0.
Proof.
  destruct C69_case_infinite as (_ & _ & two & T & _). destruct C69_case_coefficients as (g1 & g2 & g3 & g4 & M & -> & -> & -> & ->).
  destruct (tau_spec 0 0 1500 ltac:(lra) ltac:(lra)) as (t & TD & _ & _ & TE & _). specialize (TE eq_refl). subst t.
  assert (EV : elevrad 1000 (1/2) 0 0 0.85 0 0.3 1500 = Ok (1000 * t_btrans two, 1000 * (1/2) * (t_trans two - t_btrans two)))
    by (unfold elevrad; rewrite TD, T; reflexivity).
  do 2 eexists. split; [exact EV|]. refine (C69_zero_depth 1000 (1/2) 0 0.85 0 0.3 1500 _ _ _ _ _ _ _ _ _ _ M _ EV); lra.
Qed.
Example C69_case_series : forall b, beta_0 (1/2) 0.3 = Ok b -> exists M, (1 <= M)%nat /\ b = (1 - backscatter_sum 0.3 (1/2) M) / 2.
Proof. intros b H. destruct (C69_backscatter (1/2) 0.3 b ltac:(lra) H) as (M & A & B & _). exists M. split; [lia | exact B]. Qed.
Example C69_case_zero : btrans_grid 2 3 (1/2) 1 (fun _ _ => 0) = Err IndexError.
Proof. apply C69_zero_depth_refuted; [lia | lra | reflexivity]. Qed.

(** ** C70 *)
(** The ratio of a step: what the weather model gives over what arrives under a clear sky, when that is at
    least 50 W/m2; unknown otherwise.  The gaps are then filled and the result limited to [0,1]. *)
Theorem C70_cloud_factor (sol top : list R) : length sol = length top ->
  exists ratio filled, length ratio = length sol /\
    (forall i s t, nth_error sol i = Some s -> nth_error top i = Some t ->
       (50 <= t -> nth_error ratio i = Some (Some (s / t))) /\ (t < 50 -> nth_error ratio i = Some None)) /\
    gap_filled ratio filled /\
    length (hrrr_cloud (map Some sol) (map Some top)) = length sol /\
    forall i, (nth_error filled i = Some None -> nth_error (hrrr_cloud (map Some sol) (map Some top)) i = Some None) /\
      forall v, nth_error filled i = Some (Some v) ->
        exists w, nth_error (hrrr_cloud (map Some sol) (map Some top)) i = Some (Some w) /\ unit_limited v w.
Proof.
  intros L. exists (map2 hrrr_ratio (map Some sol) (map Some top)), (interpolate None (map2 hrrr_ratio (map Some sol) (map Some top))).
  assert (LEN : forall a b : list R, length a = length b -> length (map2 hrrr_ratio (map Some a) (map Some b)) = length a).
  { induction a as [|u a IH]; intros [|v b] E; try discriminate; [reflexivity|]. simpl. f_equal. apply IH. simpl in E. lia. }
  split; [apply LEN; exact L|]. split.
  - clear LEN. revert top L. induction sol as [|s0 sol IH]; intros [|t0 top] L i s t S T; try discriminate; [destruct i; discriminate|].
    destruct i as [|i].
    + injection S as ->. injection T as ->. cbn [map map2 nth_error]. destruct (hrrr_ratio_spec s t) as [A B].
      split; intros H; [rewrite (A H) | rewrite (B H)]; reflexivity.
    + simpl in L. cbn [map map2 nth_error]. apply IH; [lia | exact S | exact T].
  - split; [apply interpolate_filled|]. unfold hrrr_cloud. split; [rewrite map_length, interpolate_length; apply LEN; exact L|].
    intros i. rewrite nth_error_map. split.
    + intros ->. reflexivity.
    + intros v ->. destruct (unit_clip_spec v) as (w & W & U). exists w. split; [simpl; rewrite W; reflexivity | exact U].
Qed.
Print Assumptions C70_cloud_factor.
Theorem C70_bounds (sol top : list rnum) (i : nat) (w : R) : nth_error (hrrr_cloud sol top) i = Some (Some w) -> 0 <= w <= 1.
Proof.
  unfold hrrr_cloud. rewrite nth_error_map. destruct (nth_error (interpolate None _) i) as [[v|]|]; try discriminate. simpl.
  destruct (unit_clip_spec v) as (w' & W & (A & B & C)). rewrite W. intros [= <-]. destruct (Rlt_dec v 0); [lra|]. destruct (Rlt_dec 1 v); [lra|]. rewrite C; lra.
Qed.
Print Assumptions C70_bounds.
(** A run that starts at night: nothing is known until the first daylight step, so not every step of every
    run has a cloud factor. *)
Theorem C70_every_step_refuted (sol top : list R) (i : nat) : length sol = length top -> (i < length sol)%nat ->
  (forall j t, (j <= i)%nat -> nth_error top j = Some t -> t < 50) ->
  nth_error (hrrr_cloud (map Some sol) (map Some top)) i = Some None.
Proof.
  intros L I H. destruct (C70_cloud_factor sol top L) as (ratio & filled & LR & RR & (LF & GF) & _ & OUT).
  assert (N : forall j, (j <= i)%nat -> nth_error ratio j = Some None).
  { intros j J. destruct (nth_error sol j) as [s|] eqn:S; [|apply nth_error_None in S; lia].
    destruct (nth_error top j) as [t|] eqn:T; [|apply nth_error_None in T; lia]. apply (RR j s t S T). exact (H j t J T). }
  apply OUT. destruct (GF i ltac:(lia)) as (_ & G). destruct (G (N i ltac:(lia))) as (_ & _ & K). apply K. intros j J. apply N. lia.
Qed.
Print Assumptions C70_every_step_refuted.
(** night, full sun, a gap of two steps, half the sun, night *)
Example C70_case : hrrr_cloud (map Some [10; 600; 3; 3; 60; 0]) (map Some [0; 300; 40; 0; 120; 10]) = [None; Some 1; Some 1; Some 1; Some 0.5; Some 0.5].
Proof.
  unfold hrrr_cloud, hrrr_ratio. cbn [map map2 ncmp].
  destruct (rltb_spec 0 50), (rltb_spec 300 50), (rltb_spec 40 50), (rltb_spec 120 50), (rltb_spec 10 50); try lra; cbn [ncmp].
  destruct (rltb_spec 0 50), (rltb_spec 300 50), (rltb_spec 120 50), (reqb_spec 0 0), (reqb_spec 300 0), (reqb_spec 120 0); try lra.
  cbn [interpolate next_known map]. unfold unit_clip. cbn [ncmp INR Init.Nat.add].
  assert (E1 : 600 / 300 = 2) by lra. assert (E2 : 60 / 120 = 0.5) by lra. rewrite E1, E2.
  assert (E3 : 2 + (0.5 - 2) * (1 / (1 + 1 + 1)) = 1.5) by lra. assert (E4 : 2 + (0.5 - 2) * ((1 + 1) / (1 + 1 + 1)) = 1) by lra. rewrite E3, E4.
  destruct (rltb_spec 1 2), (rltb_spec 1 1.5), (rltb_spec 1 1), (rltb_spec 1 0.5); try lra; cbn [ncmp].
  destruct (rltb_spec 1 0), (rltb_spec 0.5 0); try lra. reflexivity.
Qed.
