(** The sky of a place, and the functions put together. *)
From Coq Require Import Reals ZArith List Bool Lra Lia Psatz.
From Verif Require Import RNum RTrig CalModel CalSpec CalProofs WinsModel SunModel SunSpec SunProofs SunPlaceProofs SolarModel SolarProofs.
Import ListNotations.
Local Open Scope R_scope.

(** ** the sky of a place *)
Lemma sqrt_cos x : 0 <= cos x -> sqrt ((1 - sin x) * (1 + sin x)) = cos x.
Proof. intros H. apply sqrt_lem_1; [pose proof (SIN_bound x); nra | exact H | pose proof (sq_sin_cos x); nra]. Qed.
Lemma turn_seen d w b l : 0 <= cos d -> 0 <= cos b ->
  let '(mu, a) := turn (sin d) w (sin b) l in
  mu = dot (above d w) (zenith b l) /\ -1 <= mu <= 1 /\ - PI <= a < PI /\ seen_at b l (above d w) mu a.
Proof.
  intros CD CB. unfold turn. rewrite (sqrt_cos d CD), (sqrt_cos b CB).
  set (O := l - w).
  set (y := cos d * sin O). set (x := sin b * cos d * cos O - sin d * cos b).
  set (mu := cos d * cos b * cos O + sin d * sin b).
  assert (W : w = l - O) by (unfold O; ring). clearbody O. subst w.
  pose proof (sq_sin_cos d) as Qd. pose proof (sq_sin_cos b) as Qb. pose proof (sq_sin_cos l) as Ql. pose proof (sq_sin_cos O) as QO.
  assert (N : x * x + y * y = 1 - mu * mu).
  { unfold x, y, mu.
    assert (E1 : sin O * sin O = 1 - cos O * cos O) by lra. assert (E2 : sin b * sin b = 1 - cos b * cos b) by lra.
    assert (E3 : sin d * sin d = 1 - cos d * cos d) by lra.
    transitivity (sin b * sin b * (cos d * cos d) * (cos O * cos O) - 2 * (sin b * cos d * cos O * sin d * cos b)
                  + sin d * sin d * (cos b * cos b) + cos d * cos d * (sin O * sin O)); [ring|].
    rewrite E1. transitivity (1 - (cos d * cos d * (cos b * cos b) * (cos O * cos O) + 2 * (cos d * cos b * cos O * sin d * sin b) + sin d * sin d * (sin b * sin b)));
      [rewrite E3, E2; ring | ring]. }
  destruct (arctan2_polar y x) as [PY PX]. rewrite N in PY, PX.
  pose proof (arctan2_range y x) as AR. set (A := arctan2 y x) in *.
  split; [|split; [|split]].
  - unfold dot, above, zenith, mu. rewrite cos_minus, sin_minus.
    transitivity (cos d * cos b * cos O * (sin l * sin l + cos l * cos l) + sin d * sin b); [rewrite Ql; unfold above; ring|].
    unfold above. ring.
  - assert (mu * mu <= 1) by nra. split; nra.
  - lra.
  - unfold seen_at, mix, zenith, southward, eastward, above. rewrite cos_neg, sin_neg.
    replace (sqrt (1 - mu * mu) * - sin A) with (- y) by (rewrite PY; ring).
    replace (sqrt (1 - mu * mu) * cos A) with x by exact PX.
    rewrite cos_minus, sin_minus. unfold mu, x, y.
    f_equal; [f_equal|].
    + transitivity (cos d * cos O * cos l * (sin b * sin b + cos b * cos b) + cos d * sin O * sin l); [rewrite Qb; ring | ring].
    + transitivity (cos d * cos O * sin l * (sin b * sin b + cos b * cos b) - cos d * sin O * cos l); [rewrite Qb; ring | ring].
    + transitivity (sin d * (sin b * sin b + cos b * cos b)); [rewrite Qb; ring | ring].
Qed.

(** every check of [sunpath] and what it lets through *)
Definition at_most_abs (m : R) (x : rnum) : Prop := match x with Some v => Rabs v <= m | None => True end.
Lemma beyond_spec m x : beyond m x = false <-> at_most_abs m x.
Proof.
  destruct x as [v|]; cbn; [|tauto]. destruct (rltb_spec m (Rabs v)); split; intros; try discriminate; try lra; auto.
Qed.
Lemma none_beyond m l : existsb (beyond m) l = false <-> Forall (at_most_abs m) l.
Proof.
  induction l as [|x l IH]; cbn [existsb]; [split; auto|]. rewrite orb_false_iff, beyond_spec, IH. split.
  - intros [A B]. constructor; assumption.
  - intros H. inversion H; auto.
Qed.
Lemma some_beyond m l : existsb (beyond m) l = true <-> ~ Forall (at_most_abs m) l.
Proof. rewrite <- none_beyond. destruct (existsb (beyond m) l); split; intros; congruence. Qed.
Lemma sines_fine l : existsb (fun x => ncmp rltb x (Some (-1))) (map (option_map sin) l)
  || existsb (fun x => ncmp rltb (Some 1) x) (map (option_map sin) l) = false.
Proof.
  apply orb_false_iff. split.
  - induction l as [|[v|] l IH]; cbn; auto. pose proof (SIN_bound v). destruct (rltb_spec (sin v) (-1)); [lra | exact IH].
  - induction l as [|[v|] l IH]; cbn; auto. pose proof (SIN_bound v). destruct (rltb_spec 1 (sin v)); [lra | exact IH].
Qed.
Definition cell_path (dec om : R) (b l : rnum) : rnum * rnum :=
  match b, l with Some b, Some l => let '(z, a) := turn (sin dec) om (sin b) l in (Some z, Some a) | _, _ => (None, None) end.
Lemma map2_map_l {A B C D} (f : B -> C -> D) (g : A -> B) a b : map2 f (map g a) b = map2 (fun x y => f (g x) y) a b.
Proof. revert b. induction a as [|x a IH]; intros [|y b]; cbn; f_equal; auto. Qed.
Lemma map2_ext {A B C} (f g : A -> B -> C) a b : (forall x y, f x y = g x y) -> map2 f a b = map2 g a b.
Proof. intros H. revert b. induction a as [|x a IH]; intros [|y b]; cbn; f_equal; auto. Qed.
Definition allowed (lat lon : list rnum) (dec om : R) : Prop :=
  Forall (at_most_abs (2 * PI)) lat /\ Forall (at_most_abs PI) lon /\ Rabs dec <= rad 23.6 /\ Rabs om <= PI.
Lemma sunpath_ok lat lon dec om : allowed lat lon dec om -> sunpath lat lon dec om = Ok (map2 (cell_path dec om) lat lon).
Proof.
  intros (A & B & C & D). pose proof PI_RGT_0. unfold sunpath, M_PI_2, M_PI.
  rewrite (proj2 (none_beyond _ _) A), (proj2 (none_beyond _ _) B).
  destruct (rltb_spec (PI * MAX_DECLINATION / 180) (Rabs dec)) as [L|_]; [unfold MAX_DECLINATION, rad in *; lra|].
  destruct (rltb_spec PI (Rabs om)) as [|_]; [lra|].
  unfold rotate. pose proof (SIN_bound dec).
  destruct (rltb_spec (sin dec) (-1)) as [|_]; [lra|]. destruct (rltb_spec 1 (sin dec)) as [|_]; [lra|]. cbn [orb].
  rewrite sines_fine. destruct (rltb_spec (2 * PI) (Rabs om)) as [|_]; [lra|].
  assert (B2 : Forall (at_most_abs (2 * PI)) lon).
  { eapply Forall_impl; [|exact B]. intros [v|]; cbn; auto. intros. lra. }
  rewrite (proj2 (none_beyond _ _) B2). f_equal. rewrite map2_map_l. apply map2_ext. intros [b|] [l|]; reflexivity.
Qed.
Lemma sunpath_no lat lon dec om : ~ allowed lat lon dec om -> sunpath lat lon dec om = Err ValueError.
Proof.
  intros N. pose proof PI_RGT_0. unfold sunpath, M_PI_2, M_PI.
  destruct (existsb (beyond (2 * PI)) lat) eqn:A; [reflexivity|]. destruct (existsb (beyond PI) lon) eqn:B; [reflexivity|].
  destruct (rltb_spec (PI * MAX_DECLINATION / 180) (Rabs dec)) as [|C]; [reflexivity|].
  destruct (rltb_spec PI (Rabs om)) as [|D]; [reflexivity|]. exfalso. apply N.
  apply none_beyond in A, B. repeat split; try assumption; try lra. unfold MAX_DECLINATION, rad in *. lra.
Qed.
(** the latitude that is used *)
Lemma lat_used b : cos (asin (sin b)) = Rabs (cos b) /\ sin (asin (sin b)) = sin b.
Proof.
  assert (S1 : sin (asin (sin b)) = sin b) by (apply sin_asin, SIN_bound). split; [|exact S1].
  destruct (cos_asin_sq (sin b) (SIN_bound b)) as [Q P].
  rewrite <- (Rabs_right (cos (asin (sin b)))) by lra. apply Rsqr_eq_abs_0. unfold Rsqr. pose proof (sq_sin_cos b). lra.
Qed.
Lemma dec_cos dec : Rabs dec <= rad 23.6 -> 0 <= cos dec.
Proof.
  intros H. pose proof PI_RGT_0. unfold rad in H. apply cos_ge_0; revert H; unfold Rabs; destruct (Rcase_abs dec); lra.
Qed.
Lemma cell_seen dec om b l : Rabs dec <= rad 23.6 -> exists mu a, cell_path dec om (Some b) (Some l) = (Some mu, Some a) /\
  mu = dot (above dec om) (zenith (asin (sin b)) l) /\ -1 <= mu <= 1 /\ - PI <= a < PI /\
  seen_at (asin (sin b)) l (above dec om) mu a.
Proof.
  intros D. unfold cell_path. pose proof (turn_seen dec om (asin (sin b)) l (dec_cos _ D)) as T.
  destruct (lat_used b) as [C S1]. specialize (T ltac:(rewrite C; apply Rabs_pos)). rewrite S1 in T.
  destruct (turn (sin dec) om (sin b) l) as [mu a]. exists mu, a. split; [reflexivity | exact T].
Qed.

(** ** the ephemeris *)
(** centuries since 1899-12-31 12:00, for a day number of the calendar (1900-01-01 is 1) and a time of day *)
Definition day_part (d : moment) : R := (3600 * IZR (m_hour d) + 60 * IZR (m_minute d) + IZR (m_second d)) / 86400.
Definition centuries (n : Z) (d : moment) : R := (IZR n - 1 / 2 + day_part d) / 36525.
Lemma p23_eq n d : p23 (IZR n - 0.5) (p51 d) = centuries n d.
Proof. unfold p23, p51, gmts, centuries, day_part, JULIAN_CENTURY, DEGS_IN_CIRCLE. lra. Qed.
Lemma p51_eq d : p51 d = 360 * day_part d.
Proof. unfold p51, gmts, day_part. lra. Qed.
Lemma centuries_range n d : clock d -> (1 <= n <= 220000)%Z -> 0 <= centuries n d <= 7.
Proof.
  intros C [A B]. apply IZR_le in A, B. pose proof (p51_range d C) as P. rewrite p51_eq in P. unfold centuries. lra.
Qed.
Definition code_amplitude (t : R) : R := (1.882 - 0.016 * t) * PI / 180.

Lemma placed_spec t g E : 0 <= t <= 7 -> 0 <= g < 360 -> 0 < E < 2 * PI ->
  let '(dec, om, r) := placed t g E in
  Rabs dec <= rad 23.456 /\ Rabs om <= PI /\ 1 - eccentricity t <= r <= 1 + eccentricity t /\
  r = 1 - eccentricity t * cos E /\
  exists v lam asc w,
    (E <> PI -> on_orbit (eccentricity t) E r (rad v)) /\
    same_angle lam (apparent_longitude t (code_amplitude t) v r) /\
    sin dec = sin (rad lam) * sin (rad (obliquity t)) /\
    (sin (rad lam) <> 0 -> cos (rad lam) <> 0 -> equatorial (rad lam) (rad (obliquity t)) (rad asc) dec) /\
    om = rad w /\ same_angle w (180 - (g + (mean_ascension t - asc))).
Proof.
  intros T G HE. unfold placed. rewrite p26_eq, p43'_eq.
  pose proof (p26_range t T) as PE. rewrite p26_eq in PE. assert (E01 : 0 <= eccentricity t < 1) by lra.
  pose proof (obliquity_range t T) as PO. pose proof PI_RGT_0.
  set (r := radius (eccentricity t) (E / degrd)). set (v := p27 (eccentricity t) (E / degrd)).
  set (lam := p41 t v r). set (asc := p44 lam (obliquity t)).
  pose proof (p44_range lam (obliquity t)) as RA. fold asc in RA.
  destruct (hour_angle g (p45 t) asc G (p45_range t T) RA) as [HB HS]. set (h := p48 g (p46 (p45 t) asc)) in *.
  split; [|split; [|split; [|split]]].
  - eapply Rle_trans; [apply p47_range; lra|]. unfold rad. nra.
  - rewrite degrd_pi. apply Rabs_le. nra.
  - exact (radius_range (eccentricity t) E E01).
  - exact (radius_eq (eccentricity t) E).
  - exists v, lam, asc, (- h). split; [|split; [|split; [|split; [|split]]]].
    + intros NP. exact (p27_orbit (eccentricity t) E E01 HE NP).
    + apply p41_same, same_refl.
    + unfold p47. rewrite !times_degrd. apply sin_asin, prod_bound; apply SIN_bound.
    + intros SL CL. apply ascension; try assumption. apply cos_gt_0; unfold rad; nra.
    + apply times_degrd.
    + apply same_trans with (- (g + (p45 t - asc) - 180)).
      * destruct HS as [k HS]. exists (- k)%Z. rewrite opp_IZR. lra.
      * destruct (p45_same t) as [k K]. exists (- k)%Z. rewrite opp_IZR. lra.
Qed.

Lemma kepler_mono e M : forall a b x r, (a <= b)%nat -> kepler a e M x = Some r -> kepler b e M x = Some r.
Proof.
  induction a as [|a IH]; intros b x r L K; [discriminate K|]. destruct b as [|b]; [lia|].
  cbn [kepler] in *. destruct (reqb (M + e * sin x) 0); [exact K|].
  destruct (rltb (Rabs ((M + e * sin x - x) / (M + e * sin x))) TOLERANCE); [exact K|]. apply IH; [lia | exact K].
Qed.
Lemma ephemeris_spec d n : clock d -> (1 <= n <= 220000)%Z -> ephemeris_day (m_year d) (m_month d) (m_day d) = Some n ->
  ~ same_angle (mean_anomaly (centuries n d)) 0 ->
  exists M E, 0 < M < 360 /\ same_angle M (mean_anomaly (centuries n d)) /\ 0 < E < 2 * PI /\
    kepler_within (eccentricity (centuries n d) * (TOLERANCE * E)) (eccentricity (centuries n d)) (rad M) E /\
    forall fuel, (4 <= fuel)%nat -> ephemeris fuel d = Some (Ok (placed (centuries n d) (360 * day_part d) E)).
Proof.
  intros C N HN NZ. pose proof (centuries_range n d C N) as T. set (t := centuries n d) in *.
  pose proof (p25_range t T) as PM. pose proof (p25_same t) as SM. pose proof (p26_range t T) as PE. pose proof PI_RGT_0.
  assert (M0 : 0 < p25 t).
  { destruct (Rlt_dec 0 (p25 t)) as [|Q]; [assumption|]. exfalso. apply NZ. apply same_sym.
    replace (p25 t) with 0 in SM by lra. exact SM. }
  assert (MR : 0 < p25 t * degrd < 2 * PI) by (rewrite degrd_pi; nra).
  assert (ER : 0 <= p26 t <= 0.0175) by lra.
  destruct (kepler_four (p26 t) (p25 t * degrd) ER MR 4 (le_n _)) as (E & KE & ST).
  destruct (settled_within (p26 t) (p25 t * degrd) ER MR E ST) as (KW & EB & _).
  exists (p25 t), E. split; [lra|]. split; [exact SM|]. split; [exact EB|]. split.
  - rewrite <- p26_eq, <- times_degrd. exact KW.
  - intros fuel F. unfold ephemeris, p22. rewrite HN, p23_eq. fold t.
    assert (KF : kepler fuel (p26 t) (p25 t * degrd) (p25 t * degrd) = Some (Ok E)).
    { exact (kepler_mono _ _ 4%nat fuel _ _ F KE). }
    rewrite KF, p51_eq. reflexivity.
Qed.

Lemma twostream_trans_pos cosz S0 tau omega g R0 r : twostream cosz S0 tau omega g R0 = Ok r ->
  0 <= t_trans r /\ t_btrans r * cosz <= t_trans r.
Proof.
  unfold twostream. destruct (rleb_spec cosz 0); [intros [= <-]; cbn [t_trans t_btrans]; lra|]. destruct (rleb S0 0); [discriminate|].
  destruct (mwgamma cosz omega g) as [[[[g1 g2] g3] g4]|e]; [|discriminate]. cbn [bind].
  destruct (rltb g1 g2); [discriminate|]. intros H. apply two_cell_ok in H. tauto.
Qed.
