(** Properties of the sun angle functions: C23, C76, C77. *)
From Coq Require Import Reals ZArith List Bool Lra Lia Psatz.
From Verif Require Import RNum RTrig CalModel CalSpec CalProofs WinsModel SunModel SunSpec SunProofs SunPlaceProofs SunSkyProofs HordModel HordProofs SolarModel SolarProofs.
Import ListNotations.
Local Open Scope R_scope.

(** ** C23: the sun in the sky of a place *)

(** An angle is small enough, or missing. *)
Definition within (m : R) (x : rnum) : Prop := match x with Some v => Rabs v <= m | None => True end.

(** [sunpath] (radians) answers exactly when all latitudes are within 360 degrees, all longitudes within 180,
    the declination within 23.6 and the sun's longitude within 180; anything else is a ValueError.  The answer
    for a cell is where the sun stands in the sky of the place: its cosine of the zenith angle, in [-1, 1], is
    the product of the directions of the sun and of the zenith, its azimuth is counted from south, positive
    toward east, in [-pi, pi), and the sun is found again from the two.  The latitude used is the one in
    [-90, 90] with the same sine.  Missing angles give missing answers. *)
Theorem C23_sunpath (lat lon : list rnum) (dec om : R) : length lat = length lon ->
  (Forall (within (2 * PI)) lat /\ Forall (within PI) lon /\ Rabs dec <= rad 23.6 /\ Rabs om <= PI ->
   exists l, sunpath lat lon dec om = Ok l /\ length l = length lat /\
     forall i, (i < length lat)%nat ->
       (forall b v, nth i lat None = Some b -> nth i lon None = Some v ->
         exists mu a, nth i l (None, None) = (Some mu, Some a) /\
           mu = dot (above dec om) (zenith (asin (sin b)) v) /\ -1 <= mu <= 1 /\ - PI <= a < PI /\
           seen_at (asin (sin b)) v (above dec om) mu a /\ (Rabs b <= PI / 2 -> asin (sin b) = b)) /\
       (nth i lat None = None \/ nth i lon None = None -> nth i l (Some 0, Some 0) = (None, None))) /\
  (~ (Forall (within (2 * PI)) lat /\ Forall (within PI) lon /\ Rabs dec <= rad 23.6 /\ Rabs om <= PI) ->
   sunpath lat lon dec om = Err ValueError).
Proof.
  intros L. split.
  - intros H. exists (map2 (cell_path dec om) lat lon). split; [exact (sunpath_ok lat lon dec om H)|].
    destruct H as (_ & _ & D & _).
    split; [rewrite map2_length; lia|]. intros i I. split.
    + intros b v B V. rewrite (map2_nth _ _ _ i None None) by lia. rewrite B, V.
      destruct (cell_seen dec om b v D) as (mu & a & E & P). exists mu, a. split; [exact E|].
      destruct P as (P1 & P2 & P3 & P4). split; [exact P1|]. split; [exact P2|]. split; [exact P3|]. split; [exact P4|].
      intros HB. apply asin_sin. revert HB. unfold Rabs. destruct (Rcase_abs b); lra.
    + intros H. rewrite (map2_nth _ _ _ i None None) by lia. destruct H as [H|H]; rewrite H; [reflexivity|].
      destruct (nth i lat None); reflexivity.
  - exact (sunpath_no lat lon dec om).
Qed.
Print Assumptions C23_sunpath.

(** zenith cosine and azimuth are the only ones that place the sun there, unless it stands in the zenith or
    below one's feet *)
Theorem C23_only_one (b v : R) (sun : vec) (mu a mu' a' : R) :
  -1 < mu < 1 -> - PI <= a < PI -> - PI <= a' < PI ->
  seen_at b v sun mu a -> seen_at b v sun mu' a' -> mu = mu' /\ a = a'.
Proof.
  intros M A A' HS HS'.
  assert (Z : forall m x, seen_at b v sun m x -> dot sun (zenith b v) = m /\
    dot sun (southward b v) = sqrt (1 - m * m) * cos x /\ dot sun (eastward v) = sqrt (1 - m * m) * sin x).
  { intros m x H. rewrite H. unfold dot, mix, zenith, southward, eastward, above.
    pose proof (sq_sin_cos b) as Qb. pose proof (sq_sin_cos v) as Qv.
    set (p := sqrt (1 - m * m) * cos x). set (q := sqrt (1 - m * m) * sin x).
    split; [|split].
    - transitivity (m * (cos b * cos b * (sin v * sin v + cos v * cos v) + sin b * sin b)
                    + p * (sin b * cos b * (sin v * sin v + cos v * cos v) - sin b * cos b)); [ring|]. rewrite Qv.
      transitivity (m * (sin b * sin b + cos b * cos b)); [ring | rewrite Qb; ring].
    - transitivity (p * (sin b * sin b * (sin v * sin v + cos v * cos v) + cos b * cos b)
                    + m * (sin b * cos b * (sin v * sin v + cos v * cos v) - sin b * cos b)); [ring|]. rewrite Qv.
      transitivity (p * (sin b * sin b + cos b * cos b)); [ring | rewrite Qb; ring].
    - transitivity (q * (sin v * sin v + cos v * cos v)); [ring | rewrite Qv; ring]. }
  destruct (Z _ _ HS) as (Z1 & Z2 & Z3). destruct (Z _ _ HS') as (Z1' & Z2' & Z3').
  assert (E : mu = mu') by congruence. split; [exact E|]. subst mu'.
  assert (P : 0 < sqrt (1 - mu * mu)) by (apply sqrt_lt_R0; nra).
  assert (C : cos (- a) = cos (- a')). { rewrite !cos_neg. apply Rmult_eq_reg_l with (sqrt (1 - mu * mu)); [congruence | lra]. }
  assert (S' : sin (- a) = sin (- a')). { rewrite !sin_neg. f_equal. apply Rmult_eq_reg_l with (sqrt (1 - mu * mu)); [congruence | lra]. }
  assert (- a = - a') by (apply angle_unique; lra). lra.
Qed.
Print Assumptions C23_only_one.

(** The error message speaks of latitudes between -90 and 90 degrees, but a latitude of, say, 120 degrees is
    taken for the one of 60 degrees on the same meridian. *)
Theorem C23_latitude_refuted (b v dec om : R) : PI / 2 < b <= PI -> Rabs v <= PI -> Rabs dec <= rad 23.6 -> Rabs om <= PI ->
  sunpath [Some b] [Some v] dec om = sunpath [Some (PI - b)] [Some v] dec om /\ sunpath [Some b] [Some v] dec om <> Err ValueError.
Proof.
  intros B V D O. pose proof PI_RGT_0.
  assert (H1 : forall x, 0 <= x <= PI -> allowed [Some x] [Some v] dec om).
  { intros x X. split; [|split; [|split; assumption]].
    - constructor; [|constructor]. cbn. rewrite Rabs_right by lra. lra.
    - constructor; [exact V | constructor]. }
  rewrite (sunpath_ok [Some b]) by (apply H1; lra). rewrite (sunpath_ok [Some (PI - b)]) by (apply H1; lra).
  split; [|discriminate]. unfold cell_path. cbn [map2]. rewrite sin_PI_x. reflexivity.
Qed.
Print Assumptions C23_latitude_refuted.

(** [sunang] (degrees), at any second of the years 1900 to 2500 when the sun's mean anomaly is not zero: the loop
    ends, and every place within 90 degrees of latitude and 180 of longitude is answered; the answer is where a
    sun with declination [dec] above longitude [om] stands in the sky of the place.  For a grid and without
    truncation the numbers are left as they are; for a point with truncation they are written with 6 decimals
    and 5 significant digits and read back. *)
Theorem C23_sunang (fix6 sig5 : R -> R) (y mo dy h mi s n : Z) : (1900 <= y <= 2500)%Z -> clock_time h mi s ->
  ephemeris_day y mo dy = Some n -> ~ same_angle (mean_anomaly (centuries_since (n - 1) (day_fraction h mi s))) 0 ->
  exists dec om r, Rabs dec <= rad 23.456 /\ Rabs om <= PI /\ 0.983 <= r <= 1.017 /\
    (forall fuel, (4 <= fuel)%nat -> ephemeris fuel (mk_moment y mo dy h mi s) = Some (Ok (dec, om, r))) /\
    forall lat lon, Rabs lat <= 90 -> Rabs lon <= 180 ->
      exists mu a, seen_at (rad lat) (rad lon) (above dec om) mu (rad a) /\ -1 <= mu <= 1 /\ -180 <= a < 180 /\
        forall fuel, (4 <= fuel)%nat ->
          sunang fix6 sig5 fuel (mk_moment y mo dy h mi s) (Point lat lon) false = Some (Ok ([(Some mu, Some a)], r)) /\
          sunang fix6 sig5 fuel (mk_moment y mo dy h mi s) (Point lat lon) true
            = Some (Ok ([(Some (fix6 mu), Some (sig5 a))], sig5 r)) /\
          forall truncate, sunang fix6 sig5 fuel (mk_moment y mo dy h mi s) (Cells [Some lat; None] [Some lon; Some lon]) truncate
            = Some (Ok ([(Some mu, Some a); (None, None)], r)).
Proof.
  intros Y CT HN NZ. set (d := mk_moment y mo dy h mi s).
  assert (CL : clock d) by exact CT.
  pose proof (day_range y mo dy n Y HN) as NR.
  assert (TE : centuries n d = centuries_since (n - 1) (day_fraction h mi s)).
  { unfold centuries, centuries_since, day_part, day_fraction, d. rewrite minus_IZR. cbn [m_hour m_minute m_second]. lra. }
  rewrite <- TE in NZ. destruct (ephemeris_spec d n CL NR HN NZ) as (M & E & _ & _ & EB & _ & EF).
  pose proof (centuries_range n d CL NR) as TR. pose proof (p51_range d CL) as GR. rewrite p51_eq in GR.
  pose proof (placed_spec (centuries n d) (360 * day_part d) E TR GR EB) as PS.
  destruct (placed (centuries n d) (360 * day_part d) E) as [[dec om] r] eqn:PL.
  destruct PS as (D & O & RR & _). pose proof (p26_range _ TR) as PE. rewrite p26_eq in PE.
  exists dec, om, r. split; [exact D|]. split; [exact O|]. split; [lra|]. split; [exact EF|].
  intros lat lon LA LO. pose proof PI_RGT_0.
  assert (D' : Rabs dec <= rad 23.6) by (unfold rad in *; lra).
  assert (AB : forall x m, Rabs x <= m -> Rabs (to_radians x) <= rad m).
  { intros x m X. unfold to_radians, M_PI, rad, Rdiv. rewrite !Rabs_mult, (Rabs_right PI), (Rabs_right (/ 180)) by lra. nra. }
  pose proof (AB _ _ LA) as LA'. pose proof (AB _ _ LO) as LO'.
  assert (R90 : rad 90 = PI / 2) by (unfold rad; lra). assert (R180 : rad 180 = PI) by (unfold rad; lra).
  rewrite R90 in LA'. rewrite R180 in LO'.
  destruct (cell_seen dec om (to_radians lat) (to_radians lon) D') as (mu & a & CE & _ & M1 & A1 & SE).
  assert (AS : asin (sin (to_radians lat)) = rad lat).
  { rewrite asin_sin; [reflexivity|]. revert LA'. unfold Rabs. destruct (Rcase_abs (to_radians lat)); lra. }
  rewrite AS in SE.
  exists mu, (a * 180 / M_PI). split.
  { replace (rad (a * 180 / M_PI)) with a by (unfold rad, M_PI; field; lra). exact SE. }
  split; [exact M1|]. split.
  { unfold M_PI. split; [apply Rmult_le_reg_r with PI | apply Rmult_lt_reg_r with PI]; try assumption;
      unfold Rdiv; rewrite Rmult_assoc, Rinv_l by lra; lra. }
  intros fuel F.
  assert (OK1 : sunpath [Some (to_radians lat)] [Some (to_radians lon)] dec om = Ok [(Some mu, Some a)]).
  { rewrite sunpath_ok.
    - cbn [map2]. rewrite CE. reflexivity.
    - split; [|split; [|split; assumption]]; (constructor; [cbn; lra | constructor]). }
  assert (OK2 : sunpath [Some (to_radians lat); None] [Some (to_radians lon); Some (to_radians lon)] dec om
                = Ok [(Some mu, Some a); (None, None)]).
  { rewrite sunpath_ok.
    - cbn [map2]. rewrite CE. reflexivity.
    - split; [|split; [|split; assumption]]; (constructor; [cbn; lra | constructor; [cbn; trivial; lra | constructor]]). }
  unfold sunang. rewrite (EF fuel F). cbn [map option_map]. rewrite OK1, OK2. cbn [bind map fst snd option_map].
  split; [reflexivity|]. split; [reflexivity | intros; reflexivity].
Qed.
Print Assumptions C23_sunang.

(** ** C76: the ephemeris *)

(** Kepler's equation: for an orbit as round as the earth's and every mean anomaly but zero, the loop ends within
    four rounds, with the same answer whatever further rounds it is given; the answer solves the equation to two
    parts in a thousand million and lies between the mean anomaly and aphelion. *)
Theorem C76_kepler (e M : R) : 0 <= e <= 0.0175 -> 0 < M < 2 * PI ->
  exists E, (forall fuel, (4 <= fuel)%nat -> kepler fuel e M M = Some (Ok E)) /\
    kepler_within (2.1e-9 * E) e M E /\ 0 < E < 2 * PI /\ (M <= PI -> M <= E <= PI) /\ (PI <= M -> PI <= E <= M).
Proof.
  intros E0 M0. destruct (kepler_four e M E0 M0 4 (le_n _)) as (E & KE & ST).
  destruct (settled_within e M E0 M0 E ST) as (KW & EB & B1 & B2).
  exists E. split; [intros fuel F; exact (kepler_mono _ _ 4%nat fuel _ _ F KE)|].
  split; [|split; [exact EB|split; [exact B1|]]].
  - unfold kepler_within in *. eapply Rle_trans; [exact KW|]. unfold TOLERANCE.
    assert (e * (1.1920928955e-07 * E) = e * 1.1920928955e-07 * E) by ring. rewrite H. apply Rmult_le_compat_r; lra.
  - intros Q. destruct (Req_dec M PI) as [EQ|NE]; [specialize (B1 ltac:(lra)); lra | apply B2; lra].
Qed.
Print Assumptions C76_kepler.
(** a mean anomaly of exactly zero, the instant of perihelion, divides by zero *)
Theorem C76_perihelion_refuted (e : R) (fuel : nat) : (1 <= fuel)%nat -> kepler fuel e 0 0 = Some (Err ZeroDivisionError).
Proof. exact (kepler_zero fuel e). Qed.
Print Assumptions C76_perihelion_refuted.

(** [sun_placed k]: at the time of day given, [k] days after 1900-01-01, unless the mean anomaly is zero, [ephemeris] puts
    the sun where the almanac's series put it.  [T] is the time in centuries; [M], [E], [v] are the mean, eccentric and true
    anomaly, [lam] the apparent longitude, [asc] and [dec] right ascension and declination, [om] (radians) the
    longitude on the earth above which the sun stands, which moves west by the time of day and the equation of
    time.  The amplitude of one term is the code's (see below).  At aphelion, equinoxes and solstices (isolated
    instants) nothing is said about the directions. *)
Definition sun_placed (k y mo dy h mi s : Z) : Prop :=
  let T := centuries_since k (day_fraction h mi s) in
  ~ same_angle (mean_anomaly T) 0 ->
  exists dec om r,
    (forall fuel, (4 <= fuel)%nat -> ephemeris fuel (mk_moment y mo dy h mi s) = Some (Ok (dec, om, r))) /\
    exists M E v lam asc w,
      0 < M < 360 /\ same_angle M (mean_anomaly T) /\ 0 < E < 2 * PI /\ kepler_within 1.5e-8 (eccentricity T) (rad M) E /\
      r = 1 - eccentricity T * cos E /\ (E <> PI -> on_orbit (eccentricity T) E r (rad v)) /\
      same_angle lam (apparent_longitude T ((1.882 - 0.016 * T) * PI / 180) v r) /\
      sin dec = sin (rad lam) * sin (rad (obliquity T)) /\
      (sin (rad lam) <> 0 -> cos (rad lam) <> 0 -> equatorial (rad lam) (rad (obliquity T)) (rad asc) dec) /\
      om = rad w /\ same_angle w (180 - (360 * day_fraction h mi s + (mean_ascension T - asc))) /\
      Rabs dec <= rad 23.456 /\ Rabs w <= 180.
Lemma sun_placed_at (y mo dy h mi s k : Z) : (1900 <= y <= 2500)%Z -> clock_time h mi s ->
  ephemeris_day y mo dy = Some (k + 1)%Z -> sun_placed k y mo dy h mi s.
Proof.
  intros Y CT HN. red. set (T := centuries_since k (day_fraction h mi s)). intros NZ. set (d := mk_moment y mo dy h mi s).
  assert (CL : clock d) by exact CT.
  assert (NR : (1 <= k + 1 <= 220000)%Z) by (exact (day_range y mo dy _ Y HN)).
  assert (TE : centuries (k + 1) d = T).
  { unfold T, centuries, centuries_since, day_part, day_fraction, d. rewrite plus_IZR. cbn [m_hour m_minute m_second]. lra. }
  destruct (ephemeris_spec d (k + 1) CL NR HN) as (M & E & M1 & M2 & EB & KW & EF); [rewrite TE; exact NZ|].
  pose proof (centuries_range (k + 1) d CL NR) as TR. pose proof (p51_range d CL) as GR. rewrite p51_eq in GR.
  pose proof (placed_spec (centuries (k + 1) d) (360 * day_part d) E TR GR EB) as PS.
  destruct (placed (centuries (k + 1) d) (360 * day_part d) E) as [[dec om] r] eqn:PL.
  rewrite TE in *. destruct PS as (D & O & RR & RE & v & lam & asc & w & P1 & P2 & P3 & P4 & P5 & P6).
  pose proof (p26_range _ TR) as PE. rewrite p26_eq in PE. pose proof PI_RGT_0.
  exists dec, om, r. split; [exact EF|]. exists M, E, v, lam, asc, w.
  split; [exact M1|]. split; [exact M2|]. split; [exact EB|]. split.
  { unfold kepler_within in *. eapply Rle_trans; [exact KW|]. unfold TOLERANCE.
    apply Rle_trans with (0.01675104 * (1.1920928955e-07 * 7)).
    - apply Rmult_le_compat; try lra. assert (E <= 7); [|lra]. pose proof HordProofs.pi_high. unfold HordModel.c_pi in *. lra.
    - lra. }
  split; [exact RE|]. split; [exact P1|]. split; [exact P2|]. split; [exact P3|]. split; [exact P4|]. split; [exact P5|].
  split; [exact P6|]. split; [exact D|].
  rewrite P5 in O. unfold rad, Rdiv in O. rewrite !Rabs_mult, (Rabs_right PI), (Rabs_right (/ 180)) in O by lra.
  apply Rmult_le_reg_r with (PI * / 180); [nra|]. lra.
Qed.

(** At every second of the years 1900 to 2100 the day is counted right; *)
Theorem C76_position (y mo dy h mi s k : Z) : (1900 <= y <= 2100)%Z -> real_date (mkD y mo dy) -> clock_time h mi s ->
  days_later (mkD 1900 1 1) k (mkD y mo dy) -> sun_placed k y mo dy h mi s.
Proof. intros Y RD CT DL. apply sun_placed_at; [lia | exact CT | exact (ephemeris_day_ok y mo dy k Y RD DL)]. Qed.
Print Assumptions C76_position.
(** from 2101 to 2200 the position is the one of the next day. *)
Theorem C76_day_ahead_refuted (y mo dy h mi s k : Z) : (2101 <= y <= 2200)%Z -> real_date (mkD y mo dy) -> clock_time h mi s ->
  days_later (mkD 1900 1 1) k (mkD y mo dy) -> sun_placed (k + 1) y mo dy h mi s.
Proof.
  intros Y RD CT DL. apply sun_placed_at; [lia | exact CT|]. rewrite (ephemeris_day_late y mo dy k Y RD DL). f_equal. lia.
Qed.
Print Assumptions C76_day_ahead_refuted.

(** The second term of the inequalities of long period has an amplitude of 1.882 - 0.016 T seconds of arc; the code
    multiplies it by pi/180 once more, so the term is missing 1.6 seconds or more. *)
Theorem C76_amplitude_refuted (T : R) : 0 <= T <= 10 -> 1.6 < (1.882 - 0.016 * T) - (1.882 - 0.016 * T) * PI / 180.
Proof. intros. pose proof pi_high as P. unfold c_pi in P. assert ((1.882 - 0.016 * T) * PI <= 1.882 * 4) by nra. lra. Qed.
Print Assumptions C76_amplitude_refuted.

(** A date that does not exist fails an assertion. *)
Theorem C76_no_date (fuel : nat) (y mo dy h mi s : Z) : ~ (0 <= y /\ real_date (mkD y mo dy))%Z ->
  ephemeris fuel (mk_moment y mo dy h mi s) = Some (Err AssertionError).
Proof.
  intros N. unfold ephemeris, p22, ephemeris_day. cbn [m_year m_month m_day].
  destruct (yearday y mo dy) as [k|] eqn:E; [|reflexivity]. exfalso. apply N, yearday_defined. exists k. exact E.
Qed.
Print Assumptions C76_no_date.

(** ** C77: irradiance outside the atmosphere, and on the ground under a clear sky *)

(** The irradiance of a wavelength band is the solar constant's share over the square of the sun's distance at noon
    of the day, whatever the time of day: within 3.6 percent of the constant.  Anything but two wavelengths is a
    ValueError. *)
Theorem C77_irradiance (solint : R -> R -> R) (y mo dy n : Z) (a b : R) : (1900 <= y <= 2500)%Z -> ephemeris_day y mo dy = Some n ->
  ~ same_angle (mean_anomaly (centuries_since (n - 1) (1 / 2))) 0 ->
  exists dec om r, 0.983 <= r <= 1.017 /\
    forall fuel, (4 <= fuel)%nat ->
      ephemeris fuel (mk_moment y mo dy 12 0 0) = Some (Ok (dec, om, r)) /\
      forall h mi s, direct_solar_irradiance solint fuel (mk_moment y mo dy h mi s) [a; b] = Some (Ok (solint a b / r ^ 2)) /\
        (0 <= solint a b -> 0.966 * solint a b <= solint a b / r ^ 2 <= 1.036 * solint a b).
Proof.
  intros Y HN NZ.
  assert (DF : day_fraction 12 0 0 = 1 / 2) by (unfold day_fraction; lra). rewrite <- DF in NZ.
  destruct (C23_sunang (fun x => x) (fun x => x) y mo dy 12 0 0 n Y) as (dec & om & r & _ & _ & RR & EF & _); try assumption.
  { repeat split; lia. }
  exists dec, om, r. split; [exact RR|]. intros fuel F. split; [exact (EF fuel F)|]. intros h mi s. split.
  - unfold direct_solar_irradiance, at_noon. cbn [m_year m_month m_day]. rewrite (EF fuel F). f_equal. f_equal. f_equal. ring.
  - intros P. assert (0.966 <= / r ^ 2 <= 1.036); [|unfold Rdiv; nra].
    assert (0.966289 <= r ^ 2 <= 1.034289) by (split; nra).
    split; (apply Rmult_le_reg_r with (r ^ 2); [lra|]; rewrite Rinv_l by lra; nra).
Qed.
Print Assumptions C77_irradiance.
Theorem C77_two_wavelengths (solint : R -> R -> R) (fuel : nat) (d : moment) (w : list R) : length w <> 2%nat ->
  direct_solar_irradiance solint fuel d w = Some (Err ValueError).
Proof. intros L. destruct w as [|a [|b [|c w]]]; try reflexivity. contradiction L. reflexivity. Qed.
Print Assumptions C77_two_wavelengths.

(** Under a clear sky the ground gets nothing while the rounded cosine of the zenith angle is not positive, and
    otherwise the two-stream equations' share of the irradiance, never negative. *)
Theorem C77_clear_sky (fix6 sig5 : R -> R) (solint : R -> R -> R) (y mo dy h mi s n : Z) (lat lon tau : R) :
  (1900 <= y <= 2500)%Z -> clock_time h mi s -> ephemeris_day y mo dy = Some n ->
  ~ same_angle (mean_anomaly (centuries_since (n - 1) (day_fraction h mi s))) 0 ->
  ~ same_angle (mean_anomaly (centuries_since (n - 1) (1 / 2))) 0 -> Rabs lat <= 90 -> Rabs lon <= 180 -> 0 < solint 0.28 2.8 ->
  exists dec om mu a r, seen_at (rad lat) (rad lon) (above dec om) mu a /\ 0.983 <= r <= 1.017 /\
    forall fuel, (4 <= fuel)%nat ->
      (exists d', ephemeris fuel (mk_moment y mo dy h mi s) = Some (Ok (dec, om, d'))) /\
      (fix6 mu <= 0 -> model_solar fix6 sig5 solint fuel (mk_moment y mo dy h mi s) lat lon tau = Some (Ok 0)) /\
      (forall v, 0 <= tau -> model_solar fix6 sig5 solint fuel (mk_moment y mo dy h mi s) lat lon tau = Some (Ok v) ->
         exists t, twostream (fix6 mu) (solint 0.28 2.8 / r ^ 2) tau 0.85 0.3 0.5 = Ok t /\
           v = t_trans t * fix6 mu * (solint 0.28 2.8 / r ^ 2) /\ 0 <= v /\ t_btrans t * fix6 mu <= t_trans t).
Proof.
  intros Y CT HN NZ NZ12 LA LO SP.
  destruct (C23_sunang fix6 sig5 y mo dy h mi s n Y CT HN NZ) as (dec & om & r0 & _ & _ & _ & EF & SA).
  destruct (SA lat lon LA LO) as (mu & a & SE & _ & _ & SF).
  destruct (C77_irradiance solint y mo dy n 0.28 2.8 Y HN NZ12) as (dec' & om' & r & RR & IR).
  exists dec, om, mu, (rad a), r. split; [exact SE|]. split; [exact RR|]. intros fuel F.
  destruct (SF fuel F) as (_ & S1 & _). destruct (IR fuel F) as (_ & IR'). destruct (IR' h mi s) as [I1 _].
  assert (MS : model_solar fix6 sig5 solint fuel (mk_moment y mo dy h mi s) lat lon tau
    = Some (bind (twostream (fix6 mu) (solint 0.28 2.8 / r ^ 2) tau 0.85 0.3 0.5) (fun t => Ok (t_trans t * fix6 mu * (solint 0.28 2.8 / r ^ 2))))).
  { unfold model_solar. rewrite S1, I1. reflexivity. }
  rewrite MS. split; [exists r0; exact (EF fuel F)|]. split.
  - intros NI. rewrite twostream_night by exact NI. cbn [bind t_trans]. f_equal. f_equal. ring.
  - intros v TP H. destruct (twostream (fix6 mu) (solint 0.28 2.8 / r ^ 2) tau 0.85 0.3 0.5) as [t|] eqn:TS; [|discriminate H].
    cbn [bind] in H. injection H as <-. exists t. split; [reflexivity|]. split; [reflexivity|].
    assert (0 < solint 0.28 2.8 / r ^ 2) by (unfold Rdiv; apply Rmult_lt_0_compat; [exact SP | apply Rinv_0_lt_compat; nra]).
    destruct (Rle_dec (fix6 mu) 0) as [L|L].
    + rewrite twostream_night in TS by exact L. injection TS as <-. cbn [t_trans t_btrans]. lra.
    + destruct (twostream_trans_pos _ _ _ _ _ _ _ TS) as [T0 T1]. split; [apply Rmult_le_pos; [apply Rmult_le_pos; lra | left; assumption] | exact T1].
Qed.
Print Assumptions C77_clear_sky.

(** *** a case: Santa Barbara, 1990-02-15 20:30 UTC *)
Example C23_example : ephemeris_day 1990 2 15 = Some 32918%Z /\ clock_time 20 30 0 /\
  ~ same_angle (mean_anomaly (centuries_since (32918 - 1) (day_fraction 20 30 0))) 0 /\
  ~ same_angle (mean_anomaly (centuries_since (32918 - 1) (1 / 2))) 0 /\
  Rabs 34.4166667 <= 90 /\ Rabs (-119.9) <= 180.
Proof.
  assert (W : forall (x : R) (q : Z), 360 * IZR q < x < 360 * IZR q + 360 -> ~ same_angle x 0).
  { intros x q B [k E]. rewrite Rplus_0_l in E. rewrite E in B.
    assert (IZR q < IZR k < IZR q + 1) as [L U] by lra. replace (IZR q + 1) with (IZR (q + 1)) in U by (rewrite plus_IZR; lra).
    apply lt_IZR in L, U. lia. }
  assert (V : forall T, 32917 <= 36525 * T <= 32919 -> ~ same_angle (mean_anomaly T) 0).
  { intros T HT. apply (W _ 91%Z). unfold mean_anomaly. assert (0 <= T <= 1) by lra. assert (0 <= T ^ 2 <= 1) by nra.
    assert (0 <= T ^ 3 <= 1) by (simpl in *; nra). lra. }
  split; [vm_compute; reflexivity|]. split; [repeat split; lia|].
  split; [|split; [|split]].
  - apply V. change (32918 - 1)%Z with 32917%Z. unfold centuries_since, day_fraction. lra.
  - apply V. change (32918 - 1)%Z with 32917%Z. unfold centuries_since. lra.
  - rewrite Rabs_right; lra.
  - rewrite Rabs_left; lra.
Qed.
Example C77_example : exists dec om r, 0.983 <= r <= 1.017 /\ ephemeris 4 (mk_moment 1990 2 15 12 0 0) = Some (Ok (dec, om, r)) /\
  direct_solar_irradiance (fun _ _ => 1289) 4 (mk_moment 1990 2 15 20 30 0) [0.28; 2.8] = Some (Ok (1289 / r ^ 2)) /\ 1245 < 1289 / r ^ 2 < 1336.
Proof.
  destruct C23_example as (N & _ & _ & NZ & _).
  destruct (C77_irradiance (fun _ _ => 1289) 1990 2 15 _ 0.28 2.8 ltac:(lia) N NZ) as (dec & om & r & R & F).
  destruct (F 4%nat (le_n _)) as [E I]. destruct (I 20%Z 30%Z 0%Z) as [I1 I2]. specialize (I2 ltac:(lra)).
  exists dec, om, r. split; [exact R|]. split; [exact E|]. split; [exact I1|]. lra.
Qed.
Example C76_example : real_date (mkD 1990 2 15) /\ days_later (mkD 1900 1 1) 32917 (mkD 1990 2 15).
Proof.
  assert (R1 : real_date (mkD 1990 2 15)) by (apply real_date_len; vm_compute; repeat split; discriminate).
  split; [exact R1|]. apply days_later_iff; [apply real_date_jan1 | exact R1 |]. split; [vm_compute; discriminate | reflexivity].
Qed.
