(** Lemmas about the model of the sun angle functions. *)
From Coq Require Import Reals ZArith List Bool Lra Lia Psatz.
From Verif Require Import RNum RTrig CalModel WinsModel SunModel SunSpec.
Import ListNotations.
Local Open Scope R_scope.

(** ** angles *)
Lemma degrd_pi : degrd = PI / 180.
Proof. unfold degrd. rewrite atan_1. lra. Qed.
Lemma times_degrd x : x * degrd = rad x.
Proof. rewrite degrd_pi. unfold rad. lra. Qed.
Lemma pi_low3 : 3 < PI.
Proof. pose proof PI2_3_2. lra. Qed.
Lemma same_refl a : same_angle a a.
Proof. exists 0%Z. lra. Qed.
Lemma same_sym a b : same_angle a b -> same_angle b a.
Proof. intros [k E]. exists (- k)%Z. rewrite opp_IZR. lra. Qed.
Lemma same_trans a b c : same_angle a b -> same_angle b c -> same_angle a c.
Proof. intros [j E] [k F]. exists (j + k)%Z. rewrite plus_IZR. lra. Qed.
Lemma same_plus a b c d : same_angle a b -> same_angle c d -> same_angle (a + c) (b + d).
Proof. intros [j E] [k F]. exists (j + k)%Z. rewrite plus_IZR. lra. Qed.
Lemma same_minus a b c d : same_angle a b -> same_angle c d -> same_angle (a - c) (b - d).
Proof. intros [j E] [k F]. exists (j - k)%Z. rewrite minus_IZR. lra. Qed.
Lemma same_mult (n : Z) a b : same_angle a b -> same_angle (IZR n * a) (IZR n * b).
Proof. intros [j E]. exists (n * j)%Z. rewrite mult_IZR, E. lra. Qed.
Lemma same_turns (n : Z) a b : a = b + 360 * IZR n -> same_angle a b.
Proof. intros. exists n. assumption. Qed.

Lemma sin_turns x (k : Z) : sin (x + 2 * IZR k * PI) = sin x.
Proof.
  destruct (Z_le_gt_dec 0 k).
  - rewrite <- (Z2Nat.id k) by lia. rewrite <- INR_IZR_INZ. apply sin_period.
  - rewrite <- (sin_period (x + 2 * IZR k * PI) (Z.to_nat (- k))). f_equal.
    rewrite INR_IZR_INZ, Z2Nat.id, opp_IZR by lia. lra.
Qed.
Lemma cos_turns x (k : Z) : cos (x + 2 * IZR k * PI) = cos x.
Proof.
  destruct (Z_le_gt_dec 0 k).
  - rewrite <- (Z2Nat.id k) by lia. rewrite <- INR_IZR_INZ. apply cos_period.
  - rewrite <- (cos_period (x + 2 * IZR k * PI) (Z.to_nat (- k))). f_equal.
    rewrite INR_IZR_INZ, Z2Nat.id, opp_IZR by lia. lra.
Qed.
Lemma same_sin a b : same_angle a b -> sin (rad a) = sin (rad b).
Proof. intros [k E]. rewrite <- (sin_turns (rad b) k). f_equal. unfold rad. rewrite E. lra. Qed.
Lemma same_cos a b : same_angle a b -> cos (rad a) = cos (rad b).
Proof. intros [k E]. rewrite <- (cos_turns (rad b) k). f_equal. unfold rad. rewrite E. lra. Qed.

Lemma fmod_same x : same_angle (fmod x DEGS_IN_CIRCLE) x.
Proof. exists (- cut (x / DEGS_IN_CIRCLE))%Z. unfold fmod. rewrite opp_IZR. unfold DEGS_IN_CIRCLE. lra. Qed.
Lemma Int_part_bounds x : IZR (Int_part x) <= x < IZR (Int_part x) + 1.
Proof. destruct (base_Int_part x). lra. Qed.
Lemma fmod_range x : 0 <= x -> 0 <= fmod x DEGS_IN_CIRCLE < 360.
Proof.
  intros H. unfold fmod, cut, DEGS_IN_CIRCLE.
  assert (0 <= x / 3.6e2) by lra.
  destruct (rleb_spec 0 (x / 3.6e2)); [|lra].
  pose proof (Int_part_bounds (x / 3.6e2)). lra.
Qed.
Lemma fmod_double a y b : same_angle (fmod (a + fmod y DEGS_IN_CIRCLE + b) DEGS_IN_CIRCLE) (a + y + b).
Proof.
  eapply same_trans; [apply fmod_same|].
  apply same_plus; [|apply same_refl]. apply same_plus; [apply same_refl|]. apply fmod_same.
Qed.
Lemma fmod_double_range a y b : 0 <= y -> 0 <= a + b -> 0 <= fmod (a + fmod y DEGS_IN_CIRCLE + b) DEGS_IN_CIRCLE < 360.
Proof. intros Y AB. apply fmod_range. pose proof (fmod_range y Y). lra. Qed.

(** ** the series *)
Ltac series := eapply same_trans; [apply fmod_double | apply (same_turns 0)].
Lemma p24_same t : same_angle (p24 t) (mean_longitude t).
Proof. unfold p24. series. unfold mean_longitude, p22', JULIAN_CENTURY. lra. Qed.
Lemma p25_same t : same_angle (p25 t) (mean_anomaly t).
Proof. unfold p25. series. unfold mean_anomaly, p22', JULIAN_CENTURY. lra. Qed.
Lemma p45_same t : same_angle (p45 t) (mean_ascension t).
Proof. unfold p45. series. unfold mean_ascension, p22', JULIAN_CENTURY. lra. Qed.
Lemma p28_same t : same_angle (p28 t) (moon_anomaly t).
Proof. unfold p28. series. unfold moon_anomaly, DEGS_IN_CIRCLE. lra. Qed.
Lemma p30_same t : same_angle (p30 t) (moon_elongation t).
Proof. unfold p30. series. unfold moon_elongation, DEGS_IN_CIRCLE. lra. Qed.
Lemma p31_same t : same_angle (p31 t) (moon_node t).
Proof. unfold p31. series. unfold moon_node, DEGS_IN_CIRCLE. lra. Qed.
Lemma p32_same t : same_angle (p32 t) (moon_longitude t).
Proof. unfold p32. series. unfold moon_longitude, DEGS_IN_CIRCLE. lra. Qed.
Lemma p26_eq t : p26 t = eccentricity t.
Proof. unfold p26, eccentricity. lra. Qed.
Lemma p43_eq t : p43 t = mean_obliquity t.
Proof. unfold p43, mean_obliquity. lra. Qed.

Lemma sin_mult (n : Z) a b : same_angle a b -> sin (IZR n * a * degrd) = sin (IZR n * rad b).
Proof.
  intros H. rewrite times_degrd. rewrite (same_sin _ _ (same_mult n _ _ H)). f_equal. unfold rad. lra.
Qed.
Lemma cos_mult (n : Z) a b : same_angle a b -> cos (IZR n * a * degrd) = cos (IZR n * rad b).
Proof.
  intros H. rewrite times_degrd. rewrite (same_cos _ _ (same_mult n _ _ H)). f_equal. unfold rad. lra.
Qed.
Lemma sin_once a b : same_angle a b -> sin (a * degrd) = sin (rad b).
Proof. intros H. rewrite times_degrd. apply same_sin, H. Qed.
Lemma cos_once a b : same_angle a b -> cos (a * degrd) = cos (rad b).
Proof. intros H. rewrite times_degrd. apply same_cos, H. Qed.

Lemma p33_eq t : p33 t = moon_pull t / 3600.
Proof.
  unfold p33, moon_pull.
  rewrite (sin_once _ _ (p30_same t)), (sin_mult 3 _ _ (p30_same t)).
  rewrite (sin_once _ _ (same_plus _ _ _ _ (p30_same t) (p28_same t))).
  rewrite (sin_once _ _ (same_minus _ _ _ _ (p30_same t) (p28_same t))).
  replace (rad (moon_elongation t + moon_anomaly t)) with (rad (moon_elongation t) + rad (moon_anomaly t)) by (unfold rad; lra).
  replace (rad (moon_elongation t - moon_anomaly t)) with (rad (moon_elongation t) - rad (moon_anomaly t)) by (unfold rad; lra).
  reflexivity.
Qed.
Lemma p34_eq t : p34 t = nutation t / 3600.
Proof.
  unfold p34, nutation.
  rewrite (sin_once _ _ (p31_same t)), (sin_mult 2 _ _ (p31_same t)), (sin_mult 2 _ _ (p32_same t)),
    (sin_mult 2 _ _ (p24_same t)), (sin_once _ _ (p28_same t)). lra.
Qed.
Lemma p35_eq t : p35 t = nutation_obliquity t / 3600.
Proof.
  unfold p35, nutation_obliquity.
  rewrite (cos_once _ _ (p31_same t)), (cos_mult 2 _ _ (p31_same t)), (cos_mult 2 _ _ (p32_same t)),
    (cos_mult 2 _ _ (p24_same t)). reflexivity.
Qed.
Lemma p36_eq t : p36 t = long_period t ((1.882 - 0.016 * t) * PI / 180) / 3600.
Proof. unfold p36, long_period. rewrite !times_degrd. change (rad (1.882 - 0.016 * t)) with ((1.882 - 0.016 * t) * PI / 180). lra. Qed.
Lemma p43'_eq t : p43' t = obliquity t.
Proof. unfold p43', obliquity. rewrite p43_eq, p35_eq. reflexivity. Qed.
Lemma p41_same t v w r : same_angle v w ->
  same_angle (p41 t v r) (apparent_longitude t ((1.882 - 0.016 * t) * PI / 180) w r).
Proof.
  intros V. unfold p41, apparent_longitude, p29. rewrite p33_eq, p34_eq, p36_eq.
  apply same_trans with (w - mean_anomaly t + mean_longitude t + -20.47 / r / 3600 + moon_pull t / 3600 +
    long_period t ((1.882 - 0.016 * t) * PI / 180) / 3600 + nutation t / 3600).
  - repeat (apply same_plus; [|apply same_refl]). apply same_plus; [|apply p24_same]. apply same_minus; [exact V | apply p25_same].
  - apply (same_turns 0). unfold Rdiv. lra.
Qed.

(** ** ranges *)
Section ranges.
Variable t : R.
Hypothesis T0 : 0 <= t <= 7.
Lemma p25_range : 0 <= p25 t < 360.
Proof. unfold p25. apply fmod_double_range; [unfold p22', JULIAN_CENTURY; lra | nra]. Qed.
Lemma p45_range : 0 <= p45 t < 360.
Proof. unfold p45. apply fmod_double_range; [unfold p22', JULIAN_CENTURY; lra | nra]. Qed.
Lemma p26_range : 0.016 <= p26 t <= 0.01675104.
Proof. unfold p26. nra. Qed.
Lemma nutation_obliquity_range : Rabs (nutation_obliquity t) <= 9.938.
Proof.
  unfold nutation_obliquity. apply Rabs_le.
  pose proof (COS_bound (rad (moon_node t))). pose proof (COS_bound (2 * rad (mean_longitude t))).
  pose proof (COS_bound (2 * rad (moon_node t))). pose proof (COS_bound (2 * rad (moon_longitude t))). lra.
Qed.
Lemma obliquity_range : 23.35 <= obliquity t <= 23.456.
Proof.
  unfold obliquity. pose proof nutation_obliquity_range as N.
  assert (B : -9.938 <= nutation_obliquity t <= 9.938).
  { revert N. unfold Rabs. destruct (Rcase_abs (nutation_obliquity t)); lra. }
  assert (M : 23.36 <= mean_obliquity t <= 23.453).
  { unfold mean_obliquity. assert (0 <= t ^ 2 <= 49) by nra. assert (0 <= t ^ 3) by (simpl; nra).
    assert (t ^ 3 <= 49 * t) by (simpl; nra). assert (t ^ 2 <= 7 * t) by nra. split; lra. }
  lra.
Qed.
End ranges.

(** ** Kepler's equation *)
Lemma sin_lipschitz a b : Rabs (sin a - sin b) <= Rabs (a - b).
Proof.
  assert (W : forall a b, a < b -> Rabs (sin b - sin a) <= b - a).
  { clear. intros a b H. destruct (MVT_cor2 sin cos a b H) as (c & E & _).
    - intros. apply derivable_pt_lim_sin.
    - rewrite E, Rabs_mult, (Rabs_right (b - a)) by lra. pose proof (COS_bound c).
      assert (Rabs (cos c) <= 1) by (apply Rabs_le; lra). nra. }
  destruct (Rtotal_order a b) as [L | [L | L]].
  - rewrite Rabs_minus_sym, (Rabs_minus_sym a b), (Rabs_right (b - a)) by lra. apply W, L.
  - rewrite L. rewrite !Rminus_diag_eq by reflexivity. lra.
  - rewrite (Rabs_right (a - b)) by lra. apply W, L.
Qed.
Lemma sin_below x : 0 <= x -> Rabs (sin x) <= x.
Proof.
  intros. pose proof (sin_lipschitz x 0) as L. rewrite sin_0, !Rminus_0_r in L. rewrite (Rabs_right x) in L by lra. exact L.
Qed.

Section kepler.
Variables e M : R.
Hypothesis E0 : 0 <= e <= 0.0175.
(** where the estimates lie *)
Definition bracket (E : R) : Prop := (M <= PI -> M <= E <= PI) /\ (PI < M -> PI <= E <= M).
Hypothesis M0 : 0 < M < 2 * PI.
Lemma bracket_step E : bracket E -> bracket (M + e * sin E).
Proof.
  pose proof PI_RGT_0. intros [A B]. split; intros H'.
  - specialize (A H'). assert (0 <= sin E) by (apply sin_ge_0; lra).
    assert (sin E <= PI - E). { rewrite <- sin_PI_x. pose proof (sin_below (PI - E)) as Q. assert (0 <= PI - E) by lra.
      specialize (Q ltac:(lra)). pose proof (Rle_abs (sin (PI - E))). lra. }
    split; [nra|]. nra.
  - specialize (B H'). assert (sin E <= 0).
    { assert (sin (E - PI) >= 0) by (apply Rle_ge, sin_ge_0; lra). replace E with ((E - PI) + PI) by lra. rewrite neg_sin. lra. }
    assert (- sin E <= E - PI). { replace (- sin E) with (sin (E - PI)).
      - pose proof (sin_below (E - PI) ltac:(lra)). pose proof (Rle_abs (sin (E - PI))). lra.
      - replace (sin E) with (sin ((E - PI) + PI)) by (f_equal; lra). rewrite neg_sin. lra. }
    split; nra.
Qed.
Lemma bracket_start : bracket M.
Proof. split; intros; lra. Qed.
Lemma bracket_pos E : bracket E -> 0 < E < 2 * PI /\ Rmin M PI <= E.
Proof.
  pose proof PI_RGT_0. intros [A B]. unfold Rmin. destruct (Rle_dec M PI) as [L|L].
  - specialize (A L). lra.
  - specialize (B ltac:(lra)). lra.
Qed.
(** one round *)
Lemma kepler_round fuel E k : bracket E -> 0 <= k -> Rabs (M + e * sin E - E) <= k * Rmin M PI ->
  kepler (S fuel) e M E =
    if rltb (Rabs ((M + e * sin E - E) / (M + e * sin E))) TOLERANCE then Some (Ok (M + e * sin E))
    else kepler fuel e M (M + e * sin E).
Proof.
  intros HB Hk HD. cbn [kepler]. destruct (reqb_spec (M + e * sin E) 0) as [Z|NZ]; [|reflexivity].
  pose proof (bracket_pos _ (bracket_step _ HB)). lra.
Qed.
Lemma ratio_small E k : bracket E -> 0 <= k -> Rabs (M + e * sin E - E) <= k * Rmin M PI ->
  Rabs ((M + e * sin E - E) / (M + e * sin E)) <= k.
Proof.
  intros HB Hk HD. pose proof (bracket_pos _ (bracket_step _ HB)) as [P Q].
  unfold Rdiv. rewrite Rabs_mult, (Rabs_right (/ _)) by (apply Rle_ge; left; apply Rinv_0_lt_compat; lra).
  apply Rmult_le_reg_r with (M + e * sin E); [lra|]. rewrite Rmult_assoc, Rinv_l by lra. nra.
Qed.
Lemma next_gap E k : Rabs (M + e * sin E - E) <= k -> Rabs (M + e * sin (M + e * sin E) - (M + e * sin E)) <= e * k.
Proof.
  intros H. replace (M + e * sin (M + e * sin E) - (M + e * sin E)) with (e * (sin (M + e * sin E) - sin E)) by ring.
  rewrite Rabs_mult, (Rabs_right e) by lra. pose proof (sin_lipschitz (M + e * sin E) E). nra.
Qed.
Lemma first_gap : Rabs (M + e * sin M - M) <= e * Rmin M PI.
Proof.
  pose proof PI_RGT_0. pose proof pi_low3. replace (M + e * sin M - M) with (e * sin M) by ring.
  rewrite Rabs_mult, (Rabs_right e) by lra. apply Rmult_le_compat_l; [lra|].
  unfold Rmin. destruct (Rle_dec M PI).
  - apply sin_below. lra.
  - pose proof (SIN_bound M). apply Rabs_le. lra.
Qed.
Definition settled (E : R) : Prop := bracket E /\ exists p, E = M + e * sin p /\ Rabs ((E - p) / E) < TOLERANCE.
Lemma kepler_more fuel E k : bracket E -> 0 <= k -> Rabs (M + e * sin E - E) <= k * Rmin M PI ->
  (e * (e * (e * k)) < TOLERANCE) -> exists r, kepler (4 + fuel) e M E = Some (Ok r) /\ settled r.
Proof.
  intros HB Hk HD HT. set (m := Rmin M PI) in *.
  assert (W : forall fuel E k, bracket E -> 0 <= k -> Rabs (M + e * sin E - E) <= k * m ->
            Rabs ((M + e * sin E - E) / (M + e * sin E)) < TOLERANCE ->
            exists r, kepler (S fuel) e M E = Some (Ok r) /\ settled r).
  { clear HB Hk HD HT E k. intros f E k HB Hk HD HT. rewrite (kepler_round _ _ k) by assumption.
    destruct (rltb_spec (Rabs ((M + e * sin E - E) / (M + e * sin E))) TOLERANCE) as [_|]; [|lra].
    exists (M + e * sin E). split; [reflexivity|]. split; [apply bracket_step, HB|]. exists E. split; [reflexivity | exact HT]. }
  assert (V : forall fuel E k, bracket E -> 0 <= k -> Rabs (M + e * sin E - E) <= k * m ->
     (Rabs (M + e * sin (M + e * sin E) - (M + e * sin E)) <= (e * k) * m ->
        exists r, kepler fuel e M (M + e * sin E) = Some (Ok r) /\ settled r) ->
     exists r, kepler (S fuel) e M E = Some (Ok r) /\ settled r).
  { intros f E' k' HB' Hk' HD' N. destruct (Rlt_dec (Rabs ((M + e * sin E' - E') / (M + e * sin E'))) TOLERANCE) as [L|L].
    - apply (W f E' k'); assumption.
    - rewrite (kepler_round _ _ k') by assumption.
      destruct (rltb_spec (Rabs ((M + e * sin E' - E') / (M + e * sin E'))) TOLERANCE) as [|_]; [contradiction|].
      apply N. replace (e * k' * m) with (e * (k' * m)) by ring. apply next_gap, HD'. }
  change (4 + fuel)%nat with (S (S (S (S fuel)))).
  assert (P1 : 0 <= e * k) by nra. assert (P2 : 0 <= e * (e * k)) by nra. assert (P3 : 0 <= e * (e * (e * k))) by nra.
  apply (V _ _ k); try assumption. intros G1.
  apply (V _ _ (e * k)); try assumption; [apply bracket_step, HB|]. intros G2.
  apply (V _ _ (e * (e * k))); try assumption; [apply bracket_step, bracket_step, HB|]. intros G3.
  apply (W _ _ (e * (e * (e * k)))); try assumption; [apply bracket_step, bracket_step, bracket_step, HB|].
  eapply Rle_lt_trans; [|exact HT]. apply ratio_small; try assumption. apply bracket_step, bracket_step, bracket_step, HB.
Qed.
Lemma kepler_four fuel : (4 <= fuel)%nat -> exists r, kepler fuel e M M = Some (Ok r) /\ settled r.
Proof.
  intros F. replace fuel with (4 + (fuel - 4))%nat by lia.
  apply (kepler_more _ _ e); [apply bracket_start | lra | apply first_gap |].
  unfold TOLERANCE. assert (e * e <= 0.0175 * 0.0175) by nra. assert (e * (e * e) <= 0.0175 * (0.0175 * 0.0175)) by nra.
  assert (e * (e * (e * e)) <= 0.0175 * (0.0175 * (0.0175 * 0.0175))) by nra. lra.
Qed.
(** what an answer satisfies, whatever the number of rounds *)
Lemma settled_within E : settled E -> kepler_within (e * (TOLERANCE * E)) e M E /\ 0 < E < 2 * PI /\ bracket E.
Proof.
  intros [HB (p & EQ & HT)]. pose proof (bracket_pos _ HB) as [P _]. split; [|split; assumption].
  unfold kepler_within. replace (E - e * sin E - M) with (e * (sin p - sin E)) by lra.
  rewrite Rabs_mult, (Rabs_right e) by lra. apply Rmult_le_compat_l; [lra|].
  eapply Rle_trans; [apply sin_lipschitz|]. rewrite Rabs_minus_sym.
  unfold Rdiv in HT. rewrite Rabs_mult, (Rabs_right (/ E)) in HT by (apply Rle_ge; left; apply Rinv_0_lt_compat; lra).
  left. apply Rmult_lt_reg_r with (/ E); [apply Rinv_0_lt_compat; lra|]. rewrite Rmult_assoc, Rinv_r by lra. lra.
Qed.
End kepler.
Lemma kepler_zero fuel e : (1 <= fuel)%nat -> kepler fuel e 0 0 = Some (Err ZeroDivisionError).
Proof.
  intros F. destruct fuel as [|f]; [lia|]. cbn [kepler]. rewrite sin_0. destruct (reqb_spec (0 + e * 0) 0) as [_|N]; [reflexivity | lra].
Qed.
