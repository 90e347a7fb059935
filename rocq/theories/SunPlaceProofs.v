(** The sun's place: true anomaly, right ascension, declination, hour angle; and the sky of a place. *)
From Coq Require Import Reals ZArith List Bool Lra Lia Psatz.
From Verif Require Import RNum RTrig CalModel CalSpec CalProofs WinsModel SunModel SunSpec SunProofs.
Import ListNotations.
Local Open Scope R_scope.

Lemma dsign_one x : dsign 1.0 x = if rleb 0 x then 1 else -1.
Proof. unfold dsign. destruct (rleb_spec 0 1.0); [|lra]. destruct (rleb_spec 0 x); lra. Qed.
(** the two signs agree *)
Definition same_sign (x y : R) : bool := Bool.eqb (rleb 0 x) (rleb 0 y).
Lemma dsign_test x y : reqb (dsign 1.0 x) (dsign 1.0 y) = same_sign x y.
Proof.
  rewrite !dsign_one. unfold same_sign. destruct (rleb_spec 0 x), (rleb_spec 0 y); cbn [Bool.eqb];
    match goal with |- reqb ?a ?b = _ => destruct (reqb_spec a b) end; try reflexivity; lra.
Qed.
Lemma sq_sin_cos x : sin x * sin x + cos x * cos x = 1.
Proof. pose proof (sin2_cos2 x) as H. unfold Rsqr in H. exact H. Qed.
Lemma degrd_pos : 0 < degrd.
Proof. rewrite degrd_pi. pose proof PI_RGT_0. lra. Qed.
Lemma div_degrd x : x / degrd = x * 180 / PI.
Proof. rewrite degrd_pi. field. pose proof PI_RGT_0. lra. Qed.
Lemma rad_div x : rad (x / degrd) = x.
Proof. rewrite <- times_degrd. field. pose proof degrd_pos. lra. Qed.
Lemma rad_plus x y : rad (x + y) = rad x + rad y.
Proof. unfold rad. lra. Qed.
Lemma rad_360 : rad DEGS_IN_CIRCLE = 2 * PI.
Proof. unfold rad, DEGS_IN_CIRCLE. lra. Qed.
Lemma rad_180 : rad 1.8e2 = PI.
Proof. unfold rad. lra. Qed.
Lemma div_degrd_sign x : rleb 0 (x / degrd) = rleb 0 x.
Proof.
  pose proof degrd_pos. unfold Rdiv. assert (0 < / degrd) by (apply Rinv_0_lt_compat; assumption).
  destruct (rleb_spec 0 (x * / degrd)), (rleb_spec 0 x); try reflexivity; exfalso; nra.
Qed.

(** ** true anomaly *)
Lemma half_angles u : let A := atan u in (1 + u * u) * cos (2 * A) = 1 - u * u /\ (1 + u * u) * sin (2 * A) = 2 * u.
Proof.
  intros A. destruct (sin_cos_atan u) as [SA CA]. fold A in SA, CA.
  pose proof (sq_sin_cos A) as Q. rewrite SA in Q.
  assert (C2 : cos A * cos A * (1 + u * u) = 1) by lra.
  rewrite cos_2a, sin_2a, SA. split.
  - transitivity (cos A * cos A * (1 + u * u) * (1 - u * u)); [ring | rewrite C2; ring].
  - transitivity (cos A * cos A * (1 + u * u) * (2 * u)); [ring | rewrite C2; ring].
Qed.

Section anomaly.
Variables e E : R.
Hypothesis E0 : 0 <= e < 1.
Hypothesis B : 0 < E < 2 * PI.
Lemma radius_eq : radius e (E / degrd) = 1 - e * cos E.
Proof. unfold radius. rewrite times_degrd, rad_div. lra. Qed.
Lemma radius_range : 1 - e <= radius e (E / degrd) <= 1 + e.
Proof. rewrite radius_eq. pose proof (COS_bound E). nra. Qed.
Hypothesis NP : E <> PI.
Let h := E / 2.
Let u := sqrt ((1.0 + e) / (1.0 - e)) * tan h.
Lemma cos_h : cos h <> 0.
Proof.
  unfold h. destruct (Rlt_dec E PI).
  - assert (0 < cos (E / 2)) by (apply cos_gt_0; lra). lra.
  - assert (cos (E / 2) < 0) by (apply cos_lt_0; lra). lra.
Qed.
Lemma sin_h : 0 < sin h.
Proof. unfold h. apply sin_gt_0; lra. Qed.
Lemma k_pos : 0 < sqrt ((1.0 + e) / (1.0 - e)).
Proof. apply sqrt_lt_R0. unfold Rdiv. apply Rmult_lt_0_compat; [lra | apply Rinv_0_lt_compat; lra]. Qed.
Lemma k_sq : sqrt ((1.0 + e) / (1.0 - e)) * sqrt ((1.0 + e) / (1.0 - e)) = (1 + e) / (1 - e).
Proof.
  rewrite sqrt_sqrt.
  - replace 1.0 with 1 by lra. reflexivity.
  - unfold Rdiv. apply Rmult_le_pos; [lra | left; apply Rinv_0_lt_compat; lra].
Qed.
Lemma k_one : sqrt ((1.0 + e) / (1.0 - e)) * (1 - e) = sqrt (1 - e * e).
Proof.
  symmetry. apply sqrt_lem_1.
  - nra.
  - pose proof k_pos. nra.
  - transitivity (sqrt ((1.0 + e) / (1.0 - e)) * sqrt ((1.0 + e) / (1.0 - e)) * ((1 - e) * (1 - e))); [ring|].
    rewrite k_sq. field. lra.
Qed.
Lemma u_sign : rleb 0 (atan u) = rleb 0 (sin E).
Proof.
  assert (SE : sin E = 2 * sin h * cos h) by (unfold h; rewrite <- sin_2a; f_equal; lra).
  pose proof sin_h as SH. pose proof cos_h as CH. pose proof k_pos as K.
  assert (TT : tan h * cos h = sin h) by (unfold tan; field; exact CH).
  destruct (Rlt_dec 0 (cos h)) as [C|C].
  - assert (0 < tan h) by nra. assert (0 < u) by (unfold u; nra).
    assert (0 < atan u) by (apply atan_pos; assumption). assert (0 < sin E) by (rewrite SE; nra).
    destruct (rleb_spec 0 (atan u)), (rleb_spec 0 (sin E)); try reflexivity; lra.
  - assert (cos h < 0) by lra. assert (tan h < 0) by nra. assert (u < 0) by (unfold u; nra).
    assert (atan u < 0) by (apply atan_neg; assumption). assert (sin E < 0) by (rewrite SE; nra).
    destruct (rleb_spec 0 (atan u)), (rleb_spec 0 (sin E)); try reflexivity; lra.
Qed.
Lemma p27_eq : rad (p27 e (E / degrd)) = if rleb 0 (sin E) then 2 * atan u else 2 * atan u + 2 * PI.
Proof.
  unfold p27. rewrite dsign_test. unfold same_sign.
  replace 2.0 with 2 by lra.
  replace (E / degrd / 2 * degrd) with h by (unfold h; field; pose proof degrd_pos; lra).
  fold u.
  rewrite times_degrd, rad_div, div_degrd_sign.
  assert (S2 : rleb 0 (2 * atan u) = rleb 0 (atan u)).
  { destruct (rleb_spec 0 (2 * atan u)), (rleb_spec 0 (atan u)); try reflexivity; lra. }
  rewrite S2, u_sign. rewrite Bool.eqb_reflx.
  replace (rltb (2 * atan u / degrd) 0.0) with (negb (rleb 0 (sin E))).
  - destruct (rleb 0 (sin E)); cbn [negb]; [apply rad_div|]. rewrite rad_plus, rad_div, rad_360. reflexivity.
  - rewrite <- u_sign, <- S2, <- div_degrd_sign.
    destruct (rleb_spec 0 (2 * atan u / degrd)), (rltb_spec (2 * atan u / degrd) 0.0); try reflexivity; lra.
Qed.
Lemma p27_orbit : on_orbit e E (radius e (E / degrd)) (rad (p27 e (E / degrd))).
Proof.
  assert (CS : cos (rad (p27 e (E / degrd))) = cos (2 * atan u) /\ sin (rad (p27 e (E / degrd))) = sin (2 * atan u)).
  { rewrite p27_eq. destruct (rleb 0 (sin E)); [split; reflexivity|].
    replace (2 * atan u + 2 * PI) with (2 * atan u + 2 * IZR 1 * PI) by lra. rewrite sin_turns, cos_turns. split; reflexivity. }
  destruct CS as [C S']. unfold on_orbit. rewrite C, S', radius_eq.
  destruct (half_angles u) as [HC HS].
  pose proof cos_h as CH. pose proof (sq_sin_cos h) as Q.
  assert (CE : cos E = cos h * cos h - sin h * sin h) by (rewrite <- cos_2a; f_equal; unfold h; lra).
  assert (SE : sin E = 2 * sin h * cos h) by (rewrite <- sin_2a; f_equal; unfold h; lra).
  set (k := sqrt ((1.0 + e) / (1.0 - e))) in *.
  assert (U : u * cos h = k * sin h) by (unfold u, tan, k; field; exact CH).
  assert (UU : u * u * (cos h * cos h) * (1 - e) = (1 + e) * (sin h * sin h)).
  { transitivity ((u * cos h) * (u * cos h) * (1 - e)); [ring|]. rewrite U.
    transitivity (k * k * (sin h * sin h) * (1 - e)); [ring|]. unfold k. rewrite k_sq. field. lra. }
  assert (NZ : (1 - e) * (cos h * cos h) <> 0) by nra.
  assert (R1 : (1 - e) * (cos h * cos h) * (1 + u * u) = 1 - e * cos E) by (rewrite CE; nra).
  assert (R2 : (1 - e) * (cos h * cos h) * (1 - u * u) = cos E - e) by (rewrite CE; nra).
  split; [reflexivity|]. split.
  - rewrite <- R1, <- R2, <- HC. ring.
  - rewrite <- R1. transitivity ((1 - e) * (cos h * cos h) * ((1 + u * u) * sin (2 * atan u))); [ring|]. rewrite HS, SE, <- k_one. fold k.
    transitivity (2 * (1 - e) * cos h * (u * cos h)); [ring|]. rewrite U. ring.
Qed.
End anomaly.

(** ** right ascension and declination *)
Lemma p44_range l o : 0 <= p44 l o < 360.
Proof.
  unfold p44. rewrite dsign_test. unfold same_sign. set (A := atan _). pose proof (atan_bound (tan (l * degrd) * cos (o * degrd))) as B.
  fold A in B. pose proof PI_RGT_0.
  assert (Q : -90 < A / degrd < 90).
  { rewrite div_degrd. split; apply Rmult_lt_reg_r with PI; try assumption; unfold Rdiv; rewrite Rmult_assoc, Rinv_l; lra. }
  unfold DEGS_IN_CIRCLE.
  destruct (rleb_spec 0 (A / degrd)), (rleb_spec 0 (sin (l * degrd))); cbn [Bool.eqb];
    match goal with |- context [rltb ?a 0] => destruct (rltb_spec a 0) end; lra.
Qed.
Lemma cos_asin_sq x : -1 <= x <= 1 -> cos (asin x) * cos (asin x) = 1 - x * x /\ 0 <= cos (asin x).
Proof.
  intros H. pose proof (sin_asin x H) as SA. pose proof (sq_sin_cos (asin x)) as Q. rewrite SA in Q.
  pose proof (asin_bound x) as B. split; [lra | apply cos_ge_0; lra].
Qed.
Lemma prod_bound a b : -1 <= a <= 1 -> -1 <= b <= 1 -> -1 <= a * b <= 1.
Proof. intros. split; nra. Qed.
Lemma ascension l o : 0 < cos (rad o) -> sin (rad l) <> 0 -> cos (rad l) <> 0 ->
  equatorial (rad l) (rad o) (rad (p44 l o)) (p47 l o).
Proof.
  intros CO SL CL.
  unfold p47. rewrite !times_degrd.
  set (s := sin (rad l)) in *. set (c := cos (rad l)) in *. set (so := sin (rad o)) in *. set (co := cos (rad o)) in *.
  assert (Q : s * s + c * c = 1) by apply sq_sin_cos. assert (QO : so * so + co * co = 1) by apply sq_sin_cos.
  assert (HP : -1 <= s * so <= 1) by (apply prod_bound; apply SIN_bound).
  destruct (cos_asin_sq _ HP) as [CD CD0]. set (d := asin (s * so)) in *.
  set (A := atan (s / c * co)).
  destruct (sin_cos_atan (s / c * co)) as [SA CA]. fold A in SA, CA.
  assert (T : c * sin A = s * co * cos A) by (rewrite SA; field; exact CL).
  assert (KK : cos A * cos A * (cos d * cos d) = c * c).
  { pose proof (sq_sin_cos A) as QA.
    assert (c * c * (cos A * cos A) + (s * co * cos A) * (s * co * cos A) = c * c).
    { rewrite <- T. transitivity (c * c * (sin A * sin A + cos A * cos A)); [ring | rewrite QA; ring]. }
    rewrite CD. transitivity (c * c * (cos A * cos A) + s * co * cos A * (s * co * cos A)); [|assumption].
    assert (1 - s * so * (s * so) = c * c + s * s * (co * co)) by nra. rewrite H0. ring. }
  assert (AB : (cos A * cos d - c) * (cos A * cos d + c) = 0) by lra.
  assert (POS : 0 <= cos A * cos d) by nra.
  (* the angle in terms of A *)
  assert (SG : rleb 0 A = rleb 0 (s * c)).
  { assert (H0 : forall x, rleb 0 (atan x) = rleb 0 x).
    { intros x. destruct (Rtotal_order x 0) as [L|[L|L]].
      - pose proof (atan_neg x L). destruct (rleb_spec 0 (atan x)), (rleb_spec 0 x); try reflexivity; lra.
      - rewrite L, atan_0. reflexivity.
      - pose proof (atan_pos x L). destruct (rleb_spec 0 (atan x)), (rleb_spec 0 x); try reflexivity; lra. }
    unfold A. rewrite H0.
    assert (I : s / c * co * (c * c) = s * c * co) by (field; exact CL).
    assert (0 < c * c) by nra.
    destruct (rleb_spec 0 (s / c * co)), (rleb_spec 0 (s * c)); try reflexivity; exfalso; [|].
    - assert (s * c < 0) by lra. assert (s * c * co < 0) by nra. nra.
    - assert (s / c * co < 0) by lra. assert (0 <= s * c * co) by nra. nra. }
  assert (ANG : exists k : Z, rad (p44 l o) = A + (if rleb 0 c then 0 else PI) + 2 * IZR k * PI).
  { unfold p44. rewrite dsign_test. unfold same_sign, tan. rewrite !times_degrd.
    fold s c co. fold A. rewrite div_degrd_sign, SG.
    assert (SC : rleb 0 (s * c) = Bool.eqb (rleb 0 s) (rleb 0 c)).
    { destruct (rleb_spec 0 s), (rleb_spec 0 c), (rleb_spec 0 (s * c)); cbn [Bool.eqb]; try reflexivity; exfalso; nra. }
    rewrite SC. replace (Bool.eqb (Bool.eqb (rleb 0 s) (rleb 0 c)) (rleb 0 s)) with (rleb 0 c) by (destruct (rleb 0 s), (rleb 0 c); reflexivity).
    match goal with |- context [rltb ?a 0] => destruct (rltb a 0) end; [exists 1%Z | exists 0%Z];
      rewrite ?rad_plus, ?rad_360; destruct (rleb 0 c); rewrite ?rad_plus, rad_div, ?rad_180; lra. }
  destruct ANG as [k ANG].
  unfold equatorial, above. fold s c so co. rewrite ANG, sin_turns, cos_turns.
  assert (SD : sin d = s * so) by (apply sin_asin, HP). rewrite SD.
  apply Rmult_integral in AB.
  destruct (rleb_spec 0 c) as [Cp|Cn].
  - rewrite Rplus_0_r. assert (X : cos A * cos d = c) by (destruct AB; lra).
    assert (Y : cos d * sin A = s * co).
    { apply Rmult_eq_reg_l with c; [|exact CL]. transitivity (cos d * (c * sin A)); [ring|]. rewrite T.
      transitivity (s * co * (cos A * cos d)); [ring|]. rewrite X. ring. }
    rewrite Y. rewrite (Rmult_comm (cos d)), X. reflexivity.
  - rewrite neg_cos, neg_sin. assert (X : cos A * cos d = - c) by (destruct AB; lra).
    assert (Y : cos d * sin A = - (s * co)).
    { apply Rmult_eq_reg_l with c; [|exact CL]. transitivity (cos d * (c * sin A)); [ring|]. rewrite T.
      transitivity (s * co * (cos A * cos d)); [ring|]. rewrite X. ring. }
    f_equal. f_equal.
    + transitivity (- (cos A * cos d)); [ring | rewrite X; ring].
    + transitivity (- (cos d * sin A)); [ring | rewrite Y; ring].
Qed.
Lemma asin_mono x y : -1 <= x -> x <= y -> y <= 1 -> asin x <= asin y.
Proof.
  intros X XY Y. destruct (Rle_dec (asin x) (asin y)) as [|N]; [assumption|]. exfalso.
  assert (L : asin y < asin x) by lra.
  pose proof (asin_bound x). pose proof (asin_bound y).
  assert (sin (asin y) < sin (asin x)) by (apply sin_increasing_1; lra).
  rewrite !sin_asin in H1 by lra. lra.
Qed.
Lemma p47_range l o : 0 <= o <= 90 -> Rabs (p47 l o) <= rad o.
Proof.
  intros O. unfold p47. rewrite !times_degrd. pose proof PI_RGT_0.
  assert (RO : 0 <= rad o <= PI / 2) by (unfold rad; nra).
  assert (SO : 0 <= sin (rad o)) by (apply sin_ge_0; lra).
  pose proof (SIN_bound (rad l)) as S1. pose proof (SIN_bound (rad o)) as S2.
  assert (AO : asin (sin (rad o)) = rad o) by (apply asin_sin; lra).
  apply Rabs_le. split.
  - rewrite <- AO at 1. rewrite <- asin_opp. apply asin_mono; nra.
  - rewrite <- AO at 2. apply asin_mono; nra.
Qed.

(** ** hour angle *)
Lemma hour_angle g m a : 0 <= g < 360 -> 0 <= m < 360 -> 0 <= a < 360 ->
  -180 <= p48 g (p46 m a) <= 180 /\ same_angle (p48 g (p46 m a)) (g + (m - a) - 180).
Proof.
  intros G M A. unfold p48, p46, DEGS_IN_CIRCLE.
  destruct (rltb_spec 1.8e2 (m - a));
    (match goal with |- context [rltb 180 ?x] => destruct (rltb_spec 180 x) end);
    try (match goal with |- context [rltb ?x (-180)] => destruct (rltb_spec x (-180)) end);
    split; try lra;
    ((apply (same_turns 0); lra) || (apply (same_turns 1); lra) || (apply (same_turns (-1)); lra) || (apply (same_turns (-2)); lra)).
Qed.

(** ** time *)
Definition clock (d : moment) : Prop :=
  (0 <= m_hour d <= 23)%Z /\ (0 <= m_minute d <= 59)%Z /\ (0 <= m_second d <= 59)%Z.
Lemma p51_range d : clock d -> 0 <= p51 d < 360.
Proof.
  intros (H & M & S'). unfold p51, gmts.
  destruct H as [H1 H2], M as [M1 M2], S' as [S1 S2].
  apply IZR_le in H1, H2, M1, M2, S1, S2. lra.
Qed.
Lemma day_range y m d n : (1900 <= y <= 2500)%Z -> ephemeris_day y m d = Some n -> (1 <= n <= 220000)%Z.
Proof.
  intros Y H. unfold ephemeris_day in H. destruct (yearday y m d) as [k|] eqn:E; [|discriminate].
  destruct (yearday_span y m d k E) as [L NL].
  assert (K : (1 <= k <= 366)%Z).
  { destruct (leapP y) as [HL|HL]; [apply L, HL | pose proof (NL HL); lia]. }
  injection H as <-.
  assert (U : (Z.quot ((y - 1900) * 36525 - 25) 100 <= Z.quot (600 * 36525) 100)%Z) by (apply Z.quot_le_mono; lia).
  assert (V : (Z.quot (-25) 100 <= Z.quot ((y - 1900) * 36525 - 25) 100)%Z) by (apply Z.quot_le_mono; lia).
  change (Z.quot (600 * 36525) 100) with 219150%Z in U. change (Z.quot (-25) 100) with 0%Z in V. lia.
Qed.
