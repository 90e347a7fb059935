(** C89: the solar spectrum. *)
From Coq Require Import List QArith Qreals Reals Qabs Lra Lia Bool.
From Verif Require Import RNum WinsModel CalModel SunModel SunSpec SolarModel SolarProofs PropSun SpectrumModel SpectrumSpec SpectrumProofs.
Import ListNotations.
Local Open Scope R_scope.
Local Opaque spectrum solar_data.
Lemma Some_inj {A} (x y : A) : Some x = Some y -> x = y.
Proof. congruence. Qed.

(** The interpolation goes through the rows of its table, has no value outside of it, and has a slope everywhere. *)
Theorem C89_interpolation (tbl : list (Q * Q)) : usable tbl ->
  (forall x y, In (x, y) tbl -> interpolant (akima tbl) (Q2R x) = Some (Q2R y)) /\
  (forall x1 y1 xn yn, nth_error tbl 0 = Some (x1, y1) -> nth_error tbl (length tbl - 1) = Some (xn, yn) ->
     forall x, interpolant (akima tbl) x = None <-> x < Q2R x1 \/ Q2R xn < x) /\
  exists f f', (forall x v, interpolant (akima tbl) x = Some v -> v = f x) /\ forall x, derivable_pt_lim f x (f' x).
Proof.
  intros [L3 I]. pose proof (akima_length tbl L3) as LN. unfold akima.
  assert (N0 : exists p, nth_error tbl 0 = Some p) by (destruct tbl; [cbn in L3; lia|eexists; reflexivity]).
  assert (N1 : exists p, nth_error tbl (length tbl - 1) = Some p).
  { destruct (nth_error tbl (length tbl - 1)) eqn:E; [eauto|]. apply nth_error_None in E. lia. }
  destruct N0 as [[xa ya] N0]. destruct N1 as [[xb yb] N1].
  pose proof (pieces_first tbl _ xa ya LN ltac:(lia) N0) as FX. pose proof (pieces_last tbl _ xb yb LN ltac:(lia) N1) as LX.
  split; [|split].
  - intros x y IN. apply In_nth_error in IN. destruct IN as [i IN].
    assert (TI : exists t, nth_error (akima_slopes tbl) i = Some t).
    { destruct (nth_error (akima_slopes tbl) i) eqn:E; [eauto|]. apply nth_error_None in E.
      assert (nth_error tbl i <> None) by congruence. apply nth_error_Some in H. lia. }
    destruct TI as [t TI]. destruct (pieces_through tbl _ I LN ltac:(lia) i x y t IN TI) as [V _].
    unfold interpolant. rewrite FX, LX.
    assert (i < length tbl)%nat by (apply nth_error_Some; congruence).
    pose proof (increasing_le tbl 0 i _ _ _ _ I ltac:(lia) N0 IN). pose proof (increasing_le tbl i (length tbl - 1) _ _ _ _ I ltac:(lia) IN N1).
    destruct (rltb_spec (Q2R x) (Q2R xa)); [lra|]. destruct (rltb_spec (Q2R xb) (Q2R x)); [lra|]. cbn [orb]. rewrite V. reflexivity.
  - intros x1 y1 xn yn E1 En x. rewrite N0 in E1. rewrite N1 in En. injection E1 as <- <-. injection En as <- <-.
    unfold interpolant. rewrite FX, LX.
    destruct (rltb_spec x (Q2R xa)); [split; [intros _; left; assumption|reflexivity]|].
    destruct (rltb_spec (Q2R xb) x); [split; [intros _; right; assumption|reflexivity]|]. cbn [orb]. split; [discriminate|intros [H|H]; lra].
  - exists (value (pieces tbl (akima_slopes tbl))), (dvalue (pieces tbl (akima_slopes tbl))). split.
    + intros x v. unfold interpolant. destruct (_ || _); [discriminate|]. intros [= <-]. reflexivity.
    + apply value_derive; [apply pieces_fit; exact I|apply pieces_nonempty; [exact LN|lia]].
Qed.
Print Assumptions C89_interpolation.

(** Its slope at a row is Akima's. *)
Theorem C89_slopes (tbl : list (Q * Q)) (s : nat -> Q) (big : Q) i x y : usable tbl -> extends tbl s -> largest tbl s big ->
  nth_error tbl i = Some (x, y) ->
  exists f, (forall x v, interpolant (akima tbl) x = Some v -> v = f x) /\
            derivable_pt_lim f (Q2R x) (Q2R (akima_slope s big i)).
Proof.
  intros [L3 I] EX BG NI. pose proof (akima_length tbl L3) as LN. exists (value (akima tbl)). split.
  - intros z v. unfold interpolant. destruct (_ || _); [discriminate|]. intros [= <-]. reflexivity.
  - assert (LI : (i < length tbl)%nat) by (apply nth_error_Some; congruence).
    destruct (akima_slopes_nth tbl s big L3 EX BG i LI) as (t & TI & TE).
    destruct (pieces_through tbl _ I LN ltac:(lia) i x y t NI TI) as [_ D].
    rewrite <- (Qeq_eqR _ _ TE), <- D. apply value_derive; [apply pieces_fit; exact I|apply pieces_nonempty; [exact LN|lia]].
Qed.
Print Assumptions C89_slopes.

(** The irradiance between two wavelengths is the solar constant times the integral of the interpolated spectrum; there is
    none outside of the table, which goes from 0 to 1000 micrometers. *)
Theorem C89_integral : exists f,
  (forall x, 0 <= x <= 1000 -> interpolant (akima solar_data) x = Some (f x)) /\
  forall a b, 0 <= a -> a <= b -> b <= 1000 -> exists pr : Riemann_integrable f a b, solint a b = Some (1368 * RiemannInt pr).
Proof.
  exists (value spectrum). split.
  - intros x X. rewrite spectrum_akima, spectrum_interpolant. destruct (rltb_spec x 0); [lra|]. destruct (rltb_spec 1000 x); [lra|]. reflexivity.
  - intros a b A AB B.
    assert (pr : Riemann_integrable (value spectrum) a b).
    { apply continuity_implies_RiemannInt; [exact AB|]. intros x _. apply value_continuous; [exact spectrum_fits|exact spectrum_nonempty]. }
    exists pr. rewrite (quad_integral spectrum a b pr spectrum_fits spectrum_nonempty AB), solint_some by lra.
    generalize (primitive spectrum 0 a) (primitive spectrum 0 b). intros u v. f_equal. ring.
Qed.
Print Assumptions C89_integral.
Theorem C89_nan a b : solint a b = None <-> ~ (0 <= a <= 1000 /\ 0 <= b <= 1000).
Proof. exact (solint_none a b). Qed.
Print Assumptions C89_nan.
(** Bands that meet add up. *)
Theorem C89_adds a b c u v : solint a b = Some u -> solint b c = Some v -> solint a c = Some (u + v).
Proof.
  intros U V.
  assert (AB : 0 <= a <= 1000 /\ 0 <= b <= 1000).
  { destruct (Rle_dec 0 a), (Rle_dec a 1000), (Rle_dec 0 b), (Rle_dec b 1000); try tauto;
      (assert (X : solint a b = None) by (apply solint_none; tauto)); congruence. }
  assert (BC : 0 <= b <= 1000 /\ 0 <= c <= 1000).
  { destruct (Rle_dec 0 c), (Rle_dec c 1000), (Rle_dec 0 b), (Rle_dec b 1000); try tauto;
      (assert (X : solint b c = None) by (apply solint_none; tauto)); congruence. }
  rewrite solint_some in U, V by tauto. rewrite solint_some by tauto. apply Some_inj in U. apply Some_inj in V. subst u v.
  generalize (primitive spectrum 0 a) (primitive spectrum 0 b) (primitive spectrum 0 c). intros. f_equal. ring.
Qed.
Print Assumptions C89_adds.

(** Up to 60 micrometers the spectrum is positive, so that a wider band has more irradiance. *)
Lemma spectrum_positive x : 0 < x <= 60 -> 0 < value spectrum x.
Proof.
  intros X. destruct (skipn 168 spectrum) as [|p l2] eqn:E; [vm_compute in E; discriminate E|].
  assert (X0 : Q2R (x0 p) = 60).
  { assert (H : match skipn 168 spectrum with [] => False | p :: _ => (x0 p == 60 # 1)%Q end) by (vm_compute; reflexivity).
    rewrite E in H. rewrite (Qeq_eqR _ _ H). unfold Q2R. cbn [Qnum Qden]. lra. }
  assert (SP : spectrum = firstn 168 spectrum ++ p :: l2) by (rewrite <- E; symmetry; apply firstn_skipn).
  pose proof spectrum_fits as F. rewrite SP in F. rewrite SP. apply positive_value.
  - exact F.
  - vm_compute. reflexivity.
  - rewrite <- SP, spectrum_first, X0. exact X.
Qed.
Theorem C89_positive a b : 0 <= a -> a < b -> b <= 60 -> exists v, solint a b = Some v /\ 0 < v.
Proof.
  intros A AB B. rewrite solint_some by lra. eexists. split; [reflexivity|].
  assert (D : forall c, a <= c <= b -> derivable_pt_lim (primitive spectrum 0) c (value spectrum c))
    by (intros; apply primitive_derive; [exact spectrum_fits|exact spectrum_nonempty]).
  destruct (MVT_cor2 (primitive spectrum 0) (value spectrum) a b AB D) as (c & EC & CR). rewrite EC.
  pose proof (spectrum_positive c ltac:(lra)). apply Rmult_lt_0_compat; [|lra]. apply Rmult_lt_0_compat; lra.
Qed.
Print Assumptions C89_positive.

(** The two bands of the model. *)
Lemma solint_between i j a b p l q m lo hi : skipn i spectrum = p :: l -> skipn j spectrum = q :: m -> Q2R (x0 p) = a -> Q2R (x0 q) = b ->
  0 <= a <= 1000 -> 0 <= b <= 1000 ->
  (lo <=? total (firstn j lows) - (total (firstn i lows) + Z.of_nat (length (firstn i lows))))%Z &&
  (total (firstn j lows) + Z.of_nat (length (firstn j lows)) - total (firstn i lows) <=? hi)%Z = true ->
  exists v, solint a b = Some v /\ IZR lo / 1000000000000 * 1368 <= v <= IZR hi / 1000000000000 * 1368.
Proof.
  intros EI EJ XA XB A B C. apply andb_true_iff in C. destruct C as [C1 C2]. apply Z.leb_le, IZR_le in C1. apply Z.leb_le, IZR_le in C2.
  rewrite minus_IZR in C1, C2. pose proof (spectrum_areas i) as SI. pose proof (spectrum_areas j) as SJ.
  rewrite solint_some by assumption. rewrite (spectrum_at i p l a EI XA), (spectrum_at j q m b EJ XB).
  eexists. split; [reflexivity|]. revert SI SJ C1 C2. generalize (areas (firstn i spectrum)) (areas (firstn j spectrum)). intros u v SI SJ C1 C2. lra.
Qed.
Ltac at_row := unfold Q2R; cbn [x0 Qnum Qden]; lra.
Theorem C89_bands :
  exists vis ir, solint 0.28 0.7 = Some vis /\ solint 0.7 2.8 = Some ir /\ solint 0.28 2.8 = Some (vis + ir) /\
    617.799 <= vis <= 617.801 /\ 671.167 <= ir <= 671.168.
Proof.
  destruct (skipn 22 spectrum) as [|p l] eqn:EP; [vm_compute in EP; discriminate EP|].
  destruct (skipn 97 spectrum) as [|q m] eqn:EQ; [vm_compute in EQ; discriminate EQ|].
  destruct (skipn 125 spectrum) as [|r n] eqn:ER; [vm_compute in ER; discriminate ER|].
  assert (XP : Q2R (x0 p) = 0.28).
  { assert (H : match skipn 22 spectrum with [] => False | p :: _ => (x0 p == 28 # 100)%Q end) by (vm_compute; reflexivity).
    rewrite EP in H. rewrite (Qeq_eqR _ _ H). unfold Q2R. cbn [Qnum Qden]. lra. }
  assert (XQ : Q2R (x0 q) = 0.7).
  { assert (H : match skipn 97 spectrum with [] => False | p :: _ => (x0 p == 7 # 10)%Q end) by (vm_compute; reflexivity).
    rewrite EQ in H. rewrite (Qeq_eqR _ _ H). unfold Q2R. cbn [Qnum Qden]. lra. }
  assert (XR : Q2R (x0 r) = 2.8).
  { assert (H : match skipn 125 spectrum with [] => False | p :: _ => (x0 p == 28 # 10)%Q end) by (vm_compute; reflexivity).
    rewrite ER in H. rewrite (Qeq_eqR _ _ H). unfold Q2R. cbn [Qnum Qden]. lra. }
  destruct (solint_between 22 97 0.28 0.7 p l q m 451607960000%Z 451607970000%Z EP EQ XP XQ) as (vis & V1 & V2);
    [lra|lra|vm_compute; reflexivity|].
  destruct (solint_between 97 125 0.7 2.8 q m r n 490619470000%Z 490619480000%Z EQ ER XQ XR) as (ir & I1 & I2);
    [lra|lra|vm_compute; reflexivity|].
  exists vis, ir. split; [exact V1|]. split; [exact I1|]. split; [exact (C89_adds _ _ _ _ _ V1 I1)|].
  lra.
Qed.
Print Assumptions C89_bands.
(** "The irradiance at all wavelengths is the solar constant" is false: the table gives 97.4 percent of it. *)
Theorem C89_constant_refuted : exists v, solint 0 1000 = Some v /\ 0.9736 * 1368 < v < 0.9737 * 1368.
Proof.
  rewrite solint_some by lra. eexists. split; [reflexivity|].
  assert (E1 : primitive spectrum 0 1000 = areas spectrum).
  { rewrite <- spectrum_last at 1. rewrite primitive_end by (exact spectrum_fits || exact spectrum_nonempty). ring. }
  assert (E0 : primitive spectrum 0 0 = 0).
  { destruct spectrum as [|p l] eqn:ES; [destruct (spectrum_nonempty ES)|]. pose proof spectrum_fits as F. pose proof spectrum_first as X.
    rewrite ES in F, X. cbn [first_x] in X. rewrite <- X at 2. apply primitive_start. exact F. }
  rewrite E1, E0.
  pose proof (rounded_areas _ _ spectrum_rounded) as L.
  assert (T : ((973610000000 <=? total lows) && (total lows + Z.of_nat (length lows) <=? 973620000000))%Z = true) by (vm_compute; reflexivity).
  apply andb_true_iff in T. destruct T as [T1 T2]. apply Z.leb_le, IZR_le in T1. apply Z.leb_le, IZR_le in T2.
  revert L T1 T2. generalize (areas spectrum). intros u L T1 T2. lra.
Qed.
Print Assumptions C89_constant_refuted.
(** "The interpolated spectrum is never negative" is false far in the infrared. *)
Theorem C89_negative_refuted : exists x v, 0 <= x <= 1000 /\ interpolant (akima solar_data) x = Some v /\ v < 0.
Proof.
  destruct (skipn 170 spectrum) as [|p [|q l]] eqn:EP; [vm_compute in EP; discriminate EP| |vm_compute in EP; discriminate EP].
  exists 300, (cubic p 300). split; [lra|].
  assert (H : match skipn 170 spectrum with
              | [p] => (x0 p == 100 # 1)%Q /\ (c0 p * 8000000 + c1 p * 40000 + c2 p * 200 + c3 p < 0)%Q
              | _ => False end) by (vm_compute; split; reflexivity).
  rewrite EP in H. destruct H as [H0 H1]. apply Qeq_eqR in H0. apply Qlt_Rlt in H1.
  replace (Q2R (100 # 1)) with 100 in H0 by (unfold Q2R; cbn; lra).
  rewrite !Q2R_plus, !Q2R_mult, RMicromega.Q2R_0 in H1.
  replace (Q2R 8000000) with 8000000 in H1 by (unfold Q2R; cbn [Qnum Qden]; lra). replace (Q2R 40000) with 40000 in H1 by (unfold Q2R; cbn [Qnum Qden]; lra).
  replace (Q2R 200) with 200 in H1 by (unfold Q2R; cbn [Qnum Qden]; lra).
  split.
  - rewrite spectrum_akima, spectrum_interpolant. destruct (rltb_spec 300 0); [lra|]. destruct (rltb_spec 1000 300); [lra|]. cbn [orb]. f_equal.
    assert (SP : spectrum = firstn 170 spectrum ++ [p]) by (rewrite <- EP; symmetry; apply firstn_skipn).
    assert (G : forall l1, fits (l1 ++ [p]) -> value (l1 ++ [p]) 300 = cubic p 300).
    { induction l1 as [|u l1 IH]; intros F; [reflexivity|]. pose proof (fits_app_le l1 p [] u F) as L. apply fits_tail in F. specialize (IH F).
      cbn [app]. assert (NE : exists y z, l1 ++ [p] = y :: z) by (destruct l1; cbn; eauto). destruct NE as (y & z & NE). rewrite NE in *.
      change (value (u :: y :: z) 300) with (if rltb 300 (Q2R (x1 u)) then cubic u 300 else value (y :: z) 300).
      destruct (rltb_spec 300 (Q2R (x1 u))); [lra|exact IH]. }
    rewrite SP. apply G. rewrite <- SP. exact spectrum_fits.
  - unfold cubic. cbv zeta. rewrite H0. lra.
Qed.
Print Assumptions C89_negative_refuted.

(** The band of a pair of wavelengths, and that those of the model are accepted. *)
Theorem C89_wavelengths a b r :
  (check_wavelengths (a :: b :: r) = Ok Vis <-> 0.28 <= a /\ b <= 0.7) /\
  (check_wavelengths (a :: b :: r) = Ok Ir <-> ~ (0.28 <= a /\ b <= 0.7) /\ 0.7 <= a /\ b <= 2.8) /\
  (check_wavelengths (a :: b :: r) = Err ValueError <-> ~ (0.28 <= a /\ b <= 0.7) /\ ~ (0.7 <= a /\ b <= 2.8)) /\
  check_wavelengths [0.28; 0.7] = Ok Vis /\ check_wavelengths [0.7; 2.8] = Ok Ir.
Proof.
  assert (G : forall a b r, check_wavelengths (a :: b :: r) =
            if rleb 0.28 a && rleb b 0.7 then Ok Vis else if rleb 0.7 a && rleb b 2.8 then Ok Ir else Err ValueError).
  { clear. intros a b r. unfold check_wavelengths, VISIBLE_MIN, VISIBLE_MAX, IR_MIN, IR_MAX.
    cbv zeta. destruct (rleb 0.28 a); cbn [bind]; [destruct (rleb b 0.7); cbn [bind andb]; [reflexivity|]|];
      (destruct (rleb 0.7 a); cbn [bind andb]; [destruct (rleb b 2.8)|]; reflexivity). }
  rewrite !G. repeat split; intros;
  repeat match goal with H : context [rleb ?x ?y] |- _ => destruct (rleb_spec x y) | |- context [rleb ?x ?y] => destruct (rleb_spec x y) end;
    cbn [andb] in *; try discriminate; try reflexivity; try lra; try (exfalso; lra).
Qed.
Print Assumptions C89_wavelengths.
(** "A pair that is accepted has its wavelengths in one of the bands, in order" is false: a pair in the wrong order is. *)
Theorem C89_wavelengths_refuted : check_wavelengths [2.8; 0.28] = Ok Vis /\ exists v, solint 2.8 0.28 = Some v /\ v < 0.
Proof.
  split; [apply (proj1 (C89_wavelengths 2.8 0.28 [])); lra|].
  destruct (C89_positive 0.28 2.8 ltac:(lra) ltac:(lra) ltac:(lra)) as (v & E & P).
  rewrite solint_some in E by lra. rewrite solint_some by lra. eexists. split; [reflexivity|]. apply Some_inj in E. subst v. revert P.
  generalize (primitive spectrum 0 2.8) (primitive spectrum 0 0.28). intros. lra.
Qed.
Print Assumptions C89_wavelengths_refuted.

(** The irradiance of a day in the two bands, and the beam radiation of a cell: never more than this. *)
Theorem C89_day (y mo dy n : Z) : (1900 <= y <= 2500)%Z -> ephemeris_day y mo dy = Some n ->
  ~ same_angle (mean_anomaly (centuries_since (n - 1) (1 / 2))) 0 ->
  exists vis ir, 596 <= vis <= 641 /\ 648 <= ir <= 696 /\
    forall fuel h mi s, (4 <= fuel)%nat ->
      direct_solar_irradiance solint_number fuel (mk_moment y mo dy h mi s) VISIBLE_WAVELENGTHS = Some (Ok vis) /\
      direct_solar_irradiance solint_number fuel (mk_moment y mo dy h mi s) IR_WAVELENGTHS = Some (Ok ir) /\
      forall cosz horizon illum svf tcf tau tz omega g R0 z albedo gl df,
        0 <= tau -> tz < 44300 -> z < 44300 -> 0 <= illum <= 1 ->
        (stoporad fuel (mk_moment y mo dy h mi s) VISIBLE_WAVELENGTHS cosz horizon illum svf tcf tau tz omega g R0 z albedo = Some (Ok (gl, df)) ->
           0 <= gl - df <= vis * illum) /\
        (stoporad fuel (mk_moment y mo dy h mi s) IR_WAVELENGTHS cosz horizon illum svf tcf tau tz omega g R0 z albedo = Some (Ok (gl, df)) ->
           0 <= gl - df <= ir * illum).
Proof.
  intros Y HN NZ. destruct C89_bands as (vis0 & ir0 & EV & EI & _ & BV & BI).
  assert (NV : solint_number 0.28 0.7 = vis0) by (unfold solint_number; rewrite EV; reflexivity).
  assert (NI : solint_number 0.7 2.8 = ir0) by (unfold solint_number; rewrite EI; reflexivity).
  destruct (C77_irradiance solint_number y mo dy n 0.28 0.7 Y HN NZ) as (dec & om & r & RR & IR1).
  destruct (C77_irradiance solint_number y mo dy n 0.7 2.8 Y HN NZ) as (dec' & om' & r' & RR' & IR2).
  rewrite NV in IR1. rewrite NI in IR2.
  exists (vis0 / r ^ 2), (ir0 / r' ^ 2).
  assert (LV : 596 <= vis0 / r ^ 2 <= 641) by (destruct (IR1 4%nat (le_n 4)) as [_ H]; destruct (H 0%Z 0%Z 0%Z) as [_ H2]; lra).
  assert (LI : 648 <= ir0 / r' ^ 2 <= 696) by (destruct (IR2 4%nat (le_n 4)) as [_ H]; destruct (H 0%Z 0%Z 0%Z) as [_ H2]; lra).
  split; [exact LV|]. split; [exact LI|]. intros fuel h mi s F.
  destruct (IR1 fuel F) as [_ H1]. destruct (H1 h mi s) as [D1 _]. destruct (IR2 fuel F) as [_ H2]. destruct (H2 h mi s) as [D2 _].
  split; [exact D1|]. split; [exact D2|]. intros cosz horizon illum svf tcf tau tz omega g R0 z albedo gl df T0 TZ Z0 IL.
  assert (CELL : forall S0, 0 <= S0 -> stoporad_cell S0 cosz horizon illum svf tcf tau tz omega g R0 z albedo = Ok (gl, df) -> 0 <= gl - df <= S0 * illum).
  { intros S0 SP E. destruct (Rlt_dec cosz 0) as [CN|CN].
    - unfold stoporad_cell in E. destruct (rltb_spec cosz 0); [|contradiction]. injection E as <- <-.
      split; [lra|]. replace (0 - 0) with 0 by ring. apply Rmult_le_pos; lra.
    - destruct (stoporad_spec S0 cosz horizon illum svf tcf tau tz omega g R0 z albedo gl df ltac:(lra) E) as (b & d & A & B & V & N).
      destruct (elevrad_bounds S0 cosz tau tz omega g R0 z b d SP T0 TZ Z0 A) as [BB _].
      destruct (no_sun cosz horizon).
      + rewrite N by reflexivity. split; [lra|]. replace (df - df) with 0 by ring. apply Rmult_le_pos; lra.
      + rewrite V by reflexivity. replace (df + b * illum - df) with (b * illum) by ring.
        split; [apply Rmult_le_pos; lra|apply Rmult_le_compat_r; lra]. }
  split; intros E; unfold stoporad in E; cbv [VISIBLE_WAVELENGTHS IR_WAVELENGTHS VISIBLE_MIN VISIBLE_MAX IR_MIN IR_MAX] in E.
  - rewrite (proj1 (proj2 (proj2 (proj2 (C89_wavelengths 0 0 []))))) in E. destruct (rltb_spec cosz 0) as [CN|CN].
    + injection E as <- <-. split; [lra|]. replace (0 - 0) with 0 by ring. apply Rmult_le_pos; lra.
    + rewrite D1 in E. injection E as E. apply (CELL (vis0 / r ^ 2)); [lra|exact E].
  - rewrite (proj2 (proj2 (proj2 (proj2 (C89_wavelengths 0 0 []))))) in E. destruct (rltb_spec cosz 0) as [CN|CN].
    + injection E as <- <-. split; [lra|]. replace (0 - 0) with 0 by ring. apply Rmult_le_pos; lra.
    + rewrite D2 in E. injection E as E. apply (CELL (ir0 / r' ^ 2)); [lra|exact E].
Qed.
Print Assumptions C89_day.

(** The solar table meets the hypotheses; so does a small one, with its slopes (the largest change is 4); a day. *)
Example C89_ex : usable solar_data /\
  (let tbl := [(0, 0); (1, 1); (2, 3); (3, 3)]%Q in
   let s := fun i => nth i [-1; 0; 1; 2; 0; -2; -4]%Q 0%Q in
   usable tbl /\ extends tbl s /\ largest tbl s 4%Q /\ (akima_slope s 4 1 == 4 # 3)%Q) /\
  (exists n, ephemeris_day 2018 1 25 = Some n).
Proof.
  split; [exact solar_usable|]. split.
  - cbv zeta. split; [split; [cbn; lia|cbn; repeat split; reflexivity]|]. split; [|split; [|vm_compute; reflexivity]].
    + split; [|vm_compute; repeat split; reflexivity]. intros i p q P Q0.
      destruct i as [|[|[|i]]]; cbn in P, Q0; try (injection P as <-; injection Q0 as <-; vm_compute; reflexivity); try discriminate.
      destruct i; discriminate.
    + split.
      * intros i L. cbn in L. destruct i as [|[|[|[|i]]]]; [..|lia]; vm_compute; discriminate.
      * exists 3%nat. split; [cbn; lia|vm_compute; reflexivity].
  - eexists. vm_compute. reflexivity.
Qed.
