(** The wet bulb iteration ends: each step removes a fixed part of what is left. *)
From Coq Require Import Reals ZArith List Bool Lra Lia.
From Verif Require Import RNum WinsModel SolarProofs ExpBounds SatModel SatSpec SatProofs DewModel DewSpec WetProofs WetSlopeProofs.
Import ListNotations.
Local Open Scope R_scope.

(** ** growth of saturation vapour pressure *)
Lemma exp_grows a b k : k <= b - a -> exp a * (1 + k) <= exp b.
Proof.
  intros H. replace b with (a + (b - a)) by ring. rewrite exp_plus. apply Rmult_le_compat_l; [left; apply exp_pos|].
  apply Rle_trans with (exp k); [apply exp_ineq1_le | apply exp_le; exact H].
Qed.
Lemma part_le u x c : 0 < u <= x -> 0 <= c -> c * ((x - u) / (x * x)) <= c * ((x - u) / (u * x)).
Proof.
  intros U C. apply Rmult_le_compat_l; [exact C|]. unfold Rdiv. apply Rmult_le_compat_l; [lra|]. apply Rinv_le_contravar; nra.
Qed.
Lemma water_grows u x m : FREEZE <= u <= x -> x <= 323.16 -> m <= 6790.3 - 5.02808 * x -> m * ((x - u) / (x * x)) <= wexp x - wexp u.
Proof.
  intros T U M. pose proof ln10_bounds as LB. assert (U0 : 0 < u) by (unfold FREEZE in T; lra).
  assert (P0 : 0 <= (x - u) / (x * x)) by (apply Rmult_le_pos; [lra | left; apply Rinv_0_lt_compat; nra]).
  apply Rle_trans with ((6790.3 - 5.02808 * x) * ((x - u) / (x * x))); [apply Rmult_le_compat_r; lra|].
  apply Rle_trans with (1 := part_le u x (6790.3 - 5.02808 * x) ltac:(lra) ltac:(lra)).
  unfold wexp. set (l := ln 10) in *. rewrite !ln_quot by (unfold BOIL; lra). destruct (ln_sub_le u x ltac:(lra)) as [_ LN].
  assert (P : 0 < / u) by (apply Rinv_0_lt_compat; lra). assert (P' : 0 < / x) by (apply Rinv_0_lt_compat; lra).
  assert (Q : / x <= / u) by (apply Rinv_le_contravar; lra).
  assert (B : BOIL / x <= BOIL / u) by (unfold Rdiv; apply Rmult_le_compat_l; [unfold BOIL; lra | exact Q]).
  assert (E1 : exp (11.344 * (1 - x / BOIL) * l) <= exp (11.344 * (1 - u / BOIL) * l)).
  { apply exp_le. apply Rmult_le_compat_r; [lra|]. unfold Rdiv, BOIL. nra. }
  assert (E2 : exp (-3.49149 * (BOIL / u - 1) * l) <= exp (-3.49149 * (BOIL / x - 1) * l)) by (apply exp_le; apply Rmult_le_compat_r; lra).
  set (a := exp (11.344 * (1 - u / BOIL) * l)) in *. set (a' := exp (11.344 * (1 - x / BOIL) * l)) in *.
  set (y := exp (-3.49149 * (BOIL / u - 1) * l)) in *. set (y' := exp (-3.49149 * (BOIL / x - 1) * l)) in *.
  assert (DB : BOIL / u - BOIL / x = BOIL * ((x - u) / (u * x))) by (unfold Rdiv; field; lra).
  assert (DL : (x - u) / u = x * ((x - u) / (u * x))) by (field; lra). rewrite DL in LN.
  assert (W0 : 0 <= (x - u) / (u * x)) by (apply Rmult_le_pos; [lra | left; apply Rinv_0_lt_compat; nra]). set (w := (x - u) / (u * x)) in *.
  assert (M1 : 6790.3 * w <= 7.90298 * (BOIL / u - BOIL / x) * l).
  { rewrite DB. assert (6790.3 <= 7.90298 * BOIL * l) by (unfold BOIL; lra). nra. }
  assert (0 <= (a - a') * l) by (apply Rmult_le_pos; lra). assert (0 <= (y' - y) * l) by (apply Rmult_le_pos; lra). lra.
Qed.
Lemma ice_grows u x : 0 < u <= x -> 200 <= x <= FREEZE -> 6130 * ((x - u) / (x * x)) <= iexp x - iexp u.
Proof.
  intros T U. pose proof ln10_bounds as LB. unfold iexp. set (l := ln 10) in *.
  rewrite !ln_quot by (unfold FREEZE; lra).
  assert (LN : (x - u) / x <= ln x - ln u).
  { pose proof (exp_ineq1_le (ln u - ln x)) as X. replace (ln u - ln x) with (ln u + - ln x) in X by ring. rewrite exp_plus, exp_ln, exp_Ropp, exp_ln in X by lra.
    replace ((x - u) / x) with (1 - u * / x) by (field; lra). lra. }
  assert (DB : FREEZE / u - FREEZE / x = FREEZE * ((x - u) / (u * x))) by (unfold Rdiv; field; lra).
  pose proof (part_le u x (9.09718 * FREEZE * l) ltac:(lra)) as PL. specialize (PL ltac:(unfold FREEZE; lra)).
  assert (DL : (x - u) / x = x * ((x - u) / (x * x))) by (field; lra). rewrite DL in LN.
  assert (DT : x - u = (x * x) * ((x - u) / (x * x))) by (field; lra).
  assert (W0 : 0 <= (x - u) / (x * x)) by (apply Rmult_le_pos; [lra | left; apply Rinv_0_lt_compat; nra]). set (w := (x - u) / (x * x)) in *.
  set (v := (x - u) / (u * x)) in *.
  assert (K : 6130 <= 9.09718 * FREEZE * l + 3.56654 * x - 0.876793 / FREEZE * l * (x * x)).
  { unfold FREEZE in *. assert (0.876793 / 273.16 * l * (x * x) <= 0.876793 / 273.16 * 2.302587 * (x * x)) by (apply Rmult_le_compat_r; nra).
    assert (0 <= (x - 200) * (273.16 - x)) by nra. nra. }
  assert (KW : 6130 * w <= (9.09718 * FREEZE * l + 3.56654 * x - 0.876793 / FREEZE * l * (x * x)) * w) by (apply Rmult_le_compat_r; assumption).
  assert (DX : x / FREEZE - u / FREEZE = (x * x) * w / FREEZE) by (rewrite <- DT; unfold Rdiv; ring).
  assert (D1 : 9.09718 * (FREEZE / u - FREEZE / x) * l = 9.09718 * FREEZE * l * v) by (rewrite DB; ring).
  assert (D2 : 0.876793 * (x / FREEZE - u / FREEZE) * l = 0.876793 / FREEZE * l * (x * x) * w) by (rewrite DX; unfold Rdiv; ring).
  lra.
Qed.
(** how much lower it is at [u] than at [x] *)
Lemma sat_grows u x m : 0 < u <= x -> 200 <= x <= 323.16 -> 0 <= m <= 6130 -> (FREEZE < x -> m <= 6790.3 - 5.02808 * x) ->
  sat u * (1 + m * ((x - u) / (x * x))) <= sat x.
Proof.
  intros U X M MW. assert (W0 : 0 <= (x - u) / (x * x)) by (apply Rmult_le_pos; [lra | left; apply Rinv_0_lt_compat; nra]).
  destruct (Rle_or_lt x FREEZE) as [A|A].
  - rewrite !sat_ice by lra. rewrite Rmult_assoc. apply Rmult_le_compat_l; [lra|]. apply exp_grows.
    apply Rle_trans with (6130 * ((x - u) / (x * x))); [apply Rmult_le_compat_r; lra|]. apply ice_grows; lra.
  - specialize (MW A). rewrite (sat_water x A). destruct (Rle_or_lt u FREEZE) as [B|B].
    + assert (S1 : sat u * (1 + m * ((FREEZE - u) / (x * x))) <= 610.71).
      { rewrite <- sat_freeze. apply Rle_trans with (sat u * (1 + 6130 * ((FREEZE - u) / (FREEZE * FREEZE)))).
        - apply Rmult_le_compat_l; [left; apply sat_pos|]. apply Rplus_le_compat_l. apply Rmult_le_compat; [lra | | lra |].
          + apply Rmult_le_pos; [lra | left; apply Rinv_0_lt_compat; nra].
          + unfold Rdiv. apply Rmult_le_compat_l; [lra|]. apply Rinv_le_contravar; unfold FREEZE in *; nra.
        - rewrite !sat_ice by lra. rewrite Rmult_assoc. apply Rmult_le_compat_l; [lra|]. apply exp_grows. apply ice_grows; unfold FREEZE in *; lra. }
      assert (S2 : satw FREEZE * (1 + m * ((x - FREEZE) / (x * x))) <= satw x) by (rewrite !satw_exp; apply exp_grows, water_grows; lra).
      pose proof freeze_step as FS.
      assert (E : (x - u) / (x * x) = (FREEZE - u) / (x * x) + (x - FREEZE) / (x * x)) by (field; lra). rewrite E. rewrite (Rmult_plus_distr_l m).
      assert (P1 : 0 <= m * ((FREEZE - u) / (x * x))) by (apply Rmult_le_pos; [lra|]; apply Rmult_le_pos; [lra | left; apply Rinv_0_lt_compat; nra]).
      assert (P2 : 0 <= m * ((x - FREEZE) / (x * x))) by (apply Rmult_le_pos; [lra|]; apply Rmult_le_pos; [lra | left; apply Rinv_0_lt_compat; nra]).
      set (p := m * ((FREEZE - u) / (x * x))) in *. set (q := m * ((x - FREEZE) / (x * x))) in *.
      pose proof (sat_pos u) as SU. apply Rle_trans with (2 := S2).
      apply Rle_trans with (610.71 * (1 + q)); [|apply Rmult_le_compat_r; lra].
      apply Rle_trans with (sat u * (1 + p) * (1 + q)); [|apply Rmult_le_compat_r; lra].
      assert (0 <= sat u * (p * q)) by (apply Rmult_le_pos; [lra | apply Rmult_le_pos; assumption]). lra.
    + rewrite (sat_water u B). rewrite !satw_exp. apply exp_grows, water_grows; lra.
Qed.

(** ** one step removes a part of what is left *)
Definition left_over (g : R) : R := g * (1 - / (1.17648 + 0.13 * g)).
Lemma left_over_mono a b : 0 <= a <= b -> left_over a <= left_over b.
Proof.
  intros H. unfold left_over. assert (A : 0 < / (1.17648 + 0.13 * a)) by (apply Rinv_0_lt_compat; lra).
  assert (I : / (1.17648 + 0.13 * b) <= / (1.17648 + 0.13 * a)) by (apply Rinv_le_contravar; lra).
  assert (J : / (1.17648 + 0.13 * a) < 1) by (rewrite <- Rinv_1; apply Rinv_lt_contravar; lra). apply Rmult_le_compat; lra.
Qed.
(** temperatures in kelvin: the air not below -30 degrees C, the dew point at most 20 degrees below it *)
Definition moderate (ta td : R) : Prop := 243.16 <= ta <= 323.16 /\ td <= ta <= td + 20.
Lemma latent_quotient ta td l x : moderate ta td -> latent_heat_is ta td l -> td <= x <= ta ->
  exists m, 0 < m <= 6130 /\ (FREEZE < x -> m <= 6790.3 - 5.02808 * x) /\ l / 461.5 <= 1.17647 * m /\ 0 < l / 461.5 <= 0.13 * (x * x).
Proof.
  intros (TA & TD) (L1 & L2 & L3) X. fold FREEZE in L1, L2, L3.
  assert (XX : 223.16 * 223.16 <= x * x) by nra.
  destruct (Rle_or_lt ta FREEZE) as [A|A].
  - specialize (L1 A). exists 6130. split; [lra|]. split; [lra|]. unfold vaporisation, fusion, FREEZE in *. split; lra.
  - destruct (Rle_or_lt td FREEZE) as [D|D].
    + specialize (L2 A D).
      assert (SH : 0 <= (273.16 - td) / (ta - td) <= 1).
      { split; [apply Rmult_le_pos; [unfold FREEZE in *; lra | left; apply Rinv_0_lt_compat; lra]|]. apply Rmult_le_reg_r with (ta - td); [lra|]. unfold Rdiv. rewrite Rmult_assoc, Rinv_l by lra. unfold FREEZE in *; lra. }
      assert (FU : 0 <= fusion ((273.16 + td) / 2) <= 333600 + 166.67 * (273.16 - td) / 2) by (unfold fusion, FREEZE in *; lra).
      assert (LL : 2426000 <= l <= 2866000). { rewrite L2. unfold vaporisation, FREEZE in *. set (s := (273.16 - td) / (ta - td)) in *. set (f := fusion ((273.16 + td) / 2)) in *.
        assert (0 <= s * f) by (apply Rmult_le_pos; [apply SH | apply FU]). assert (s * f <= 1 * f) by (apply Rmult_le_compat_r; [apply FU | apply SH]). lra. }
      exists 5300. unfold FREEZE in *. assert (X3 : x <= 293.16) by lra. assert (253 * 253 <= x * x) by nra. split; [lra|]. split; [intros _; lra|]. split; lra.
    + specialize (L3 A D). exists 5100. assert (LL : 2352000 <= l <= 2500000) by (rewrite L3; unfold vaporisation, FREEZE in *; lra).
      split; [lra|]. split; [intros _; lra|]. split; lra.
Qed.
Lemma step_removes ta td l y r x : moderate ta td -> latent_heat_is ta td l -> 0 < y -> td <= r < x -> x <= ta ->
  0 <= psychrometer y ta td r -> x - r <= 20 -> newton y l ta td x - r <= left_over (x - r).
Proof.
  intros MO LH Y R X F _. assert (MO' := MO). destruct MO' as (TA & TD).
  destruct (latent_quotient ta td l x MO LH ltac:(lra)) as (m & M & MW & K1 & K2).
  pose proof (sat_grows r x m ltac:(lra) ltac:(lra) ltac:(lra) MW) as G. rewrite !sat_is in G.
  assert (LP : 0 < l) by lra. pose proof (slope_gt y l Y LP x ltac:(lra)) as SG.
  unfold newton. unfold psychrometer in *. pose proof (saturation_pos x) as EX. pose proof (saturation_pos r) as ER.
  set (e := saturation x) in *. set (d := saturation r) in *. set (ea := saturation td) in *. set (s := slope y l x) in *.
  assert (SE : s = 1 + y * (e * (l / 461.5 / (x * x)))) by (unfold s, slope; fold e; field; lra).
  set (g := x - r) in *. assert (G0 : 0 < g) by (unfold g; lra).
  set (k := l / 461.5 / (x * x)) in *.
  assert (XX : 0 < x * x) by nra. assert (IX : 0 < / (x * x)) by (apply Rinv_0_lt_compat; exact XX).
  assert (KK : 0 < k <= 0.13). { unfold k. split; [apply Rdiv_lt_0_compat; lra|]. apply Rmult_le_reg_r with (x * x); [exact XX|]. unfold Rdiv at 1. rewrite Rmult_assoc, Rinv_l by lra. lra. }
  set (km := m / (x * x)). assert (KM : 0 < km) by (apply Rdiv_lt_0_compat; lra).
  assert (KQ : k <= 1.17647 * km) by (unfold k, km, Rdiv; nra).
  replace (m * (g / (x * x))) with (km * g) in G by (unfold km, Rdiv; ring).
  set (c := 1.17648 + 0.13 * g). assert (C : 1 < c) by (unfold c; lra).
  (* the drop of pressure *)
  assert (D : e * (k * g) <= (e - d) * c).
  { assert (H1 : d * (1 + km * g) <= e) by exact G. assert (KG : 0 < km * g) by (apply Rmult_lt_0_compat; lra).
    assert (H2 : k * g * (1 + km * g) <= km * g * c).
    { unfold c. replace (km * g * (1.17648 + 0.13 * g)) with (g * (1.17648 * km) + 0.13 * g * (km * g)) by ring. replace (k * g * (1 + km * g)) with (g * k + k * g * (km * g)) by ring.
      apply Rplus_le_compat; [apply Rmult_le_compat_l; lra|]. apply Rmult_le_compat_r; [lra|]. apply Rmult_le_compat_r; lra. }
    apply Rmult_le_reg_r with (1 + km * g); [lra|].
    apply Rle_trans with (e * (km * g * c)); [rewrite Rmult_assoc; apply Rmult_le_compat_l; lra|].
    replace ((e - d) * c * (1 + km * g)) with (c * (e * (1 + km * g) - d * (1 + km * g))) by ring.
    replace (e * (km * g * c)) with (c * (e * (km * g))) by ring. apply Rmult_le_compat_l; lra. }
  assert (N : g * s <= (x - ta + y * (e - ea)) * c).
  { rewrite SE. apply Rle_trans with ((g + y * (e - d)) * c).
    - assert (g <= g * c) by nra. assert (y * (e * (k * g)) <= y * ((e - d) * c)) by (apply Rmult_le_compat_l; lra). lra.
    - apply Rmult_le_compat_r; [lra|]. unfold g. lra. }
  unfold left_over. fold g. fold c.
  assert (Q : g * / c <= (x - ta + y * (e - ea)) / s).
  { apply Rmult_le_reg_r with (s * c); [apply Rmult_lt_0_compat; lra|].
    replace (g * / c * (s * c)) with (g * s) by (field; lra). replace ((x - ta + y * (e - ea)) / s * (s * c)) with ((x - ta + y * (e - ea)) * c) by (field; lra). exact N. }
  unfold g in *. lra.
Qed.

(** ** the iteration ends *)
Lemma falls ta td l y x : moderate ta td -> latent_heat_is ta td l -> 0 < y -> 0 < x <= ta -> newton y l ta td x < x ->
  0 < psychrometer y ta td x /\ td < x /\ 0 < newton y l ta td x.
Proof.
  intros MO LH Y X N. assert (MO' := MO). destruct MO' as (TA & TD).
  assert (LP : 2352000 <= l).
  { destruct (latent_quotient ta td l ta MO LH ltac:(lra)) as (m & M & MW & K1 & K2).
    destruct LH as (L1 & L2 & L3). destruct (Rle_or_lt ta 273.16) as [A|A]; [rewrite (L1 A); unfold vaporisation, fusion; lra|].
    destruct (Rle_or_lt td 273.16) as [D|D]; [rewrite (L2 A D) | rewrite (L3 A D)]; unfold vaporisation, fusion; [|lra].
    assert (0 <= (273.16 - td) / (ta - td)) by (apply Rmult_le_pos; [lra | left; apply Rinv_0_lt_compat; lra]). set (s := (273.16 - td) / (ta - td)) in *.
    assert (0 <= s * (3.336e5 + 166.67 * (273.16 - (273.16 + td) / 2))) by (apply Rmult_le_pos; lra). lra. }
  pose proof (slope_gt y l Y ltac:(lra) x ltac:(lra)) as SG.
  assert (P : 0 < psychrometer y ta td x).
  { unfold newton in N. apply Rmult_lt_reg_r with (/ slope y l x); [apply Rinv_0_lt_compat; lra|]. unfold Rdiv in N. lra. }
  split; [exact P|].
  assert (D : td < x).
  { destruct (Rlt_or_le td x) as [D|D]; [exact D|]. exfalso. unfold psychrometer in P. pose proof (saturation_le x td ltac:(lra) ltac:(lra)).
    assert (0 <= y * (saturation td - saturation x)) by (apply Rmult_le_pos; lra). lra. }
  split; [exact D|]. unfold newton. assert (Q : psychrometer y ta td x / slope y l x < 21); [|lra].
  apply Rmult_lt_reg_r with (slope y l x); [lra|]. unfold Rdiv. rewrite Rmult_assoc, Rinv_l by lra.
  unfold psychrometer, slope. pose proof (saturation_pos x) as E. pose proof (saturation_pos td) as ED. set (e := saturation x) in *. set (ea := saturation td) in *.
  assert (YE : 0 < y * e) by (apply Rmult_lt_0_compat; lra). assert (YD : 0 < y * ea) by (apply Rmult_lt_0_compat; lra).
  assert (X2 : 0 < x ^ 2 <= 323.16 * 323.16) by nra.
  assert (K : 1 <= 21 * (l / (461.5 * x ^ 2))).
  { apply Rmult_le_reg_r with (461.5 * x ^ 2); [lra|]. unfold Rdiv. rewrite Rmult_assoc, Rmult_assoc, Rinv_l by lra. lra. }
  replace (l * e / (461.5 * x ^ 2)) with (e * (l / (461.5 * x ^ 2))) by (unfold Rdiv; ring).
  set (k := l / (461.5 * x ^ 2)) in *. replace (21 * (1 + y * (e * k))) with (21 + y * e * (21 * k)) by ring.
  assert (y * e * 1 <= y * e * (21 * k)) by (apply Rmult_le_compat_l; lra). lra.
Qed.
Section Ends.
Variables ta td l y tol : R.
Hypotheses (MO : moderate ta td) (LH : latent_heat_is ta td l) (Y : 0 < y) (TOL : 0.01 <= tol).
Local Notation it := (iterate ta td y l).
Lemma path_positive k : (forall j, (j < k)%nat -> tol < it j - it (S j)) ->
  0 < it k <= ta /\ (forall j, (j < k)%nat -> 0 < psychrometer y ta td (it j) /\ td < it j /\ it k < it j <= ta).
Proof.
  induction k as [|k IH]; intros H.
  - cbn [iterate]. destruct MO as (TA & TD). split; [lra | intros j J; lia].
  - destruct IH as (P & Q); [intros j J; apply H; lia|]. specialize (H k ltac:(lia)). cbn [iterate] in H |- *.
    destruct (falls ta td l y (it k) MO LH Y P ltac:(lra)) as (F & D & N).
    split; [lra|]. intros j J. destruct (Nat.eq_dec j k) as [->|NE]; [repeat split; lra|]. destruct (Q j ltac:(lia)) as (A & B & C & C'). repeat split; lra.
Qed.
Fixpoint left_after (k : nat) : R := match k with O => 20 | S k => left_over (left_after k) end.
Lemma left_over_table a b : 0 <= a -> a * (1.17648 + 0.13 * a - 1) <= b * (1.17648 + 0.13 * a) -> left_over a <= b.
Proof.
  intros A H. unfold left_over. set (c := 1.17648 + 0.13 * a) in *. assert (C : 0 < c) by (unfold c; lra).
  replace (a * (1 - / c)) with (a * (c - 1) * / c) by (field; lra). apply Rmult_le_reg_r with c; [exact C|]. rewrite Rmult_assoc, Rinv_l by lra. lra.
Qed.
Lemma left_over_le a b c : 0 <= a <= b -> b * (1.17648 + 0.13 * b - 1) <= c * (1.17648 + 0.13 * b) -> left_over a <= c.
Proof. intros A H. apply Rle_trans with (left_over b); [apply left_over_mono; exact A | apply left_over_table; lra]. Qed.
Lemma left_over_pos a : 0 <= a -> 0 <= left_over a.
Proof.
  intros A. unfold left_over. apply Rmult_le_pos; [exact A|]. assert (/ (1.17648 + 0.13 * a) <= / 1) by (apply Rinv_le_contravar; lra). rewrite Rinv_1 in *. lra.
Qed.
Lemma ten_steps : ~ (forall j, (j < 10)%nat -> tol < it j - it (S j)).
Proof.
  intros H. destruct (path_positive 10 H) as (_ & Q). assert (H9 := H). destruct (path_positive 9) as (P9 & Q9); [intros j J; apply H; lia|].
  destruct (Q 9%nat ltac:(lia)) as (F9 & D9 & _). set (r := it 9) in *.
  assert (ST : forall k, (k < 8)%nat -> it (S k) - r <= left_over (it k - r)).
  { intros k K. destruct (Q9 k ltac:(lia)) as (F & D & LT). cbn [iterate]. apply step_removes; [exact MO | exact LH | exact Y | lra | lra | lra |]. destruct MO; lra. }
  assert (PS : forall k, (k < 9)%nat -> 0 <= it k - r) by (intros k K; destruct (Q9 k K) as (_ & _ & LT); lra).
  assert (B0 : it 0 - r <= 20) by (cbn [iterate]; destruct MO; lra).
  assert (NX : forall k b c, (k < 8)%nat -> it k - r <= b -> b * (1.17648 + 0.13 * b - 1) <= c * (1.17648 + 0.13 * b) -> it (S k) - r <= c).
  { intros k b c K B C. apply Rle_trans with (1 := ST k K). apply left_over_le with b; [split; [apply PS; lia | exact B] | exact C]. }
  assert (B1 : it 1 - r <= 14.71) by (apply (NX 0%nat 20); [lia | exact B0 | lra]).
  assert (B2 : it 2 - r <= 9.95) by (apply (NX 1%nat 14.71); [lia | exact B1 | lra]).
  assert (B3 : it 3 - r <= 5.93) by (apply (NX 2%nat 9.95); [lia | exact B2 | lra]).
  assert (B4 : it 4 - r <= 2.89) by (apply (NX 3%nat 5.93); [lia | exact B3 | lra]).
  assert (B5 : it 5 - r <= 1.03) by (apply (NX 4%nat 2.89); [lia | exact B4 | lra]).
  assert (B6 : it 6 - r <= 0.25) by (apply (NX 5%nat 1.03); [lia | exact B5 | lra]).
  assert (B7 : it 7 - r <= 0.045) by (apply (NX 6%nat 0.25); [lia | exact B6 | lra]).
  assert (B8 : it 8 - r <= 0.0085) by (apply (NX 7%nat 0.045); [lia | exact B7 | lra]).
  specialize (H 8%nat ltac:(lia)). unfold r in B8. lra.
Qed.
End Ends.
Lemma first_below (f : nat -> R) tol n : ~ (forall j, (j < n)%nat -> tol < f j) -> exists m, (m < n)%nat /\ f m <= tol /\ forall j, (j < m)%nat -> tol < f j.
Proof.
  induction n as [|n IH]; intros H; [exfalso; apply H; intros j J; lia|].
  destruct (Rlt_or_le tol (f n)) as [A|A].
  - destruct IH as (m & M & B & C); [|exists m; split; [lia | auto]]. intros K. apply H. intros j J. destruct (Nat.eq_dec j n) as [->|]; [exact A | apply K; lia].
  - destruct (Rlt_or_le tol (f n)); [lra|]. assert (D : (forall j, (j < n)%nat -> tol < f j) \/ ~ (forall j, (j < n)%nat -> tol < f j)).
    { clear. induction n as [|n [IH|IH]]; [left; intros j J; lia | | right; intros K; apply IH; intros j J; apply K; lia].
      destruct (Rlt_or_le tol (f n)) as [A|A]; [left | right]; [intros j J; destruct (Nat.eq_dec j n) as [->|]; [exact A | apply IH; lia] | intros K; specialize (K n ltac:(lia)); lra]. }
    destruct D as [D|D]; [exists n; auto|]. destruct (IH D) as (m & M & B & C). exists m. split; [lia | auto].
Qed.
