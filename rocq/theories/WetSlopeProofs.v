(** The slope of saturation vapour pressure, and where the iterates of the wet bulb temperature lie. *)
From Coq Require Import Reals ZArith List Bool Lra Lia.
From Verif Require Import RNum WinsModel SolarProofs ExpBounds WetNum SatModel SatSpec SatProofs DewModel DewSpec WetProofs.
Import ListNotations.
Local Open Scope R_scope.

(** ** a tangent below an exponential *)
Lemma square_ratio t u : 0 < u <= t -> t * t = u * u * ((1 + (t - u) / u) * (1 + (t - u) / u)).
Proof. intros H. field. lra. Qed.
Lemma tangent (E dE V : R -> R) (a t : R) : 0 < a < t ->
  (forall u, a <= u <= t -> derivable_pt_lim E u (dE u)) ->
  (forall u, a <= u <= t -> dE u <= V u / (u * u)) ->
  (forall u, a <= u <= t -> 0 < V u /\ V u <= V t * (1 + (t - u) / u)) ->
  (forall u, a <= u <= t -> 3 * ((t - u) / u) <= E t - E u) ->
  exp (E t) - exp (E a) <= (t - a) * (exp (E t) * V t / (t * t)).
Proof.
  intros A D B M G.
  destruct (MVT_cor2 (fun u => exp (E u)) (fun u => exp (E u) * dE u) a t ltac:(lra)) as (u & EQ & U).
  { intros c C. apply (derivable_pt_lim_comp E exp c (dE c) (exp (E c))); [apply D; exact C | apply derivable_pt_lim_exp]. }
  rewrite EQ, Rmult_comm. apply Rmult_le_compat_l; [lra|].
  assert (UU : a <= u <= t) by lra. specialize (B u UU). destruct (M u UU) as [V0 V1]. specialize (G u UU).
  set (s := (t - u) / u) in *. assert (S0 : 0 <= s) by (apply Rmult_le_pos; [lra | left; apply Rinv_0_lt_compat; lra]).
  assert (SQ : t * t = u * u * ((1 + s) * (1 + s))) by (apply square_ratio; lra).
  pose proof (exp_pos (E u)) as PU. pose proof (exp_pos (E t)) as PT.
  assert (X : exp (E u) * ((1 + s) * (1 + s) * (1 + s)) <= exp (E t)).
  { replace (E t) with (E u + (E t - E u)) by ring. rewrite exp_plus. apply Rmult_le_compat_l; [lra|].
    apply Rle_trans with (exp (s + s + s)); [|destruct (Req_dec (s + s + s) (E t - E u)) as [->|]; [lra | left; apply exp_increasing; lra]].
    rewrite !exp_plus. pose proof (exp_ineq1_le s) as I. assert (0 <= 1 + s) by lra.
    apply Rmult_le_compat; [nra | lra | | lra]. apply Rmult_le_compat; lra. }
  assert (VT : 0 < V t) by (assert (0 < 1 + s) by lra; nra).
  apply Rle_trans with (exp (E u) * (V u / (u * u))); [apply Rmult_le_compat_l; lra|].
  assert (U2 : 0 < / (u * u)) by (apply Rinv_0_lt_compat; nra).
  apply Rle_trans with (exp (E u) * (V t * (1 + s) / (u * u))).
  { apply Rmult_le_compat_l; [lra|]. unfold Rdiv. apply Rmult_le_compat_r; lra. }
  rewrite SQ. assert (W : 0 < (1 + s) * (1 + s)) by nra.
  replace (exp (E t) * V t / (u * u * ((1 + s) * (1 + s)))) with (exp (E t) * (V t * / (u * u) * / ((1 + s) * (1 + s)))).
  2:{ unfold Rdiv. rewrite (Rinv_mult (u * u)). ring. }
  replace (exp (E u) * (V t * (1 + s) / (u * u))) with (exp (E u) * ((1 + s) * (1 + s) * (1 + s)) * (V t * / (u * u) * / ((1 + s) * (1 + s)))).
  2:{ field. split; [|lra]. lra. }
  apply Rmult_le_compat_r; [|exact X]. left. apply Rmult_lt_0_compat; [|apply Rinv_0_lt_compat; exact W]. apply Rmult_lt_0_compat; assumption.
Qed.
(** ... and its quotient by the square of the temperature increases *)
Lemma quotient_increases (E : R -> R) u t : 0 < u <= t -> 3 * ((t - u) / u) <= E t - E u -> exp (E u) / (u * u) <= exp (E t) / (t * t).
Proof.
  intros H G. set (s := (t - u) / u) in *. assert (S0 : 0 <= s) by (apply Rmult_le_pos; [lra | left; apply Rinv_0_lt_compat; lra]).
  assert (SQ : t * t = u * u * ((1 + s) * (1 + s))) by (apply square_ratio; lra).
  rewrite SQ. assert (W : 0 < (1 + s) * (1 + s)) by nra. assert (U2 : 0 < / (u * u)) by (apply Rinv_0_lt_compat; nra).
  pose proof (exp_pos (E u)) as PU.
  assert (X : exp (E u) * ((1 + s) * (1 + s)) <= exp (E t)).
  { replace (E t) with (E u + (E t - E u)) by ring. rewrite exp_plus. apply Rmult_le_compat_l; [lra|].
    apply Rle_trans with (exp (s + s)); [|destruct (Req_dec (s + s) (E t - E u)) as [->|]; [lra | left; apply exp_increasing; lra]].
    rewrite !exp_plus. pose proof (exp_ineq1_le s) as I. apply Rmult_le_compat; lra. }
  replace (exp (E u) / (u * u)) with (exp (E u) * ((1 + s) * (1 + s)) * (/ (u * u) * / ((1 + s) * (1 + s)))) by (field; split; lra).
  replace (exp (E t) / (u * u * ((1 + s) * (1 + s)))) with (exp (E t) * (/ (u * u) * / ((1 + s) * (1 + s)))) by (unfold Rdiv; rewrite (Rinv_mult (u * u)); ring).
  apply Rmult_le_compat_r; [|exact X]. left. apply Rmult_lt_0_compat; [exact U2 | apply Rinv_0_lt_compat; exact W].
Qed.

(** ** derivatives *)
Lemma d_ext (f g : R -> R) u a : (forall x, f x = g x) -> derivable_pt_lim f u a -> derivable_pt_lim g u a.
Proof. intros H D e E. destruct (D e E) as [d K]. exists d. intros h. rewrite <- !H. apply K. Qed.
Lemma d_plus f g u a b : derivable_pt_lim f u a -> derivable_pt_lim g u b -> derivable_pt_lim (fun x => f x + g x) u (a + b).
Proof. exact (derivable_pt_lim_plus f g u a b). Qed.
Lemma d_scal c f u a : derivable_pt_lim f u a -> derivable_pt_lim (fun x => c * f x) u (c * a).
Proof. exact (derivable_pt_lim_scal f c u a). Qed.
Lemma d_const c u : derivable_pt_lim (fun _ => c) u 0.
Proof. exact (derivable_pt_lim_const c u). Qed.
Lemma d_id u : derivable_pt_lim (fun x => x) u 1.
Proof. exact (derivable_pt_lim_id u). Qed.
Lemma d_exp f u a : derivable_pt_lim f u a -> derivable_pt_lim (fun x => exp (f x)) u (exp (f u) * a).
Proof. intros D. exact (derivable_pt_lim_comp f exp u a (exp (f u)) D (derivable_pt_lim_exp (f u))). Qed.
Lemma d_ln f u a : 0 < f u -> derivable_pt_lim f u a -> derivable_pt_lim (fun x => ln (f x)) u (/ f u * a).
Proof. intros P D. exact (derivable_pt_lim_comp f ln u a (/ f u) D (derivable_pt_lim_ln (f u) P)). Qed.
Lemma d_quot c u : 0 < u -> derivable_pt_lim (fun x => c / x) u (- c / (u * u)).
Proof.
  intros H. pose proof (derivable_pt_lim_div (fun _ => c) (fun x => x) u 0 1 (d_const c u) (d_id u)) as D.
  replace (- c / (u * u)) with ((0 * u - 1 * c) / Rsqr u) by (unfold Rsqr; field; lra). apply D. lra.
Qed.

(** ** water *)
Definition dwexp (u : R) : R :=
  7.90298 * BOIL * ln 10 / (u * u) - 5.02808 / u +
  0.00000013816 * (11.344 / BOIL * ln 10) * exp (11.344 * (1 - u / BOIL) * ln 10) * ln 10 +
  0.0081328 * (3.49149 * BOIL * ln 10 / (u * u)) * exp (-3.49149 * (BOIL / u - 1) * ln 10) * ln 10.
Lemma d_wexp u : 0 < u -> derivable_pt_lim wexp u (dwexp u).
Proof.
  intros U. set (l := ln 10).
  assert (Q : derivable_pt_lim (fun x => BOIL / x) u (- BOIL / (u * u))) by (apply d_quot; exact U).
  assert (A : derivable_pt_lim (fun x => exp (11.344 * l + (- 11.344 / BOIL * l) * x)) u (exp (11.344 * l + (- 11.344 / BOIL * l) * u) * (0 + (- 11.344 / BOIL * l) * 1))).
  { exact (d_exp _ _ _ (d_plus _ _ _ _ _ (d_const (11.344 * l) u) (d_scal (- 11.344 / BOIL * l) _ _ _ (d_id u)))). }
  assert (C : derivable_pt_lim (fun x => exp (3.49149 * l + (- 3.49149 * l) * (BOIL / x))) u (exp (3.49149 * l + (- 3.49149 * l) * (BOIL / u)) * (0 + (- 3.49149 * l) * (- BOIL / (u * u))))).
  { exact (d_exp _ _ _ (d_plus _ _ _ _ _ (d_const (3.49149 * l) u) (d_scal (- 3.49149 * l) _ _ _ Q))). }
  assert (EA : forall x, 11.344 * (1 - x / BOIL) * l = 11.344 * l + (- 11.344 / BOIL * l) * x) by (intros x; unfold BOIL; lra).
  assert (EC : forall x, -3.49149 * (BOIL / x - 1) * l = 3.49149 * l + (- 3.49149 * l) * (BOIL / x)) by (intros x; set (r := BOIL / x); lra).
  assert (N : derivable_pt_lim (fun x => ln (BOIL / x)) u (/ (BOIL / u) * (- BOIL / (u * u)))).
  { apply (d_ln (fun x => BOIL / x)); [apply Rdiv_lt_0_compat; [unfold BOIL|]; lra | exact Q]. }
  pose proof (d_plus _ _ _ _ _ (d_plus _ _ _ _ _ (d_scal (-7.90298 * l) _ _ _ Q) (d_scal 5.02808 _ _ _ N))
               (d_plus _ _ _ _ _ (d_plus _ _ _ _ _ (d_scal (- 0.00000013816 * l) _ _ _ A) (d_scal (0.0081328 * l) _ _ _ C))
                  (d_const (7.90298 * l + 0.00000013816 * l - 0.0081328 * l + ln SEA_LEVEL) u))) as D.
  cbv beta in D.
  match type of D with derivable_pt_lim ?f _ ?d => assert (E : d = dwexp u); [|rewrite <- E; apply (d_ext f); [|exact D]] end.
  - unfold dwexp. fold l. rewrite (EA u), (EC u). set (x := exp _). set (y := exp _).
    replace (/ (BOIL / u) * (- BOIL / (u * u))) with (- / u) by (field; unfold BOIL; lra).
    replace (- BOIL / (u * u)) with (- (BOIL * (/ u * / u))) by (field; lra).
    replace (7.90298 * BOIL * l / (u * u)) with (7.90298 * BOIL * l * (/ u * / u)) by (unfold Rdiv; rewrite Rinv_mult; ring).
    replace (3.49149 * BOIL * l / (u * u)) with (3.49149 * BOIL * l * (/ u * / u)) by (unfold Rdiv; rewrite Rinv_mult; ring).
    replace (5.02808 / u) with (5.02808 * / u) by reflexivity. set (a := / u). unfold BOIL. lra.
  - intros x. unfold wexp. fold l. rewrite (EA x), (EC x). set (v := exp _). set (w := exp _). set (z := ln _). set (r := BOIL / x). set (k := ln SEA_LEVEL). lra.
Qed.
Definition VW (u : R) : R := 6809.2 - 5.02808 * u.
(** in the range of temperatures of liquid water at the surface *)
Definition liquid (u : R) : Prop := FREEZE <= u <= 323.16.
Lemma y_at u v c k : 0 < u <= v -> 3.49149 * (BOIL / v - 1) * 2.302583 >= c -> BOIL / v >= 1 -> k <= exp c -> 0 < k -> exp (-3.49149 * (BOIL / u - 1) * ln 10) <= / k.
Proof.
  intros U C B K P. pose proof ln10_bounds as LB.
  assert (Q : BOIL / v <= BOIL / u). { unfold Rdiv. apply Rmult_le_compat_l; [unfold BOIL; lra|]. apply Rinv_le_contravar; lra. }
  apply Rle_trans with (exp (- c)).
  - apply exp_le. assert ((BOIL / v - 1) * 2.302583 <= (BOIL / u - 1) * ln 10) by (apply Rmult_le_compat; lra). lra.
  - rewrite exp_Ropp. apply Rinv_le_contravar; assumption.
Qed.
Lemma x_at u : FREEZE <= u -> exp (11.344 * (1 - u / BOIL) * ln 10) <= 1097.
Proof.
  intros U. pose proof ln10_bounds as LB. apply Rle_trans with (exp 7.0); [|exact exp_7]. apply exp_le.
  assert (0.732 <= u / BOIL) by (unfold FREEZE, BOIL in *; lra).
  destruct (Rle_or_lt (1 - u / BOIL) 0); [nra|]. apply Rle_trans with (11.344 * (1 - FREEZE / BOIL) * ln 10).
  - apply Rmult_le_compat_r; [lra|]. unfold FREEZE, BOIL in *. lra.
  - unfold FREEZE, BOIL. lra.
Qed.
Lemma dwexp_bound u : liquid u -> dwexp u <= VW u / (u * u).
Proof.
  unfold liquid. intros U. pose proof ln10_bounds as LB.
  assert (U0 : 0 < u) by (unfold FREEZE in U; lra).
  pose proof (x_at u ltac:(lra)) as X. pose proof (exp_pos (11.344 * (1 - u / BOIL) * ln 10)) as X0.
  assert (Y : exp (-3.49149 * (BOIL / u - 1) * ln 10) <= / 3.467) by (apply (y_at u 323.16 1.24363); [lra | unfold BOIL; lra | unfold BOIL; lra | exact exp_y323 | lra]).
  pose proof (exp_pos (-3.49149 * (BOIL / u - 1) * ln 10)) as Y0.
  unfold dwexp, VW. set (x := exp (11.344 * (1 - u / BOIL) * ln 10)) in *. set (y := exp (-3.49149 * (BOIL / u - 1) * ln 10)) in *. set (l := ln 10) in *.
  apply Rmult_le_reg_r with (u * u); [nra|].
  replace ((6809.2 - 5.02808 * u) / (u * u) * (u * u)) with (6809.2 - 5.02808 * u) by (field; lra).
  replace ((7.90298 * BOIL * l / (u * u) - 5.02808 / u + 0.00000013816 * (11.344 / BOIL * l) * x * l + 0.0081328 * (3.49149 * BOIL * l / (u * u)) * y * l) * (u * u))
    with (7.90298 * BOIL * l - 5.02808 * u + 0.00000013816 * 11.344 / BOIL * ((l * l) * (x * (u * u))) + 0.0081328 * 3.49149 * BOIL * ((l * l) * y)) by (field; unfold BOIL; lra).
  assert (LL : 0 < l * l <= 5.301907) by nra.
  assert (UU : 0 < u * u <= 323.16 * 323.16) by nra.
  assert (XU : 0 < x * (u * u) <= 1097 * (323.16 * 323.16)) by (split; [apply Rmult_lt_0_compat; lra | apply Rmult_le_compat; lra]).
  assert (A : (l * l) * (x * (u * u)) <= 5.301907 * (1097 * (323.16 * 323.16))) by (apply Rmult_le_compat; lra).
  assert (C : (l * l) * y <= 5.301907 * / 3.467) by (apply Rmult_le_compat; lra).
  unfold BOIL. lra.
Qed.
Lemma wexp_gap u t : FREEZE <= u <= t -> t <= 323.16 -> 15 * ((t - u) / u) <= wexp t - wexp u.
Proof.
  intros T U. pose proof ln10_bounds as LB. unfold wexp. set (l := ln 10) in *. assert (U0 : 0 < u) by (unfold FREEZE in T; lra).
  rewrite !ln_quot by (unfold BOIL; lra). destruct (ln_sub_le u t ltac:(lra)) as [_ LN].
  assert (P : 0 < / u) by (apply Rinv_0_lt_compat; lra). assert (P' : 0 < / t) by (apply Rinv_0_lt_compat; lra).
  assert (Q : / t <= / u) by (apply Rinv_le_contravar; lra).
  assert (B : BOIL / t <= BOIL / u) by (unfold Rdiv; apply Rmult_le_compat_l; [unfold BOIL; lra | exact Q]).
  assert (E1 : exp (11.344 * (1 - t / BOIL) * l) <= exp (11.344 * (1 - u / BOIL) * l)).
  { apply exp_le. apply Rmult_le_compat_r; [lra|]. unfold Rdiv, BOIL. nra. }
  assert (E2 : exp (-3.49149 * (BOIL / u - 1) * l) <= exp (-3.49149 * (BOIL / t - 1) * l)) by (apply exp_le; apply Rmult_le_compat_r; lra).
  set (x := exp (11.344 * (1 - u / BOIL) * l)) in *. set (x' := exp (11.344 * (1 - t / BOIL) * l)) in *.
  set (y := exp (-3.49149 * (BOIL / u - 1) * l)) in *. set (y' := exp (-3.49149 * (BOIL / t - 1) * l)) in *.
  assert (DB : BOIL / u - BOIL / t = (t - u) / u * (BOIL * / t)) by (unfold Rdiv; field; lra).
  set (w := (t - u) / u) in *. assert (W : 0 <= w) by (apply Rmult_le_pos; lra).
  assert (M : 20.5 * w <= 7.90298 * (BOIL / u - BOIL / t) * l).
  { rewrite DB.
    assert (K : 373.15 / 323.16 <= BOIL * / t) by (unfold BOIL, Rdiv; apply Rmult_le_compat_l; [lra|]; apply Rinv_le_contravar; lra).
    set (k := BOIL * / t) in *. assert (20.5 <= 7.90298 * k * l) by nra. nra. }
  assert (0 <= (x - x') * l) by (apply Rmult_le_pos; lra). assert (0 <= (y' - y) * l) by (apply Rmult_le_pos; lra). lra.
Qed.
Lemma water_tangent a t : FREEZE <= a < t -> t <= 323.16 -> satw t - satw a <= (t - a) * (satw t * VW t / (t * t)).
Proof.
  intros A T. rewrite !satw_exp. assert (A0 : 0 < a) by (unfold FREEZE in A; lra).
  apply (tangent wexp dwexp VW a t); [lra | | | |]; intros u U; assert (U0 : 0 < u) by lra.
  - apply d_wexp. exact U0.
  - apply dwexp_bound. unfold liquid. lra.
  - unfold VW. split; [lra|]. assert (S0 : 0 <= (t - u) / u) by (apply Rmult_le_pos; [lra | left; apply Rinv_0_lt_compat; lra]).
    assert (E : t - u = (t - u) / u * u) by (field; lra). set (s := (t - u) / u) in *. nra.
  - assert (S0 : 0 <= (t - u) / u) by (apply Rmult_le_pos; [lra | left; apply Rinv_0_lt_compat; lra]).
    pose proof (wexp_gap u t ltac:(lra) T). lra.
Qed.
Lemma water_quotient u t : FREEZE <= u <= t -> t <= 323.16 -> satw u / (u * u) <= satw t / (t * t).
Proof.
  intros A T. rewrite !satw_exp. assert (A0 : 0 < u) by (unfold FREEZE in A; lra). apply quotient_increases; [lra|].
  assert (S0 : 0 <= (t - u) / u) by (apply Rmult_le_pos; [lra | left; apply Rinv_0_lt_compat; lra]).
  pose proof (wexp_gap u t ltac:(lra) T). lra.
Qed.

(** values *)
Lemma ln_upper x y : 0 < y -> y <= exp x -> ln y <= x.
Proof. intros Y H. rewrite <- (ln_exp x). destruct (Req_dec y (exp x)) as [->|]; [lra|]. left. apply ln_increasing; lra. Qed.
Lemma water_value t b cb c k p kp : 0 < t <= BOIL -> BOIL / t <= b -> b <= exp cb ->
  3.49149 * (BOIL / t - 1) * 2.302583 >= c -> k <= exp c -> 0 < k ->
  -7.90298 * (BOIL / t - 1) * 2.302583 + 5.02808 * cb + 0.0081328 * (/ k - 1) * 2.302583 <= - p -> 1 < k -> kp <= exp p -> 0 < kp -> satw t <= SEA_LEVEL / kp.
Proof.
  intros T B CB C K K0 W K1 KP KP0. pose proof ln10_bounds as LB. rewrite satw_exp.
  assert (B1 : 1 <= BOIL / t) by (apply Rmult_le_reg_r with t; [lra|]; unfold Rdiv; rewrite Rmult_assoc, Rinv_l by lra; lra).
  assert (LN : ln (BOIL / t) <= cb) by (apply ln_upper; lra).
  assert (Y : exp (-3.49149 * (BOIL / t - 1) * ln 10) <= / k) by (apply (y_at t t c); [lra | exact C | lra | exact K | exact K0]).
  assert (X : 1 <= exp (11.344 * (1 - t / BOIL) * ln 10)).
  { apply Rle_trans with (exp 0); [rewrite exp_0; lra|]. apply exp_le. apply Rmult_le_pos; [|lra]. apply Rmult_le_pos; [lra|]. assert (t / BOIL <= 1) by (clear - T; unfold BOIL in *; lra). lra. }
  assert (IK : / k < 1) by (rewrite <- Rinv_1; apply Rinv_lt_contravar; lra).
  apply Rle_trans with (exp (- p + ln SEA_LEVEL)).
  - apply exp_le. unfold wexp. set (x := exp (11.344 * (1 - t / BOIL) * ln 10)) in *. set (y := exp (-3.49149 * (BOIL / t - 1) * ln 10)) in *. set (l := ln 10) in *.
    assert (0 <= (x - 1) * l) by (apply Rmult_le_pos; lra).
    assert ((BOIL / t - 1) * 2.302583 <= (BOIL / t - 1) * l) by (apply Rmult_le_compat_l; lra).
    assert ((1 - / k) * 2.302583 <= (1 - y) * l) by (apply Rmult_le_compat; lra). lra.
  - rewrite exp_plus, exp_ln by (unfold SEA_LEVEL; lra). rewrite exp_Ropp, Rmult_comm. unfold Rdiv. apply Rmult_le_compat_l; [unfold SEA_LEVEL; lra|].
    apply Rinv_le_contravar; assumption.
Qed.
Lemma water_300 : satw 300 <= 3540.
Proof.
  apply Rle_trans with (SEA_LEVEL / 28.63); [|unfold SEA_LEVEL; lra].
  apply (water_value 300 1.243834 0.218202 1.96028 7.09 3.3559 28.63); unfold BOIL; try lra; [exact ln_boil_300 | exact exp_y300 | exact exp_p300].
Qed.
Lemma water_312 : satw 312 <= 6945.
Proof.
  apply Rle_trans with (SEA_LEVEL / 14.59); [|unfold SEA_LEVEL; lra].
  apply (water_value 312 1.195994 0.178982 1.57567 4.83 2.6813 14.59); unfold BOIL; try lra; [exact ln_boil_312 | exact exp_y312 | exact exp_p312].
Qed.
Lemma water_323 : satw 323.16 <= 12357.
Proof.
  apply Rle_trans with (SEA_LEVEL / 8.2); [|unfold SEA_LEVEL; lra].
  apply (water_value 323.16 1.154692 0.143838 1.24363 3.467 2.1049 8.2); unfold BOIL; try lra; [exact ln_boil_323 | exact exp_y323 | exact exp_p323].
Qed.
Lemma water_freeze_high : satw FREEZE <= 611.2.
Proof.
  rewrite satw_exp. apply Rle_trans with (exp (- (5.1107) + ln SEA_LEVEL)).
  - apply exp_le. unfold wexp. pose proof ln10_bounds as LB.
    assert (LN : ln (BOIL / FREEZE) <= 0.311926) by (apply ln_upper; [unfold BOIL, FREEZE; lra|]; apply Rle_trans with (2 := ln_boil_273); unfold BOIL, FREEZE; lra).
    assert (Y : exp (-3.49149 * (BOIL / FREEZE - 1) * ln 10) <= / 18.9) by (apply (y_at FREEZE FREEZE 2.94283); [unfold FREEZE; lra | unfold BOIL, FREEZE; lra | unfold BOIL, FREEZE; lra | exact exp_y273_low | lra]).
    assert (X : 1095 <= exp (11.344 * (1 - FREEZE / BOIL) * ln 10)) by (apply Rle_trans with (1 := exp_x273); apply exp_le; unfold FREEZE, BOIL; lra).
    set (x := exp (11.344 * (1 - FREEZE / BOIL) * ln 10)) in *. set (y := exp (-3.49149 * (BOIL / FREEZE - 1) * ln 10)) in *. set (l := ln 10) in *.
    assert (E : 1.366049201 <= BOIL / FREEZE <= 1.366049202) by (unfold FREEZE, BOIL; lra). set (q := BOIL / FREEZE) in *.
    assert (1094 * 2.302583 <= (x - 1) * l) by (apply Rmult_le_compat; lra).
    assert (0.366049201 * 2.302583 <= (q - 1) * l) by (apply Rmult_le_compat; lra).
    assert ((1 - / 18.9) * 2.302583 <= (1 - y) * l) by (apply Rmult_le_compat; lra). lra.
  - rewrite exp_plus, exp_ln by (unfold SEA_LEVEL; lra). rewrite exp_Ropp. pose proof exp_p273_low as P.
    apply Rle_trans with (/ 165.78 * SEA_LEVEL); [|unfold SEA_LEVEL; lra]. apply Rmult_le_compat_r; [unfold SEA_LEVEL; lra|]. apply Rinv_le_contravar; lra.
Qed.
Lemma water_freeze_low : 611 <= satw FREEZE.
Proof.
  rewrite satw_exp. apply Rle_trans with (exp (- (5.11092) + ln SEA_LEVEL)).
  - rewrite exp_plus, exp_ln by (unfold SEA_LEVEL; lra). rewrite exp_Ropp. pose proof exp_p273_high as P.
    apply Rle_trans with (/ 165.83 * SEA_LEVEL); [unfold SEA_LEVEL; lra|]. apply Rmult_le_compat_r; [unfold SEA_LEVEL; lra|]. apply Rinv_le_contravar; [apply exp_pos | lra].
  - apply exp_le. unfold wexp. pose proof ln10_bounds as LB.
    assert (LN : 0.311919 <= ln (BOIL / FREEZE)) by (apply ln_lower; apply Rle_trans with (1 := exp_boil_freeze); unfold BOIL, FREEZE; lra).
    pose proof (x_at FREEZE ltac:(lra)) as X.
    assert (Y : / 19 <= exp (-3.49149 * (BOIL / FREEZE - 1) * ln 10)).
    { apply Rle_trans with (exp (- (2.94285))).
      - rewrite exp_Ropp. apply Rinv_le_contravar; [apply exp_pos | exact exp_y273_high].
      - apply exp_le. unfold FREEZE, BOIL. lra. }
    set (x := exp (11.344 * (1 - FREEZE / BOIL) * ln 10)) in *. set (y := exp (-3.49149 * (BOIL / FREEZE - 1) * ln 10)) in *. set (l := ln 10) in *.
    assert (E : 1.366049201 <= BOIL / FREEZE <= 1.366049202) by (unfold FREEZE, BOIL; lra). set (q := BOIL / FREEZE) in *.
    assert ((x - 1) * l <= 1096 * 2.302587) by (apply Rle_trans with (1096 * l); [apply Rmult_le_compat_r|]; lra).
    assert ((q - 1) * l <= 0.366049202 * 2.302587) by (apply Rmult_le_compat; lra).
    assert ((1 - y) * l <= (1 - / 19) * 2.302587) by (apply Rle_trans with ((1 - / 19) * l); [apply Rmult_le_compat_r|]; lra). lra.
Qed.

(** ** ice *)
Definition diexp (u : R) : R := (9.09718 * FREEZE * ln 10 + 3.56654 * u - 0.876793 * ln 10 * (u * u) / FREEZE) / (u * u).
Lemma d_iexp u : 0 < u -> derivable_pt_lim iexp u (diexp u).
Proof.
  intros U. set (l := ln 10).
  assert (Q : derivable_pt_lim (fun x => FREEZE / x) u (- FREEZE / (u * u))) by (apply d_quot; exact U).
  assert (N : derivable_pt_lim (fun x => ln (FREEZE / x)) u (/ (FREEZE / u) * (- FREEZE / (u * u)))).
  { apply (d_ln (fun x => FREEZE / x)); [apply Rdiv_lt_0_compat; [unfold FREEZE|]; lra | exact Q]. }
  pose proof (d_plus _ _ _ _ _ (d_plus _ _ _ _ _ (d_scal (-9.09718 * l) _ _ _ Q) (d_scal (- 3.56654) _ _ _ N))
               (d_plus _ _ _ _ _ (d_scal (- 0.876793 / FREEZE * l) _ _ _ (d_id u)) (d_const (9.09718 * l + 0.876793 * l + ln 6.1071) u))) as D.
  cbv beta in D.
  match type of D with derivable_pt_lim ?f _ ?d => assert (E : d = diexp u); [|rewrite <- E; apply (d_ext f); [|exact D]] end.
  - unfold diexp. fold l.
    replace (/ (FREEZE / u) * (- FREEZE / (u * u))) with (- / u) by (field; unfold FREEZE; lra).
    replace (- FREEZE / (u * u)) with (- (FREEZE * (/ u * / u))) by (field; lra).
    replace ((9.09718 * FREEZE * l + 3.56654 * u - 0.876793 * l * (u * u) / FREEZE) / (u * u))
      with (9.09718 * FREEZE * l * (/ u * / u) + 3.56654 * / u - 0.876793 * l / FREEZE).
    2:{ set (c1 := 9.09718). set (c2 := 3.56654). set (c3 := 0.876793). field. unfold FREEZE. lra. }
    set (a := / u). unfold FREEZE. lra.
  - intros x. unfold iexp. fold l. set (z := ln _). set (k := ln 6.1071). set (r := FREEZE / x). unfold FREEZE. lra.
Qed.
Lemma diexp_bound u : 0 < u -> diexp u <= 6152.4 / (u * u).
Proof.
  intros U. pose proof ln10_bounds as LB. unfold diexp. set (l := ln 10) in *.
  unfold Rdiv at 1 3. apply Rmult_le_compat_r; [left; apply Rinv_0_lt_compat; nra|]. unfold FREEZE.
  assert (0.876793 * 2.302583 * (u * u) / 273.16 <= 0.876793 * l * (u * u) / 273.16) by nra.
  assert (0 <= (u - 241.3) * (u - 241.3)) by apply Rle_0_sqr. nra.
Qed.
Lemma iexp_gap u t : 0 < u <= t -> t <= FREEZE -> 15 * ((t - u) / u) <= iexp t - iexp u.
Proof.
  intros T U. pose proof ln10_bounds as LB. unfold iexp. set (l := ln 10) in *.
  rewrite !ln_quot by (unfold FREEZE; lra). destruct (ln_sub_le u t ltac:(lra)) as [LN _].
  assert (DB : FREEZE / u - FREEZE / t = (t - u) / u * (FREEZE * / t)) by (unfold Rdiv; field; lra).
  assert (DT : t / FREEZE - u / FREEZE = (t - u) / u * (u * / FREEZE)) by (unfold Rdiv; field; unfold FREEZE; lra).
  assert (W : 0 <= (t - u) / u) by (apply Rmult_le_pos; [lra | left; apply Rinv_0_lt_compat; lra]). set (w := (t - u) / u) in *.
  assert (K : 1 <= FREEZE * / t) by (apply Rmult_le_reg_r with t; [lra|]; rewrite Rmult_assoc, Rinv_l by lra; lra).
  assert (J : 0 < u * / FREEZE <= 1) by (unfold FREEZE in *; lra).
  set (k := FREEZE * / t) in *. set (j := u * / FREEZE) in *.
  assert (M : 20.9 * w <= 9.09718 * (w * k) * l) by (assert (20.9 <= 9.09718 * k * l) by nra; nra).
  assert (M' : 0.876793 * (w * j) * l <= 2.1 * w) by (assert (0.876793 * j * l <= 2.1) by nra; nra).
  rewrite <- DB in M. rewrite <- DT in M'. lra.
Qed.
Lemma ice_tangent a t : 0 < a < t -> t <= FREEZE -> sat t - sat a <= (t - a) * (sat t * 6152.4 / (t * t)).
Proof.
  intros A T. rewrite !sat_ice by lra.
  assert (H : exp (iexp t) - exp (iexp a) <= (t - a) * (exp (iexp t) * 6152.4 / (t * t))).
  { apply (tangent iexp diexp (fun _ => 6152.4) a t); [lra | | | |]; intros u U; assert (U0 : 0 < u) by lra;
      assert (S0 : 0 <= (t - u) / u) by (apply Rmult_le_pos; [lra | left; apply Rinv_0_lt_compat; lra]).
    - apply d_iexp. exact U0.
    - apply diexp_bound. exact U0.
    - split; [lra | nra].
    - pose proof (iexp_gap u t ltac:(lra) T). lra. }
  replace ((t - a) * (100 * exp (iexp t) * 6152.4 / (t * t))) with (100 * ((t - a) * (exp (iexp t) * 6152.4 / (t * t)))) by (unfold Rdiv; ring). lra.
Qed.
Lemma ice_quotient u t : 0 < u <= t -> t <= FREEZE -> sat u / (u * u) <= sat t / (t * t).
Proof.
  intros A T. rewrite !sat_ice by lra.
  assert (H : exp (iexp u) / (u * u) <= exp (iexp t) / (t * t)).
  { apply quotient_increases; [lra|]. assert (S0 : 0 <= (t - u) / u) by (apply Rmult_le_pos; [lra | left; apply Rinv_0_lt_compat; lra]).
    pose proof (iexp_gap u t ltac:(lra) T). lra. }
  unfold Rdiv in *. rewrite !Rmult_assoc. lra.
Qed.

(** ** one step of the iteration stays above the dew point *)
Lemma pressure_low z : z <= 8850 -> 31403 <= standard_pressure z.
Proof.
  intros Z. unfold standard_pressure, Rpower. set (k := 9.80665 * 28.9644 / (8314.32 * 6.5 / 1000)). set (q := (288 - 6.5 * z / 1000) / 288).
  assert (K : 5.25 <= k <= 5.2562) by (unfold k; lra). assert (Q : 0.80026 <= q) by (unfold q; lra).
  assert (L : - 0.22283 <= ln q).
  { assert (X : ln (/ q) <= 0.22283). { apply ln_upper; [apply Rinv_0_lt_compat; lra|]. apply Rle_trans with (2 := exp_b8850). apply Rle_trans with (/ 0.80026); [apply Rinv_le_contravar; lra | lra]. }
    rewrite ln_Rinv in X by lra. lra. }
  assert (KL : - (1.1713) <= k * ln q) by (destruct (Rle_or_lt 0 (ln q)); nra).
  assert (X : / 3.2265 <= exp (k * ln q)).
  { apply Rle_trans with (exp (- (1.1713))); [|apply exp_le; exact KL]. rewrite exp_Ropp. apply Rinv_le_contravar; [apply exp_pos | exact exp_b8850_p]. }
  lra.
Qed.
Lemma psychrometric_le l p m : 0 < l <= m -> 31403 <= p -> 0 < psychrometric l p <= m * 0.0000000197086.
Proof.
  intros L P. unfold psychrometric. assert (I : 0 < / (1005 * p) <= / (1005 * 31403)) by (split; [apply Rinv_0_lt_compat | apply Rinv_le_contravar]; lra).
  unfold Rdiv at 1 3. split.
  - apply Rmult_lt_0_compat; [|lra]. lra.
  - apply Rle_trans with (18.0153 / 28.9644 * m * / (1005 * 31403)); [apply Rmult_le_compat; lra | lra].
Qed.
Lemma sat_water t : FREEZE < t -> sat t = satw t.
Proof. intros H. unfold sat. destruct (rltb_spec FREEZE t); [reflexivity | lra]. Qed.
Lemma quotient_pos t : 0 < t -> 0 < sat t / (t * t).
Proof. intros T. apply Rdiv_lt_0_compat; [apply sat_pos | nra]. Qed.
Lemma ice_scaled t : 0 < t <= FREEZE -> sat t / (t * t) <= 0.008185.
Proof.
  intros T. pose proof (ice_quotient t FREEZE ltac:(lra) ltac:(lra)) as Q. rewrite sat_freeze in Q. apply Rle_trans with (1 := Q). unfold FREEZE. lra.
Qed.
(** the error of the slope over water, times the pressure, is small *)
Lemma water_scaled t m : FREEZE <= t <= 323.16 -> satw t / (t * t) * (VW t - m) <= 0.03934 * (5435.8 - m) \/ satw t / (t * t) * (VW t - m) <= 0.07135 * (5300.8 - m) \/
  satw t / (t * t) * (VW t - m) <= 0.11833 * (5240.5 - m) \/ satw t / (t * t) * (VW t - m) <= 0.
Proof.
  intros T. assert (P : 0 < satw t / (t * t)) by (apply Rdiv_lt_0_compat; [rewrite satw_exp; apply exp_pos | unfold FREEZE in T; nra]).
  assert (V : VW t <= 5435.8) by (unfold VW, FREEZE in *; lra).
  destruct (Rle_or_lt (VW t - m) 0) as [N|N]; [right; right; right; nra|].
  destruct (Rle_or_lt t 300) as [A|A]; [left|right; destruct (Rle_or_lt t 312) as [B|B]; [left | right; left]].
  - pose proof (water_quotient t 300 ltac:(lra) ltac:(lra)) as Q. pose proof water_300 as W. set (c := satw t / (t * t)) in *. assert (c <= 0.03934) by lra. apply Rmult_le_compat; lra.
  - assert (V' : VW t <= 5300.8) by (unfold VW in *; lra). pose proof (water_quotient t 312 ltac:(lra) ltac:(lra)) as Q. pose proof water_312 as W. set (c := satw t / (t * t)) in *. assert (c <= 0.07135) by lra. apply Rmult_le_compat; lra.
  - assert (V' : VW t <= 5240.5) by (unfold VW in *; lra). pose proof (water_quotient t 323.16 ltac:(lra) ltac:(lra)) as Q. pose proof water_323 as W. set (c := satw t / (t * t)) in *. assert (c <= 0.11833) by lra. apply Rmult_le_compat; lra.
Qed.
Lemma scaled_le y d g c : 0 < y -> 0 <= d <= g -> 0 < g -> y * c < 1 -> y * (d * c) < g.
Proof. intros Y D G C. replace (y * (d * c)) with (d * (y * c)) by ring. destruct (Req_dec d 0) as [->|]; [lra|]. nra. Qed.
Lemma prod_le c k c' k' : 0 <= c <= c' -> k <= k' -> 0 <= k' -> c * k <= c' * k'.
Proof. intros C K K0. apply Rle_trans with (c * k'); [apply Rmult_le_compat_l; lra | apply Rmult_le_compat_r; lra]. Qed.
(** temperatures in kelvin *)
Definition mild (ta td : R) : Prop := 0 < td < ta /\ ta <= 323.16 /\ (td <= 273.16 < ta -> 0.08 <= ta - td).
Lemma step_bound ta td t l p : mild ta td -> td <= t <= ta -> latent_heat_is ta td l -> 31403 <= p ->
  let y := psychrometric l p in y * (saturation t - saturation td - (t - td) * (l * saturation t / (461.5 * t ^ 2))) < ta - td.
Proof.
  intros (TD & TA & GAP) T LH P y. rewrite <- !sat_is.
  assert (T0 : 0 < t) by lra.
  replace (l * sat t / (461.5 * t ^ 2)) with (sat t / (t * t) * (l / 461.5)) by (field; lra).
  pose proof (quotient_pos t T0) as C0. destruct LH as (L1 & L2 & L3). set (m := l / 461.5) in *. fold FREEZE in L1, L2, L3, GAP.
  destruct (Rle_or_lt ta FREEZE) as [A|A].
  - specialize (L1 A). assert (LL : 2833600 <= l <= 3700000) by (rewrite L1; unfold vaporisation, fusion, FREEZE in *; lra).
    destruct (psychrometric_le l p 3700000 ltac:(lra) P) as [Y0 Y]. fold y in Y0, Y.
    pose proof (ice_scaled t ltac:(lra)) as C. assert (M : 6139.9 <= m) by (unfold m; lra).
    apply Rle_lt_trans with (y * ((t - td) * (sat t / (t * t) * (6152.4 - m)))).
    + apply Rmult_le_compat_l; [lra|]. destruct (Req_dec t td) as [->|NE]; [lra|].
      pose proof (ice_tangent td t ltac:(lra) ltac:(lra)) as G.
      replace (sat t * 6152.4 / (t * t)) with (sat t / (t * t) * 6152.4) in G by (unfold Rdiv; ring). lra.
    + apply scaled_le; [lra | lra | lra |]. set (c := sat t / (t * t)) in *. assert (c * (6152.4 - m) <= 0.008185 * 12.5) by (apply prod_le; lra). apply Rle_lt_trans with (y * (0.008185 * 12.5)); [apply Rmult_le_compat_l; lra | lra].
  - destruct (Rle_or_lt td FREEZE) as [D|D].
    + specialize (L2 A D). specialize (GAP (conj D A)).
      assert (SH : 0 <= (273.16 - td) / (ta - td) <= 1).
      { split; [apply Rmult_le_pos; [unfold FREEZE in *; lra | left; apply Rinv_0_lt_compat; lra]|]. apply Rmult_le_reg_r with (ta - td); [lra|]. unfold Rdiv. rewrite Rmult_assoc, Rinv_l by lra. unfold FREEZE in *; lra. }
      assert (FU : 0 <= fusion ((273.16 + td) / 2) <= 333600 + 166.67 * (273.16 - td) / 2) by (unfold fusion, FREEZE in *; lra).
      assert (LL : 2426000 <= l <= 3262000). { rewrite L2. unfold vaporisation, FREEZE in *. set (s := (273.16 - td) / (ta - td)) in *. set (f := fusion ((273.16 + td) / 2)) in *. assert (0 <= s * f) by (apply Rmult_le_pos; [apply SH | apply FU]). assert (s * f <= 1 * f) by (apply Rmult_le_compat_r; [apply FU | apply SH]). lra. }
      destruct (psychrometric_le l p 3262000 ltac:(lra) P) as [Y0 Y]. fold y in Y0, Y. assert (M : 5256.7 <= m) by (unfold m; lra).
      destruct (Rle_or_lt t FREEZE) as [B|B].
      * pose proof (ice_scaled t ltac:(lra)) as C.
        apply Rle_lt_trans with (y * ((t - td) * (sat t / (t * t) * (6152.4 - m)))).
        -- apply Rmult_le_compat_l; [lra|]. destruct (Req_dec t td) as [->|NE]; [lra|].
           pose proof (ice_tangent td t ltac:(lra) ltac:(lra)) as G.
           replace (sat t * 6152.4 / (t * t)) with (sat t / (t * t) * 6152.4) in G by (unfold Rdiv; ring). lra.
        -- apply scaled_le; [lra | lra | lra |]. set (c := sat t / (t * t)) in *. assert (c * (6152.4 - m) <= 0.008185 * 895.7) by (apply prod_le; lra). apply Rle_lt_trans with (y * (0.008185 * 895.7)); [apply Rmult_le_compat_l; lra | lra].
      * rewrite (sat_water t B) in *.
        pose proof (water_tangent FREEZE t ltac:(lra) ltac:(lra)) as G. replace (satw t * VW t / (t * t)) with (satw t / (t * t) * VW t) in G by (unfold Rdiv; ring).
        pose proof (water_quotient FREEZE t ltac:(lra) ltac:(lra)) as Q. pose proof water_freeze_high as J. pose proof water_freeze_low as JL.
        assert (QF : 0.00818 <= satw t / (t * t)) by (apply Rle_trans with (2 := Q); unfold FREEZE in *; lra).
        assert (H : 610.71 - sat td <= (FREEZE - td) * 50.357).
        { destruct (Req_dec td FREEZE) as [->|NE]; [rewrite sat_freeze; lra|].
          pose proof (ice_tangent td FREEZE ltac:(lra) ltac:(lra)) as GI. rewrite sat_freeze in GI. apply Rle_trans with (1 := GI). apply Rmult_le_compat_l; [lra|]. unfold FREEZE. lra. }
        assert (W : satw t / (t * t) * (VW t - m) <= 7.36).
        { pose proof (water_scaled t m ltac:(lra)) as WS. destruct WS as [WS|[WS|[WS|WS]]]; lra. }
        set (c := satw t / (t * t)) in *.
        assert (S1 : (t - FREEZE) * (c * (VW t - m)) <= (t - FREEZE) * 7.36) by (apply Rmult_le_compat_l; lra).
        assert (S2 : (FREEZE - td) * (50.357 - c * m) <= (FREEZE - td) * 7.36) by (apply Rmult_le_compat_l; nra).
        assert (S : satw t - sat td - (t - td) * (c * m) <= (t - td) * 7.36 + 0.49) by lra.
        apply Rle_lt_trans with (y * ((t - td) * 7.36 + 0.49)); [apply Rmult_le_compat_l; lra|].
        apply Rle_lt_trans with (y * ((ta - td) * 7.36 + 0.49)); [apply Rmult_le_compat_l; lra|].
        apply Rle_lt_trans with (3262000 * 0.0000000197086 * ((ta - td) * 7.36 + 0.49)); [apply Rmult_le_compat_r; lra | lra].
    + specialize (L3 A D). assert (B : FREEZE < t) by lra. rewrite (sat_water t B), (sat_water td D) in *.
      assert (LL : 2352000 <= l <= 2500000) by (rewrite L3; unfold vaporisation, FREEZE in *; lra).
      destruct (psychrometric_le l p 2500000 ltac:(lra) P) as [Y0 Y]. fold y in Y0, Y. assert (M : 5096.4 <= m) by (unfold m; lra).
      apply Rle_lt_trans with (y * ((t - td) * (satw t / (t * t) * (VW t - m)))).
      * apply Rmult_le_compat_l; [lra|]. destruct (Req_dec t td) as [->|NE]; [lra|].
        pose proof (water_tangent td t ltac:(lra) ltac:(lra)) as G. replace (satw t * VW t / (t * t)) with (satw t / (t * t) * VW t) in G by (unfold Rdiv; ring). lra.
      * apply scaled_le; [lra | lra | lra |]. pose proof (water_scaled t m ltac:(lra)) as WS. set (w := satw t / (t * t) * (VW t - m)) in *.
        assert (w <= 17.3) by (destruct WS as [WS|[WS|[WS|WS]]]; lra). apply Rle_lt_trans with (y * 17.3); [apply Rmult_le_compat_l; lra | lra].
Qed.
Lemma newton_above ta td t l p : mild ta td -> td <= t <= ta -> latent_heat_is ta td l -> 0 < l -> 31403 <= p ->
  td < newton (psychrometric l p) l ta td t.
Proof.
  intros MI T LH L P. pose proof (step_bound ta td t l p MI T LH P) as S. cbv zeta in S. destruct MI as (TD & TA & _).
  assert (Y : 0 < psychrometric l p) by (unfold psychrometric; apply Rdiv_lt_0_compat; lra). set (y := psychrometric l p) in *.
  pose proof (slope_gt y l Y L t ltac:(lra)) as SG. unfold newton, psychrometer. unfold slope in *.
  set (k := l * saturation t / (461.5 * t ^ 2)) in *. set (e := saturation t) in *. set (d := saturation td) in *.
  assert (N : (t - ta + y * (e - d)) / (1 + y * k) < t - td); [|lra].
  apply Rmult_lt_reg_r with (1 + y * k); [lra|]. unfold Rdiv. rewrite Rmult_assoc, Rinv_l by lra. nra.
Qed.
