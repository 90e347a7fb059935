(** The closed formulas of twostream.py solve the two-stream equations. *)
From Coq Require Import Reals Bool Lra.
From Verif Require Import RNum WinsModel SolarModel SolarSpec SolarProofs.
Local Open Scope R_scope.

(** The formulas in terms of s = (xi + gam1) / gam2, which makes all of them rational. *)
Section Formulas.
  Variables mu om R0 g2 s g3 g4 ep et : R.
  Let g1 := g2 * (s + / s) / 2.
  Let xi := g2 * (s - / s) / 2.
  Let em := / ep.
  Let gpx := xi + g1.
  Let gmx := g1 - xi.
  Let alph1 := g1 * g4 + g2 * g3.
  Let alph2 := g2 * g4 + g1 * g3.
  Let opx := mu * xi + 1.
  Let omx := 1 - mu * xi.
  Let rm := g2 - gmx * R0.
  Let rp := g2 - gpx * R0.
  Let denrt := ep * gpx * rm - em * gmx * rp.
  Let refl := (om * (ep * rm * (g3 * xi + alph2) / opx - em * rp * (alph2 - g3 * xi) / omx)
               + 2 * et * g2 * (R0 - ((alph1 * R0 - alph2) * mu + g4 * R0 + g3) * om / (omx * opx)) * xi) / denrt.
  Let trans := (et * (ep * gpx * (g2 - om * (alph2 - g3 * xi) / omx)
                      - em * gmx * (g2 - om * (g3 * xi + alph2) / opx))
                + 2 * g2 * (alph1 * mu + g4) * om * xi / (omx * opx)) / denrt.
  Let det := omx * opx.
  Let P := mu * (om * g3 * (1 - mu * g1) - mu * g2 * om * g4) / det.
  Let M := mu * (- om * g4 * (mu * g1 + 1) - mu * g2 * om * g3) / det.
  Let E := em * (g2 - R0 * gpx).
  Let D := ep * (gpx - R0 * g2).
  Let F := R0 * mu * et - et * (P - R0 * M).
  Let d := g2 * E - gpx * D.
  Let a := (- M * E - gpx * F) / d.
  Let b := (g2 * F + M * D) / d.
  Hypotheses (S0 : s <> 0) (EP0 : ep <> 0) (G20 : g2 <> 0) (MU0 : mu <> 0) (DEN0 : denrt <> 0) (OM0 : omx <> 0) (OP0 : opx <> 0).

  Lemma formulas : d <> 0 /\ trans * mu = a * g2 * ep + b * gpx * em + M * et + mu * et /\ refl * mu = a * gpx + b * g2 + P.
  Proof.
    assert (HD : g2 * d = - gpx * denrt). { unfold d, E, D, denrt, rm, rp, gpx, gmx, em, g1, xi. field. auto. }
    assert (Hgpx : gpx = g2 * s) by (unfold gpx, g1, xi; field; auto).
    assert (Hgmx : gmx = g2 / s) by (unfold gmx, g1, xi; field; auto).
    set (dd := s * denrt).
    assert (Hd : d = - dd). { apply Rmult_eq_reg_l with g2; auto. rewrite HD, Hgpx. unfold dd. ring. }
    assert (Hden : denrt = dd / s) by (unfold dd; field; auto).
    assert (DD : dd <> 0) by (unfold dd; apply Rmult_integral_contrapositive_currified; auto).
    assert (Hdd : dd = g2 * (ep * s * s * rm - em * rp)). { unfold dd, denrt. rewrite Hgpx, Hgmx. field. auto. }
    split; [rewrite Hd; lra|].
    unfold a, b, trans, refl. rewrite Hd, Hden. clearbody dd. clear HD Hd Hden.
    set (PP := mu * (om * g3 * (1 - mu * g1) - mu * g2 * om * g4)). set (MM := mu * (- om * g4 * (mu * g1 + 1) - mu * g2 * om * g3)).
    assert (HP : P * (omx * opx) = PP) by (unfold P, PP, det; field; auto).
    assert (HM : M * (omx * opx) = MM) by (unfold M, MM, det; field; auto).
    set (FF := R0 * mu * et * (omx * opx) - et * (PP - R0 * MM)).
    assert (HF : F * (omx * opx) = FF) by (unfold F, FF; rewrite <- HP, <- HM; ring).
    split; (apply Rmult_eq_reg_r with (dd * omx * opx); [|repeat apply Rmult_integral_contrapositive_currified; auto]).
    - transitivity (s * mu * (et * (ep * gpx * (g2 * omx * opx - om * (alph2 - g3 * xi) * opx)
                        - em * gmx * (g2 * omx * opx - om * (g3 * xi + alph2) * omx))
                  + 2 * g2 * (alph1 * mu + g4) * om * xi)).
      { field. auto. }
      transitivity (- ((- M * E - gpx * F) * g2 * ep * (omx * opx) + (g2 * F + M * D) * gpx * em * (omx * opx)) + (M * (omx * opx) + mu * omx * opx) * et * dd).
      2:{ field. auto. }
      rewrite Hdd.
      transitivity (- ((- MM * E - gpx * FF) * g2 * ep + (g2 * FF + MM * D) * gpx * em) + (MM + mu * omx * opx) * et * (g2 * (ep * s * s * rm - em * rp))).
      2:{ rewrite <- HM, <- HF. ring. }
      unfold FF, PP, MM, E, D, rm, rp, omx, opx, alph1, alph2. rewrite Hgpx, Hgmx. unfold xi, g1, em. field. auto.
    - transitivity (s * mu * (om * (ep * rm * (g3 * xi + alph2) * omx - em * rp * (alph2 - g3 * xi) * opx)
                  + 2 * et * g2 * (R0 * (omx * opx) - ((alph1 * R0 - alph2) * mu + g4 * R0 + g3) * om) * xi)).
      { field. auto. }
      transitivity (- ((- M * E - gpx * F) * gpx * (omx * opx) + (g2 * F + M * D) * g2 * (omx * opx)) + P * (omx * opx) * dd).
      2:{ field. auto. }
      rewrite Hdd, HP.
      transitivity (- ((- MM * E - gpx * FF) * gpx + (g2 * FF + MM * D) * g2) + PP * (g2 * (ep * s * s * rm - em * rp))).
      2:{ rewrite <- HM, <- HF. ring. }
      unfold FF, PP, MM, E, D, rm, rp, omx, opx, alph1, alph2. rewrite Hgpx, Hgmx. unfold xi, g1, em. field. auto.
  Qed.
  (** the two boundary conditions determine a and b *)
  Lemma boundary : a * g2 + b * gpx + M = 0 /\
    (a * gpx * ep + b * g2 * em + P * et) = R0 * (a * g2 * ep + b * gpx * em + M * et + mu * et).
  Proof.
    destruct formulas as (HD & _). unfold a, b. split.
    - apply Rmult_eq_reg_r with d; [|exact HD]. transitivity ((- M * E - gpx * F) * g2 + (g2 * F + M * D) * gpx + M * d); [field; exact HD|]. unfold d. ring.
    - apply Rmult_eq_reg_r with d; [|exact HD].
      transitivity ((- M * E - gpx * F) * gpx * ep + (g2 * F + M * D) * g2 * em + P * et * d); [field; exact HD|].
      transitivity (R0 * ((- M * E - gpx * F) * g2 * ep + (g2 * F + M * D) * gpx * em + (M * et + mu * et) * d)); [|field; exact HD].
      unfold d, F, E, D. ring.
  Qed.
  Lemma particular : - P / mu = g1 * P - g2 * M - om * g3 /\ - M / mu = g2 * P - g1 * M + om * g4.
  Proof.
    assert (X : xi * xi = g1 * g1 - g2 * g2) by (unfold xi, g1; field; auto).
    assert (DE : det = 1 - mu * mu * (g1 * g1 - g2 * g2)) by (unfold det, omx, opx; rewrite <- X; ring).
    assert (DN : det <> 0) by (unfold det; apply Rmult_integral_contrapositive_currified; auto).
    unfold P, M. split; (apply Rmult_eq_reg_r with det; [|exact DN]); unfold Rdiv.
    - transitivity (- (om * g3 * (1 - mu * g1) - mu * g2 * om * g4)); [field; auto|].
      transitivity (g1 * (mu * (om * g3 * (1 - mu * g1) - mu * g2 * om * g4)) - g2 * (mu * (- om * g4 * (mu * g1 + 1) - mu * g2 * om * g3)) - om * g3 * det); [rewrite DE; ring | field; auto].
    - transitivity (- (- om * g4 * (mu * g1 + 1) - mu * g2 * om * g3)); [field; auto|].
      transitivity (g2 * (mu * (om * g3 * (1 - mu * g1) - mu * g2 * om * g4)) - g1 * (mu * (- om * g4 * (mu * g1 + 1) - mu * g2 * om * g3)) + om * g4 * det); [rewrite DE; ring | field; auto].
  Qed.
  Lemma solution_parts : exists a b P M, trans * mu = a * g2 * ep + b * gpx * em + M * et + mu * et /\ refl * mu = a * gpx + b * g2 + P /\
    a * g2 + b * gpx + M = 0 /\ (a * gpx * ep + b * g2 * em + P * et) = R0 * (a * g2 * ep + b * gpx * em + M * et + mu * et) /\
    - P / mu = g1 * P - g2 * M - om * g3 /\ - M / mu = g2 * P - g1 * M + om * g4.
  Proof. exists a, b, P, M. destruct formulas as (_ & A & B). destruct boundary. destruct particular. auto 10. Qed.
End Formulas.

Lemma exp_mult_deriv k c t : derivable_pt_lim (fun t => c * exp (k * t)) t (c * (k * exp (k * t))).
Proof.
  apply (derivable_pt_lim_scal (fun t => exp (k * t))). replace (k * exp (k * t)) with (exp (k * t) * k) by ring.
  apply (derivable_pt_lim_comp (fun t => k * t) exp).
  - assert (H : derivable_pt_lim (mult_real_fct k (fun t => t)) t (k * 1)) by (apply derivable_pt_lim_scal; apply derivable_pt_lim_id).
    rewrite Rmult_1_r in H. exact H.
  - apply derivable_pt_lim_exp.
Qed.
Lemma three_deriv x k1 k2 k3 c1 c2 c3 t :
  x = c1 * (k1 * exp (k1 * t)) + c2 * (k2 * exp (k2 * t)) + c3 * (k3 * exp (k3 * t)) ->
  derivable_pt_lim (fun t => c1 * exp (k1 * t) + c2 * exp (k2 * t) + c3 * exp (k3 * t)) t x.
Proof. intros ->. apply (derivable_pt_lim_plus (fun t => c1 * exp (k1 * t) + c2 * exp (k2 * t))); [apply (derivable_pt_lim_plus (fun t => c1 * exp (k1 * t)))|]; apply exp_mult_deriv. Qed.

Lemma two_cell_solves mu om R0 g1 g2 g3 g4 tau r : 0 < mu -> g2 < g1 -> 0 <= g1 + g2 ->
  two_cell mu om R0 g1 g2 g3 g4 tau = Ok r -> t_btrans r <> 0 ->
  t_btrans r = exp (- tau / mu) /\
  exists Up Down, two_stream_solution mu om R0 g1 g2 g3 g4 tau Up Down /\ Up 0 = t_refl r * mu /\
    Down tau + mu * exp (- tau / mu) = t_trans r * mu.
Proof.
  intros MU G12 GP. unfold two_cell. cbv zeta. destruct (reqb_spec g1 g2) as [E|_]; [lra|].
  set (xi := sqrt ((g1 - g2) * (g2 + g1))).
  assert (XI : xi * xi = g1 * g1 - g2 * g2). { unfold xi. rewrite sqrt_sqrt; [ring | apply Rmult_le_pos; lra]. }
  assert (X0 : 0 <= xi) by apply sqrt_pos.
  assert (EM : exp (- tau * xi) = / exp (tau * xi)) by (rewrite <- exp_Ropp; f_equal; ring). rewrite EM.
  assert (EP : exp (tau * xi) <> 0) by (pose proof (exp_pos (tau * xi)); lra). 
  destruct (rleb 1000000000000000 (exp (tau * xi))).
  { cbn [negb andb]. destruct (_ && _); [|discriminate]. intros [= <-]. cbn [t_btrans]. lra. }
  cbn [negb andb]. destruct (reqb_spec (1 - mu * xi) 0) as [|OMX]; [discriminate|]. cbn [orb].
  match goal with |- (if reqb ?d 0 then _ else _) = _ -> _ => destruct (reqb_spec d 0) as [|DEN]; [discriminate|] end.
  destruct (Req_dec g2 0) as [Z|G2].
  { exfalso. apply DEN. subst g2. assert (xi = g1) by (assert (0 < g1) by lra; nra). rewrite H. ring. }
  set (s := (xi + g1) / g2).
  assert (G1P : 0 < xi + g1) by lra.
  assert (S0 : s <> 0) by (unfold s, Rdiv; apply Rmult_integral_contrapositive_currified; [lra | apply Rinv_neq_0_compat; exact G2]).
  assert (IS : / s = (g1 - xi) / g2).
  { unfold s. apply Rmult_eq_reg_l with ((xi + g1) / g2); [|exact S0]. rewrite Rinv_r by exact S0. unfold Rdiv.
    replace ((xi + g1) * / g2 * ((g1 - xi) * / g2)) with ((g1 * g1 - xi * xi) * / g2 * / g2) by ring. rewrite XI. field. exact G2. }
  assert (G1E : g1 = g2 * (s + / s) / 2) by (rewrite IS; unfold s; field; exact G2).
  assert (XIE : xi = g2 * (s - / s) / 2) by (rewrite IS; unfold s; field; exact G2).
  clearbody s. clearbody xi.
  match goal with |- (if ?c then Ok (mk_two ?rf ?tr ?bt) else _) = _ -> _ =>
    destruct c; [|discriminate]; intros [= <-] _; cbn [t_btrans t_refl t_trans]; set (RF := rf); set (TR := tr) end.
  split; [reflexivity|].
  assert (SP : exists a b P M, TR * mu = a * g2 * exp (tau * xi) + b * (xi + g1) * / exp (tau * xi) + M * exp (- tau / mu) + mu * exp (- tau / mu) /\
    RF * mu = a * (xi + g1) + b * g2 + P /\ a * g2 + b * (xi + g1) + M = 0 /\
    (a * (xi + g1) * exp (tau * xi) + b * g2 * / exp (tau * xi) + P * exp (- tau / mu)) = R0 * (a * g2 * exp (tau * xi) + b * (xi + g1) * / exp (tau * xi) + M * exp (- tau / mu) + mu * exp (- tau / mu)) /\
    - P / mu = g1 * P - g2 * M - om * g3 /\ - M / mu = g2 * P - g1 * M + om * g4).
  { unfold RF, TR. generalize dependent (exp (tau * xi)). intros ep EM EP DEN. subst g1 xi.
    apply (solution_parts mu om R0 g2 s g3 g4 ep (exp (- tau / mu))); try assumption; try lra.
    intros H. assert (0 <= mu * (g2 * (s - / s) / 2)) by (apply Rmult_le_pos; lra). lra. }
  destruct SP as (a & b & P & M & T & RR & B0 & B1 & P1 & P2).
  exists (fun t => a * (xi + g1) * exp (xi * t) + b * g2 * exp (- xi * t) + P * exp (- / mu * t)),
         (fun t => a * g2 * exp (xi * t) + b * (xi + g1) * exp (- xi * t) + M * exp (- / mu * t)).
  assert (TE : forall t, exp (- t / mu) = exp (- / mu * t)) by (intros; f_equal; field; lra).
  assert (Z : forall k, exp (k * 0) = 1) by (intros; rewrite Rmult_0_r; apply exp_0).
  assert (E1 : exp (xi * tau) = exp (tau * xi)) by (f_equal; ring).
  assert (E2 : exp (- xi * tau) = / exp (tau * xi)) by (rewrite <- exp_Ropp; f_equal; ring).
  unfold two_stream_solution. repeat split.
  - intros t. apply three_deriv. rewrite TE.
    replace (om * g3) with (g1 * P - g2 * M + P / mu) by lra.
    replace (P * (- / mu * exp (- / mu * t))) with (- (P / mu) * exp (- / mu * t)) by (unfold Rdiv; ring).
    replace (a * (xi + g1) * (xi * exp (xi * t))) with (a * (xi * xi + g1 * xi) * exp (xi * t)) by ring. rewrite XI. ring.
  - intros t. apply three_deriv. rewrite TE.
    replace (om * g4) with (g1 * M - g2 * P - M / mu) by lra.
    replace (M * (- / mu * exp (- / mu * t))) with (- (M / mu) * exp (- / mu * t)) by (unfold Rdiv; ring).
    replace (b * (xi + g1) * (- xi * exp (- xi * t))) with (- b * (xi * xi + g1 * xi) * exp (- xi * t)) by ring. rewrite XI. ring.
  - rewrite !Z. lra.
  - rewrite TE, E1, E2. rewrite TE in B1. exact B1.
  - rewrite !Z, RR. ring.
  - rewrite TE, E1, E2, T. rewrite TE. ring.
Qed.

Lemma elevrad_solves S0 mu tau tz omega g R0 z t b d g1 g2 g3 g4 : 0 < mu -> 0 <= R0 -> 0 <= omega <= 1 ->
  tau_domain tau tz z = Some t -> t <> 0 -> mwgamma mu omega g = Ok (g1, g2, g3, g4) -> g2 <> g1 ->
  elevrad S0 mu tau tz omega g R0 z = Ok (b, d) -> b <> 0 ->
  b = S0 * exp (- t / mu) /\
  exists Up Down, two_stream_solution mu omega R0 g1 g2 g3 g4 t Up Down /\ d = S0 * Down t.
Proof.
  intros MU R O T T0 G NE. unfold elevrad. rewrite T. unfold twostream. destruct (rleb_spec mu 0); [lra|].
  destruct (rleb S0 0); [discriminate|]. destruct (reqb_spec t 0); [contradiction|]. destruct (rltb_spec R0 0); [lra|]. rewrite G. cbn [bind].
  apply gamma_spec in G; [|exact O]. destruct (rltb_spec g1 g2); [discriminate|].
  destruct (two_cell mu omega R0 g1 g2 g3 g4 t) as [r|] eqn:C; [|discriminate]. cbn [bind]. intros [= <- <-] B.
  destruct (two_cell_solves mu omega R0 g1 g2 g3 g4 t r MU ltac:(lra) ltac:(lra) C) as (BT & Up & Down & S & _ & DN).
  { intros E. apply B. rewrite E. ring. }
  split; [rewrite BT; reflexivity|]. exists Up, Down. split; [exact S|]. rewrite BT.
  replace (S0 * mu * (t_trans r - exp (- t / mu))) with (S0 * (t_trans r * mu - mu * exp (- t / mu))) by ring. rewrite <- DN. ring.
Qed.

(** ** A cell that is optically infinite *)
Lemma infinite_formula mu om g1 g2 g3 g4 xi : 0 < mu -> xi * xi = g1 * g1 - g2 * g2 -> 0 <= xi -> 0 < xi + g1 -> mu * xi <> 1 ->
  let det := (1 - mu * xi) * (1 + mu * xi) in
  let P := mu * (om * g3 * (1 - mu * g1) - mu * g2 * om * g4) / det in
  let M := mu * (- om * g4 * (mu * g1 + 1) - mu * g2 * om * g3) / det in
  let b := - M / (xi + g1) in
  b * g2 + P = om * (g3 * xi + (g2 * g4 + g1 * g3)) / ((xi + g1) * (mu * xi + 1)) * mu /\
  - P / mu = g1 * P - g2 * M - om * g3 /\ - M / mu = g2 * P - g1 * M + om * g4.
Proof.
  intros MU XI X0 GP NE det P M b.
  assert (D1 : 1 - mu * xi <> 0) by lra.
  assert (MX : 0 <= mu * xi) by (apply Rmult_le_pos; lra).
  assert (D2 : 1 + mu * xi <> 0) by lra.
  assert (DE : det = 1 - mu * mu * (g1 * g1 - g2 * g2)) by (unfold det; rewrite <- XI; ring).
  assert (DN : det <> 0) by (unfold det; apply Rmult_integral_contrapositive_currified; assumption).
  assert (E1 : P * det = mu * (om * g3 * (1 - mu * g1) - mu * g2 * om * g4)) by (unfold P; field; exact DN).
  assert (E2 : M * det = mu * (- om * g4 * (mu * g1 + 1) - mu * g2 * om * g3)) by (unfold M; field; exact DN).
  split; [|split].
  - apply Rmult_eq_reg_r with (det * (xi + g1)); [|apply Rmult_integral_contrapositive_currified; lra].
    transitivity ((P * det) * (xi + g1) - (M * det) * g2); [unfold b; field; lra|]. rewrite E1, E2.
    transitivity (mu * om * (g3 * xi + (g2 * g4 + g1 * g3)) * (1 - mu * xi)).
    + transitivity (mu * om * (g3 * xi + (g2 * g4 + g1 * g3) - mu * xi * (g1 * g3 + g2 * g4) - mu * g3 * (g1 * g1 - g2 * g2))); [ring|].
      rewrite <- XI. ring.
    + unfold det. field. split; lra.
  - apply Rmult_eq_reg_r with (det * mu); [|apply Rmult_integral_contrapositive_currified; lra].
    transitivity (- (P * det)); [field; lra|].
    transitivity (mu * (g1 * (P * det) - g2 * (M * det) - om * g3 * det)); [|ring]. rewrite E1, E2, DE. ring.
  - apply Rmult_eq_reg_r with (det * mu); [|apply Rmult_integral_contrapositive_currified; lra].
    transitivity (- (M * det)); [field; lra|].
    transitivity (mu * (g2 * (P * det) - g1 * (M * det) + om * g4 * det)); [|ring]. rewrite E1, E2, DE. ring.
Qed.

Lemma two_deriv x k1 k2 c1 c2 t : x = c1 * (k1 * exp (k1 * t)) + c2 * (k2 * exp (k2 * t)) ->
  derivable_pt_lim (fun t => c1 * exp (k1 * t) + c2 * exp (k2 * t)) t x.
Proof. intros ->. apply (derivable_pt_lim_plus (fun t => c1 * exp (k1 * t))); apply exp_mult_deriv. Qed.

Lemma two_bound c1 c2 x y : 0 <= x -> 0 <= y -> Rabs (c1 * x + c2 * y) <= (Rabs c1 + Rabs c2) * (x + y).
Proof.
  intros X Y. eapply Rle_trans; [apply Rabs_triang|]. rewrite !Rabs_mult, (Rabs_right x), (Rabs_right y) by lra.
  pose proof (Rabs_pos c1). pose proof (Rabs_pos c2). nra.
Qed.

Lemma two_cell_infinite mu om R0 g1 g2 g3 g4 tau r : 0 < mu -> g2 < g1 -> 0 <= g1 + g2 ->
  two_cell mu om R0 g1 g2 g3 g4 tau = Ok r -> t_btrans r = 0 ->
  let xi := sqrt ((g1 - g2) * (g2 + g1)) in mu * xi <> 1 ->
  t_trans r = 0 /\
  exists Up Down K,
    (forall t, derivable_pt_lim Up t (g1 * Up t - g2 * Down t - om * g3 * exp (- t / mu))) /\
    (forall t, derivable_pt_lim Down t (g2 * Up t - g1 * Down t + om * g4 * exp (- t / mu))) /\
    Down 0 = 0 /\ Up 0 = t_refl r * mu /\
    forall t, Rabs (Up t) <= K * (exp (- xi * t) + exp (- t / mu)) /\ Rabs (Down t) <= K * (exp (- xi * t) + exp (- t / mu)).
Proof.
  intros MU G12 GP H B xi NE. revert H. unfold two_cell. cbv zeta. destruct (reqb_spec g1 g2) as [E|_]; [lra|]. fold xi.
  assert (XI : xi * xi = g1 * g1 - g2 * g2). { unfold xi. rewrite sqrt_sqrt; [ring | apply Rmult_le_pos; lra]. }
  assert (X0 : 0 <= xi) by apply sqrt_pos.
  assert (G1P : 0 < xi + g1) by lra.
  destruct (rleb 1000000000000000 (exp (tau * xi))).
  2:{ cbn [negb andb]. destruct (_ || _); [discriminate|]. destruct (_ && _); [|discriminate]. intros [= <-]. cbn [t_btrans] in B.
      pose proof (exp_pos (- tau / mu)). lra. }
  cbn [negb andb]. destruct (_ && _); [|discriminate]. intros [= <-]. cbn [t_btrans t_refl t_trans]. split; [reflexivity|].
  destruct (infinite_formula mu om g1 g2 g3 g4 xi MU XI X0 G1P NE) as (U & P1 & P2). cbv zeta in U, P1, P2.
  set (det := (1 - mu * xi) * (1 + mu * xi)) in *.
  set (P := mu * (om * g3 * (1 - mu * g1) - mu * g2 * om * g4) / det) in *.
  set (M := mu * (- om * g4 * (mu * g1 + 1) - mu * g2 * om * g3) / det) in *.
  set (b := - M / (xi + g1)) in *. clearbody xi.
  assert (BM : b * (xi + g1) = - M) by (unfold b; field; lra). clearbody b. clearbody P. clearbody M.
  exists (fun t => b * g2 * exp (- xi * t) + P * exp (- / mu * t)), (fun t => b * (xi + g1) * exp (- xi * t) + M * exp (- / mu * t)).
  exists ((Rabs (b * g2) + Rabs P) + (Rabs (b * (xi + g1)) + Rabs M)).
  assert (TE : forall t, exp (- t / mu) = exp (- / mu * t)) by (intros; f_equal; field; lra).
  assert (Z : forall k, exp (k * 0) = 1) by (intros; rewrite Rmult_0_r; apply exp_0).
  split; [|split; [|split; [|split]]].
  - intros t. apply two_deriv. rewrite TE.
    replace (om * g3) with (g1 * P - g2 * M + P / mu) by lra.
    replace (P * (- / mu * exp (- / mu * t))) with (- (P / mu) * exp (- / mu * t)) by (unfold Rdiv; ring). ring.
  - intros t. apply two_deriv. rewrite TE.
    replace (om * g4) with (g1 * M - g2 * P - M / mu) by lra.
    replace (M * (- / mu * exp (- / mu * t))) with (- (M / mu) * exp (- / mu * t)) by (unfold Rdiv; ring).
    replace (b * (xi + g1) * (- xi * exp (- xi * t))) with (- b * (xi * xi + g1 * xi) * exp (- xi * t)) by ring. rewrite XI. ring.
  - rewrite !Z. lra.
  - rewrite !Z. rewrite <- U. ring.
  - intros t. rewrite TE. pose proof (exp_pos (- xi * t)). pose proof (exp_pos (- / mu * t)).
    pose proof (Rabs_pos (b * g2)). pose proof (Rabs_pos P). pose proof (Rabs_pos (b * (xi + g1))). pose proof (Rabs_pos M).
    split; (eapply Rle_trans; [apply two_bound; lra|]); apply Rmult_le_compat_r; lra.
Qed.

Lemma twostream_infinite mu S0 tau omega g R0 g1 g2 g3 g4 r : 0 < mu -> 0 <= omega <= 1 ->
  mwgamma mu omega g = Ok (g1, g2, g3, g4) -> g2 <> g1 -> let xi := sqrt ((g1 - g2) * (g2 + g1)) in mu * xi <> 1 ->
  twostream mu S0 tau omega g R0 = Ok r -> t_btrans r = 0 ->
  t_trans r = 0 /\
  exists Up Down K,
    (forall t, derivable_pt_lim Up t (g1 * Up t - g2 * Down t - omega * g3 * exp (- t / mu))) /\
    (forall t, derivable_pt_lim Down t (g2 * Up t - g1 * Down t + omega * g4 * exp (- t / mu))) /\
    Down 0 = 0 /\ Up 0 = t_refl r * mu /\
    forall t, Rabs (Up t) <= K * (exp (- xi * t) + exp (- t / mu)) /\ Rabs (Down t) <= K * (exp (- xi * t) + exp (- t / mu)).
Proof.
  intros MU O G NE xi X H B. unfold twostream in H. destruct (rleb_spec mu 0); [lra|].
  destruct (rleb S0 0); [discriminate H|]. cbv zeta in H. rewrite G in H. cbn [bind] in H.
  apply gamma_spec in G; [|exact O]. destruct (rltb_spec g1 g2); [discriminate H|].
  eapply two_cell_infinite; [exact MU | lra | lra | exact H | exact B | exact X].
Qed.

(** ** The coefficients of the hybrid approximation *)
Lemma gamma_hybrid cosz omega g g1 g2 g3 g4 : g <> 1 -> mwgamma cosz omega g = Ok (g1, g2, g3, g4) ->
  hybrid_gamma1 cosz omega g g3 g1 /\ hybrid_gamma2 cosz omega g g3 g2.
Proof.
  intros NE. unfold mwgamma. destruct (beta_0 cosz g) as [b|] eqn:B; [|discriminate]. cbn [bind].
  apply beta_range in B. destruct B as (B & C & G).
  destruct (reqb_spec g 1) as [|_]; [contradiction|]. intros [= <- <- <- <-].
  assert (GG : 0 <= g * g < 1) by nra. assert (D : 4 * (1 - g * g * (1 - cosz)) <> 0) by nra.
  unfold hybrid_gamma1, hybrid_gamma2. split; field; lra.
Qed.
Lemma gamma_forward cosz omega g1 g2 g3 g4 : mwgamma cosz omega 1 = Ok (g1, g2, g3, g4) ->
  hybrid_gamma1 cosz 1 1 g3 g1 /\ hybrid_gamma2 cosz 1 1 g3 g2 /\ g1 = g2 /\
  (hybrid_gamma1 cosz omega 1 g3 g1 <-> omega = 1) /\
  forall omega', mwgamma cosz omega' 1 = Ok (g1, g2, g3, g4).
Proof.
  unfold mwgamma. destruct (beta_0 cosz 1) as [b|] eqn:B; [|discriminate]. cbn [bind].
  apply beta_range in B. destruct B as (B & C & G).
  destruct (reqb_spec 1 1) as [_|]; [|lra]. intros [= <- <- <- <-].
  assert (D : 4 * (1 - 1 * 1 * (1 - cosz)) = 4 * cosz) by ring. rewrite D.
  assert (V : (1 * ((3 * (1 - 1) + 4 * b) * 1 - 3) + 3) / (4 * cosz) * (4 * cosz) = 4 * b) by (field; lra).
  set (v := _ / (4 * cosz)) in *. unfold hybrid_gamma1, hybrid_gamma2.
  split; [lra|]. split; [lra|]. split; [reflexivity|]. split; [|intros; reflexivity].
  split; [intros H; nra | intros ->; lra].
Qed.
