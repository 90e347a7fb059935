(** Properties C29 (dew point below air temperature), C51 (dew point solver) and C74 (wet bulb temperature). *)
From Coq Require Import Reals ZArith List Bool Lra Lia.
From Verif Require Import RNum WinsModel WinsSpec WinsProofs SatModel SatSpec SatProofs DewModel DewSpec DewProofs BrentProofs DewPointProofs WetProofs WetSlopeProofs WetConvProofs.
Import ListNotations.
Local Open Scope R_scope.

(** ** C51 *)
(** The zero finder, for any function [g] with a sign change over [a, b]: it answers within its allowance of turns, never with
    the zero that means failure, its answer is in the interval, and either the function is small there or a sign change lies within
    twice the tolerance.  [g] need not be continuous. *)
Theorem C51_zero_finder (f : R -> res rnum) (g : R -> R) (a b t : R) :
  0.000000001 <= t -> 0 <= a < b -> b <= 1000 -> (forall x, a <= x <= b -> f x = Ok (Some (g x))) -> g a * g b <= 0 ->
  exists r, zerobr f a b t = Ok r /\ a <= r <= b /\
    (Rabs (g r) <= 0.5 * t + 0.000000000001 \/ exists c, a <= c <= b /\ Rabs (c - r) < 2 * t + 0.000000000001 /\ g r * g c <= 0).
Proof.
  intros T AB B F OP. destruct (zerobr_converges f g a b t T AB B F) as (r & E & I & R).
  { unfold opposite. destruct (Req_dec (g a) 0), (Req_dec (g b) 0); auto. left. nra. }
  exists r. split; [exact E|]. split; [exact I|]. unfold inside in I. destruct R as [R|(c & C & D & O)].
  - left. apply Rle_trans with (1 := R). unfold meps. lra.
  - right. exists c. split; [exact C|]. split; [|unfold opposite in O; nra]. rewrite (Rabs_right r) in D by lra. apply Rlt_le_trans with (1 := D). unfold meps. lra.
Qed.
Print Assumptions C51_zero_finder.

(** The step it takes from [b], the other end of the interval being [c]: to the zero of the interpolation if that is less than
    three quarters of the way and less than half the step before the last one, otherwise to the middle. *)
Theorem C51_step (tol a b c d e fa fb fc d' e' : R) : 0 <= tol -> fb * fc < 0 -> fa <> 0 ->
  brent_move tol ((c - b) / 2) a b c d e (Some fa) (Some fb) (Some fc) = (d', e') ->
  let good x := tol <= Rabs e /\ Rabs fb < Rabs fa /\ interpolated a b c fa fb fc x /\
                Rabs (x - b) < 3 / 4 * Rabs (c - b) - tol / 2 /\ Rabs (x - b) < Rabs e / 2 in
  (d' = (c - b) / 2 /\ e' = (c - b) / 2 \/ e' = d /\ good (b + d') /\ 0 <= d' * (c - b)) /\
  (forall x, good x -> 0 < (x - b) * (c - b) -> d' = x - b /\ e' = d).
Proof. apply brent_step. Qed.
Print Assumptions C51_step.
Example C51_step_ex : brent_move 0.01 ((4 - 2) / 2) 4 2 4 2 2 (Some 3) (Some (-1)) (Some 3) = (1 / 2, 2).
Proof.
  unfold brent_move, nabs, ncmp. cbn [rlift option_map]. rewrite !Rabs_right by lra. rewrite (Rabs_left (-1)) by lra.
  destruct (rltb_spec 2 0.01); [lra|]. destruct (rleb_spec 3 (- -1)); [lra|]. cbn [orb]. destruct (reqb_spec 4 4); [|lra].
  destruct (rltb_spec 0 (2 * ((4 - 2) / 2) * (-1 / 3))); [lra|]. rewrite (Rabs_right (0.01 * _)) by lra. rewrite (Rabs_right (2 * _ / 2)) by lra.
  match goal with |- (if ?x && ?y then _ else _) = _ => replace x with true; [replace y with true|] end.
  - cbn [andb]. f_equal; lra.
  - symmetry. destruct (rltb_spec (- (2 * ((4 - 2) / 2) * (-1 / 3))) (2 * (1 - -1 / 3) / 2)); [reflexivity|lra].
  - symmetry. match goal with |- rltb ?u ?v = true => destruct (rltb_spec u v); [reflexivity|lra] end.
Qed.

(** rounding to single precision *)
Definition single (fl : R -> R) : Prop := forall x, Rabs (fl x - x) <= Rabs x / 16777216 + 0.00000000000000000001.
(** The dew point of every vapour pressure between zero and the pressure at sea level: the search ends, and the answer, a
    Celsius temperature to single precision, is the dew point to twice the tolerance, or saturates at the pressure to half of it. *)
Theorem C51_dew_point (fl : R -> R) (e tol : R) : single fl -> 0 < e <= 101324.6 -> 0.000000001 <= tol <= 1 ->
  exists n d r, (forall fuel, (n <= fuel)%nat -> dewpt fl fuel (Some e) tol = Some (Ok d)) /\
    0 < r <= 450.25 /\ Rabs (d - (r - 273.16)) <= 0.00006 /\
    (saturates_within (0.5 * tol + 0.000000000001) e r \/ dew_within (2 * tol + 0.000000000001) e r).
Proof.
  intros FL E T. destruct (dew_found e tol E ltac:(lra)) as (n & r & D & R & A).
  exists n, (fl (fl r - FREEZE)), r. split; [intros fuel FU; unfold dewpt; rewrite (D fuel FU); reflexivity|]. split; [exact R|]. split.
  - pose proof (FL r) as F1. pose proof (FL (fl r - FREEZE)) as F2. rewrite (Rabs_right r) in F1 by lra.
    assert (G : Rabs (fl r - FREEZE) <= 273.2). { unfold FREEZE. apply Rabs_le. apply Rabs_le_inv in F1 || idtac. revert F1. unfold Rabs. destruct (Rcase_abs _); lra. }
    revert F1 F2. unfold FREEZE in *. revert G. unfold Rabs. repeat destruct (Rcase_abs _); lra.
  - destruct A as [A|[A1 A2]]; [left; unfold saturates_within; rewrite <- sat_is; exact A|]. right. split; intros x X; rewrite <- sat_is.
    + apply A1. unfold meps. lra.
    + apply A2. unfold meps. lra.
Qed.
Print Assumptions C51_dew_point.
(** If the pressure is the saturation pressure of some temperature, that temperature is found. *)
Theorem C51_exact (fl : R -> R) (x tol : R) : single fl -> 0 < x <= 373.15 -> 0.000000001 <= tol <= 1 ->
  exists n d r, (forall fuel, (n <= fuel)%nat -> dewpt fl fuel (Some (saturation x)) tol = Some (Ok d)) /\
    Rabs (d - (r - 273.16)) <= 0.00006 /\
    (Rabs (saturation r - saturation x) <= 0.5 * tol + 0.000000000001 \/ Rabs (r - x) <= 2 * tol + 0.000000000001).
Proof.
  intros FL X T. destruct (C51_dew_point fl (saturation x) tol FL) as (n & d & r & D & R & AC & A); [|exact T|].
  { split; [apply saturation_pos|]. rewrite <- sat_is. change 101324.6 with SEA_LEVEL. rewrite <- sat_boil. apply sat_le; unfold BOIL; lra. }
  exists n, d, r. split; [exact D|]. split; [exact AC|]. destruct A as [A|[A1 A2]]; [left; exact A|]. right. set (dl := 2 * tol + 0.000000000001) in *.
  assert (0 < dl) by (unfold dl; lra). apply Rabs_le. split.
  - destruct (Rle_or_lt x (r + dl)) as [L|L]; [lra|]. specialize (A2 (r + dl) ltac:(unfold dl in *; lra)).
    pose proof (saturation_increasing (r + dl) x ltac:(lra) ltac:(lra)). lra.
  - destruct (Rle_or_lt (r - dl) x) as [L|L]; [lra|]. specialize (A1 (r - dl) ltac:(lra)).
    pose proof (saturation_increasing x (r - dl) ltac:(lra) ltac:(lra)). lra.
Qed.
Print Assumptions C51_exact.
(** Pressures not above zero: the search never ends. *)
Theorem C51_not_positive_refuted (fl : R -> R) (e tol : R) : e <= 0 -> forall fuel, dewpt fl fuel (Some e) tol = None.
Proof. intros E fuel. unfold dewpt. rewrite dew_runs by exact E. reflexivity. Qed.
Print Assumptions C51_not_positive_refuted.
(** A missing pressure does not give a missing dew point, but one near absolute zero. *)
Theorem C51_missing_refuted (fl : R -> R) (tol : R) (fuel : nat) : single fl -> 0 < tol <= 1 -> (0 < fuel)%nat ->
  exists d, dewpt fl fuel None tol = Some (Ok d) /\ -273.16 - 0.00006 <= d <= -273.16 + 3 * tol + 0.00006.
Proof.
  intros FL T FU. destruct (dew_nan tol fuel ltac:(lra) FU) as (r & E & R). exists (fl (fl r - FREEZE)). split; [unfold dewpt; rewrite E; reflexivity|].
  pose proof (FL r) as F1. pose proof (FL (fl r - FREEZE)) as F2. rewrite (Rabs_right r) in F1 by lra.
  assert (G : Rabs (fl r - FREEZE) <= 273.2) by (unfold FREEZE; revert F1; unfold Rabs; repeat destruct (Rcase_abs _); lra).
  revert F1 F2 G. unfold FREEZE. unfold Rabs. repeat destruct (Rcase_abs _); lra.
Qed.
Print Assumptions C51_missing_refuted.
(** The station pressures are computed with zero Celsius at 273.15 K, the dew point with 273.16: the dew point found for the
    pressure of a measured dew point [c] is a hundredth of a degree lower. *)
Theorem C51_round_trip (fl : R -> R) (c tol : R) : single fl -> -273.15 < c <= 100 -> 0.000000001 <= tol <= 1 ->
  exists e n d r, satvp (Some c) = Some e /\ (forall fuel, (n <= fuel)%nat -> dewpt fl fuel (Some e) tol = Some (Ok d)) /\
    Rabs (d - (r - 273.16)) <= 0.00006 /\ (Rabs (saturation r - e) <= 0.5 * tol + 0.000000000001 \/ Rabs (d - (c - 0.01)) <= 2 * tol + 0.000061).
Proof.
  intros FL C T. destruct (C51_exact fl (c + 273.15) tol FL ltac:(lra) T) as (n & d & r & D & AC & A).
  exists (saturation (c + 273.15)), n, d, r. split.
  { unfold satvp, sati_py. cbn [rlift option_map]. destruct (rltb_spec (c + 273.15) 0); [lra|]. destruct (reqb_spec (c + 273.15) 0); [lra|]. rewrite sat_is. reflexivity. }
  split; [exact D|]. split; [exact AC|]. destruct A as [A|A]; [left; exact A | right]. revert AC A. unfold Rabs. repeat destruct (Rcase_abs _); lra.
Qed.
Print Assumptions C51_round_trip.
Lemma single_exists : single (fun x => x).
Proof. intros x. replace (x - x) with 0 by ring. rewrite Rabs_R0. pose proof (Rabs_pos x). lra. Qed.
Example C51_example : exists n d r, (forall fuel, (n <= fuel)%nat -> dewpt (fun x => x) fuel (Some 500) 0.01 = Some (Ok d)) /\
  0 < r <= 450.25 /\ Rabs (d - (r - 273.16)) <= 0.00006 /\ (saturates_within (0.5 * 0.01 + 0.000000000001) 500 r \/ dew_within (2 * 0.01 + 0.000000000001) 500 r).
Proof. apply C51_dew_point; [exact single_exists | lra | lra]. Qed.

(** ** C29 *)
(** One cell of the distribution: the pressure is limited to the configured range, the dew point is that of the limited
    pressure if it is below the air temperature and the air temperature less 0.2 otherwise, so always strictly below it. *)
Theorem C29_dew_below_air (fl : R -> R) (fuel : nat) (c : vp_cfg) (v t : R) (z : rnum) (out : vp_cell) :
  proper (v_min c) (v_max c) -> distribute_vp fl fuel c (Some v) (Some t) z = Some (Ok out) ->
  exists v' d d', vp_pressure out = Some v' /\ limited (v_min c) (v_max c) v v' /\ dewpt fl fuel (Some v') (v_tol c) = Some (Ok d) /\
    vp_dew out = Some d' /\ d' < t /\ (d < t -> d' = d) /\ (t <= d -> d' = t - 0.2) /\
    (v_wet_bulb c = false -> vp_precip_temp out = Some d') /\
    (v_wet_bulb c = true -> iwbt (Some t) (Some d') z (v_tol c) = Ok (vp_precip_temp out)).
Proof.
  intros P E. unfold distribute_vp in E. destruct (set_min_max_spec (v_min c) (v_max c) v P) as (v' & V & L). rewrite V in E. cbv zeta in E.
  destruct (dewpt fl fuel (Some v') (v_tol c)) as [[d|]|] eqn:D; cbn [option_map bind] in E; try discriminate E.
  destruct (limit_dew_spec d t) as (d' & LD & A & B & C). rewrite LD in E. exists v', d, d'.
  destruct (v_wet_bulb c).
  - destruct (iwbt (Some t) (Some d') z (v_tol c)) as [w|] eqn:W; cbn [bind] in E; [|discriminate E]. injection E as <-.
    cbn [vp_pressure vp_dew vp_precip_temp]. repeat (split; [assumption || reflexivity|]). split; [discriminate | reflexivity].
  - injection E as <-. cbn [vp_pressure vp_dew vp_precip_temp]. repeat (split; [assumption || reflexivity|]). discriminate.
Qed.
Print Assumptions C29_dew_below_air.
(** A missing air temperature leaves the dew point as found. *)
Theorem C29_missing_air (fl : R -> R) (fuel : nat) (c : vp_cfg) (v : rnum) (z : rnum) (out : vp_cell) :
  distribute_vp fl fuel c v None z = Some (Ok out) ->
  exists d, dewpt fl fuel (vp_pressure out) (v_tol c) = Some (Ok d) /\ vp_dew out = Some d.
Proof.
  intros E. unfold distribute_vp in E. cbv zeta in E. set (v' := set_min_max (v_min c) (v_max c) v) in *.
  destruct (dewpt fl fuel v' (v_tol c)) as [[d|]|] eqn:D; cbn [option_map bind] in E; try discriminate E. rewrite limit_dew_nan in E. exists d.
  destruct (v_wet_bulb c).
  - destruct (iwbt None (Some d) z (v_tol c)) as [w|] eqn:W; cbn [bind] in E; [|discriminate E]. injection E as <-. cbn. auto.
  - injection E as <-. cbn. auto.
Qed.
Print Assumptions C29_missing_air.
(** The distribution ends for every pressure in range. *)
Theorem C29_ends (fl : R -> R) (c : vp_cfg) (v t : R) (z : rnum) :
  single fl -> v_wet_bulb c = false -> proper (v_min c) (v_max c) -> 0.000000001 <= v_tol c <= 1 ->
  (forall v', limited (v_min c) (v_max c) v v' -> 0 < v' <= 101324.6) ->
  exists n out, forall fuel, (n <= fuel)%nat -> distribute_vp fl fuel c (Some v) (Some t) z = Some (Ok out).
Proof.
  intros FL W P T V. destruct (set_min_max_spec (v_min c) (v_max c) v P) as (v' & V' & L).
  destruct (C51_dew_point fl v' (v_tol c) FL (V v' L) T) as (n & d & r & D & _). exists n. eexists. intros fuel FU. unfold distribute_vp. rewrite V', (D fuel FU), W. reflexivity.
Qed.
Print Assumptions C29_ends.
Example C29_example : exists n out, forall fuel, (n <= fuel)%nat -> distribute_vp (fun x => x) fuel (mk_vp_cfg (Some 20) (Some 5000) 0.01 false) (Some 900) (Some 4) (Some 2000) = Some (Ok out).
Proof.
  apply C29_ends; [exact single_exists | reflexivity | cbn; lra | cbn; lra |]. intros v' L. unfold limited, at_least, at_most in L. cbn in L. lra.
Qed.

(** ** C74 *)
(** Kelvin temperatures of one cell *)
Definition wet_setting (ta td z tol : R) : Prop := -273.16 < td <= ta /\ ta <= 700 /\ z <= 40000 /\ 0 <= tol < 1.
(** The wet bulb temperature is what Newton's iteration for the psychrometer equation reaches from the air temperature, in at most
    ten steps, each but the last going down by more than the tolerance; otherwise the process ends. *)
Theorem C74_iteration (ta td z tol : R) : wet_setting ta td z tol ->
  exists l (x : nat -> R), latent_heat_is (ta + 273.16) (td + 273.16) l /\ 0 < l /\ x O = ta + 273.16 /\
    (let y := psychrometric l (standard_pressure z) in 0 < y /\ forall k, x (S k) = newton y l (ta + 273.16) (td + 273.16) (x k)) /\
    (forall w, iwbt (Some ta) (Some td) (Some z) tol = Ok (Some w) <->
       exists m, (1 <= m <= 10)%nat /\ w = x m - 273.16 /\ (forall j, (j < m)%nat -> 0 < x j) /\
         (forall j, (S j < m)%nat -> tol < x j - x (S j)) /\ x (pred m) - x m <= tol) /\
    (iwbt (Some ta) (Some td) (Some z) tol = Err ProcessExit \/ exists w, iwbt (Some ta) (Some td) (Some z) tol = Ok (Some w)).
Proof.
  intros (TD & TA & Z & T). set (l := latent (ta + 273.16) (td + 273.16)). set (y := psychrometric l (standard_pressure z)).
  exists l, (iterate (ta + 273.16) (td + 273.16) y l).
  assert (L : 0 < l) by (apply latent_pos; lra).
  assert (P : 0 < standard_pressure z) by (unfold standard_pressure; apply Rmult_lt_0_compat; [lra | apply exp_pos]).
  assert (Y : 0 < y) by (unfold y, psychrometric; apply Rdiv_lt_0_compat; lra).
  split; [apply latent_ok|]. split; [exact L|]. split; [reflexivity|]. split; [split; [exact Y | reflexivity]|].
  assert (I : iwbt (Some ta) (Some td) (Some z) tol = bind (wetbulb (ta + 273.16) (td + 273.16) (standard_pressure z) tol) (fun w => Ok (rlift (fun x => x - FREEZE) w))).
  { unfold iwbt, FREEZE. cbn [rlift option_map ncmp]. destruct (rltb_spec (ta + 273.16) 0); [lra|]. destruct (rltb_spec (td + 273.16) 0); [lra|]. cbn [orb].
    rewrite pressure_ok by lra. reflexivity. }
  destruct (wetbulb_runs (ta + 273.16) (td + 273.16) (standard_pressure z) tol ltac:(lra) ltac:(lra) P L T) as (W1 & W2). fold l y in W1.
  rewrite I. split.
  - intros w. split.
    + intros E. destruct W2 as [W2|(k & W2)]; rewrite W2 in E; cbn [bind rlift option_map] in E; [discriminate E|]. injection E as <-.
      apply W1 in W2. destruct W2 as (m & (A & B & C & p & M & F) & M10 & ->). exists m. unfold FREEZE. split; [lia|]. split; [reflexivity|].
      split; [intros j J; apply B; lia|]. split; [intros j J; apply C; lia|]. subst m. exact F.
    + intros (m & M & -> & B & C & F). assert (WB : wetbulb (ta + 273.16) (td + 273.16) (standard_pressure z) tol = Ok (Some (iterate (ta + 273.16) (td + 273.16) y l m))).
      { apply W1. exists m. split; [|split; [lia | reflexivity]]. split; [lia|]. split; [intros j J; apply B; lia|]. split; [intros j J J'; apply C; lia|].
        exists (pred m). split; [lia | exact F]. }
      rewrite WB. reflexivity.
  - destruct W2 as [->|(k & ->)]; cbn [bind rlift option_map]; [left; reflexivity | right; eexists; reflexivity].
Qed.
Print Assumptions C74_iteration.

(** How well it solves the equation: with a dew point below the air temperature, the iterate before the answer satisfies the psychrometer equation
    to the tolerance times the slope or has passed its root, and the wet bulb is strictly below the air temperature whenever that
    iterate is not below the dew point.  Saturated air (dew point equal to the air temperature) has its own temperature as wet bulb. *)
Theorem C74_residual (ta td z tol w : R) : wet_setting ta td z tol -> iwbt (Some ta) (Some td) (Some z) tol = Ok (Some w) ->
  exists l x, latent_heat_is (ta + 273.16) (td + 273.16) l /\ let y := psychrometric l (standard_pressure z) in
    0 < x <= ta + 273.16 /\ w = newton y l (ta + 273.16) (td + 273.16) x - 273.16 /\
    psychrometer y (ta + 273.16) (td + 273.16) x <= tol * slope y l x /\ (td < ta -> td + 273.16 <= x -> w < ta) /\ (td = ta -> w = ta).
Proof.
  intros S E. destruct (C74_iteration ta td z tol S) as (l & x & LH & L & X0 & (Y & XS) & I & _). apply I in E. destruct E as (m & M & -> & B & C & F).
  destruct S as (TD & TA & Z & T). set (y := psychrometric l (standard_pressure z)) in *.
  assert (XI : forall k, x k = iterate (ta + 273.16) (td + 273.16) y l k) by (induction k as [|k IH]; [exact X0 | rewrite XS, IH; reflexivity]).
  destruct m as [|p]; [lia|]. cbn [pred] in F.
  assert (ST : stops (ta + 273.16) (td + 273.16) y l tol 0 (Datatypes.S p)).
  { split; [lia|]. split; [intros j J; rewrite <- XI; apply B; lia|]. split; [intros j _ J; rewrite <- !XI; apply C; exact J|]. exists p. rewrite <- !XI. auto. }
  exists l, (x p). split; [exact LH|]. cbv zeta. fold y.
  assert (ALL : forall q, (Datatypes.S q = Datatypes.S p) -> td = ta -> x (Datatypes.S q) = ta + 273.16).
  { intros q _ EQ. clear - X0 XS EQ. assert (H : forall k, x k = ta + 273.16); [|apply H]. induction k as [|k IH]; [exact X0|]. rewrite XS, IH. unfold newton, psychrometer. rewrite EQ. unfold Rdiv. ring. }
  split; [split; [apply B; lia | rewrite XI; apply (path_below (ta + 273.16) (td + 273.16) y l tol ltac:(lra) (Datatypes.S p) ST); lia]|].
  split; [rewrite XS; reflexivity|]. split; [rewrite XI; apply wet_residual with (tol := tol); first [lra | exact ST]|]. split.
  - intros D DX. rewrite XI. rewrite XI in DX. assert (iterate (ta + 273.16) (td + 273.16) y l (Datatypes.S p) < ta + 273.16); [|lra].
    apply wet_below with (tol := tol); first [lra | exact ST].
  - intros D. rewrite (ALL p eq_refl D). lra.
Qed.
Print Assumptions C74_residual.
(** Where it lies: strictly between dew point and air temperature, for air up to 50 degrees and elevations up to 8850 m, if dew
    point and air temperature are at least 0.08 degrees apart whenever freezing lies between them. *)
Theorem C74_between (ta td z tol w : R) : -273.16 < td < ta -> ta <= 50 -> z <= 8850 -> 0 <= tol < 1 -> (td <= 0 < ta -> 0.08 <= ta - td) ->
  iwbt (Some ta) (Some td) (Some z) tol = Ok (Some w) -> td < w < ta.
Proof.
  intros TD TA Z T GAP E. assert (S : wet_setting ta td z tol) by (unfold wet_setting; lra).
  destruct (C74_iteration ta td z tol S) as (l & x & LH & L & X0 & (Y & XS) & I & _). apply I in E. destruct E as (m & M & -> & B & C & F).
  pose proof (pressure_low z Z) as P. set (p := standard_pressure z) in *. set (y := psychrometric l p) in *.
  assert (MI : mild (ta + 273.16) (td + 273.16)) by (unfold mild; repeat split; try lra; intros H; assert (td <= 0 < ta) by lra; specialize (GAP ltac:(assumption)); lra).
  assert (XI : forall k, x k = iterate (ta + 273.16) (td + 273.16) y l k) by (induction k as [|k IH]; [exact X0 | rewrite XS, IH; reflexivity]).
  destruct m as [|q]; [lia|]. cbn [pred] in F.
  assert (ST : stops (ta + 273.16) (td + 273.16) y l tol 0 (Datatypes.S q)).
  { split; [lia|]. split; [intros j J; rewrite <- XI; apply B; lia|]. split; [intros j _ J; rewrite <- !XI; apply C; exact J|]. exists q. rewrite <- !XI. auto. }
  assert (UP : forall j, (j <= q)%nat -> x j <= ta + 273.16) by (intros j J; rewrite XI; apply (path_below (ta + 273.16) (td + 273.16) y l tol ltac:(lra) (Datatypes.S q) ST); lia).
  assert (LO : forall j, (j <= Datatypes.S q)%nat -> td + 273.16 < x j).
  { induction j as [|j IH]; intros J; [rewrite X0; lra|]. rewrite XS. apply newton_above; [exact MI | split; [left; apply IH; lia | apply UP; lia] | exact LH | exact L | exact P]. }
  split; [specialize (LO (Datatypes.S q) ltac:(lia)); lra|].
  assert (iterate (ta + 273.16) (td + 273.16) y l (Datatypes.S q) < ta + 273.16); [|rewrite XI; lra].
  apply wet_below with (tol := tol); [lra | lra | exact Y | exact L | lra | exact ST | lra |]. rewrite <- XI. left. apply LO. lia.
Qed.
Print Assumptions C74_between.
(** That there is an answer: for air from -30 to 50 degrees, a dew point at most 20 degrees below it and a tolerance of a hundredth
    of a degree or more ten steps are enough. *)
Theorem C74_answers (ta td z tol : R) : -30 <= ta <= 50 -> td <= ta <= td + 20 -> z <= 40000 -> 0.01 <= tol < 1 ->
  exists w, iwbt (Some ta) (Some td) (Some z) tol = Ok (Some w).
Proof.
  intros TA TD Z T. assert (S : wet_setting ta td z tol) by (unfold wet_setting; lra).
  destruct (C74_iteration ta td z tol S) as (l & x & LH & L & X0 & (Y & XS) & I & _). set (y := psychrometric l (standard_pressure z)) in *.
  assert (MO : moderate (ta + 273.16) (td + 273.16)) by (unfold moderate; lra).
  assert (XI : forall k, x k = iterate (ta + 273.16) (td + 273.16) y l k) by (induction k as [|k IH]; [exact X0 | rewrite XS, IH; reflexivity]).
  destruct (first_below (fun j => x j - x (Datatypes.S j)) tol 10) as (m & M & F & C).
  { intros H. apply (ten_steps (ta + 273.16) (td + 273.16) l y tol MO LH Y); [lra|]. intros j J. rewrite <- !XI. apply H. exact J. }
  exists (x (Datatypes.S m) - 273.16). apply I. exists (Datatypes.S m). split; [lia|]. split; [reflexivity|]. split; [|split; [intros j J; apply C; lia | exact F]].
  intros j J. rewrite XI. apply (path_positive (ta + 273.16) (td + 273.16) l y tol MO LH Y); [lra|]. intros i II. rewrite <- !XI. apply C. lia.
Qed.
Print Assumptions C74_answers.
(** Dew point and air temperature next to freezing on both sides of it: the wet bulb is below the dew point. *)
Theorem C74_freezing_gap_refuted :
  ~ (forall ta td z tol w, wet_setting ta td z tol -> td < ta -> iwbt (Some ta) (Some td) (Some z) tol = Ok (Some w) -> td <= w).
Proof.
  intros H. specialize (H 0.0001 (-0.0001) 0 0.01). assert (S : wet_setting 0.0001 (-0.0001) 0 0.01) by (unfold wet_setting; lra).
  destruct (C74_iteration 0.0001 (-0.0001) 0 0.01 S) as (l & x & (_ & LH & _) & L & X0 & (Y & XS) & I & _).
  specialize (XS 0%nat). rewrite X0 in XS.
  assert (P : standard_pressure 0 = 101324.6).
  { unfold standard_pressure. replace ((288 - 6.5 * 0 / 1000) / 288) with 1 by lra. unfold Rpower. rewrite ln_1, Rmult_0_r, exp_0. lra. }
  specialize (LH ltac:(lra) ltac:(lra)).
  replace ((273.16 - (-0.0001 + 273.16)) / (0.0001 + 273.16 - (-0.0001 + 273.16))) with 0.5 in LH by lra.
  assert (LL : 2666799 <= l <= 2666801) by (rewrite LH; unfold vaporisation, fusion; lra).
  assert (YY : 0.01628 <= psychrometric l (standard_pressure 0) <= 0.0163) by (rewrite P; unfold psychrometric; lra).
  set (y := psychrometric l (standard_pressure 0)) in *.
  assert (EA : 611 <= saturation (0.0001 + 273.16) <= 611.23).
  { rewrite <- sat_is, sat_water by (unfold FREEZE; lra). pose proof water_freeze_low. pose proof water_freeze_high.
    pose proof (satw_increasing FREEZE (0.0001 + 273.16) ltac:(unfold FREEZE; lra) ltac:(lra)). split; [lra|].
    pose proof (water_tangent FREEZE (0.0001 + 273.16) ltac:(unfold FREEZE; lra) ltac:(lra)) as G.
    pose proof (satw_increasing (0.0001 + 273.16) 300 ltac:(lra) ltac:(lra)). pose proof water_300. unfold VW, FREEZE in *. lra. }
  assert (ED : 610.7 <= saturation (-0.0001 + 273.16) <= 610.71).
  { rewrite <- sat_is. pose proof (sat_increasing (-0.0001 + 273.16) FREEZE ltac:(unfold FREEZE; lra) ltac:(unfold FREEZE; lra)) as U. rewrite sat_freeze in U.
    pose proof (ice_tangent (-0.0001 + 273.16) FREEZE ltac:(unfold FREEZE; lra) ltac:(lra)) as G. rewrite sat_freeze in G. unfold FREEZE in *. lra. }
  unfold newton, psychrometer, slope in XS. set (ea := saturation (0.0001 + 273.16)) in *. set (ed := saturation (-0.0001 + 273.16)) in *.
  assert (SL : 1 <= 1 + y * (l * ea / (461.5 * (0.0001 + 273.16) ^ 2)) <= 2).
  { assert (A : 0 <= l * ea / (461.5 * (0.0001 + 273.16) ^ 2) <= 48). { assert (0 <= l * ea <= 2666801 * 611.23) by (split; [apply Rmult_le_pos; lra | apply Rmult_le_compat; lra]). lra. }
    set (k := l * ea / (461.5 * (0.0001 + 273.16) ^ 2)) in *. split; [assert (0 <= y * k) by (apply Rmult_le_pos; lra); lra|].
    assert (y * k <= 0.0163 * 48) by (apply Rmult_le_compat; lra). lra. }
  set (s := 1 + y * (l * ea / (461.5 * (0.0001 + 273.16) ^ 2))) in *.
  assert (N : 0.0047 <= 0.0001 + 273.16 - (0.0001 + 273.16) + y * (ea - ed) <= 0.0087).
  { assert (0.01628 * 0.29 <= y * (ea - ed) <= 0.0163 * 0.53) by (split; apply Rmult_le_compat; lra). lra. }
  set (n := 0.0001 + 273.16 - (0.0001 + 273.16) + y * (ea - ed)) in *.
  assert (Q : 0.00235 <= n / s <= 0.0087).
  { assert (/ 2 <= / s <= 1) by (split; [apply Rinv_le_contravar; lra | rewrite <- Rinv_1; apply Rinv_le_contravar; lra]). unfold Rdiv.
    split; [apply Rle_trans with (0.0047 * / 2); [lra | apply Rmult_le_compat; lra] | apply Rle_trans with (0.0087 * 1); [apply Rmult_le_compat; lra | lra]]. }
  assert (E : iwbt (Some 0.0001) (Some (-0.0001)) (Some 0) 0.01 = Ok (Some (x 1%nat - 273.16))).
  { apply I. exists 1%nat. split; [lia|]. split; [reflexivity|]. split; [intros j J; replace j with 0%nat by lia; rewrite X0; lra|]. split; [intros; lia|]. cbn [pred]. rewrite X0, XS. lra. }
  specialize (H _ S ltac:(lra) E). rewrite XS in H. lra.
Qed.
Print Assumptions C74_freezing_gap_refuted.
(** A tolerance of one degree or more returns the air temperature, whatever the humidity. *)
Theorem C74_loose_refuted (ta td z tol : R) : -273.16 < td -> -273.16 < ta -> 1 <= tol -> iwbt (Some ta) (Some td) (Some z) tol = Ok (Some ta).
Proof.
  intros TD TA T. unfold iwbt, FREEZE. cbn [rlift option_map ncmp]. destruct (rltb_spec (ta + 273.16) 0); [lra|]. destruct (rltb_spec (td + 273.16) 0); [lra|]. cbn [orb].
  rewrite wetbulb_loose by lra. cbn [bind rlift option_map]. f_equal. f_equal. lra.
Qed.
Print Assumptions C74_loose_refuted.
(** Missing data give a missing wet bulb; temperatures at or below absolute zero end the process. *)
Theorem C74_missing (ta td z : rnum) (tol : R) : (forall x, ta = Some x -> -273.16 < x) -> (forall x, td = Some x -> -273.16 < x) ->
  (ta = None \/ td = None \/ z = None) -> iwbt ta td z tol = Ok None.
Proof.
  intros A D M. unfold iwbt, FREEZE.
  assert (X : forall u, (forall x, u = Some x -> -273.16 < x) -> ncmp rltb (rlift (fun x => x + 273.16) u) (Some 0) = false /\ exists s, sati_c (rlift (fun x => x + 273.16) u) = Ok s).
  { intros [x|] H; cbn [rlift option_map ncmp]; [|split; [reflexivity | exists None; reflexivity]]. specialize (H x eq_refl). destruct (rltb_spec (x + 273.16) 0); [lra|]. split; [reflexivity|].
    unfold sati_c. destruct (rleb_spec (x + 273.16) 0); [lra|]. eexists. reflexivity. }
  destruct (X ta A) as (-> & s & S). destruct (X td D) as (-> & s' & S'). cbn [orb]. rewrite S, S'.
  destruct ta, td, z; cbn [rlift option_map bind]; try reflexivity. destruct M as [M|[M|M]]; discriminate M.
Qed.
Print Assumptions C74_missing.
Theorem C74_impossible (ta td : R) (z : rnum) (tol : R) : ta <= -273.16 \/ td <= -273.16 -> iwbt (Some ta) (Some td) z tol = Err ProcessExit.
Proof.
  intros H. unfold iwbt, FREEZE. cbn [rlift option_map ncmp]. destruct (rltb_spec (ta + 273.16) 0); [reflexivity|]. destruct (rltb_spec (td + 273.16) 0); [reflexivity|]. cbn [orb].
  unfold wetbulb, sati_c. destruct (rleb_spec (td + 273.16) 0); [destruct z; reflexivity|]. destruct (rleb_spec (ta + 273.16) 0); [destruct z; reflexivity | lra].
Qed.
Print Assumptions C74_impossible.
Example C74_example : wet_setting 5 (-3) 2500 0.1 /\ iwbt (Some 5) (Some 5) (Some 2500) 0.1 = Ok (Some 5).
Proof.
  split; [unfold wet_setting; lra|]. assert (S : wet_setting 5 5 2500 0.1) by (unfold wet_setting; lra).
  destruct (C74_iteration 5 5 2500 0.1 S) as (l & x & LH & L & X0 & (Y & XS) & I & _). apply I. exists 1%nat.
  assert (X1 : x 1%nat = 5 + 273.16) by (rewrite XS, X0; unfold newton, psychrometer, Rdiv; ring).
  split; [lia|]. rewrite X1. split; [lra|]. split; [intros j J; replace j with 0%nat by lia; rewrite X0; lra|]. split; [intros; lia|]. cbn [pred]. rewrite X0. lra.
Qed.
(** air at 12 degrees with a dew point of -6 at 2500 m: an answer, and it is in between *)
Example C74_case : exists w, iwbt (Some 12) (Some (-6)) (Some 2500) 0.01 = Ok (Some w) /\ -6 < w < 12.
Proof.
  destruct (C74_answers 12 (-6) 2500 0.01) as (w & E); [lra | lra | lra | lra |]. exists w. split; [exact E|]. apply (C74_between 12 (-6) 2500 0.01); [lra | lra | lra | lra | lra | exact E].
Qed.
