(** Proofs about wet bulb temperature and about one cell of the vapour pressure distribution. *)
From Coq Require Import Reals ZArith List Bool Lra Lia.
From Verif Require Import RNum WinsModel WinsSpec WinsProofs SolarProofs ExpBounds SatModel SatSpec SatProofs DewModel DewProofs BrentProofs DewPointProofs DewSpec.
Import ListNotations.
Local Open Scope R_scope.

Lemma latent_ok ta td : latent_heat_is ta td (latent ta td).
Proof.
  unfold latent_heat_is, latent, LH_VAP, LH_FUS, vaporisation, fusion, FREEZE. cbv zeta.
  destruct (rleb_spec ta 273.16); destruct (rleb_spec td 273.16); repeat split; intros; lra.
Qed.
Lemma latent_pos ta td : 0 < td <= ta -> ta <= 1000 -> 0 < latent ta td.
Proof.
  intros H K. unfold latent, LH_VAP, LH_FUS, FREEZE. destruct (rleb_spec ta 273.16); [lra|]. destruct (rleb_spec td 273.16); [|lra].
  assert (0 <= (273.16 - td) / (ta - td)) by (apply Rmult_le_pos; [lra | left; apply Rinv_0_lt_compat; lra]).
  assert (0 < 333600 + 166.67 * (273.16 - (273.16 + td) / 2)) by lra. nra.
Qed.
Lemma pressure_ok z : z / 1000 * 6.5 < 288 -> station_pressure z = standard_pressure z.
Proof.
  intros Z. unfold station_pressure, standard_pressure, SEA_LEVEL.
  replace (9.80665 * 28.9644 / (8314.32 * -6.5 * 0.001)) with (- (9.80665 * 28.9644 / (8314.32 * 6.5 / 1000))) by lra.
  destruct (reqb_spec z 0) as [->|N].
  - replace ((288 - 6.5 * 0 / 1000) / 288) with 1 by lra. unfold Rpower. rewrite ln_1, Rmult_0_r, exp_0. ring.
  - f_equal. unfold Rpower.
    set (k := 9.80665 * 28.9644 / (8314.32 * 6.5 / 1000)). set (q := (288 - 6.5 * z / 1000) / 288).
    assert (Q : 0 < q) by (unfold q; apply Rdiv_lt_0_compat; lra).
    replace (288 / (288 + -6.5 * (z / 1000))) with (/ q) by (unfold q; unfold Rdiv; rewrite Rinv_mult, Rinv_inv, Rmult_comm; f_equal; f_equal; lra).
    rewrite ln_Rinv by exact Q. f_equal. ring.
Qed.

(** ** the wet bulb loop *)
Lemma saturation_pos t : 0 < saturation t.
Proof. rewrite <- sat_is. apply sat_pos. Qed.
Lemma saturation_increasing t t' : 0 < t < t' -> t' <= 1300 -> saturation t < saturation t'.
Proof. rewrite <- !sat_is. apply sat_increasing. Qed.
Lemma saturation_le t t' : 0 < t <= t' -> t' <= 1300 -> saturation t <= saturation t'.
Proof. rewrite <- !sat_is. apply sat_le. Qed.
Section Wet.
Variables ta td y l tol : R.
Hypotheses (TA : 0 < ta) (Y : 0 <= y) (L : 0 < l).
Lemma slope_ge x : 0 < x -> 1 <= slope y l x.
Proof.
  intros X. unfold slope. pose proof (saturation_pos x). assert (0 <= l * saturation x / (461.5 * x ^ 2)).
  { apply Rmult_le_pos; [nra|]. left. apply Rinv_0_lt_compat. apply Rmult_lt_0_compat; [lra | apply pow_lt; exact X]. }
  nra.
Qed.
(** the iterates *)
Fixpoint iterate (n : nat) : R := match n with O => ta | S n => newton y l ta td (iterate n) end.
Lemma turn n esat x : saturation ta = esat \/ x <> ta -> 0 < x ->
  forall dti, tol < dti ->
  wet_loop (S n) ta (saturation td) l y tol esat x dti =
  match n with O => Err ProcessExit | S _ => wet_loop n ta (saturation td) l y tol (saturation x) (newton y l ta td x) (x - newton y l ta td x) end.
Proof.
  intros ES X dti D. cbn [wet_loop]. destruct (rltb_spec tol dti); [|lra].
  assert (ES' : (if reqb x ta then Ok (Some esat) else sati_c (Some x)) = Ok (Some (saturation x))).
  { destruct (reqb_spec x ta) as [->|N]; [destruct ES as [<-|NE]; [reflexivity | contradiction]|]. unfold sati_c. rewrite sat_is. destruct (rleb_spec x 0); [lra | reflexivity]. }
  rewrite ES'. cbn [bind]. pose proof (slope_ge x X) as SL.
  assert (E1 : 1 + y * (l * (saturation x / (RH2O * (x * x)))) = slope y l x) by (unfold slope, RH2O, Rdiv; replace (x ^ 2) with (x * x) by ring; ring).
  rewrite E1. destruct (reqb_spec (slope y l x) 0); [lra|].
  assert (E2 : x - (x - ta + y * (saturation x - saturation td)) / slope y l x = newton y l ta td x) by reflexivity.
  rewrite E2. reflexivity.
Qed.
Lemma turn_exit n esat x : x <> ta -> x <= 0 -> forall dti, tol < dti -> wet_loop (S n) ta (saturation td) l y tol esat x dti = Err ProcessExit.
Proof.
  intros N X dti D. cbn [wet_loop]. destruct (rltb_spec tol dti); [|lra]. destruct (reqb_spec x ta); [contradiction|].
  unfold sati_c. destruct (rleb_spec x 0); [reflexivity | lra].
Qed.
(** from iterate k the loop stops at iterate m *)
Definition stops (k m : nat) : Prop :=
  (k < m)%nat /\ (forall j, (k <= j < m)%nat -> 0 < iterate j) /\ (forall j, (k <= j)%nat -> (S j < m)%nat -> tol < iterate j - iterate (S j)) /\
  exists p, m = S p /\ iterate p - iterate m <= tol.
Hypothesis TOL : 0 <= tol.
Lemma loop_runs n : forall k esat dti, saturation ta = esat \/ iterate k <> ta -> iterate k <= ta -> tol < dti ->
  let r := wet_loop (S n) ta (saturation td) l y tol esat (iterate k) dti in
  (forall w, r = Ok (Some w) <-> exists m, stops k m /\ (m <= k + n)%nat /\ w = iterate m) /\
  (r = Err ProcessExit \/ exists w, r = Ok (Some w)).
Proof.
  induction n as [|n IH]; intros k esat dti ES IK D r.
  - assert (E : r = Err ProcessExit).
    { unfold r. destruct (Rle_or_lt (iterate k) 0) as [C|C].
      - apply turn_exit; [lra | exact C | exact D].
      - rewrite (turn 0 esat (iterate k) ES C dti D). reflexivity. }
    rewrite E. split; [|left; reflexivity]. intros w. split; [discriminate|]. intros (m & (A & _) & B & _). lia.
  - destruct (Rle_or_lt (iterate k) 0) as [C|C].
    + assert (E : r = Err ProcessExit) by (unfold r; apply turn_exit; [lra | exact C | exact D]).
      rewrite E. split; [|left; reflexivity]. intros w. split; [discriminate|]. intros (m & (A & P & _) & B & _). specialize (P k). assert (0 < iterate k) by (apply P; lia). lra.
    + assert (E : r = wet_loop (S n) ta (saturation td) l y tol (saturation (iterate k)) (iterate (S k)) (iterate k - iterate (S k))) by (unfold r; rewrite (turn (S n) esat (iterate k) ES C dti D); reflexivity).
      destruct (Rlt_or_le tol (iterate k - iterate (S k))) as [G|G].
      * assert (IS : iterate (S k) < ta) by lra.
        destruct (IH (S k) (saturation (iterate k)) (iterate k - iterate (S k))) as (I1 & I2); [right; lra | lra | exact G |].
        rewrite E. split; [|exact I2]. intros w. rewrite I1. split; intros (m & (A & P & Q & p & M & F) & B & W).
        -- exists m. split; [|split; [lia | exact W]]. split; [lia|]. split; [|split; [|exists p; auto]].
           ++ intros j J. destruct (Nat.eq_dec j k) as [->|]; [exact C | apply P; lia].
           ++ intros j J1 J2. destruct (Nat.eq_dec j k) as [->|]; [exact G | apply Q; lia].
        -- exists m. assert (m <> S k). { intros ->. assert (p = k) by lia. subst p. lra. }
           split; [|split; [lia | exact W]]. split; [lia|]. split; [|split; [|exists p; auto]].
           ++ intros j J. apply P. lia.
           ++ intros j J1 J2. apply Q; lia.
      * assert (EE : r = Ok (Some (iterate (S k)))).
        { rewrite E. cbn [wet_loop]. destruct (rltb_spec tol (iterate k - iterate (S k))); [lra | reflexivity]. }
        rewrite EE. split; [|right; eexists; reflexivity]. intros w. split.
        -- intros H. injection H as <-. exists (S k). split; [|split; [lia | reflexivity]]. split; [lia|]. split; [|split; [intros; lia | exists k; auto]].
           intros j J. replace j with k by lia. exact C.
        -- intros (m & (A & P & Q & p & M & F) & B & W). destruct (Nat.eq_dec m (S k)) as [->|NE]; [rewrite W; reflexivity|]. exfalso.
           specialize (Q k ltac:(lia) ltac:(lia)). lra.
Qed.
End Wet.

(** ** wetbulb *)
Lemma psyc_same l p : EPS * (l / (CP_AIR * p)) = psychrometric l p.
Proof. unfold EPS, CP_AIR, psychrometric, Rdiv. ring. Qed.
Lemma wetbulb_runs ta td p tol : 0 < td -> 0 < ta -> 0 < p -> 0 < latent ta td -> 0 <= tol < 1 ->
  let l := latent ta td in let y := psychrometric l p in
  (forall w, wetbulb ta td p tol = Ok (Some w) <-> exists m, stops ta td y l tol 0 m /\ (m <= 10)%nat /\ w = iterate ta td y l m) /\
  (wetbulb ta td p tol = Err ProcessExit \/ exists w, wetbulb ta td p tol = Ok (Some w)).
Proof.
  intros TD TA P LP T l y. unfold wetbulb, sati_c. destruct (rleb_spec td 0); [lra|]. destruct (rleb_spec ta 0); [lra|]. cbn [bind]. rewrite !sat_is. fold l. rewrite psyc_same. fold y.
  assert (Y : 0 <= y). { unfold y, psychrometric. apply Rmult_le_pos; [unfold l; lra|]. left. apply Rinv_0_lt_compat. lra. }
  match goal with |- context [wet_loop ?k] => let H := fresh in assert (H : k = S 10) by lia; clear H end.
  exact (loop_runs ta td y l tol TA Y LP (proj1 T) 10 0 (saturation ta) 1 (or_introl eq_refl) (Rle_refl ta) (proj2 T)).
Qed.
Lemma wet_loop_done n ta ea l y tol esat ti dti : dti <= tol -> wet_loop n ta ea l y tol esat ti dti = Ok (Some ti).
Proof. intros H. destruct n as [|n]; cbn [wet_loop]; (destruct (rltb_spec tol dti); [lra | reflexivity]). Qed.
Lemma wetbulb_loose ta td p tol : 0 < td -> 0 < ta -> 1 <= tol -> wetbulb ta td p tol = Ok (Some ta).
Proof.
  intros TD TA T. unfold wetbulb, sati_c. destruct (rleb_spec td 0); [lra|]. destruct (rleb_spec ta 0); [lra|]. cbn [bind]. apply wet_loop_done. exact T.
Qed.

(** ** where the wet bulb lies *)
Section WetBounds.
Variables ta td y l tol : R.
Hypotheses (TA : 0 < td <= ta) (HOT : ta <= 1000) (Y : 0 < y) (L : 0 < l) (TOL : 0 <= tol).
Local Notation it := (iterate ta td y l).
Lemma path_below m : stops ta td y l tol 0 m -> forall j, (j < m)%nat -> it j <= ta /\ (j <> 0%nat -> it j < ta).
Proof.
  intros (_ & P & Q & _) j. induction j as [|j IH]; intros J; [cbn; split; [lra | congruence]|].
  destruct (IH ltac:(lia)) as [A _]. specialize (Q j ltac:(lia) J). split; [|intros _]; lra.
Qed.
Lemma slope_gt x : 0 < x -> 1 < slope y l x.
Proof.
  intros X. unfold slope. pose proof (saturation_pos x). assert (0 < l * saturation x / (461.5 * x ^ 2)).
  { apply Rdiv_lt_0_compat; [nra|]. apply Rmult_lt_0_compat; [lra | apply pow_lt; exact X]. }
  nra.
Qed.
Lemma step_is x : 0 < x -> (x - newton y l ta td x) * slope y l x = psychrometer y ta td x.
Proof. intros X. pose proof (slope_gt x X). unfold newton. field. lra. Qed.
Lemma wet_residual p : stops ta td y l tol 0 (S p) -> psychrometer y ta td (it p) <= tol * slope y l (it p).
Proof.
  intros (_ & P & _ & q & M & F). injection M as <-. cbn [iterate] in F. assert (X : 0 < it p) by (apply P; lia). pose proof (slope_gt _ X).
  rewrite <- (step_is _ X). apply Rmult_le_compat_r; lra.
Qed.
Lemma wet_below p : stops ta td y l tol 0 (S p) -> td < ta -> td <= it p -> it (S p) < ta.
Proof.
  intros S TD D. destruct (path_below _ S p ltac:(lia)) as [B C]. destruct S as (_ & P & _). assert (X : 0 < it p) by (apply P; lia).
  pose proof (slope_gt _ X) as SG. pose proof (step_is _ X) as ST. cbn [iterate]. set (x := it p) in *. set (w := newton y l ta td x) in *.
  destruct (Rle_or_lt 0 (psychrometer y ta td x)) as [Z|Z].
  - assert (w <= x) by nra. destruct (Req_dec x ta) as [E|E]; [|lra].
    assert (saturation td < saturation ta) by (apply saturation_increasing; lra). assert (0 < psychrometer y ta td x) by (unfold psychrometer; rewrite E; nra). nra.
  - assert (x < w) by nra. assert (w - x < - psychrometer y ta td x) by nra.
    assert (saturation td <= saturation x) by (apply saturation_le; lra). unfold psychrometer in *. nra.
Qed.
Lemma wet_saturated : td = ta -> stops ta td y l tol 0 1 /\ it 1 = ta.
Proof.
  intros E. assert (N : newton y l ta td ta = ta) by (unfold newton, psychrometer; rewrite E; unfold Rdiv; ring).
  split; [|exact N]. split; [lia|]. split; [intros j J; replace j with 0%nat by lia; cbn; lra|]. split; [intros; lia|].
  exists 0%nat. split; [reflexivity|]. cbn [iterate]. rewrite N. lra.
Qed.
End WetBounds.

(** ** one cell *)
Lemma limit_dew_spec d t : exists d', limit_dew d (Some t) = Some d' /\ d' < t /\ (d < t -> d' = d) /\ (t <= d -> d' = t - 0.2).
Proof.
  unfold limit_dew, ncmp. destruct (rleb_spec t d); cbn [rlift option_map]; eexists; split; try reflexivity; lra.
Qed.
Lemma limit_dew_nan d : limit_dew d None = Some d.
Proof. reflexivity. Qed.
