(** Property C71: wind speed and direction of gridded runs. *)
From Coq Require Import Reals Lra.
From Verif Require Import RNum RTrig GridWindModel.
Local Open Scope R_scope.

(** the wind of speed s that comes from compass direction d (degrees clockwise from north) *)
Definition comes_from (u v s d : R) : Prop :=
  u = - (s * sin (d * PI / 180)) /\ v = - (s * cos (d * PI / 180)).

Lemma grid_direction_polar u v : u = grid_speed u v * cos (grid_direction u v * PI / 180) /\
  v = grid_speed u v * sin (grid_direction u v * PI / 180).
Proof.
  pose proof PI_RGT_0. pose proof (arctan2_polar v u) as P. cbv zeta in P.
  unfold grid_speed, grid_direction. replace (u ^ 2 + v ^ 2) with (u * u + v * v) by ring.
  destruct (rltb_spec (arctan2 v u * 180 / PI) 0).
  - replace ((arctan2 v u * 180 / PI + 360) * PI / 180) with (arctan2 v u + 2 * PI) by (field; lra).
    rewrite sin_plus, cos_plus, sin_2PI, cos_2PI, !Rmult_0_r, !Rmult_1_r, Rminus_0_r, Rplus_0_r. split; apply P.
  - replace (arctan2 v u * 180 / PI * PI / 180) with (arctan2 v u) by (field; lra). split; apply P.
Qed.
Lemma grid_direction_range u v : 0 <= grid_direction u v < 360.
Proof.
  pose proof PI_RGT_0 as PP. pose proof (arctan2_range v u) as [A B]. unfold grid_direction.
  assert (L : - 180 < arctan2 v u * 180 / PI).
  { apply Rmult_lt_reg_r with PI; [exact PP|]. unfold Rdiv. rewrite Rmult_assoc, Rinv_l; lra. }
  assert (U : arctan2 v u * 180 / PI <= 180).
  { apply Rmult_le_reg_r with PI; [exact PP|]. unfold Rdiv. rewrite Rmult_assoc, Rinv_l; lra. }
  destruct (rltb_spec (arctan2 v u * 180 / PI) 0); lra.
Qed.
Lemma turn_unique a b : 0 <= a < 360 -> 0 <= b < 360 -> sin (a * PI / 180) = sin (b * PI / 180) -> cos (a * PI / 180) = cos (b * PI / 180) -> a = b.
Proof.
  intros A B S C. pose proof PI_RGT_0 as PP.
  set (f := fun t => if Rle_dec t 180 then t * PI / 180 else t * PI / 180 - 2 * PI).
  assert (F : forall t, 0 <= t < 360 -> - PI < f t <= PI /\ sin (f t) = sin (t * PI / 180) /\ cos (f t) = cos (t * PI / 180)).
  { intros t T. unfold f. destruct (Rle_dec t 180).
    - split; [|split; reflexivity]. assert (0 <= t * PI <= 180 * PI) by nra. lra.
    - split; [assert (180 * PI < t * PI < 360 * PI) by nra; lra|].
      rewrite sin_minus, cos_minus, sin_2PI, cos_2PI. split; ring. }
  destruct (F a A) as (RA & SA & CA), (F b B) as (RB & SB & CB).
  assert (E : f a = f b) by (apply angle_unique; [assumption | assumption | congruence | congruence]).
  unfold f in E. destruct (Rle_dec a 180), (Rle_dec b 180).
  - apply Rmult_eq_reg_r with PI; lra.
  - exfalso. assert (b * PI < 360 * PI) by nra. assert (0 <= a * PI) by nra. lra.
  - exfalso. assert (a * PI < 360 * PI) by nra. assert (0 <= b * PI) by nra. lra.
  - apply Rmult_eq_reg_r with PI; lra.
Qed.

Theorem C71_speed (u v s d : R) : 0 <= s -> comes_from u v s d -> grid_speed u v = s.
Proof.
  intros S [-> ->]. unfold grid_speed. pose proof (sin2_cos2 (d * PI / 180)) as E. unfold Rsqr in E.
  replace ((- (s * sin (d * PI / 180))) ^ 2 + (- (s * cos (d * PI / 180))) ^ 2) with (s * s * (sin (d * PI / 180) * sin (d * PI / 180) + cos (d * PI / 180) * cos (d * PI / 180))) by ring.
  rewrite E, Rmult_1_r. apply sqrt_square. exact S.
Qed.
Print Assumptions C71_speed.

(** What is reported for a wind from d: a direction in [0,360), the mirror image 270 - d of the true one. *)
Theorem C71_reported (u v s d : R) : 0 < s -> 0 <= d < 360 -> comes_from u v s d ->
  0 <= grid_direction u v < 360 /\
  (d <= 270 -> grid_direction u v = 270 - d) /\ (270 < d -> grid_direction u v = 630 - d).
Proof.
  intros S D W. split; [apply grid_direction_range|].
  pose proof (grid_direction_polar u v) as [P1 P2]. rewrite (C71_speed u v s d ltac:(lra) W) in P1, P2.
  destruct W as [W1 W2].
  assert (C : cos (grid_direction u v * PI / 180) = - sin (d * PI / 180)) by (apply Rmult_eq_reg_l with s; lra).
  assert (N : sin (grid_direction u v * PI / 180) = - cos (d * PI / 180)) by (apply Rmult_eq_reg_l with s; lra).
  assert (H : sin (3 * (PI / 2) - d * PI / 180) = - cos (d * PI / 180) /\ cos (3 * (PI / 2) - d * PI / 180) = - sin (d * PI / 180)).
  { rewrite sin_minus, cos_minus, sin_3PI2, cos_3PI2. split; ring. }
  pose proof (grid_direction_range u v) as RG. split; intros L.
  - apply turn_unique; [exact RG | lra | |].
    + replace ((270 - d) * PI / 180) with (3 * (PI / 2) - d * PI / 180) by field. lra.
    + replace ((270 - d) * PI / 180) with (3 * (PI / 2) - d * PI / 180) by field. lra.
  - apply turn_unique; [exact RG | lra | |].
    + replace ((630 - d) * PI / 180) with (3 * (PI / 2) - d * PI / 180 + 2 * PI) by field.
      rewrite sin_plus, sin_2PI, cos_2PI. lra.
    + replace ((630 - d) * PI / 180) with (3 * (PI / 2) - d * PI / 180 + 2 * PI) by field.
      rewrite cos_plus, sin_2PI, cos_2PI. lra.
Qed.
Print Assumptions C71_reported.

(** So the reported direction is the one the wind comes from only for winds from 135 and 315 degrees. *)
Theorem C71_direction_refuted (u v s d : R) : 0 < s -> 0 <= d < 360 -> comes_from u v s d ->
  (grid_direction u v = d <-> d = 135 \/ d = 315).
Proof.
  intros S D W. destruct (C71_reported u v s d S D W) as (_ & A & B). destruct (Rle_dec d 270).
  - rewrite A by assumption. lra.
  - rewrite B by lra. lra.
Qed.
Print Assumptions C71_direction_refuted.

(** A wind of 5 m/s from the north is reported as coming from the west. *)
Example C71_case : comes_from 0 (-5) 5 0 /\ grid_speed 0 (-5) = 5 /\ grid_direction 0 (-5) = 270.
Proof.
  assert (W : comes_from 0 (-5) 5 0).
  { unfold comes_from. replace (0 * PI / 180) with 0 by field. rewrite sin_0, cos_0. split; ring. }
  split; [exact W|]. split; [apply C71_speed with 0; [lra | exact W]|].
  destruct (C71_reported 0 (-5) 5 0 ltac:(lra) ltac:(lra) W) as (_ & A & _). rewrite A by lra. ring.
Qed.
