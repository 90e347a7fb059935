(** The two-argument arctangent of numpy and of C, over the reals (no signed zeros), and the lemmas
    the wind and sun models need about it. *)
From Coq Require Import Reals Lra Lia.
From Verif Require Import RNum.
Local Open Scope R_scope.

(** np.arctan2(y, x) *)
Definition arctan2 (y x : R) : R :=
  if rltb 0 x then atan (y / x)
  else if rltb x 0 then (if rleb 0 y then atan (y / x) + PI else atan (y / x) - PI)
  else if rltb 0 y then PI / 2 else if rltb y 0 then - (PI / 2) else 0.

Lemma atan_pos z : 0 < z -> 0 < atan z.
Proof. intros. rewrite <- atan_0. apply atan_increasing. assumption. Qed.
Lemma atan_neg z : z < 0 -> atan z < 0.
Proof. intros. rewrite <- atan_0. apply atan_increasing. assumption. Qed.

Lemma arctan2_range y x : - PI < arctan2 y x <= PI.
Proof.
  pose proof PI_RGT_0. unfold arctan2. pose proof (atan_bound (y / x)) as B.
  destruct (rltb_spec 0 x); [lra|]. destruct (rltb_spec x 0).
  - destruct (rleb_spec 0 y).
    + assert (y / x <= 0). { unfold Rdiv. assert (/ x < 0) by (apply Rinv_lt_0_compat; lra). nra. }
      destruct (Req_dec (y / x) 0) as [E|NE]; [rewrite E, atan_0; lra|].
      assert (atan (y / x) < 0) by (apply atan_neg; lra). lra.
    + assert (0 < y / x). { unfold Rdiv. assert (/ x < 0) by (apply Rinv_lt_0_compat; lra). nra. }
      assert (0 < atan (y / x)) by (apply atan_pos; lra). lra.
  - destruct (rltb_spec 0 y); [lra|]. destruct (rltb_spec y 0); lra.
Qed.

Lemma sin_cos_atan z : sin (atan z) = z * cos (atan z) /\ 0 < cos (atan z).
Proof.
  pose proof (atan_bound z) as B. assert (C : 0 < cos (atan z)) by (apply cos_gt_0; lra).
  split; [|assumption]. pose proof (tan_atan z) as T. unfold tan in T. rewrite <- T at 2. field. lra.
Qed.

(** the angle is the one of the point (x, y), measured from the x axis *)
Lemma arctan2_polar y x :
  let r := sqrt (x * x + y * y) in y = r * sin (arctan2 y x) /\ x = r * cos (arctan2 y x).
Proof.
  intros r. unfold arctan2.
  destruct (sin_cos_atan (y / x)) as [S C]. pose proof (sin2_cos2 (atan (y / x))) as SC. unfold Rsqr in SC.
  assert (HC : forall k, x <> 0 -> k * k = 1 -> 0 < k * x -> x = r * (k * cos (atan (y / x))) /\ y = r * (k * sin (atan (y / x)))).
  { intros k X K P. rewrite S in *. set (c := cos (atan (y / x))) in *.
    assert (N : (x * x + y * y) * (c * c) = x * x).
    { transitivity (x * x * ((y / x * c) * (y / x * c) + c * c)); [field; lra | rewrite SC; ring]. }
    assert (R2 : r * r = x * x + y * y) by (apply sqrt_sqrt; nra).
    assert (R0 : 0 <= r) by apply sqrt_pos.
    assert (E : (r * c - k * x) * (r * c + k * x) = 0).
    { replace ((r * c - k * x) * (r * c + k * x)) with (r * r * (c * c) - k * k * (x * x)) by ring.
      rewrite R2, N, K. ring. }
    assert (E' : r * c = k * x).
    { apply Rmult_integral in E. destruct E as [E|E]; [lra|]. exfalso. assert (0 <= r * c) by nra. lra. }
    assert (X1 : x = r * (k * c)). { replace (r * (k * c)) with (k * (r * c)) by ring. rewrite E'. replace (k * (k * x)) with (k * k * x) by ring. rewrite K. ring. }
    split; [exact X1|].
    replace (r * (k * (y / x * c))) with (y / x * (r * (k * c))) by ring. rewrite <- X1. field. exact X. }
  destruct (rltb_spec 0 x) as [P|P].
  - destruct (HC 1) as [A B]; [lra | lra | lra |]. rewrite !Rmult_1_l in *. split; assumption.
  - destruct (rltb_spec x 0) as [N|N].
    + destruct (HC (-1)) as [A B]; [lra | lra | lra |].
      destruct (rleb_spec 0 y).
      * rewrite neg_sin, neg_cos. split; [rewrite B at 1 | rewrite A at 1]; ring.
      * replace (atan (y / x) - PI) with (- (PI - atan (y / x))) by ring. rewrite sin_neg, cos_neg.
        rewrite sin_PI_x. replace (PI - atan (y / x)) with (- atan (y / x) + PI) by ring. rewrite neg_cos, cos_neg.
        split; [rewrite B at 1 | rewrite A at 1]; ring.
    + assert (X : x = 0) by lra.
      assert (HR : r = Rabs y). { unfold r. rewrite X. replace (0 * 0 + y * y) with (Rsqr y) by (unfold Rsqr; ring). apply sqrt_Rsqr_abs. }
      rewrite HR, X. clear HC S C SC.
      destruct (rltb_spec 0 y).
      * rewrite sin_PI2, cos_PI2, Rabs_right by lra. split; ring.
      * destruct (rltb_spec y 0).
        -- rewrite sin_neg, cos_neg, sin_PI2, cos_PI2, Rabs_left by lra. split; ring.
        -- assert (Y : y = 0) by lra. rewrite Y, Rabs_R0, sin_0, cos_0. split; ring.
Qed.

(** two angles in (-PI, PI] with the same sine and cosine are equal *)
Lemma angle_unique a b : - PI < a <= PI -> - PI < b <= PI -> sin a = sin b -> cos a = cos b -> a = b.
Proof.
  intros A B S C.
  assert (Z : cos (a - b) = 1).
  { rewrite cos_minus, S, C. pose proof (sin2_cos2 b) as E. unfold Rsqr in E. lra. }
  assert (D : forall d, 0 <= d < 2 * PI -> cos d = 1 -> d = 0).
  { intros d [D0 D1] E. replace d with (2 * (d / 2)) in E by field. rewrite cos_2a_sin in E.
    assert (Q : sin (d / 2) = 0) by nra.
    destruct (Req_dec d 0) as [|NZ]; [assumption|]. exfalso.
    assert (0 < sin (d / 2)) by (apply sin_gt_0; lra). lra. }
  destruct (Rle_dec b a) as [L|L].
  - assert (a - b = 0) by (apply D; [lra | exact Z]). lra.
  - assert (b - a = 0); [apply D; [lra|] | lra]. replace (b - a) with (- (a - b)) by ring. rewrite cos_neg. exact Z.
Qed.

Lemma arctan2_unique r t : 0 < r -> - PI < t <= PI -> arctan2 (r * sin t) (r * cos t) = t.
Proof.
  intros R T. pose proof (arctan2_range (r * sin t) (r * cos t)) as B.
  pose proof (arctan2_polar (r * sin t) (r * cos t)) as H. cbv zeta in H.
  assert (Q : sqrt (r * cos t * (r * cos t) + r * sin t * (r * sin t)) = r).
  { replace (r * cos t * (r * cos t) + r * sin t * (r * sin t)) with (r * r * (Rsqr (sin t) + Rsqr (cos t))) by (unfold Rsqr; ring).
    rewrite sin2_cos2, Rmult_1_r. apply sqrt_square. lra. }
  rewrite Q in H. destruct H as [H1 H2].
  apply angle_unique; [exact B | exact T | apply Rmult_eq_reg_l with r; lra | apply Rmult_eq_reg_l with r; lra].
Qed.
