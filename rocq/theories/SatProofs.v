(** Proofs about saturation vapour pressure. *)
From Coq Require Import Reals List Bool Lra Lia.
From Verif Require Import RNum WinsModel SolarProofs ExpBounds SatModel SatSpec.
Import ListNotations.
Local Open Scope R_scope.

Lemma exp_ln10_low : exp 2.302583 <= 10.
Proof.
  assert (H0 : exp (2.302583 / 2 ^ 22) <= 1.000000548978868502) by (apply exp_upper_small; lra).
  assert (H1 : exp (2.302583 / 2 ^ 21) <= 1.000001097958038382) by (apply (exp_sq_upper _ _ _ _ H0); lra).
  assert (H2 : exp (2.302583 / 2 ^ 20) <= 1.000002195917282276) by (apply (exp_sq_upper _ _ _ _ H1); lra).
  assert (H3 : exp (2.302583 / 2 ^ 19) <= 1.000004391839386605) by (apply (exp_sq_upper _ _ _ _ H2); lra).
  assert (H4 : exp (2.302583 / 2 ^ 18) <= 1.000008783698061464) by (apply (exp_sq_upper _ _ _ _ H3); lra).
  assert (H5 : exp (2.302583 / 2 ^ 17) <= 1.000017567473276280) by (apply (exp_sq_upper _ _ _ _ H4); lra).
  assert (H6 : exp (2.302583 / 2 ^ 16) <= 1.000035135255168678) by (apply (exp_sq_upper _ _ _ _ H5); lra).
  assert (H7 : exp (2.302583 / 2 ^ 15) <= 1.000070271744823512) by (apply (exp_sq_upper _ _ _ _ H6); lra).
  assert (H8 : exp (2.302583 / 2 ^ 14) <= 1.000140548427765145) by (apply (exp_sq_upper _ _ _ _ H7); lra).
  assert (H9 : exp (2.302583 / 2 ^ 13) <= 1.000281116609390838) by (apply (exp_sq_upper _ _ _ _ H8); lra).
  assert (H10 : exp (2.302583 / 2 ^ 12) <= 1.000562312245329752) by (apply (exp_sq_upper _ _ _ _ H9); lra).
  assert (H11 : exp (2.302583 / 2 ^ 11) <= 1.001124940685720752) by (apply (exp_sq_upper _ _ _ _ H10); lra).
  assert (H12 : exp (2.302583 / 2 ^ 10) <= 1.002251146862987894) by (apply (exp_sq_upper _ _ _ _ H11); lra).
  assert (H13 : exp (2.302583 / 2 ^ 9) <= 1.004507361388174529) by (apply (exp_sq_upper _ _ _ _ H12); lra).
  assert (H14 : exp (2.302583 / 2 ^ 8) <= 1.009035039083032665) by (apply (exp_sq_upper _ _ _ _ H13); lra).
  assert (H15 : exp (2.302583 / 2 ^ 7) <= 1.018151710097297258) by (apply (exp_sq_upper _ _ _ _ H14); lra).
  assert (H16 : exp (2.302583 / 2 ^ 6) <= 1.036632904774050840) by (apply (exp_sq_upper _ _ _ _ H15); lra).
  assert (H17 : exp (2.302583 / 2 ^ 5) <= 1.074607779260286357) by (apply (exp_sq_upper _ _ _ _ H16); lra).
  assert (H18 : exp (2.302583 / 2 ^ 4) <= 1.154781879246724330) by (apply (exp_sq_upper _ _ _ _ H17); lra).
  assert (H19 : exp (2.302583 / 2 ^ 3) <= 1.333521188636596212) by (apply (exp_sq_upper _ _ _ _ H18); lra).
  assert (H20 : exp (2.302583 / 2 ^ 2) <= 1.778278760542760419) by (apply (exp_sq_upper _ _ _ _ H19); lra).
  assert (H21 : exp (2.302583 / 2 ^ 1) <= 3.162275350197496251) by (apply (exp_sq_upper _ _ _ _ H20); lra).
  assert (H22 : exp (2.302583 / 2 ^ 0) <= 9.999985390466697553) by (apply (exp_sq_upper _ _ _ _ H21); lra).
  replace (2.302583 / 2 ^ 0) with 2.302583 in H22 by lra. lra.
Qed.

Lemma exp_ln10_high : 10 <= exp 2.302587.
Proof.
  assert (H0 : 1.000000548979520797 <= exp (2.302587 / 2 ^ 22)) by (pose proof (exp_ineq1_le (2.302587 / 2 ^ 22)); lra).
  assert (H1 : 1.000001097959342972 <= exp (2.302587 / 2 ^ 21)) by (apply (exp_sq_lower _ _ _ _ H0); lra).
  assert (H2 : 1.000002195919891458 <= exp (2.302587 / 2 ^ 20)) by (apply (exp_sq_lower _ _ _ _ H1); lra).
  assert (H3 : 1.000004391844604980 <= exp (2.302587 / 2 ^ 19)) by (apply (exp_sq_lower _ _ _ _ H2); lra).
  assert (H4 : 1.000008783708498259 <= exp (2.302587 / 2 ^ 18)) by (apply (exp_sq_lower _ _ _ _ H3); lra).
  assert (H5 : 1.000017567494150052 <= exp (2.302587 / 2 ^ 17)) by (apply (exp_sq_lower _ _ _ _ H4); lra).
  assert (H6 : 1.000035135296916954 <= exp (2.302587 / 2 ^ 16)) by (apply (exp_sq_lower _ _ _ _ H5); lra).
  assert (H7 : 1.000070271828322997 <= exp (2.302587 / 2 ^ 15)) by (apply (exp_sq_lower _ _ _ _ H6); lra).
  assert (H8 : 1.000140548594775849 <= exp (2.302587 / 2 ^ 14)) by (apply (exp_sq_lower _ _ _ _ H7); lra).
  assert (H9 : 1.000281116943459191 <= exp (2.302587 / 2 ^ 13)) by (apply (exp_sq_lower _ _ _ _ H8); lra).
  assert (H10 : 1.000562312913654281 <= exp (2.302587 / 2 ^ 12)) by (apply (exp_sq_lower _ _ _ _ H9); lra).
  assert (H11 : 1.001124942023121424 <= exp (2.302587 / 2 ^ 11)) by (apply (exp_sq_lower _ _ _ _ H10); lra).
  assert (H12 : 1.002251149540798232 <= exp (2.302587 / 2 ^ 10)) by (apply (exp_sq_lower _ _ _ _ H11); lra).
  assert (H13 : 1.004507366755851500 <= exp (2.302587 / 2 ^ 9)) by (apply (exp_sq_lower _ _ _ _ H12); lra).
  assert (H14 : 1.009035049866774755 <= exp (2.302587 / 2 ^ 8)) by (apply (exp_sq_lower _ _ _ _ H13); lra).
  assert (H15 : 1.018151731859644616 <= exp (2.302587 / 2 ^ 7)) by (apply (exp_sq_lower _ _ _ _ H14); lra).
  assert (H16 : 1.036632949088793669 <= exp (2.302587 / 2 ^ 6)) by (apply (exp_sq_lower _ _ _ _ H15); lra).
  assert (H17 : 1.074607871136529486 <= exp (2.302587 / 2 ^ 5)) by (apply (exp_sq_lower _ _ _ _ H16); lra).
  assert (H18 : 1.154782076708583961 <= exp (2.302587 / 2 ^ 4)) by (apply (exp_sq_lower _ _ _ _ H17); lra).
  assert (H19 : 1.333521644687389891 <= exp (2.302587 / 2 ^ 3)) by (apply (exp_sq_lower _ _ _ _ H18); lra).
  assert (H20 : 1.778279976849761331 <= exp (2.302587 / 2 ^ 2)) by (apply (exp_sq_lower _ _ _ _ H19); lra).
  assert (H21 : 3.162279676064787695 <= exp (2.302587 / 2 ^ 1)) by (apply (exp_sq_lower _ _ _ _ H20); lra).
  assert (H22 : 10.000012749652418598 <= exp (2.302587 / 2 ^ 0)) by (apply (exp_sq_lower _ _ _ _ H21); lra).
  replace (2.302587 / 2 ^ 0) with 2.302587 in H22 by lra. lra.
Qed.

Lemma exp_boil_freeze : exp 0.311919 <= 1.366049.
Proof.
  assert (H0 : exp (0.311919 / 2 ^ 22) <= 1.000000074367290306) by (apply exp_upper_small; lra).
  assert (H1 : exp (0.311919 / 2 ^ 21) <= 1.000000148734586143) by (apply (exp_sq_upper _ _ _ _ H0); lra).
  assert (H2 : exp (0.311919 / 2 ^ 20) <= 1.000000297469194408) by (apply (exp_sq_upper _ _ _ _ H1); lra).
  assert (H3 : exp (0.311919 / 2 ^ 19) <= 1.000000594938477304) by (apply (exp_sq_upper _ _ _ _ H2); lra).
  assert (H4 : exp (0.311919 / 2 ^ 18) <= 1.000001189877308560) by (apply (exp_sq_upper _ _ _ _ H3); lra).
  assert (H5 : exp (0.311919 / 2 ^ 17) <= 1.000002379756032929) by (apply (exp_sq_upper _ _ _ _ H4); lra).
  assert (H6 : exp (0.311919 / 2 ^ 16) <= 1.000004759517729097) by (apply (exp_sq_upper _ _ _ _ H5); lra).
  assert (H7 : exp (0.311919 / 2 ^ 15) <= 1.000009519058111204) by (apply (exp_sq_upper _ _ _ _ H6); lra).
  assert (H8 : exp (0.311919 / 2 ^ 14) <= 1.000019038206834876) by (apply (exp_sq_upper _ _ _ _ H7); lra).
  assert (H9 : exp (0.311919 / 2 ^ 13) <= 1.000038076776123072) by (apply (exp_sq_upper _ _ _ _ H8); lra).
  assert (H10 : exp (0.311919 / 2 ^ 12) <= 1.000076155002087024) by (apply (exp_sq_upper _ _ _ _ H9); lra).
  assert (H11 : exp (0.311919 / 2 ^ 11) <= 1.000152315803758391) by (apply (exp_sq_upper _ _ _ _ H10); lra).
  assert (H12 : exp (0.311919 / 2 ^ 10) <= 1.000304654807620857) by (apply (exp_sq_upper _ _ _ _ H11); lra).
  assert (H13 : exp (0.311919 / 2 ^ 9) <= 1.000609402429793521) by (apply (exp_sq_upper _ _ _ _ H12); lra).
  assert (H14 : exp (0.311919 / 2 ^ 8) <= 1.001219176230908481) by (apply (exp_sq_upper _ _ _ _ H13); lra).
  assert (H15 : exp (0.311919 / 2 ^ 7) <= 1.002439838852498975) by (apply (exp_sq_upper _ _ _ _ H14); lra).
  assert (H16 : exp (0.311919 / 2 ^ 6) <= 1.004885630518624114) by (apply (exp_sq_upper _ _ _ _ H15); lra).
  assert (H17 : exp (0.311919 / 2 ^ 5) <= 1.009795130422812740) by (apply (exp_sq_upper _ _ _ _ H16); lra).
  assert (H18 : exp (0.311919 / 2 ^ 4) <= 1.019686205425625392) by (apply (exp_sq_upper _ _ _ _ H17); lra).
  assert (H19 : exp (0.311919 / 2 ^ 3) <= 1.039759957535310707) by (apply (exp_sq_upper _ _ _ _ H18); lra).
  assert (H20 : exp (0.311919 / 2 ^ 2) <= 1.081100769293831125) by (apply (exp_sq_upper _ _ _ _ H19); lra).
  assert (H21 : exp (0.311919 / 2 ^ 1) <= 1.168778873367713472) by (apply (exp_sq_upper _ _ _ _ H20); lra).
  assert (H22 : exp (0.311919 / 2 ^ 0) <= 1.366044054830701604) by (apply (exp_sq_upper _ _ _ _ H21); lra).
  replace (0.311919 / 2 ^ 0) with 0.311919 in H22 by lra. lra.
Qed.

Lemma exp_sea_freeze : exp 5.1114 <= 165.91.
Proof.
  assert (H0 : exp (5.1114 / 2 ^ 22) <= 1.000001218654210337) by (apply exp_upper_small; lra).
  assert (H1 : exp (5.1114 / 2 ^ 21) <= 1.000002437309905793) by (apply (exp_sq_upper _ _ _ _ H0); lra).
  assert (H2 : exp (5.1114 / 2 ^ 20) <= 1.000004874625752066) by (apply (exp_sq_upper _ _ _ _ H1); lra).
  assert (H3 : exp (5.1114 / 2 ^ 19) <= 1.000009749275266109) by (apply (exp_sq_upper _ _ _ _ H2); lra).
  assert (H4 : exp (5.1114 / 2 ^ 18) <= 1.000019498645580587) by (apply (exp_sq_upper _ _ _ _ H3); lra).
  assert (H5 : exp (5.1114 / 2 ^ 17) <= 1.000038997671358354) by (apply (exp_sq_upper _ _ _ _ H4); lra).
  assert (H6 : exp (5.1114 / 2 ^ 16) <= 1.000077996863535080) by (apply (exp_sq_upper _ _ _ _ H5); lra).
  assert (H7 : exp (5.1114 / 2 ^ 15) <= 1.000155999810580882) by (apply (exp_sq_upper _ _ _ _ H6); lra).
  assert (H8 : exp (5.1114 / 2 ^ 14) <= 1.000312023957102666) by (apply (exp_sq_upper _ _ _ _ H7); lra).
  assert (H9 : exp (5.1114 / 2 ^ 13) <= 1.000624145273155139) by (apply (exp_sq_upper _ _ _ _ H8); lra).
  assert (H10 : exp (5.1114 / 2 ^ 12) <= 1.001248680103632280) by (apply (exp_sq_upper _ _ _ _ H9); lra).
  assert (H11 : exp (5.1114 / 2 ^ 11) <= 1.002498919409265768) by (apply (exp_sq_upper _ _ _ _ H10); lra).
  assert (H12 : exp (5.1114 / 2 ^ 10) <= 1.005004083416745542) by (apply (exp_sq_upper _ _ _ _ H11); lra).
  assert (H13 : exp (5.1114 / 2 ^ 9) <= 1.010033207684332832) by (apply (exp_sq_upper _ _ _ _ H12); lra).
  assert (H14 : exp (5.1114 / 2 ^ 8) <= 1.020167080625102620) by (apply (exp_sq_upper _ _ _ _ H13); lra).
  assert (H15 : exp (5.1114 / 2 ^ 7) <= 1.040740872391144630) by (apply (exp_sq_upper _ _ _ _ H14); lra).
  assert (H16 : exp (5.1114 / 2 ^ 6) <= 1.083141563465480791) by (apply (exp_sq_upper _ _ _ _ H15); lra).
  assert (H17 : exp (5.1114 / 2 ^ 5) <= 1.173195646506446153) by (apply (exp_sq_upper _ _ _ _ H16); lra).
  assert (H18 : exp (5.1114 / 2 ^ 4) <= 1.376388024981678160) by (apply (exp_sq_upper _ _ _ _ H17); lra).
  assert (H19 : exp (5.1114 / 2 ^ 3) <= 1.894443995312964703) by (apply (exp_sq_upper _ _ _ _ H18); lra).
  assert (H20 : exp (5.1114 / 2 ^ 2) <= 3.588918051377348230) by (apply (exp_sq_upper _ _ _ _ H19); lra).
  assert (H21 : exp (5.1114 / 2 ^ 1) <= 12.880332779502182350) by (apply (exp_sq_upper _ _ _ _ H20); lra).
  assert (H22 : exp (5.1114 / 2 ^ 0) <= 165.902972510718414409) by (apply (exp_sq_upper _ _ _ _ H21); lra).
  replace (5.1114 / 2 ^ 0) with 5.1114 in H22 by lra. lra.
Qed.

Lemma exp_7 : exp 7.0 <= 1097.
Proof.
  assert (H0 : exp (7.0 / 2 ^ 22) <= 1.000001668932839044) by (apply exp_upper_small; lra).
  assert (H1 : exp (7.0 / 2 ^ 21) <= 1.000003337868463425) by (apply (exp_sq_upper _ _ _ _ H0); lra).
  assert (H2 : exp (7.0 / 2 ^ 20) <= 1.000006675748068216) by (apply (exp_sq_upper _ _ _ _ H1); lra).
  assert (H3 : exp (7.0 / 2 ^ 19) <= 1.000013351540702045) by (apply (exp_sq_upper _ _ _ _ H2); lra).
  assert (H4 : exp (7.0 / 2 ^ 18) <= 1.000026703259667730) by (apply (exp_sq_upper _ _ _ _ H3); lra).
  assert (H5 : exp (7.0 / 2 ^ 17) <= 1.000053407232399537) by (apply (exp_sq_upper _ _ _ _ H4); lra).
  assert (H6 : exp (7.0 / 2 ^ 16) <= 1.000106817317131547) by (apply (exp_sq_upper _ _ _ _ H5); lra).
  assert (H7 : exp (7.0 / 2 ^ 15) <= 1.000213646044202334) by (apply (exp_sq_upper _ _ _ _ H6); lra).
  assert (H8 : exp (7.0 / 2 ^ 14) <= 1.000427337733036872) by (apply (exp_sq_upper _ _ _ _ H7); lra).
  assert (H9 : exp (7.0 / 2 ^ 13) <= 1.000854858083611822) by (apply (exp_sq_upper _ _ _ _ H8); lra).
  assert (H10 : exp (7.0 / 2 ^ 12) <= 1.001710446949566761) by (apply (exp_sq_upper _ _ _ _ H9); lra).
  assert (H11 : exp (7.0 / 2 ^ 11) <= 1.003423819527900805) by (apply (exp_sq_upper _ _ _ _ H10); lra).
  assert (H12 : exp (7.0 / 2 ^ 10) <= 1.006859361595961245) by (apply (exp_sq_upper _ _ _ _ H11); lra).
  assert (H13 : exp (7.0 / 2 ^ 9) <= 1.013765774033426638) by (apply (exp_sq_upper _ _ _ _ H12); lra).
  assert (H14 : exp (7.0 / 2 ^ 8) <= 1.027721044601592640) by (apply (exp_sq_upper _ _ _ _ H13); lra).
  assert (H15 : exp (7.0 / 2 ^ 7) <= 1.056210545516988769) by (apply (exp_sq_upper _ _ _ _ H14); lra).
  assert (H16 : exp (7.0 / 2 ^ 6) <= 1.115580716461295005) by (apply (exp_sq_upper _ _ _ _ H15); lra).
  assert (H17 : exp (7.0 / 2 ^ 5) <= 1.244520334940296281) by (apply (exp_sq_upper _ _ _ _ H16); lra).
  assert (H18 : exp (7.0 / 2 ^ 4) <= 1.548830864079907241) by (apply (exp_sq_upper _ _ _ _ H17); lra).
  assert (H19 : exp (7.0 / 2 ^ 3) <= 2.398877045526512099) by (apply (exp_sq_upper _ _ _ _ H18); lra).
  assert (H20 : exp (7.0 / 2 ^ 2) <= 5.754611079554007602) by (apply (exp_sq_upper _ _ _ _ H19); lra).
  assert (H21 : exp (7.0 / 2 ^ 1) <= 33.115548676925740810) by (apply (exp_sq_upper _ _ _ _ H20); lra).
  assert (H22 : exp (7.0 / 2 ^ 0) <= 1096.639564173838182687) by (apply (exp_sq_upper _ _ _ _ H21); lra).
  replace (7.0 / 2 ^ 0) with 7.0 in H22 by lra. lra.
Qed.

Lemma ln10_bounds : 2.302583 <= ln 10 <= 2.302587.
Proof.
  split; (rewrite <- (ln_exp 2.302583) || rewrite <- (ln_exp 2.302587)).
  - destruct (Rle_lt_or_eq_dec _ _ exp_ln10_low) as [H| ->]; [left; apply ln_increasing; [apply exp_pos | exact H] | lra].
  - destruct (Rle_lt_or_eq_dec _ _ exp_ln10_high) as [H|H]; [left; apply ln_increasing; lra | rewrite <- H; lra].
Qed.
Lemma ln_lower x y : exp x <= y -> x <= ln y.
Proof.
  intros H. rewrite <- (ln_exp x). destruct (Rle_lt_or_eq_dec _ _ H) as [L|E]; [left; apply ln_increasing; [apply exp_pos | exact L] | rewrite E; lra].
Qed.

(** ** the two formulas as exponentials *)
Definition wexp (t : R) : R :=
  -7.90298 * (BOIL / t - 1) * ln 10 + 5.02808 * ln (BOIL / t) -
  0.00000013816 * (exp (11.344 * (1 - t / BOIL) * ln 10) - 1) * ln 10 +
  0.0081328 * (exp (-3.49149 * (BOIL / t - 1) * ln 10) - 1) * ln 10 + ln SEA_LEVEL.
Definition iexp (t : R) : R :=
  -9.09718 * (FREEZE / t - 1) * ln 10 - 3.56654 * ln (FREEZE / t) + 0.876793 * (1 - t / FREEZE) * ln 10 + ln 6.1071.
Lemma satw_exp t : satw t = exp (wexp t).
Proof.
  pose proof ln10_bounds. unfold satw, wexp, pow10, log10, Rpower. f_equal. unfold Rdiv.
  set (l := ln 10) in *. set (u := ln (BOIL * / t)). set (v := ln SEA_LEVEL). set (x := exp _). set (y := exp _).
  assert (E : forall z, z * / l * l = z) by (intros z; rewrite Rmult_assoc, Rinv_l by lra; ring).
  rewrite <- (E u) at 2. rewrite <- (E v) at 2. ring.
Qed.
Lemma sat_ice t : t <= FREEZE -> sat t = 100 * exp (iexp t).
Proof.
  intros H. pose proof ln10_bounds. unfold sat. destruct (rltb_spec FREEZE t); [lra|]. rewrite Rmult_comm. f_equal. unfold pow10, log10, Rpower, iexp. f_equal.
  set (l := ln 10) in *. set (u := ln (FREEZE / t)). set (v := ln 6.1071). unfold Rdiv.
  assert (E : forall z, z * / l * l = z) by (intros z; rewrite Rmult_assoc, Rinv_l by lra; ring).
  rewrite <- (E u) at 2. rewrite <- (E v) at 2. ring.
Qed.

(** ** both increase *)
Lemma ln_sub_le a b : 0 < a <= b -> 0 <= ln b - ln a <= (b - a) / a.
Proof.
  intros H. assert (E : ln b - ln a = ln (b / a)).
  { unfold Rdiv. rewrite ln_mult; [|lra | apply Rinv_0_lt_compat; lra]. rewrite ln_Rinv by lra. ring. }
  rewrite E. assert (P : 0 < b / a) by (apply Rdiv_lt_0_compat; lra). split.
  - rewrite <- ln_1. assert (1 <= b / a). { apply Rmult_le_reg_r with a; [lra|]. unfold Rdiv. rewrite Rmult_assoc, Rinv_l by lra. lra. }
    destruct (Req_dec 1 (b / a)) as [<-|]; [lra|]. left. apply ln_increasing; lra.
  - replace ((b - a) / a) with (b / a - 1) by (field; lra). pose proof (exp_ineq1_le (ln (b / a))) as X. rewrite exp_ln in X by exact P. lra.
Qed.
Lemma ln_quot c t : 0 < c -> 0 < t -> ln (c / t) = ln c - ln t.
Proof. intros C T. unfold Rdiv. rewrite ln_mult; [|exact C | apply Rinv_0_lt_compat; exact T]. rewrite ln_Rinv by exact T. ring. Qed.
Lemma inv_sub a b : 0 < a -> 0 < b -> / a - / b = (b - a) * (/ a * / b).
Proof. intros A B. field. lra. Qed.
Lemma wexp_increasing t t' : 0 < t < t' -> t' <= 1300 -> wexp t < wexp t'.
Proof.
  intros T U. pose proof ln10_bounds as LB. unfold wexp. set (l := ln 10) in *.
  rewrite !ln_quot by (unfold BOIL; lra). destruct (ln_sub_le t t' ltac:(lra)) as [_ LN].
  assert (P : 0 < / t) by (apply Rinv_0_lt_compat; lra). assert (P' : 0 < / t') by (apply Rinv_0_lt_compat; lra).
  assert (Q : / t' < / t) by (apply Rinv_lt_contravar; nra).
  assert (B : BOIL / t' < BOIL / t) by (unfold Rdiv; apply Rmult_lt_compat_l; [unfold BOIL; lra | exact Q]).
  assert (E1 : exp (11.344 * (1 - t' / BOIL) * l) <= exp (11.344 * (1 - t / BOIL) * l)).
  { apply exp_le. apply Rmult_le_compat_r; [lra|]. unfold Rdiv, BOIL. nra. }
  assert (E2 : exp (-3.49149 * (BOIL / t - 1) * l) <= exp (-3.49149 * (BOIL / t' - 1) * l)) by (apply exp_le; apply Rmult_le_compat_r; lra).
  set (x := exp (11.344 * (1 - t / BOIL) * l)) in *. set (x' := exp (11.344 * (1 - t' / BOIL) * l)) in *.
  set (y := exp (-3.49149 * (BOIL / t - 1) * l)) in *. set (y' := exp (-3.49149 * (BOIL / t' - 1) * l)) in *.
  assert (M : 5.02808 * (ln t' - ln t) < 7.90298 * (BOIL / t - BOIL / t') * l).
  { apply Rle_lt_trans with (5.02808 * ((t' - t) / t)); [lra|]. unfold Rdiv. replace (BOIL * / t - BOIL * / t') with ((t' - t) * / t * (BOIL * / t')).
    - set (w := (t' - t) * / t). assert (0 < w) by (apply Rmult_lt_0_compat; lra).
      assert (K : 373.15 / 1300 <= BOIL * / t').
      { unfold BOIL, Rdiv. apply Rmult_le_compat_l; [lra|]. apply Rinv_le_contravar; lra. }
      assert (5.02808 < 7.90298 * (BOIL * / t') * l) by nra. nra.
    - replace (BOIL * / t - BOIL * / t') with (BOIL * (/ t - / t')) by ring. rewrite inv_sub by lra. ring. }
  assert (0 <= (x - x') * l) by (apply Rmult_le_pos; lra). assert (0 <= (y' - y) * l) by (apply Rmult_le_pos; lra). nra.
Qed.
Lemma iexp_increasing t t' : 0 < t < t' -> t' <= FREEZE -> iexp t < iexp t'.
Proof.
  intros T U. pose proof ln10_bounds as LB. unfold iexp, FREEZE in *. set (l := ln 10) in *.
  rewrite !ln_quot by lra. destruct (ln_sub_le t t' ltac:(lra)) as [LN _].
  assert (P : / 273.16 <= / t') by (apply Rinv_le_contravar; lra). assert (Q : / t' < / t) by (apply Rinv_lt_contravar; nra).
  assert (M : (t' - t) / 273.16 <= 273.16 / t - 273.16 / t').
  { unfold Rdiv. replace (273.16 * / t - 273.16 * / t') with (273.16 * (/ t - / t')) by ring. rewrite inv_sub by lra.
    replace (273.16 * ((t' - t) * (/ t * / t'))) with ((t' - t) * (273.16 * / t * / t')) by ring. apply Rmult_le_compat_l; [lra|].
    assert (1 <= 273.16 * / t) by nra. assert (0 < / t') by lra. nra. }
  assert (D : t' / 273.16 - t / 273.16 = (t' - t) / 273.16) by lra.
  assert (0 < (t' - t) / 273.16) by lra. nra.
Qed.

(** ** the step at the freezing point is upwards *)
Lemma freeze_step : 610.71 < satw FREEZE.
Proof.
  rewrite satw_exp. replace 610.71 with (exp (ln (610.71 / SEA_LEVEL) + ln SEA_LEVEL)).
  2:{ rewrite exp_plus, !exp_ln by (unfold SEA_LEVEL; lra). unfold SEA_LEVEL. lra. }
  apply exp_increasing. unfold wexp. apply Rplus_lt_compat_r.
  assert (A : ln (610.71 / SEA_LEVEL) <= -5.1114).
  { assert (X : 5.1114 <= ln (SEA_LEVEL / 610.71)).
    { apply ln_lower. apply Rle_trans with 165.91; [exact exp_sea_freeze | unfold SEA_LEVEL; lra]. }
    rewrite ln_quot in X |- * by (unfold SEA_LEVEL; lra). lra. }
  assert (B : 0.311919 <= ln (BOIL / FREEZE)).
  { apply ln_lower. apply Rle_trans with 1.366049; [exact exp_boil_freeze | unfold BOIL, FREEZE; lra]. }
  pose proof ln10_bounds as LB. set (l := ln 10) in *. set (u := ln (BOIL / FREEZE)) in *.
  assert (C : exp (11.344 * (1 - FREEZE / BOIL) * l) <= 1097).
  { apply Rle_trans with (exp 7.0); [|exact exp_7]. apply exp_le. unfold FREEZE, BOIL. lra. }
  assert (D : 1 / 27 <= exp (-3.49149 * (BOIL / FREEZE - 1) * l)).
  { apply Rle_trans with (exp (- (3))); [|apply exp_le; unfold FREEZE, BOIL; lra].
    rewrite exp_Ropp. replace (1 / 27) with (/ 27) by lra. apply Rinv_le_contravar; [apply exp_pos|].
    replace 3 with (1 + 1 + 1) by lra. rewrite !exp_plus. pose proof exp_le_3. pose proof (exp_pos 1). nra. }
  set (x := exp (11.344 * (1 - FREEZE / BOIL) * l)) in *. set (y := exp (-3.49149 * (BOIL / FREEZE - 1) * l)) in *.
  assert (E : 1.36604919 <= BOIL / FREEZE <= 1.366049202) by (unfold FREEZE, BOIL; lra). set (q := BOIL / FREEZE) in *.
  assert ((q - 1) * l <= 0.366049202 * 2.302587) by (apply Rmult_le_compat; lra).
  assert ((x - 1) * l <= 1096 * 2.302587) by (apply Rle_trans with (1096 * l); [apply Rmult_le_compat_r|]; lra).
  assert ((1 - y) * l <= (26 / 27) * 2.302587) by (apply Rle_trans with (26 / 27 * l); [apply Rmult_le_compat_r|]; lra).
  lra.
Qed.
Lemma sat_freeze : sat FREEZE = 610.71.
Proof.
  rewrite sat_ice by lra. unfold iexp. replace (FREEZE / FREEZE) with 1 by (unfold FREEZE; lra). rewrite ln_1.
  replace (-9.09718 * (1 - 1) * ln 10 - 3.56654 * 0 + 0.876793 * (1 - 1) * ln 10 + ln 6.1071) with (ln 6.1071) by ring.
  rewrite exp_ln by lra. lra.
Qed.
Lemma satw_boil : satw BOIL = SEA_LEVEL.
Proof.
  rewrite satw_exp. unfold wexp. replace (BOIL / BOIL) with 1 by (unfold BOIL; lra). rewrite ln_1.
  replace (11.344 * (1 - 1) * ln 10) with 0 by ring. replace (-3.49149 * (1 - 1) * ln 10) with 0 by ring. rewrite exp_0.
  replace (_ + _ - _ + _ + ln SEA_LEVEL) with (ln SEA_LEVEL) by ring. apply exp_ln. unfold SEA_LEVEL. lra.
Qed.
Lemma sat_pos t : 0 < sat t.
Proof. unfold sat. destruct (rltb FREEZE t); [apply exp_pos | apply Rmult_lt_0_compat; [apply exp_pos | lra]]. Qed.
Lemma satw_increasing t t' : 0 < t < t' -> t' <= 1300 -> satw t < satw t'.
Proof. intros T U. rewrite !satw_exp. apply exp_increasing. apply wexp_increasing; assumption. Qed.
Lemma sat_increasing t t' : 0 < t < t' -> t' <= 1300 -> sat t < sat t'.
Proof.
  intros T U. destruct (Rle_or_lt t' FREEZE) as [L|L].
  - rewrite !sat_ice by lra. apply Rmult_lt_compat_l; [lra|]. apply exp_increasing, iexp_increasing; assumption.
  - assert (W : sat t' = satw t') by (unfold sat; destruct (rltb_spec FREEZE t'); [reflexivity | lra]). rewrite W.
    destruct (Rle_or_lt t FREEZE) as [K|K].
    + apply Rle_lt_trans with (sat FREEZE).
      * destruct (Req_dec t FREEZE) as [->|]; [lra|]. left. rewrite !sat_ice by lra. apply Rmult_lt_compat_l; [lra|]. apply exp_increasing, iexp_increasing; lra.
      * rewrite sat_freeze. apply Rlt_trans with (satw FREEZE); [exact freeze_step|]. apply satw_increasing; [unfold FREEZE in *; lra | exact U].
    + assert (W' : sat t = satw t) by (unfold sat; destruct (rltb_spec FREEZE t); [reflexivity | lra]). rewrite W'. apply satw_increasing; assumption.
Qed.
Lemma sat_le t t' : 0 < t <= t' -> t' <= 1300 -> sat t <= sat t'.
Proof. intros T U. destruct (Req_dec t t') as [->|]; [lra|]. left. apply sat_increasing; lra. Qed.
Lemma sat_inj t t' : 0 < t <= 1300 -> 0 < t' <= 1300 -> sat t = sat t' -> t = t'.
Proof.
  intros T U E. destruct (Rtotal_order t t') as [L|[L|L]]; [|exact L|].
  - pose proof (sat_increasing t t'). lra.
  - pose proof (sat_increasing t' t). lra.
Qed.
Lemma sat_boil : sat BOIL = SEA_LEVEL.
Proof. unfold sat. destruct (rltb_spec FREEZE BOIL) as [_|N]; [exact satw_boil | unfold FREEZE, BOIL in N; lra]. Qed.

(** ** the model computes the formulas of the specification *)
Lemma exp3 a b c : exp a * exp b * exp c = exp (a + b + c).
Proof. rewrite !exp_plus. reflexivity. Qed.
Lemma sat_is t : sat t = saturation t.
Proof.
  unfold saturation. assert (X : forall c, 0 < c -> forall u z, c * Rpower u z = exp (ln c + z * ln u)) by (intros c C u z; rewrite exp_plus, exp_ln by exact C; reflexivity).
  destruct (Rle_dec t 273.16) as [H|H].
  - rewrite sat_ice by exact H. unfold over_ice, iexp. rewrite (X 610.71) by lra. unfold Rpower. rewrite <- exp_plus.
    replace 100 with (exp (ln 100)) by (apply exp_ln; lra). rewrite <- exp_plus. f_equal. unfold FREEZE.
    replace (ln 610.71) with (ln 100 + ln 6.1071) by (rewrite <- ln_mult by lra; f_equal; lra). lra.
  - unfold sat. destruct (rltb_spec FREEZE t) as [_|N]; [|unfold FREEZE in N; lra]. rewrite satw_exp. unfold over_water, wexp. rewrite (X 101324.6) by lra. unfold Rpower. rewrite <- exp_plus.
    f_equal. unfold BOIL, SEA_LEVEL. lra.
Qed.
