(** Numerical bounds on the exponential, by repeated squaring. *)
From Coq Require Import Reals Lra Lia.
Local Open Scope R_scope.

Lemma exp_sq_lower a c x y : a <= exp x -> 0 <= a /\ c <= a * a /\ y = 2 * x -> c <= exp y.
Proof.
  intros A (P & C & E). replace y with (x + x) by lra. rewrite exp_plus. pose proof (exp_pos x).
  apply Rle_trans with (a * a); [exact C|]. apply Rmult_le_compat; assumption.
Qed.
Lemma exp_sq_upper a c x y : exp x <= a -> a * a <= c /\ y = 2 * x -> exp y <= c.
Proof.
  intros A (C & E). replace y with (x + x) by lra. rewrite exp_plus. pose proof (exp_pos x).
  apply Rle_trans with (a * a); [|exact C]. apply Rmult_le_compat; lra.
Qed.
Lemma exp_upper_small x c : 1 <= c * (1 - x) /\ x < 1 -> exp x <= c.
Proof.
  intros (C & X). pose proof (exp_ineq1_le (- x)) as H. pose proof (exp_pos x) as P.
  assert (E : exp (- x) * exp x = 1) by (rewrite <- exp_plus, Rplus_opp_l; apply exp_0).
  assert (0 < c) by nra. assert (1 - x <= exp (- x)) by lra.
  assert ((1 - x) * exp x <= 1) by nra. nra.
Qed.

Lemma exp_calm : exp 4.605136 <= 100.
Proof.
  assert (H0 : exp (4.605136 / 2 ^ 20) <= 1.0000043918192148) by (apply exp_upper_small; lra).
  assert (H1 : exp (4.605136 / 2 ^ 19) <= 1.0000087836577177) by (apply (exp_sq_upper _ _ _ _ H0); lra).
  assert (H2 : exp (4.605136 / 2 ^ 18) <= 1.0000175673925881) by (apply (exp_sq_upper _ _ _ _ H1); lra).
  assert (H3 : exp (4.605136 / 2 ^ 17) <= 1.0000351350937895) by (apply (exp_sq_upper _ _ _ _ H2); lra).
  assert (H4 : exp (4.605136 / 2 ^ 16) <= 1.0000702714220539) by (apply (exp_sq_upper _ _ _ _ H3); lra).
  assert (H5 : exp (4.605136 / 2 ^ 15) <= 1.0001405477821806) by (apply (exp_sq_upper _ _ _ _ H4); lra).
  assert (H6 : exp (4.605136 / 2 ^ 14) <= 1.0002811153180403) by (apply (exp_sq_upper _ _ _ _ H5); lra).
  assert (H7 : exp (4.605136 / 2 ^ 13) <= 1.0005623096619027) by (apply (exp_sq_upper _ _ _ _ H6); lra).
  assert (H8 : exp (4.605136 / 2 ^ 12) <= 1.0011249355159613) by (apply (exp_sq_upper _ _ _ _ H7); lra).
  assert (H9 : exp (4.605136 / 2 ^ 11) <= 1.0022511365118377) by (apply (exp_sq_upper _ _ _ _ H8); lra).
  assert (H10 : exp (4.605136 / 2 ^ 10) <= 1.0045073406392704) by (apply (exp_sq_upper _ _ _ _ H9); lra).
  assert (H11 : exp (4.605136 / 2 ^ 9) <= 1.0090349973981793) by (apply (exp_sq_upper _ _ _ _ H10); lra).
  assert (H12 : exp (4.605136 / 2 ^ 8) <= 1.0181516259743438) by (apply (exp_sq_upper _ _ _ _ H11); lra).
  assert (H13 : exp (4.605136 / 2 ^ 7) <= 1.0366327334742001) by (apply (exp_sq_upper _ _ _ _ H12); lra).
  assert (H14 : exp (4.605136 / 2 ^ 6) <= 1.0746074241101920) by (apply (exp_sq_upper _ _ _ _ H13); lra).
  assert (H15 : exp (4.605136 / 2 ^ 5) <= 1.1547811159527421) by (apply (exp_sq_upper _ _ _ _ H14); lra).
  assert (H16 : exp (4.605136 / 2 ^ 4) <= 1.3335194257610604) by (apply (exp_sq_upper _ _ _ _ H15); lra).
  assert (H17 : exp (4.605136 / 2 ^ 3) <= 1.7782740588821083) by (apply (exp_sq_upper _ _ _ _ H16); lra).
  assert (H18 : exp (4.605136 / 2 ^ 2) <= 3.1622586284930480) by (apply (exp_sq_upper _ _ _ _ H17); lra).
  assert (H19 : exp (4.605136 / 2 ^ 1) <= 9.9998796334787330) by (apply (exp_sq_upper _ _ _ _ H18); lra).
  assert (H20 : exp (4.605136 / 2 ^ 0) <= 99.9975926840627595) by (apply (exp_sq_upper _ _ _ _ H19); lra).
  replace (4.605136 / 2 ^ 0) with 4.605136 in H20 by lra. lra.
Qed.

Lemma exp_461 : 100.4 <= exp 4.61.
Proof.
  assert (H0 : 1.0000043964385986 <= exp (4.61 / 2 ^ 20)) by (pose proof (exp_ineq1_le (4.61 / 2 ^ 20)); lra).
  assert (H1 : 1.0000087928965258 <= exp (4.61 / 2 ^ 19)) by (apply (exp_sq_lower _ _ _ _ H0); lra).
  assert (H2 : 1.0000175858703666 <= exp (4.61 / 2 ^ 18)) by (apply (exp_sq_lower _ _ _ _ H1); lra).
  assert (H3 : 1.0000351720499960 <= exp (4.61 / 2 ^ 17)) by (apply (exp_sq_lower _ _ _ _ H2); lra).
  assert (H4 : 1.0000703453370651 <= exp (4.61 / 2 ^ 16)) by (apply (exp_sq_lower _ _ _ _ H3); lra).
  assert (H5 : 1.0001406956225966 <= exp (4.61 / 2 ^ 15)) by (apply (exp_sq_lower _ _ _ _ H4); lra).
  assert (H6 : 1.0002814110404514 <= exp (4.61 / 2 ^ 14)) by (apply (exp_sq_lower _ _ _ _ H5); lra).
  assert (H7 : 1.0005629012730764 <= exp (4.61 / 2 ^ 13)) by (apply (exp_sq_lower _ _ _ _ H6); lra).
  assert (H8 : 1.0011261194039960 <= exp (4.61 / 2 ^ 12)) by (apply (exp_sq_lower _ _ _ _ H7); lra).
  assert (H9 : 1.0022535069529040 <= exp (4.61 / 2 ^ 11)) by (apply (exp_sq_lower _ _ _ _ H8); lra).
  assert (H10 : 1.0045120921993947 <= exp (4.61 / 2 ^ 10)) by (apply (exp_sq_lower _ _ _ _ H9); lra).
  assert (H11 : 1.0090445433748052 <= exp (4.61 / 2 ^ 9)) by (apply (exp_sq_lower _ _ _ _ H10); lra).
  assert (H12 : 1.0181708905144691 <= exp (4.61 / 2 ^ 8)) by (apply (exp_sq_lower _ _ _ _ H11); lra).
  assert (H13 : 1.0366719622910270 <= exp (4.61 / 2 ^ 7)) by (apply (exp_sq_lower _ _ _ _ H12); lra).
  assert (H14 : 1.0746887574003285 <= exp (4.61 / 2 ^ 6)) by (apply (exp_sq_lower _ _ _ _ H13); lra).
  assert (H15 : 1.1549559252826621 <= exp (4.61 / 2 ^ 5)) by (apply (exp_sq_lower _ _ _ _ H14); lra).
  assert (H16 : 1.3339231893455301 <= exp (4.61 / 2 ^ 4)) by (apply (exp_sq_lower _ _ _ _ H15); lra).
  assert (H17 : 1.7793510750737509 <= exp (4.61 / 2 ^ 3)) by (apply (exp_sq_lower _ _ _ _ H16); lra).
  assert (H18 : 3.1660902483661131 <= exp (4.61 / 2 ^ 2)) by (apply (exp_sq_lower _ _ _ _ H17); lra).
  assert (H19 : 10.0241274607989957 <= exp (4.61 / 2 ^ 1)) by (apply (exp_sq_lower _ _ _ _ H18); lra).
  assert (H20 : 100.4831313503445210 <= exp (4.61 / 2 ^ 0)) by (apply (exp_sq_lower _ _ _ _ H19); lra).
  replace (4.61 / 2 ^ 0) with 4.61 in H20 by lra. lra.
Qed.

Lemma exp_6_shielded : 40 <= exp 3.6896.
Proof.
  assert (H0 : 1.0000035186767578 <= exp (3.6896 / 2 ^ 20)) by (pose proof (exp_ineq1_le (3.6896 / 2 ^ 20)); lra).
  assert (H1 : 1.0000070373658966 <= exp (3.6896 / 2 ^ 19)) by (apply (exp_sq_lower _ _ _ _ H0); lra).
  assert (H2 : 1.0000140747813177 <= exp (3.6896 / 2 ^ 18)) by (apply (exp_sq_lower _ _ _ _ H1); lra).
  assert (H3 : 1.0000281497607348 <= exp (3.6896 / 2 ^ 17)) by (apply (exp_sq_lower _ _ _ _ H2); lra).
  assert (H4 : 1.0000563003138786 <= exp (3.6896 / 2 ^ 16)) by (apply (exp_sq_lower _ _ _ _ H3); lra).
  assert (H5 : 1.0001126037974825 <= exp (3.6896 / 2 ^ 15)) by (apply (exp_sq_lower _ _ _ _ H4); lra).
  assert (H6 : 1.0002252202745802 <= exp (3.6896 / 2 ^ 14)) by (apply (exp_sq_lower _ _ _ _ H5); lra).
  assert (H7 : 1.0004504912733324 <= exp (3.6896 / 2 ^ 13)) by (apply (exp_sq_lower _ _ _ _ H6); lra).
  assert (H8 : 1.0009011854890521 <= exp (3.6896 / 2 ^ 12)) by (apply (exp_sq_lower _ _ _ _ H7); lra).
  assert (H9 : 1.0018031831133898 <= exp (3.6896 / 2 ^ 11)) by (apply (exp_sq_lower _ _ _ _ H8); lra).
  assert (H10 : 1.0036096176961200 <= exp (3.6896 / 2 ^ 10)) by (apply (exp_sq_lower _ _ _ _ H9); lra).
  assert (H11 : 1.0072322647321521 <= exp (3.6896 / 2 ^ 9)) by (apply (exp_sq_lower _ _ _ _ H10); lra).
  assert (H12 : 1.0145168351174601 <= exp (3.6896 / 2 ^ 8)) by (apply (exp_sq_lower _ _ _ _ H11); lra).
  assert (H13 : 1.0292444087367477 <= exp (3.6896 / 2 ^ 7)) by (apply (exp_sq_lower _ _ _ _ H12); lra).
  assert (H14 : 1.0593440529158573 <= exp (3.6896 / 2 ^ 6)) by (apply (exp_sq_lower _ _ _ _ H13); lra).
  assert (H15 : 1.1222098224481946 <= exp (3.6896 / 2 ^ 5)) by (apply (exp_sq_lower _ _ _ _ H14); lra).
  assert (H16 : 1.2593548855992084 <= exp (3.6896 / 2 ^ 4)) by (apply (exp_sq_lower _ _ _ _ H15); lra).
  assert (H17 : 1.5859747278825952 <= exp (3.6896 / 2 ^ 3)) by (apply (exp_sq_lower _ _ _ _ H16); lra).
  assert (H18 : 2.5153158374822718 <= exp (3.6896 / 2 ^ 2)) by (apply (exp_sq_lower _ _ _ _ H17); lra).
  assert (H19 : 6.3268137622891423 <= exp (3.6896 / 2 ^ 1)) by (apply (exp_sq_lower _ _ _ _ H18); lra).
  assert (H20 : 40.0285723826912916 <= exp (3.6896 / 2 ^ 0)) by (apply (exp_sq_lower _ _ _ _ H19); lra).
  replace (3.6896 / 2 ^ 0) with 3.6896 in H20 by lra. lra.
Qed.

Lemma exp_6_unshielded : 20.5 <= exp 3.0244.
Proof.
  assert (H0 : 1.0000028842926025 <= exp (3.0244 / 2 ^ 20)) by (pose proof (exp_ineq1_le (3.0244 / 2 ^ 20)); lra).
  assert (H1 : 1.0000057685935241 <= exp (3.0244 / 2 ^ 19)) by (apply (exp_sq_lower _ _ _ _ H0); lra).
  assert (H2 : 1.0000115372203248 <= exp (3.0244 / 2 ^ 18)) by (apply (exp_sq_lower _ _ _ _ H1); lra).
  assert (H3 : 1.0000230745737570 <= exp (3.0244 / 2 ^ 17)) by (apply (exp_sq_lower _ _ _ _ H2); lra).
  assert (H4 : 1.0000461496799499 <= exp (3.0244 / 2 ^ 16)) by (apply (exp_sq_lower _ _ _ _ H3); lra).
  assert (H5 : 1.0000923014896927 <= exp (3.0244 / 2 ^ 15)) by (apply (exp_sq_lower _ _ _ _ H4); lra).
  assert (H6 : 1.0001846114989503 <= exp (3.0244 / 2 ^ 14)) by (apply (exp_sq_lower _ _ _ _ H5); lra).
  assert (H7 : 1.0003692570793061 <= exp (3.0244 / 2 ^ 13)) by (apply (exp_sq_lower _ _ _ _ H6); lra).
  assert (H8 : 1.0007386505094028 <= exp (3.0244 / 2 ^ 12)) by (apply (exp_sq_lower _ _ _ _ H7); lra).
  assert (H9 : 1.0014778466233806 <= exp (3.0244 / 2 ^ 11)) by (apply (exp_sq_lower _ _ _ _ H8); lra).
  assert (H10 : 1.0029578772774034 <= exp (3.0244 / 2 ^ 10)) by (apply (exp_sq_lower _ _ _ _ H9); lra).
  assert (H11 : 1.0059245035927949 <= exp (3.0244 / 2 ^ 9)) by (apply (exp_sq_lower _ _ _ _ H10); lra).
  assert (H12 : 1.0118841069284108 <= exp (3.0244 / 2 ^ 8)) by (apply (exp_sq_lower _ _ _ _ H11); lra).
  assert (H13 : 1.0239094458543075 <= exp (3.0244 / 2 ^ 7)) by (apply (exp_sq_lower _ _ _ _ H12); lra).
  assert (H14 : 1.0483905533096750 <= exp (3.0244 / 2 ^ 6)) by (apply (exp_sq_lower _ _ _ _ H13); lra).
  assert (H15 : 1.0991227522689664 <= exp (3.0244 / 2 ^ 5)) by (apply (exp_sq_lower _ _ _ _ H14); lra).
  assert (H16 : 1.2080708245553076 <= exp (3.0244 / 2 ^ 4)) by (apply (exp_sq_lower _ _ _ _ H15); lra).
  assert (H17 : 1.4594351171417407 <= exp (3.0244 / 2 ^ 3)) by (apply (exp_sq_lower _ _ _ _ H16); lra).
  assert (H18 : 2.1299508611465263 <= exp (3.0244 / 2 ^ 2)) by (apply (exp_sq_lower _ _ _ _ H17); lra).
  assert (H19 : 4.5366906708988289 <= exp (3.0244 / 2 ^ 1)) by (apply (exp_sq_lower _ _ _ _ H18); lra).
  assert (H20 : 20.5815622434204662 <= exp (3.0244 / 2 ^ 0)) by (apply (exp_sq_lower _ _ _ _ H19); lra).
  replace (3.0244 / 2 ^ 0) with 3.0244 in H20 by lra. lra.
Qed.
