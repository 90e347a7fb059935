(** Proofs about the dew point of a vapour pressure, and about wet bulb temperature. *)
From Coq Require Import Reals ZArith List Bool Lra Lia.
From Verif Require Import RNum WinsModel WinsSpec WinsProofs SolarProofs ExpBounds SatModel SatProofs DewModel DewProofs BrentProofs.
Import ListNotations.
Local Open Scope R_scope.

Lemma zerobr_converges f g a b t : 0.000000001 <= t -> 0 <= a < b -> b <= 1000 -> (forall x, inside a b x -> f x = Ok (Some (g x))) ->
  let tol := 0.5 * t + 2 * meps * b in
  opposite (g a) (g b) \/ g a = 0 \/ g b = 0 ->
  exists r, zerobr f a b t = Ok r /\ inside a b r /\
    (Rabs (g r) <= tol \/ exists c, inside a b c /\ Rabs (c - r) < 2 * (meps * Rabs r + t) /\ opposite (g r) (g c)).
Proof.
  intros T AB BM F tol OP. assert (IA : inside a b a) by (unfold inside; lra). assert (IB : inside a b b) by (unfold inside; lra).
  unfold zerobr. destruct (reqb_spec a b); [lra|]. rewrite (F a IA), (F b IB). cbn [bind nabs rlift option_map ncmp rlift2].
  rewrite (Rabs_right a), (Rabs_right b) by lra. destruct (rleb_spec a b) as [_|]; [|lra]. fold tol.
  assert (TOL : 0 < tol) by (unfold tol, meps; lra).
  destruct (rleb_spec (Rabs (g b)) tol) as [L|L]; [exists b; auto|].
  destruct (rleb_spec (Rabs (g a)) tol) as [K|K]; [exists a; auto|].
  assert (NA : g a <> 0) by (intros Z; rewrite Z, Rabs_R0 in K; lra). assert (NB : g b <> 0) by (intros Z; rewrite Z, Rabs_R0 in L; lra).
  destruct OP as [OP|[OP|OP]]; try contradiction.
  unfold positive, ncmp. destruct (rltb_spec 0 (g b * g a)) as [S|S]; [unfold opposite in OP; nra|].
  set (st := mk_brent a b 0 0 0 (Some (g a)) (Some (g b)) (Some (g b))).
  assert (BF : before g a b st).
  { unfold before, st. cbn [z_a z_b z_c z_fa z_fb z_fc]. repeat (split; [assumption || reflexivity|]). left. split; [|exact OP].
    exists (g b). split; [reflexivity|]. unfold opposite. lra. }
  assert (FL : flips st = true).
  { unfold flips, st. cbn [z_fb z_fc]. apply same_sign_test. unfold opposite. lra. }
  destruct (order_effect st) as (OW & OD & OE). rewrite FL in OW, OD, OE. cbn [z_a z_b st] in OW, OD, OE. rewrite (Rabs_left1 (a - b)) in OW by lra.
  assert (ME : meps * b < t) by (unfold meps; nra).
  assert (ST : stage t (b - a) 0 (brent_order st)).
  { replace (b - a) with (width (brent_order st)) by lra.
    apply stage_fresh; rewrite ?OD, ?OE, OW; try (rewrite Rabs_right by lra); lra. }
  destruct (loop_answers f g a b t F ltac:(lra) ltac:(lra) ME (brent_turns a b t) st (b - a) 0 BF ST) as (r & E & I & A).
  { cbn [INR]. rewrite Rminus_0_r. apply turns_enough; lra. }
  exists r. split; [exact E|]. split; [exact I|]. destruct A as [Z|A]; [left; rewrite Z, Rabs_R0; lra | right; exact A].
Qed.

(** ** the interval for the dew point *)
Lemma satm_value e x : 0 < x -> satm (Some e) x = Ok (Some (e - sat x)).
Proof. intros X. unfold satm, sati_c. destruct (rleb_spec x 0); [lra | reflexivity]. Qed.
Lemma sat_small t : 0 < t <= FREEZE -> sat t <= 6107.1 * exp (- (9.09718 * 2 * (FREEZE / t - 1))).
Proof.
  intros H. rewrite sat_ice by lra. unfold iexp. pose proof ln10_bounds as LB. set (l := ln 10) in *.
  assert (Q : 1 <= FREEZE / t). { apply Rmult_le_reg_r with t; [lra|]. unfold Rdiv. rewrite Rmult_assoc, Rinv_l by lra. lra. }
  assert (LN : 0 <= ln (FREEZE / t)). { rewrite <- ln_1. destruct (Req_dec 1 (FREEZE / t)) as [<-|]; [lra|]. left. apply ln_increasing; lra. }
  replace 6107.1 with (100 * exp (ln 10 + ln 6.1071)) by (rewrite exp_plus, !exp_ln by lra; lra). fold l.
  rewrite (Rmult_assoc 100 (exp (l + ln 6.1071))). apply Rmult_le_compat_l; [lra|].
  rewrite <- exp_plus. apply exp_le.
  assert (T1 : 0 <= t / FREEZE) by (apply Rmult_le_pos; [lra | left; apply Rinv_0_lt_compat; unfold FREEZE; lra]).
  assert (0.876793 * (1 - t / FREEZE) * l <= l) by nra. assert (2 * (FREEZE / t - 1) <= (FREEZE / t - 1) * l) by nra. nra.
Qed.
Lemma four_thirds n : 1 + INR n / 3 <= (4 / 3) ^ n.
Proof. induction n as [|n IH]; [cbn; lra|]. rewrite S_INR. cbn [pow]. pose proof (pos_INR n). nra. Qed.
Lemma sat_reaches e : 0 < e -> exists n, sat (FREEZE * 0.75 ^ n) <= e.
Proof.
  intros E. destruct (archimed (6107.1 / e)) as [AR _]. set (k := Z.to_nat (up (6107.1 / e))).
  assert (K : 6107.1 / e < INR k).
  { unfold k. assert (0 < 6107.1 / e) by (apply Rdiv_lt_0_compat; lra). assert (0 < IZR (up (6107.1 / e))) by lra. apply lt_IZR in H0.
    rewrite INR_IZR_INZ, Z2Nat.id by lia. lra. }
  exists k. assert (P : 0 < 0.75 ^ k) by (apply pow_lt; lra). assert (P1 : 0.75 ^ k <= 1) by (rewrite <- (pow1 k); apply pow_incr; lra).
  apply Rle_trans with (1 := sat_small (FREEZE * 0.75 ^ k) ltac:(unfold FREEZE in *; nra)).
  assert (Q : FREEZE / (FREEZE * 0.75 ^ k) = (4 / 3) ^ k).
  { replace (4 / 3) with (/ 0.75) by lra. rewrite pow_inv. unfold Rdiv. rewrite Rinv_mult, <- Rmult_assoc, Rinv_r by (unfold FREEZE; lra). ring. }
  rewrite Q. pose proof (four_thirds k) as FT. pose proof (pos_INR k).
  assert (INR k <= exp (9.09718 * 2 * ((4 / 3) ^ k - 1))).
  { pose proof (exp_ineq1_le (9.09718 * 2 * ((4 / 3) ^ k - 1))). lra. }
  rewrite exp_Ropp. set (z := exp (9.09718 * 2 * ((4 / 3) ^ k - 1))) in *.
  assert (Z0 : 0 < z) by (apply Rlt_le_trans with (INR k); [|assumption]; assert (0 < 6107.1 / e) by (apply Rdiv_lt_0_compat; lra); lra).
  apply Rmult_le_reg_r with z; [exact Z0|]. rewrite Rmult_assoc, Rinv_l by lra.
  assert (6107.1 <= e * z); [|lra]. apply Rmult_le_reg_r with (/ e); [apply Rinv_0_lt_compat; exact E|].
  replace (e * z * / e) with z by (field; lra). unfold Rdiv in K. lra.
Qed.
(** the lower end: the first of the candidates whose saturation pressure is not above e *)
Lemma lower_found e n : forall a fuel, 0 < a -> sat (a * 0.75 ^ n) <= e -> (n < fuel)%nat ->
  exists k, (k <= n)%nat /\ lower_end fuel (Some e) a = Some (Ok (a * 0.75 ^ k)) /\ sat (a * 0.75 ^ k) <= e.
Proof.
  induction n as [|n IH]; intros a fuel A SN FU; (destruct fuel as [|fuel]; [lia|]); cbn [lower_end]; unfold sati_c; (destruct (rleb_spec a 0); [lra|]); cbn [ncmp].
  - exists 0%nat. cbn [pow] in *. rewrite Rmult_1_r in *. destruct (rltb_spec e (sat a)); [lra|]. auto.
  - destruct (rltb_spec e (sat a)) as [L|L].
    + destruct (IH (a * 0.75) fuel) as (k & K & E & SE); [lra | | lia |].
      { replace (a * 0.75 * 0.75 ^ n) with (a * 0.75 ^ S n) by (cbn [pow]; ring). exact SN. }
      exists (S k). split; [lia|]. replace (a * 0.75 ^ S k) with (a * 0.75 * 0.75 ^ k) by (cbn [pow]; ring). auto.
    + exists 0%nat. split; [lia|]. cbn [pow]. rewrite Rmult_1_r. split; [reflexivity | lra].
Qed.
Lemma lower_runs e : e <= 0 -> forall fuel a, 0 < a -> lower_end fuel (Some e) a = None.
Proof.
  intros E. induction fuel as [|n IH]; intros a A; [reflexivity|]. cbn [lower_end]. unfold sati_c. destruct (rleb_spec a 0); [lra|]. cbn [ncmp].
  destruct (rltb_spec e (sat a)) as [L|L]; [apply IH; lra|]. pose proof (sat_pos a). lra.
Qed.
Lemma upper_found e : e <= SEA_LEVEL -> forall fuel, (3 <= fuel)%nat ->
  exists b, upper_end fuel (Some e) (FREEZE + 15) = Some (Ok b) /\ FREEZE + 15 <= b <= 450.25 /\ e <= sat b.
Proof.
  intros E fuel FU. destruct fuel as [|[|[|fuel]]]; try lia. cbn [upper_end]. unfold sati_c, FREEZE.
  destruct (rleb_spec (273.16 + 15) 0); [lra|]. cbn [ncmp]. destruct (rltb_spec (sat (273.16 + 15)) e) as [L|L]; [|exists (273.16 + 15); split; [reflexivity|]; split; lra].
  destruct (rleb_spec ((273.16 + 15) * 1.25) 0); [lra|]. cbn [ncmp]. destruct (rltb_spec (sat ((273.16 + 15) * 1.25)) e) as [L1|L1]; [|exists ((273.16 + 15) * 1.25); split; [reflexivity|]; split; lra].
  destruct (rleb_spec ((273.16 + 15) * 1.25 * 1.25) 0); [lra|]. cbn [ncmp]. 
  assert (SB : SEA_LEVEL <= sat ((273.16 + 15) * 1.25 * 1.25)) by (rewrite <- sat_boil; apply sat_le; unfold BOIL; lra).
  destruct (rltb_spec (sat ((273.16 + 15) * 1.25 * 1.25)) e) as [L2|L2]; [lra|].
  exists ((273.16 + 15) * 1.25 * 1.25). split; [reflexivity|]. split; lra.
Qed.
Lemma dew_found e t : 0 < e <= SEA_LEVEL -> 0.000000001 <= t -> exists n r,
  (forall fuel, (n <= fuel)%nat -> dew_pointp fuel (Some e) t = Some (Ok r)) /\ 0 < r <= 450.25 /\
  (Rabs (sat r - e) <= 0.5 * t + 0.000000000001 \/
   (forall x, 0 < x <= r - 2 * (meps * r + t) -> sat x <= e) /\ (forall x, r + 2 * (meps * r + t) <= x <= 1300 -> e <= sat x)).
Proof.
  intros E T. destruct (sat_reaches e ltac:(lra)) as (k & SK).
  destruct (lower_found e k FREEZE (S k) ltac:(unfold FREEZE; lra) SK ltac:(lia)) as (i & I & L & SA).
  destruct (upper_found e ltac:(lra) 3 ltac:(lia)) as (b & U & B & SB).
  set (a := FREEZE * 0.75 ^ i) in *. assert (A : 0 < a <= FREEZE).
  { unfold a. assert (0 < 0.75 ^ i) by (apply pow_lt; lra). assert (0.75 ^ i <= 1) by (rewrite <- (pow1 i); apply pow_incr; lra). unfold FREEZE. nra. }
  assert (AB : 0 <= a < b) by (unfold FREEZE in *; lra).
  destruct (zerobr_converges (satm (Some e)) (fun x => e - sat x) a b t T AB ltac:(lra)) as (r & Z & IN & R).
  { intros x X. apply satm_value. unfold inside in X. lra. }
  { cbv beta. unfold opposite. destruct (Req_dec (sat a) e), (Req_dec (sat b) e); lra. }
  unfold inside in IN. exists (S k + 3)%nat, r. split; [|split; [lra|]].
  - intros fuel FU. unfold dew_pointp.
    destruct (lower_found e k FREEZE fuel ltac:(unfold FREEZE; lra) SK ltac:(lia)) as (i' & I' & L' & SA').
    assert (LE : lower_end fuel (Some e) FREEZE = Some (Ok a)).
    { clear - L FU. revert L. generalize FREEZE as x. intros x L. assert (MON : forall n m y v, lower_end n (Some e) y = Some v -> (n <= m)%nat -> lower_end m (Some e) y = Some v).
      { induction n as [|n IH]; intros m y v H M; [discriminate H|]. destruct m as [|m]; [lia|]. cbn [lower_end] in *. destruct (sati_c (Some y)) as [s|]; [|exact H].
        destruct (ncmp rltb (Some e) s); [apply IH; [exact H | lia] | exact H]. }
      apply (MON (S k)); [exact L | lia]. }
    rewrite LE. destruct (upper_found e ltac:(lra) fuel ltac:(lia)) as (b' & U' & _ & _).
    assert (UE : upper_end fuel (Some e) (FREEZE + 15) = Some (Ok b)).
    { clear - U FU. assert (MON : forall n m y v, upper_end n (Some e) y = Some v -> (n <= m)%nat -> upper_end m (Some e) y = Some v).
      { induction n as [|n IH]; intros m y v H M; [discriminate H|]. destruct m as [|m]; [lia|]. cbn [upper_end] in *. destruct (sati_c (Some y)) as [s|]; [|exact H].
        destruct (ncmp rltb s (Some e)); [apply IH; [exact H | lia] | exact H]. }
      apply (MON 3%nat); [exact U | lia]. }
    rewrite UE, Z. reflexivity.
  - destruct R as [R|(c & IC & CR & OP)].
    + left. rewrite Rabs_minus_sym. apply Rle_trans with (1 := R). unfold meps. lra.
    + right. rewrite (Rabs_right r) in CR by lra. unfold inside in IC. unfold opposite in OP. apply Rabs_def2 in CR. set (dl := 2 * (meps * r + t)) in *.
      assert (0 < dl) by (unfold dl, meps; nra). split; intros x X.
      * destruct OP as [[O1 O2]|[O1 O2]].
        -- apply Rle_trans with (sat r); [apply sat_le|]; lra.
        -- apply Rle_trans with (sat c); [apply sat_le|]; lra.
      * destruct OP as [[O1 O2]|[O1 O2]].
        -- apply Rle_trans with (sat c); [|apply sat_le]; lra.
        -- apply Rle_trans with (sat r); [|apply sat_le]; lra.
Qed.
Lemma dew_runs e t fuel : e <= 0 -> dew_pointp fuel (Some e) t = None.
Proof. intros E. unfold dew_pointp. rewrite lower_runs by (try assumption; unfold FREEZE; lra). reflexivity. Qed.

(** ** a missing pressure *)
Lemma nan_turn t st : 0 < t -> z_c st = 0 -> 0 < z_b st -> z_fa st = None -> z_fb st = None -> z_fc st = None ->
  brent_turn (satm None) t st = Ok (inl (z_b st)) /\ z_b st / 2 < meps * z_b st + t \/
  exists d e, brent_turn (satm None) t st = Ok (inr (mk_brent (z_b st) (z_b st / 2) 0 d e None None None)).
Proof.
  intros T C B FA FB FC. unfold brent_turn. assert (O : brent_order st = st) by (unfold brent_order; rewrite FB, FC; cbn [positive not_positive ncmp andb orb nabs rlift option_map]; cbv zeta; rewrite ?FB, ?FC; reflexivity). rewrite O. cbv zeta. rewrite C, FA, FB, FC.
  replace (Rabs ((0 - z_b st) / 2)) with (z_b st / 2) by (rewrite Rabs_left by lra; lra). rewrite (Rabs_right (z_b st)) by lra.
  destruct (rltb_spec (z_b st / 2) (meps * z_b st + t)) as [L|L]; [left; split; [reflexivity | exact L]|]. right. cbn [is_zero ncmp orb].
  assert (M : brent_move (meps * z_b st + t) ((0 - z_b st) / 2) (z_a st) (z_b st) 0 (z_d st) (z_e st) None None None = ((0 - z_b st) / 2, (0 - z_b st) / 2)).
  { unfold brent_move. cbn [nabs rlift option_map ncmp]. destruct (rltb _ _); reflexivity. }
  rewrite M. assert (BE : (if rltb (meps * z_b st + t) (Rabs ((0 - z_b st) / 2)) then z_b st + (0 - z_b st) / 2 else if rltb 0 ((0 - z_b st) / 2) then z_b st + (meps * z_b st + t) else z_b st - (meps * z_b st + t)) = z_b st / 2).
  { replace (Rabs ((0 - z_b st) / 2)) with (z_b st / 2) by (rewrite Rabs_left by lra; lra).
    destruct (rltb_spec (meps * z_b st + t) (z_b st / 2)); [lra|]. destruct (rltb_spec 0 ((0 - z_b st) / 2)); lra. }
  rewrite BE. unfold satm, sati_c. destruct (rleb_spec (z_b st / 2) 0); [lra|]. cbn [bind rlift2]. eexists. eexists. reflexivity.
Qed.
Lemma nan_loop t n : 0 < t -> forall st, z_c st = 0 -> 0 < z_b st -> z_fa st = None -> z_fb st = None -> z_fc st = None ->
  exists r, brent_loop (satm None) t n st = Ok r /\ 0 <= r /\ r / 2 < meps * r + t.
Proof.
  intros T. induction n as [|n IH]; intros st C B FA FB FC; cbn [brent_loop]; [exists 0; split; [reflexivity | lra]|].
  destruct (nan_turn t st T C B FA FB FC) as [[-> L]|(d & e & ->)]; cbn [bind].
  - exists (z_b st). split; [reflexivity | lra].
  - apply IH; cbn; try reflexivity. lra.
Qed.
Lemma dew_nan t fuel : 0 < t -> (0 < fuel)%nat -> exists r, dew_pointp fuel None t = Some (Ok r) /\ 0 <= r < 3 * t.
Proof.
  intros T FU. destruct fuel as [|fuel]; [lia|]. unfold dew_pointp. cbn [lower_end upper_end]. unfold sati_c at 1 2.
  destruct (rleb_spec FREEZE 0) as [H|_]; [unfold FREEZE in H; lra|]. destruct (rleb_spec (FREEZE + 15) 0) as [H|_]; [unfold FREEZE in H; lra|]. cbn [ncmp].
  unfold zerobr. destruct (reqb_spec FREEZE (FREEZE + 15)) as [H|_]; [lra|]. cbv zeta.
  assert (SM : forall x, 0 < x -> satm None x = Ok None) by (intros x X; unfold satm, sati_c; destruct (rleb_spec x 0); [lra | reflexivity]).
  rewrite !SM by (unfold FREEZE; lra). cbn [bind nabs rlift option_map ncmp rlift2 positive].
  destruct (nan_loop t (brent_turns FREEZE (FREEZE + 15) t) T (mk_brent FREEZE (FREEZE + 15) 0 0 0 None None None)) as (r & E & R0 & R1); try reflexivity.
  { cbn. unfold FREEZE. lra. }
  exists r. split; [unfold positive, ncmp; rewrite E; reflexivity|]. unfold meps in R1. lra.
Qed.
