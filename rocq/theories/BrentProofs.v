(** Convergence of the zero finder within its budget of turns. *)
From Coq Require Import Reals ZArith List Bool Lra Lia.
From Verif Require Import RNum WinsModel SatModel DewModel DewSpec DewProofs.
Import ListNotations.
Local Open Scope R_scope.

(** base two logarithm *)
Definition lg (z : R) : R := ln z / ln 2.
Lemma ln2_pos : 0 < ln 2.
Proof. rewrite <- ln_1. apply ln_increasing; lra. Qed.
Lemma lg_le x y : 0 < x <= y -> lg x <= lg y.
Proof.
  intros H. unfold lg. apply Rmult_le_compat_r; [left; apply Rinv_0_lt_compat, ln2_pos|].
  destruct (Req_dec x y) as [->|]; [lra|]. left. apply ln_increasing; lra.
Qed.
Lemma lg_pow n : lg (2 ^ n) = INR n.
Proof. unfold lg. rewrite <- Rpower_pow by lra. unfold Rpower. rewrite ln_exp. field. pose proof ln2_pos. lra. Qed.
Lemma lg_mult x y : 0 < x -> 0 < y -> lg (x * y) = lg x + lg y.
Proof. intros X Y. unfold lg. rewrite ln_mult by assumption. pose proof ln2_pos. field. lra. Qed.
Lemma lg_div x y : 0 < x -> 0 < y -> lg (x / y) = lg x - lg y.
Proof. intros X Y. unfold lg, Rdiv. rewrite ln_mult; [|exact X | apply Rinv_0_lt_compat; exact Y]. rewrite ln_Rinv by exact Y. pose proof ln2_pos. field. lra. Qed.
Lemma lg_1 : lg 1 = 0. Proof. unfold lg. rewrite ln_1. unfold Rdiv. ring. Qed.
Lemma lg_2 : lg 2 = 1. Proof. unfold lg. pose proof ln2_pos. field. lra. Qed.
Lemma lg_sq x : 0 < x -> lg (x * x) = 2 * lg x.
Proof. intros X. rewrite lg_mult by assumption. ring. Qed.
Lemma lg_4 x : 0 < x -> lg x < 1 -> x < 2.
Proof.
  intros X L. destruct (Rlt_dec x 2) as [H|H]; [exact H|]. exfalso. pose proof (lg_le 2 x ltac:(lra)) as K. rewrite lg_2 in K. lra.
Qed.
Lemma lg_ge1 x : 2 <= x -> 1 <= lg x.
Proof. intros X. rewrite <- lg_2. apply lg_le. lra. Qed.

(** how far b has moved after n interpolated steps, in multiples of the last two steps *)
Fixpoint coef (n : nat) : R * R := match n with O => (0, 0) | S n => let '(p, q) := coef n in (2 * q + 1, p) end.
Definition cA n := fst (coef n).
Definition cB n := snd (coef n).
Lemma coef_S n : cA (S n) = 2 * cB n + 1 /\ cB (S n) = cA n.
Proof. unfold cA, cB. cbn [coef]. destruct (coef n). split; reflexivity. Qed.
Lemma coef_pos n : 0 <= cA n /\ 0 <= cB n.
Proof. induction n as [|n IH]; [unfold cA, cB; cbn; lra|]. destruct (coef_S n) as [-> ->]. lra. Qed.
Lemma coef_sq n : 2 ^ (n + 2) <= (cA n + cB n + 2) * (cA n + cB n + 2).
Proof.
  assert (H : 2 ^ (n + 2) <= (cA n + cB n + 2) * (cA n + cB n + 2) /\ 2 ^ (S n + 2) <= (cA (S n) + cB (S n) + 2) * (cA (S n) + cB (S n) + 2)); [|apply H].
  induction n as [|n [IH1 IH2]]; [unfold cA, cB; cbn; lra|]. split; [exact IH2|].
  destruct (coef_S (S n)) as [-> ->]. destruct (coef_S n) as [-> ->].
  replace (2 ^ (S (S n) + 2)) with (4 * 2 ^ (n + 2)) by (cbn [Nat.add pow]; ring). nra.
Qed.

(** ** the state inside a phase of interpolated steps *)
Section Converge.
Context (f : R -> res rnum) (g : R -> R) (lo hi t : R).
Context (F : forall x, inside lo hi x -> f x = Ok (Some (g x))) (T : 0 < t) (LO : 0 <= lo) (ME : meps * hi < t).

Definition width (st : brent) : R := Rabs (z_c st - z_b st).
(** n interpolated steps after the interval was [l] wide and both remembered steps were as long *)
Definition stage (l : R) (n : nat) (st : brent) : Prop :=
  let M := l - width st in
  0 < l /\ 0 < width st /\
  Rabs (z_d st) * Rabs (z_d st) * 2 ^ n <= l * l /\ Rabs (z_e st) * Rabs (z_e st) * 2 ^ n <= 2 * (l * l) /\
  cA n * Rabs (z_d st) + cB n * Rabs (z_e st) <= M /\
  (forall k, n = S k -> cA k * Rabs (z_e st) + cB k * t + t <= M) /\
  (forall k, n = S (S k) -> (cA k + cB k + 2) * t <= M) /\ (n <> O -> 2 * t <= l).
Definition budget (l : R) : R := if Rlt_dec (lg (l / t)) 1 then 1 else (lg (l / t) + 1) * (lg (l / t) + 1) - 1.

Lemma stage_count l n st : stage l n st -> 2 * t <= l -> 1 <= lg (l / t) /\ INR n <= 2 * lg (l / t).
Proof.
  intros (L & W & _ & _ & _ & _ & E & _) L2.
  assert (X : 1 <= lg (l / t)).
  { apply lg_ge1. apply Rmult_le_reg_r with t; [exact T|]. unfold Rdiv. rewrite Rmult_assoc, Rinv_l by lra. lra. }
  split; [exact X|]. destruct n as [|[|k]]; [cbn; lra | cbn; lra|].
  specialize (E k eq_refl). assert (P : 0 < l / t) by (apply Rdiv_lt_0_compat; assumption).
  rewrite <- lg_sq by exact P. rewrite <- lg_pow. apply lg_le. split; [apply pow_lt; lra|].
  replace (2 ^ S (S k)) with (2 ^ (k + 2)) by (f_equal; lia). apply Rle_trans with (1 := coef_sq k).
  assert (Q : cA k + cB k + 2 <= l / t). { apply Rmult_le_reg_r with t; [exact T|]. unfold Rdiv. rewrite Rmult_assoc, Rinv_l by lra. lra. }
  pose proof (coef_pos k). apply Rmult_le_compat; lra.
Qed.
Lemma budget_ge l n st : stage l n st -> 1 <= budget l - INR n.
Proof.
  intros S. unfold budget. destruct (Rlt_dec (lg (l / t)) 1) as [H|H].
  - destruct n as [|n]; [cbn; lra|]. exfalso. destruct S as (L & _ & _ & _ & _ & _ & _ & E).
    specialize (E ltac:(discriminate)). assert (l / t < 2) by (apply lg_4; [apply Rdiv_lt_0_compat; assumption | exact H]).
    assert (l < 2 * t). { apply Rmult_lt_reg_r with (/ t); [apply Rinv_0_lt_compat; exact T|]. replace (2 * t * / t) with 2 by (field; lra). exact H0. } lra.
  - assert (2 * t <= l).
    { destruct (Rle_dec (2 * t) l) as [K|K]; [exact K|]. exfalso. apply H. destruct S as (L & _).
      apply Rlt_le_trans with (lg 2); [|rewrite lg_2; lra]. unfold lg. apply Rmult_lt_compat_r; [apply Rinv_0_lt_compat, ln2_pos|]. apply ln_increasing; [apply Rdiv_lt_0_compat; assumption|].
      apply Rmult_lt_reg_r with t; [exact T|]. unfold Rdiv. rewrite Rmult_assoc, Rinv_l by lra. lra. }
    destruct (stage_count l n st S H0) as [X N]. nra.
Qed.
Lemma stage_fresh st : 0 < width st -> Rabs (z_d st) = width st -> Rabs (z_e st) = width st -> stage (width st) 0 st.
Proof.
  intros W D E. unfold stage. rewrite D, E. cbn [pow]. repeat split; try lra; try nra.
  - unfold cA, cB. cbn. lra.
  - intros k K. discriminate K.
  - intros k K. discriminate K.
  - intros K. contradiction K. reflexivity.
Qed.
(** budgets of shorter intervals *)
Lemma budget_half l w n st : stage l n st -> 2 * t <= width st -> 0 < w -> w = width st / 2 -> budget w <= budget l - INR n - 1.
Proof.
  intros S W P E. assert (S' := S). destruct S as (L & _ & _ & _ & _ & H & _ & _).
  assert (WL : width st <= l).
  { destruct n as [|n].
    - destruct S' as (_ & _ & _ & _ & J & _). unfold cA, cB in J. cbn in J. lra.
    - specialize (H n eq_refl). destruct (coef_pos n). pose proof (Rabs_pos (z_e st)). nra. }
  destruct (stage_count l n st S' ltac:(lra)) as [X N]. set (x := lg (l / t)) in *.
  assert (XW : lg (w / t) <= x - 1).
  { unfold x. rewrite !lg_div by lra. assert (lg w <= lg (l / 2)) by (apply lg_le; lra). rewrite lg_div, lg_2 in H0 by lra. lra. }
  unfold budget. fold x. destruct (Rlt_dec x 1); [lra|]. destruct (Rlt_dec (lg (w / t)) 1) as [B|B].
  - destruct n as [|[|k]].
    + cbn. nra.
    + specialize (H 0%nat eq_refl). unfold cA, cB in H. cbn [coef fst snd] in H.
      assert (3 / 2 <= x).
      { assert (LT : 3 <= l / t). { apply Rmult_le_reg_r with t; [exact T|]. unfold Rdiv. rewrite Rmult_assoc, Rinv_l by lra. lra. }
        apply Rmult_le_reg_l with 2; [lra|]. unfold x. rewrite <- lg_sq by lra. replace (2 * (3 / 2)) with (INR 3) by (cbn; lra). rewrite <- lg_pow.
        apply lg_le. cbn. nra. }
      cbn. nra.
    + specialize (H (S k) eq_refl). assert (2 <= x \/ INR (S (S k)) <= x * x + 2 * x - 2) as [G|G].
      { destruct (Rle_dec (3 / 2) x) as [G|G]; [right; nra|]. exfalso. apply G.
        destruct S' as (_ & _ & _ & _ & _ & _ & E2 & _). specialize (E2 k eq_refl). destruct (coef_pos k).
        assert (LT : 4 <= l / t). { apply Rmult_le_reg_r with t; [exact T|]. unfold Rdiv. rewrite Rmult_assoc, Rinv_l by lra. nra. }
        assert (2 <= x); [|lra]. unfold x. replace 2 with (INR 2) by (cbn; lra). rewrite <- lg_pow. apply lg_le. cbn. lra. }
      * nra.
      * nra.
  - nra.
Qed.
Lemma budget_flip l w n st : stage l n st -> 2 * t <= l -> 0 < w -> t <= w -> w * w * 2 ^ S n <= l * l -> INR (S n) <= 2 * lg (l / t) ->
  budget w <= budget l - INR n - 1.
Proof.
  intros S L2 P TW D N1. destruct (stage_count l n st S L2) as [X N]. assert (L : 0 < l) by lra. set (x := lg (l / t)) in *.
  assert (XW : lg (w / t) <= x - INR (Datatypes.S n) / 2).
  { assert (K : lg (w * w * 2 ^ Datatypes.S n) <= lg (l * l)).
    { apply lg_le. split; [|exact D]. apply Rmult_lt_0_compat; [nra | apply pow_lt; lra]. }
    rewrite lg_mult, !lg_sq, lg_pow in K by (try nra; apply pow_lt; lra). unfold x. rewrite !lg_div by lra. lra. }
  assert (X0 : 0 <= lg (w / t)).
  { rewrite <- lg_1. apply lg_le. split; [lra|]. apply Rmult_le_reg_r with t; [exact T|]. unfold Rdiv. rewrite Rmult_assoc, Rinv_l by lra. lra. }
  rewrite S_INR in *. pose proof (pos_INR n). unfold budget. fold x. destruct (Rlt_dec x 1); [lra|]. destruct (Rlt_dec (lg (w / t)) 1) as [B|B]; [nra|].
  assert ((lg (w / t) + 1) * (lg (w / t) + 1) <= (x - (INR n + 1) / 2 + 1) * (x - (INR n + 1) / 2 + 1)) by (apply Rmult_le_compat; lra). nra.
Qed.

(** what reordering does to the interval and to the remembered steps *)
Definition flips (st : brent) : bool :=
  ((positive (z_fb st) && positive (z_fc st)) || (not_positive (z_fb st) && not_positive (z_fc st)))%bool.
Lemma order_effect st :
  width (brent_order st) = (if flips st then Rabs (z_a st - z_b st) else width st) /\
  z_d (brent_order st) = (if flips st then z_b st - z_a st else z_d st) /\
  z_e (brent_order st) = (if flips st then z_b st - z_a st else z_e st).
Proof.
  unfold brent_order. fold (flips st). destruct (flips st); cbv zeta; cbn [z_a z_b z_c z_d z_e z_fa z_fb z_fc];
    destruct (ncmp rltb _ _); unfold width; cbn [z_a z_b z_c z_d z_e z_fa z_fb z_fc]; (split; [|split; reflexivity]); try reflexivity; apply Rabs_minus_sym.
Qed.
Lemma move_cases tol m a b c d e fa fb fc d' e' : 0 < tol <= Rabs m ->
  brent_move tol m a b c d e fa fb fc = (d', e') ->
  (d' = m /\ e' = m) \/ (e' = d /\ tol <= Rabs e /\ 2 * Rabs d' < Rabs e /\ exists k, d' = k * m /\ 0 <= k < 3 / 2).
Proof.
  intros TM E0. destruct (move_spec tol m a b c d e fa fb fc d' e' TM E0) as (k & K). revert E0. unfold brent_move.
  assert (H1 : (m, m) = (d', e') -> (d' = m /\ e' = m) \/ (e' = d /\ tol <= Rabs e /\ 2 * Rabs d' < Rabs e /\ exists k, d' = k * m /\ 0 <= k < 3 / 2)) by (intros [= <- <-]; left; split; reflexivity).
  destruct (rltb_spec (Rabs e) tol) as [TE|TE]; cbn [orb]; [exact H1|].
  destruct (ncmp rleb (nabs fa) (nabs fb)); [exact H1|]. destruct fa as [fa|], fb as [fb|], fc as [fc|]; try exact H1. cbv zeta.
  destruct (if reqb a c then _ else _) as [p0 q0].
  assert (P : exists p q, (if rltb 0 p0 then (p0, - q0) else (- p0, q0)) = (p, q) /\ 0 <= p).
  { destruct (rltb_spec 0 p0); eexists; eexists; (split; [reflexivity|]); lra. }
  destruct P as (p & q & -> & P). destruct (rltb_spec (2 * p) (3 * m * q - Rabs (tol * q))) as [L|L]; cbn [andb]; [|exact H1].
  destruct (rltb_spec p (Rabs (e * q / 2))) as [L'|L']; [|exact H1]. intros [= <- <-]. right. split; [reflexivity|]. split; [lra|]. split; [|exists k; exact K].
  assert (Q : q <> 0). { intros ->. rewrite !Rmult_0_r, Rabs_R0 in L. lra. }
  assert (AQ : 0 < Rabs q) by (apply Rabs_pos_lt; exact Q).
  unfold Rdiv at 1. rewrite Rabs_mult, Rabs_inv, (Rabs_right p) by lra.
  replace (e * q / 2) with (e * q * (/ 2)) in L' by field. rewrite !Rabs_mult, (Rabs_right (/ 2)) in L' by lra.
  apply Rmult_lt_reg_r with (Rabs q); [exact AQ|]. rewrite Rmult_assoc, Rmult_assoc, Rinv_l by lra. lra.
Qed.
(** every turn uses up at least one unit of the budget *)
Lemma turn_budget st l n : before g lo hi st -> stage l n (brent_order st) ->
  (exists r, brent_turn f t st = Ok (inl r) /\ answer g lo hi t r) \/
  (exists st' l' n', brent_turn f t st = Ok (inr st') /\ before g lo hi st' /\ stage l' n' (brent_order st') /\ budget l' - INR n' <= budget l - INR n - 1).
Proof.
  intros B ST. destruct (turn_spec f g lo hi t F T st B) as [H|(st' & E & B')]; [left; exact H|]. right. exists st'.
  pose proof (order_after g lo hi st B) as (A1 & A2 & A3 & FA & FB & FC & O & LE). revert E. unfold brent_turn. set (s := brent_order st) in *. cbv zeta.
  fold (tol_at t (z_b s)). set (tol := tol_at t (z_b s)). set (m := (z_c s - z_b s) / 2). pose proof (tol_pos t (z_b s)) as TP. fold tol in TP.
  destruct (rltb_spec (Rabs m) tol) as [L|L]; [discriminate|]. destruct (is_zero (z_fb s)); cbn [orb]; [discriminate|].
  destruct (brent_move tol m (z_a s) (z_b s) (z_c s) (z_d s) (z_e s) (z_fa s) (z_fb s) (z_fc s)) as [d e] eqn:EM.
  assert (WM : width s = 2 * Rabs m).
  { unfold width, m. replace (z_c s - z_b s) with (2 * ((z_c s - z_b s) / 2)) at 1 by lra. rewrite Rabs_mult, (Rabs_right 2) by lra. reflexivity. }
  assert (M0 : m <> 0) by (intros Z; rewrite Z, Rabs_R0 in L; lra).
  assert (TOL2 : tol < 2 * t).
  { unfold tol, tol_at. unfold inside in A2. rewrite Rabs_right by lra. assert (meps * z_b s <= meps * hi) by (apply Rmult_le_compat_l; [unfold meps; lra | lra]). lra. }
  destruct (move_spec tol m _ _ _ _ _ _ _ _ _ _ ltac:(lra) EM) as (k & DK & K).
  destruct (next_b tol m (z_b s) d k ltac:(lra) DK K) as (j & NB & J & TJ).
  assert (W' : (tol < Rabs d -> j * Rabs m = Rabs d) /\ (Rabs d <= tol -> j * Rabs m = tol)).
  { revert NB. destruct (rltb_spec tol (Rabs d)) as [G|G]; intros NB; (split; intros G'; try lra).
    - assert (d = j * m) by lra. rewrite H, Rabs_mult, (Rabs_right j) by lra. reflexivity.
    - destruct (rltb_spec 0 m).
      + rewrite (Rabs_right m) by lra. lra.
      + rewrite (Rabs_left m) by lra. lra. }
  rewrite NB. assert (IB : inside lo hi (z_b s + j * m)). { unfold inside in *. unfold m. destruct (Rle_or_lt (z_b s) (z_c s)); split; nra. }
  rewrite (F _ IB). cbn [bind]. intros [= E]. 
  assert (WN : width st' = width s - j * Rabs m).
  { rewrite <- E. unfold width. cbn [z_b z_c]. fold (width s). rewrite WM. replace (z_c s - (z_b s + j * m)) with ((2 - j) * m) by (unfold m; lra).
    rewrite Rabs_mult, (Rabs_right (2 - j)) by lra. ring. }
  assert (WF : Rabs (z_a st' - z_b st') = j * Rabs m).
  { rewrite <- E. cbn [z_a z_b]. replace (z_b s - (z_b s + j * m)) with ((- j) * m) by ring. rewrite Rabs_mult, Rabs_Ropp, (Rabs_right j) by lra. reflexivity. }
  destruct (order_effect st') as (OW & OD & OE).
  destruct (move_cases tol m _ _ _ _ _ _ _ _ _ _ ltac:(lra) EM) as [[D1 E1]|(E1 & TE & D1 & _)].
  - (* half of the interval *)
    assert (JM : j * Rabs m = Rabs m) by (rewrite D1 in W'; destruct (Rlt_dec tol (Rabs m)) as [G|G]; [apply W'; exact G | rewrite (proj2 W' ltac:(lra)); lra]).
    assert (FR : width (brent_order st') = Rabs m /\ Rabs (z_d (brent_order st')) = Rabs m /\ Rabs (z_e (brent_order st')) = Rabs m).
    { rewrite OW, OD, OE. destruct (flips st').
      - rewrite (Rabs_minus_sym (z_b st')), WF. lra.
      - rewrite WN. rewrite <- E. cbn [z_d z_e]. rewrite D1, E1. lra. }
    destruct FR as (R1 & R2 & R3). exists (width (brent_order st')), 0%nat. split; [rewrite E; reflexivity|]. split; [exact B'|].
    split; [apply stage_fresh; lra|]. rewrite Rminus_0_r. apply (budget_half l (width (brent_order st')) n s ST); lra.
  - (* an interpolated step *)
    assert (ST' : stage l (S n) st').
    { destruct ST as (L0 & WP & S1 & S2 & S3 & S4 & S5 & S6). destruct (coef_S n) as [CA CB]. destruct (coef_pos n) as [PA PB].
      assert (DW : Rabs d <= j * Rabs m) by (destruct (Rlt_dec tol (Rabs d)) as [G|G]; [rewrite (proj1 W' G); lra | rewrite (proj2 W' ltac:(lra)); lra]).
      pose proof (Rabs_pos d). pose proof (Rabs_pos (z_d s)). assert (PW : 0 < 2 ^ n) by (apply pow_lt; lra).
      unfold stage. rewrite WN, WM. rewrite <- E. cbn [z_d z_e]. rewrite E1, CA, CB. rewrite WM in *. cbn [pow].
      split; [exact L0|]. split; [nra|]. split.
      { assert (Rabs d * Rabs d * 4 <= Rabs (z_e s) * Rabs (z_e s)) by nra. nra. }
      split; [nra|]. split; [nra|]. split; [|split].
      - intros i I. injection I as <-. nra.
      - intros i I. injection I as ->. specialize (S4 i eq_refl). destruct (coef_pos i). nra.
      - intros _. destruct n as [|n']; [unfold cA, cB in S3; cbn in S3; lra | apply S6; discriminate]. }
    destruct (flips st') eqn:FL.
    + assert (FR : width (brent_order st') = j * Rabs m /\ Rabs (z_d (brent_order st')) = j * Rabs m /\ Rabs (z_e (brent_order st')) = j * Rabs m).
      { rewrite OW, OD, OE, (Rabs_minus_sym (z_b st')), WF. lra. }
      destruct FR as (R1 & R2 & R3). exists (width (brent_order st')), 0%nat. split; [rewrite E; reflexivity|]. split; [exact B'|].
      split; [apply stage_fresh; lra|]. rewrite Rminus_0_r, R1. destruct (Rlt_dec tol (Rabs d)) as [G|G].
      * rewrite (proj1 W' G). assert (L2 : 2 * t <= l) by (destruct ST' as (_ & _ & _ & _ & _ & _ & _ & S6); apply S6; discriminate).
        apply (budget_flip l (Rabs d) n s ST L2); try lra.
        -- destruct ST' as (_ & _ & S1 & _). rewrite <- E in S1. exact S1.
        -- apply (stage_count l (S n) st' ST' L2).
      * rewrite (proj2 W' ltac:(lra)). pose proof (budget_ge l (S n) st' ST') as BG. rewrite S_INR in BG.
        assert (budget tol = 1); [|lra]. unfold budget. destruct (Rlt_dec (lg (tol / t)) 1) as [|N]; [reflexivity|]. exfalso. apply N.
        rewrite <- lg_2. unfold lg. apply Rmult_lt_compat_r; [apply Rinv_0_lt_compat, ln2_pos|]. apply ln_increasing; [apply Rdiv_lt_0_compat; lra|].
        apply Rmult_lt_reg_r with t; [exact T|]. unfold Rdiv. rewrite Rmult_assoc, Rinv_l by lra. lra.
    + exists l, (S n). split; [rewrite E; reflexivity|]. split; [exact B'|]. split.
      * unfold stage in ST' |- *. rewrite OW, OD, OE. exact ST'.
      * rewrite S_INR. lra.
Qed.
Lemma loop_answers k : forall st l n, before g lo hi st -> stage l n (brent_order st) -> budget l - INR n <= INR k ->
  exists r, brent_loop f t k st = Ok r /\ answer g lo hi t r.
Proof.
  induction k as [|k IH]; intros st l n B ST BU.
  - pose proof (budget_ge l n _ ST). cbn in BU. lra.
  - cbn [brent_loop]. destruct (turn_budget st l n B ST) as [(r & -> & A)|(st' & l' & n' & -> & B' & ST' & BB)]; cbn [bind].
    + exists r. split; [reflexivity | exact A].
    + apply (IH st' l' n' B' ST'). rewrite S_INR in BU. lra.
Qed.
End Converge.

(** the number of turns allowed is enough *)
Lemma turns_enough a b t : 0.000000001 <= t -> 0 <= a < b -> b <= 1000 -> budget t (b - a) <= INR (brent_turns a b t).
Proof.
  intros T AB BM. unfold brent_turns. rewrite !Rabs_right by lra. destruct (rleb_spec a b); [|lra].
  set (tol := 0.5 * t + 2 * meps * b). fold (lg ((b - a) / tol)). set (s := lg ((b - a) / tol)).
  pose proof (base_Int_part (s * s + 1)) as [_ IP]. pose proof (Rle_0_sqr s) as SQ. unfold Rsqr in SQ.
  assert (IP0 : (0 <= Int_part (s * s + 1))%Z) by (assert (-1 < IZR (Int_part (s * s + 1))) by lra; apply lt_IZR in H; lia).
  rewrite INR_IZR_INZ, Z2Nat.id by exact IP0. unfold budget. set (y := lg ((b - a) / t)).
  destruct (Rlt_dec y 1) as [Y|Y].
  { apply Rle_trans with (IZR 1); [lra|]. apply IZR_le. assert (0 < IZR (Int_part (s * s + 1))) by lra. apply lt_IZR in H. lia. }
  apply Rle_trans with (s * s); [|lra].
  assert (MB : 0 < 4 * meps * b / t <= 0.001).
  { split; [apply Rdiv_lt_0_compat; [unfold meps|]; nra|]. apply Rmult_le_reg_r with t; [lra|]. unfold Rdiv. rewrite Rmult_assoc, Rinv_l by lra. unfold meps. nra. }
  set (z := 4 * meps * b / t) in *.
  assert (TE : tol = t / 2 * (1 + z)) by (assert (ZT : z * t = 4 * meps * b) by (unfold z, Rdiv; rewrite Rmult_assoc, Rinv_l by lra; ring); unfold tol; lra).
  assert (SE : s = y + 1 - lg (1 + z)).
  { unfold s, y. rewrite TE. rewrite lg_div by (try lra; apply Rmult_lt_0_compat; lra). rewrite lg_mult, !lg_div, lg_2 by lra. ring. }
  assert (LN2 : 1 / 2 <= ln 2).
  { pose proof (exp_ineq1_le (- ln 2)) as X. rewrite exp_Ropp, exp_ln in X by lra. lra. }
  assert (LZ : 0 <= lg (1 + z) <= 0.002).
  { unfold lg. pose proof ln2_pos. split.
    - apply Rmult_le_pos; [|left; apply Rinv_0_lt_compat; lra]. rewrite <- ln_1. left. apply ln_increasing; lra.
    - apply Rmult_le_reg_r with (ln 2); [lra|]. unfold Rdiv. rewrite Rmult_assoc, Rinv_l by lra.
      pose proof (exp_ineq1_le (ln (1 + z))) as X. rewrite exp_ln in X by lra. lra. }
  assert (YM : y <= 40).
  { replace 40 with (INR 40) by (cbn; lra). rewrite <- lg_pow. apply lg_le. split; [apply Rdiv_lt_0_compat; lra|].
    apply Rmult_le_reg_r with t; [lra|]. unfold Rdiv. rewrite Rmult_assoc, Rinv_l by lra. lra. }
  rewrite SE. nra.
Qed.

(** ** The step is Brent's *)
Lemma brent_accept p q m tol e : 0 <= tol -> 0 <= p -> 2 * p < 3 * m * q - Rabs (tol * q) -> p < Rabs (e * q / 2) ->
  q <> 0 /\ 0 <= p / q * m /\ Rabs (p / q) < 3 / 2 * Rabs m - tol / 2 /\ Rabs (p / q) < Rabs e / 2.
Proof.
  intros T P A B. pose proof (Rabs_pos (tol * q)) as PQ. assert (MQ : 0 < m * q) by lra. assert (Q : q <> 0) by (intros ->; lra).
  split; [exact Q|]. assert (QP : 0 < Rabs q) by (apply Rabs_pos_lt; exact Q).
  assert (M : m * q = Rabs m * Rabs q) by (rewrite <- Rabs_mult, Rabs_right by lra; reflexivity).
  assert (AP : Rabs (p / q) * Rabs q = p) by (rewrite <- Rabs_mult; unfold Rdiv; rewrite Rmult_assoc, Rinv_l, Rmult_1_r by exact Q; apply Rabs_right; lra).
  rewrite Rabs_mult, (Rabs_right tol) in A by lra.
  replace (e * q / 2) with (e * q * / 2) in B by reflexivity. rewrite !Rabs_mult, (Rabs_right (/ 2)) in B by lra.
  split.
  - replace (p / q * m) with (p * (m * q) * (/ q * / q)) by (field; exact Q). apply Rmult_le_pos; [apply Rmult_le_pos; lra|].
    replace (/ q * / q) with ((/ q) ^ 2) by ring. apply pow2_ge_0.
  - split; apply Rmult_lt_reg_r with (1 := QP); rewrite AP; lra.
Qed.
Lemma brent_accept_back p q m tol e : 0 <= tol -> 0 <= p -> q <> 0 -> 0 < p / q * m -> Rabs (p / q) < 3 / 2 * Rabs m - tol / 2 -> Rabs (p / q) < Rabs e / 2 ->
  2 * p < 3 * m * q - Rabs (tol * q) /\ p < Rabs (e * q / 2).
Proof.
  intros T P Q M A B. assert (QP : 0 < Rabs q) by (apply Rabs_pos_lt; exact Q).
  assert (AP : Rabs (p / q) * Rabs q = p) by (rewrite <- Rabs_mult; unfold Rdiv; rewrite Rmult_assoc, Rinv_l, Rmult_1_r by exact Q; apply Rabs_right; lra).
  assert (MQ : 0 < m * q).
  { destruct (Rle_or_lt (m * q) 0) as [L|L]; [|exact L]. exfalso.
    assert (p / q * m <= 0); [|lra]. replace (p / q * m) with (- (p * (- (m * q)) * (/ q * / q))) by (field; exact Q).
    assert (0 <= p * - (m * q) * (/ q * / q)); [|lra]. apply Rmult_le_pos; [apply Rmult_le_pos; lra|]. replace (/ q * / q) with ((/ q) ^ 2) by ring. apply pow2_ge_0. }
  assert (ME : m * q = Rabs m * Rabs q) by (rewrite <- Rabs_mult, Rabs_right by lra; reflexivity).
  rewrite (Rabs_mult tol), (Rabs_right tol) by lra.
  replace (e * q / 2) with (e * q * / 2) by reflexivity. rewrite (Rabs_mult (e * q)), (Rabs_mult e), (Rabs_right (/ 2)) by lra.
  apply Rmult_lt_compat_r with (1 := QP) in A. apply Rmult_lt_compat_r with (1 := QP) in B. rewrite AP in A, B. lra.
Qed.
Lemma brent_step (tol a b c d e fa fb fc d' e' : R) : 0 <= tol -> fb * fc < 0 -> fa <> 0 ->
  brent_move tol ((c - b) / 2) a b c d e (Some fa) (Some fb) (Some fc) = (d', e') ->
  let good x := tol <= Rabs e /\ Rabs fb < Rabs fa /\ interpolated a b c fa fb fc x /\
                Rabs (x - b) < 3 / 4 * Rabs (c - b) - tol / 2 /\ Rabs (x - b) < Rabs e / 2 in
  (d' = (c - b) / 2 /\ e' = (c - b) / 2 \/ e' = d /\ good (b + d') /\ 0 <= d' * (c - b)) /\
  (forall x, good x -> 0 < (x - b) * (c - b) -> d' = x - b /\ e' = d).
Proof.
  intros T OP FA E good. set (m := (c - b) / 2) in *.
  assert (CM : Rabs (c - b) = 2 * Rabs m).
  { unfold m. replace ((c - b) / 2) with ((c - b) * / 2) by reflexivity. rewrite Rabs_mult, (Rabs_right (/ 2)) by lra. lra. }
  assert (FB : fb <> 0) by (intros ->; lra). assert (FC : fc <> 0) by (intros ->; lra). assert (BC : fb <> fc) by (intros ->; pose proof (Rle_0_sqr fc); unfold Rsqr in *; lra).
  unfold brent_move in E. cbn [nabs rlift option_map ncmp] in E.
  destruct (rltb_spec (Rabs e) tol) as [X1|X1]; cbn [orb] in E.
  { injection E as <- <-. split; [left; auto|]. intros x (G & _). lra. }
  destruct (rleb_spec (Rabs fa) (Rabs fb)) as [X2|X2].
  { injection E as <- <-. split; [left; auto|]. intros x (_ & G & _). lra. }
  assert (AB : fa <> fb) by (intros ->; lra).
  (* the candidate before the choice of sign *)
  assert (G : forall p q, (forall x, interpolated a b c fa fb fc x <-> q <> 0 /\ x - b = - p / q) ->
    (let '(p, q) := if rltb 0 p then (p, - q) else (- p, q) in
     if rltb (2 * p) (3 * m * q - Rabs (tol * q)) && rltb p (Rabs (e * q / 2)) then (p / q, d) else (m, m)) = (d', e') ->
    (d' = m /\ e' = m \/ e' = d /\ good (b + d') /\ 0 <= d' * (c - b)) /\ (forall x, good x -> 0 < (x - b) * (c - b) -> d' = x - b /\ e' = d)).
  { intros p q I H.
    assert (S : exists p1 q1, 0 <= p1 /\ (q <> 0 <-> q1 <> 0) /\ (q <> 0 -> - p / q = p1 / q1) /\
      (if rltb (2 * p1) (3 * m * q1 - Rabs (tol * q1)) && rltb p1 (Rabs (e * q1 / 2)) then (p1 / q1, d) else (m, m)) = (d', e')).
    { destruct (rltb_spec 0 p) as [L|L].
      - exists p, (- q). split; [lra|]. split; [split; lra|]. split; [intros Q; field; exact Q|exact H].
      - exists (- p), q. split; [lra|]. split; [tauto|]. split; [reflexivity|exact H]. }
    clear H. destruct S as (p1 & q1 & P1 & QQ & PQ & H). split.
    - destruct (rltb_spec (2 * p1) (3 * m * q1 - Rabs (tol * q1))) as [A|A]; [|injection H as <- <-; auto].
      destruct (rltb_spec p1 (Rabs (e * q1 / 2))) as [B|B]; [|injection H as <- <-; auto]. cbn [andb] in H. injection H as <- <-. right.
      destruct (brent_accept p1 q1 m tol e T P1 A B) as (Q & M & L1 & L2). split; [reflexivity|]. split.
      + unfold good. replace (b + p1 / q1 - b) with (p1 / q1) by ring. split; [lra|]. split; [lra|]. split; [|split; [|exact L2]].
        * apply I. pose proof (proj2 QQ Q) as Q0. split; [exact Q0|]. rewrite (PQ Q0). ring.
        * rewrite CM. lra.
      + unfold m in M. lra.
    - intros x (_ & _ & IX & L1 & L2) D. apply I in IX. destruct IX as (Q & EX). rewrite (PQ Q) in EX. pose proof (proj1 QQ Q) as Q1. rewrite EX in *.
      destruct (brent_accept_back p1 q1 m tol e T P1 Q1) as (A & B); [unfold m; lra|rewrite CM in L1; lra|exact L2|].
      destruct (rltb_spec (2 * p1) (3 * m * q1 - Rabs (tol * q1))); [|lra]. destruct (rltb_spec p1 (Rabs (e * q1 / 2))); [|lra].
      cbn [andb] in H. injection H as <- <-. auto. }
  destruct (reqb_spec a c) as [AC|AC].
  - apply (G (2 * m * (fb / fa)) (1 - fb / fa)); [|exact E]. intros x. unfold interpolated.
    assert (Q : 1 - fb / fa <> 0). { intros Z. apply AB. apply Rmult_eq_compat_r with (r := fa) in Z. unfold Rdiv in Z. rewrite Rmult_minus_distr_r, Rmult_assoc, Rinv_l in Z by exact FA. lra. }
    assert (V : - (2 * m * (fb / fa)) / (1 - fb / fa) = - fb * (b - a) / (fb - fa)).
    { unfold m. subst c. field. split; [lra|]. split; [exact FA|]. intros Z. apply AB. lra. }
    rewrite V. split.
    + intros (H & _). split; [exact Q|]. rewrite <- (H AC). field. lra.
    + intros (_ & H). split; [|intros; contradiction]. intros _. rewrite H. field. lra.
  - apply (G (fb / fa * (2 * m * (fa / fc) * (fa / fc - fb / fc) - (b - a) * (fb / fc - 1))) ((fa / fc - 1) * ((fb / fc - 1) * (fb / fa - 1)))); [|exact E].
    intros x. unfold interpolated.
    assert (N1 : fb / fc - 1 <> 0) by (intros Z; apply BC; apply Rmult_eq_compat_r with (r := fc) in Z; unfold Rdiv in Z; rewrite Rmult_minus_distr_r, Rmult_assoc, Rinv_l in Z by exact FC; lra).
    assert (N2 : fb / fa - 1 <> 0) by (intros Z; apply AB; apply Rmult_eq_compat_r with (r := fa) in Z; unfold Rdiv in Z; rewrite Rmult_minus_distr_r, Rmult_assoc, Rinv_l in Z by exact FA; lra).
    assert (V : fa <> fc -> - (fb / fa * (2 * m * (fa / fc) * (fa / fc - fb / fc) - (b - a) * (fb / fc - 1))) / ((fa / fc - 1) * ((fb / fc - 1) * (fb / fa - 1))) =
      a * (fb * fc) / ((fa - fb) * (fa - fc)) + b * (fa * fc) / ((fb - fa) * (fb - fc)) + c * (fa * fb) / ((fc - fa) * (fc - fb)) - b).
    { intros N. unfold m. field. repeat split; try assumption; lra. }
    split.
    + intros (_ & H). destruct (H AC) as (N & X). split; [|rewrite (V N), X; ring].
      assert (N3 : fa / fc - 1 <> 0) by (intros Z; apply N; apply Rmult_eq_compat_r with (r := fc) in Z; unfold Rdiv in Z; rewrite Rmult_minus_distr_r, Rmult_assoc, Rinv_l in Z by exact FC; lra).
      apply Rmult_integral_contrapositive_currified; [exact N3|]. apply Rmult_integral_contrapositive_currified; assumption.
    + intros (Q & H). split; [intros; contradiction|]. intros _.
      assert (N : fa <> fc) by (intros ->; apply Q; unfold Rdiv; rewrite Rinv_r by exact FC; ring). split; [exact N|]. rewrite (V N) in H. lra.
Qed.
