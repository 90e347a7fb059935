(** Proofs about the zero finder, dew point and wet bulb. *)
From Coq Require Import Reals ZArith List Bool Lra Lia.
From Verif Require Import RNum WinsModel WinsSpec WinsProofs SolarProofs SatModel SatProofs DewModel.
Import ListNotations.
Local Open Scope R_scope.

(** ** the zero finder *)
Definition opposite (x y : R) : Prop := 0 < x /\ y <= 0 \/ x <= 0 /\ 0 < y.
Definition inside (lo hi x : R) : Prop := lo <= x <= hi.

Section Brent.
Context (f : R -> res rnum) (g : R -> R) (lo hi t : R).
Context (F : forall x, inside lo hi x -> f x = Ok (Some (g x))) (T : 0 < t).

Definition before (st : brent) : Prop :=
  inside lo hi (z_a st) /\ inside lo hi (z_b st) /\ z_fa st = Some (g (z_a st)) /\ z_fb st = Some (g (z_b st)) /\
  ((exists y, z_fc st = Some y /\ ~ opposite (g (z_b st)) y) /\ opposite (g (z_a st)) (g (z_b st)) \/
   inside lo hi (z_c st) /\ z_fc st = Some (g (z_c st)) /\ opposite (g (z_b st)) (g (z_c st))).
Definition after (st : brent) : Prop :=
  inside lo hi (z_a st) /\ inside lo hi (z_b st) /\ inside lo hi (z_c st) /\
  z_fa st = Some (g (z_a st)) /\ z_fb st = Some (g (z_b st)) /\ z_fc st = Some (g (z_c st)) /\
  opposite (g (z_b st)) (g (z_c st)) /\ Rabs (g (z_b st)) <= Rabs (g (z_c st)).

Lemma opposite_sym x y : opposite x y -> opposite y x.
Proof. unfold opposite. tauto. Qed.
Lemma same_sign_test x y : ((positive (Some x) && positive (Some y)) || (not_positive (Some x) && not_positive (Some y)) = true <-> ~ opposite x y)%bool.
Proof.
  unfold positive, not_positive, ncmp, opposite. destruct (rltb_spec 0 x), (rltb_spec 0 y), (rleb_spec x 0), (rleb_spec y 0); cbn [andb orb]; split; intros H; try lra; try reflexivity; try discriminate; exfalso; apply H; lra.
Qed.
Lemma order_after st : before st -> after (brent_order st).
Proof.
  intros (A & B & FA & FB & C). unfold brent_order.
  assert (P : exists st', (if ((positive (z_fb st) && positive (z_fc st)) || (not_positive (z_fb st) && not_positive (z_fc st)))%bool
     then mk_brent (z_a st) (z_b st) (z_a st) (z_b st - z_a st) (z_b st - z_a st) (z_fa st) (z_fb st) (z_fa st) else st) = st' /\
     inside lo hi (z_a st') /\ inside lo hi (z_b st') /\ inside lo hi (z_c st') /\
     z_fa st' = Some (g (z_a st')) /\ z_fb st' = Some (g (z_b st')) /\ z_fc st' = Some (g (z_c st')) /\ opposite (g (z_b st')) (g (z_c st'))).
  { eexists. split; [reflexivity|]. rewrite FB. destruct C as [((y & Y & N) & O)|(C & FC & O)].
    - rewrite Y. destruct (same_sign_test (g (z_b st)) y) as [_ S]. rewrite (S N). cbn [z_a z_b z_c z_fa z_fb z_fc].
      repeat (split; [assumption || reflexivity|]). apply opposite_sym. exact O.
    - rewrite FC. destruct ((positive (Some (g (z_b st))) && positive (Some (g (z_c st))) || not_positive (Some (g (z_b st))) && not_positive (Some (g (z_c st))))%bool) eqn:E.
      + apply same_sign_test in E. contradiction.
      + repeat (split; [assumption|]). assumption. }
  destruct P as (st' & -> & A' & B' & C' & FA' & FB' & FC' & O). rewrite FC', FB'. unfold after. cbn [nabs rlift option_map ncmp].
  destruct (rltb_spec (Rabs (g (z_c st'))) (Rabs (g (z_b st')))); cbn [z_a z_b z_c z_fa z_fb z_fc].
  - repeat (split; [assumption || reflexivity|]). split; [apply opposite_sym; exact O | lra].
  - repeat (split; [assumption|]). lra.
Qed.
(** the new step points from b towards c and is less than three quarters of the way *)
Lemma move_spec tol m a b c d e fa fb fc d' e' : 0 < tol <= Rabs m ->
  brent_move tol m a b c d e fa fb fc = (d', e') -> exists k, d' = k * m /\ 0 <= k < 3 / 2.
Proof.
  intros TM. assert (M : m <> 0) by (intros ->; rewrite Rabs_R0 in TM; lra). unfold brent_move.
  assert (H1 : forall d' e', (m, m) = (d', e') -> exists k, d' = k * m /\ 0 <= k < 3 / 2) by (intros ? ? [= <- <-]; exists 1; lra).
  destruct (_ || _)%bool; [apply H1|]. destruct fa as [fa|], fb as [fb|], fc as [fc|]; try apply H1. cbv zeta.
  destruct (if reqb a c then _ else _) as [p0 q0]. 
  assert (P : exists p q, (if rltb 0 p0 then (p0, - q0) else (- p0, q0)) = (p, q) /\ 0 <= p).
  { destruct (rltb_spec 0 p0); eexists; eexists; (split; [reflexivity|]); lra. }
  destruct P as (p & q & -> & P). destruct (rltb_spec (2 * p) (3 * m * q - Rabs (tol * q))) as [L|L]; cbn [andb]; [|apply H1].
  destruct (rltb p (Rabs (e * q / 2))); [|apply H1]. intros [= <- <-].
  assert (MQ : 0 < m * q) by (pose proof (Rabs_pos (tol * q)); lra). assert (Q : q <> 0) by (intros ->; lra).
  exists (p / (m * q)). split; [field; split; assumption|]. split; [apply Rmult_le_pos; [exact P | left; apply Rinv_0_lt_compat; exact MQ]|].
  apply Rmult_lt_reg_r with (m * q); [exact MQ|]. unfold Rdiv. rewrite Rmult_assoc, Rinv_l by lra. pose proof (Rabs_pos (tol * q)). lra.
Qed.
Definition tol_at (b : R) : R := meps * Rabs b + t.
Lemma tol_pos b : t <= tol_at b.
Proof. unfold tol_at, meps. pose proof (Rabs_pos b). lra. Qed.
(** the next b lies strictly between b and c *)
Lemma next_b tol m b d k : 0 < tol <= Rabs m -> d = k * m -> 0 <= k < 3 / 2 ->
  exists j, (if rltb tol (Rabs d) then b + d else if rltb 0 m then b + tol else b - tol) = b + j * m /\ 0 < j < 2 /\ tol <= j * Rabs m.
Proof.
  intros TM -> K. assert (M : m <> 0) by (intros ->; rewrite Rabs_R0 in TM; lra). destruct (rltb_spec tol (Rabs (k * m))) as [L|L].
  - exists k. rewrite Rabs_mult, (Rabs_right k) in L by lra. split; [reflexivity|]. split; [|lra]. split; [|lra]. destruct (Req_dec k 0) as [->|]; lra.
  - exists (tol / Rabs m). assert (0 < Rabs m) by lra.
    assert (E : tol / Rabs m * Rabs m = tol) by (unfold Rdiv; rewrite Rmult_assoc, Rinv_l by lra; ring).
    assert (J : 0 < tol / Rabs m < 2).
    { split; [apply Rdiv_lt_0_compat; lra|]. apply Rmult_lt_reg_r with (Rabs m); lra. }
    split; [|split; [exact J | lra]]. destruct (rltb_spec 0 m).
    + rewrite (Rabs_right m) in * by lra. rewrite E. reflexivity.
    + rewrite (Rabs_left m) in * by lra. replace (tol / - m * m) with (- (tol / - m * - m)) by ring. rewrite E. ring.
Qed.
(** what an answer means *)
Definition answer (r : R) : Prop :=
  inside lo hi r /\ (g r = 0 \/ exists c, inside lo hi c /\ Rabs (c - r) < 2 * tol_at r /\ opposite (g r) (g c)).
Lemma turn_spec st : before st ->
  (exists r, brent_turn f t st = Ok (inl r) /\ answer r) \/ (exists st', brent_turn f t st = Ok (inr st') /\ before st').
Proof.
  intros B. pose proof (order_after st B) as (A1 & A2 & A3 & FA & FB & FC & O & LE). unfold brent_turn. set (s := brent_order st) in *. cbv zeta.
  fold (tol_at (z_b s)). set (tol := tol_at (z_b s)). set (m := (z_c s - z_b s) / 2). pose proof (tol_pos (z_b s)) as TP. fold tol in TP.
  rewrite FB. cbn [is_zero ncmp]. destruct (rltb_spec (Rabs m) tol) as [L|L].
  { left. exists (z_b s). split; [reflexivity|]. split; [exact A2|]. right. exists (z_c s). split; [exact A3|]. split; [|exact O].
    replace (z_c s - z_b s) with (2 * m) by (unfold m; lra). rewrite Rabs_mult, (Rabs_right 2) by lra. fold tol. lra. }
  unfold is_zero, ncmp. destruct (reqb_spec (g (z_b s)) 0) as [Z|Z]; cbn [orb].
  { left. exists (z_b s). split; [reflexivity|]. split; [exact A2|]. left. exact Z. }
  right. rewrite <- FB. destruct (brent_move tol m (z_a s) (z_b s) (z_c s) (z_d s) (z_e s) (z_fa s) (z_fb s) (z_fc s)) as [d e] eqn:E.
  destruct (move_spec tol m _ _ _ _ _ _ _ _ _ _ ltac:(lra) E) as (k & DK & K).
  destruct (next_b tol m (z_b s) d k ltac:(lra) DK K) as (j & -> & J & _).
  assert (NB : inside lo hi (z_b s + j * m)).
  { unfold inside in *. unfold m. destruct (Rle_or_lt (z_b s) (z_c s)); split; nra. }
  rewrite (F _ NB). cbn [bind]. eexists. split; [reflexivity|]. unfold before. cbn [z_a z_b z_c z_fa z_fb z_fc].
  split; [exact A2|]. split; [exact NB|]. split; [exact FB|]. split; [reflexivity|].
  destruct (Rlt_dec 0 (g (z_b s + j * m))) as [P|P], (Rlt_dec 0 (g (z_c s))) as [P'|P'].
  - left. split; [exists (g (z_c s)); split; [exact FC|]; unfold opposite; lra|]. unfold opposite in *. lra.
  - right. split; [exact A3|]. split; [exact FC|]. unfold opposite. lra.
  - right. split; [exact A3|]. split; [exact FC|]. unfold opposite. lra.
  - left. split; [exists (g (z_c s)); split; [exact FC|]; unfold opposite; lra|]. unfold opposite in *. lra.
Qed.
Lemma loop_spec n : forall st, before st -> exists r, brent_loop f t n st = Ok r /\ (answer r \/ r = 0).
Proof.
  induction n as [|n IH]; intros st B; cbn [brent_loop]; [exists 0; auto|].
  destruct (turn_spec st B) as [(r & -> & A)|(st' & -> & B')]; cbn [bind]; [exists r; auto | exact (IH st' B')].
Qed.
End Brent.

Lemma zerobr_spec f g a b t : 0 < t -> a < b -> (forall x, inside a b x -> f x = Ok (Some (g x))) ->
  let tol := 0.5 * t + 2 * meps * Rmax (Rabs a) (Rabs b) in
  exists r, zerobr f a b t = Ok r /\
    (Rabs (g b) <= tol -> r = b) /\
    (tol < Rabs (g b) -> Rabs (g a) <= tol -> r = a) /\
    (tol < Rabs (g b) -> tol < Rabs (g a) -> 0 < g b * g a -> r = 0) /\
    (tol < Rabs (g b) -> tol < Rabs (g a) -> g b * g a <= 0 -> answer g a b t r \/ r = 0).
Proof.
  intros T AB F tol. assert (IA : inside a b a) by (unfold inside; lra). assert (IB : inside a b b) by (unfold inside; lra).
  unfold zerobr. destruct (reqb_spec a b); [lra|]. rewrite (F a IA), (F b IB). cbn [bind nabs rlift option_map ncmp rlift2 positive].
  assert (MX : (if rleb (Rabs a) (Rabs b) then Rabs b else Rabs a) = Rmax (Rabs a) (Rabs b)).
  { unfold Rmax. destruct (rleb_spec (Rabs a) (Rabs b)), (Rle_dec (Rabs a) (Rabs b)); lra. }
  rewrite MX. fold tol. destruct (rleb_spec (Rabs (g b)) tol) as [L|L]; [exists b; repeat split; intros; lra|].
  destruct (rleb_spec (Rabs (g a)) tol) as [K|K]; [exists a; repeat split; intros; lra|].
  unfold positive, ncmp. destruct (rltb_spec 0 (g b * g a)) as [S|S]; [exists 0; repeat split; intros; lra|].
  assert (0 < tol). { unfold tol, meps. pose proof (Rmax_l (Rabs a) (Rabs b)). pose proof (Rabs_pos a). lra. }
  assert (NA : g a <> 0) by (intros Z; rewrite Z, Rabs_R0 in K; lra). assert (NB : g b <> 0) by (intros Z; rewrite Z, Rabs_R0 in L; lra).
  assert (OP : opposite (g a) (g b)) by (unfold opposite; destruct (Rlt_dec 0 (g a)), (Rlt_dec 0 (g b)); try nra; left || right; nra).
  destruct (loop_spec f g a b t F T (brent_turns a b t) (mk_brent a b 0 0 0 (Some (g a)) (Some (g b)) (Some (g b)))) as (r & E & A).
  { unfold before. cbn [z_a z_b z_c z_fa z_fb z_fc]. repeat (split; [assumption || reflexivity|]). left. split; [|exact OP].
    exists (g b). split; [reflexivity|]. unfold opposite. lra. }
  exists r. split; [exact E|]. repeat split; intros; try lra. exact A.
Qed.
