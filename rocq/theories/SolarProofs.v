(** Proofs about solar radiation. *)
From Coq Require Import Reals ZArith List Bool Lra Lia.
From Verif Require Import RNum WinsModel WinsSpec WinsProofs SolarModel SolarSpec.
Import ListNotations.
Local Open Scope R_scope.

(** ** clouds *)
Lemma cf_cloud_spec b d c : exists g e, cf_cloud (Some b) (Some d) (Some c) = (Some g, Some e) /\ clouded b d c g e.
Proof.
  unfold cf_cloud, clouded. cbn [rlift rlift2 option_map ncmp].
  destruct (rleb_spec c 0.15), (rltb_spec 0.99 c); try lra; eexists _, _; (split; [reflexivity|]);
    repeat split; intros; try lra; ring.
Qed.
Lemma clouded_bounds b d c g e : 0 <= d <= b -> 0 <= c -> clouded b d c g e -> 0 <= e <= g.
Proof.
  intros D C (-> & A & B & E). assert (0 <= b * c) by (apply Rmult_le_pos; lra).
  destruct (Rle_dec c 0.15); [rewrite A by assumption; lra|]. destruct (Rle_dec c 0.99).
  - rewrite B by lra. assert (0 <= (c - 0.15) * (c - 0.15) <= 0.84 * 0.84) by nra. nra.
  - rewrite E by lra. nra.
Qed.

(** ** vegetation *)
Lemma veg_beam_spec b h mu k : exists r, solar_veg_beam (Some b) (Some h) (Some mu) (Some k) = Some r /\ below_canopy b h mu k r.
Proof.
  unfold solar_veg_beam, veg_cosz, below_canopy. cbn [ncmp].
  destruct (rleb_spec mu 0); cbn [rlift rlift2 option_map]; eexists; (split; [reflexivity|]); split; intros; try lra; f_equal; f_equal; lra.
Qed.
Lemma canopy_bounds b h mu k r : 0 <= b -> 0 <= k -> 0 <= h -> below_canopy b h mu k r -> 0 <= r <= b.
Proof.
  intros B K H [P N]. assert (KH : 0 <= k * h) by (apply Rmult_le_pos; assumption).
  assert (X : forall x, x <= 0 -> 0 <= b * exp x <= b).
  { intros x X. pose proof (exp_pos x). assert (exp x <= 1) by (rewrite <- exp_0; destruct (Req_dec x 0) as [->|]; [lra | left; apply exp_increasing; lra]). nra. }
  destruct (Rlt_dec 0 mu) as [M|M].
  - rewrite P by assumption. apply X. unfold Rdiv. rewrite Ropp_mult_distr_l_reverse.
    assert (0 <= k * h * / mu) by (apply Rmult_le_pos; [exact KH | left; apply Rinv_0_lt_compat; exact M]). lra.
  - rewrite N by lra. apply X. lra.
Qed.
Lemma exp_le a b : a <= b -> exp a <= exp b.
Proof. intros [L| ->]; [left; apply exp_increasing; exact L | lra]. Qed.
Lemma canopy_taller b h h' mu k r r' : 0 <= b -> 0 <= k -> h <= h' -> below_canopy b h mu k r -> below_canopy b h' mu k r' -> r' <= r.
Proof.
  intros B K H [P N] [P' N']. assert (k * h <= k * h') by (apply Rmult_le_compat_l; assumption).
  destruct (Rlt_dec 0 mu) as [M|M].
  - rewrite P, P' by assumption. apply Rmult_le_compat_l; [exact B|]. apply exp_le.
    unfold Rdiv. apply Rmult_le_compat_r; [left; apply Rinv_0_lt_compat; exact M | lra].
  - rewrite N, N' by lra. apply Rmult_le_compat_l; [exact B|]. apply exp_le. lra.
Qed.

(** ** two stream *)
Lemma beta_range cosz g b : beta_0 cosz g = Ok b -> 0 <= b <= 1 / 2 /\ 0 < cosz <= 1 /\ 0 <= g <= 1.
Proof.
  unfold beta_0. destruct (rltb_spec 0 cosz), (rleb_spec cosz 1), (rleb_spec 0 g), (rleb_spec g 1); cbn [andb negb]; try discriminate.
  destruct (reqb_spec g 0); [intros [= <-]; split; lra|].
  destruct (beta_loop _ _ _ _ _ _ _ _ _) as [s|]; [|discriminate]. cbn [bind].
  destruct (rleb_spec 0 s), (rleb_spec s 1); cbn [andb]; try discriminate. intros [= <-]. split; lra.
Qed.
Lemma gamma_spec cosz omega g g1 g2 g3 g4 : 0 <= omega <= 1 -> mwgamma cosz omega g = Ok (g1, g2, g3, g4) ->
  g2 <= g1 /\ 0 <= g1 + g2 /\ 0 <= g3 <= 1 / 2 /\ g3 + g4 = 1.
Proof.
  intros O. unfold mwgamma. destruct (beta_0 cosz g) as [b|] eqn:B; [|discriminate]. cbn [bind].
  apply beta_range in B. destruct B as (B & C & G).
  destruct (reqb_spec g 1) as [->|NE]; intros [= <- <- <- <-].
  - assert (HD : 0 < / (4 * (1 - 1 * 1 * (1 - cosz)))) by (apply Rinv_0_lt_compat; lra).
    split; [lra|]. split; [|split; lra]. unfold Rdiv. rewrite <- Rmult_plus_distr_r. apply Rmult_le_pos; lra.
  - assert (GG : 0 <= g * g < 1) by nra.
    assert (HD : 0 < / (4 * (1 - g * g * (1 - cosz)))) by (apply Rinv_0_lt_compat; nra).
    split; [|split; [|split; lra]].
    + apply Rmult_le_compat_r; [lra|].
      assert (0 <= (1 - omega) * (2 - g * g)) by (apply Rmult_le_pos; lra). nra.
    + unfold Rdiv. rewrite <- Rmult_plus_distr_r. apply Rmult_le_pos; [|lra].
      assert (A1 : 0 <= (1 - g) * (1 - g * g)) by (apply Rmult_le_pos; lra).
      assert (A2 : 0 <= omega * ((1 - g) * (1 - g * g))) by (apply Rmult_le_pos; lra).
      assert (A3 : 0 <= (1 - omega) * (6 - 2 * (g * g))) by (apply Rmult_le_pos; lra).
      assert (A4 : 0 <= g * g * omega * b) by (apply Rmult_le_pos; [apply Rmult_le_pos|]; lra). nra.
Qed.

Definition xi_of (gam1 gam2 : R) : R :=
  let g := if reqb gam1 gam2 then gam1 + 0.00000000000000022204460492503131 else gam1 in sqrt ((g - gam2) * (gam2 + g)).
Lemma two_cell_ok cosz omega R0 g1 g2 g3 g4 tau r : two_cell cosz omega R0 g1 g2 g3 g4 tau = Ok r ->
  t_btrans r = (if rleb 1000000000000000 (exp (tau * xi_of g1 g2)) then 0 else exp (- tau / cosz)) /\
  0 <= t_refl r /\ 0 <= t_trans r /\ t_btrans r * cosz <= t_trans r.
Proof.
  unfold two_cell. cbv zeta. fold (xi_of g1 g2).
  destruct (negb _ && _); [discriminate|].
  match goal with |- (if rleb 0 ?a && rleb 0 ?b && rleb 0 ?c && rleb ?d ?b then _ else _) = _ -> _ =>
    destruct (rleb_spec 0 a), (rleb_spec 0 b), (rleb_spec 0 c), (rleb_spec d b); cbn [andb]; try discriminate end.
  intros [= <-]. cbn [t_btrans t_refl t_trans]. repeat split; assumption.
Qed.
Lemma twostream_night cosz S0 tau omega g R0 : cosz <= 0 -> twostream cosz S0 tau omega g R0 = Ok (mk_two 0 0 0).
Proof. intros C. unfold twostream. destruct (rleb_spec cosz 0); [reflexivity | lra]. Qed.
Lemma twostream_no_value_error cosz S0 tau omega g R0 : 0 < S0 -> 0 <= omega <= 1 -> twostream cosz S0 tau omega g R0 <> Err ValueError.
Proof.
  intros S O. unfold twostream. destruct (rleb_spec cosz 0); [discriminate|]. destruct (rleb_spec S0 0); [lra|].
  destruct (mwgamma cosz omega g) as [[[[g1 g2] g3] g4]|e] eqn:M; cbn [bind].
  - apply gamma_spec in M; [|exact O]. destruct (rltb_spec g1 g2); [lra|]. unfold two_cell. cbv zeta.
    destruct (negb _ && _); [discriminate|]. destruct (_ && _); discriminate.
  - intros [= ->]. unfold mwgamma in M. destruct (beta_0 cosz g) as [b|e] eqn:B.
    + cbn [bind] in M. destruct (reqb g 1); discriminate.
    + cbn [bind] in M. injection M as ->. unfold beta_0 in B.
      destruct (negb _); [discriminate|]. destruct (reqb g 0); [discriminate|].
      assert (L : forall fuel n a b c d e f s, beta_loop fuel n a b c d e f s <> Err ValueError).
      { induction fuel as [|fuel IH]; intros i a0 b0 c0 d0 e0 f0 s0; cbn [beta_loop]; [discriminate|]. destruct (Nat.odd i); [|apply IH].
        destruct (reqb _ 0); [discriminate|]. destruct (_ && _); [discriminate | apply IH]. }
      destruct (beta_loop _ _ _ _ _ _ _ _ _) as [s|e] eqn:LP; cbn [bind] in B; [destruct (_ && _); discriminate|].
      injection B as ->. exact (L _ _ _ _ _ _ _ _ _ LP).
Qed.
Lemma twostream_day cosz S0 tau omega g R0 r : 0 < cosz -> 0 < tau -> twostream cosz S0 tau omega g R0 = Ok r ->
  exists xi, 0 <= xi /\ (forall tau' R0' r', 0 < tau' -> twostream cosz S0 tau' omega g R0' = Ok r' ->
      t_btrans r' = if rleb 1000000000000000 (exp (tau' * xi)) then 0 else exp (- tau' / cosz)) /\
  0 <= t_refl r /\ 0 <= t_trans r /\ t_btrans r * cosz <= t_trans r.
Proof.
  intros C T. unfold twostream. destruct (rleb_spec cosz 0); [lra|]. destruct (rleb_spec S0 0); [discriminate|].
  destruct (mwgamma cosz omega g) as [[[[g1 g2] g3] g4]|e]; [|discriminate]. cbn [bind].
  destruct (rltb g1 g2); [discriminate|]. intros H. apply two_cell_ok in H. destruct H as (_ & A).
  exists (xi_of g1 g2). split; [apply sqrt_pos|]. split; [|exact A].
  intros tau' R0' r' T' H'. destruct (reqb_spec tau' 0); [lra|]. apply two_cell_ok in H'. apply H'.
Qed.
Lemma twostream_btrans cosz S0 tau omega g R0 r : twostream cosz S0 tau omega g R0 = Ok r -> 0 <= tau -> 0 <= t_btrans r <= 1.
Proof.
  unfold twostream. destruct (rleb_spec cosz 0); [intros [= <-] _; simpl; lra|]. destruct (rleb S0 0); [discriminate|].
  destruct (mwgamma cosz omega g) as [[[[g1 g2] g3] g4]|e]; [|discriminate]. cbn [bind].
  destruct (rltb g1 g2); [discriminate|]. intros H T. apply two_cell_ok in H. destruct H as (-> & _).
  destruct (rleb _ _); [lra|]. split; [left; apply exp_pos|]. rewrite <- exp_0. apply exp_le.
  assert (0 < / cosz) by (apply Rinv_0_lt_compat; lra). destruct (reqb tau 0); unfold Rdiv; nra.
Qed.

(** ** optical depth *)
Lemma Rpower_neg_le x y e : 0 < x -> x <= y -> e <= 0 -> Rpower y e <= Rpower x e.
Proof.
  intros X [Y| ->] E; [|lra]. unfold Rpower. apply exp_le. assert (ln x < ln y) by (apply ln_increasing; assumption). nra.
Qed.
Lemma hysat_std z : z < 44300 -> hysat SEA_LEVEL STD_AIRTMP STD_LAPSE (z / 1000) GRAVITY MOL_AIR =
  Some (SEA_LEVEL * Rpower (288 / (288 - 0.0065 * z)) (GRAVITY * MOL_AIR / (RGAS * STD_LAPSE * 0.001))).
Proof.
  intros Z. unfold hysat. cbv zeta. replace (STD_AIRTMP / (STD_AIRTMP + STD_LAPSE * (z / 1000))) with (288 / (288 - 0.0065 * z)).
  2:{ unfold STD_AIRTMP, STD_LAPSE. f_equal. lra. }
  destruct (rltb_spec 0 (288 / (288 - 0.0065 * z))) as [_|N]; [reflexivity|]. exfalso. apply N. apply Rdiv_lt_0_compat; lra.
Qed.
Lemma std_exponent : GRAVITY * MOL_AIR / (RGAS * STD_LAPSE * 0.001) <= 0.
Proof. unfold GRAVITY, MOL_AIR, RGAS, STD_LAPSE. lra. Qed.
Lemma pressure_pos z : 0 < SEA_LEVEL * Rpower (288 / (288 - 0.0065 * z)) (GRAVITY * MOL_AIR / (RGAS * STD_LAPSE * 0.001)).
Proof. apply Rmult_lt_0_compat; [unfold SEA_LEVEL; lra | apply exp_pos]. Qed.
Lemma pressure_mono z z' : z <= z' -> z' < 44300 ->
  SEA_LEVEL * Rpower (288 / (288 - 0.0065 * z')) (GRAVITY * MOL_AIR / (RGAS * STD_LAPSE * 0.001)) <=
  SEA_LEVEL * Rpower (288 / (288 - 0.0065 * z)) (GRAVITY * MOL_AIR / (RGAS * STD_LAPSE * 0.001)).
Proof.
  intros Z Z'. apply Rmult_le_compat_l; [unfold SEA_LEVEL; lra|]. apply Rpower_neg_le; [apply Rdiv_lt_0_compat; lra | | exact std_exponent].
  unfold Rdiv. apply Rmult_le_compat_l; [lra|]. apply Rinv_le_contravar; lra.
Qed.
Lemma tau_spec tau tz z : tz < 44300 -> z < 44300 -> exists t, tau_domain tau tz z = Some t /\
  (z = tz -> t = tau) /\ (0 < tau -> 0 < t) /\ (tau = 0 -> t = 0) /\
  forall z' t', 0 <= tau -> z <= z' -> z' < 44300 -> tau_domain tau tz z' = Some t' -> t' <= t.
Proof.
  intros TZ Z. unfold tau_domain. rewrite !hysat_std by assumption. cbn [rlift2]. eexists. split; [reflexivity|].
  pose proof (pressure_pos z) as P. pose proof (pressure_pos tz) as Q. split; [|split; [|split]].
  - intros ->. revert Q. generalize (SEA_LEVEL * Rpower (288 / (288 - 0.0065 * tz)) (GRAVITY * MOL_AIR / (RGAS * STD_LAPSE * 0.001))).
    intros q Q. field. lra.
  - intros T. apply Rdiv_lt_0_compat; [apply Rmult_lt_0_compat|]; assumption.
  - intros ->. unfold Rdiv. ring.
  - intros z' t' T ZZ Z'. rewrite hysat_std by assumption. intros [= <-]. unfold Rdiv. apply Rmult_le_compat_r; [left; apply Rinv_0_lt_compat; exact Q|].
    apply Rmult_le_compat_l; [exact T | apply pressure_mono; assumption].
Qed.
Lemma elevrad_higher S0 cosz tau tz omega g R0 z z' b d b' d' : 0 < cosz -> 0 < S0 -> 0 < tau -> tz < 44300 -> z <= z' -> z' < 44300 ->
  elevrad S0 cosz tau tz omega g R0 z = Ok (b, d) -> elevrad S0 cosz tau tz omega g R0 z' = Ok (b', d') -> b <= b'.
Proof.
  intros C S T TZ Z Z'. unfold elevrad.
  destruct (tau_spec tau tz z TZ ltac:(lra)) as (t & E & _ & P & _ & M). destruct (tau_spec tau tz z' TZ Z') as (t' & E' & _ & P' & _).
  specialize (M z' t' ltac:(lra) Z Z' E'). specialize (P T). specialize (P' T). rewrite E, E'.
  destruct (twostream cosz S0 t omega g R0) as [r|] eqn:R1; [|discriminate]. destruct (twostream cosz S0 t' omega g R0) as [r'|] eqn:R2; [|discriminate].
  cbn [bind]. intros [= <- _] [= <- _].
  destruct (twostream_day _ _ _ _ _ _ _ C P R1) as (xi & X & F & _). rewrite (F _ _ _ P R1), (F _ _ _ P' R2).
  apply Rmult_le_compat_l; [lra|]. assert (EX : forall a c, a <= c -> exp (- c / cosz) <= exp (- a / cosz)).
  { intros a c L. apply exp_le. unfold Rdiv. apply Rmult_le_compat_r; [left; apply Rinv_0_lt_compat; exact C | lra]. }
  destruct (rleb_spec 1000000000000000 (exp (t * xi))) as [A|A], (rleb_spec 1000000000000000 (exp (t' * xi))) as [B|B].
  - lra.
  - left. apply exp_pos.
  - exfalso. apply A. assert (exp (t' * xi) <= exp (t * xi)) by (apply exp_le; apply Rmult_le_compat_r; assumption). lra.
  - apply EX. exact M.
Qed.
Lemma elevrad_bounds S0 cosz tau tz omega g R0 z b d : 0 <= S0 -> 0 <= tau -> tz < 44300 -> z < 44300 ->
  elevrad S0 cosz tau tz omega g R0 z = Ok (b, d) -> 0 <= b <= S0 /\ (cosz <= 0 -> b = 0 /\ d = 0).
Proof.
  intros S T TZ Z. unfold elevrad. destruct (tau_spec tau tz z TZ Z) as (t & E & _ & P & N & _). rewrite E.
  destruct (twostream cosz S0 t omega g R0) as [r|] eqn:R1; [|discriminate]. cbn [bind]. intros [= <- <-].
  assert (TT : 0 <= t) by (destruct (Req_dec tau 0) as [E0|E0]; [rewrite (N E0); lra | left; apply P; lra]).
  pose proof (twostream_btrans _ _ _ _ _ _ _ R1 TT). split; [nra|]. intros C. rewrite twostream_night in R1 by exact C. injection R1 as <-. simpl. lra.
Qed.

(** ** net radiation *)
Lemma set_min_max_some lo hi v w : set_min_max lo hi v = Some w -> proper lo hi -> at_least lo w /\ at_most hi w.
Proof.
  intros H P. destruct v as [x|].
  - destruct (set_min_max_spec lo hi x P) as (u & U & (A & B & _)). rewrite U in H. injection H as <-. split; assumption.
  - unfold set_min_max in H. destruct lo as [l|], hi as [h|]; cbn [ncmp] in H; try discriminate.
Qed.
Lemma net_limits c vis ir cf height illum k tau av ai w : proper (s_min c) (s_max c) ->
  net_solar c vis ir cf height illum k tau av ai = Some w -> at_least (s_min c) w /\ at_most (s_max c) w.
Proof. intros P H. unfold net_solar, calc_net in H. eapply set_min_max_some; eassumption. Qed.
Lemma veg_cosz_idem x : veg_cosz (veg_cosz x) = veg_cosz x.
Proof. unfold veg_cosz. destruct x as [m|]; [|reflexivity]. cbn [ncmp]. destruct (rleb_spec m 0); cbn [ncmp]; [destruct (rleb_spec 0.01 0); [lra | reflexivity] | destruct (rleb_spec m 0); [contradiction | reflexivity]]. Qed.

(** ** filling of gaps *)
Fixpoint before (prev : option (nat * R)) (l : list rnum) (i : nat) : option (nat * R) :=
  match i, l with
  | O, _ => prev
  | S i', [] => None
  | S i', Some v :: l' => before (Some (1%nat, v)) l' i'
  | S i', None :: l' => before (option_map (fun kv => (S (fst kv), snd kv)) prev) l' i'
  end.
Definition fill_value (prev next : option (nat * R)) : rnum :=
  match prev with
  | None => None
  | Some (k, v) => match next with Some (j, w) => Some (v + (w - v) * (INR k / INR (k + j))) | None => Some v end
  end.
Lemma interpolate_length prev l : length (interpolate prev l) = length l.
Proof.
  revert prev. induction l as [|[v|] l IH]; intros prev; cbn [interpolate]; [reflexivity | simpl; rewrite IH; reflexivity|].
  destruct prev as [[k v]|]; simpl; rewrite IH; reflexivity.
Qed.
Lemma interpolate_nth l : forall prev i, (i < length l)%nat ->
  nth_error (interpolate prev l) i =
  match nth_error l i with
  | Some (Some v) => Some (Some v)
  | _ => Some (fill_value (before prev l i) (next_known (skipn (S i) l) 1))
  end.
Proof.
  induction l as [|a l IH]; intros prev i I; [simpl in I; lia|]. destruct i as [|i].
  - destruct a as [v|]; [reflexivity|]. cbn [interpolate nth_error before skipn]. destruct prev as [[k v]|]; reflexivity.
  - simpl in I. destruct a as [v|].
    + cbn [interpolate nth_error before]. rewrite IH by lia. reflexivity.
    + cbn [interpolate nth_error before]. destruct prev as [[k v]|]; cbn [nth_error option_map fst snd]; rewrite IH by lia; reflexivity.
Qed.
Lemma some_pair (a b : nat) (v : R) : a = b -> Some (a, v) = Some (b, v).
Proof. intros ->. reflexivity. Qed.
Lemma before_value l : forall prev i a v, value_before l i a v -> before prev l i = Some ((i - a)%nat, v).
Proof.
  induction l as [|x l IH]; intros prev i a v (A & E & N); [destruct a; discriminate|].
  destruct i as [|i]; [lia|]. destruct a as [|a].
  - simpl in E. injection E as ->. cbn [before].
    assert (G : forall m k, (forall j, (j < m)%nat -> nth_error l j = Some None) -> before (Some (k, v)) l m = Some ((k + m)%nat, v)).
    { clear. induction l as [|y l IH]; intros [|m] k F.
      - simpl. apply some_pair; lia.
      - specialize (F 0%nat ltac:(lia)). discriminate.
      - simpl. apply some_pair; lia.
      - pose proof (F 0%nat ltac:(lia)) as F0. simpl in F0. injection F0 as ->. cbn [before option_map fst snd].
        rewrite IH; [apply some_pair; lia|]. intros j J. apply (F (S j)). lia. }
    rewrite G; [apply some_pair; lia|]. intros j J. apply (N (S j)). lia.
  - simpl in E. destruct x as [w|]; cbn [before]; rewrite (IH _ i a v); try (apply some_pair; lia);
      (split; [lia | split; [exact E|]]; intros j J; apply (N (S j)); lia).
Qed.
Lemma before_none l : forall i, none_before l i -> before None l i = None.
Proof.
  induction l as [|x l IH]; intros [|i] N; try reflexivity.
  pose proof (N 0%nat ltac:(lia)) as N0. simpl in N0. injection N0 as ->. cbn [before option_map]. apply IH.
  intros j J. apply (N (S j)). lia.
Qed.
Lemma next_value l : forall k b w, nth_error l b = Some (Some w) -> (forall j, (j < b)%nat -> nth_error l j = Some None) ->
  next_known l k = Some ((k + b)%nat, w).
Proof.
  induction l as [|x l IH]; intros k b w E N; [destruct b; discriminate|]. destruct b as [|b].
  - simpl in E. injection E as ->. simpl. apply some_pair; lia.
  - pose proof (N 0%nat ltac:(lia)) as N0. simpl in N0. injection N0 as ->. simpl. rewrite (IH (S k) b w); [apply some_pair; lia | exact E|].
    intros j J. apply (N (S j)). lia.
Qed.
Lemma next_none l : forall k, (forall j, (j < length l)%nat -> nth_error l j = Some None) -> next_known l k = None.
Proof.
  induction l as [|x l IH]; intros k N; [reflexivity|]. pose proof (N 0%nat ltac:(simpl; lia)) as N0. simpl in N0. injection N0 as ->. simpl.
  apply IH. intros j J. apply (N (S j)). simpl. lia.
Qed.
Lemma nth_error_skip {A} (l : list A) n j : nth_error (skipn n l) j = nth_error l (n + j).
Proof. revert l. induction n as [|n IH]; intros l; [reflexivity|]. destruct l as [|x l]; [destruct j; reflexivity | apply IH]. Qed.
Lemma interpolate_filled l : gap_filled l (interpolate None l).
Proof.
  split; [apply interpolate_length|]. intros i I. rewrite (interpolate_nth l None i I). split.
  - intros v ->. reflexivity.
  - intros E. rewrite E. repeat split.
    + intros a v b w VB (B1 & B2 & B3). rewrite (before_value _ _ _ _ _ VB).
      rewrite (next_value _ 1 (b - S i) w).
      2:{ rewrite nth_error_skip. rewrite <- B2. f_equal. lia. }
      2:{ intros j J. rewrite nth_error_skip. apply B3. lia. }
      destruct VB as (A & _). cbn [fill_value]. do 4 f_equal.
      replace (i - a + (1 + (b - S i)))%nat with (b - a)%nat by lia. rewrite !minus_INR by lia. reflexivity.
    + intros a v VB NA. rewrite (before_value _ _ _ _ _ VB). rewrite next_none; [reflexivity|].
      intros j J. rewrite skipn_length in J. rewrite nth_error_skip. apply NA. lia.
    + intros NB. rewrite (before_none _ _ NB). reflexivity.
Qed.
Lemma unit_clip_spec v : exists w, unit_clip (Some v) = Some w /\ unit_limited v w.
Proof.
  unfold unit_clip, unit_limited. cbn [ncmp]. destruct (rltb_spec 1 v); cbn [ncmp].
  - destruct (rltb_spec 1 0); [lra|]. eexists. split; [reflexivity|]. repeat split; intros; lra.
  - destruct (rltb_spec v 0); eexists; (split; [reflexivity|]); repeat split; intros; lra.
Qed.
Lemma hrrr_ratio_spec s t : (50 <= t -> hrrr_ratio (Some s) (Some t) = Some (s / t)) /\ (t < 50 -> hrrr_ratio (Some s) (Some t) = None).
Proof.
  unfold hrrr_ratio. cbn [ncmp]. split; intros T.
  - destruct (rltb_spec t 50); [lra|]. cbn [ncmp]. destruct (rltb_spec t 50); [lra|]. destruct (reqb_spec t 0); [lra | reflexivity].
  - destruct (rltb_spec t 50); [|lra]. cbn [ncmp]. destruct (rltb_spec 0 50); [|lra]. destruct (reqb_spec 0 0); [reflexivity | lra].
Qed.

(** ** the whole step *)
Lemma veg_beam_again b h mu k : solar_veg_beam b h (veg_cosz mu) k = solar_veg_beam b h mu k.
Proof. unfold solar_veg_beam. rewrite veg_cosz_idem. reflexivity. Qed.
Lemma calc_net_spec lo hi vb vd ib id av ai : proper lo hi -> exists nv ni n,
  calc_net lo hi (Some vb) (Some vd) (Some ib) (Some id) (Some av) (Some ai) = Some n /\
  limited lo hi ((vb + vd) * (1 - av)) nv /\ limited lo hi ((ib + id) * (1 - ai)) ni /\ limited lo hi (nv + ni) n.
Proof.
  intros P. unfold calc_net. cbn [rlift rlift2 option_map].
  destruct (set_min_max_spec lo hi ((vb + vd) * (1 - av)) P) as (nv & -> & V).
  destruct (set_min_max_spec lo hi ((ib + id) * (1 - ai)) P) as (ni & -> & I). cbn [rlift2].
  destruct (set_min_max_spec lo hi (nv + ni) P) as (n & -> & N). exists nv, ni, n. auto.
Qed.
Lemma band_spec c b d cf h mu k t : exists g e r q,
  correct_band c (Some b) (Some d) (Some cf) (Some h) (Some mu) (Some k) (Some t) = (Some r, Some q) /\
  (if correct_cloud c then clouded b d cf g e else g = b /\ e = d) /\
  (if correct_veg c then below_canopy g h mu k r /\ q = t * e else r = g /\ q = e).
Proof.
  unfold correct_band. destruct (cf_cloud_spec b d cf) as (g & e & E & C).
  destruct (veg_beam_spec (if correct_cloud c then g else b) h mu k) as (r & V & W).
  destruct (correct_cloud c).
  - rewrite E. exists g, e. destruct (correct_veg c).
    + rewrite V. unfold solar_veg_diffuse. cbn [rlift2]. exists r, (t * e). auto.
    + exists g, e. auto.
  - exists b, d. destruct (correct_veg c).
    + rewrite V. unfold solar_veg_diffuse. cbn [rlift2]. exists r, (t * d). auto.
    + exists b, d. auto.
Qed.
Lemma net_spec c vb vd ib id cf h mu k t av ai : proper (s_min c) (s_max c) ->
  exists gv ev gi ei rv qv ri qi nv ni n,
    net_solar c (Some vb, Some vd) (Some ib, Some id) (Some cf) (Some h) (Some mu) (Some k) (Some t) (Some av) (Some ai) = Some n /\
    (if correct_cloud c then clouded vb vd cf gv ev /\ clouded ib id cf gi ei else gv = vb /\ ev = vd /\ gi = ib /\ ei = id) /\
    (if correct_veg c then below_canopy gv h mu k rv /\ qv = t * ev /\ below_canopy gi h mu k ri /\ qi = t * ei
     else rv = gv /\ qv = ev /\ ri = gi /\ qi = ei) /\
    limited (s_min c) (s_max c) ((rv + qv) * (1 - av)) nv /\
    limited (s_min c) (s_max c) ((ri + qi) * (1 - ai)) ni /\
    limited (s_min c) (s_max c) (nv + ni) n.
Proof.
  intros P. unfold net_solar. cbn [fst snd].
  destruct (band_spec c vb vd cf h mu k t) as (gv & ev & rv & qv & EV & CV & VV).
  destruct (band_spec c ib id cf h mu k t) as (gi & ei & ri & qi & EI & CI & VI).
  assert (EI2 : correct_band c (Some ib) (Some id) (Some cf) (Some h) (if correct_veg c then veg_cosz (Some mu) else Some mu) (Some k) (Some t) = (Some ri, Some qi)).
  { rewrite <- EI. unfold correct_band. destruct (if correct_cloud c then _ else _) as [b0 d0].
    destruct (correct_veg c); [|reflexivity]. rewrite veg_beam_again. reflexivity. }
  rewrite EV, EI2. cbn [fst snd].
  destruct (calc_net_spec (s_min c) (s_max c) rv qv ri qi av ai P) as (nv & ni & n & N & L).
  exists gv, ev, gi, ei, rv, qv, ri, qi, nv, ni, n. split; [exact N|].
  destruct (correct_cloud c), (correct_veg c); intuition.
Qed.
Lemma limited_none v w : limited None None v w -> w = v.
Proof. intros (_ & _ & H & _). apply H; exact I. Qed.

(** ** a grid of optical depths *)
Lemma any_in_true n p : any_in n p = true <-> exists i, (i < n)%nat /\ p i = true.
Proof.
  unfold any_in. rewrite existsb_exists. split; intros (i & A & B); exists i; (split; [|exact B]); [apply in_seq in A | apply in_seq]; lia.
Qed.
Lemma any_in_false n p : any_in n p = false <-> forall i, (i < n)%nat -> p i = false.
Proof.
  destruct (any_in n p) eqn:E.
  - apply any_in_true in E. destruct E as (i & I & P). split; [discriminate|]. intros H. rewrite H in P by exact I. discriminate.
  - split; [|reflexivity]. intros _ i I. destruct (p i) eqn:P; [|reflexivity]. assert (X : any_in n p = true) by (apply any_in_true; eauto). congruence.
Qed.
Definition depth (t : R) : R := if reqb t 0 then 1000000000000000 else t.
Lemma btrans_grid_finite ny nx cosz xi tau : (forall y x, (y < ny)%nat -> (x < nx)%nat -> exp (depth (tau y x) * xi) < 1000000000000000) ->
  exists b, btrans_grid ny nx cosz xi tau = Ok b /\ forall y x, (y < ny)%nat -> (x < nx)%nat -> b y x = exp (- depth (tau y x) / cosz).
Proof.
  intros F. unfold btrans_grid. cbv zeta. fold depth.
  assert (S : forall y x, (y < ny)%nat -> (x < nx)%nat -> semi_infinite xi (depth (tau y x)) = false).
  { intros y x Y X. unfold semi_infinite. specialize (F y x Y X). destruct (rleb_spec 1000000000000000 (exp (depth (tau y x) * xi))); [lra | reflexivity]. }
  assert (A : any_in ny (fun y => any_in nx (fun x => semi_infinite xi (if reqb (tau y x) 0 then 1000000000000000 else tau y x) && (ny <=? x)%nat)) = false).
  { apply any_in_false. intros y Y. apply any_in_false. intros x X. pose proof (S y x Y X) as E. unfold depth in E. rewrite E. reflexivity. }
  rewrite A. eexists. split; [reflexivity|]. intros y x Y X. cbv beta.
  assert (B : any_in ny (fun y' => any_in nx (fun x' => semi_infinite xi (if reqb (tau y' x') 0 then 1000000000000000 else tau y' x') && ((y' =? y)%nat || (x' =? y)%nat))) = false).
  { apply any_in_false. intros y' Y'. apply any_in_false. intros x' X'. pose proof (S y' x' Y' X') as E. unfold depth in E. rewrite E. reflexivity. }
  rewrite B. reflexivity.
Qed.
Lemma btrans_grid_wide ny nx cosz xi tau y x : (y < ny)%nat -> (x < nx)%nat -> (ny <= x)%nat -> 1000000000000000 <= exp (depth (tau y x) * xi) ->
  btrans_grid ny nx cosz xi tau = Err IndexError.
Proof.
  intros Y X W E. unfold btrans_grid. cbv zeta.
  match goal with |- (if ?a then _ else _) = _ => assert (A : a = true) end.
  { apply any_in_true. exists y. split; [exact Y|]. apply any_in_true. exists x. split; [exact X|].
    unfold semi_infinite. fold (depth (tau y x)). destruct (rleb_spec 1000000000000000 (exp (depth (tau y x) * xi))); [|contradiction].
    simpl. apply Nat.leb_le. exact W. }
  rewrite A. reflexivity.
Qed.
Lemma btrans_grid_rows ny nx cosz xi tau b y x : (y < ny)%nat -> (x < nx)%nat -> 1000000000000000 <= exp (depth (tau y x) * xi) ->
  btrans_grid ny nx cosz xi tau = Ok b -> (x < ny)%nat /\ forall j, b y j = 0 /\ b x j = 0.
Proof.
  intros Y X E. unfold btrans_grid. cbv zeta.
  assert (S : semi_infinite xi (if reqb (tau y x) 0 then 1000000000000000 else tau y x) = true).
  { unfold semi_infinite. fold (depth (tau y x)). destruct (rleb_spec 1000000000000000 (exp (depth (tau y x) * xi))); [reflexivity | contradiction]. }
  destruct (any_in ny _) eqn:A; [discriminate|]. intros [= <-]. split.
  - rewrite any_in_false in A. specialize (A y Y). rewrite any_in_false in A. specialize (A x X). cbv beta in A. rewrite S in A. apply Nat.leb_gt in A. exact A.
  - intros j. split.
    + match goal with |- (if ?a then _ else _) = _ => assert (B : a = true) end.
      { apply any_in_true. exists y. split; [exact Y|]. apply any_in_true. exists x. split; [exact X|]. rewrite S, Nat.eqb_refl. reflexivity. }
      rewrite B. reflexivity.
    + match goal with |- (if ?a then _ else _) = _ => assert (B : a = true) end.
      { apply any_in_true. exists y. split; [exact Y|]. apply any_in_true. exists x. split; [exact X|]. rewrite S, Nat.eqb_refl, orb_true_r. reflexivity. }
      rewrite B. reflexivity.
Qed.

(** ** an atmosphere that only absorbs *)
Lemma absorbing cosz tau S0 : 0 < cosz <= 1/2 -> 0 < tau <= 1 -> 0 < S0 ->
  twostream cosz S0 tau 0 0 0 = Ok (mk_two 0 (exp (- tau / cosz)) (exp (- tau / cosz))).
Proof.
  intros C T S. unfold twostream. destruct (rleb_spec cosz 0); [lra|]. destruct (rleb_spec S0 0); [lra|].
  destruct (reqb_spec tau 0); [lra|]. destruct (rltb_spec 0 0); [lra|].
  unfold mwgamma, beta_0. destruct (rltb_spec 0 cosz), (rleb_spec cosz 1), (rleb_spec 0 0), (rleb_spec 0 1); try lra. cbn [andb negb].
  destruct (reqb_spec 0 0); [|lra]. cbn [bind]. destruct (reqb_spec 0 1); [lra|]. cbv zeta.
  set (hd := 4 * (1 - 0 * 0 * (1 - cosz))).
  replace ((0 * (0 * ((3 * 0 + 4 * ((1 - 0) / 2)) * 0 - 3) - 3 * 0) - 4 * 0 + 7) / hd) with (7/4) by (unfold hd; field).
  replace ((0 * (0 * ((3 * 0 + 4 * ((1 - 0) / 2 - 1)) * 0 + 1) - 3 * 0) + 4 * 0 - 1) / hd) with (-1/4) by (unfold hd; field).
  cbn [bind]. destruct (rltb_spec (7/4) (-1/4)); [lra|]. unfold two_cell. cbv zeta. destruct (reqb_spec (7/4) (-1/4)); [lra|].
  set (xi := sqrt ((7/4 - -1/4) * (-1/4 + 7/4))).
  assert (X2 : xi * xi = 3) by (unfold xi; rewrite sqrt_sqrt; lra). assert (X0 : 0 <= xi) by apply sqrt_pos.
  assert (X1 : 1.7 < xi < 1.74) by nra.
  set (ep := exp (tau * xi)). set (em := exp (- tau * xi)). set (et := exp (- tau / cosz)).
  assert (EP : 1 <= ep) by (unfold ep; rewrite <- exp_0; apply exp_le; nra).
  assert (EM : 0 < em <= 1). { unfold em. split; [apply exp_pos|]. rewrite <- exp_0. apply exp_le. nra. }
  assert (ET : 0 < et) by apply exp_pos.
  assert (EU : ep < 1000000000000000).
  { assert (ep <= exp (1 + 1)) by (apply exp_le; nra). rewrite exp_plus in H. pose proof exp_le_3. pose proof (exp_pos 1). nra. }
  destruct (rleb_spec 1000000000000000 ep); [lra|]. cbn [negb andb].
  destruct (reqb_spec (1 - cosz * xi) 0); [nra|]. cbn [orb].
  set (den := ep * (xi + 7/4) * (-1/4 - (7/4 - xi) * 0) - em * (7/4 - xi) * (-1/4 - (xi + 7/4) * 0)).
  assert (D : den < 0). { unfold den. nra. }
  destruct (reqb_spec den 0); [lra|].
  match goal with |- (if rleb 0 ?a && rleb 0 ?b && _ && _ then _ else _) = _ => replace a with 0; [replace b with et|] end.
  - destruct (rleb_spec 0 0), (rleb_spec 0 et), (rleb_spec (et * cosz) et); try nra. reflexivity.
  - apply Rmult_eq_reg_r with den; [|lra]. unfold Rdiv. rewrite (Rmult_assoc _ (/ den) den), (Rinv_l den) by lra. unfold den, Rdiv. ring.
  - apply Rmult_eq_reg_r with den; [|lra]. unfold Rdiv. rewrite (Rmult_assoc _ (/ den) den), (Rinv_l den) by lra. ring.
Qed.

(** ** the backscatter series *)
Lemma legendre_step n x : legendre (S (S n)) x = ((2 * INR n + 3) * x * legendre (S n) x - (INR n + 1) * legendre n x) / (INR n + 2).
Proof. unfold legendre. cbn [legendre2]. destruct (legendre2 n x) as [p q]. reflexivity. Qed.
Lemma half_integral_step m : half_integral (S m) = half_integral m * (- (2 * INR m + 1) / (2 * (INR m + 2))).
Proof.
  unfold half_integral. replace (2 * S m)%nat with (S (S (2 * m))) by lia. replace (2 * m + 1)%nat with (S (2 * m)) by lia.
  replace (S (S (2 * m)) + 1)%nat with (S (S (S (2 * m)))) by lia.
  rewrite !fact_simpl, !mult_INR, !S_INR, mult_INR. cbn [pow]. change (INR 2) with (1 + 1). change (INR 1) with 1. change (INR 0) with 0.
  pose proof (pos_INR m) as M. pose proof (INR_fact_neq_0 m). assert (2 ^ (m + (m + 0)) <> 0) by (apply pow_nonzero; lra).
  field. repeat split; try assumption; lra.
Qed.
Lemma half_integral_0 : half_integral 0 = 1 / 2 /\ half_integral 1 = -1 / 8.
Proof. split; unfold half_integral; simpl; field. Qed.
Lemma even_2 m : Nat.odd (2 * m) = false.
Proof. rewrite Nat.odd_mul. reflexivity. Qed.
Lemma odd_2 m : Nat.odd (S (2 * m)) = true.
Proof. rewrite Nat.odd_succ, Nat.even_mul. reflexivity. Qed.

Lemma beta_loop_spec g x : forall k m s, (1 <= m)%nat ->
  beta_loop (2 * k) (2 * m) g x (legendre (2 * m - 2) x) (legendre (2 * m - 1) x) (half_integral m)
    ((4 * INR m + 3) * g ^ (2 * m + 1)) (backscatter_sum g x (m - 1)) = Ok s ->
  (k = 0%nat -> s = backscatter_sum g x (m - 1)) /\
  ((0 < k)%nat -> exists M, (m <= M < m + k)%nat /\ s = backscatter_sum g x M /\
     (S M = (m + k)%nat \/ negligible g x M) /\ forall j, (m <= j < M)%nat -> ~ negligible g x j).
Proof.
  induction k as [|k IH]; intros m s M1.
  - cbn [Nat.mul beta_loop]. intros [= <-]. split; [reflexivity | lia].
  - replace (2 * S k)%nat with (S (S (2 * k))) by lia. cbn [beta_loop]. rewrite even_2, odd_2.
    destruct m as [|m]; [lia|]. clear M1.
    replace (2 * S m - 2)%nat with (2 * m)%nat by lia. replace (2 * S m - 1)%nat with (S (2 * m)) by lia.
    assert (P1 : ((2 * INR (2 * S m) - 1) * x * legendre (S (2 * m)) x + (1 - INR (2 * S m)) * legendre (2 * m) x) / INR (2 * S m) = legendre (S (S (2 * m))) x).
    { rewrite legendre_step. replace (2 * S m)%nat with (S (S (2 * m))) by lia. rewrite !S_INR. f_equal; ring. }
    rewrite P1.
    assert (P2 : ((2 * INR (S (2 * S m)) - 1) * x * legendre (S (S (2 * m))) x + (1 - INR (S (2 * S m))) * legendre (S (2 * m)) x) / INR (S (2 * S m)) = legendre (2 * S m + 1) x).
    { replace (2 * S m + 1)%nat with (S (S (S (2 * m)))) by lia. rewrite (legendre_step (S (2 * m))). replace (S (2 * S m)) with (S (S (S (2 * m)))) by lia. rewrite !S_INR. f_equal; ring. }
    rewrite P2.
    assert (SUM : backscatter_sum g x (S m - 1) + (4 * INR (S m) + 3) * g ^ (2 * S m + 1) * half_integral (S m) * legendre (2 * S m + 1) x = backscatter_sum g x (S m)).
    { replace (S m - 1)%nat with m by lia. unfold backscatter_sum. cbn [sum_f_R0]. f_equal. unfold backscatter_term. ring. }
    rewrite SUM. destruct (reqb_spec (backscatter_sum g x (S m)) 0); [discriminate|].
    assert (TERM : backscatter_sum g x (S m) - backscatter_sum g x (S m - 1) = backscatter_term g x (S m)).
    { replace (S m - 1)%nat with m by lia. unfold backscatter_sum. cbn [sum_f_R0]. ring. }
    rewrite TERM.
    assert (NG : reflect (negligible g x (S m)) (rltb (Rabs (backscatter_term g x (S m) / backscatter_sum g x (S m))) 0.000000001 && rleb (backscatter_sum g x (S m)) 1)).
    { unfold negligible. destruct (rltb_spec (Rabs (backscatter_term g x (S m) / backscatter_sum g x (S m))) 0.000000001), (rleb_spec (backscatter_sum g x (S m)) 1); constructor; tauto. }
    destruct NG as [N|N].
    + intros [= <-]. split; [lia|]. intros _. exists (S m). split; [lia|]. split; [reflexivity|]. split; [right; exact N|]. intros j J. lia.
    + assert (MI : (INR (S (2 * S m)) - 1) / 2 = INR (S m)).
      { rewrite (S_INR (2 * S m)), mult_INR. change (INR 2) with (1 + 1). field. }
      rewrite MI. rewrite <- half_integral_step.
      replace ((4 * INR (S m) + 3) * g ^ (2 * S m + 1) * (g * g * (4 * INR (S m) + 7) / (4 * INR (S m) + 3))) with ((4 * INR (S (S m)) + 3) * g ^ (2 * S (S m) + 1)).
      2:{ replace (2 * S (S m) + 1)%nat with (S (S (2 * S m + 1))) by lia. cbn [pow]. rewrite (S_INR (S m)). pose proof (pos_INR (S m)). field. lra. }
      intros H. replace (S (S (2 * S m))) with (2 * S (S m))%nat in H by lia.
      replace (S (S (2 * m))) with (2 * S (S m) - 2)%nat in H by lia. replace (2 * S m + 1)%nat with (2 * S (S m) - 1)%nat in H by lia.
      specialize (IH (S (S m)) s ltac:(lia)).
      replace (S (S m) - 1)%nat with (S m) in IH by lia. specialize (IH H). destruct IH as [K0 K1]. split; [lia|]. intros _.
      destruct k as [|k].
      * exists (S m). split; [lia|]. split; [apply K0; reflexivity|]. split; [left; lia|]. intros j J. lia.
      * destruct (K1 ltac:(lia)) as (M & A & B & C & D). exists M. split; [lia|]. split; [exact B|]. split; [destruct C; [left; lia | right; assumption]|].
        intros j J. destruct (Nat.eq_dec j (S m)) as [->|]; [exact N | apply D; lia].
Qed.
Lemma beta_series cosz g b : 0 < g -> beta_0 cosz g = Ok b ->
  exists M, (1 <= M <= Z.to_nat 1023)%nat /\ b = (1 - backscatter_sum g cosz M) / 2 /\
    (M = Z.to_nat 1023 \/ negligible g cosz M) /\ forall j, (1 <= j < M)%nat -> ~ negligible g cosz j.
Proof.
  intros G. unfold beta_0. destruct (negb _); [discriminate|]. destruct (reqb_spec g 0); [lra|].
  destruct (beta_loop _ _ _ _ _ _ _ _ _) as [s|] eqn:L; [|discriminate]. cbn [bind]. destruct (_ && _); [|discriminate]. intros [= <-].
  assert (FU : Z.to_nat 2046 = (2 * Z.to_nat 1023)%nat) by lia. rewrite FU in L. clear FU.
  destruct half_integral_0 as [H0 H1].
  destruct (beta_loop_spec g cosz (Z.to_nat 1023) 1 s ltac:(lia)) as [_ K].
  - rewrite <- L. cbn [Nat.mul Nat.add Nat.sub]. unfold legendre. cbn [legendre2 fst]. rewrite H1.
    replace ((4 * INR 1 + 3) * g ^ 3) with (7 * g * g * g) by (simpl; ring).
    replace (backscatter_sum g cosz 0) with (3 * g * cosz / 2); [reflexivity|].
    unfold backscatter_sum, backscatter_term. cbn [sum_f_R0]. rewrite H0. unfold legendre. simpl. field.
  - destruct (K ltac:(lia)) as (M & A & B & C & D). exists M. split; [lia|]. split; [rewrite B; reflexivity|]. split; [destruct C; [left; lia | right; assumption] | exact D].
Qed.

(** ** hidden cells *)
Lemma no_sun_spec cosz h : 0 < cosz < 1 -> Rabs h < PI / 2 -> (no_sun cosz h = true <-> asin cosz < Rabs h).
Proof.
  intros C H. pose proof PI_RGT_0. unfold no_sun. rewrite acos_asin by lra. replace (PI / 2 - (PI / 2 - asin cosz)) with (asin cosz) by ring.
  pose proof (asin_bound_lt cosz ltac:(lra)) as A. pose proof (Rabs_pos h).
  assert (A0 : 0 < asin cosz).
  { destruct (Rlt_dec 0 (asin cosz)) as [Y|N]; [exact Y|]. exfalso.
    pose proof (sin_incr_1 (asin cosz) 0 ltac:(lra) ltac:(lra) ltac:(lra) ltac:(lra) ltac:(lra)) as I. rewrite sin_asin, sin_0 in I by lra. lra. }
  destruct (rltb_spec (tan (asin cosz)) (tan (Rabs h))) as [L|L]; split; intros K; try reflexivity; try discriminate.
  - destruct (Rlt_dec (asin cosz) (Rabs h)) as [Y|N]; [exact Y|]. exfalso. destruct (Req_dec (Rabs h) (asin cosz)) as [E|E]; [rewrite E in L; lra|].
    pose proof (tan_increasing (Rabs h) (asin cosz) ltac:(lra) ltac:(lra) ltac:(lra)). lra.
  - exfalso. apply L. apply tan_increasing; lra.
Qed.
Lemma stoporad_spec S0 cosz h illum svf tcf tau tz omega g R0 z albedo gl df : 0 <= cosz ->
  stoporad_cell S0 cosz h illum svf tcf tau tz omega g R0 z albedo = Ok (gl, df) ->
  exists b d, elevrad S0 cosz tau tz omega g R0 z = Ok (b, d) /\
    df = svf * d + tcf * albedo * ((1 - svf) * d + cosz * b) /\
    (no_sun cosz h = false -> gl = df + b * illum) /\ (no_sun cosz h = true -> gl = df).
Proof.
  intros C. unfold stoporad_cell. destruct (rltb_spec cosz 0); [lra|].
  destruct (elevrad S0 cosz tau tz omega g R0 z) as [[b d]|]; [|discriminate]. cbn [bind fst snd].
  unfold toporad, lit. intros [= <- <-]. exists b, d. split; [reflexivity|]. split; [ring|].
  destruct (no_sun cosz h); split; intros; try discriminate; ring.
Qed.
Lemma elevrad_infinite S0 cosz tz omega g R0 z b d g1 g2 g3 g4 : 0 < cosz -> tz < 44300 -> z < 44300 -> 0 <= omega <= 1 ->
  mwgamma cosz omega g = Ok (g1, g2, g3, g4) -> 0.000000000001 * 0.000000000001 <= (g1 - g2) * (g2 + g1) ->
  elevrad S0 cosz 0 tz omega g R0 z = Ok (b, d) -> b = 0 /\ d = 0.
Proof.
  intros C TZ Z O G X. unfold elevrad. destruct (tau_spec 0 tz z TZ Z) as (t & E & _ & _ & T & _). rewrite E, (T eq_refl).
  unfold twostream. destruct (rleb_spec cosz 0); [lra|]. destruct (rleb S0 0); [discriminate|]. destruct (reqb_spec 0 0); [|lra]. rewrite G. cbn [bind].
  apply gamma_spec in G; [|exact O]. destruct (rltb g1 g2); [discriminate|].
  destruct (two_cell cosz omega _ g1 g2 g3 g4 _) as [r|] eqn:K; [|discriminate]. cbn [bind]. intros [= <- <-].
  assert (XI : 0.000000000001 <= xi_of g1 g2).
  { unfold xi_of. destruct (reqb_spec g1 g2) as [->|_]; [lra|]. rewrite <- (sqrt_square 0.000000000001) by lra. apply sqrt_le_1_alt. exact X. }
  assert (BIG : 1000000000000000 <= exp (1000000000000000 * xi_of g1 g2)).
  { assert (P : forall j : nat, 2 ^ j <= exp (INR j)).
    { induction j as [|j IH]; [simpl; rewrite exp_0; lra|]. rewrite S_INR, exp_plus. simpl. pose proof (exp_ineq1 1 ltac:(lra)). pose proof (exp_pos (INR j)).
      assert (0 < 2 ^ j) by (apply pow_lt; lra). nra. }
    apply Rle_trans with (2 ^ 50); [simpl; lra|]. eapply Rle_trans; [apply P|]. apply exp_le. simpl INR. lra. }
  assert (TR : t_trans r = 0 /\ t_btrans r = 0).
  { unfold two_cell in K. cbv zeta in K. fold (xi_of g1 g2) in K. destruct (rleb_spec 1000000000000000 (exp (1000000000000000 * xi_of g1 g2))); [|contradiction].
    cbn [negb andb] in K. destruct (_ && _) in K; [|discriminate]. injection K as <-. split; reflexivity. }
  destruct TR as [-> ->]. split; ring.
Qed.
