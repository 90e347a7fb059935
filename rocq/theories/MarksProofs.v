(** Proofs about MarksModel.v. *)
From Coq Require Import List Arith Bool ZArith QArith Qcanon Lia.
From Verif Require Import Num StormsModel StormsSpec StormsProofs DataModel MarksModel MarksSpec.
Import ListNotations.
Local Open Scope Qc_scope.

Lemma cold_iff tp : cold tp = true <-> snow_cold tp.
Proof.
  unfold cold, snow_cold. destruct tp as [|x r].
  - split; [discriminate|intros (_ & v & [] & _)].
  - apply np_min_lt. discriminate.
Qed.

Lemma pd_sum_nonneg r : (forall v, In (Some v) r -> 0 <= v) -> 0 <= pd_sum r.
Proof.
  induction r as [|x r IH]; intros H; cbn [pd_sum fold_right]; [apply Qcle_refl|].
  fold (pd_sum r). assert (0 <= pd_sum r) by (apply IH; intros v Hv; apply H; right; exact Hv).
  destruct x as [v|]; [|assumption]. apply Qc_add_nonneg; [apply H; left; reflexivity|assumption].
Qed.

Lemma pd_sum_pos r : (forall v, In (Some v) r -> 0 <= v) ->
  (0 < pd_sum r <-> exists v, In (Some v) r /\ 0 < v).
Proof.
  induction r as [|x r IH]; intros H; cbn [pd_sum fold_right].
  - split; [intros L; exfalso; revert L; apply Qcle_not_lt, Qcle_refl|intros (v & [] & _)].
  - fold (pd_sum r).
    assert (Hr : forall v, In (Some v) r -> 0 <= v) by (intros v Hv; apply H; right; exact Hv).
    specialize (IH Hr). pose proof (pd_sum_nonneg r Hr) as N. destruct x as [v|].
    + assert (Hv : 0 <= v) by (apply H; left; reflexivity). split.
      * intros L. destruct (Qclt_le_dec 0 v) as [P|P]; [exists v; split; [left; reflexivity|exact P]|].
        assert (L' : 0 < pd_sum r) by (revert L P N; qclra).
        apply IH in L'. destruct L' as (w & Hw & P'). exists w. split; [right; exact Hw|exact P'].
      * intros (w & [E|Hw] & P).
        -- injection E as ->. revert P N. qclra.
        -- assert (L' : 0 < pd_sum r) by (apply IH; exists w; auto). revert L' Hv. qclra.
    + rewrite IH. split; intros (w & Hw & P); exists w.
      * split; [right; exact Hw|exact P].
      * destruct Hw as [E|Hw]; [discriminate|]. auto.
Qed.

Lemma in_storms_iff spans t : in_storms spans t = true <-> exists s, In s spans /\ (fst s <= t <= snd s)%nat.
Proof.
  unfold in_storms. rewrite existsb_exists. split; intros (s & Hs & H); exists s; split; auto.
  - apply andb_true_iff in H. rewrite !Nat.leb_le in H. lia.
  - apply andb_true_iff. rewrite !Nat.leb_le. lia.
Qed.

(** ** Sums of a column *)
Lemma total_nonneg keep c : forall t i, nonneg t -> 0 <= total keep c i t.
Proof.
  induction t as [|r t IH]; intros i Hn; cbn [total]; [apply Qcle_refl|].
  apply Qc_add_nonneg.
  - destruct (keep i); [|apply Qcle_refl]. destruct (nth c r None) as [v|] eqn:E; [|apply Qcle_refl].
    apply (Hn r v); [left; reflexivity|]. rewrite <- E. apply nth_In.
    destruct (Nat.lt_ge_cases c (length r)) as [L|L]; [exact L|]. rewrite nth_overflow in E by exact L. discriminate.
  - apply IH. intros r' v Hr. apply Hn. right; exact Hr.
Qed.

Lemma total_ge keep c v : forall t i k, nonneg t -> cell t k c = Some v -> keep (i + k)%nat = true ->
  v <= total keep c i t.
Proof.
  induction t as [|r t IH]; intros i k Hn E K; cbn [total].
  - unfold cell in E. destruct k; cbn in E; destruct c; discriminate.
  - assert (Hn' : nonneg t) by (intros r' v' Hr; apply Hn; right; exact Hr).
    pose proof (total_nonneg keep c t (S i) Hn') as N. destruct k as [|k].
    + rewrite Nat.add_0_r in K. rewrite K. unfold cell in E. cbn in E. rewrite E. revert N. qclra.
    + assert (L : v <= total keep c (S i) t).
      { apply (IH (S i) k); [exact Hn'|exact E|]. rewrite <- K. f_equal. lia. }
      assert (H0 : 0 <= (if keep i then match nth c r None with Some v => v | None => 0 end else 0)).
      { pose proof (total_nonneg keep c [r] i) as H. cbn [total] in H.
        assert (H1 : nonneg [r]).
        { intros r' v' [<-|[]]. apply Hn. left; reflexivity. }
        specialize (H H1). revert H. qclra. }
      revert L H0. qclra.
Qed.

Lemma Qcdiv_pos x y : 0 < x -> 0 < y -> 0 < x / y.
Proof.
  intros Hx Hy. unfold Qcdiv.
  assert (Hi : 0 < / y).
  { unfold Qclt in *. rewrite this_inv. apply Qinv_lt_0_compat. exact Hy. }
  unfold Qclt in *. rewrite this_mult.
  apply Qmult_lt_0_compat; assumption.
Qed.

Lemma Qcmult_pos x y : 0 < x -> 0 < y -> 0 < x * y.
Proof.
  intros Hx Hy. unfold Qclt in *. rewrite this_mult.
  apply Qmult_lt_0_compat; assumption.
Qed.

Lemma look_found : forall storms k s t i on,
  ForallOrdPairs (fun x y : storm => (s_end x < s_start y)%nat) storms ->
  nth_error storms k = Some s -> (s_start s <= t <= s_end s)%nat ->
  look t i storms on = (Some ((i + k)%nat, s), Some (s_start s), true).
Proof.
  induction storms as [|x r IH]; intros k s t i on Ho Hk Ht; [destruct k; discriminate|].
  cbn [look]. destruct k as [|k].
  - injection Hk as ->. destruct (Nat.leb_spec (s_start s) t); [|lia]. destruct (Nat.leb_spec t (s_end s)); [|lia].
    cbn [andb]. rewrite Nat.add_0_r. reflexivity.
  - cbn in Hk. inversion Ho as [|x' r' Hf Ho']; subst.
    assert (L : (s_end x < s_start s)%nat).
    { rewrite Forall_forall in Hf. apply Hf. eapply nth_error_In; eauto. }
    destruct (Nat.leb_spec t (s_end x)); [lia|]. rewrite andb_false_r.
    rewrite (IH k s t (S i) false Ho' Hk Ht). rewrite <- Nat.add_succ_comm. reflexivity.
Qed.

(** ** A run *)
Section Run.
Variables (interp : list num -> list num) (phase : list num -> list num -> list num * list num)
          (gauge : nat -> nat -> Qc) (drift : nat -> list num -> list num) (wday : nat -> Qc)
          (lo hi : option Qc) (ts thr : Qc) (steps width : nat).
Variables (rows temps : list (list num)) (spans : list (nat * nat)) (days0 : list Qc) (threaded : bool).
Hypothesis Hwidth : Forall (fun r => length r = width) rows.
Hypothesis Hnn : nonneg rows.
Hypothesis Hthr : 0 <= thr.
Hypothesis Hgauge : forall t c, 0 < gauge t c.
Hypothesis Htemps : length temps = length rows.
Hypothesis Hspans : is_storms (length rows) (wet_station thr rows)
  (station_storm (length rows) steps (wet_station thr rows)) spans.

Local Notation storms := (tracking_by_station thr steps rows).
Local Notation corr := (clip_and_correct rows spans (seq 0 width)).
Local Notation arow t := (scale_row (fun c => Some (gauge t c)) 0 (nth t corr [])).
Local Notation n := (length rows).

Lemma spans_eq : spans = map row_span storms.
Proof.
  apply (station_storms_unique n steps (wet_station thr rows)); [|exact Hspans|exact (station_spec thr steps rows)].
  intros i (r & v & E & _). apply nth_error_Some. congruence.
Qed.

Lemma corr_length : length corr = n.
Proof. apply out_length. Qed.

Lemma arow_length t : (t < n)%nat -> length (arow t) = width.
Proof. intros Ht. rewrite scale_row_length. apply out_shape; assumption. Qed.

Lemma cell_pos t c v : cell rows t c = Some v -> 0 <= v.
Proof.
  intros E. unfold cell in E. apply (Hnn (nth t rows []) v).
  - destruct (Nat.lt_ge_cases t n) as [L|L]; [apply nth_In; exact L|].
    rewrite (nth_overflow rows) in E by exact L. destruct c; discriminate.
  - rewrite <- E. apply nth_In. destruct (Nat.lt_ge_cases c (length (nth t rows []))) as [L|L]; [exact L|].
    rewrite (nth_overflow (nth t rows [])) in E by exact L. discriminate.
Qed.

Lemma arow_cell t c : (t < n)%nat -> (c < width)%nat ->
  nth c (arow t) None =
    if in_storms spans t then nth c (used gauge rows spans width t) None else Some 0.
Proof.
  intros Ht Hc.
  assert (Hl : length (nth t corr []) = width) by (apply out_shape; assumption).
  rewrite scale_row_nth by (rewrite Hl; exact Hc). rewrite Nat.add_0_l.
  assert (Hs : selected (seq 0 width) c) by (right; apply in_seq; lia).
  destruct (clip_spec rows spans (seq 0 width) width Hwidth c Hc Hs) as (f & Hf & F0 & F1 & F2).
  specialize (Hf t Ht). unfold cell in Hf at 1. rewrite Hf.
  unfold used. rewrite (nth_map_in nat num _ (seq 0 width) c 0%nat None) by (rewrite seq_length; exact Hc).
  rewrite seq_nth by exact Hc. rewrite Nat.add_0_l.
  destruct (in_storms spans t) eqn:In; cbn [nscale].
  - destruct (cell rows t c) as [v|] eqn:E; cbn [option_map nscale]; [|reflexivity].
    f_equal. f_equal.
    pose proof (cell_pos _ _ _ E) as P.
    pose proof (total_ge (in_storms spans) c v rows 0 t Hnn E In) as G1.
    pose proof (total_ge (fun _ => true) c v rows 0 t Hnn E eq_refl) as G2.
    destruct (Qc_eq_dec (total (fun _ => true) c 0 rows) 0) as [Z|Z].
    { assert (v = 0) by (apply Qcle_antisym; [rewrite <- Z; exact G2|exact P]). subst v. ring. }
    destruct (Qc_eq_dec (total (in_storms spans) c 0 rows) 0) as [Z'|Z'].
    { assert (v = 0) by (apply Qcle_antisym; [rewrite <- Z'; exact G1|exact P]). subst v. ring. }
    destruct (F2 Z Z') as (-> & _). reflexivity.
  - f_equal. ring.
Qed.

Lemma used_length t : length (used gauge rows spans width t) = width.
Proof. unfold used. rewrite map_length, seq_length. reflexivity. Qed.

Lemma arow_in t : (t < n)%nat -> in_storms spans t = true -> arow t = used gauge rows spans width t.
Proof.
  intros Ht H. apply (nth_ext _ _ None None).
  - rewrite arow_length, used_length by exact Ht. reflexivity.
  - intros c Hc. rewrite arow_length in Hc by exact Ht. rewrite arow_cell by assumption. rewrite H. reflexivity.
Qed.

Lemma in_nth (x : num) l : In x l -> exists c, (c < length l)%nat /\ nth c l None = x.
Proof. intros H. destruct (In_nth l x None H) as (c & Hc & E). eauto. Qed.

Lemma used_sign t c v : in_storms spans t = true -> (c < width)%nat ->
  nth c (used gauge rows spans width t) None = Some v ->
  0 <= v /\ (0 < v <-> exists w, cell rows t c = Some w /\ 0 < w).
Proof.
  intros In Hc. unfold used.
  rewrite (nth_map_in nat num _ (seq 0 width) c 0%nat None) by (rewrite seq_length; exact Hc).
  rewrite seq_nth by exact Hc. rewrite Nat.add_0_l.
  destruct (cell rows t c) as [w|] eqn:E; [|discriminate]. cbn [option_map]. intros H.
  assert (Hv : v = w * (total (fun _ => true) c 0 rows / total (in_storms spans) c 0 rows) * gauge t c) by congruence.
  clear H. pose proof (cell_pos _ _ _ E) as P.
  destruct (Qclt_le_dec 0 w) as [L|L].
  - pose proof (total_ge (in_storms spans) c w rows 0 t Hnn E In) as G1.
    pose proof (total_ge (fun _ => true) c w rows 0 t Hnn E eq_refl) as G2.
    assert (D : 0 < v).
    { rewrite Hv. apply Qcmult_pos; [|apply Hgauge]. apply Qcmult_pos; [exact L|].
      apply Qcdiv_pos; eapply Qclt_le_trans; eauto. }
    split; [apply Qclt_le_weak; exact D|]. split; [intros _; exists w; auto|intros _; exact D].
  - assert (w = 0) by (apply Qcle_antisym; assumption). subst w.
    assert (v = 0) by (rewrite Hv; ring). subst v. rewrite H. split; [apply Qcle_refl|]. split.
    + intros B. exfalso. revert B. apply Qcle_not_lt, Qcle_refl.
    + intros (w & Ew & B). injection Ew as <-. exact B.
Qed.

Lemma row_nth t : (t < n)%nat -> nth_error rows t = Some (nth t rows []).
Proof. intros Ht. apply nth_error_nth'. exact Ht. Qed.
Lemma row_width t : (t < n)%nat -> length (nth t rows []) = width.
Proof. intros Ht. rewrite Forall_forall in Hwidth. apply Hwidth, nth_In. exact Ht. Qed.

Lemma arow_wet t : (t < n)%nat -> (Qcltb 0 (pd_sum (arow t)) = true <-> raining rows spans t).
Proof.
  intros Ht. unfold raining. rewrite <- in_storms_iff.
  destruct (in_storms spans t) eqn:E.
  - rewrite arow_in by assumption.
    assert (Hp : forall v, In (Some v) (used gauge rows spans width t) -> 0 <= v).
    { intros v Hv. destruct (in_nth _ _ Hv) as (c & Hc & Ec). rewrite used_length in Hc.
      apply (used_sign t c v E Hc Ec). }
    destruct (Qcltb_spec 0 (pd_sum (used gauge rows spans width t))) as [L|L].
    + split; [intros _|reflexivity]. split; [reflexivity|].
      apply pd_sum_pos in L; [|exact Hp]. destruct L as (v & Hv & P).
      destruct (in_nth _ _ Hv) as (c & Hc & Ec). rewrite used_length in Hc.
      apply (used_sign t c v E Hc Ec) in P. destruct P as (w & Ew & P).
      exists (nth t rows []), w. split; [apply row_nth; exact Ht|]. split; [|exact P].
      rewrite <- Ew. apply nth_In. rewrite row_width by exact Ht. exact Hc.
    + split; [discriminate|]. intros (_ & r & w & Er & Hw & P). exfalso. apply L.
      apply pd_sum_pos; [exact Hp|]. rewrite row_nth in Er by exact Ht. injection Er as <-.
      destruct (in_nth _ _ Hw) as (c & Hc & Ec). rewrite row_width in Hc by exact Ht.
      assert (Ec' : cell rows t c = Some w) by exact Ec.
      destruct (nth c (used gauge rows spans width t) None) as [v|] eqn:Ev.
      * exists v. split; [rewrite <- Ev; apply nth_In; rewrite used_length; exact Hc|].
        apply (used_sign t c v E Hc Ev). eauto.
      * exfalso. unfold used in Ev.
        rewrite (nth_map_in nat num _ (seq 0 width) c 0%nat None) in Ev by (rewrite seq_length; exact Hc).
        rewrite seq_nth in Ev by exact Hc. rewrite Nat.add_0_l, Ec' in Ev. discriminate.
  - assert (Z : forall v, In (Some v) (arow t) -> v = 0).
    { intros v Hv. destruct (in_nth _ _ Hv) as (c & Hc & Ec). rewrite arow_length in Hc by exact Ht.
      rewrite arow_cell in Ec by assumption. rewrite E in Ec. congruence. }
    destruct (Qcltb_spec 0 (pd_sum (arow t))) as [L|L]; [|split; [discriminate|intros (B & _); discriminate]].
    exfalso. apply pd_sum_pos in L.
    + destruct L as (v & Hv & P). rewrite (Z v Hv) in P. revert P. apply Qcle_not_lt, Qcle_refl.
    + intros v Hv. rewrite (Z v Hv). apply Qcle_refl.
Qed.

(** ** Storms of the table *)
Lemma storms_order : ForallOrdPairs (fun x y : storm => (s_end x < s_start y)%nat) storms.
Proof.
  destruct Hspans as (O & _ & _). rewrite spans_eq in O. unfold in_order in O. clear -O.
  induction storms as [|x r IH]; [constructor|]. cbn [map] in O. inversion O as [|x' r' Hf Ho]; subst.
  constructor; [|apply IH; exact Ho]. rewrite Forall_forall in *. intros y Hy.
  apply (Hf (row_span y)). apply in_map. exact Hy.
Qed.

Lemma span_storm k a b : nth_error spans k = Some (a, b) ->
  exists s, nth_error storms k = Some s /\ s_start s = a /\ s_end s = b.
Proof.
  rewrite spans_eq, nth_error_map. destruct (nth_error storms k) as [s|]; [|discriminate].
  cbn. intros H. injection H as <- <-. eauto.
Qed.
Lemma storm_span k s : nth_error storms k = Some s -> nth_error spans k = Some (s_start s, s_end s).
Proof. intros H. rewrite spans_eq, nth_error_map, H. reflexivity. Qed.

Lemma span_facts a b : In (a, b) spans -> (a <= b < n)%nat /\ wet_station thr rows a.
Proof.
  intros H. destruct Hspans as (_ & P & _). destruct (P _ H) as (w & (H1 & H2 & _) & Eb). cbn in *.
  split; [lia|exact H2].
Qed.

Lemma start_rains a b : In (a, b) spans -> raining rows spans a.
Proof.
  intros H. destruct (span_facts a b H) as (L & r & v & Er & Hv & P). split.
  - exists (a, b). split; [exact H|]. cbn. lia.
  - exists r, v. split; [exact Er|]. split; [exact Hv|]. eapply Qcle_lt_trans; eauto.
Qed.

Lemma starts_inj k k' s s' : nth_error spans k = Some s -> nth_error spans k' = Some s' ->
  (k < k')%nat -> (snd s < fst s')%nat.
Proof.
  destruct Hspans as (O & _ & _). unfold in_order in O. revert O. clear. revert k k'.
  induction spans as [|x r IH]; intros k k' O Hk Hk' L; [destruct k; discriminate|].
  inversion O as [|x' r' Hf Ho]; subst. destruct k as [|k], k' as [|k']; try lia.
  - cbn in Hk, Hk'. injection Hk as ->. rewrite Forall_forall in Hf. apply Hf. eapply nth_error_In; eauto.
  - cbn in Hk, Hk'. eapply (IH k k'); eauto. lia.
Qed.

Lemma sums_storm k s : nth_error storms k = Some s ->
  storm_sums thr rows width (s_start s) (s_end s) (s_tot s).
Proof.
  intros Hk. assert (Hs : In s storms) by (eapply nth_error_In; eauto). split.
  - pose proof (track_rows_tot thr steps rows width Hwidth rows [] (mkTr false 0 (mkStorm 0 0 []) []) eq_refl) as H.
    cbn [length] in H.
    assert (T0 : totinv thr rows width 0 (mkTr false 0 (mkStorm 0 0 []) [])) by (split; simpl; [contradiction|discriminate]).
    specialize (H (tinv0 thr steps rows) T0). clear Hk. unfold tracking_by_station in Hs.
    set (tr := track_rows _ _ _ _ _) in *. destruct H as [T1 T2]. destruct (tr_on tr) eqn:On.
    + apply in_app_or in Hs. destruct Hs as [Hs|[<-|[]]]; [apply (T1 s Hs)|apply (T2 eq_refl)].
    + apply (T1 s Hs).
  - intros c keep Hc Hkp. eapply station_totals_spec; eauto.
Qed.

Lemma sums_unique a b t1 t2 : storm_sums thr rows width a b t1 -> storm_sums thr rows width a b t2 -> t1 = t2.
Proof.
  intros (L1 & S1) (L2 & S2). apply (nth_ext _ _ None None); [congruence|].
  intros c Hc. rewrite L1 in Hc.
  assert (K : forall i, (fun i => (a <=? i)%nat && (i <=? b)%nat && wetb thr rows i) i = true <->
     (a <= i <= b)%nat /\ wet_station thr rows i).
  { intros i. cbv beta. rewrite !andb_true_iff, !Nat.leb_le, wetb_wet. tauto. }
  rewrite (S1 c _ Hc K), (S2 c _ Hc K). reflexivity.
Qed.

(** ** One time step *)
Local Notation mdist := (marks_distribute interp phase gauge drift wday lo hi ts thr storms).
Local Notation limits l := (set_min_max l lo hi).
Definition missing (l : list num) : bool :=
  forallb (fun x : num => match x with None => true | Some _ => false end) l.

Lemma missing_sums k s : nth_error storms k = Some s ->
  (missing (s_tot s) = true <-> storm_sums thr rows width (s_start s) (s_end s) (repeat None width)).
Proof.
  intros Hk. pose proof (sums_storm k s Hk) as Hs. split.
  - intros H. assert (E : s_tot s = repeat None width); [|rewrite <- E; exact Hs].
    destruct Hs as (L & _). rewrite <- L. clear -H. unfold missing in H.
    induction (s_tot s) as [|x r IH]; [reflexivity|]. cbn [forallb] in H. apply andb_true_iff in H.
    destruct H as (Hx & Hr). destruct x; [discriminate|]. cbn [length repeat]. f_equal. apply IH. exact Hr.
  - intros H. rewrite (sums_unique _ _ _ _ Hs H). unfold missing.
    clear. induction width as [|m IH]; [reflexivity|]. exact IH.
Qed.

(** the state after a dry and after a wet step *)
Definition after_dry (t : nat) (st : mstate) : mstate :=
  let days := map (fun d => d + ts) (m_days st) in
  mkM (m_id st) (m_on st) (m_total st) days (drift t (zeros_of days)) (zeros_of days) (zeros_of days)
      (map (fun d => wday t - d - q 1 1000) days).

Definition rain_grid (t : nat) : list num := limits (interp (used gauge rows spans width t)).
Definition snow_grids (t : nat) (tp : list num) : list num * list num :=
  if cold tp then phase tp (rain_grid t) else (zeros_of (rain_grid t), zeros_of (rain_grid t)).

Definition after_wet (t k : nat) (tp total : list num) (st : mstate) : mstate :=
  let '(den, ps) := snow_grids t tp in
  let days := marks_step ts thr (m_days st) (MWet true (combine (combine (rain_grid t) ps) tp)) in
  mkM (Id k) true total days (drift t (rain_grid t)) ps den
      (map (fun d => wday t - d - q 1 1000) days).

Lemma step_dry t tp st : (t < n)%nat -> ~ raining rows spans t ->
  mdist t (nth t corr []) tp st = MOk (after_dry t st).
Proof.
  intros Ht H. unfold marks_distribute, marks_time.
  destruct (Qcltb 0 (pd_sum (arow t))) eqn:E; [exfalso; apply H, arow_wet; assumption|]. reflexivity.
Qed.

Lemma used_not_missing t : (t < n)%nat -> raining rows spans t -> missing (used gauge rows spans width t) = false.
Proof.
  intros Ht H. apply arow_wet in H as H'; [|exact Ht].
  assert (In : in_storms spans t = true) by (apply in_storms_iff, H).
  rewrite arow_in in H' by assumption. destruct (missing (used gauge rows spans width t)) eqn:M; [|reflexivity].
  exfalso. assert (Z : pd_sum (used gauge rows spans width t) = 0).
  { clear -M. induction (used gauge rows spans width t) as [|x r IH]; [reflexivity|].
    unfold missing in M. cbn [forallb] in M. destruct x; [discriminate|]. cbn [pd_sum fold_right].
    apply IH. exact M. }
  rewrite Z in H'. discriminate.
Qed.

Lemma step_wet t k s tp st : (t < n)%nat -> raining rows spans t ->
  nth_error storms k = Some s -> (s_start s <= t <= s_end s)%nat ->
  mdist t (nth t corr []) tp st =
    if (t =? s_start s)%nat && cold tp then
      if missing (s_tot s) then MErr AllMissing
      else MOk (after_wet t k tp (limits (interp (s_tot s))) st)
    else MOk (after_wet t k tp (m_total st) st).
Proof.
  intros Ht H Hk Hs. unfold marks_distribute, marks_time.
  assert (W : Qcltb 0 (pd_sum (arow t)) = true) by (apply arow_wet; assumption). rewrite W.
  rewrite (look_found storms k s t 0 (m_on st) storms_order Hk Hs). rewrite Nat.add_0_l.
  assert (In : in_storms spans t = true) by (apply in_storms_iff, H).
  rewrite (arow_in t Ht In). unfold distribute1 at 1.
  pose proof (used_not_missing t Ht H) as M. unfold missing in M. rewrite M.
  cbn [mbind]. fold (rain_grid t).
  destruct ((t =? s_start s)%nat && cold tp) eqn:E.
  - unfold distribute1. fold (missing (s_tot s)). destruct (missing (s_tot s)); [reflexivity|].
    cbn [mbind andb]. unfold after_wet, snow_grids. destruct (cold tp); [|reflexivity].
    destruct (phase tp (rain_grid t)). reflexivity.
  - cbn [mbind andb]. unfold after_wet, snow_grids. destruct (cold tp); [|reflexivity].
    destruct (phase tp (rain_grid t)). reflexivity.
Qed.

Lemma rain_storm t : raining rows spans t ->
  exists k s, nth_error storms k = Some s /\ (s_start s <= t <= s_end s)%nat.
Proof.
  intros (((a, b) & Hs & L) & _). destruct (In_nth_error _ _ Hs) as (k & Hk).
  destruct (span_storm k a b Hk) as (s & H1 & H2 & H3). exists k, s. split; [exact H1|]. cbn in L. lia.
Qed.

(** ** The states of a run *)

(** [Inv t st]: what holds of the attributes before step [t]. *)
Definition tot_ok (t : nat) (tot : list num) : Prop :=
  ((forall a b, In (a, b) spans -> (a < t)%nat -> ~ snow_cold (nth a temps [])) /\ tot = zeros_of days0) \/
  (exists a b sums, In (a, b) spans /\ (a < t)%nat /\ snow_cold (nth a temps []) /\
     storm_sums thr rows width a b sums /\ tot = limits (interp sums) /\
     forall a' b', In (a', b') spans -> (a' < t)%nat -> snow_cold (nth a' temps []) -> (a' <= a)%nat).

Definition id_ok (t : nat) (id : sid) (on : bool) : Prop :=
  match id with
  | Unset => ~ any_rain rows
  | NaNId => any_rain rows /\ spans = []
  | Id k => spans <> [] /\
      ((k = 0%nat /\ forall s, In s spans -> (t <= fst s)%nat) \/
       (exists s, nth_error spans k = Some s /\ (fst s < t)%nat /\
          forall k' s', nth_error spans k' = Some s' -> (fst s' < t)%nat -> (k' <= k)%nat))
  end /\ (on = true <-> exists s, In s spans /\ (fst s < t)%nat).

Definition Inv (t : nat) (st : mstate) : Prop :=
  tot_ok t (m_total st) /\ id_ok t (m_id st) (m_on st).

Lemma no_rain_no_storm : ~ any_rain rows -> spans = [].
Proof.
  intros H. assert (N : forall x, ~ In x spans).
  { intros (a, b) Hx. apply H. destruct (start_rains a b Hx) as (_ & row & v & Er & Hv & P).
    exists row, v. split; [eapply nth_error_In; eauto|auto]. }
  clear -N. destruct spans as [|x r]; [reflexivity|]. exfalso. apply (N x). left. reflexivity.
Qed.

Lemma total_pos c : forall t i, nonneg t -> 0 < total (fun _ => true) c i t ->
  exists r v, In r t /\ In (Some v) r /\ 0 < v.
Proof.
  clear. induction t as [|r t IH]; intros i Hn H; cbn [total] in H.
  - exfalso. revert H. apply Qcle_not_lt, Qcle_refl.
  - assert (Hn' : nonneg t) by (intros r' v' Hr; apply Hn; right; exact Hr).
    destruct (Qclt_le_dec 0 (total (fun _ => true) c (S i) t)) as [L|L].
    + destruct (IH (S i) Hn' L) as (r' & v & H1 & H2). exists r', v. split; [right; exact H1|exact H2].
    + destruct (nth c r None) as [v|] eqn:E.
      * exists r, v. split; [left; reflexivity|]. split.
        -- rewrite <- E. apply nth_In. destruct (Nat.lt_ge_cases c (length r)) as [B|B]; [exact B|].
           rewrite nth_overflow in E by exact B. discriminate.
        -- revert H L. qclra.
      * exfalso. revert H L. qclra.
Qed.

Lemma any_rain_col : existsb (fun c => Qcltb 0 (colsum c rows)) (seq 0 width) = true <-> any_rain rows.
Proof.
  rewrite existsb_exists. split.
  - intros (c & Hc & H). destruct (Qcltb_spec 0 (colsum c rows)) as [L|L]; [|discriminate].
    rewrite (colsum_total c rows 0) in L. eapply total_pos; eauto.
  - intros (r & v & Hr & Hv & P). destruct (in_nth _ _ Hv) as (c & Hc & Ec).
    destruct (In_nth_error _ _ Hr) as (t & Ht).
    rewrite Forall_forall in Hwidth. rewrite (Hwidth r Hr) in Hc.
    exists c. split; [apply in_seq; lia|].
    destruct (Qcltb_spec 0 (colsum c rows)) as [L|L]; [reflexivity|]. exfalso. apply L.
    rewrite (colsum_total c rows 0). eapply Qclt_le_trans; [exact P|].
    apply (total_ge (fun _ => true) c v rows 0 t Hnn); [|reflexivity].
    unfold cell. rewrite (nth_error_nth rows t [] Ht). exact Ec.
Qed.

Lemma inv_first : Inv 0 (marks_first width rows storms days0).
Proof.
  split; [left; split; [intros a b _ L; lia|reflexivity]|]. unfold id_ok, marks_first. cbn [m_id m_on].
  split; [|split; [discriminate|intros (s & _ & L); lia]].
  assert (Ls : length spans = length storms) by (rewrite spans_eq, map_length; reflexivity).
  destruct (length storms) as [|m] eqn:E; cbn [Nat.eqb negb].
  - assert (S0 : spans = []) by (destruct spans; [reflexivity|discriminate]).
    destruct (existsb _ _) eqn:X.
    + split; [apply any_rain_col; exact X|exact S0].
    + intros H. apply any_rain_col in H. congruence.
  - split; [intros S0; rewrite S0 in Ls; discriminate|]. left. split; [reflexivity|]. intros; lia.
Qed.

Lemma inv_dry t st : ~ raining rows spans t -> Inv t st -> Inv (S t) (after_dry t st).
Proof.
  intros H (T & I & O).
  assert (N : forall a b, In (a, b) spans -> (a < S t)%nat -> (a < t)%nat).
  { intros a b Hi L. destruct (Nat.eq_dec a t) as [->|]; [|lia]. exfalso. apply H. eapply start_rains; eauto. }
  assert (N' : forall s, In s spans -> (fst s < S t)%nat -> (fst s < t)%nat).
  { intros (a, b) Hi L. apply (N a b Hi L). }
  split.
  - cbn [m_total after_dry]. destruct T as [(T1 & T2)|(a & b & sums & T1 & T2 & T3 & T4 & T5 & T6)].
    + left. split; [|exact T2]. intros a b Hi L. eapply T1; eauto.
    + right. exists a, b, sums. split; [exact T1|]. split; [lia|]. split; [exact T3|]. split; [exact T4|]. split; [exact T5|].
      intros a' b' Hi L Cc. eapply T6; eauto.
  - cbn [m_id m_on after_dry]. split.
    + destruct (m_id st) as [| |k]; [exact I|exact I|]. destruct I as (I1 & I2). split; [exact I1|].
      destruct I2 as [(I2 & I3)|(s & I2 & I3 & I4)].
      * left. split; [exact I2|]. intros s Hs. specialize (I3 s Hs).
        destruct (Nat.eq_dec (fst s) t) as [E|]; [|lia]. specialize (N' s Hs ltac:(lia)). lia.
      * right. exists s. split; [exact I2|]. split; [lia|]. intros k' s' Hk' L. eapply I4; eauto.
        apply N'; [eapply nth_error_In; eauto|exact L].
    + rewrite O. split; intros (s & Hs & L); exists s; (split; [exact Hs|]); [lia|apply N'; assumption].
Qed.

Lemma inv_wet t k s tot st : nth_error storms k = Some s -> (s_start s <= t <= s_end s)%nat ->
  Inv t st ->
  (t = s_start s -> snow_cold (nth t temps []) -> tot = limits (interp (s_tot s))) ->
  (t <> s_start s \/ ~ snow_cold (nth t temps []) -> tot = m_total st) ->
  Inv (S t) (after_wet t k (nth t temps []) tot st).
Proof.
  intros Hk Hs (T & I & O) Tot1 Tot2.
  assert (Hsp : nth_error spans k = Some (s_start s, s_end s)) by (apply storm_span; exact Hk).
  assert (U : forall k' s', nth_error spans k' = Some s' -> (fst s' < S t)%nat -> (k' <= k)%nat).
  { intros k' s' H1 H2. destruct (Nat.le_gt_cases k' k) as [L|L]; [exact L|].
    pose proof (starts_inj k k' _ _ Hsp H1 L) as B. cbn in B. lia. }
  assert (At : forall a b, In (a, b) spans -> a = t -> t = s_start s).
  { intros a b Hi ->. destruct (In_nth_error _ _ Hi) as (k' & Hk').
    pose proof (U k' _ Hk' ltac:(cbn; lia)) as L.
    destruct (Nat.eq_dec k' k) as [->|D]; [congruence|].
    pose proof (starts_inj k' k _ _ Hk' Hsp ltac:(lia)) as B. cbn in B.
    destruct (span_facts t b Hi). lia. }
  unfold after_wet. destruct (snow_grids t (nth t temps [])) as (den, ps). split; cbn [m_total m_id m_on].
  - destruct (Nat.eq_dec t (s_start s)) as [E|E]; [destruct (cold (nth t temps [])) eqn:C|].
    + apply cold_iff in C. rewrite (Tot1 E C). right.
      exists (s_start s), (s_end s), (s_tot s). split; [eapply nth_error_In; eauto|].
      split; [lia|]. split; [rewrite <- E; exact C|]. split; [eapply sums_storm; eauto|].
      split; [reflexivity|]. intros a' b' _ L _. lia.
    + assert (C' : ~ snow_cold (nth t temps [])) by (intros B; apply cold_iff in B; congruence).
      rewrite (Tot2 (or_intror C')).
      assert (N : forall a b, In (a, b) spans -> (a < S t)%nat -> snow_cold (nth a temps []) -> (a < t)%nat).
      { intros a b Hi L Cc. destruct (Nat.eq_dec a t) as [->|]; [contradiction|lia]. }
      destruct T as [(T1 & T2)|(a & b & sums & T1 & T2 & T3 & T4 & T5 & T6)].
      * left. split; [|exact T2]. intros a b Hi L Cc. eapply T1; eauto.
      * right. exists a, b, sums. split; [exact T1|]. split; [lia|]. split; [exact T3|]. split; [exact T4|]. split; [exact T5|].
        intros a' b' Hi L Cc. eapply T6; eauto.
    + rewrite (Tot2 (or_introl E)).
      assert (N : forall a b, In (a, b) spans -> (a < S t)%nat -> (a < t)%nat).
      { intros a b Hi L. destruct (Nat.eq_dec a t) as [X|]; [exfalso; apply E; eapply At; eauto|lia]. }
      destruct T as [(T1 & T2)|(a & b & sums & T1 & T2 & T3 & T4 & T5 & T6)].
      * left. split; [|exact T2]. intros a b Hi L. eapply T1; eauto.
      * right. exists a, b, sums. split; [exact T1|]. split; [lia|]. split; [exact T3|]. split; [exact T4|]. split; [exact T5|].
        intros a' b' Hi L Cc. eapply T6; eauto.
  - split.
    + split; [intros S0; rewrite S0 in Hsp; destruct k; discriminate|]. right.
      exists (s_start s, s_end s). split; [exact Hsp|]. split; [cbn; lia|exact U].
    + split; [intros _|reflexivity]. exists (s_start s, s_end s). split; [eapply nth_error_In; eauto|cbn; lia].
Qed.

(** What ends the run at step [t]. *)
Definition ends_at (t : nat) (e : merr) : Prop :=
  (e = NoStormId /\ threaded = true /\ ~ any_rain rows) \/
  (e = AllMissing /\ exists b, In (t, b) spans /\ no_totals thr rows temps width t b).

Definition goes (t : nat) (st o : mstate) : Prop :=
  mdist t (nth t corr []) (nth t temps []) st = MOk o /\ Inv t st /\ Inv (S t) o.

Local Notation from := (marks_from interp phase gauge drift wday lo hi ts thr threaded storms).

Lemma one_step t st : (t < n)%nat -> Inv t st ->
  match mdist t (nth t corr []) (nth t temps []) st with
  | MErr e => ends_at t e
  | MOk o => Inv (S t) o /\ ~ (exists b, In (t, b) spans /\ no_totals thr rows temps width t b)
  end.
Proof.
  intros Ht I. destruct (Qcltb 0 (pd_sum (arow t))) eqn:W.
  - apply arow_wet in W; [|exact Ht]. destruct (rain_storm t W) as (k & s & Hk & Hs).
    rewrite (step_wet t k s _ st Ht W Hk Hs).
    assert (Hsp : nth_error spans k = Some (s_start s, s_end s)) by (apply storm_span; exact Hk).
    assert (Uq : forall b, In (t, b) spans -> t = s_start s /\ b = s_end s).
    { intros b Hi. destruct (In_nth_error _ _ Hi) as (k' & Hk').
      destruct (lt_eq_lt_dec k' k) as [[L|Ek]|L].
      - pose proof (starts_inj k' k _ _ Hk' Hsp L) as B. cbn in B. destruct (span_facts t b Hi). lia.
      - rewrite Ek, Hsp in Hk'. injection Hk' as <- <-. auto.
      - pose proof (starts_inj k k' _ _ Hsp Hk' L) as B. cbn in B. lia. }
    destruct (Nat.eqb_spec t (s_start s)) as [E|E]; cbn [andb].
    + destruct (cold (nth t temps [])) eqn:C.
      * apply cold_iff in C. destruct (missing (s_tot s)) eqn:M.
        -- apply (missing_sums k s Hk) in M. rewrite <- E in M. right. split; [reflexivity|].
           exists (s_end s). split; [rewrite E; eapply nth_error_In; eauto|]. split; assumption.
        -- split.
           ++ eapply inv_wet; eauto. intros [B|B]; contradiction.
           ++ intros (b & Hb & _ & B). destruct (Uq b Hb) as (_ & ->). rewrite E in B.
              apply (missing_sums k s Hk) in B. congruence.
      * assert (C' : ~ snow_cold (nth t temps [])) by (intros B; apply cold_iff in B; congruence). split.
        -- eapply inv_wet; eauto. intros _ B; contradiction.
        -- intros (b & _ & B & _). contradiction.
    + split.
      * eapply inv_wet; eauto. intros B; contradiction.
      * intros (b & Hb & _). apply E. apply (Uq b Hb).
  - assert (D : ~ raining rows spans t) by (intros B; apply arow_wet in B; [congruence|exact Ht]).
    rewrite (step_dry t _ st Ht D). split; [apply inv_dry; assumption|].
    intros (b & Hb & _). apply D. eapply start_rains; eauto.
Qed.

Lemma unset_iff t st : Inv t st -> (m_id st = Unset <-> ~ any_rain rows).
Proof.
  intros (_ & I & _). destruct (m_id st) as [| |k].
  - tauto.
  - destruct I as (I & _). split; [discriminate|tauto].
  - destruct I as (I & _). split; [discriminate|]. intros H. apply no_rain_no_storm in H. contradiction.
Qed.

Lemma skipn_at (A : Type) (d : A) : forall t (l : list A), (t < length l)%nat -> skipn t l = nth t l d :: skipn (S t) l.
Proof.
  clear. induction t as [|t IH]; intros [|x l] H; cbn in H; try lia; [reflexivity|].
  cbn [skipn nth]. rewrite IH by lia. reflexivity.
Qed.

Lemma run_from m : forall t st l e, (t + m = n)%nat -> Inv t st ->
  from t (skipn t corr) (skipn t temps) st = (l, e) ->
  (forall j o, nth_error l j = Some o -> exists prev, nth_error (st :: l) j = Some prev /\ goes (t + j) prev o) /\
  match e with
  | None => length l = m /\ forall j e', (t <= j < n)%nat -> ~ ends_at j e'
  | Some er => (t + length l < n)%nat /\ ends_at (t + length l) er /\
      forall j e', (t <= j < t + length l)%nat -> ~ ends_at j e'
  end.
Proof.
  induction m as [|m IH]; intros t st l e Et I H.
  - rewrite Nat.add_0_r in Et. subst t. rewrite skipn_all2 in H by (rewrite corr_length; lia).
    cbn [marks_from] in H. injection H as <- <-. split; [intros [|j] o B; discriminate|].
    split; [reflexivity|]. intros j e' L. lia.
  - assert (Ht : (t < n)%nat) by lia.
    rewrite (skipn_at _ [] t corr) in H by (rewrite corr_length; exact Ht).
    rewrite (skipn_at _ [] t temps) in H by (rewrite Htemps; exact Ht).
    cbn [marks_from] in H. pose proof (one_step t st Ht I) as St.
    destruct (mdist t (nth t corr []) (nth t temps []) st) as [o|er] eqn:D.
    + destruct St as (I' & NoT).
      assert (Cont : (threaded = true -> any_rain rows) ->
                exists l', l = o :: l' /\ from (S t) (skipn (S t) corr) (skipn (S t) temps) o = (l', e)).
      { intros Hr. destruct (from (S t) (skipn (S t) corr) (skipn (S t) temps) o) as (l', e') eqn:F.
        assert (H' : (o :: l', e') = (l, e)).
        { destruct threaded; [|destruct (m_id o); exact H]. destruct (m_id o) eqn:Io; [|exact H|exact H].
          exfalso. apply (unset_iff (S t) o I') in Io. apply Io, Hr. reflexivity. }
        injection H' as <- <-. eauto. }
      destruct (existsb (fun c => Qcltb 0 (colsum c rows)) (seq 0 width) || negb threaded) eqn:R.
      * assert (Hr : threaded = true -> any_rain rows).
        { intros Th. rewrite Th, orb_false_r in R. apply any_rain_col. exact R. }
        destruct (Cont Hr) as (l' & -> & F). destruct (IH (S t) o l' e ltac:(lia) I' F) as (P & Q).
        assert (NoE : forall e', ~ ends_at t e').
        { intros e' [(_ & Th & B)|(_ & B)]; [apply B, Hr, Th|apply NoT, B]. }
        split.
        -- intros [|j] o' Hj.
           ++ injection Hj as <-. exists st. split; [reflexivity|]. rewrite Nat.add_0_r. split; [exact D|]. auto.
           ++ cbn in Hj. destruct (P j o' Hj) as (prev & H1 & H2). exists prev. split; [exact H1|].
              rewrite <- Nat.add_succ_comm. exact H2.
        -- destruct e as [er|].
           ++ destruct Q as (Q1 & Q2 & Q3). cbn [length]. rewrite <- Nat.add_succ_comm. split; [exact Q1|].
              split; [exact Q2|]. intros j e' L. destruct (Nat.eq_dec j t) as [->|]; [apply NoE|apply Q3; lia].
           ++ destruct Q as (Q1 & Q2). split; [cbn; lia|]. intros j e' L.
              destruct (Nat.eq_dec j t) as [->|]; [apply NoE|apply Q2; lia].
      * apply orb_false_iff in R. destruct R as (R1 & R2). apply negb_false_iff in R2.
        assert (NR : ~ any_rain rows) by (intros B; apply any_rain_col in B; congruence).
        assert (U : m_id o = Unset) by (apply (unset_iff (S t) o I'); exact NR).
        rewrite R2, U in H. injection H as <- <-. split; [intros [|j] o' B; discriminate|].
        cbn [length]. rewrite Nat.add_0_r. split; [exact Ht|]. split; [left; auto|]. intros; lia.
    + injection H as <- <-. split; [intros [|j] o' B; discriminate|].
      cbn [length]. rewrite Nat.add_0_r. split; [exact Ht|]. split; [exact St|]. intros; lia.
Qed.

Lemma whole_run l e :
  marks_station_run interp phase gauge drift wday lo hi ts thr steps width threaded rows temps days0 = (l, e) ->
  (forall j o, nth_error l j = Some o ->
     exists prev, nth_error (marks_first width rows storms days0 :: l) j = Some prev /\ goes j prev o) /\
  match e with
  | None => length l = n /\ forall j e', (j < n)%nat -> ~ ends_at j e'
  | Some er => (length l < n)%nat /\ ends_at (length l) er /\ forall j e', (j < length l)%nat -> ~ ends_at j e'
  end.
Proof.
  unfold marks_station_run. rewrite <- spans_eq. intros H.
  destruct (run_from n 0 _ l e eq_refl inv_first H) as (P & Q). split; [exact P|].
  destruct e as [er|].
  - destruct Q as (Q1 & Q2 & Q3). split; [exact Q1|]. split; [exact Q2|]. intros; apply Q3; lia.
  - destruct Q as (Q1 & Q2). split; [exact Q1|]. intros; apply Q2; lia.
Qed.
End Run.
