From Coq Require Import List Arith Bool QArith Qcanon Lia.
From Verif Require Import Num KrigeModel KrigeSpec LuProofs KrigeProofs DkModel DkSpec.
Import ListNotations.
Local Open Scope Qc_scope.

(** ** the cache *)
Definition coherent (k : dk) (s : dk_state) : Prop := s = dk_init \/ dk_weights k (st_nan s) = Some (st_weights s).

Lemma bools_eqb_spec a b : reflect (a = b) (bools_eqb a b).
Proof. unfold bools_eqb. destruct (list_eq_dec Bool.bool_dec a b); constructor; assumption. Qed.

Lemma calculate_coherent k s data s' v : coherent k s -> dk_calculate k s data = Some (s', v) -> coherent k s'.
Proof.
  intros C. unfold dk_calculate. destruct (bools_eqb_spec (isnull data) (st_nan s)) as [E|N].
  - intros [= <- _]. exact C.
  - destruct (dk_weights k (isnull data)) as [w|] eqn:Ew; [|discriminate]. intros [= <- _]. right. exact Ew.
Qed.
Lemma run_coherent k : forall hist s s', coherent k s -> dk_run k s hist = Some s' -> coherent k s'.
Proof.
  induction hist as [|d t IH]; intros s s' C; simpl; [intros [= <-]; exact C|].
  destruct (dk_calculate k s d) as [[s1 v]|] eqn:E; [|discriminate]. apply IH. eapply calculate_coherent; eauto.
Qed.

(** the result is that of a new object *)
Lemma calculate_fresh k s data : coherent k s -> data <> [] -> dk_calculate k s data = dk_calculate k dk_init data.
Proof.
  intros C ND. unfold dk_calculate.
  assert (N0 : isnull data <> []) by (destruct data; [congruence|discriminate]).
  destruct (bools_eqb_spec (isnull data) (st_nan dk_init)) as [E|_]; [contradiction|].
  destruct (bools_eqb_spec (isnull data) (st_nan s)) as [E|N]; [|reflexivity].
  destruct C as [->|C]; [contradiction|]. rewrite E, C. simpl. destruct s; reflexivity.
Qed.
Lemma history_fresh k hist s data : dk_run k dk_init hist = Some s -> data <> [] ->
  dk_calculate k s data = dk_calculate k dk_init data.
Proof. intros H. apply calculate_fresh. apply (run_coherent k hist dk_init); [now left|exact H]. Qed.
Lemma calculate_weights k hist s data s' v : dk_run k dk_init hist = Some s -> data <> [] ->
  dk_calculate k s data = Some (s', v) ->
  st_nan s' = isnull data /\ dk_weights k (isnull data) = Some (st_weights s').
Proof.
  intros H ND. rewrite (history_fresh k hist s data H ND). unfold dk_calculate.
  destruct (bools_eqb_spec (isnull data) (st_nan dk_init)) as [E|_]; [destruct data; [congruence|discriminate]|].
  destruct (dk_weights k (isnull data)) as [w|] eqn:Ew; [|discriminate]. intros [= <- _]. auto.
Qed.

(** ** reporting stations *)
Lemma kept_length nan : forall i, length (kept_from i nan) = length (filter negb nan).
Proof. induction nan as [|[] t IH]; intros i; simpl; auto. Qed.
Lemma kept_values data : forall i, length (kept_from i (isnull data)) = length (values data).
Proof. induction data as [|[x|] t IH]; intros i; simpl; auto. Qed.
Lemma select_reports : forall mz data, length mz = length data ->
  combine (select_nan (isnull data) mz) (values data) = reports mz data /\
  length (select_nan (isnull data) mz) = length (values data).
Proof.
  unfold select_nan. induction mz as [|z mz IH]; intros [|[y|] data] H; simpl in *; try discriminate.
  - auto.
  - destruct (IH data) as (A & B); [lia|]. simpl. now rewrite A, B.
  - apply IH. lia.
Qed.
Lemma reports_length mz data : length mz = length data -> length (reports mz data) = length (values data).
Proof.
  intros H. destruct (select_reports mz data H) as (A & B). rewrite <- A, combine_length, B. lia.
Qed.

Lemma dot_sumr w : forall r lo, dot (map w (seq lo (length r))) r = sumr lo (length r) (fun i => w i * nth (i - lo) r 0).
Proof.
  unfold dot. induction r as [|x r IH]; intros lo; simpl; [reflexivity|]. rewrite Nat.sub_diag. f_equal.
  rewrite (IH (S lo)). apply sumr_ext. intros i Hi. f_equal. destruct (i - lo)%nat eqn:E; [lia|].
  replace (i - S lo)%nat with n by lia. reflexivity.
Qed.

Lemma krige_grid_nth nsta ad elev : forall cells rows, krige_grid nsta ad cells elev = Some rows ->
  length rows = length cells /\
  forall c, (c < length cells)%nat -> exists w, krige nsta ad (nth c cells (fun _ => 0)) elev = Weights w /\
    nth c rows [] = map w (seq 0 nsta).
Proof.
  induction cells as [|d t IH]; intros rows; simpl.
  - intros [= <-]. split; [reflexivity|lia].
  - destruct (krige nsta ad d elev) as [w| |] eqn:E; try discriminate.
    destruct (krige_grid nsta ad t elev) as [r|] eqn:Er; [|discriminate]. intros [= <-].
    destruct (IH r eq_refl) as (L & H). split; [simpl; now rewrite L|]. intros [|c] Hc.
    + exists w. split; [exact E|reflexivity].
    + apply H. lia.
Qed.

(** the data the weights are computed from *)
Definition dk_idx (data : list num) (i : nat) : nat := nth i (kept (isnull data)) 0%nat.
Definition dk_ad (k : dk) (data : list num) (i j : nat) : Qc :=
  if Nat.ltb i j then dk_sdist k (dk_idx data i) (dk_idx data j)
  else if Nat.ltb j i then dk_sdist k (dk_idx data j) (dk_idx data i) else 0.
Definition dk_d (k : dk) (data : list num) (c i : nat) : Qc := dk_gdist k c (dk_idx data i).
Definition dk_elev (k : dk) (data : list num) (i : nat) : Qc := nth i (map fst (reports (dk_mz k) data)) 0.

Lemma reports_fst mz data : length mz = length data -> map fst (reports mz data) = select_nan (isnull data) mz.
Proof.
  intros H. destruct (select_reports mz data H) as (A & B). rewrite <- A.
  revert B. generalize (select_nan (isnull data) mz) (values data). clear.
  induction l as [|x l IH]; intros [|y l'] B; simpl in *; try discriminate; auto. rewrite IH by lia. reflexivity.
Qed.

Lemma dk_value k data s' v c : length (dk_mz k) = length data -> data <> [] ->
  dk_calculate k dk_init data = Some (s', v) -> (c < length (dk_gz k))%nat ->
  let pts := reports (dk_mz k) data in
  let line := constrain (dk_slope k) (dk_fit k (map fst pts) (map snd pts)) in
  length v = length (dk_gz k) /\
  exists w, krige (length pts) (dk_ad k data) (dk_d k data c) (dk_elev k data) = Weights w /\
    nth c v 0 = sumr 0 (length pts)
        (fun i => w i * (snd (nth i pts (0, 0)) - (fst line * fst (nth i pts (0, 0)) + snd line)))
      + (fst line * nth c (dk_gz k) 0 + snd line).
Proof.
  intros HL ND Hs Hc pts line. revert Hs. unfold dk_calculate.
  destruct (bools_eqb_spec (isnull data) (st_nan dk_init)) as [E|_]; [destruct data; [congruence|discriminate]|].
  destruct (dk_weights k (isnull data)) as [rows|] eqn:Ew; [|discriminate]. cbn [option_map st_nan st_weights].
  intros Hs. injection Hs as _ Hv.
  destruct (select_reports (dk_mz k) data HL) as (A & B).
  assert (Hsnd : map snd pts = values data).
  { unfold pts. rewrite <- A. revert B. generalize (select_nan (isnull data) (dk_mz k)) (values data). clear.
    induction l as [|x l IH]; intros [|y l'] B; simpl in *; try discriminate; auto. rewrite IH by lia. reflexivity. }
  assert (Hfst : map fst pts = select_nan (isnull data) (dk_mz k)) by (apply reports_fst; exact HL).
  assert (Hline : dk_trend k (isnull data) data = line) by (unfold dk_trend, line; now rewrite Hfst, Hsnd).
  rewrite Hline in Hv. unfold residuals in Hv. rewrite A in Hv. fold pts in Hv.
  assert (Hn : length (kept (isnull data)) = length pts).
  { unfold kept. rewrite kept_values. unfold pts. rewrite reports_length by exact HL. reflexivity. }
  unfold dk_weights in Ew. rewrite Hn in Ew. rewrite <- Hfst in Ew.
  destruct (krige_grid_nth _ _ _ _ _ Ew) as (L & G). rewrite map_length, seq_length in L, G.
  split.
  - rewrite <- Hv, map_length, combine_length, map_length, L. lia.
  - destruct (G c Hc) as (w & Kw & Rw).
    set (f := fun c i => dk_gdist k c (nth i (kept (isnull data)) 0%nat)) in Kw.
    rewrite (nth_indep (map f _) (fun _ => 0) (f 0%nat)) in Kw by (now rewrite map_length, seq_length).
    rewrite (map_nth f), seq_nth in Kw by exact Hc. simpl plus in Kw.
    exists w. split; [exact Kw|].
    rewrite <- Hv. set (res := map _ pts).
    set (g := fun p : Qc * Qc => retrend line (fst p) (snd p)).
    rewrite (nth_indep (map g _) 0 (g (0, 0))) by (rewrite map_length, combine_length, map_length, L; lia).
    rewrite (map_nth g). unfold g. rewrite combine_nth by (now rewrite map_length). unfold retrend. cbn [fst snd].
    set (h := fun w : list Qc => dot w res).
    rewrite (nth_indep (map h _) 0 (h [])) by (now rewrite map_length, L).
    rewrite (map_nth h), Rw. unfold h. rewrite <- Qcplus_assoc. f_equal.
    replace (length pts) with (length res) by (unfold res; now rewrite map_length).
    rewrite dot_sumr. apply sumr_ext. intros i Hi. f_equal. rewrite Nat.sub_0_r.
    unfold res in *. rewrite map_length in Hi.
    set (e := fun p : Qc * Qc => snd p - (fst p * fst line + snd line)).
    rewrite (nth_indep (map e _) 0 (e (0, 0))) by (rewrite map_length; lia).
    rewrite (map_nth e). unfold e. ring.
Qed.

(** ** the trend *)
Lemma constrain_spec flag line :
  (allowed flag (fst line) -> constrain flag line = line) /\
  (~ allowed flag (fst line) -> constrain flag line = (0, 0)).
Proof.
  unfold constrain, allowed. destruct (Z.eqb_spec flag 1) as [->|N1]; simpl.
  - destruct (Qcltb_spec (fst line) 0) as [L|L]; split; intros H; auto.
    + exfalso. destruct H as (H & _). specialize (H eq_refl). now apply (Qclt_not_le _ _ L).
    + exfalso. apply H. split; [intros _; now apply Qcnot_lt_le|discriminate].
  - destruct (Z.eqb_spec flag (-1)) as [->|N2]; simpl.
    + destruct (Qcltb_spec 0 (fst line)) as [L|L]; split; intros H; auto.
      * exfalso. destruct H as (_ & H). specialize (H eq_refl). now apply (Qclt_not_le _ _ L).
      * exfalso. apply H. split; [discriminate|intros _; now apply Qcnot_lt_le].
    + split; intros H; auto. exfalso. apply H. split; intros; contradiction.
Qed.
Lemma constrain_allowed flag line : allowed flag (fst (constrain flag line)).
Proof.
  destruct (constrain_spec flag line) as (A & B).
  assert (D : allowed flag (fst line) \/ ~ allowed flag (fst line)).
  { unfold allowed. destruct (Z.eq_dec flag 1) as [->|N1].
    - destruct (Qclt_le_dec (fst line) 0) as [L|L].
      + right. intros (H & _). specialize (H eq_refl). now apply (Qclt_not_le _ _ L).
      + left. split; [auto|discriminate].
    - destruct (Z.eq_dec flag (-1)) as [->|N2].
      + destruct (Qclt_le_dec 0 (fst line)) as [L|L].
        * right. intros (_ & H). specialize (H eq_refl). now apply (Qclt_not_le _ _ L).
        * left. split; [discriminate|auto].
      + left. split; intros; contradiction. }
  destruct D as [D|D].
  - now rewrite A.
  - rewrite B by exact D. split; intros; apply Qcle_refl.
Qed.

Lemma Qcsq_nonneg (x : Qc) : 0 <= x * x.
Proof.
  destruct (Qclt_le_dec x 0) as [L|L].
  - replace (x * x) with ((- x) * (- x)) by ring. replace 0 with (0 * - x) by ring.
    apply Qcmult_le_compat_r; qclra.
  - replace 0 with (0 * x) by ring. now apply Qcmult_le_compat_r.
Qed.
Lemma misfit_nonneg a b pts : 0 <= misfit a b pts.
Proof.
  induction pts as [|[z y] t IH]; simpl; [apply Qcle_refl|].
  pose proof (Qcsq_nonneg (y - (a * z + b))). qclra.
Qed.
Lemma misfit_zero a b pts : misfit a b pts <= 0 -> forall p, In p pts -> snd p = a * fst p + b.
Proof.
  induction pts as [|[z y] t IH]; simpl; [tauto|]. intros H p.
  pose proof (Qcsq_nonneg (y - (a * z + b))) as H1. pose proof (misfit_nonneg a b t) as H2.
  intros [<-|Hp].
  - simpl. assert (E : (y - (a * z + b)) * (y - (a * z + b)) = 0) by (apply Qcle_antisym; [qclra|exact H1]).
    apply Qcmult_integral in E. assert (E' : y - (a * z + b) = 0) by tauto.
    replace y with (y - (a * z + b) + (a * z + b)) by ring. rewrite E'. ring.
  - apply IH; [qclra|exact Hp].
Qed.
Lemma misfit_exact a b pts : (forall p, In p pts -> snd p = a * fst p + b) -> misfit a b pts = 0.
Proof.
  induction pts as [|[z y] t IH]; intros H; simpl; [reflexivity|]. rewrite IH by (intros; apply H; now right).
  pose proof (H (z, y) (or_introl eq_refl)) as E. simpl in E. rewrite E. ring.
Qed.
Lemma exact_line pts a b line : two_heights pts -> (forall p, In p pts -> snd p = a * fst p + b) ->
  least_squares pts line -> line = (a, b).
Proof.
  intros (p & p' & Hp & Hp' & N) H LS.
  pose proof (LS a b) as L. rewrite (misfit_exact a b pts H) in L. pose proof (misfit_zero _ _ _ L) as Z.
  pose proof (H p Hp) as E1. pose proof (H p' Hp') as E2. rewrite (Z p Hp) in E1. rewrite (Z p' Hp') in E2.
  destruct line as [s i]. cbn [fst snd] in *.
  assert (D : (s - a) * (fst p - fst p') = 0).
  { replace ((s - a) * (fst p - fst p')) with ((s * fst p + i) - (s * fst p' + i) - (a * fst p - a * fst p')) by ring.
    rewrite E1, E2. ring. }
  apply Qcmult_integral in D. destruct D as [D|D].
  - assert (s = a) by (replace s with (s - a + a) by ring; rewrite D; ring). subst s. f_equal.
    replace i with (a * fst p + i - a * fst p) by ring. rewrite E1. ring.
  - exfalso. apply N. replace (fst p) with (fst p - fst p' + fst p') by ring. rewrite D. ring.
Qed.
(** the normal equations give a least-squares line *)
Lemma misfit_expand a b a' b' pts :
  misfit a' b' pts = misfit a b pts
   + (1 + 1) * ((a - a') * fold_right (fun p s => fst p * (snd p - (a * fst p + b)) + s) 0 pts
                + (b - b') * fold_right (fun p s => (snd p - (a * fst p + b)) + s) 0 pts)
   + fold_right (fun p s => ((a - a') * fst p + (b - b')) * ((a - a') * fst p + (b - b')) + s) 0 pts.
Proof. induction pts as [|[z y] t IH]; simpl; [ring|]. rewrite IH. ring. Qed.
Lemma normal_least a b pts :
  fold_right (fun p s => fst p * (snd p - (a * fst p + b)) + s) 0 pts = 0 ->
  fold_right (fun p s => (snd p - (a * fst p + b)) + s) 0 pts = 0 -> least_squares pts (a, b).
Proof.
  intros H1 H2 a' b'. cbn [fst snd]. rewrite (misfit_expand a b a' b'). rewrite H1, H2.
  assert (P : 0 <= fold_right (fun p s => ((a - a') * fst p + (b - b')) * ((a - a') * fst p + (b - b')) + s) 0 pts).
  { clear. induction pts as [|p t IH]; simpl; [apply Qcle_refl|].
    pose proof (Qcsq_nonneg ((a - a') * fst p + (b - b'))). qclra. }
  qclra.
Qed.

(** ** consequences for the values *)
Lemma sum_over_seq n w : forall lo, sum_over (seq lo n) w = sumr lo n w.
Proof. induction n as [|n IH]; intros lo; simpl; [reflexivity|]. now rewrite IH. Qed.

Lemma krige_sum nsta ad d elev w : (forall m, (m < nsta)%nat -> 0 <= d m) -> krige nsta ad d elev = Weights w ->
  sumr 0 nsta w = 1.
Proof.
  intros Hd E. destruct (krige_weights nsta ad d elev w Hd E) as (K & _ & _ & _ & _ & _ & _ & _ & _ & _ & S1).
  rewrite <- sum_over_seq. exact S1.
Qed.
Lemma krige_nonneg nsta ad d elev w : (forall m, (m < nsta)%nat -> 0 <= d m /\ 0 < elev m) -> krige nsta ad d elev = Weights w ->
  forall m, (m < nsta)%nat -> 0 <= w m.
Proof.
  intros Hd E m Hm. destruct (krige_weights nsta ad d elev w (fun m H => proj1 (Hd m H)) E) as (K & _ & _ & _ & _ & _ & _ & W0 & WN & _).
  destruct (in_dec Nat.eq_dec m K) as [I|N]; [|rewrite W0 by exact N; apply Qcle_refl].
  apply Qcnot_lt_le. intros L. pose proof (WN m I L) as Le. destruct (Hd m Hm) as (_ & P). now apply (Qclt_not_le _ _ P).
Qed.

Lemma sumr_bounds lo cnt w x l h : (forall i, (lo <= i < lo + cnt)%nat -> 0 <= w i /\ l <= x i /\ x i <= h) ->
  l * sumr lo cnt w <= sumr lo cnt (fun i => w i * x i) /\ sumr lo cnt (fun i => w i * x i) <= h * sumr lo cnt w.
Proof.
  revert lo. induction cnt as [|c IH]; intros lo H; simpl.
  - split; qclra.
  - destruct (IH (S lo)) as (A & B); [intros i Hi; apply H; lia|]. destruct (H lo) as (W & L & U); [lia|].
    assert (P1 : l * w lo <= w lo * x lo) by (rewrite (Qcmult_comm (w lo)); apply Qcmult_le_compat_r; assumption).
    assert (P2 : w lo * x lo <= h * w lo) by (rewrite (Qcmult_comm (w lo)); apply Qcmult_le_compat_r; assumption).
    split.
    + replace (l * (w lo + sumr (S lo) c w)) with (l * w lo + l * sumr (S lo) c w) by ring. apply Qcplus_le_compat; assumption.
    + replace (h * (w lo + sumr (S lo) c w)) with (h * w lo + h * sumr (S lo) c w) by ring. apply Qcplus_le_compat; assumption.
Qed.

Lemma dk_linear k data s' v c a b : length (dk_mz k) = length data -> data <> [] ->
  (forall c i, 0 <= dk_gdist k c i) ->
  least_squares (reports (dk_mz k) data) (dk_fit k (map fst (reports (dk_mz k) data)) (map snd (reports (dk_mz k) data))) ->
  two_heights (reports (dk_mz k) data) ->
  (forall p, In p (reports (dk_mz k) data) -> snd p = a * fst p + b) -> allowed (dk_slope k) a ->
  dk_calculate k dk_init data = Some (s', v) -> (c < length (dk_gz k))%nat ->
  nth c v 0 = a * nth c (dk_gz k) 0 + b.
Proof.
  intros HL ND Hd LS TH Hex Hal Hc Hlt. destruct (dk_value k data s' v c HL ND Hc Hlt) as (_ & w & Kw & Hv).
  rewrite (exact_line _ a b _ TH Hex LS) in Hv. destruct (constrain_spec (dk_slope k) (a, b)) as (Ca & _).
  rewrite (Ca Hal) in Hv. cbn [fst snd] in Hv. rewrite Hv. rewrite sumr_zero; [ring|].
  intros i Hi. rewrite <- (Hex (nth i (reports (dk_mz k) data) (0, 0))) by (apply nth_In; lia). ring.
Qed.

Lemma dk_residual_bounds k data s' v c l h : length (dk_mz k) = length data -> data <> [] ->
  (forall c i, 0 <= dk_gdist k c i) -> (forall z, In z (dk_mz k) -> 0 < z) ->
  let pts := reports (dk_mz k) data in
  let line := constrain (dk_slope k) (dk_fit k (map fst pts) (map snd pts)) in
  (forall p, In p pts -> l <= snd p - (fst line * fst p + snd line) /\ snd p - (fst line * fst p + snd line) <= h) ->
  dk_calculate k dk_init data = Some (s', v) -> (c < length (dk_gz k))%nat ->
  l <= nth c v 0 - (fst line * nth c (dk_gz k) 0 + snd line) /\
  nth c v 0 - (fst line * nth c (dk_gz k) 0 + snd line) <= h.
Proof.
  intros HL ND Hd Hz pts line Hb Hc Hlt. destruct (dk_value k data s' v c HL ND Hc Hlt) as (_ & w & Kw & Hv).
  fold pts in Kw, Hv. fold line in Hv. rewrite Hv.
  assert (S1 : sumr 0 (length pts) w = 1) by (apply (krige_sum _ _ _ _ _ (fun m _ => Hd c _) Kw)).
  assert (Hel : forall m, (m < length pts)%nat -> 0 < dk_elev k data m).
  { intros m Hm. apply Hz. unfold dk_elev. fold pts.
    assert (G : forall mz data z, In z (map fst (reports mz data)) -> In z mz).
    { clear. induction mz as [|z0 mz IH]; intros [|[y|] data] z; simpl; try tauto.
      - intros [H|H]; [left; exact H|right; eapply IH; exact H].
      - intros H; right; eapply IH; exact H. }
    apply (G _ data). apply nth_In. rewrite map_length. exact Hm. }
  pose proof (krige_nonneg _ _ _ _ _ (fun m Hm => conj (Hd c _) (Hel m Hm)) Kw) as W.
  destruct (sumr_bounds 0 (length pts) w (fun i => snd (nth i pts (0,0)) - (fst line * fst (nth i pts (0,0)) + snd line)) l h) as (A & B).
  { intros i Hi. split; [apply W; lia|]. apply Hb. apply nth_In. lia. }
  rewrite S1 in A, B. set (X := sumr 0 (length pts) _) in *. set (T := fst line * nth c (dk_gz k) 0 + snd line).
  replace (X + T - T) with X by ring. replace l with (l * 1) by ring. replace h with (h * 1) by ring. auto.
Qed.

(** ** exact at a reporting station *)
Lemma dk_exact_station k data s' v c i : length (dk_mz k) = length data -> data <> [] ->
  (forall a b, dk_sdist k a b = dk_sdist k b a) -> (forall a, dk_sdist k a a = 0) -> (forall a b, 0 <= dk_sdist k a b) ->
  let pts := reports (dk_mz k) data in
  (i < length pts)%nat ->
  (forall m, (m < length data)%nat -> dk_gdist k c m = dk_sdist k m (dk_idx data i)) ->
  nth c (dk_gz k) 0 = fst (nth i pts (0, 0)) ->
  dk_calculate k dk_init data = Some (s', v) -> (c < length (dk_gz k))%nat ->
  nth c v 0 = snd (nth i pts (0, 0)).
Proof.
  intros HL ND Sy S0 Sp pts Hi Hd Hgz Hc Hlt. destruct (dk_value k data s' v c HL ND Hc Hlt) as (_ & w & Kw & Hv).
  fold pts in Kw, Hv.
  assert (Hlt' : forall m, (m < length pts)%nat -> (dk_idx data m < length data)%nat).
  { intros m Hm. unfold dk_idx.
    assert (G : forall nan lo x, In x (kept_from lo nan) -> (lo <= x < lo + length nan)%nat).
    { clear. induction nan as [|[] t IH]; intros lo x; simpl; [tauto| |].
      - intros H. apply IH in H. lia.
      - intros [->|H]; [lia|]. apply IH in H. lia. }
    assert (In (nth m (kept (isnull data)) 0%nat) (kept (isnull data))).
    { apply nth_In. unfold kept. rewrite kept_values. unfold pts in Hm. rewrite reports_length in Hm by exact HL. exact Hm. }
    apply G in H. assert (L0 : length (isnull data) = length data) by apply map_length. lia. }
  assert (Ad : forall m, (m < length pts)%nat -> dk_d k data c m = dk_ad k data m i).
  { intros m Hm. unfold dk_d, dk_ad. rewrite Hd by now apply Hlt'.
    destruct (Nat.ltb_spec m i); [reflexivity|]. destruct (Nat.ltb_spec i m); [apply Sy|].
    assert (m = i) by lia. subst m. apply S0. }
  destruct (exact_at_station (length pts) (dk_ad k data) (dk_d k data c) (dk_elev k data) i Hi) as (w' & Kw' & Hw').
  - intros m Hm. split; [now apply Ad|]. unfold dk_d. rewrite Hd by now apply Hlt'. apply Sp.
  - rewrite Kw. discriminate.
  - rewrite Kw in Kw'. injection Kw' as <-. rewrite Hv.
    rewrite (sumr_pick 0 (length pts) i).
    + rewrite Hw', Nat.eqb_refl, Hgz. ring.
    + lia.
    + intros m Hm Nm. rewrite Hw', (proj2 (Nat.eqb_neq m i)) by exact Nm. ring.
Qed.

(** ** stations of a variable *)
Lemma stations_ignored {A} (sort : list A -> list A) config metadata :
  initialize_stations (fst (get_stations sort config)) metadata = metadata.
Proof. destruct config as [[l|]|]; reflexivity. Qed.

(** ** the same in terms of the reporting stations *)
Lemma kept_reporting data : kept (isnull data) = reporting data.
Proof.
  unfold kept, reporting.
  assert (G : forall l pre, kept_from (length pre) (isnull l) =
     filter (fun i => match nth i (pre ++ l) None with Some _ => true | None => false end) (seq (length pre) (length l))).
  { induction l as [|x l IH]; intros pre; [reflexivity|]. specialize (IH (pre ++ [x])).
    rewrite app_length in IH. cbn [length] in IH. rewrite Nat.add_1_r in IH. rewrite <- app_assoc in IH. simpl app in IH.
    destruct x as [y|]; cbn [isnull map kept_from length seq filter]; rewrite app_nth2, Nat.sub_diag by lia; cbn [nth].
    - f_equal. exact IH.
    - exact IH. }
  apply (G data []).
Qed.
Lemma dk_idx_station data i : dk_idx data i = station_at data i.
Proof. unfold dk_idx, station_at. now rewrite kept_reporting. Qed.
Lemma dk_ad_between k data i j : distance_table (dk_sdist k) -> dk_ad k data i j = between (dk_sdist k) data i j.
Proof.
  intros (Sy & S0 & _). unfold dk_ad, between. rewrite !dk_idx_station.
  destruct (Nat.ltb_spec i j); [reflexivity|]. destruct (Nat.ltb_spec j i); [apply Sy|].
  assert (i = j) by lia. subst. symmetry. apply S0.
Qed.

Lemma reports_nth : forall mz data, length mz = length data -> forall i, (i < length (reports mz data))%nat ->
  nth i (reports mz data) (0, 0) = (nth (station_at data i) mz 0, match nth (station_at data i) data None with Some y => y | None => 0 end).
Proof.
  intros mz data HL i Hi. rewrite <- dk_idx_station. unfold dk_idx, kept.
  assert (G : forall mz data lo i, length mz = length data -> (i < length (reports mz data))%nat ->
     (lo <= nth i (kept_from lo (isnull data)) 0%nat)%nat /\
     nth i (reports mz data) (0, 0) =
       (nth (nth i (kept_from lo (isnull data)) 0%nat - lo) mz 0,
        match nth (nth i (kept_from lo (isnull data)) 0%nat - lo) data None with Some y => y | None => 0 end)).
  { clear. induction mz as [|z mz IH]; intros [|[y|] data] lo i HL Hi; simpl in HL, Hi; try discriminate; try lia.
    - destruct i as [|i]; cbn [isnull map kept_from nth reports].
      + rewrite Nat.sub_diag. split; [lia|reflexivity].
      + destruct (IH data (S lo) i ltac:(lia) ltac:(lia)) as (A & B). fold (isnull data). rewrite B.
        split; [lia|]. set (x := nth i (kept_from (S lo) (isnull data)) 0%nat) in *.
        replace (x - lo)%nat with (S (x - S lo)) by lia. reflexivity.
    - cbn [isnull map kept_from nth reports].
      destruct (IH data (S lo) i ltac:(lia) ltac:(lia)) as (A & B). fold (isnull data). rewrite B.
      split; [lia|]. set (x := nth i (kept_from (S lo) (isnull data)) 0%nat) in *.
      replace (x - lo)%nat with (S (x - S lo)) by lia. reflexivity. }
  destruct (G mz data 0%nat i HL Hi) as (_ & B). rewrite B, !Nat.sub_0_r. reflexivity.
Qed.

Lemma krige_ext_weights nsta ad ad' d elev w : (forall i j, (i < nsta)%nat -> (j < nsta)%nat -> ad i j = ad' i j) ->
  (exists K, Sorted.Sorted lt K /\ K <> [] /\ incl K (seq 0 nsta) /\ kriging_weights ad d K w /\
     (forall m, ~ In m K -> w m = 0) /\ (forall m, In m K -> w m < 0 -> elev m <= 0)) ->
  exists K, Sorted.Sorted lt K /\ K <> [] /\ incl K (seq 0 nsta) /\ kriging_weights ad' d K w /\
     (forall m, ~ In m K -> w m = 0) /\ (forall m, In m K -> w m < 0 -> elev m <= 0).
Proof.
  intros Hext (K & A & B & C & (D1 & mu & D2) & E & F). exists K. repeat (split; [assumption|]). split; [|auto].
  split; [exact D1|]. exists mu. intros m Hm. rewrite <- (D2 m Hm). f_equal. apply sum_over_ext. intros n Hn.
  assert (Hm' := C m Hm). assert (Hn' := C n Hn). apply in_seq in Hm', Hn'. rewrite Hext by lia. reflexivity.
Qed.

(** the value of a cell, from the current call's reports alone *)
Lemma dk_call k hist s data s' v c : distance_table (dk_sdist k) -> (forall c i, 0 <= dk_gdist k c i) ->
  length (dk_mz k) = length data -> data <> [] ->
  dk_run k dk_init hist = Some s -> dk_calculate k s data = Some (s', v) -> (c < length (dk_gz k))%nat ->
  let pts := reports (dk_mz k) data in
  let line := constrain (dk_slope k) (dk_fit k (map fst pts) (map snd pts)) in
  length v = length (dk_gz k) /\
  exists w K, Sorted.Sorted lt K /\ K <> [] /\ incl K (seq 0 (length pts)) /\
    kriging_weights (between (dk_sdist k) data) (fun i => dk_gdist k c (station_at data i)) K w /\
    (forall m, ~ In m K -> w m = 0) /\
    (forall m, In m K -> w m < 0 -> fst (nth m pts (0, 0)) <= 0) /\
    nth c v 0 = sum_over K
        (fun i => w i * (snd (nth i pts (0, 0)) - (fst line * fst (nth i pts (0, 0)) + snd line)))
      + (fst line * nth c (dk_gz k) 0 + snd line).
Proof.
  intros DT Hd HL ND Hr Hc Hlt pts line. rewrite (history_fresh k hist s data Hr ND) in Hc.
  destruct (dk_value k data s' v c HL ND Hc Hlt) as (LV & w & Kw & Hv). fold pts in Kw, Hv. fold line in Hv. split; [exact LV|].
  destruct (krige_weights _ _ _ _ _ (fun m _ => Hd c _) Kw) as (K & _ & HS & HK & HI & _ & KW & W0 & WN & _ & _).
  destruct (krige_ext_weights (length pts) (dk_ad k data) (between (dk_sdist k) data) (dk_d k data c) (dk_elev k data) w)
    as (K1 & A & B & C & D & E & F); [intros; now apply dk_ad_between|exists K; auto 8|].
  exists w, K1. split; [exact A|]. split; [exact B|]. split; [exact C|].
  assert (D' : kriging_weights (between (dk_sdist k) data) (fun i => dk_gdist k c (station_at data i)) K1 w).
  { destruct D as (D1 & mu & D2). split; [exact D1|]. exists mu. intros m Hm. rewrite D2 by exact Hm. unfold dk_d. now rewrite dk_idx_station. }
  split; [exact D'|]. split; [exact E|]. split.
  - intros m Hm Hw. specialize (F m Hm Hw). unfold dk_elev in F. fold pts in F.
    rewrite (nth_indep _ 0 (fst (0, 0 : Qc))) in F; [|rewrite map_length; apply C in Hm; apply in_seq in Hm; lia].
    rewrite (map_nth fst) in F. exact F.
  - rewrite Hv. f_equal. rewrite <- sum_over_seq.
    apply sum_over_support; auto; [apply seq_NoDup|]. intros m Hm. rewrite E by exact Hm. ring.
Qed.
