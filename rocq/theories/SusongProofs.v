(** Proofs about whole runs with the storm counters of [time_since_storm]. *)
From Coq Require Import List Arith Lia Bool ZArith QArith Qcanon.
From Verif Require Import Num StormsModel DataModel MarksModel MarksProofs SusongModel StormsSpec SusongSpec.
Import ListNotations.
Local Open Scope Qc_scope.

Lemma scale_row_map f : forall r c, scale_row f c r = map (fun k => nscale (nth k r None) (f (c + k)%nat)) (seq 0 (length r)).
Proof.
  induction r as [|x r IH]; intros c; [reflexivity|]. cbn [scale_row length seq map nth]. rewrite Nat.add_0_r. f_equal.
  rewrite IH, <- seq_shift, map_map. apply map_ext. intros k. cbn [nth]. now rewrite Nat.add_succ_comm.
Qed.

Section P.
Variables (interp : list num -> list num) (phase : list num -> list num -> list num * list num)
          (gauge : nat -> nat -> Qc) (drift : nat -> list num -> list num) (wday : nat -> Qc)
          (lo hi : option Qc) (ts mass time : Qc).
Notation dist := (sus_distribute interp phase gauge drift wday lo hi ts mass time).
Notation from := (sus_from interp phase gauge drift wday lo hi ts mass time).

Lemma all_missing_sum row : forallb (fun x : num => match x with None => true | Some _ => false end) row = true -> pd_sum row = 0.
Proof.
  induction row as [|[v|] r IH]; intros M; [reflexivity|discriminate|]. cbn [forallb] in M. cbn [pd_sum fold_right]. apply IH. exact M.
Qed.
Lemma dist_ok t row temps st : exists o, dist t row temps st = MOk o.
Proof.
  unfold sus_distribute, sus_time. destruct (Qcltb_spec 0 (pd_sum (scale_row (fun c => Some (gauge t c)) 0 row))) as [L|L].
  - unfold distribute1. destruct (forallb _ _) eqn:F.
    + exfalso. rewrite (all_missing_sum _ F) in L. exact (Qclt_not_eq _ _ L eq_refl).
    + cbn [mbind]. destruct (phase _ _). cbn [mbind]. eauto.
  - cbn [mbind]. eauto.
Qed.
(** A longer record does not change what the steps of a shorter one give. *)
Lemma from_app : forall rows temps rows' temps' t st, length temps = length rows ->
  let '(l, e) := from t rows temps st in
  let '(l', e') := from t (rows ++ rows') (temps ++ temps') st in
  e = None -> firstn (length rows) l' = l.
Proof.
  induction rows as [|row rows IH]; intros [|tp temps] rows' temps' t st L; try discriminate L; cbn [sus_from app].
  - cbn [length firstn]. destruct (from t rows' temps' st). reflexivity.
  - destruct (dist t row tp st) as [o|]; [|discriminate]. injection L as L. specialize (IH temps rows' temps' (S t) o L).
    destruct (from (S t) rows temps o) as (l & e), (from (S t) (rows ++ rows') (temps ++ temps') o) as (l' & e').
    intros E. cbn [length firstn]. f_equal. exact (IH E).
Qed.
Lemma from_ok : forall rows temps t st l e, length temps = length rows -> from t rows temps st = (l, e) ->
  e = None /\ length l = length rows /\
  forall k o, nth_error l k = Some o -> exists st', nth_error (st :: l) k = Some st' /\
    dist (t + k) (nth k rows []) (nth k temps []) st' = MOk o.
Proof.
  induction rows as [|row rows IH]; intros [|tp temps] t st l e L H; try discriminate L; cbn [sus_from] in H.
  - injection H as <- <-. split; [reflexivity|]. split; [reflexivity|]. intros [|k] o E; discriminate E.
  - destruct (dist_ok t row tp st) as (o1 & D). rewrite D in H.
    destruct (from (S t) rows temps o1) as (l' & e') eqn:F. injection H as <- <-.
    destruct (IH temps (S t) o1 l' e' ltac:(cbn in L; lia) F) as (-> & LL & N). split; [reflexivity|]. split; [cbn; lia|].
    intros [|k] o E; cbn [nth_error] in E.
    + injection E as <-. exists st. split; [reflexivity|]. cbn [nth]. rewrite Nat.add_0_r. exact D.
    + destruct (N k o E) as (st' & A & B). exists st'. split; [exact A|]. cbn [nth]. rewrite Nat.add_succ_r. exact B.
Qed.

Variables (width : nat) (rows temps : list (list num)).
Hypothesis (IN : run_input width gauge phase rows temps).

Lemma adjusted_row t : (t < length rows)%nat -> scale_row (fun c => Some (gauge t c)) 0 (nth t rows []) = adjusted gauge rows width t.
Proof.
  intros T. destruct IN as (W & _). rewrite scale_row_map.
  assert (LW : length (nth t rows []) = width) by (rewrite Forall_forall in W; apply W, nth_In; exact T).
  rewrite LW. unfold adjusted. apply map_ext_in. intros c Hc. cbn [plus].
  unfold cell. destruct (nth c (nth t rows []) None); reflexivity.
Qed.
Lemma adjusted_wet t : (t < length rows)%nat -> (0 < pd_sum (adjusted gauge rows width t) <-> measured rows t).
Proof.
  intros T. pose proof IN as (W & NN & G & _).
  assert (LW : length (nth t rows []) = width) by (rewrite Forall_forall in W; apply W, nth_In; exact T).
  assert (P : forall v, In (Some v) (adjusted gauge rows width t) -> exists u, In (Some u) (nth t rows []) /\ 0 <= u /\ (0 < v <-> 0 < u) /\ 0 <= v).
  { intros v Hv. apply in_map_iff in Hv. destruct Hv as (c & E & Hc). apply in_seq in Hc. unfold cell in E.
    destruct (nth c (nth t rows []) None) as [u|] eqn:N; [|discriminate E]. injection E as <-. exists u.
    assert (I : In (Some u) (nth t rows [])) by (rewrite <- N; apply nth_In; lia).
    assert (U : 0 <= u) by (eapply NN; [apply nth_In; exact T | exact I]).
    pose proof (G t c) as Gp. split; [exact I|]. split; [exact U|]. split; [|revert U Gp; generalize (gauge t c); intros g; intros; qcn].
    revert Gp. generalize (gauge t c). intros g Gp. split; intros H.
    - destruct (Qclt_le_dec 0 u) as [|L]; [assumption|]. assert (u = 0) by (apply Qcle_antisym; assumption). subst u.
      exfalso. revert H. clear. intros H. assert (Z : 0 * g = 0) by ring. rewrite Z in H. exact (Qclt_not_eq _ _ H eq_refl).
    - unfold Qclt in *. rewrite this_mult. apply Qmult_lt_0_compat; assumption. }
  rewrite pd_sum_pos by (intros v Hv; destruct (P v Hv) as (_ & _ & _ & _ & Q); exact Q).
  split.
  - intros (v & Hv & Vp). destruct (P v Hv) as (u & I & _ & Q & _). exists (nth t rows []), u.
    split; [apply nth_error_nth'; exact T|]. split; [exact I | apply Q; exact Vp].
  - intros (r & u & E & I & Up). assert (r = nth t rows []) by (symmetry; apply nth_error_nth; exact E). subst r.
    destruct (In_nth _ _ None I) as (c & Hc & N). rewrite LW in Hc. exists (u * gauge t c). split.
    + apply in_map_iff. exists c. split; [unfold cell; rewrite N; reflexivity | apply in_seq; lia].
    + pose proof (G t c) as Gp. unfold Qclt in *. rewrite this_mult. apply Qmult_lt_0_compat; assumption.
Qed.

(** ** The sum of the percents of snow *)
Lemma np_sum_zero ps : (forall v, In (Some v) ps -> 0 <= v) ->
  (exists s, np_sum ps = Some s /\ 0 <= s /\ (s = 0 <-> no_snow ps)) \/ (np_sum ps = None /\ ~ no_snow ps).
Proof.
  induction ps as [|x ps IH]; intros H.
  - left. exists 0. split; [reflexivity|]. split; [apply Qcle_refl|]. split; [intros _ y []|reflexivity].
  - specialize (IH (fun v Hv => H v (or_intror Hv))). cbn [np_sum fold_right]. fold (np_sum ps). destruct x as [v|].
    + specialize (H v (or_introl eq_refl)). destruct IH as [(s & E & S & I)|(E & N)]; rewrite E; cbn [nadd].
      * left. exists (v + s). split; [reflexivity|]. split; [revert H S; qclra|]. split.
        -- intros Z. assert (V0 : v = 0) by (apply Qcle_antisym; [|exact H]; revert Z S; qclra).
           assert (S0 : s = 0) by (apply Qcle_antisym; [|exact S]; revert Z H; qclra).
           apply I in S0. intros y [<-|Hy]; [congruence | apply S0; exact Hy].
        -- intros N. assert (V0 : Some v = Some 0) by (apply N; now left). injection V0 as ->.
           assert (S0 : s = 0) by (apply I; intros y Hy; apply N; now right). rewrite S0. ring.
      * right. split; [reflexivity|]. intros C. apply N. intros y Hy. apply C. now right.
    + right. split; [reflexivity|]. intros C. discriminate (C None (or_introl eq_refl)).
Qed.
End P.

(** ** The storm counters *)
Lemma storm_cells_length mass time p ps d sp : length p = length d -> length ps = length d -> length sp = length d ->
  length (storm_cells mass time p ps d sp) = length d.
Proof. intros A B C. unfold storm_cells. rewrite map_length, !combine_length. lia. Qed.
Lemma combine_nth_min {A B} (l : list A) (l' : list B) x a b : length l = length l' -> nth x (combine l l') (a, b) = (nth x l a, nth x l' b).
Proof. intros. apply combine_nth. assumption. Qed.
Lemma storm_cells_nth mass time p ps d sp x : length p = length d -> length ps = length d -> length sp = length d -> (x < length d)%nat ->
  nth x (storm_cells mass time p ps d sp) (0, None) =
  storm_cell mass time (match np_sum ps with Some s => Qceqb s 0 | None => false end) (nth x p None) (nth x ps None) (nth x d 0) (nth x sp None).
Proof.
  intros A B C X. unfold storm_cells. set (none := match np_sum ps with Some s => Qceqb s 0 | None => false end).
  erewrite nth_indep by (rewrite map_length, !combine_length; lia).
  erewrite (map_nth (fun x => storm_cell mass time none (fst (fst (fst x))) (snd (fst (fst x))) (snd (fst x)) (snd x)) _ (None, None, 0, None) x).
  rewrite !combine_nth by (rewrite ?combine_length; lia). reflexivity.
Qed.
Lemma none_spec ps : (forall v, In (Some v) ps -> 0 <= v) ->
  reflect (no_snow ps) (match np_sum ps with Some s => Qceqb s 0 | None => false end).
Proof.
  intros H. apply iff_reflect. destruct (np_sum_zero ps H) as [(s & -> & _ & I)|(-> & N)]; [|split; [contradiction|discriminate]].
  destruct (Qceqb_spec s 0); split; try tauto; discriminate.
Qed.
