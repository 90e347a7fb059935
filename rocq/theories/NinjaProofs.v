(** Proofs about NinjaModel.v. *)
From Coq Require Import Reals List Bool Arith ZArith Lia Lra.
From Verif Require Import RNum RTrig WinsModel WinsSpec WinsProofs NinjaModel NinjaSpec.
Import ListNotations.
Local Open Scope R_scope.

(** ** sorting *)
Lemma insert_below p l : (forall q, In q l -> fst p <= fst q) -> insert p l = p :: l.
Proof.
  destruct l as [|q l]; intros H; [reflexivity|]. cbn [insert].
  destruct (rleb_spec (fst p) (fst q)) as [_|N]; [reflexivity|]. exfalso. apply N. apply H. left. reflexivity.
Qed.
Lemma insert_above p l : (forall q, In q l -> fst q < fst p) -> insert p l = l ++ [p].
Proof.
  induction l as [|q l IH]; intros H; [reflexivity|]. cbn [insert].
  destruct (rleb_spec (fst p) (fst q)) as [N|_]; [exfalso; pose proof (H q (or_introl eq_refl)); lra|].
  cbn [app]. f_equal. apply IH. intros q' Hq. apply H. right. exact Hq.
Qed.

Definition pts (xs : nat -> R) (v : nat -> rnum) (s n : nat) : list (R * rnum) := map (fun k => (xs k, v k)) (seq s n).

Lemma pts_in xs v s n q : In q (pts xs v s n) -> exists k, (s <= k < s + n)%nat /\ q = (xs k, v k).
Proof. unfold pts. rewrite in_map_iff. intros (k & <- & Hk). apply in_seq in Hk. eauto. Qed.
Lemma pts_length xs v s n : length (pts xs v s n) = n.
Proof. unfold pts. rewrite map_length, seq_length. reflexivity. Qed.
Lemma pts_nth xs v s n k : (k < n)%nat -> nth k (pts xs v s n) (0, None) = (xs (s + k)%nat, v (s + k)%nat).
Proof.
  intros H. unfold pts.
  rewrite (nth_indep _ _ ((fun k => (xs k, v k)) 0%nat)) by (rewrite map_length, seq_length; exact H).
  rewrite (map_nth (fun k => (xs k, v k))), seq_nth by exact H. reflexivity.
Qed.

Lemma sort_east xs v n : forall s, (forall j k, (s <= j < k)%nat -> (k < s + n)%nat -> xs j < xs k) ->
  sort (pts xs v s n) = pts xs v s n.
Proof.
  induction n as [|n IH]; intros s H; [reflexivity|].
  change (insert (xs s, v s) (sort (pts xs v (S s) n)) = (xs s, v s) :: pts xs v (S s) n).
  rewrite IH by (intros; apply H; lia). apply insert_below.
  intros q Hq. apply pts_in in Hq. destruct Hq as (k & Hk & ->). cbn [fst]. left. apply H; lia.
Qed.
Lemma sort_south xs v n : forall s, (forall j k, (s <= j < k)%nat -> (k < s + n)%nat -> xs k < xs j) ->
  sort (pts xs v s n) = rev (pts xs v s n).
Proof.
  induction n as [|n IH]; intros s H; [reflexivity|].
  change (insert (xs s, v s) (sort (pts xs v (S s) n)) = rev (pts xs v (S s) n) ++ [(xs s, v s)]).
  rewrite IH by (intros; apply H; lia). apply insert_above.
  intros q Hq. apply in_rev, pts_in in Hq. destruct Hq as (k & Hk & ->). cbn [fst]. apply H; lia.
Qed.

Lemma below_all l x : (forall q, In q l -> x < fst q) -> searchsorted l x = 0%nat.
Proof.
  unfold searchsorted. induction l as [|q l IH]; intros H; [reflexivity|]. cbn [filter].
  destruct (rltb_spec (fst q) x) as [L|_]; [pose proof (H q (or_introl eq_refl)); lra|].
  apply IH. intros q' Hq. apply H. right. exact Hq.
Qed.

(** to the left of all points the line through the leftmost two *)
Lemma interpx_east xs v s n x : (2 <= n)%nat -> (forall j k, (s <= j < k)%nat -> (k < s + n)%nat -> xs j < xs k) ->
  x < xs s -> interpx (pts xs v s n) x = line (xs s, v s) (xs (s + 1)%nat, v (s + 1)%nat) x.
Proof.
  intros Hn H Hx. unfold interpx. rewrite (sort_east xs v n s H), pts_length, below_all.
  - replace (Nat.min (Nat.max 0 1) (n - 1)) with 1%nat by lia. cbn [Nat.sub].
    rewrite !pts_nth by lia. rewrite Nat.add_0_r. reflexivity.
  - intros q Hq. apply pts_in in Hq. destruct Hq as (k & Hk & ->). cbn [fst].
    destruct (Nat.eq_dec k s) as [->|N]; [exact Hx|]. apply (Rlt_trans _ (xs s)); [exact Hx|]. apply H; lia.
Qed.
(** below all points the line through the lowest two *)
Lemma interpx_south xs v s n x : (2 <= n)%nat -> (forall j k, (s <= j < k)%nat -> (k < s + n)%nat -> xs k < xs j) ->
  x < xs (s + n - 1)%nat ->
  interpx (pts xs v s n) x = line (xs (s + n - 1)%nat, v (s + n - 1)%nat) (xs (s + n - 2)%nat, v (s + n - 2)%nat) x.
Proof.
  intros Hn H Hx. unfold interpx. rewrite (sort_south xs v n s H), rev_length, pts_length, below_all.
  - replace (Nat.min (Nat.max 0 1) (n - 1)) with 1%nat by lia. cbn [Nat.sub].
    rewrite !rev_nth by (rewrite pts_length; lia). rewrite !pts_length, !pts_nth by lia.
    replace (s + (n - 1))%nat with (s + n - 1)%nat by lia. replace (s + (n - 2))%nat with (s + n - 2)%nat by lia. reflexivity.
  - intros q Hq. apply in_rev, pts_in in Hq. destruct Hq as (k & Hk & ->). cbn [fst].
    destruct (Nat.eq_dec k (s + n - 1)) as [->|N]; [exact Hx|]. apply (Rlt_trans _ (xs (s + n - 1)%nat)); [exact Hx|]. apply H; lia.
Qed.

Lemma line_through p q x a b : snd p = Some a -> snd q = Some b -> line p q x = Some (through (fst p) a (fst q) b x).
Proof. intros Ha Hb. unfold line. rewrite Ha, Hb. cbn [rlift2]. f_equal. unfold through, Rdiv. ring. Qed.

(** ** counting *)
Lemma count_prefix n p k : (k <= n)%nat -> (forall j, (j < n)%nat -> p j = true <-> (j < k)%nat) -> count n p = k.
Proof.
  intros Hk H. unfold count. replace n with (k + (n - k))%nat by lia. rewrite seq_app, filter_app, app_length.
  replace (filter p (seq 0 k)) with (seq 0 k).
  - replace (filter p (seq (0 + k) (n - k))) with (@nil nat); [rewrite seq_length; cbn; lia|].
    symmetry. assert (G : forall l, (forall j, In j l -> p j = false) -> filter p l = []).
    { induction l as [|j l IH]; intros G; [reflexivity|]. cbn [filter]. rewrite (G j (or_introl eq_refl)).
      apply IH. intros j' Hj. apply G. right. exact Hj. }
    apply G. intros j Hj. apply in_seq in Hj. destruct (p j) eqn:E; [|reflexivity]. apply H in E; lia.
  - symmetry. assert (G : forall l, (forall j, In j l -> p j = true) -> filter p l = l).
    { induction l as [|j l IH]; intros G; [reflexivity|]. cbn [filter]. rewrite (G j (or_introl eq_refl)).
      f_equal. apply IH. intros j' Hj. apply G. right. exact Hj. }
    apply G. intros j Hj. apply in_seq in Hj. apply H; lia.
Qed.
Lemma count_suffix n p r : (r <= n)%nat -> (forall j, (j < n)%nat -> p j = true <-> (n - r <= j)%nat) -> count n p = r.
Proof.
  intros Hr H. assert (E : (count n p + count n (fun j => negb (p j)))%nat = n).
  { unfold count. rewrite <- (seq_length n 0) at 3. generalize (seq 0 n). induction l as [|j l IH]; [reflexivity|].
    cbn [filter]. destruct (p j); cbn [negb length]; lia. }
  assert (E2 : count n (fun j => negb (p j)) = (n - r)%nat); [|lia].
  apply count_prefix; [lia|]. intros j Hj. rewrite negb_true_iff. specialize (H j Hj).
  destruct (p j).
  - split; [discriminate|]. intros L. assert (n - r <= j)%nat by (apply H; reflexivity). lia.
  - split; [|reflexivity]. intros _.
    destruct (Nat.lt_ge_cases j (n - r)) as [|G]; [assumption|]. apply H in G. discriminate.
Qed.
(** if what is counted lies below the count it fills everything below *)
Lemma count_full n p : (forall j, (j < n)%nat -> p j = true -> (j < count n p)%nat) ->
  forall j, (j < count n p)%nat -> (j < n)%nat /\ p j = true.
Proof.
  intros H j Hj.
  assert (Inc : incl (filter p (seq 0 n)) (seq 0 (count n p))).
  { intros x Hx. apply filter_In in Hx. destruct Hx as [Hx Px]. apply in_seq in Hx. apply in_seq.
    split; [lia|]. cbn. apply H; [lia|exact Px]. }
  assert (ND : NoDup (filter p (seq 0 n))) by (apply NoDup_filter, seq_NoDup).
  assert (Inc' : incl (seq 0 (count n p)) (filter p (seq 0 n))).
  { apply NoDup_length_incl; [exact ND| |exact Inc]. rewrite seq_length. unfold count. lia. }
  assert (Hin : In j (filter p (seq 0 n))) by (apply Inc', in_seq; lia).
  apply filter_In in Hin. destruct Hin as [A B]. apply in_seq in A. split; [lia|exact B].
Qed.
Lemma count_le n p : (count n p <= n)%nat.
Proof.
  unfold count. rewrite <- (seq_length n 0) at 2. generalize (seq 0 n). induction l as [|j l IH]; [apply le_n|].
  cbn [filter]. destruct (p j); cbn [length]; lia.
Qed.
Lemma count_full_suffix n p : (forall j, (j < n)%nat -> p j = true -> (n - count n p <= j)%nat) ->
  forall j, (n - count n p <= j < n)%nat -> p j = true.
Proof.
  intros H j Hj.
  assert (Inc : incl (filter p (seq 0 n)) (seq (n - count n p) (count n p))).
  { intros x Hx. apply filter_In in Hx. destruct Hx as [Hx Px]. apply in_seq in Hx. apply in_seq.
    pose proof (H x ltac:(lia) Px). lia. }
  assert (ND : NoDup (filter p (seq 0 n))) by (apply NoDup_filter, seq_NoDup).
  assert (Inc' : incl (seq (n - count n p) (count n p)) (filter p (seq 0 n))).
  { apply NoDup_length_incl; [exact ND| |exact Inc]. rewrite seq_length. unfold count. lia. }
  pose proof (count_le n p) as L.
  assert (Hin : In j (filter p (seq 0 n))) by (apply Inc', in_seq; lia).
  apply filter_In in Hin. apply Hin.
Qed.

Lemma isnan_iff a : isnan a = true <-> a = None.
Proof. destruct a; cbn; split; intros; congruence. Qed.
Lemma some_or (a : rnum) : a <> None -> exists x, a = Some x.
Proof. destruct a as [x|]; [eauto|congruence]. Qed.

(** ** fill_data *)
Section Fill.
Variables (ny nx : nat) (xs ys : nat -> R) (g : grid rnum).

Lemma fill_ok k r : eastward nx xs -> southward ny ys -> fillable ny nx g k r ->
  exists g', fill_data ny nx xs ys g = Ok g' /\
  (forall i j, (i < ny - r)%nat -> (k <= j < nx)%nat -> g' i j = g i j) /\
  (forall i j, (i < ny - r)%nat -> (j < k)%nat -> exists a b, g i k = Some a /\ g i (k + 1)%nat = Some b /\
     g' i j = Some (through (xs k) a (xs (k + 1)%nat) b (xs j))) /\
  (forall i j, (ny - r <= i < ny)%nat -> (j < nx)%nat -> exists a b,
     g' (ny - r - 1)%nat j = Some a /\ g' (ny - r - 2)%nat j = Some b /\
     g' i j = Some (through (ys (ny - r - 1)%nat) a (ys (ny - r - 2)%nat) b (ys i))).
Proof.
  intros He Hs (H0 & Hk & Hr & Hn & Ht & Hc).
  assert (Eix : count nx (fun j => isnan (g 0%nat j)) = k).
  { apply count_prefix; [lia|]. intros j Hj. rewrite isnan_iff. split; [|apply Ht].
    intros E. destruct (Hn 0%nat j H0 Hj E); lia. }
  assert (Eiy : count ny (fun i => isnan (g i (k + 1)%nat)) = r).
  { apply count_suffix; [lia|]. intros i Hi. rewrite isnan_iff. split; [|intros; apply Hc; lia].
    intros E. destruct (Hn i (k + 1)%nat Hi ltac:(lia) E); lia. }
  set (g1 := if (0 <? k)%nat then fill_left nx xs k g else g).
  set (g2 := if (0 <? r)%nat then fill_bottom ny ys r g1 else g1).
  assert (Kept : forall i j, (k <= j)%nat -> g1 i j = g i j).
  { intros i j Hj. unfold g1. destruct (0 <? k)%nat; [|reflexivity]. unfold fill_left.
    destruct (Nat.ltb_spec j k); [lia|reflexivity]. }
  assert (L : forall i j, (i < ny - r)%nat -> (j < k)%nat -> exists a b, g i k = Some a /\ g i (k + 1)%nat = Some b /\
     g1 i j = Some (through (xs k) a (xs (k + 1)%nat) b (xs j))).
  { intros i j Hi Hj.
    destruct (some_or (g i k)) as [a Ea]; [intros E; destruct (Hn i k ltac:(lia) ltac:(lia) E); lia|].
    destruct (some_or (g i (k + 1)%nat)) as [b Eb]; [intros E; destruct (Hn i (k + 1)%nat ltac:(lia) ltac:(lia) E); lia|].
    exists a, b. split; [exact Ea|]. split; [exact Eb|]. unfold g1.
    destruct (Nat.ltb_spec 0 k); [|lia]. unfold fill_left. destruct (Nat.ltb_spec j k); [|lia].
    change (map _ _) with (pts xs (g i) k (Nat.min 10 (nx - k))). rewrite interpx_east.
    - apply (line_through (xs k, g i k) (xs (k + 1)%nat, g i (k + 1)%nat) _ a b Ea Eb).
    - lia.
    - intros j' k' A B. apply He. lia.
    - apply He. lia. }
  assert (D1 : forall i j, (i < ny - r)%nat -> (j < nx)%nat -> exists x, g1 i j = Some x).
  { intros i j Hi Hj. destruct (Nat.lt_ge_cases j k) as [C|C].
    - destruct (L i j Hi C) as (a & b & _ & _ & ->). eauto.
    - rewrite (Kept i j C). apply some_or. intros E. destruct (Hn i j ltac:(lia) Hj E); lia. }
  assert (Top : forall i j, (i < ny - r)%nat -> g2 i j = g1 i j).
  { intros i j Hi. unfold g2. destruct (0 <? r)%nat; [|reflexivity]. unfold fill_bottom.
    destruct (Nat.leb_spec (ny - r) i); [lia|reflexivity]. }
  assert (B : forall i j, (ny - r <= i < ny)%nat -> (j < nx)%nat -> exists a b,
     g2 (ny - r - 1)%nat j = Some a /\ g2 (ny - r - 2)%nat j = Some b /\
     g2 i j = Some (through (ys (ny - r - 1)%nat) a (ys (ny - r - 2)%nat) b (ys i))).
  { intros i j Hi Hj.
    destruct (D1 (ny - r - 1)%nat j ltac:(lia) Hj) as [a Ea].
    destruct (D1 (ny - r - 2)%nat j ltac:(lia) Hj) as [b Eb].
    exists a, b. rewrite !Top by lia. split; [exact Ea|]. split; [exact Eb|]. unfold g2.
    destruct (Nat.ltb_spec 0 r); [|lia]. unfold fill_bottom. destruct (Nat.leb_spec (ny - r) i); [|lia].
    change (map _ _) with (pts ys (fun m => g1 m j) (ny - r - 10) (ny - r - (ny - r - 10))). rewrite interpx_south.
    - replace (ny - r - 10 + (ny - r - (ny - r - 10)) - 1)%nat with (ny - r - 1)%nat by lia.
      replace (ny - r - 10 + (ny - r - (ny - r - 10)) - 2)%nat with (ny - r - 2)%nat by lia.
      apply (line_through (ys (ny - r - 1)%nat, g1 (ny - r - 1)%nat j) (ys (ny - r - 2)%nat, g1 (ny - r - 2)%nat j) _ a b Ea Eb).
    - lia.
    - intros j' k' A1 A2. apply Hs. lia.
    - apply Hs. lia. }
  exists g2. split; [|split; [|split]].
  - unfold fill_data. rewrite Eix. destruct (Nat.eqb_spec ny 0); [lia|]. destruct (Nat.leb_spec nx (k + 1)); [lia|].
    cbn [orb]. rewrite Eiy. fold g1. destruct (Nat.ltb_spec 0 r) as [Pr|Pr].
    + destruct (Nat.ltb_spec (ny - r) 2); [lia|]. cbn [andb].
      replace (fill_bottom ny ys r g1) with g2 by (unfold g2; destruct (Nat.ltb_spec 0 r); [reflexivity|lia]).
      replace (all_cells ny nx (fun i j => negb (isnan (g2 i j)))) with true; [reflexivity|].
      symmetry. apply all_cells_spec. intros i j Hi Hj. destruct (Nat.lt_ge_cases i (ny - r)) as [C|C].
      * rewrite (Top i j C). destruct (D1 i j C Hj) as [x ->]. reflexivity.
      * destruct (B i j ltac:(lia) Hj) as (a & b & _ & _ & ->). reflexivity.
    + cbn [andb].
      replace g1 with g2 by (unfold g2; destruct (Nat.ltb_spec 0 r); [lia|reflexivity]).
      replace (all_cells ny nx (fun i j => negb (isnan (g2 i j)))) with true; [reflexivity|].
      symmetry. apply all_cells_spec. intros i j Hi Hj.
      rewrite (Top i j ltac:(lia)). destruct (D1 i j ltac:(lia) Hj) as [x ->]. reflexivity.
  - intros i j Hi Hj. rewrite (Top i j Hi). apply Kept. lia.
  - intros i j Hi Hj. destruct (L i j Hi Hj) as (a & b & Ea & Eb & E). exists a, b. rewrite (Top i j Hi). auto.
  - exact B.
Qed.

Lemma fill_inv g' : fill_data ny nx xs ys g = Ok g' ->
  (exists k r, fillable ny nx g k r) /\
  (forall i j, (i < ny)%nat -> (j < nx)%nat -> g' i j <> None).
Proof.
  unfold fill_data. set (k := count nx _). destruct (Nat.eqb_spec ny 0) as [|H0]; [discriminate|].
  destruct (Nat.leb_spec nx (k + 1)) as [|Hk]; [discriminate|]. cbn [orb].
  set (r := count ny _). set (g1 := if (0 <? k)%nat then fill_left nx xs k g else g).
  destruct ((0 <? r)%nat && (ny - r <? 2)%nat) eqn:Er; [discriminate|].
  set (g2 := if (0 <? r)%nat then fill_bottom ny ys r g1 else g1).
  destruct (all_cells ny nx _) eqn:Ea; [|discriminate]. intros [= <-].
  rewrite all_cells_spec in Ea.
  assert (Hr : (r = 0 \/ r + 2 <= ny)%nat).
  { pose proof (count_le ny (fun i => isnan (g i (k + 1)%nat))) as L. fold r in L.
    destruct (Nat.ltb_spec 0 r); [|lia]. destruct (Nat.ltb_spec (ny - r) 2); [discriminate|]. lia. }
  assert (Kept : forall i j, (i < ny - r)%nat -> (k <= j)%nat -> g2 i j = g i j).
  { intros i j Hi Hj. unfold g2, g1. transitivity ((if (0 <? k)%nat then fill_left nx xs k g else g) i j).
    - destruct (0 <? r)%nat; [|reflexivity]. unfold fill_bottom. destruct (Nat.leb_spec (ny - r) i); [lia|reflexivity].
    - destruct (0 <? k)%nat; [|reflexivity]. unfold fill_left. destruct (Nat.ltb_spec j k); [lia|reflexivity]. }
  assert (Hn : forall i j, (i < ny)%nat -> (j < nx)%nat -> g i j = None -> (j < k \/ ny - r <= i)%nat).
  { intros i j Hi Hj E. destruct (Nat.lt_ge_cases j k) as [|C]; [left; assumption|].
    destruct (Nat.lt_ge_cases i (ny - r)) as [D|]; [|right; assumption].
    specialize (Ea i j Hi Hj). rewrite (Kept i j D C), E in Ea. discriminate. }
  split.
  - exists k, r. split; [lia|]. split; [lia|]. split; [exact Hr|]. split; [exact Hn|]. split.
    + intros j Hj. apply isnan_iff. apply (count_full nx (fun j => isnan (g 0%nat j))); [|exact Hj].
      intros j' Hj' E. apply isnan_iff in E. fold k. destruct (Hn 0%nat j' ltac:(lia) Hj' E); lia.
    + intros i Hi. apply isnan_iff. apply (count_full_suffix ny (fun i => isnan (g i (k + 1)%nat))); [|exact Hi].
      intros i' Hi' E. apply isnan_iff in E. fold r. destruct (Hn i' (k + 1)%nat ltac:(lia) ltac:(lia) E); lia.
  - intros i j Hi Hj E. specialize (Ea i j Hi Hj). rewrite E in Ea. discriminate.
Qed.

(** a constant stays constant, whatever the gaps and coordinates *)
Definition nc (c : R) (a : rnum) : Prop := a = None \/ a = Some c.
Lemma line_nc c p q x : nc c (snd p) -> nc c (snd q) -> nc c (line p q x).
Proof.
  intros [E|E] [F|F]; unfold line; rewrite E, F; cbn [rlift2]; try (left; reflexivity).
  right. f_equal. unfold Rdiv. rewrite Rminus_diag_eq by reflexivity. ring.
Qed.
Lemma insert_in p l q : In q (insert p l) -> q = p \/ In q l.
Proof.
  induction l as [|a l IH]; cbn [insert]; [intros [->|[]]; auto|]. destruct (rleb (fst p) (fst a)).
  - intros [->|H]; auto.
  - intros [->|H]; [right; left; reflexivity|]. destruct (IH H); [auto|right; right; assumption].
Qed.
Lemma sort_in l q : In q (sort l) -> In q l.
Proof. induction l as [|p l IH]; [intros []|]. cbn [sort fold_right]. intros H. apply insert_in in H. destruct H as [->|H]; [left; reflexivity|right; apply IH; exact H]. Qed.
Lemma interpx_nc c l x : (forall q, In q l -> nc c (snd q)) -> nc c (interpx l x).
Proof.
  intros H. unfold interpx.
  assert (G : forall n, nc c (snd (nth n (sort l) (0, None)))).
  { intros n. destruct (nth_in_or_default n (sort l) (0, None)) as [I| ->]; [apply H, sort_in, I|left; reflexivity]. }
  apply line_nc; apply G.
Qed.
Lemma fill_const c g' : (forall i j, nc c (g i j)) -> fill_data ny nx xs ys g = Ok g' ->
  forall i j, (i < ny)%nat -> (j < nx)%nat -> g' i j = Some c.
Proof.
  intros Hc E i j Hi Hj. destruct (fill_inv g' E) as [_ Hd]. specialize (Hd i j Hi Hj).
  assert (N : nc c (g' i j)).
  { revert E. unfold fill_data. destruct ((ny =? 0)%nat || _); [discriminate|].
    set (k := count nx _). set (r := count ny _).
    destruct ((0 <? r)%nat && (ny - r <? 2)%nat); [discriminate|].
    destruct (all_cells ny nx _); [|discriminate]. intros [= <-].
    assert (N1 : forall i j, nc c ((if (0 <? k)%nat then fill_left nx xs k g else g) i j)).
    { intros i' j'. destruct (0 <? k)%nat; [|apply Hc]. unfold fill_left. destruct (j' <? k)%nat; [|apply Hc].
      apply interpx_nc. intros q Hq. apply in_map_iff in Hq. destruct Hq as (m & <- & _). apply Hc. }
    destruct (0 <? r)%nat; [|apply N1]. unfold fill_bottom. destruct (ny - r <=? i)%nat; [|apply N1].
    apply interpx_nc. intros q Hq. apply in_map_iff in Hq. destruct Hq as (m & <- & _). apply N1. }
  destruct N as [N|N]; [congruence|exact N].
Qed.
End Fill.

(** ** roughness and the logarithmic law *)
Lemma rough_value h : veg_roughness h =
  match h with None => 0.01 | Some h => Rmin 1.6 (Rmax 0.01 (h / 7.39)) end.
Proof.
  unfold veg_roughness. destruct h as [h|]; cbn [rlift option_map ncmp].
  - destruct (rltb_spec (h / 7.39) 0.01) as [A|A].
    + rewrite Rmax_left by lra. rcasep. rewrite Rmin_right by lra. reflexivity.
    + rewrite Rmax_right by lra. rcase; [rewrite Rmin_left by lra|rewrite Rmin_right by lra]; reflexivity.
  - rcasep. reflexivity.
Qed.
Lemma rough_range h : 0.01 <= veg_roughness h <= 1.6.
Proof.
  rewrite rough_value. destruct h as [h|]; [|lra].
  split; [apply Rmin_glb; [lra|apply Rmax_l]|apply Rmin_l].
Qed.
Lemma profile_pos z h : 0 < z -> 0 < h -> 0 < profile z h.
Proof.
  intros Z H. unfold profile. rewrite <- ln_1. apply ln_increasing; [lra|].
  apply (Rmult_lt_reg_r z); [exact Z|]. unfold Rdiv. rewrite Rmult_assoc, Rinv_l by lra. lra.
Qed.
Lemma profile_anti z1 z2 h : 0 < z1 -> z1 < z2 -> 0 < h -> profile z2 h < profile z1 h.
Proof.
  intros Z1 Z H. unfold profile.
  assert (E : forall z, 0 < z -> (h + z) / z = h * / z + 1) by (intros; field; lra).
  apply ln_increasing.
  - apply Rdiv_lt_0_compat; lra.
  - rewrite (E z1), (E z2) by lra. apply Rplus_lt_compat_r. apply Rmult_lt_compat_l; [exact H|].
    apply Rinv_lt_contravar; [nra|exact Z].
Qed.
Lemma scale_profile w h v : ln_wind_scale w h v = profile (veg_roughness v) h / profile w h.
Proof.
  unfold ln_wind_scale, profile. rewrite (Rplus_comm (veg_roughness v)), (Rplus_comm w). reflexivity.
Qed.

(** ** weighted means *)
Lemma weighted_const c tri values : (forall k, nc c (values k)) -> fold_right (fun vw s => snd vw + s) 0 tri = 1 ->
  nc c (weighted values tri).
Proof.
  intros Hv Hs. unfold weighted. destruct (existsb _ tri); [left; reflexivity|].
  assert (G : fold_right (fun vw s => rlift2 Rplus (rlift (fun v => v * snd vw) (values (fst vw))) s) (Some 0) tri = None \/
    fold_right (fun vw s => rlift2 Rplus (rlift (fun v => v * snd vw) (values (fst vw))) s) (Some 0) tri =
    Some (c * fold_right (fun vw s => snd vw + s) 0 tri)).
  { clear Hs. induction tri as [|vw tri IH]; cbn [fold_right]; [right; f_equal; ring|].
    destruct (Hv (fst vw)) as [->| ->]; [left; reflexivity|].
    destruct IH as [->| ->]; [left; reflexivity|]. cbn [rlift option_map rlift2]. right. f_equal. ring. }
  rewrite Hs, Rmult_1_r in G. exact G.
Qed.

Lemma compass_azimuth u v : compass u v = azimuth u v.
Proof. reflexivity. Qed.
