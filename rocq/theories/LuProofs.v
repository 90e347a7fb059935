From Coq Require Import List Arith Bool QArith Qcanon Lia.
From Verif Require Import Num KrigeModel KrigeSpec.
Import ListNotations.
Local Open Scope Qc_scope.

(** ** loops *)
Lemma loop_inv {S} (I : nat -> S -> Prop) cnt : forall lo f (s : S),
  (forall i s, (lo <= i < lo + cnt)%nat -> I i s -> I (Datatypes.S i) (f i s)) -> I lo s ->
  I (lo + cnt)%nat (loop lo cnt f s).
Proof.
  induction cnt as [|c IH]; intros lo f s H H0; simpl.
  - now rewrite Nat.add_0_r.
  - replace (lo + Datatypes.S c)%nat with (Datatypes.S lo + c)%nat by lia. apply IH.
    + intros i s' Hi. apply H. lia.
    + apply H; [lia|exact H0].
Qed.

Lemma oloop_inv {S} (I : nat -> S -> Prop) cnt : forall lo f (s s' : S),
  (forall i s s', (lo <= i < lo + cnt)%nat -> I i s -> f i s = Some s' -> I (Datatypes.S i) s') -> I lo s ->
  oloop lo cnt f s = Some s' -> I (lo + cnt)%nat s'.
Proof.
  induction cnt as [|c IH]; intros lo f s s' H H0; simpl.
  - intros [= <-]. now rewrite Nat.add_0_r.
  - destruct (f lo s) as [s1|] eqn:E; [|discriminate]. intros E'.
    replace (lo + Datatypes.S c)%nat with (Datatypes.S lo + c)%nat by lia.
    apply (IH _ f s1); auto.
    + intros i u u' Hi. apply H. lia.
    + apply (H lo s); auto. lia.
Qed.

Lemma oloop_none {S} (I : nat -> S -> Prop) cnt : forall lo f (s : S),
  (forall i s s', (lo <= i < lo + cnt)%nat -> I i s -> f i s = Some s' -> I (Datatypes.S i) s') -> I lo s ->
  oloop lo cnt f s = None -> exists i s', (lo <= i < lo + cnt)%nat /\ I i s' /\ f i s' = None.
Proof.
  induction cnt as [|c IH]; intros lo f s H H0; simpl; [discriminate|].
  destruct (f lo s) as [s1|] eqn:E.
  - intros E'. destruct (IH (Datatypes.S lo) f s1) as (i & s' & Hi & Hs & Hf); auto.
    + intros i u u' Hi. apply H. lia.
    + apply (H lo s); auto. lia.
    + exists i, s'. split; [lia|auto].
  - intros _. exists lo, s. split; [lia|auto].
Qed.

(** ** sums *)
Lemma sumr_ext lo cnt f g : (forall i, (lo <= i < lo + cnt)%nat -> f i = g i) -> sumr lo cnt f = sumr lo cnt g.
Proof.
  revert lo. induction cnt as [|c IH]; intros lo H; simpl; [reflexivity|].
  rewrite H by lia. rewrite IH; [reflexivity|]. intros i Hi. apply H. lia.
Qed.
Lemma sumr_app a b lo f : sumr lo (a + b) f = sumr lo a f + sumr (lo + a) b f.
Proof.
  revert lo. induction a as [|a IH]; intros lo; simpl.
  - rewrite Nat.add_0_r. ring.
  - rewrite IH. replace (S lo + a)%nat with (lo + S a)%nat by lia. ring.
Qed.
Lemma sumr_last lo n f : sumr lo (S n) f = sumr lo n f + f (lo + n)%nat.
Proof. replace (S n) with (n + 1)%nat by lia. rewrite sumr_app. simpl. ring. Qed.
Lemma sumr_zero lo cnt f : (forall i, (lo <= i < lo + cnt)%nat -> f i = 0) -> sumr lo cnt f = 0.
Proof.
  revert lo. induction cnt as [|c IH]; intros lo H; simpl; [reflexivity|].
  rewrite H by lia. rewrite IH; [ring|]. intros i Hi. apply H. lia.
Qed.
Lemma sumr_add lo cnt f g : sumr lo cnt (fun i => f i + g i) = sumr lo cnt f + sumr lo cnt g.
Proof. revert lo. induction cnt as [|c IH]; intros lo; simpl; [ring|]. rewrite IH. ring. Qed.
Lemma sumr_scale lo cnt k f : sumr lo cnt (fun i => k * f i) = k * sumr lo cnt f.
Proof. revert lo. induction cnt as [|c IH]; intros lo; simpl; [ring|]. rewrite IH. ring. Qed.
Lemma sumr_fubini a lo cnt b f :
  sumr lo cnt (fun i => sumr a b (f i)) = sumr a b (fun j => sumr lo cnt (fun i => f i j)).
Proof.
  revert lo. induction cnt as [|c IH]; intros lo; simpl.
  - symmetry. apply sumr_zero. reflexivity.
  - rewrite IH. rewrite <- sumr_add. reflexivity.
Qed.
Lemma sumr_pick lo cnt j f : (lo <= j < lo + cnt)%nat -> (forall i, (lo <= i < lo + cnt)%nat -> i <> j -> f i = 0) ->
  sumr lo cnt f = f j.
Proof.
  intros Hj H. replace cnt with ((j - lo) + S (lo + cnt - S j))%nat by lia. rewrite sumr_app. simpl.
  rewrite sumr_zero by (intros i Hi; apply H; lia). replace (lo + (j - lo))%nat with j by lia.
  rewrite (sumr_zero (S j)) by (intros i Hi; apply H; lia). ring.
Qed.
Lemma loop_sub lo cnt g x : loop lo cnt (fun k s => s - g k) x = x - sumr lo cnt g.
Proof. revert lo x. induction cnt as [|c IH]; intros lo x; simpl; [ring|]. rewrite IH. ring. Qed.

Lemma dot_sub_eq a i j m : dot_sub a i j m = a i j - sumr 0 m (fun k => a i k * a k j).
Proof. unfold dot_sub. apply (loop_sub 0 m (fun k => a i k * a k j)). Qed.

Lemma upd_same a i j v : upd a i j v i j = v.
Proof. unfold upd. now rewrite !Nat.eqb_refl. Qed.
Lemma upd_other a i j v r c : r <> i \/ c <> j -> upd a i j v r c = a r c.
Proof.
  intros H. unfold upd. destruct (Nat.eqb_spec r i), (Nat.eqb_spec c j); simpl; try reflexivity. tauto.
Qed.
Lemma updv_same {A} (f : nat -> A) i v : updv f i v i = v.
Proof. unfold updv. now rewrite Nat.eqb_refl. Qed.
Lemma updv_other {A} (f : nat -> A) i v k : k <> i -> updv f i v k = f k.
Proof. intros H. unfold updv. destruct (Nat.eqb_spec k i); congruence. Qed.

Lemma fabs_nonneg x : 0 <= fabs x.
Proof. unfold fabs. destruct (Qcltb_spec x 0) as [H|H]; [qclra|]. apply Qcnot_lt_le. exact H. Qed.
Lemma fabs_zero x : fabs x = 0 -> x = 0.
Proof. unfold fabs. destruct (Qcltb_spec x 0) as [H|H]; intros E; [|exact E]. qclra. Qed.

Lemma Qcminus_ext (x x' y y' : Qc) : x = x' -> y = y' -> x - y = x' - y'.
Proof. now intros -> ->. Qed.

(** ** scaling *)
Lemma row_big_spec n a i : (forall j, (j < n)%nat -> fabs (a i j) <= row_big n a i) /\ 0 <= row_big n a i.
Proof.
  unfold row_big.
  pose proof (loop_inv (fun m big => (forall j, (j < m)%nat -> fabs (a i j) <= big) /\ 0 <= big) n 0
    (fun j big => if Qcltb big (fabs (a i j)) then fabs (a i j) else big) 0) as L.
  simpl in L. apply L.
  - intros m big Hm (H1 & H2). destruct (Qcltb_spec big (fabs (a i m))) as [H|H]; split.
    + intros j Hj. destruct (Nat.eq_dec j m) as [->|N]; [apply Qcle_refl|].
      apply Qclt_le_weak in H. eapply Qcle_trans; [apply H1; lia|exact H].
    + apply fabs_nonneg.
    + intros j Hj. destruct (Nat.eq_dec j m) as [->|N]; [now apply Qcnot_lt_le|]. apply H1. lia.
    + exact H2.
  - split; [intros j Hj; lia|apply Qcle_refl].
Qed.
Lemma Qcle_anti (x y : Qc) : x <= y -> y <= x -> x = y.
Proof. apply Qcle_antisym. Qed.

Lemma scaling_some n a vv : scaling n a = Some vv -> forall i, (i < n)%nat -> 0 < vv i.
Proof.
  intros E. unfold scaling in E.
  pose proof (oloop_inv (fun m (vv : nat -> Qc) => forall i, (i < m)%nat -> 0 < vv i) n 0
    (fun i vv => let big := row_big n a i in if Qceqb big 0 then None else Some (updv vv i (1 / big)))
    (fun _ => 0) vv) as L. simpl in L. apply L; [|lia|exact E].
  clear. intros i vv vv' Hi H. destruct (Qceqb_spec (row_big n a i) 0) as [|N]; [discriminate|]. intros [= <-] k Hk.
  destruct (Nat.eq_dec k i) as [->|Hki].
  - rewrite updv_same. destruct (row_big_spec n a i) as (_ & H0).
    assert (P : 0 < row_big n a i). { destruct (Qcle_lt_or_eq _ _ H0) as [|E]; [assumption|]. congruence. }
    unfold Qcdiv. rewrite Qcmult_1_l. unfold Qclt. rewrite this_inv. simpl. apply Qinv_lt_0_compat. exact P.
  - rewrite updv_other by exact Hki. apply H. lia.
Qed.
Lemma scaling_none n a : scaling n a = None -> exists i, (i < n)%nat /\ forall j, (j < n)%nat -> a i j = 0.
Proof.
  intros E. unfold scaling in E. apply (oloop_none (fun _ _ => True)) in E; auto.
  destruct E as (i & vv & Hi & _ & E). exists i. split; [lia|].
  destruct (Qceqb_spec (row_big n a i) 0) as [Z|N]; [|discriminate]. intros j Hj.
  destruct (row_big_spec n a i) as (H & _). specialize (H j Hj). rewrite Z in H.
  apply fabs_zero. apply Qcle_anti; [exact H|apply fabs_nonneg].
Qed.

(** ** one column *)
Definition upper_inv (j : nat) (a0 : matrix) (i : nat) (a : matrix) : Prop :=
  (forall r c, c <> j \/ (i <= r)%nat -> a r c = a0 r c) /\
  (forall r, (r < i)%nat -> a r j = a0 r j - sumr 0 r (fun k => a0 r k * a k j)).
Lemma upper_spec j a0 : upper_inv j a0 j (upper j a0).
Proof.
  unfold upper. apply (loop_inv (upper_inv j a0) j 0); [|split; [reflexivity|lia]].
  intros i a Hi (H1 & H2). split.
  - intros r c H. rewrite upd_other by lia. apply H1. lia.
  - intros r Hr. destruct (Nat.eq_dec r i) as [->|N].
    + rewrite upd_same, dot_sub_eq. rewrite (H1 i j) by (right; lia). apply Qcminus_ext; [reflexivity|]. apply sumr_ext.
      intros k Hk. rewrite (upd_other a i j _ k j) by lia. rewrite (H1 i k) by (left; lia). reflexivity.
    + rewrite upd_other by lia. rewrite H2 by lia. apply Qcminus_ext; [reflexivity|]. apply sumr_ext. intros k Hk.
      rewrite upd_other by lia. reflexivity.
Qed.

(** after the pivot search: columns other than j and rows above j as before *)
Definition search_inv (n j : nat) (vv : nat -> Qc) (a1 : matrix) (i : nat) (s : matrix * (Qc * nat)) : Prop :=
  let '(a, (big, imax)) := s in
  (forall r c, c <> j \/ (r < j)%nat \/ (i <= r)%nat -> a r c = a1 r c) /\
  (forall r, (j <= r < i)%nat -> a r j = a1 r j - sumr 0 j (fun k => a1 r k * a1 k j)) /\
  0 <= big /\ (i = j -> big = 0) /\
  (forall r, (j <= r < i)%nat -> vv r * fabs (a r j) <= big) /\
  ((j < i)%nat -> (j <= imax < i)%nat /\ big = vv imax * fabs (a imax j)).
Lemma search_spec n j vv a1 im : (j < n)%nat -> (forall r, (r < n)%nat -> 0 < vv r) ->
  search_inv n j vv a1 n (pivot_search n j vv a1 im).
Proof.
  intros Hj Hvv. unfold pivot_search.
  match goal with |- search_inv _ _ _ _ _ (loop _ _ ?f ?s0) =>
    assert (L : search_inv n j vv a1 (j + (n - j))%nat (loop j (n - j) f s0)) end.
  { apply loop_inv.
    - intros i [a [big imax]] Hi (H1 & H2 & H3 & H30 & H4 & H5). cbv zeta.
      assert (V : dot_sub a i j j = a1 i j - sumr 0 j (fun k => a1 i k * a1 k j)).
      { rewrite dot_sub_eq. rewrite (H1 i j) by lia. apply Qcminus_ext; [reflexivity|]. apply sumr_ext. intros k Hk.
        rewrite (H1 i k) by lia. rewrite (H1 k j) by lia. reflexivity. }
      rewrite V. set (v := a1 i j - _) in *.
      assert (P1 : forall r c, c <> j \/ (r < j)%nat \/ (S i <= r)%nat -> upd a i j v r c = a1 r c).
      { intros r c H. rewrite upd_other by lia. apply H1. lia. }
      assert (P2 : forall r, (j <= r < S i)%nat -> upd a i j v r j = a1 r j - sumr 0 j (fun k => a1 r k * a1 k j)).
      { intros r Hr. destruct (Nat.eq_dec r i) as [->|N]; [apply upd_same|]. rewrite upd_other by lia. apply H2. lia. }
      assert (P0 : 0 <= vv i * fabs v).
      { assert (0 < vv i) by (apply Hvv; lia). pose proof (fabs_nonneg v). apply Qclt_le_weak in H.
        replace 0 with (0 * fabs v) by ring. apply Qcmult_le_compat_r; assumption. }
      destruct (Qcleb_spec big (vv i * fabs v)) as [B|B].
      + split; [exact P1|]. split; [exact P2|]. split; [exact P0|]. split; [lia|]. split.
        * intros r Hr. destruct (Nat.eq_dec r i) as [->|N]; [rewrite upd_same; apply Qcle_refl|].
          rewrite upd_other by lia. eapply Qcle_trans; [apply H4; lia|exact B].
        * intros _. split; [lia|]. now rewrite upd_same.
      + split; [exact P1|]. split; [exact P2|]. split; [exact H3|]. split; [lia|].
        assert (N : i <> j). { intros ->. apply B. rewrite (H30 eq_refl). exact P0. }
        split.
        * intros r Hr. destruct (Nat.eq_dec r i) as [->|N'].
          -- rewrite upd_same. apply Qcnot_le_lt in B. now apply Qclt_le_weak.
          -- rewrite upd_other by lia. apply H4. lia.
        * intros _. destruct H5 as (H5 & H6); [lia|]. split; [lia|]. rewrite upd_other by lia. exact H6.
    - repeat split; try lia; intros; try reflexivity; try apply Qcle_refl; lia. }
  replace (j + (n - j))%nat with n in L by lia. exact L.
Qed.

Definition swap (x y r : nat) : nat := if Nat.eqb r x then y else if Nat.eqb r y then x else r.
Lemma swap_cases x y r : (r = x /\ swap x y r = y) \/ (r <> x /\ r = y /\ swap x y r = x) \/ (r <> x /\ r <> y /\ swap x y r = r).
Proof. unfold swap. destruct (Nat.eqb_spec r x); auto. destruct (Nat.eqb_spec r y); auto. Qed.
Lemma swap_invol x y r : swap x y (swap x y r) = r.
Proof.
  unfold swap. destruct (Nat.eqb_spec r x) as [->|N].
  - destruct (Nat.eqb_spec y x) as [->|N']; [reflexivity|]. now rewrite Nat.eqb_refl.
  - destruct (Nat.eqb_spec r y) as [->|N'].
    + now rewrite Nat.eqb_refl.
    + destruct (Nat.eqb_spec r x); [contradiction|]. destruct (Nat.eqb_spec r y); [contradiction|reflexivity].
Qed.
Lemma swap_lt x y r n : (x < n)%nat -> (y < n)%nat -> (r < n)%nat -> (swap x y r < n)%nat.
Proof. intros. destruct (swap_cases x y r) as [(?&->)|[(?&?&->)|(?&?&->)]]; assumption. Qed.

Lemma interchange_spec n imax j a : forall r c,
  interchange n imax j a r c = if Nat.ltb c n then a (swap j imax r) c else a r c.
Proof.
  unfold interchange.
  assert (L : forall r c, loop 0 n (fun k a => upd (upd a imax k (a j k)) j k (a imax k)) a r c =
            if Nat.ltb c (0 + n) then a (swap j imax r) c else a r c).
  { apply (loop_inv (fun m a' => forall r c, a' r c = if Nat.ltb c m then a (swap j imax r) c else a r c)).
    - intros k a' Hk H r c.
      assert (K1 : a' imax k = a imax k) by (rewrite H; now rewrite Nat.ltb_irrefl).
      assert (K2 : a' j k = a j k) by (rewrite H; now rewrite Nat.ltb_irrefl).
      rewrite K1, K2. unfold upd, swap.
      destruct (Nat.eqb_spec c k) as [->|Nc].
      + rewrite (proj2 (Nat.ltb_lt k (S k))) by lia. rewrite !andb_true_r.
        destruct (Nat.eqb r j); [reflexivity|]. destruct (Nat.eqb r imax); [reflexivity|].
        rewrite H. now rewrite Nat.ltb_irrefl.
      + rewrite !andb_false_r. rewrite H.
        destruct (Nat.ltb_spec c k), (Nat.ltb_spec c (S k)); try lia; reflexivity.
    - intros r c. reflexivity. }
  exact L.
Qed.

Lemma divide_spec n j a : (j < n)%nat -> forall r c, (r < n)%nat ->
  divide n j a r c = if (Nat.ltb j r && Nat.eqb c j)%bool then a r j * (1 / a j j) else a r c.
Proof.
  intros Hj. unfold divide. destruct (Nat.eqb_spec j (n - 1)) as [E|N].
  - intros r c Hr. destruct (Nat.ltb_spec j r); [lia|]. reflexivity.
  - cbv zeta.
    pose proof (loop_inv (fun m a' => forall r c, a' r c =
      if (Nat.ltb j r && Nat.ltb r m && Nat.eqb c j)%bool then a r j * (1 / a j j) else a r c)
      (n - S j) (S j) (fun i a' => upd a' i j (a' i j * (1 / a j j))) a) as L.
    intros r c Hr. rewrite L.
    + replace (S j + (n - S j))%nat with n by lia. destruct (Nat.ltb_spec r n); [|lia]. now rewrite andb_true_r.
    + clear L r c Hr. intros i a' Hi H r c. unfold upd.
      destruct (Nat.eqb_spec r i) as [->|Nr]; simpl.
      * destruct (Nat.eqb_spec c j) as [->|Nc]; simpl.
        -- rewrite H. destruct (Nat.ltb_spec j i); [|lia]. rewrite Nat.ltb_irrefl. simpl.
           rewrite (proj2 (Nat.ltb_lt i (S i))) by lia. reflexivity.
        -- rewrite H. rewrite (proj2 (Nat.eqb_neq c j)) by exact Nc. rewrite !andb_false_r. reflexivity.
      * rewrite H. destruct (Nat.ltb_spec r i), (Nat.ltb_spec r (S i)); try lia; reflexivity.
    + intros r' c'. destruct (Nat.ltb_spec j r'), (Nat.ltb_spec r' (S j)); try lia; reflexivity.
Qed.

(** ** the decomposition invariant *)
Fixpoint pm (indx : nat -> nat) (j : nat) (A : matrix) : matrix :=
  match j with
  | O => A
  | S j' => fun r c => pm indx j' A (swap j' (indx j') r) c
  end.
Fixpoint pv (indx : nat -> nat) (j : nat) (b : nat -> Qc) : nat -> Qc :=
  match j with
  | O => b
  | S j' => fun r => pv indx j' b (swap j' (indx j') r)
  end.
Lemma pm_ext i1 i2 j A : (forall k, (k < j)%nat -> i1 k = i2 k) -> pm i1 j A = pm i2 j A.
Proof.
  induction j as [|j IH]; intros H; simpl; [reflexivity|]. rewrite IH by (intros; apply H; lia).
  rewrite H by lia. reflexivity.
Qed.

Definition cell (a : matrix) (r c : nat) : Qc :=
  sumr 0 (Nat.min r c) (fun k => a r k * a k c) + (if Nat.leb r c then a r c else a r c * a c c).
Definition lu_inv (n : nat) (A : matrix) (j : nat) (s : lu) : Prop :=
  (forall r c, (r < n)%nat -> (j <= c < n)%nat -> lu_a s r c = pm (lu_indx s) j A r c) /\
  (forall r c, (r < n)%nat -> (c < j)%nat -> pm (lu_indx s) j A r c = cell (lu_a s) r c) /\
  (forall c, (c < j)%nat -> lu_a s c c <> 0) /\
  (forall r, lu_a s r n = A r n) /\
  (forall k, (k < j)%nat -> (k <= lu_indx s k < n)%nat) /\
  (forall r, (r < n)%nat -> 0 < lu_vv s r).

(** the state of a column before the interchange *)
Lemma before_interchange n A j s : (j < n)%nat -> lu_inv n A j s ->
  let '(a2, (big, imax)) := pivot_search n j (lu_vv s) (upper j (lu_a s)) (lu_imax s) in
  (forall r c, c <> j -> a2 r c = lu_a s r c) /\
  (forall r, (r < n)%nat -> pm (lu_indx s) j A r j = sumr 0 (Nat.min r j) (fun k => a2 r k * a2 k j) + a2 r j) /\
  (j <= imax < n)%nat /\
  (a2 imax j = 0 -> forall r, (j <= r < n)%nat -> a2 r j = 0).
Proof.
  intros Hj (I1 & I2 & I3 & I4 & I5 & I6).
  destruct (upper_spec j (lu_a s)) as (U1 & U2).
  pose proof (search_spec n j (lu_vv s) (upper j (lu_a s)) (lu_imax s) Hj I6) as Sp.
  destruct (pivot_search n j (lu_vv s) (upper j (lu_a s)) (lu_imax s)) as [a2 [big imax]].
  destruct Sp as (S1 & S2 & S3 & _ & S4 & S5). destruct (S5 Hj) as (S6 & S7).
  set (a1 := upper j (lu_a s)) in *.
  assert (Q : forall r c, c <> j -> a2 r c = lu_a s r c).
  { intros r c Hc. rewrite S1 by auto. apply U1. auto. }
  split; [exact Q|]. split; [|split; [exact S6|]].
  - intros r Hr. rewrite <- I1 by lia. destruct (Nat.lt_ge_cases r j) as [L|L].
    + rewrite Nat.min_l by lia. rewrite (S1 r j) by lia. rewrite U2 by exact L.
      rewrite (sumr_ext 0 r (fun k => a2 r k * a2 k j) (fun k => lu_a s r k * a1 k j)).
      * ring.
      * intros k Hk. rewrite Q by lia. rewrite (S1 k j) by lia. reflexivity.
    + rewrite Nat.min_r by lia. rewrite S2 by lia. rewrite (U1 r j) by lia.
      rewrite (sumr_ext 0 j (fun k => a2 r k * a2 k j) (fun k => a1 r k * a1 k j)).
      * ring.
      * intros k Hk. rewrite (S1 r k) by lia. rewrite (S1 k j) by lia. reflexivity.
  - intros Z r Hr. apply fabs_zero. rewrite Z in S7.
    assert (B0 : big = 0). { rewrite S7. unfold fabs. destruct (Qcltb_spec 0 0); ring. }
    specialize (S4 r Hr). rewrite B0 in S4. pose proof (I6 r (proj2 Hr)) as V. pose proof (fabs_nonneg (a2 r j)) as F.
    apply Qcle_anti; [|exact F]. destruct (Qcle_lt_or_eq _ _ F) as [F'|F']; [|rewrite <- F'; apply Qcle_refl].
    exfalso. apply (Qclt_not_le 0 (lu_vv s r * fabs (a2 r j))); [|exact S4].
    replace 0 with (0 * fabs (a2 r j)) by ring. apply Qcmult_lt_compat_r; assumption.
Qed.

Lemma column_some n A j s s' : (j < n)%nat -> lu_inv n A j s -> column n j s = Some s' -> lu_inv n A (S j) s'.
Proof.
  intros Hj I. pose proof (before_interchange n A j s Hj I) as B. destruct I as (I1 & I2 & I3 & I4 & I5 & I6).
  unfold column. destruct (pivot_search n j (lu_vv s) (upper j (lu_a s)) (lu_imax s)) as [a2 [big imax]].
  destruct B as (B1 & B2 & B3 & _).
  destruct (if Nat.eqb j imax then (a2, lu_vv s) else (interchange n imax j a2, updv (lu_vv s) imax (lu_vv s j)))
    as [a3 vv3] eqn:E3.
  assert (A3 : forall r c, (c < n)%nat -> a3 r c = a2 (swap j imax r) c).
  { intros r c Hc. destruct (Nat.eqb_spec j imax) as [<-|N]; injection E3 as <- _.
    - destruct (swap_cases j j r) as [(->&->)|[(?&->&->)|(?&?&->)]]; reflexivity.
    - rewrite interchange_spec. destruct (Nat.ltb_spec c n); [reflexivity|lia]. }
  assert (A3n : forall r, a3 r n = a2 r n).
  { intros r. destruct (Nat.eqb_spec j imax) as [<-|N]; injection E3 as <- _; [reflexivity|].
    rewrite interchange_spec. now rewrite Nat.ltb_irrefl. }
  assert (V3 : forall r, (r < n)%nat -> 0 < vv3 r).
  { intros r Hr. destruct (Nat.eqb_spec j imax) as [<-|N]; injection E3 as _ <-; [now apply I6|].
    unfold updv. destruct (Nat.eqb_spec r imax); [now apply I6|now apply I6]. }
  clear E3. destruct (Qceqb_spec (a3 j j) 0) as [|NZ]; [discriminate|]. intros [= <-].
  set (P := pm (lu_indx s) j A) in *.
  assert (EP : pm (updv (lu_indx s) j imax) (S j) A = fun r c => P (swap j imax r) c).
  { simpl. rewrite updv_same. unfold P. rewrite (pm_ext (updv (lu_indx s) j imax) (lu_indx s)); [reflexivity|].
    intros k Hk. apply updv_other. lia. }
  pose proof (divide_spec n j a3 Hj) as D. set (a4 := divide n j a3) in *.
  assert (SL : forall r, (r < j)%nat -> swap j imax r = r).
  { intros r Hr. destruct (swap_cases j imax r) as [(?&?)|[(?&?&?)|(?&?&?)]]; lia. }
  assert (SG : forall r, (j <= r)%nat -> (j <= swap j imax r)%nat).
  { intros r Hr. destruct (swap_cases j imax r) as [(?&->)|[(?&?&->)|(?&?&->)]]; lia. }
  assert (SN : forall r, (r < n)%nat -> (swap j imax r < n)%nat) by (intros r Hr; apply swap_lt; lia).
  assert (A4 : forall r c, (r < n)%nat -> c <> j -> a4 r c = a3 r c).
  { intros r c Hr Hc. rewrite D by exact Hr. rewrite (proj2 (Nat.eqb_neq c j)) by exact Hc. now rewrite andb_false_r. }
  assert (A4u : forall r c, (r <= j)%nat -> a4 r c = a3 r c).
  { intros r c Hr. rewrite D by lia. destruct (Nat.ltb_spec j r); [lia|reflexivity]. }
  assert (A4l : forall r, (j < r < n)%nat -> a4 r j * a4 j j = a3 r j).
  { intros r Hr. rewrite (A4u j j) by lia. rewrite D by lia. destruct (Nat.ltb_spec j r); [|lia]. rewrite Nat.eqb_refl. simpl.
    unfold Qcdiv. rewrite Qcmult_1_l, <- Qcmult_assoc, (Qcmult_comm (/ a3 j j)), Qcmult_inv_r by exact NZ. ring. }
  split; [|split; [|split; [|split; [|split]]]]; cbn [lu_a lu_indx lu_vv]; rewrite ?EP.
  - intros r c Hr Hc. rewrite A4 by lia. rewrite A3 by lia. rewrite B1 by lia. apply I1; [apply SN; exact Hr|lia].
  - intros r c Hr Hc. destruct (Nat.eq_dec c j) as [->|Nc].
    + unfold P in *. rewrite B2 by (apply SN; exact Hr). unfold cell.
      assert (M : Nat.min (swap j imax r) j = Nat.min r j).
      { destruct (Nat.lt_ge_cases r j) as [L|L]; [now rewrite SL by exact L|].
        rewrite !Nat.min_r by (try apply SG; exact L). reflexivity. }
      rewrite M. f_equal.
      * apply sumr_ext. intros k Hk. rewrite <- A3 by lia. rewrite (A4 r k) by lia.
        rewrite (A4u k j) by lia. rewrite (A3 k j) by exact Hj. rewrite (SL k) by lia. reflexivity.
      * rewrite <- A3 by exact Hj. destruct (Nat.leb_spec r j) as [L|L]; [symmetry; now apply A4u|].
        symmetry. apply A4l. lia.
    + assert (Hcj : (c < j)%nat) by lia. rewrite I2 by (try apply SN; assumption). unfold cell.
      assert (M : Nat.min (swap j imax r) c = Nat.min r c).
      { destruct (Nat.lt_ge_cases r j) as [L|L]; [now rewrite SL by exact L|].
        pose proof (SG r L). rewrite !Nat.min_r by lia. reflexivity. }
      assert (Kc : forall k, (k < j)%nat -> a4 k c = lu_a s k c).
      { intros k Hk. rewrite A4 by lia. rewrite A3 by lia. rewrite SL by exact Hk. apply B1. exact Nc. }
      assert (Kr : forall k, (k < j)%nat -> a4 r k = lu_a s (swap j imax r) k).
      { intros k Hk. rewrite A4 by lia. rewrite A3 by lia. apply B1. lia. }
      rewrite M. f_equal.
      * apply sumr_ext. intros k Hk. rewrite Kr by lia. rewrite Kc by lia. reflexivity.
      * rewrite Kr by exact Hcj. rewrite (Kc c) by exact Hcj.
        destruct (Nat.leb_spec r c) as [L|L], (Nat.leb_spec (swap j imax r) c) as [L'|L']; try reflexivity.
        -- rewrite SL in L' by lia. lia.
        -- destruct (Nat.lt_ge_cases r j) as [L2|L2]; [rewrite SL in L' by lia; lia|].
           pose proof (SG r L2). lia.
  - intros c Hc. destruct (Nat.eq_dec c j) as [->|Nc]; [now rewrite A4u by lia|].
    rewrite A4u by lia. rewrite A3 by lia. rewrite SL by lia. rewrite B1 by exact Nc. apply I3. lia.
  - intros r. destruct (Nat.lt_ge_cases r n) as [L|L].
    + rewrite A4 by lia. rewrite A3n. rewrite B1 by lia. apply I4.
    + unfold a4. replace (divide n j a3 r n) with (a3 r n).
      * rewrite A3n. rewrite B1 by lia. apply I4.
      * unfold divide. destruct (Nat.eqb j (n-1)); [reflexivity|]. cbv zeta. symmetry.
        apply (loop_inv (fun _ a' => a' r n = a3 r n)); [|reflexivity].
        intros i a' Hi H. rewrite upd_other by lia. exact H.
  - intros k Hk. destruct (Nat.eq_dec k j) as [->|N]; [rewrite updv_same; lia|]. rewrite updv_other by exact N. apply I5. lia.
  - exact V3.
Qed.

(** ** triangular systems *)
Definition Lf (a : matrix) (r k : nat) : Qc := if Nat.ltb k r then a r k else if Nat.eqb k r then 1 else 0.
Definition Uf (a : matrix) (k c : nat) : Qc := if Nat.leb k c then a k c else 0.
Lemma cell_LU n a r c : (r < n)%nat -> (c < n)%nat -> cell a r c = sumr 0 n (fun k => Lf a r k * Uf a k c).
Proof.
  intros Hr Hc. unfold cell.
  replace n with (Nat.min r c + S (n - S (Nat.min r c)))%nat by lia. rewrite sumr_app.
  f_equal.
  - apply sumr_ext. intros k Hk. unfold Lf, Uf. destruct (Nat.ltb_spec k r), (Nat.leb_spec k c); try lia. reflexivity.
  - change (0 + Nat.min r c)%nat with (Nat.min r c). cbn [sumr]. rewrite sumr_zero.
    + unfold Lf, Uf. destruct (Nat.leb_spec r c) as [L|L].
      * rewrite Nat.min_l by lia. rewrite Nat.ltb_irrefl, Nat.eqb_refl. destruct (Nat.leb_spec r c); [ring|lia].
      * rewrite Nat.min_r by lia. destruct (Nat.ltb_spec c r); [|lia]. rewrite Nat.leb_refl. ring.
    + intros k Hk. unfold Lf, Uf. destruct (Nat.leb_spec r c) as [L|L].
      * destruct (Nat.ltb_spec k r); [lia|]. destruct (Nat.eqb_spec k r); [lia|]. ring.
      * destruct (Nat.leb_spec k c); [lia|]. ring.
Qed.

(** product with a vector *)
Lemma mul_assoc n (L U : matrix) x r :
  sumr 0 n (fun c => sumr 0 n (fun k => L r k * U k c) * x c) =
  sumr 0 n (fun k => L r k * sumr 0 n (fun c => U k c * x c)).
Proof.
  rewrite (sumr_ext 0 n (fun c => sumr 0 n (fun k => L r k * U k c) * x c)
                       (fun c => sumr 0 n (fun k => L r k * (U k c * x c)))).
  - rewrite sumr_fubini. apply sumr_ext. intros k Hk. apply sumr_scale.
  - intros c Hc. rewrite Qcmult_comm. rewrite <- sumr_scale. apply sumr_ext. intros k Hk. ring.
Qed.

Lemma L_row n a y r : (r < n)%nat ->
  sumr 0 n (fun k => Lf a r k * y k) = sumr 0 r (fun k => a r k * y k) + y r.
Proof.
  intros Hr. replace n with (r + S (n - S r))%nat by lia. rewrite sumr_app. f_equal.
  - apply sumr_ext. intros k Hk. unfold Lf. destruct (Nat.ltb_spec k r); [reflexivity|lia].
  - change (0 + r)%nat with r. cbn [sumr]. rewrite sumr_zero.
    + unfold Lf. rewrite Nat.ltb_irrefl, Nat.eqb_refl. ring.
    + intros k Hk. unfold Lf. destruct (Nat.ltb_spec k r); [lia|]. destruct (Nat.eqb_spec k r); [lia|]. ring.
Qed.
Lemma U_row n a x r : (r < n)%nat ->
  sumr 0 n (fun c => Uf a r c * x c) = a r r * x r + sumr (S r) (n - S r) (fun c => a r c * x c).
Proof.
  intros Hr. replace n with (r + S (n - S r))%nat by lia. rewrite sumr_app. rewrite sumr_zero.
  - change (0 + r)%nat with r. cbn [sumr]. replace (r + S (n - S r) - S r)%nat with (n - S r)%nat by lia.
    rewrite Qcplus_0_l. f_equal.
    + unfold Uf. now rewrite Nat.leb_refl.
    + apply sumr_ext. intros k Hk. unfold Uf. destruct (Nat.leb_spec r k); [reflexivity|lia].
  - intros k Hk. unfold Uf. destruct (Nat.leb_spec r k); [lia|]. ring.
Qed.

(** uniqueness *)
Lemma L_unique n a y : (forall r, (r < n)%nat -> sumr 0 n (fun k => Lf a r k * y k) = 0) ->
  forall r, (r < n)%nat -> y r = 0.
Proof.
  intros H r. induction r as [r IH] using lt_wf_ind. intros Hr.
  specialize (H r Hr). rewrite L_row in H by exact Hr.
  rewrite sumr_zero in H; [rewrite <- H; ring|]. intros k Hk. rewrite IH by lia. ring.
Qed.
Lemma U_unique n a x : (forall c, (c < n)%nat -> a c c <> 0) ->
  (forall r, (r < n)%nat -> sumr 0 n (fun c => Uf a r c * x c) = 0) ->
  forall r, (r < n)%nat -> x r = 0.
Proof.
  intros D H.
  assert (K : forall m, (m <= n)%nat -> forall r, (n - m <= r < n)%nat -> x r = 0).
  { induction m as [|m IH]; intros Hm r Hr; [lia|].
    destruct (Nat.eq_dec r (n - S m)) as [E|N]; [|apply IH; lia].
    pose proof (H r (proj2 Hr)) as Hr'. rewrite U_row in Hr' by lia.
    rewrite sumr_zero in Hr' by (intros k Hk; rewrite IH by lia; ring).
    rewrite Qcplus_0_r in Hr'. apply Qcmult_integral in Hr'. destruct Hr' as [Z|Z]; [|exact Z].
    exfalso. apply (D r); [lia|exact Z]. }
  intros r Hr. apply (K n); lia.
Qed.
(** existence *)
Lemma L_solve a b : forall n, exists y, forall r, (r < n)%nat -> sumr 0 r (fun k => a r k * y k) + y r = b r.
Proof.
  induction n as [|n (y & IH)]; [exists (fun _ => 0); lia|].
  exists (updv y n (b n - sumr 0 n (fun k => a n k * y k))).
  intros r Hr. destruct (Nat.eq_dec r n) as [->|N].
  - rewrite updv_same. rewrite (sumr_ext 0 n _ (fun k => a n k * y k)); [ring|].
    intros k Hk. rewrite updv_other by lia. reflexivity.
  - rewrite updv_other by exact N. rewrite <- (IH r) by lia. f_equal. apply sumr_ext.
    intros k Hk. rewrite updv_other by lia. reflexivity.
Qed.
Lemma U_solve a : forall n, (forall c, (c < n)%nat -> a c c <> 0) -> forall b,
  exists x, forall r, (r < n)%nat -> a r r * x r + sumr (S r) (n - S r) (fun c => a r c * x c) = b r.
Proof.
  induction n as [|n IH]; intros D b; [exists (fun _ => 0); lia|].
  assert (Dn : a n n <> 0) by (apply D; lia).
  destruct (IH (fun c Hc => D c ltac:(lia)) (fun r => b r - a r n * (b n / a n n))) as (x & Hx).
  exists (updv x n (b n / a n n)). intros r Hr. destruct (Nat.eq_dec r n) as [->|N].
  - replace (S n - S n)%nat with 0%nat by lia. simpl. rewrite updv_same. unfold Qcdiv.
    rewrite (Qcmult_comm (b n)), Qcmult_assoc, Qcmult_inv_r by exact Dn. ring.
  - rewrite updv_other by exact N. replace (S n - S r)%nat with (S (n - S r)) by lia. rewrite sumr_last.
    replace (S r + (n - S r))%nat with n by lia. rewrite updv_same.
    rewrite (sumr_ext (S r) (n - S r) _ (fun c => a r c * x c)).
    + pose proof (Hx r ltac:(lia)) as E. rewrite Qcplus_assoc. rewrite E. ring.
    + intros k Hk. rewrite updv_other by lia. reflexivity.
Qed.

(** ** permutations of the equations *)
Lemma solves_pm n indx A b x j : (j <= n)%nat -> (forall k, (k < j)%nat -> (k <= indx k < n)%nat) ->
  (solves n (pm indx j A) (pv indx j b) x <-> solves n A b x).
Proof.
  intros Hj. induction j as [|j IH]; intros H; [reflexivity|].
  rewrite <- IH by (try lia; intros; apply H; lia).
  assert (Hi := H j ltac:(lia)). split; intros Hs i Hin.
  - pose proof (Hs (swap j (indx j) i) ltac:(apply swap_lt; lia)) as E. simpl in E. rewrite swap_invol in E. exact E.
  - simpl. apply Hs. apply swap_lt; lia.
Qed.
Lemma pv_onto indx j b : exists b', forall r, pv indx j b' r = b r.
Proof.
  revert b. induction j as [|j IH]; intros b; [exists b; reflexivity|].
  destruct (IH (fun r => b (swap j (indx j) r))) as (b' & H). exists b'. intros r. simpl. rewrite H.
  now rewrite swap_invol.
Qed.
Lemma pv_zero indx j r : pv indx j (fun _ => 0) r = 0.
Proof. revert r. induction j as [|j IH]; intros r; simpl; auto. Qed.
Lemma pv_nonneg indx n b : (forall r, (r < n)%nat -> 0 <= b r) -> forall j, (j <= n)%nat -> (forall k, (k < j)%nat -> (k <= indx k < n)%nat) ->
  forall r, (r < n)%nat -> 0 <= pv indx j b r.
Proof.
  intros Hb. induction j as [|j IH]; intros Hj H r Hr; simpl; [now apply Hb|].
  apply IH; [lia|intros; apply H; lia|]. specialize (H j ltac:(lia)). apply swap_lt; lia.
Qed.

Lemma solves_sub n A b b' x y : solves n A b x -> solves n A b' y -> solves n A (fun i => b i - b' i) (fun i => x i - y i).
Proof.
  intros H H' i Hi. rewrite <- (H i Hi), <- (H' i Hi). unfold sum.
  rewrite (sumr_ext 0 n _ (fun c => A i c * x c + (- (1)) * (A i c * y c))) by (intros; ring).
  rewrite sumr_add, sumr_scale. ring.
Qed.
Lemma nonsingular_alt n A : (forall b, exists x, solves n A b x) ->
  (forall x, solves n A (fun _ => 0) x -> forall i, (i < n)%nat -> x i = 0) -> nonsingular n A.
Proof.
  intros H1 H2 b. split; [apply H1|]. intros x y Hx Hy i Hi.
  pose proof (solves_sub n A b b x y Hx Hy) as D.
  assert (E : x i - y i = 0).
  { apply (H2 (fun i => x i - y i)); [|exact Hi]. intros k Hk. rewrite (D k Hk). ring. }
  replace (x i) with (x i - y i + y i) by ring. rewrite E. ring.
Qed.

Lemma lu_solves n A s b x : lu_inv n A n s -> 
  (solves n (pm (lu_indx s) n A) b x <->
   (forall r, (r < n)%nat -> sumr 0 n (fun k => Lf (lu_a s) r k * sumr 0 n (fun c => Uf (lu_a s) k c * x c)) = b r)).
Proof.
  intros (_ & I2 & _). unfold solves, sum. split; intros H r Hr; specialize (H r Hr); rewrite <- H; clear H.
  - rewrite <- mul_assoc. apply sumr_ext. intros c Hc. rewrite I2 by lia. rewrite (cell_LU n) by lia. reflexivity.
  - rewrite <- mul_assoc. apply sumr_ext. intros c Hc. rewrite I2 by lia. rewrite (cell_LU n) by lia. reflexivity.
Qed.

Lemma lu_nonsingular n A s : lu_inv n A n s -> nonsingular n A.
Proof.
  intros I. pose proof I as (I1 & I2 & I3 & I4 & I5 & I6). apply nonsingular_alt.
  - intros b.
    destruct (L_solve (lu_a s) (pv (lu_indx s) n b) n) as (y & Hy).
    destruct (U_solve (lu_a s) n I3 y) as (x & Hx). exists x.
    apply (solves_pm n (lu_indx s) A b x n (le_n n) I5). apply lu_solves; [exact I|].
    intros r Hr. rewrite L_row by exact Hr. rewrite <- Hy by exact Hr.
    rewrite (U_row n (lu_a s) x r) by exact Hr. rewrite Hx by exact Hr. f_equal. apply sumr_ext. intros k Hk.
    rewrite U_row by lia. rewrite Hx by lia. reflexivity.
  - intros x Hx. apply (solves_pm n (lu_indx s) A _ x n (le_n n) I5) in Hx. rewrite lu_solves in Hx by exact I.
    apply (U_unique n (lu_a s)); [exact I3|]. apply (L_unique n (lu_a s)). intros r Hr.
    rewrite Hx by exact Hr. apply pv_zero.
Qed.

(** failure *)
Lemma column_none n A j s : (j < n)%nat -> lu_inv n A j s -> column n j s = None ->
  exists x, solves n A (fun _ => 0) x /\ x j = 1.
Proof.
  intros Hj I. pose proof (before_interchange n A j s Hj I) as B. destruct I as (I1 & I2 & I3 & I4 & I5 & I6).
  unfold column. destruct (pivot_search n j (lu_vv s) (upper j (lu_a s)) (lu_imax s)) as [a2 [big imax]].
  destruct B as (B1 & B2 & B3 & B4).
  destruct (if Nat.eqb j imax then (a2, lu_vv s) else (interchange n imax j a2, updv (lu_vv s) imax (lu_vv s j)))
    as [a3 vv3] eqn:E3.
  assert (A3 : a3 j j = a2 imax j).
  { destruct (Nat.eqb_spec j imax) as [<-|N]; injection E3 as <- _; [reflexivity|].
    rewrite interchange_spec. destruct (Nat.ltb_spec j n); [|lia]. unfold swap. now rewrite Nat.eqb_refl. }
  destruct (Qceqb_spec (a3 j j) 0) as [Z|]; [|discriminate]. intros _. rewrite A3 in Z. specialize (B4 Z).
  clear E3 A3 Z a3 vv3.
  assert (D2 : forall c, (c < j)%nat -> a2 c c <> 0) by (intros c Hc; rewrite B1 by lia; now apply I3).
  destruct (U_solve a2 j D2 (fun r => - a2 r j)) as (x0 & Hx0).
  set (x := fun c => if Nat.ltb c j then x0 c else if Nat.eqb c j then 1 else 0).
  assert (Xlt : forall c, (c < j)%nat -> x c = x0 c).
  { intros c Hc. unfold x. destruct (Nat.ltb_spec c j); [reflexivity|lia]. }
  assert (Xj : x j = 1) by (unfold x; now rewrite Nat.ltb_irrefl, Nat.eqb_refl).
  assert (Xgt : forall c, (j < c)%nat -> x c = 0).
  { intros c Hc. unfold x. destruct (Nat.ltb_spec c j); [lia|]. destruct (Nat.eqb_spec c j); [lia|reflexivity]. }
  exists x. split; [|exact Xj].
  assert (Hjn : (j <= n)%nat) by lia.
  apply (solves_pm n (lu_indx s) A (fun _ => 0) x j Hjn I5).
  intros r Hr. rewrite pv_zero. unfold sum.
  (* every entry of the first j+1 columns is a product of the factors *)
  assert (F : forall c, (c <= j)%nat -> pm (lu_indx s) j A r c = sumr 0 j (fun k => Lf a2 r k * Uf a2 k c)).
  { intros c Hc. destruct (Nat.eq_dec c j) as [->|N].
    - rewrite B2 by exact Hr. destruct (Nat.lt_ge_cases r j) as [L|L].
      + rewrite Nat.min_l by lia. symmetry.
        transitivity (sumr 0 (r + S (j - S r)) (fun k => Lf a2 r k * Uf a2 k j)); [f_equal; lia|]. rewrite sumr_app.
        change (0 + r)%nat with r. cbn [sumr]. rewrite (sumr_zero (S r)).
        * rewrite Qcplus_0_r. f_equal.
          -- apply sumr_ext. intros k Hk. unfold Lf, Uf. destruct (Nat.ltb_spec k r), (Nat.leb_spec k j); try lia. reflexivity.
          -- unfold Lf, Uf. rewrite Nat.ltb_irrefl, Nat.eqb_refl. destruct (Nat.leb_spec r j); [ring|lia].
        * intros k Hk. unfold Lf. destruct (Nat.ltb_spec k r); [lia|]. destruct (Nat.eqb_spec k r); [lia|ring].
      + rewrite Nat.min_r by lia. rewrite (B4 r) by lia. rewrite Qcplus_0_r. apply sumr_ext. intros k Hk.
        unfold Lf, Uf. destruct (Nat.ltb_spec k r), (Nat.leb_spec k j); try lia. reflexivity.
    - rewrite I2 by lia. rewrite (cell_LU n) by lia.
      replace n with (j + (n - j))%nat by lia. rewrite sumr_app. rewrite (sumr_zero (0 + j)).
      + rewrite Qcplus_0_r. apply sumr_ext. intros k Hk. unfold Lf, Uf. rewrite (B1 r k) by lia. rewrite (B1 k c) by exact N.
        reflexivity.
      + intros k Hk. unfold Uf. destruct (Nat.leb_spec k c); [lia|ring]. }
  replace n with (S j + (n - S j))%nat by lia. rewrite sumr_app.
  rewrite (sumr_zero (0 + S j)) by (intros k Hk; rewrite Xgt by lia; ring). rewrite Qcplus_0_r.
  rewrite (sumr_ext 0 (S j) _ (fun c => sumr 0 j (fun k => Lf a2 r k * (Uf a2 k c * x c)))).
  2:{ intros c Hc. rewrite F by lia. rewrite Qcmult_comm, <- sumr_scale. apply sumr_ext. intros; ring. }
  rewrite sumr_fubini. apply sumr_zero. intros k Hk. rewrite sumr_scale.
  rewrite (U_row (S j) a2 x k) by lia.
  replace (S j - S k)%nat with (S (j - S k)) by lia. rewrite sumr_last. replace (S k + (j - S k))%nat with j by lia.
  rewrite Xj, (Xlt k) by lia. rewrite (sumr_ext (S k) (j - S k) _ (fun c => a2 k c * x0 c)) by (intros; rewrite Xlt by lia; reflexivity).
  pose proof (Hx0 k ltac:(lia)) as E. rewrite Qcplus_assoc. rewrite E. ring.
Qed.

Lemma zero_row_singular n A i : (i < n)%nat -> (forall j, (j < n)%nat -> A i j = 0) -> ~ nonsingular n A.
Proof.
  intros Hi Z H. destruct (H (fun _ => 1)) as ((x & Hx) & _). specialize (Hx i Hi). unfold sum in Hx.
  rewrite sumr_zero in Hx; [discriminate|]. intros c Hc. rewrite Z by lia. ring.
Qed.

Lemma init_inv n A vv : scaling n A = Some vv -> lu_inv n A 0 (mkLu A vv (fun _ => 0%nat) 0).
Proof.
  intros E. pose proof (scaling_some n A vv E). repeat split; cbn; auto; intros; lia.
Qed.
Lemma ludcmp_some n A s : ludcmp n A = Some s -> lu_inv n A n s.
Proof.
  unfold ludcmp. destruct (scaling n A) as [vv|] eqn:E; [|discriminate]. intros H.
  apply (oloop_inv (lu_inv n A) n 0 (column n) (mkLu A vv (fun _ => 0%nat) 0) s); auto.
  - intros i u u' Hi. apply column_some. lia.
  - now apply init_inv.
Qed.
Lemma ludcmp_none n A : ludcmp n A = None -> ~ nonsingular n A.
Proof.
  unfold ludcmp. destruct (scaling n A) as [vv|] eqn:E.
  - intros H. apply (oloop_none (lu_inv n A)) in H.
    + destruct H as (j & s & Hj & I & Hn). destruct (column_none n A j s) as (x & Hx & X1); [lia|exact I|exact Hn|].
      intros NS. destruct (NS (fun _ => 0)) as (_ & U). specialize (U x (fun _ => 0) Hx).
      assert (Zs : solves n A (fun _ => 0) (fun _ => 0)).
      { intros i Hi. unfold sum. apply sumr_zero. intros; ring. }
      specialize (U Zs j ltac:(lia)). rewrite X1 in U. discriminate.
    + intros i u u' Hi. apply column_some. lia.
    + now apply init_inv.
  - intros _. destruct (scaling_none n A E) as (i & Hi & Z). now apply (zero_row_singular n A i).
Qed.
Lemma lusolv_fails n A : lusolv n A = None <-> ~ nonsingular n A.
Proof.
  unfold lusolv. destruct (ludcmp n A) as [s|] eqn:E; split; try discriminate.
  - intros H. exfalso. apply H. apply (lu_nonsingular n A s). now apply ludcmp_some.
  - intros _. now apply ludcmp_none.
  - reflexivity.
Qed.

(** ** forward and back substitution *)
Definition fwd_inv (n : nat) (indx : nat -> nat) (a0 : matrix) (i : nat) (s : matrix * option nat) : Prop :=
  let '(a, ii) := s in
  (forall r c, c <> n -> a r c = a0 r c) /\
  (forall r, (r < i)%nat -> a r n = pv indx i (fun k => a0 k n) r - sumr 0 r (fun k => a0 r k * a k n)) /\
  (forall r, (i <= r < n)%nat -> a r n = pv indx i (fun k => a0 k n) r) /\
  match ii with
  | None => forall r, (r < i)%nat -> a r n = 0
  | Some m => (m < i)%nat /\ forall r, (r < m)%nat -> a r n = 0
  end.
Lemma forward_spec n indx a0 :
  (forall k, (k < n)%nat -> (k <= indx k < n)%nat) -> (forall r, (r < n)%nat -> 0 <= a0 r n) ->
  fwd_inv n indx a0 n (forward n indx a0).
Proof.
  intros Hx Hb. unfold forward. apply (loop_inv (fwd_inv n indx a0) n 0).
  2:{ split; [reflexivity|]. split; [lia|]. split; [reflexivity|lia]. }
  intros i [a ii] Hi (H1 & H2 & H3 & H4). specialize (Hx i) as Hxi. destruct Hxi as (X1 & X2); [lia|].
  set (b := fun k => a0 k n) in *. set (ip := indx i) in *. cbv zeta.
  set (a1 := upd a ip n (a i n)).
  assert (S0 : a ip n = pv indx (S i) b i).
  { rewrite H3 by lia. simpl. fold ip. unfold swap. now rewrite Nat.eqb_refl. }
  assert (Q1 : forall r, (r < i)%nat -> a1 r n = a r n) by (intros r Hr; apply upd_other; lia).
  assert (Q2 : forall r, (i < r < n)%nat -> a1 r n = pv indx (S i) b r).
  { intros r Hr. simpl. fold ip. unfold a1. destruct (Nat.eq_dec r ip) as [->|N].
    - rewrite upd_same. unfold swap. destruct (Nat.eqb_spec ip i); [lia|]. rewrite Nat.eqb_refl. apply H3. lia.
    - rewrite upd_other by lia. destruct (swap_cases i ip r) as [(?&?)|[(?&?&?)|(?&?&->)]]; try lia. apply H3. lia. }
  assert (Q3 : forall r c, c <> n -> a1 r c = a0 r c) by (intros r c Hc; unfold a1; rewrite upd_other by auto; now apply H1).
  assert (P : forall r, (r < i)%nat -> pv indx (S i) b r = pv indx i b r).
  { intros r Hr. simpl. fold ip. destruct (swap_cases i ip r) as [(?&?)|[(?&?&?)|(?&?&->)]]; try lia. reflexivity. }
  assert (K : forall v ii', v = pv indx (S i) b i - sumr 0 i (fun k => a0 i k * a k n) ->
     match ii' with None => forall r, (r < S i)%nat -> upd a1 i n v r n = 0
                  | Some m => (m < S i)%nat /\ forall r, (r < m)%nat -> upd a1 i n v r n = 0 end ->
     fwd_inv n indx a0 (S i) (upd a1 i n v, ii')).
  { intros v ii' Ev Hii. split; [|split; [|split; [|exact Hii]]].
    - intros r c Hc. rewrite upd_other by auto. now apply Q3.
    - intros r Hr. destruct (Nat.eq_dec r i) as [->|N].
      + rewrite upd_same. rewrite Ev. fold b. apply Qcminus_ext; [reflexivity|]. apply sumr_ext.
        intros k Hk. rewrite upd_other by lia. rewrite Q1 by lia. reflexivity.
      + rewrite upd_other by auto. rewrite Q1 by lia. rewrite H2 by lia. fold b. rewrite P by lia.
        apply Qcminus_ext; [reflexivity|]. apply sumr_ext. intros k Hk. rewrite upd_other by lia. rewrite Q1 by lia. reflexivity.
    - intros r Hr. rewrite upd_other by lia. fold b. apply Q2. lia. }
  destruct ii as [m|].
  - apply K.
    + rewrite (loop_sub m (i - m) (fun j => a1 i j * a1 j n)). rewrite S0. apply Qcminus_ext; [reflexivity|].
      symmetry. transitivity (sumr 0 (m + (i - m)) (fun k => a0 i k * a k n)); [f_equal; lia|].
      rewrite sumr_app. rewrite sumr_zero.
      * rewrite Qcplus_0_l. symmetry. apply sumr_ext. intros k Hk. rewrite Q3 by lia. rewrite Q1 by lia. reflexivity.
      * intros k Hk. rewrite (proj2 H4) by lia. ring.
    + split; [lia|]. intros r Hr. rewrite upd_other by lia. rewrite Q1 by lia. apply H4. exact Hr.
  - assert (Z : sumr 0 i (fun k => a0 i k * a k n) = 0).
    { apply sumr_zero. intros k Hk. rewrite H4 by lia. ring. }
    apply K.
    + rewrite S0, Z. ring.
    + assert (NN : 0 <= a ip n).
      { rewrite S0. apply (pv_nonneg indx n b Hb); [lia|intros k Hk; apply Hx; lia|lia]. }
      destruct (Qcltb_spec 0 (a ip n)) as [G|G].
      * split; [lia|]. intros r Hr. rewrite upd_other by lia. rewrite Q1 by lia. apply H4. exact Hr.
      * intros r Hr. destruct (Nat.eq_dec r i) as [->|N].
        -- rewrite upd_same. apply Qcle_anti; [now apply Qcnot_lt_le|exact NN].
        -- rewrite upd_other by auto. rewrite Q1 by lia. apply H4. lia.
Qed.

Lemma backward_spec n a0 : (forall c, (c < n)%nat -> a0 c c <> 0) ->
  forall r, (r < n)%nat -> sumr 0 n (fun c => Uf a0 r c * backward n a0 c n) = a0 r n.
Proof.
  intros D. unfold backward.
  match goal with |- context [loop 0 n ?f a0] =>
  assert (L : (fun k a => (forall r c, c <> n \/ (r < n - k)%nat -> a r c = a0 r c) /\
            (forall r, (n - k <= r < n)%nat -> a0 r r * a r n + sumr (S r) (n - S r) (fun c => a0 r c * a c n) = a0 r n))
            (0 + n)%nat (loop 0 n f a0)) end.
  { apply loop_inv.
    - intros k a Hk (H1 & H2). cbv zeta. set (i := (n - 1 - k)%nat).
      rewrite (loop_sub (S i) (n - S i) (fun j => a i j * a j n)). split.
      + intros r c H. rewrite upd_other by lia. apply H1. lia.
      + intros r Hr. destruct (Nat.eq_dec r i) as [->|N].
        * rewrite upd_same. set (v := (a i n - _) / a i i).
          rewrite (sumr_ext (S i) (n - S i) (fun c => a0 i c * upd a i n v c n) (fun j => a i j * a j n)).
          -- unfold v. rewrite (H1 i n) by lia. rewrite (H1 i i) by (left; lia). unfold Qcdiv.
             rewrite (Qcmult_comm _ (/ a0 i i)), Qcmult_assoc, Qcmult_inv_r by (apply D; lia). ring.
          -- intros j Hj. rewrite upd_other by lia. rewrite (H1 i j) by lia. reflexivity.
        * rewrite upd_other by auto. rewrite <- (H2 r) by lia. f_equal. apply sumr_ext. intros j Hj.
          rewrite upd_other by lia. reflexivity.
    - split; [reflexivity|lia]. }
  destruct L as (_ & L). intros r Hr. rewrite U_row by exact Hr. apply L. lia.
Qed.

Lemma lusolv_solves n A x : (forall r, (r < n)%nat -> 0 <= A r n) -> lusolv n A = Some x ->
  solves n A (fun r => A r n) x.
Proof.
  intros Hb. unfold lusolv. destruct (ludcmp n A) as [s|] eqn:E; [|discriminate]. intros [= <-].
  apply ludcmp_some in E. pose proof E as (I1 & I2 & I3 & I4 & I5 & I6).
  assert (Hb' : forall r, (r < n)%nat -> 0 <= lu_a s r n) by (intros r Hr; rewrite I4; now apply Hb).
  pose proof (forward_spec n (lu_indx s) (lu_a s) I5 Hb') as F. unfold lubksb.
  destruct (forward n (lu_indx s) (lu_a s)) as [a1 ii]. destruct F as (F1 & F2 & _ & _). cbn [fst].
  assert (D1 : forall c, (c < n)%nat -> a1 c c <> 0) by (intros c Hc; rewrite F1 by lia; now apply I3).
  pose proof (backward_spec n a1 D1) as B.
  apply (solves_pm n (lu_indx s) A _ _ n (le_n n) I5). apply lu_solves; [exact E|].
  assert (B' : forall k, (k < n)%nat -> sumr 0 n (fun c => Uf (lu_a s) k c * backward n a1 c n) = a1 k n).
  { intros k Hk. rewrite <- B by exact Hk. apply sumr_ext. intros c Hc. unfold Uf. rewrite F1 by lia. reflexivity. }
  intros r Hr. rewrite L_row by exact Hr. rewrite B' by exact Hr. rewrite F2 by exact Hr.
  rewrite (sumr_ext 0 r _ (fun k => lu_a s r k * a1 k n)) by (intros k Hk; rewrite B' by lia; reflexivity).
  assert (G : forall j r, pv (lu_indx s) j (fun k => lu_a s k n) r = pv (lu_indx s) j (fun r => A r n) r).
  { induction j as [|j IH]; intros r'; simpl; [apply I4|apply IH]. }
  rewrite G. ring.
Qed.
