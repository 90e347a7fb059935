(** Proofs about the model domain. *)
From Coq Require Import List ZArith Bool Arith Lia QArith Qcanon.
From Verif Require Import Num WinsModel LoadModel LoadProofs TopoModel TopoSpec.
Import ListNotations.

(** ** Images *)
Lemma readImages_ok nan_int f ims : readImages nan_int f IMAGES None (fun _ => None) = Ok ims ->
  f_image f Dem <> None /\
  forall n, match f_image f n with
            | Some im => ims n = Some (read nan_int n im)
            | None => exists p, before n = Some p /\ ims n = ims p
            end.
Proof.
  intros H. unfold IMAGES in H. cbn [readImages] in H.
  destruct (f_image f Dem) as [d|] eqn:E0; [|discriminate H]. split; [discriminate|].
  destruct (f_image f Mask) eqn:E1, (f_image f VegType) eqn:E2, (f_image f VegHeight) eqn:E3, (f_image f VegK) eqn:E4, (f_image f VegTau) eqn:E5;
    injection H as <-; intros []; rewrite ?E0, ?E1, ?E2, ?E3, ?E4, ?E5; cbn [before name_eqb]; try reflexivity; eexists; split; reflexivity.
Qed.
Lemma readImages_dem nan_int f : f_image f Dem <> None -> exists ims, readImages nan_int f IMAGES None (fun _ => None) = Ok ims.
Proof.
  intros H. unfold IMAGES. cbn [readImages]. destruct (f_image f Dem); [|contradiction].
  destruct (f_image f Mask), (f_image f VegType), (f_image f VegHeight), (f_image f VegK), (f_image f VegTau); eexists; reflexivity.
Qed.
Lemma readImages_err nan_int f : f_image f Dem = None -> readImages nan_int f IMAGES None (fun _ => None) = Err UnboundLocalError.
Proof. intros H. unfold IMAGES. cbn [readImages]. rewrite H. reflexivity. Qed.

Lemma inject_le (n : Z) (x : Qc) : (Q2Qc (inject_Z n) <= x)%Qc <-> (inject_Z n <= this x)%Q.
Proof. unfold Qcle. rewrite this_Q2Qc. reflexivity. Qed.
Lemma trunc_cut x : cut_to x (trunc (this x)).
Proof.
  unfold cut_to, trunc, Qcle, Qclt. rewrite !(this_Q2Qc (inject_Z _)).
  destruct (this x) as [a b]. cbn [Qnum Qden]. change (this 0%Qc) with 0%Q.
  unfold Qle, Qlt, inject_Z. cbn [Qnum Qden].
  pose proof (Z.quot_rem' a (Z.pos b)) as E.
  destruct (Z_lt_ge_dec a 0) as [N|P].
  - right.
    assert (- Z.pos b < Z.rem a (Z.pos b) <= 0)%Z.
    { pose proof (Z.rem_nonpos a (Z.pos b)). pose proof (Z.rem_bound_abs a (Z.pos b)). lia. }
    nia.
  - left. assert (0 <= Z.rem a (Z.pos b) < Z.pos b)%Z by (apply Z.rem_bound_pos; lia). nia.
Qed.
Lemma cut_unique x n n' : cut_to x n -> cut_to x n' -> n = n'.
Proof.
  unfold cut_to, Qcle, Qclt. rewrite !(this_Q2Qc (inject_Z _)). destruct (this x) as [a b]. change (this 0%Qc) with 0%Q.
  unfold Qle, Qlt, inject_Z. cbn [Qnum Qden]. intros H H'. nia.
Qed.

(** ** Spacing *)
Lemma size_nz k : k <> 0%nat -> Q2Qc (inject_Z (Z.of_nat k)) <> 0%Qc.
Proof.
  intros H E. apply (f_equal this) in E.
  assert (Q : (inject_Z (Z.of_nat k) == 0)%Q) by (rewrite <- (this_Q2Qc (inject_Z (Z.of_nat k))), E; reflexivity).
  unfold Qeq, inject_Z in Q. cbn [Qnum Qden] in Q. lia.
Qed.
Lemma mean_eq l v : mean l = Some v <-> l <> [] /\ (v * Q2Qc (inject_Z (Z.of_nat (length l))) = sum l)%Qc.
Proof.
  destruct l as [|a l]; [split; [discriminate|intros [[] _]; reflexivity]|].
  set (n := Q2Qc (inject_Z (Z.of_nat (length (a :: l))))).
  assert (N : n <> 0%Qc) by (apply size_nz; discriminate).
  change (mean (a :: l)) with (Some (sum (a :: l) / n)%Qc). split.
  - intros [= <-]. split; [discriminate|]. fold n. clearbody n. cbn [sum]. field. exact N.
  - intros [_ E]. f_equal. fold n in E. rewrite <- E. clearbody n. field. exact N.
Qed.
Lemma mean_none l : mean l = None <-> l = [].
Proof. destruct l; split; auto; discriminate. Qed.
Lemma diff_length l : length (diff l) = (length l - 1)%nat.
Proof.
  destruct l as [|x l]; [reflexivity|]. revert x; induction l as [|y l IH]; intros x; [reflexivity|].
  change (diff (x :: y :: l)) with ((y - x)%Qc :: diff (y :: l)). cbn [length]. rewrite IH. cbn [length]. lia.
Qed.
Lemma diff_sum l : forall x, sum (diff (x :: l)) = (last (x :: l) 0%Qc - x)%Qc.
Proof.
  induction l as [|y l IH]; intros x; [cbn; ring|].
  change (diff (x :: y :: l)) with ((y - x)%Qc :: diff (y :: l)). cbn [sum]. rewrite IH.
  change (last (x :: y :: l) 0%Qc) with (last (y :: l) 0%Qc). ring.
Qed.
Lemma spacing l : match mean (diff l) with
  | None => (length l <= 1)%nat
  | Some d => (2 <= length l)%nat /\ (d * Q2Qc (inject_Z (Z.of_nat (length l - 1))) = last l 0 - hd 0 l)%Qc
  end.
Proof.
  destruct (mean (diff l)) as [d|] eqn:E.
  - apply mean_eq in E. destruct E as [N E]. rewrite diff_length in E.
    assert (diff l <> [] -> (2 <= length l)%nat) by (destruct l as [|? [|? ?]]; cbn [diff length]; [intros []; reflexivity|intros []; reflexivity|lia]).
    split; [auto|]. destruct l as [|x l]; [destruct (N eq_refl)|]. rewrite diff_sum in E. exact E.
  - apply mean_none in E. destruct l as [|? [|? ?]]; cbn in *; [lia|lia|discriminate].
Qed.
Lemma spacing_unique l d : (2 <= length l)%nat -> (d * Q2Qc (inject_Z (Z.of_nat (length l - 1))) = last l 0 - hd 0 l)%Qc ->
  mean (diff l) = Some d.
Proof.
  intros L E. apply mean_eq. rewrite diff_length. destruct l as [|x [|y l]]; cbn [length] in L; try lia. split; [discriminate|].
  rewrite diff_sum. exact E.
Qed.
Lemma last_nth (l : list Qc) : last l 0%Qc = nth (length l - 1) l 0%Qc.
Proof.
  induction l as [|x [|y l] IH]; [reflexivity|reflexivity|].
  change (last (x :: y :: l) 0%Qc) with (last (y :: l) 0%Qc). rewrite IH. cbn [length]. 
  replace (S (S (length l)) - 1)%nat with (S (S (length l) - 1)) by lia. reflexivity.
Qed.
Lemma uniform l a d : (2 <= length l)%nat ->
  (forall k v, nth_error l k = Some v -> v = (a + Q2Qc (inject_Z (Z.of_nat k)) * d)%Qc) -> mean (diff l) = Some d.
Proof.
  intros L U. apply spacing_unique; [exact L|]. rewrite last_nth.
  rewrite (U (length l - 1)%nat (nth (length l - 1) l 0%Qc)) by (apply nth_error_nth'; lia).
  destruct l as [|x l]; [cbn in L; lia|]. rewrite (U 0%nat x eq_refl). cbn [hd].
  replace (Q2Qc (inject_Z (Z.of_nat 0))) with 0%Qc by reflexivity. ring.
Qed.

(** ** Sums over cells *)
Lemma over_ext f g n : (forall k, (k < n)%nat -> f k = g k) -> over f n = over g n.
Proof. induction n as [|n IH]; intros H; [reflexivity|]. cbn [over]. rewrite IH, H; auto. Qed.
Lemma over_plus f g n : over (fun k => (f k + g k)%Qc) n = (over f n + over g n)%Qc.
Proof. induction n as [|n IH]; cbn [over]; [ring|]. rewrite IH. ring. Qed.
Lemma over_scale f c n : over (fun k => (f k * c)%Qc) n = (over f n * c)%Qc.
Proof. induction n as [|n IH]; cbn [over]; [ring|]. rewrite IH. ring. Qed.
Lemma over_nonneg f n : (forall k, (k < n)%nat -> 0 <= f k)%Qc -> (0 <= over f n)%Qc.
Proof.
  induction n as [|n IH]; intros H; cbn [over]; [apply Qcle_refl|].
  assert (A : (0 <= over f n)%Qc) by (apply IH; auto). assert (B := H n (Nat.lt_succ_diag_r n)). qcl.
Qed.
Lemma over_pos f n k : (forall k, (k < n)%nat -> 0 <= f k)%Qc -> (k < n)%nat -> (0 < f k)%Qc -> (0 < over f n)%Qc.
Proof.
  induction n as [|n IH]; intros H L P; [lia|]. cbn [over].
  assert (A : (0 <= over f n)%Qc) by (apply over_nonneg; auto). assert (B := H n (Nat.lt_succ_diag_r n)).
  destruct (Nat.eq_dec k n) as [->|N]; [qcl|].
  assert (C : (0 < over f n)%Qc) by (apply IH; auto; lia). qcl.
Qed.
Lemma cells_ext f g ny nx : (forall i j, (i < ny)%nat -> (j < nx)%nat -> f i j = g i j) -> over_cells f ny nx = over_cells g ny nx.
Proof. intros H. apply over_ext. intros i Hi. apply over_ext. auto. Qed.
Lemma cells_plus f g ny nx : over_cells (fun i j => (f i j + g i j)%Qc) ny nx = (over_cells f ny nx + over_cells g ny nx)%Qc.
Proof. unfold over_cells. rewrite <- over_plus. apply over_ext. intros. apply over_plus. Qed.
Lemma cells_scale f c ny nx : over_cells (fun i j => (f i j * c)%Qc) ny nx = (over_cells f ny nx * c)%Qc.
Proof. unfold over_cells. rewrite <- over_scale. apply over_ext. intros. apply over_scale. Qed.
Lemma cells_nonneg f ny nx : (forall i j, (i < ny)%nat -> (j < nx)%nat -> 0 <= f i j)%Qc -> (0 <= over_cells f ny nx)%Qc.
Proof. intros H. apply over_nonneg. intros. apply over_nonneg. auto. Qed.
Lemma cells_pos f ny nx i j : (forall i j, (i < ny)%nat -> (j < nx)%nat -> 0 <= f i j)%Qc ->
  (i < ny)%nat -> (j < nx)%nat -> (0 < f i j)%Qc -> (0 < over_cells f ny nx)%Qc.
Proof.
  intros H Hi Hj P. apply over_pos with (k := i); auto.
  - intros. apply over_nonneg. auto.
  - apply over_pos with (k := j); auto.
Qed.

(** ** The sums of get_center *)
Lemma sum_app l m : sum (l ++ m) = (sum l + sum m)%Qc.
Proof. induction l as [|x l IH]; cbn [app sum]; [ring|]. rewrite IH. ring. Qed.
Definition wt (m : image) (i j : nat) : Qc := if is_one (m i j) then 1%Qc else 0%Qc.
Lemma wt_inside m i j : wt m i j = inside m i j.
Proof. unfold wt, inside, is_one. destruct (m i j) as [x|]; [|reflexivity]. unfold Qceqb. destruct (Qc_eq_dec x 1); reflexivity. Qed.
Lemma row_sum (m : image) (g : nat -> nat -> Qc) i : forall nx,
  sum (map (fun c => g (fst c) (snd c)) (filter (fun c => is_one (m (fst c) (snd c))) (map (fun j => (i, j)) (seq 0 nx)))) =
  over (fun j => (inside m i j * g i j)%Qc) nx.
Proof.
  induction nx as [|n IH]; [reflexivity|]. rewrite seq_S, map_app, filter_app, map_app, sum_app, IH. cbn [Nat.add map filter fst snd over].
  f_equal. rewrite <- wt_inside. unfold wt. destruct (is_one (m i n)); cbn [map sum fst snd]; ring.
Qed.
Lemma list_prod_app {A B} (l l' : list A) (r : list B) : list_prod (l ++ l') r = list_prod l r ++ list_prod l' r.
Proof. induction l as [|x l IH]; [reflexivity|]. cbn [app list_prod]. rewrite IH, app_assoc. reflexivity. Qed.
Lemma cells_sum (m : image) (g : nat -> nat -> Qc) nx : forall ny,
  sum (map (fun c => g (fst c) (snd c)) (argwhere ny nx m)) = over_cells (fun i j => (inside m i j * g i j)%Qc) ny nx.
Proof.
  unfold argwhere, over_cells. induction ny as [|n IH]; [reflexivity|].
  rewrite seq_S, list_prod_app, filter_app, map_app, sum_app, IH. cbn [Nat.add list_prod over]. rewrite app_nil_r, row_sum. reflexivity.
Qed.
Lemma sum_ones {A} (l : list A) : sum (map (fun _ => 1%Qc) l) = Q2Qc (inject_Z (Z.of_nat (length l))).
Proof.
  induction l as [|x l IH]; [reflexivity|]. cbn [map sum length]. rewrite IH, Nat2Z.inj_succ. unfold Z.succ.
  apply Qc_is_canon. rewrite this_plus, !this_Q2Qc. change (this 1%Qc) with 1%Q. rewrite inject_Z_plus.
  change (inject_Z 1) with 1%Q. apply Qplus_comm.
Qed.
Lemma in_argwhere ny nx m i j : In (i, j) (argwhere ny nx m) <-> (i < ny)%nat /\ (j < nx)%nat /\ m i j = Some 1%Qc.
Proof.
  unfold argwhere. rewrite filter_In, in_prod_iff, !in_seq. cbn [fst snd]. unfold is_one.
  destruct (m i j) as [x|]; [|split; [intros [_ H]; discriminate H|intros (_ & _ & H); discriminate H]].
  destruct (Qceqb_spec x 1) as [->|N]; split; intros H; try tauto.
  - repeat split; lia.
  - repeat split; lia.
  - destruct H as (_ & _ & H). injection H as ->. destruct (N eq_refl).
Qed.
Lemma center_balance m (g : nat -> nat -> Qc) ny nx : balance m g ny nx (mean (map (fun c => g (fst c) (snd c)) (argwhere ny nx m))).
Proof.
  unfold balance. destruct (mean _) as [v|] eqn:E.
  - apply mean_eq in E. destruct E as [N E]. rewrite map_length in E. split.
    + destruct (argwhere ny nx m) as [|[i j] r] eqn:A; [destruct (N eq_refl)|]. exists i, j.
      apply in_argwhere. rewrite A. left; reflexivity.
    + rewrite <- (sum_ones (argwhere ny nx m)) in E.
      rewrite (cells_sum m g nx ny), (cells_sum m (fun _ _ => 1%Qc) nx ny) in E.
      rewrite (cells_ext _ (fun i j => (inside m i j * g i j + (inside m i j * 1) * (- v))%Qc)) by (intros; ring).
      rewrite cells_plus, cells_scale, <- E. ring.
  - apply mean_none in E. destruct (argwhere ny nx m) as [|c r] eqn:A; [|discriminate E].
    intros i j Hi Hj M. assert (I : In (i, j) (argwhere ny nx m)) by (apply in_argwhere; auto). rewrite A in I. destruct I.
Qed.
Lemma inside_one m i j : m i j = Some 1%Qc -> inside m i j = 1%Qc.
Proof. intros E. unfold inside. rewrite E. destruct (Qc_eq_dec 1 1) as [_|N]; [reflexivity|destruct (N eq_refl)]. Qed.
Lemma inside_cases m i j : (m i j = Some 1%Qc /\ inside m i j = 1%Qc) \/ inside m i j = 0%Qc.
Proof.
  unfold inside. destruct (m i j) as [x|]; [|right; reflexivity].
  destruct (Qc_eq_dec x 1) as [->|N]; [left; auto|right; reflexivity].
Qed.
Lemma inside_nonneg m i j : (0 <= inside m i j)%Qc.
Proof. destruct (inside_cases m i j) as [[_ ->]| ->]; discriminate. Qed.
Lemma balance_unique m g ny nx a b : balance m g ny nx a -> balance m g ny nx b -> a = b.
Proof.
  destruct a as [v|], b as [w|]; cbn [balance]; auto.
  - intros [(i & j & Hi & Hj & M) E] [_ E'].
    assert (S : (over_cells (inside m) ny nx * (v - w) = 0)%Qc).
    { rewrite <- cells_scale. rewrite (cells_ext _ (fun i j => (inside m i j * (g i j - w) + (inside m i j * (g i j - v)) * (-(1)))%Qc)) by (intros; ring).
      rewrite cells_plus, cells_scale, E, E'. ring. }
    assert (P : (0 < over_cells (inside m) ny nx)%Qc).
    { apply cells_pos with (i := i) (j := j); auto; [intros; apply inside_nonneg|]. rewrite inside_one; [reflexivity|exact M]. }
    apply Qcmult_integral in S. destruct S as [S|S]; [rewrite S in P; discriminate P|]. f_equal.
    replace v with (v - w + w)%Qc by ring. rewrite S. ring.
  - intros [(i & j & Hi & Hj & M) _] H. destruct (H i j Hi Hj M).
  - intros H [(i & j & Hi & Hj & M) _]. destruct (H i j Hi Hj M).
Qed.
Lemma balance_box m g ny nx v lo hi : balance m g ny nx (Some v) ->
  (forall i j, (i < ny)%nat -> (j < nx)%nat -> m i j = Some 1%Qc -> lo <= g i j /\ g i j <= hi)%Qc -> (lo <= v /\ v <= hi)%Qc.
Proof.
  intros [(i0 & j0 & Hi & Hj & M) E] B.
  assert (P : (0 < over_cells (inside m) ny nx)%Qc).
  { apply cells_pos with (i := i0) (j := j0); auto; [intros; apply inside_nonneg|]. rewrite inside_one; [reflexivity|exact M]. }
  assert (A1 : (0 <= over_cells (fun i j => inside m i j * (g i j - lo)) ny nx)%Qc).
  { apply cells_nonneg. intros i j Hi' Hj'. destruct (inside_cases m i j) as [[M' ->]| ->]; [|rewrite Qcmult_0_l; discriminate].
    destruct (B i j Hi' Hj' M'). qcl. }
  assert (A2 : (0 <= over_cells (fun i j => inside m i j * (hi - g i j)) ny nx)%Qc).
  { apply cells_nonneg. intros i j Hi' Hj'. destruct (inside_cases m i j) as [[M' ->]| ->]; [|rewrite Qcmult_0_l; discriminate].
    destruct (B i j Hi' Hj' M'). qcl. }
  rewrite (cells_ext _ (fun i j => (inside m i j * (g i j - v) + inside m i j * (v - lo))%Qc)) in A1 by (intros; ring).
  rewrite (cells_ext _ (fun i j => ((inside m i j * (g i j - v)) * (-(1)) + inside m i j * (hi - v))%Qc)) in A2 by (intros; ring).
  rewrite cells_plus, cells_scale, E in A1. rewrite cells_plus, !cells_scale, E in A2.
  set (n := over_cells (inside m) ny nx) in *. clearbody n. split.
  - destruct (Qclt_le_dec v lo) as [L|L]; [|exact L]. exfalso. qcn.
  - destruct (Qclt_le_dec hi v) as [L|L]; [|exact L]. exfalso. qcn.
Qed.
