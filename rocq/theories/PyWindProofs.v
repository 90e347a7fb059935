From Coq Require Import ZArith List Bool Reals Lia Lra.
From Verif Require Import RNum SpatModel BresModel BresSpec BresProofs HordModel HordSpec HordProofs PyWindModel PyWindSpec.
Import ListNotations.
Local Open Scope Z_scope.

Lemma up_spec k a n : 0 < n -> 2 * k * a - n < 2 * n * rounded_up k a n <= 2 * k * a + n.
Proof.
  intros H. unfold rounded_up. pose proof (Z.mul_div_le (2 * k * a + n) (2 * n) ltac:(lia)).
  pose proof (Z.mul_succ_div_gt (2 * k * a + n) (2 * n) ltac:(lia)). lia.
Qed.
Lemma up_unique k a n e : 0 < n -> 2 * k * a - n < 2 * n * e <= 2 * k * a + n -> rounded_up k a n = e.
Proof. intros H He. pose proof (up_spec k a n H). nia. Qed.
Lemma up_down k a n : 0 < n -> - rounded_up k (- a) n = rounded k a n.
Proof. intros H. symmetry. apply rounded_unique; [exact H|]. pose proof (up_spec k (- a) n H). lia. Qed.
Lemma up_flat k n : 0 < n -> rounded_up k 0 n = 0.
Proof. intros. apply up_unique; lia. Qed.
Lemma up_full k n : 0 < n -> rounded_up k n n = k.
Proof. intros. apply up_unique; nia. Qed.
Lemma up_back k n : 0 < n -> rounded_up k (- n) n = - k.
Proof. intros. apply up_unique; nia. Qed.
Lemma up_end a n : 0 < n -> rounded_up n a n = a.
Proof. intros. apply up_unique; nia. Qed.
Lemma up_0 a n : 0 < n -> rounded_up 0 a n = 0.
Proof. intros. apply up_unique; lia. Qed.
Lemma up_reverse k a n : 0 < n -> rounded_up (n - k) (- a) n = rounded_up k a n - a.
Proof. intros H. apply up_unique; [exact H|]. pose proof (up_spec k a n H). nia. Qed.
Lemma down_reverse k a n : 0 < n -> rounded (n - k) (- a) n = rounded k a n - a.
Proof. intros H. apply rounded_unique; [exact H|]. pose proof (rounded_spec k a n H). nia. Qed.

(** ** the loop *)
Definition orient (steep : bool) (x y : Z) : Z * Z := if steep then (y, x) else (x, y).
Lemma rounds_spec steep dx dy ystep x0 y0 : 0 < dx -> 0 <= dy <= dx -> forall m k,
  rounds m steep dx dy ystep (x0 + Z.of_nat k) (y0 + ystep * rounded_up (Z.of_nat k) dy dx)
    (dx - 2 * Z.of_nat k * dy + 2 * dx * rounded_up (Z.of_nat k) dy dx) =
  map (fun i => orient steep (x0 + Z.of_nat i) (y0 + ystep * rounded_up (Z.of_nat i) dy dx)) (seq k m).
Proof.
  intros Hdx Hdy. induction m as [|m IH]; intros k; [reflexivity|]. cbn [rounds seq map].
  pose proof (up_spec (Z.of_nat k) dy dx Hdx) as S. specialize (IH (Datatypes.S k)).
  f_equal. set (r := rounded_up (Z.of_nat k) dy dx) in *. set (K := Z.of_nat k) in *.
  replace (Z.of_nat (Datatypes.S k)) with (K + 1) in IH by (unfold K; lia).
  destruct (Z.leb_spec (dx - 2 * K * dy + 2 * dx * r - 2 * dy) 0) as [L|L].
  - assert (E : rounded_up (K + 1) dy dx = r + 1) by (apply up_unique; [exact Hdx|]; nia).
    rewrite E in IH. rewrite <- IH. f_equal; ring.
  - assert (E : rounded_up (K + 1) dy dx = r) by (apply up_unique; [exact Hdx|]; nia).
    rewrite E in IH. rewrite <- IH. f_equal; ring.
Qed.
Lemma rounds_start steep dx dy ystep x0 y0 m : 0 < dx -> 0 <= dy <= dx ->
  rounds m steep dx dy ystep x0 y0 dx =
  map (fun i => orient steep (x0 + Z.of_nat i) (y0 + ystep * rounded_up (Z.of_nat i) dy dx)) (seq 0 m).
Proof.
  intros H1 H2. rewrite <- (rounds_spec steep dx dy ystep x0 y0 H1 H2 m 0%nat).
  change (Z.of_nat 0) with 0. rewrite up_0 by exact H1. f_equal; ring.
Qed.
(** with the sign of the direction *)
Definition towards (a k n : Z) : Z := if 0 <? a then rounded_up k a n else rounded k a n.
Lemma signed a k n : 0 < n -> (if 0 <? a then 1 else -1) * rounded_up k (Z.abs a) n = towards a k n.
Proof.
  intros H. unfold towards. destruct (Z.ltb_spec 0 a).
  - rewrite Z.abs_eq by lia. ring.
  - rewrite Z.abs_neq by lia. rewrite <- up_down by exact H. ring.
Qed.
Lemma rev_seq_map {A} (g : nat -> A) m : rev (map g (seq 0 m)) = map (fun i => g (m - 1 - i)%nat) (seq 0 m).
Proof.
  induction m as [|m IH]; [reflexivity|]. rewrite seq_S at 1. cbn [Nat.add]. rewrite map_app, rev_app_distr. cbn [map rev app seq].
  f_equal; [f_equal; lia|]. rewrite IH, <- seq_shift, map_map. apply map_ext_in. intros i Hi. f_equal. lia.
Qed.

(** the line in oriented coordinates: [X] along the main axis *)
Lemma forward_line steep x0 y0 x1 y1 : x0 < x1 -> Z.abs (y1 - y0) <= x1 - x0 ->
  rounds (Z.to_nat (x1 + 1 - x0)) steep (x1 - x0) (Z.abs (y1 - y0)) (if y0 <? y1 then 1 else -1) x0 y0 (x1 - x0) =
  map (fun i => orient steep (x0 + Z.of_nat i) (y0 + towards (y1 - y0) (Z.of_nat i) (x1 - x0))) (seq 0 (Datatypes.S (Z.to_nat (x1 - x0)))).
Proof.
  intros H1 H2. rewrite rounds_start by lia. replace (Z.to_nat (x1 + 1 - x0)) with (Datatypes.S (Z.to_nat (x1 - x0))) by lia.
  apply map_ext. intros i. f_equal. f_equal. rewrite <- signed by lia.
  replace (y0 <? y1) with (0 <? y1 - y0); [reflexivity|]. destruct (Z.ltb_spec 0 (y1 - y0)), (Z.ltb_spec y0 y1); lia || reflexivity.
Qed.
Lemma backward_line steep x0 y0 x1 y1 : x1 < x0 -> Z.abs (y0 - y1) <= x0 - x1 ->
  rev (rounds (Z.to_nat (x0 + 1 - x1)) steep (x0 - x1) (Z.abs (y0 - y1)) (if y1 <? y0 then 1 else -1) x1 y1 (x0 - x1)) =
  map (fun i => orient steep (x0 - Z.of_nat i)
         (y0 + (if y1 <? y0 then rounded_up (Z.of_nat i) (y1 - y0) (x0 - x1) else rounded (Z.of_nat i) (y1 - y0) (x0 - x1))))
      (seq 0 (Datatypes.S (Z.to_nat (x0 - x1)))).
Proof.
  intros H1 H2. rewrite forward_line by lia. rewrite rev_seq_map. apply map_ext_in. intros i Hi. apply in_seq in Hi.
  replace (Z.of_nat (Datatypes.S (Z.to_nat (x0 - x1)) - 1 - i)) with (x0 - x1 - Z.of_nat i) by lia.
  f_equal; [lia|]. unfold towards. replace (y0 - y1) with (- (y1 - y0)) by ring.
  destruct (Z.ltb_spec 0 (- (y1 - y0))), (Z.ltb_spec y1 y0); try lia.
  - rewrite up_reverse by lia. lia.
  - rewrite down_reverse by lia. lia.
Qed.

Lemma main_down k n a : 0 < n -> Z.abs a = n -> rounded k a n = (if a <? 0 then - k else k).
Proof.
  intros Hn Ha. destruct (Z.ltb_spec a 0).
  - replace a with (- n) by lia. now apply rounded_back.
  - replace a with n by lia. now apply rounded_full.
Qed.
Lemma main_up k n a : 0 < n -> Z.abs a = n -> rounded_up k a n = (if a <? 0 then - k else k).
Proof.
  intros Hn Ha. destruct (Z.ltb_spec a 0).
  - replace a with (- n) by lia. now apply up_back.
  - replace a with n by lia. now apply up_full.
Qed.

Lemma line_found s f : found s f ->
  bresenham s f = map (fun i => py_cell s f (Z.of_nat i)) (seq 0 (Datatypes.S (Z.to_nat (steps s f)))).
Proof.
  destruct s as [x0 y0], f as [x1 y1]. unfold found, bresenham. cbn [fst snd]. intros FD.
  destruct (Z.eq_dec (steps (x0, y0) (x1, y1)) 0) as [E|E].
  - unfold steps in E. cbn [fst snd] in E. assert (x1 = x0) by lia. assert (y1 = y0) by lia. subst.
    unfold steps. cbn [fst snd]. rewrite !Z.sub_diag. change (Z.abs 0) with 0. rewrite Z.ltb_irrefl, Z.ltb_irrefl.
    replace (x0 + 1 - x0) with 1 by ring. change (Z.to_nat 1) with 1%nat. change (Z.to_nat (Z.max 0 0)) with 0%nat.
    cbn [rounds seq map]. unfold py_cell. cbn [fst snd]. rewrite !Z.sub_diag, Z.mul_0_l, Z.ltb_irrefl.
    change (Z.of_nat 0) with 0. rewrite lc_0. destruct (_ <=? 0); reflexivity.
  - assert (P : 0 < steps (x0, y0) (x1, y1)) by (unfold steps in *; cbn [fst snd] in *; lia).
    destruct (Z.ltb_spec (Z.abs (x1 - x0)) (Z.abs (y1 - y0))) as [ST|ST]; destruct (Z.ltb_spec x1 x0) as [BW|BW]; cbv zeta.
    + assert (ND : y1 < y0) by lia. assert (SE : steps (x0, y0) (x1, y1) = y0 - y1) by (unfold steps; cbn [fst snd]; lia).
      rewrite backward_line by lia. rewrite SE. apply map_ext. intros i. unfold orient, py_cell, towards, line_cell. cbn [fst snd]. rewrite SE.
      destruct (Z.ltb_spec 0 ((x1 - x0) * (y1 - y0))) as [PR|PR]; [|exfalso; nia].
      destruct (Z.ltb_spec x1 x0); [|lia]. f_equal. rewrite (main_up _ (y0 - y1) (y1 - y0)) by lia.
      destruct (Z.ltb_spec (y1 - y0) 0); lia.
    + assert (ND : y0 < y1) by lia. assert (SE : steps (x0, y0) (x1, y1) = y1 - y0) by (unfold steps; cbn [fst snd]; lia).
      rewrite forward_line by lia. rewrite SE. apply map_ext. intros i. unfold orient, py_cell, towards, line_cell. cbn [fst snd]. rewrite SE.
      destruct (Z.ltb_spec 0 (x1 - x0)) as [A|A].
      * destruct (Z.ltb_spec 0 ((x1 - x0) * (y1 - y0))) as [PR|PR]; [|exfalso; nia].
        f_equal. rewrite up_full by lia. reflexivity.
      * destruct (Z.ltb_spec 0 ((x1 - x0) * (y1 - y0))) as [PR|PR]; [exfalso; nia|].
        f_equal. rewrite rounded_full by lia. reflexivity.
    + assert (SE : steps (x0, y0) (x1, y1) = x0 - x1) by (unfold steps; cbn [fst snd]; lia).
      rewrite backward_line by lia. rewrite SE. apply map_ext. intros i. unfold orient, py_cell, towards, line_cell. cbn [fst snd]. rewrite SE.
      destruct (Z.ltb_spec y1 y0) as [A|A].
      * destruct (Z.ltb_spec 0 ((x1 - x0) * (y1 - y0))) as [PR|PR]; [|exfalso; nia].
        f_equal. rewrite (main_up _ (x0 - x1) (x1 - x0)) by lia. destruct (Z.ltb_spec (x1 - x0) 0); lia.
      * destruct (Z.ltb_spec 0 ((x1 - x0) * (y1 - y0))) as [PR|PR]; [exfalso; nia|].
        f_equal. rewrite (main_down _ (x0 - x1) (x1 - x0)) by lia. destruct (Z.ltb_spec (x1 - x0) 0); lia.
    + assert (SE : steps (x0, y0) (x1, y1) = x1 - x0) by (unfold steps; cbn [fst snd]; lia).
      assert (LT : x0 < x1) by (unfold steps in *; cbn [fst snd] in *; lia).
      rewrite forward_line by lia. rewrite SE. apply map_ext. intros i. unfold orient, py_cell, towards, line_cell. cbn [fst snd]. rewrite SE.
      destruct (Z.ltb_spec 0 (y1 - y0)) as [A|A].
      * destruct (Z.ltb_spec 0 ((x1 - x0) * (y1 - y0))) as [PR|PR]; [|exfalso; nia].
        f_equal. rewrite up_full by lia. reflexivity.
      * destruct (Z.ltb_spec 0 ((x1 - x0) * (y1 - y0))) as [PR|PR]; [exfalso; nia|].
        f_equal. rewrite rounded_full by lia. reflexivity.
Qed.
Lemma line_lost s f : ~ found s f -> bresenham s f = [].
Proof.
  destruct s as [x0 y0], f as [x1 y1]. unfold found, bresenham. cbn [fst snd]. intros FD.
  destruct (Z.ltb_spec (Z.abs (x1 - x0)) (Z.abs (y1 - y0))) as [ST|ST]; [|exfalso; apply FD; now left].
  destruct (Z.ltb_spec x1 x0) as [BW|BW]; cbv zeta.
  - assert (y0 < y1) by lia. replace (Z.to_nat (y0 + 1 - y1)) with 0%nat by lia. reflexivity.
  - assert (y1 < y0) by lia. replace (Z.to_nat (y1 + 1 - y0)) with 0%nat by lia. reflexivity.
Qed.

(** ** the cells *)
Lemma up_step k a n : 0 < n -> Z.abs a <= n -> Z.abs (rounded_up (k + 1) a n - rounded_up k a n) <= 1.
Proof. intros Hn Ha. pose proof (up_spec k a n Hn). pose proof (up_spec (k + 1) a n Hn). nia. Qed.
Lemma py_0 s f : py_cell s f 0 = s.
Proof.
  unfold py_cell. destruct (Z.ltb_spec 0 ((fst f - fst s) * (snd f - snd s))) as [P|P]; [|apply lc_0].
  assert (0 < steps s f) by (unfold steps; nia). rewrite !up_0 by assumption. destruct s; cbn [fst snd]. f_equal; lia.
Qed.
Lemma py_end s f : py_cell s f (steps s f) = f.
Proof.
  unfold py_cell. destruct (Z.ltb_spec 0 ((fst f - fst s) * (snd f - snd s))) as [P|P]; [|apply lc_end].
  assert (0 < steps s f) by (unfold steps; nia). rewrite !up_end by assumption. destruct f; cbn [fst snd]. f_equal; lia.
Qed.
Lemma py_adjacent s f k : 0 < steps s f -> adjacent (py_cell s f k) (py_cell s f (k + 1)).
Proof.
  intros P. unfold py_cell. destruct (Z.ltb_spec 0 ((fst f - fst s) * (snd f - snd s))) as [Q|Q]; [|now apply lc_adjacent].
  unfold adjacent. cbn [fst snd].
  pose proof (up_step k (fst f - fst s) _ P ltac:(unfold steps; lia)).
  pose proof (up_step k (snd f - snd s) _ P ltac:(unfold steps; lia)).
  assert (D : Z.abs (fst f - fst s) = steps s f \/ Z.abs (snd f - snd s) = steps s f) by (unfold steps; lia).
  destruct D as [D|D].
  - rewrite (main_up k _ _ P D), (main_up (k + 1) _ _ P D) in *. destruct (fst f - fst s <? 0); lia.
  - rewrite (main_up k _ _ P D), (main_up (k + 1) _ _ P D) in *. destruct (snd f - snd s <? 0); lia.
Qed.
Lemma py_nearest s f k : 0 < steps s f ->
  2 * Z.abs ((fst (py_cell s f k) - fst s) * steps s f - k * (fst f - fst s)) <= steps s f /\
  2 * Z.abs ((snd (py_cell s f k) - snd s) * steps s f - k * (snd f - snd s)) <= steps s f.
Proof.
  intros P. unfold py_cell. destruct (Z.ltb_spec 0 ((fst f - fst s) * (snd f - snd s))) as [Q|Q]; [|now apply lc_nearest].
  cbn [fst snd]. pose proof (up_spec k (fst f - fst s) _ P). pose proof (up_spec k (snd f - snd s) _ P).
  split; lia.
Qed.
(** away from ties both forms agree *)
Lemma no_tie_up k a n : 0 < n -> (forall m, 2 * k * a <> (2 * m + 1) * n) -> rounded_up k a n = rounded k a n.
Proof.
  intros Hn N. apply up_unique; [exact Hn|]. pose proof (rounded_spec k a n Hn) as S.
  assert (2 * k * a - n <> 2 * n * rounded k a n); [|lia]. intros E. apply (N (rounded k a n)). lia.
Qed.
Lemma no_tie s f k : ~ tie s f k -> py_cell s f k = line_cell s f k.
Proof.
  intros N. unfold py_cell. destruct (Z.ltb_spec 0 ((fst f - fst s) * (snd f - snd s))) as [Q|Q]; [|reflexivity].
  assert (P : 0 < steps s f) by (unfold steps; nia).
  unfold line_cell. rewrite !no_tie_up; [reflexivity| | | |]; auto; intros m E; apply N; (split; [exact Q|]); exists m; tauto.
Qed.

(** ** the horizon *)
Local Open Scope R_scope.
Section Scan.
Variables (h : R) (n : nat) (p : nat -> point).
Hypothesis NN : (0 < n)%nat.

Lemma py_search_forward : forall fuel H i j, (i < j <= n - 1)%nat -> (n - 1 - j < fuel)%nat -> forward n j H ->
  exists r, py_search fuel h n p H i j = Some r /\ (i < r <= n - 1)%nat.
Proof.
  induction fuel as [|f IH]; intros H i j Hj Hf FW; [lia|]. cbn [py_search].
  assert (HJ : (j <= H j <= n - 1)%nat).
  { destruct FW as (F1 & F2). destruct (Nat.eq_dec j (n - 1)) as [->|]; [lia|]. specialize (F2 j ltac:(lia)). lia. }
  destruct (flt _ _).
  - destruct (Nat.eqb_spec j (n - 1)) as [E|N]; [eexists; split; [reflexivity|lia]|].
    destruct FW as (F1 & F2). pose proof (F2 j ltac:(lia)) as Q.
    apply IH; [lia|lia|]. split; [exact F1|]. intros k Hk. apply F2. lia.
  - destruct (flt _ _); eexists; (split; [reflexivity|lia]).
Qed.
Lemma py_scan_forward : forall i H, (i <= n - 1)%nat -> forward n i H ->
  exists H', py_scan h n p i H = Some H' /\ forward n 0 H'.
Proof.
  induction i as [|i IH]; intros H Hi FW; cbn [py_scan]; [eauto|].
  destruct (py_search_forward n H i (S i) ltac:(lia) ltac:(lia) FW) as (r & -> & Hr).
  apply IH; [lia|]. destruct FW as (F1 & F2). split.
  - unfold store. destruct (Nat.eqb_spec (n - 1) i); [lia|exact F1].
  - intros j Hj. unfold store. destruct (Nat.eqb_spec j i) as [->|]; [lia|]. apply F2. lia.
Qed.

Hypothesis HZ : h = 0.
Hypothesis POSD : forall i j, (i < j < n)%nat -> 0 < d p i j.
Hypothesis RAY : forall i j k, (i < j < k)%nat -> (k < n)%nat -> d p i k = d p i j + d p j k.
Notation s := (s p).
Notation z := (z p).
Notation d := (d p).

Lemma compare i j k : (i < j < k)%nat -> (k < n)%nat -> (s i j < s j k <-> s i j < s i k) /\ (s j k < s i j <-> s i k < s i j).
Proof.
  intros Hij Hk.
  pose proof (s_rise n p POSD i j ltac:(lia)) as Rij. pose proof (s_rise n p POSD j k ltac:(lia)) as Rjk.
  pose proof (s_rise n p POSD i k ltac:(lia)) as Rik. pose proof (RAY i j k Hij Hk) as D. rewrite D in Rik.
  pose proof (POSD i j ltac:(lia)) as Pij. pose proof (POSD j k ltac:(lia)) as Pjk.
  set (a := s i j) in *. set (b := s j k) in *. set (e := s i k) in *.
  assert (E : (e - a) * (d i j + d j k) = (b - a) * d j k) by lra.
  split; split; intros L.
  - apply Rnot_le_lt. intros G. assert (0 < (b - a) * d j k) by (apply Rmult_lt_0_compat; lra).
    assert (0 <= (a - e) * (d i j + d j k)) by (apply Rmult_le_pos; lra). lra.
  - apply Rnot_le_lt. intros G. assert (0 < (e - a) * (d i j + d j k)) by (apply Rmult_lt_0_compat; lra).
    assert (0 <= (a - b) * d j k) by (apply Rmult_le_pos; lra). lra.
  - apply Rnot_le_lt. intros G. assert (0 < (a - b) * d j k) by (apply Rmult_lt_0_compat; lra).
    assert (0 <= (e - a) * (d i j + d j k)) by (apply Rmult_le_pos; lra). lra.
  - apply Rnot_le_lt. intros G. assert (0 < (a - e) * (d i j + d j k)) by (apply Rmult_lt_0_compat; lra).
    assert (0 <= (b - a) * d j k) by (apply Rmult_le_pos; lra). lra.
Qed.

(** on a ray both forms take the same decisions *)
Lemma search_same : forall fuel H i j, (i < j <= n - 1)%nat -> forward n j H ->
  py_search fuel h n p H i j = search fuel h n p H i j.
Proof.
  induction fuel as [|f IH]; intros H i j Hj FW; [reflexivity|]. cbn [py_search search].
  destruct (Nat.eq_dec j (n - 1)) as [E|N].
  - assert (HJ : H j = j) by (rewrite E; apply FW). rewrite HJ, slope_self.
    destruct (rltb_spec h 0); [lra|]. destruct (rltb_spec 0 h); [lra|].
    rewrite (slope_s h n p HZ POSD i j) by lia. cbn [flt]. destruct (rltb_spec (s i j) (s i j)); [lra|]. reflexivity.
  - destruct FW as (F1 & F2). pose proof (F2 j ltac:(lia)) as Q.
    rewrite (slope_s h n p HZ POSD i j), (slope_s h n p HZ POSD i (H j)), (slope_s h n p HZ POSD j (H j)) by lia.
    cbn [flt]. destruct (compare i j (H j) ltac:(lia) ltac:(lia)) as (C1 & C2).
    destruct (rltb_spec (s i j) (s i (H j))) as [A|A], (rltb_spec (s i j) (s j (H j))) as [B|B]; try tauto.
    + destruct (Nat.eqb_spec j (n - 1)) as [|_]; [contradiction|]. apply IH; [lia|].
      split; [exact F1|]. intros k Hk. apply F2. lia.
    + destruct (rltb_spec (s i (H j)) (s i j)) as [A2|A2], (rltb_spec (s j (H j)) (s i j)) as [B2|B2]; tauto.
Qed.
Lemma scan_same : forall i H, (i <= n - 1)%nat -> forward n i H -> py_scan h n p i H = scan h n p i H.
Proof.
  induction i as [|i IH]; intros H Hi FW; [reflexivity|]. cbn [py_scan scan].
  rewrite search_same by (auto; lia). destruct (search_forward h n p NN n H i (S i) ltac:(lia) ltac:(lia) FW) as (r & -> & Hr).
  apply IH; [lia|]. destruct FW as (F1 & F2). split.
  - unfold store. destruct (Nat.eqb_spec (n - 1) i); [lia|exact F1].
  - intros j Hj. unfold store. destruct (Nat.eqb_spec j i) as [->|]; [lia|]. apply F2. lia.
Qed.
Lemma py_best : exists H, py_hord h n p = Some H /\ H (n - 1)%nat = (n - 1)%nat /\
  (forall i, (i < n - 1)%nat -> (i < H i < n)%nat /\ forall k, (i < k < n)%nat -> s i k <= s i (H i)) /\
  hord_slope h n p = Some (slope h (p 0%nat) (p (H 0%nat))).
Proof.
  pose proof (start_forward n NN) as FW. unfold py_hord, hord_slope. rewrite scan_same by (auto; lia).
  destruct (scan_forward h n p NN (n - 1) _ ltac:(lia) FW) as (H & E & F1 & F2).
  match goal with |- context [scan h n p (n - 1) ?y] => change (scan h n p (n - 1) y = Some H) in E; rewrite E end.
  cbn [option_map]. exists H. split; [reflexivity|]. split; [exact F1|]. split; [|reflexivity].
  intros i Hi. split; [specialize (F2 i ltac:(lia)); lia|]. intros k Hk.
  assert (B : best n p 0 H).
  { apply (scan_best h n p NN) with (i := (n - 1)%nat) (H := store (fun _ => 0%nat) (n - 1) (n - 1)); auto; try lia; try lra.
    intros a b Ha Hb. lia. }
  apply B; lia.
Qed.
End Scan.
