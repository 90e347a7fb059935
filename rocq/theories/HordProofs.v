From Coq Require Import Reals List Bool ZArith Lia Lra.
From Verif Require Import RNum SpatModel BresModel BresSpec BresProofs HordModel HordSpec.
Import ListNotations.
Local Open Scope R_scope.

Definition place_of (p : point) : place := mkPlace (px p) (py p) (pz p).
Lemma run_eq a b : run a b = ground_distance (place_of a) (place_of b).
Proof. reflexivity. Qed.
Lemma slope_finite h a b : 0 < run a b -> slope h a b = F (view h (place_of a) (place_of b)).
Proof. intros H. unfold slope, fdiv. destruct (reqb_spec (run a b) 0); [lra|]. reflexivity. Qed.
Lemma run_self a : run a a = 0.
Proof. unfold run. replace (_ + _) with 0 by ring. apply sqrt_0. Qed.
Lemma slope_self h a : slope h a a = if rltb h 0 then PInf else if rltb 0 h then MInf else Nan.
Proof.
  unfold slope, fdiv. rewrite run_self. destruct (reqb_spec 0 0); [|lra].
  replace (pz a - (h + pz a)) with (- h) by ring. rcasep; reflexivity.
Qed.

Section Scan.
Variables (h : R) (n : nat) (p : nat -> point).
Hypothesis NN : (0 < n)%nat.
Hypothesis H0 : 0 <= h.

(** horizons stored so far point forwards *)
Definition forward (i : nat) (H : nat -> nat) : Prop :=
  H (n - 1)%nat = (n - 1)%nat /\ forall j, (i <= j < n - 1)%nat -> (j < H j <= n - 1)%nat.

Lemma search_forward : forall fuel H i j, (i < j <= n - 1)%nat -> (n - 1 - j < fuel)%nat -> forward j H ->
  exists r, search fuel h n p H i j = Some r /\ (i < r <= n - 1)%nat.
Proof.
  induction fuel as [|f IH]; intros H i j Hj Hf FW; [lia|]. cbn [search].
  assert (HJ : (j <= H j <= n - 1)%nat).
  { destruct FW as (F1 & F2). destruct (Nat.eq_dec j (n - 1)) as [->|]; [lia|]. specialize (F2 j ltac:(lia)). lia. }
  destruct (flt _ _).
  - destruct (Nat.eqb_spec j (n - 1)) as [E|N]; [eexists; split; [reflexivity|lia]|].
    destruct FW as (F1 & F2). pose proof (F2 j ltac:(lia)) as Q.
    apply IH; [lia|lia|]. split; [exact F1|]. intros k Hk. apply F2. lia.
  - destruct (flt _ _); eexists; (split; [reflexivity|lia]).
Qed.
Lemma scan_forward : forall i H, (i <= n - 1)%nat -> forward i H -> exists H', scan h n p i H = Some H' /\ forward 0 H'.
Proof.
  induction i as [|i IH]; intros H Hi FW; cbn [scan]; [eauto|].
  destruct (search_forward n H i (S i) ltac:(lia) ltac:(lia) FW) as (r & -> & Hr).
  apply IH; [lia|]. destruct FW as (F1 & F2). split.
  - unfold store. destruct (Nat.eqb_spec (n - 1) i); [lia|exact F1].
  - intros j Hj. unfold store. destruct (Nat.eqb_spec j i) as [->|]; [lia|]. apply F2. lia.
Qed.
Lemma start_forward : forward (n - 1) (store (fun _ => 0%nat) (n - 1) (n - 1)).
Proof. split; [unfold store; now rewrite Nat.eqb_refl|lia]. Qed.

(** it ends, and yields a later point *)
Lemma hord_later : exists k, (k < n)%nat /\ ((1 < n)%nat -> (0 < k)%nat) /\ hord_slope h n p = Some (slope h (p 0%nat) (p k)).
Proof.
  unfold hord_slope. destruct (scan_forward (n - 1) _ ltac:(lia) start_forward) as (H & -> & F1 & F2). cbn [option_map].
  exists (H 0%nat). destruct (Nat.eq_dec n 1) as [E|].
  - assert (F3 : H 0%nat = 0%nat) by (replace 0%nat with (n - 1)%nat by lia; rewrite F1; lia). rewrite F3. split; [lia|]. split; [lia|reflexivity].
  - specialize (F2 0%nat ltac:(lia)). split; [lia|]. split; [lia|reflexivity].
Qed.

(** on a ray seen from the ground it is the steepest *)
Hypothesis HZ : h = 0.
Definition d (i j : nat) : R := run (p i) (p j).
Definition z (i : nat) : R := pz (p i).
Hypothesis POSD : forall i j, (i < j < n)%nat -> 0 < d i j.
Hypothesis RAY : forall i j k, (i < j < k)%nat -> (k < n)%nat -> d i k = d i j + d j k.
Definition s (i j : nat) : R := (z j - z i) / d i j.
Lemma slope_s i j : (i < j < n)%nat -> slope h (p i) (p j) = F (s i j).
Proof.
  intros Hij. rewrite slope_finite by (apply (POSD i j Hij)). rewrite HZ. unfold view, s, d, z. rewrite run_eq.
  cbn [place_of at_z at_x at_y]. f_equal. f_equal. ring.
Qed.
Lemma s_rise i j : (i < j < n)%nat -> z j = z i + s i j * d i j.
Proof. intros Hij. pose proof (POSD i j Hij). unfold s. field. lra. Qed.
Lemma s_le i k a : (i < k < n)%nat -> z k <= z i + a * d i k -> s i k <= a.
Proof.
  intros Hik H. pose proof (POSD i k Hik). unfold s. apply Rmult_le_reg_r with (d i k); [assumption|].
  unfold Rdiv. rewrite Rmult_assoc, Rinv_l by lra. lra.
Qed.

Definition best (i : nat) (H : nat -> nat) : Prop :=
  forall j k, (i <= j)%nat -> (j < k < n)%nat -> s j k <= s j (H j).
Lemma beyond i j H : (i < j)%nat -> (j < n - 1)%nat -> forward j H -> best j H ->
  forall k, (j < k < n)%nat ->
    (s i j <= s j (H j) -> (k <= H j)%nat -> s i k <= s i (H j)) /\
    (s j (H j) <= s i j -> s i k <= s i j) /\
    (s i j <= s j (H j) -> s i j <= s i (H j)) /\ (s i j = s j (H j) -> s i (H j) = s i j).
Proof.
  intros Hij Hj (F1 & F2) B k Hk. specialize (F2 j ltac:(lia)). specialize (B j k ltac:(lia) ltac:(lia)).
  pose proof (s_rise i j ltac:(lia)) as Rij. pose proof (s_rise j k ltac:(lia)) as Rjk. pose proof (s_rise j (H j) ltac:(lia)) as RjH.
  pose proof (s_rise i (H j) ltac:(lia)) as RiH.
  assert (Dik : d i k = d i j + d j k) by (apply RAY; lia).
  assert (DiH : d i (H j) = d i j + d j (H j)) by (apply RAY; lia).
  pose proof (POSD i j ltac:(lia)) as Pij. pose proof (POSD j k ltac:(lia)) as Pjk. pose proof (POSD j (H j) ltac:(lia)) as PjH.
  set (a := s i j) in *. set (b := s j (H j)) in *. set (c := s j k) in *. set (e := s i (H j)) in *.
  assert (E : e * (d i j + d j (H j)) = a * d i j + b * d j (H j)) by (rewrite <- DiH; lra).
  assert (ZK : z k <= z i + a * d i j + b * d j k).
  { assert (c * d j k <= b * d j k) by (apply Rmult_le_compat_r; lra). lra. }
  split; [|split; [|split]].
  - intros Hab Hle. apply s_le; [lia|].
    assert (Hd : d j k <= d j (H j)).
    { destruct (Nat.eq_dec k (H j)) as [->|]; [lra|]. rewrite (RAY j k (H j)) by lia. pose proof (POSD k (H j) ltac:(lia)). lra. }
    assert (Q : a * d i j + b * d j k <= e * (d i j + d j k)).
    { assert (e <= b).
      { apply Rmult_le_reg_r with (d i j + d j (H j)); [lra|]. rewrite E. assert (a * d i j <= b * d i j) by (apply Rmult_le_compat_r; lra). lra. }
      (* e(p+q) - (ap + bq) = (b - e)(r - q) *)
      assert (0 <= (b - e) * (d j (H j) - d j k)) by (apply Rmult_le_pos; lra). nra. }
    rewrite Dik. lra.
  - intros Hba. apply s_le; [lia|]. assert (b * d j k <= a * d j k) by (apply Rmult_le_compat_r; lra). rewrite Dik. lra.
  - intros Hab. apply Rmult_le_reg_r with (d i j + d j (H j)); [lra|]. rewrite E.
    assert (a * d j (H j) <= b * d j (H j)) by (apply Rmult_le_compat_r; lra). lra.
  - intros Hab. rewrite <- Hab in E. apply Rmult_eq_reg_r with (d i j + d j (H j)); lra.
Qed.

Lemma search_best : forall fuel H i j r, (i < j <= n - 1)%nat -> forward (S i) H -> best (S i) H ->
  (forall k, (i < k <= j)%nat -> s i k <= s i j) ->
  search fuel h n p H i j = Some r -> (i < r <= n - 1)%nat /\ forall k, (i < k < n)%nat -> s i k <= s i r.
Proof.
  induction fuel as [|f IH]; intros H i j r Hj FW B Hs; [discriminate|]. cbn [search].
  destruct (Nat.eq_dec j (n - 1)) as [E|N].
  - assert (HJ : H j = j) by (rewrite E; apply FW). rewrite HJ, slope_self.
    destruct (rltb_spec h 0); [lra|]. destruct (rltb_spec 0 h); [lra|].
    rewrite slope_s by lia. cbn [flt]. intros [= <-]. split; [lia|]. intros k Hk. apply Hs. lia.
  - assert (FWj : forward j H) by (destruct FW as (F1 & F2); split; [exact F1|intros; apply F2; lia]).
    assert (Bj : best j H) by (intros a b Ha Hb; apply B; lia).
    pose proof FWj as (_ & F2). specialize (F2 j ltac:(lia)).
    rewrite !slope_s by lia. cbn [flt]. destruct (rltb_spec (s i j) (s j (H j))) as [L|L].
    + destruct (Nat.eqb_spec j (n - 1)) as [E|_]; [contradiction|]. apply IH; auto; [lia|].
      intros k Hk. destruct (le_lt_dec k j) as [K|K].
      * destruct (beyond i j H ltac:(lia) ltac:(lia) FWj Bj (H j) ltac:(lia)) as (_ & _ & G & _).
        apply Rle_trans with (s i j); [apply Hs; lia|apply G; lra].
      * destruct (beyond i j H ltac:(lia) ltac:(lia) FWj Bj k ltac:(lia)) as (G & _). apply G; [lra|lia].
    + destruct (rltb_spec (s j (H j)) (s i j)) as [L2|L2]; intros [= <-]; (split; [lia|]); intros k Hk.
      * destruct (le_lt_dec k j) as [K|K]; [apply Hs; lia|].
        destruct (beyond i j H ltac:(lia) ltac:(lia) FWj Bj k ltac:(lia)) as (_ & G & _). apply G. lra.
      * destruct (beyond i j H ltac:(lia) ltac:(lia) FWj Bj (H j) ltac:(lia)) as (_ & _ & _ & Q).
        rewrite Q by lra. destruct (le_lt_dec k j) as [K|K]; [apply Hs; lia|].
        destruct (beyond i j H ltac:(lia) ltac:(lia) FWj Bj k ltac:(lia)) as (_ & G & _). apply G. lra.
Qed.
Lemma scan_best : forall i H H', (i <= n - 1)%nat -> forward i H -> best i H -> scan h n p i H = Some H' -> best 0 H'.
Proof.
  induction i as [|i IH]; intros H H' Hi FW B; cbn [scan].
  - intros [= <-]. exact B.
  - destruct (search_forward n H i (S i) ltac:(lia) ltac:(lia) FW) as (r & E & _). rewrite E.
    destruct (search_best n H i (S i) r ltac:(lia) FW B) as (R1 & R2); [|exact E|].
    { intros k Hk. replace k with (S i) by lia. lra. }
    apply IH; [lia| |].
    + destruct FW as (F1 & F2). split.
      * unfold store. destruct (Nat.eqb_spec (n - 1) i); [lia|exact F1].
      * intros j Hj. unfold store. destruct (Nat.eqb_spec j i) as [->|]; [lia|]. apply F2. lia.
    + intros j k Hj Hk. unfold store. destruct (Nat.eqb_spec j i) as [->|]; [apply R2; lia|]. apply B; lia.
Qed.
Lemma hord_best : (1 < n)%nat -> exists k, (0 < k < n)%nat /\ hord_slope h n p = Some (F (s 0 k)) /\ forall j, (0 < j < n)%nat -> s 0 j <= s 0 k.
Proof.
  intros N1. unfold hord_slope. destruct (scan_forward (n - 1) _ ltac:(lia) start_forward) as (H & E & F1 & F2). rewrite E. cbn [option_map].
  exists (H 0%nat). specialize (F2 0%nat ltac:(lia)). split; [lia|]. split; [f_equal; apply slope_s; lia|].
  intros j Hj. apply (scan_best (n - 1) _ H ltac:(lia) start_forward); [|exact E|lia|lia].
  intros a b Ha Hb. lia.
Qed.
End Scan.

(** ** pi *)
Lemma pi_low : 313 / 100 <= PI.
Proof. pose proof (PI_2_3_7_ineq 0) as (L & _). change (S (2 * 0)) with 1%nat in L. cbn [sum_f_R0] in L. unfold tg_alt, PI_2_3_7_tg, Ratan_seq in L.
  cbn [Nat.mul Nat.add INR pow] in L. lra. Qed.
Lemma pi_high : PI <= c_pi.
Proof.
  pose proof (PI_2_3_7_ineq 5) as (_ & U). unfold c_pi.
  change (2 * 5)%nat with 10%nat in U. cbn [sum_f_R0] in U. unfold tg_alt, PI_2_3_7_tg, Ratan_seq in U.
  cbn [Nat.mul Nat.add INR pow] in U. lra.
Qed.
Lemma c_pi_pos : 0 < c_pi.
Proof. unfold c_pi. lra. Qed.
Lemma degrees_range x : -90 <= atan x / c_pi * 180 <= 90.
Proof.
  pose proof (atan_bound x). pose proof pi_high. pose proof c_pi_pos.
  assert (E : atan x = atan x / c_pi * c_pi) by (field; lra). set (t := atan x / c_pi) in *.
  assert (-(1 / 2) <= t <= 1 / 2); [|lra]. split.
  - apply Rmult_le_reg_r with c_pi; lra.
  - apply Rmult_le_reg_r with c_pi; lra.
Qed.
Lemma degrees_mono x y : x <= y -> atan x / c_pi * 180 <= atan y / c_pi * 180.
Proof.
  intros H. pose proof c_pi_pos. assert (atan x <= atan y) by (destruct H as [H| ->]; [left; now apply atan_increasing|lra]).
  apply Rmult_le_compat_r; [lra|]. apply Rmult_le_compat_r; [|assumption]. left. now apply Rinv_0_lt_compat.
Qed.
Lemma self_corrected : correct (degrees MInf) = F 0.
Proof.
  unfold degrees, correct. cbn [fatan]. destruct (rleb_spec (- (PI / 2) / c_pi * 180) (-89)); [reflexivity|].
  exfalso. apply n. pose proof pi_low. pose proof c_pi_pos.
  assert (E : - (PI / 2) = - (PI / 2) / c_pi * c_pi) by (field; lra). set (t := - (PI / 2) / c_pi) in *.
  assert (t <= - (89 / 180)); [|lra]. apply Rmult_le_reg_r with c_pi; [lra|]. rewrite <- E. unfold c_pi. lra.
Qed.

(** ** one cell of maxus *)
Lemma all_some_map {A B} (g : A -> B) l : all_some (map (fun i => Some (g i)) l) = Some (map g l).
Proof. induction l as [|x l IH]; simpl; [reflexivity|]. now rewrite IH. Qed.
Definition cell_place (xs ys : Z -> R) (elev : Z * Z -> R) (c : Z * Z) : place := mkPlace (xs (fst c)) (ys (snd c)) (elev c).
Definition cell_point (xs ys : Z -> R) (elev : Z * Z -> R) (c : Z * Z) : point := mkPoint (xs (fst c)) (ys (snd c)) (elev c).

Lemma search_ext fuel h n p q H i j : (forall k, (k < n)%nat -> p k = q k) -> (i < n)%nat -> (i < j < n)%nat -> forward n j H ->
  search fuel h n p H i j = search fuel h n q H i j.
Proof.
  intros E. revert i j. induction fuel as [|f IH]; intros i j Hi Hj (F1 & F2); [reflexivity|]. cbn [search].
  assert (HJ : (j <= H j < n)%nat).
  { destruct (Nat.eq_dec j (n - 1)) as [->|]; [lia|]. specialize (F2 j ltac:(lia)). lia. }
  rewrite (E i), (E j), (E (H j)) by lia.
  destruct (flt _ _); [|reflexivity]. destruct (Nat.eqb_spec j (n - 1)); [reflexivity|].
  specialize (F2 j ltac:(lia)) as Q. apply IH; try lia. split; [exact F1|]. intros k Hk. apply F2. lia.
Qed.
Lemma scan_ext h n p q : (0 < n)%nat -> (forall k, (k < n)%nat -> p k = q k) -> forall i H, (i <= n - 1)%nat -> forward n i H ->
  scan h n p i H = scan h n q i H.
Proof.
  intros N E. induction i as [|i IH]; intros H Hi FW; cbn [scan]; [reflexivity|].
  rewrite (search_ext n h n p q) by (auto; lia).
  destruct (search_forward h n q N n H i (S i) ltac:(lia) ltac:(lia) FW) as (r & -> & Hr).
  apply IH; [lia|]. destruct FW as (F1 & F2). split.
  - unfold store. destruct (Nat.eqb_spec (n - 1) i); [lia|exact F1].
  - intros j Hj. unfold store. destruct (Nat.eqb_spec j i) as [->|]; [lia|]. apply F2. lia.
Qed.
Lemma hord_ext h n p q : (0 < n)%nat -> (forall k, (k < n)%nat -> p k = q k) -> hord_slope h n p = hord_slope h n q.
Proof.
  intros N E. unfold hord_slope. rewrite (scan_ext h n p q N E) by (try lia; apply start_forward; lia).
  destruct (scan_forward h n q N (n - 1) (store (fun _ => 0%nat) (n - 1) (n - 1)) ltac:(lia) (start_forward n N)) as (H & E2 & F1 & F2).
  match type of E2 with ?x = _ => match goal with |- context [scan h n q (n - 1) ?y] => change (scan h n q (n - 1) y) with x end end.
  rewrite E2. cbn [option_map].
  rewrite (E 0%nat) by lia. rewrite E; [reflexivity|].
  destruct (Nat.eq_dec n 1) as [->|]; [cbn in F1; rewrite F1; lia|]. specialize (F2 0%nat ltac:(lia)). lia.
Qed.

Lemma maxus_cell_eq h nx ny xs ys elev s f : fits s f -> inside nx ny s -> exists m,
  (0 < m <= Z.to_nat 500)%nat /\ (m <= Z.to_nat (steps s f) + 1)%nat /\
  (forall k, (k < Z.to_nat 500)%nat -> (Z.of_nat k <= steps s f)%Z -> inside nx ny (lc s f k) <-> (k < m)%nat) /\
  maxus_cell h nx ny xs ys elev s f =
    option_map (fun v => correct (degrees v)) (hord_slope h m (fun k => cell_point xs ys elev (lc s f k))).
Proof.
  intros FT Hs. destruct (samples_spec s f nx ny FT Hs) as (m & E & M1 & M2 & M3). exists m.
  split; [exact M1|]. split; [exact M2|]. split; [exact M3|].
  unfold maxus_cell. rewrite E, all_some_map, map_length, seq_length. f_equal. apply hord_ext; [lia|].
  intros k Hk. unfold cell_point.
  rewrite (nth_indep _ (0, 0)%Z (lc s f 0)) by (now rewrite map_length, seq_length).
  rewrite map_nth, seq_nth by exact Hk. reflexivity.
Qed.

(** strictly monotone coordinates *)
Definition monotone (n : Z) (xs : Z -> R) : Prop :=
  (forall i j, (0 <= i < j)%Z -> (j < n)%Z -> xs i < xs j) \/ (forall i j, (0 <= i < j)%Z -> (j < n)%Z -> xs j < xs i).
Lemma monotone_ne n xs i j : monotone n xs -> (0 <= i < n)%Z -> (0 <= j < n)%Z -> i <> j -> xs i <> xs j.
Proof.
  intros [M|M] Hi Hj N; assert ((i < j)%Z \/ (j < i)%Z) as [L|L] by lia.
  - pose proof (M i j ltac:(lia) ltac:(lia)); lra.
  - pose proof (M j i ltac:(lia) ltac:(lia)); lra.
  - pose proof (M i j ltac:(lia) ltac:(lia)); lra.
  - pose proof (M j i ltac:(lia) ltac:(lia)); lra.
Qed.
Lemma dist_pos xa ya xb yb : xa <> xb \/ ya <> yb -> 0 < sqrt ((xb - xa) * (xb - xa) + (yb - ya) * (yb - ya)).
Proof.
  intros N. apply sqrt_lt_R0. pose proof (Rle_0_sqr (xb - xa)). pose proof (Rle_0_sqr (yb - ya)). unfold Rsqr in *.
  destruct N as [N|N].
  - assert (0 < (xb - xa) * (xb - xa)) by (apply Rsqr_pos_lt; lra). lra.
  - assert (0 < (yb - ya) * (yb - ya)) by (apply Rsqr_pos_lt; lra). lra.
Qed.
Lemma line_distinct nx ny xs ys elev s f m : (0 < steps s f)%Z -> monotone nx xs -> monotone ny ys ->
  (forall k, (k < m)%nat -> inside nx ny (lc s f k)) -> (m <= Z.to_nat (steps s f) + 1)%nat ->
  distinct m (fun k => cell_place xs ys elev (lc s f k)).
Proof.
  intros P Mx My Hin Hm i j Hij. unfold ground_distance, cell_place. cbn [at_x at_y at_z].
  assert (Ii := Hin i ltac:(lia)). assert (Ij := Hin j ltac:(lia)). apply dist_pos. unfold inside in *.
  assert (N : fst (lc s f i) <> fst (lc s f j) \/ snd (lc s f i) <> snd (lc s f j)).
  { unfold lc, line_cell. cbn [fst snd].
    assert (M : Z.abs (fst f - fst s) = steps s f \/ Z.abs (snd f - snd s) = steps s f) by (unfold steps; lia).
    assert (G : forall a, Z.abs a = steps s f -> rounded (Z.of_nat i) a (steps s f) <> rounded (Z.of_nat j) a (steps s f)).
    { intros a Ea. assert (a = steps s f \/ a = - steps s f)%Z as [-> | ->] by lia; [rewrite !rounded_full by exact P|rewrite !rounded_back by exact P]; lia. }
    destruct M as [M|M]; apply G in M; [left|right]; lia. }
  destruct N as [N|N]; [left|right]; eapply monotone_ne; eauto; lia.
Qed.
(** a cardinal direction is a ray *)
Lemma sqrt_abs u : sqrt (u * u) = Rabs u.
Proof. apply (sqrt_Rsqr_abs u). Qed.
Lemma line_ray nx ny xs ys elev s f m : (0 < steps s f)%Z -> (fst s = fst f \/ snd s = snd f) -> monotone nx xs -> monotone ny ys ->
  (forall k, (k < m)%nat -> inside nx ny (lc s f k)) -> (m <= Z.to_nat (steps s f) + 1)%nat ->
  on_ray m (fun k => cell_place xs ys elev (lc s f k)).
Proof.
  intros P C Mx My Hin Hm i j k Hij Hk. unfold ground_distance, cell_place. cbn [at_x at_y at_z].
  assert (Ii := Hin i ltac:(lia)). assert (Ij := Hin j ltac:(lia)). assert (Ik := Hin k ltac:(lia)). unfold inside in *.
  assert (G : forall (M : Z) (c : Z -> R) a b e, monotone M c -> (0 <= a < M)%Z -> (0 <= b < M)%Z -> (0 <= e < M)%Z ->
     (a < b < e)%Z \/ (e < b < a)%Z -> Rabs (c e - c a) = Rabs (c b - c a) + Rabs (c e - c b)).
  { intros M c a b e [Q|Q] Ha Hb He [O|O].
    - pose proof (Q a b ltac:(lia) ltac:(lia)); pose proof (Q b e ltac:(lia) ltac:(lia)). rewrite !Rabs_pos_eq by lra. lra.
    - pose proof (Q e b ltac:(lia) ltac:(lia)); pose proof (Q b a ltac:(lia) ltac:(lia)). rewrite !Rabs_left by lra. lra.
    - pose proof (Q a b ltac:(lia) ltac:(lia)); pose proof (Q b e ltac:(lia) ltac:(lia)). rewrite !Rabs_left by lra. lra.
    - pose proof (Q e b ltac:(lia) ltac:(lia)); pose proof (Q b a ltac:(lia) ltac:(lia)). rewrite !Rabs_pos_eq by lra. lra. }
  assert (ORD : forall a t, Z.abs a = steps s f ->
    ((t + rounded (Z.of_nat i) a (steps s f) < t + rounded (Z.of_nat j) a (steps s f) < t + rounded (Z.of_nat k) a (steps s f)) \/
     (t + rounded (Z.of_nat k) a (steps s f) < t + rounded (Z.of_nat j) a (steps s f) < t + rounded (Z.of_nat i) a (steps s f)))%Z).
  { intros a t Ea. assert (a = steps s f \/ a = - steps s f)%Z as [-> | ->] by lia; [rewrite !rounded_full by exact P|rewrite !rounded_back by exact P]; lia. }
  destruct C as [C|C].
  - assert (E : forall q, fst (lc s f q) = fst s).
    { intros q. unfold lc, line_cell. cbn [fst]. replace (fst f - fst s)%Z with 0%Z by lia. rewrite rounded_flat by exact P. lia. }
    rewrite !E in *. replace (xs (fst s) - xs (fst s)) with 0 by ring. rewrite Rmult_0_l, !Rplus_0_l, !sqrt_abs.
    apply (G ny); try tauto. unfold lc, line_cell. cbn [snd]. apply ORD. unfold steps. lia.
  - assert (E : forall q, snd (lc s f q) = snd s).
    { intros q. unfold lc, line_cell. cbn [snd]. replace (snd f - snd s)%Z with 0%Z by lia. rewrite rounded_flat by exact P. lia. }
    rewrite !E in *. replace (ys (snd s) - ys (snd s)) with 0 by ring. rewrite Rmult_0_l, !Rplus_0_r, !sqrt_abs.
    apply (G nx); try tauto. unfold lc, line_cell. cbn [fst]. apply ORD. unfold steps. lia.
Qed.

Lemma hord_steepest n p : (1 < n)%nat -> distinct n (fun k => place_of (p k)) -> on_ray n (fun k => place_of (p k)) ->
  exists s, steepest 0 n (fun k => place_of (p k)) s /\ hord_slope 0 n p = Some (F s).
Proof.
  intros N D R. destruct (hord_best 0 n p ltac:(lia) ltac:(lra) eq_refl) as (k & K1 & K2 & K3); auto.
  exists (s p 0 k). split; [|exact K2].
  assert (E : forall j, view 0 (place_of (p 0%nat)) (place_of (p j)) = s p 0 j).
  { intros j. unfold view, s, d, z. rewrite run_eq. cbn [place_of at_z]. f_equal. ring. }
  split.
  - exists k. split; [exact K1|]. now rewrite E.
  - intros j Hj. rewrite E. now apply K3.
Qed.

(** ** end cells *)
Lemma Int_part_shift (k : Z) r : Int_part (IZR k + r) = (k + Int_part r)%Z.
Proof.
  destruct (base_Int_part r) as (A & B). destruct (base_Int_part (IZR k + r)) as (A' & B').
  assert (IZR (Int_part (IZR k + r)) < IZR (k + Int_part r + 1)) by (rewrite !plus_IZR; lra).
  assert (IZR (k + Int_part r) < IZR (Int_part (IZR k + r) + 1)) by (rewrite !plus_IZR; lra).
  apply lt_IZR in H. apply lt_IZR in H0. lia.
Qed.
Lemma end_cell_shift dx dy dmax angle c : 0 < dx -> 0 < dy ->
  end_cell dx dy dmax angle c = ((fst c + fst (end_cell dx dy dmax angle (0, 0)%Z))%Z, (snd c + snd (end_cell dx dy dmax angle (0, 0)%Z))%Z).
Proof.
  intros Hx Hy. unfold end_cell. cbn [fst snd]. rewrite <- !Int_part_shift. f_equal; f_equal; field; lra.
Qed.
Lemma Int_part_half r : Rabs (IZR (Int_part (r + 1 / 2)) - r) <= 1 / 2.
Proof. destruct (base_Int_part (r + 1 / 2)) as (A & B). apply Rabs_le. lra. Qed.
