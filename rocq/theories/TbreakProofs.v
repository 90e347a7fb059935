From Coq Require Import Reals ZArith String List Bool Lia Lra.
From Verif Require Import RNum WinsModel SpatModel BresModel BresSpec BresProofs HordModel HordSpec HordProofs WindowModel WindowProofs TbreakModel TbreakSpec PropMaxus.
Import ListNotations.
Local Open Scope nat_scope.

(** ** the files *)
Lemma rounds_gen calc all : forall ds b k f,
  let f' := fold_left (fun f ia => output all (fst ia) (calc (snd ia)) f) (firstn k (combine (seq b (length ds)) ds)) f in
  f_kind f' = f_kind f /\ f_attrs f' = f_attrs f /\
  f_dirs f' = (if (k =? 0) || (length ds =? 0) then f_dirs f else map Some all) /\
  forall i c, f_vals f' i c =
    if (b <=? i) && (i <? b + k) && (i <? b + length ds) then Stored (calc (nth (i - b) ds 0%Z) c) else f_vals f i c.
Proof.
  induction ds as [|a ds IH]; intros b k f.
  - cbn [length seq combine]. rewrite firstn_nil. cbn [fold_left]. split; [reflexivity|]. split; [reflexivity|].
    split; [now rewrite orb_true_r|]. intros i c. destruct (Nat.leb_spec b i); cbn [andb]; [|reflexivity].
    destruct (Nat.ltb_spec i (b + 0)); [lia|]. now rewrite andb_false_r.
  - destruct k as [|k].
    + cbn [firstn fold_left]. split; [reflexivity|]. split; [reflexivity|]. split; [reflexivity|].
      intros i c. destruct (Nat.leb_spec b i); cbn [andb]; [|reflexivity]. destruct (Nat.ltb_spec i (b + 0)); [lia|reflexivity].
    + cbn [length seq combine firstn fold_left fst snd]. specialize (IH (S b) k (output all b (calc a) f)).
      cbv zeta in IH. destruct IH as (I1 & I2 & I3 & I4). rewrite I1, I2, I3.
      split; [reflexivity|]. split; [reflexivity|]. split.
      * unfold output at 1. cbn [f_dirs]. destruct ((k =? 0) || (length ds =? 0)); reflexivity.
      * intros i c. rewrite I4. unfold output. cbn [f_vals].
        destruct (Nat.eqb_spec i b) as [->|N].
        -- destruct (Nat.leb_spec (S b) b); [lia|]. cbn [andb].
           destruct (Nat.leb_spec b b); [|lia]. destruct (Nat.ltb_spec b (b + S k)); [|lia].
           destruct (Nat.ltb_spec b (b + S (length ds))); [|lia]. cbn [andb]. now rewrite Nat.sub_diag.
        -- replace (S b + k) with (b + S k) by lia. replace (S b + length ds) with (b + S (length ds)) by lia.
           destruct (Nat.leb_spec (S b) i), (Nat.leb_spec b i); cbn [andb]; try lia; try reflexivity.
           destruct ((i <? b + S k) && (i <? b + S (length ds))); [|reflexivity].
           replace (i - b) with (S (i - S b)) by lia. reflexivity.
Qed.
Lemma rounds_spec k calc ds f :
  let f' := rounds k calc ds f in
  f_kind f' = f_kind f /\ f_attrs f' = f_attrs f /\
  f_dirs f' = (if (k =? 0) || (length ds =? 0) then f_dirs f else map Some ds) /\
  forall i c, f_vals f' i c = if (i <? k) && (i <? length ds) then Stored (calc (nth i ds 0%Z) c) else f_vals f i c.
Proof.
  destruct (rounds_gen calc ds ds 0 k f) as (A & B & C & D). split; [exact A|]. split; [exact B|]. split; [exact C|].
  intros i c. unfold rounds. rewrite D. cbn [plus Nat.leb andb]. now rewrite Nat.sub_0_r.
Qed.
Lemma directions_len inc : (0 < inc)%Z -> let n := Z.of_nat (length (directions inc)) in ((n - 1) * inc < 360 <= n * inc)%Z.
Proof.
  intros Hi. unfold directions. rewrite map_length, seq_length. rewrite Z2Nat.id by (apply Z.div_pos; lia). cbv zeta.
  pose proof (Z.mul_div_le (360 + inc - 1) inc Hi). pose proof (Z.mul_succ_div_gt (360 + inc - 1) inc Hi). nia.
Qed.
Lemma directions_nth inc i : i < length (directions inc) -> nth_error (directions inc) i = Some (inc * Z.of_nat i)%Z /\
  nth i (directions inc) 0%Z = (inc * Z.of_nat i)%Z.
Proof.
  intros Hi. assert (E : nth_error (directions inc) i = Some (inc * Z.of_nat i)%Z).
  { unfold directions in *. rewrite map_length, seq_length in Hi. rewrite nth_error_map.
    rewrite (nth_error_nth' _ 0) by (now rewrite seq_length). rewrite seq_nth by exact Hi. reflexivity. }
  split; [exact E|]. now apply nth_error_nth.
Qed.
Local Open Scope R_scope.
Lemma Int_part_IZR n : Int_part (IZR n) = n.
Proof.
  destruct (base_Int_part (IZR n)) as (A & B). assert (IZR n < IZR (Int_part (IZR n) + 1)) by (rewrite plus_IZR; lra).
  apply le_IZR in A. apply lt_IZR in H. lia.
Qed.
Lemma uneven_spec d dx : uneven d dx = true <-> dx = 0 \/ ~ whole d dx.
Proof.
  unfold uneven. destruct (reqb_spec dx 0) as [E|N]; [tauto|]. rewrite negb_true_iff. split.
  - intros H. right. intros (n & ->). destruct (reqb_spec (IZR n * dx - dx * IZR (Int_part (IZR n * dx / dx))) 0) as [_|C]; [discriminate H|].
    apply C. replace (IZR n * dx / dx) with (IZR n) by (field; exact N). rewrite Int_part_IZR. ring.
  - intros [H|H]; [tauto|]. destruct (reqb_spec (d - dx * IZR (Int_part (d / dx))) 0) as [E|_]; [|reflexivity].
    exfalso. apply H. exists (Int_part (d / dx)). lra.
Qed.
Lemma uneven_no d dx : 0 < dx -> whole d dx -> uneven d dx = false.
Proof. intros P H. apply not_true_iff_false. rewrite uneven_spec. intros [E|E]; [lra|tauto]. Qed.

Lemma rounds_holds kd attrs inc k calc : (0 < inc)%Z ->
  holds (rounds k calc (directions inc) (output_init kd (directions inc) attrs)) kd attrs inc k calc.
Proof.
  intros Hi. destruct (rounds_spec k calc (directions inc) (output_init kd (directions inc) attrs)) as (A & B & C & D).
  pose proof (directions_len inc Hi) as L.
  assert (NZ : (length (directions inc) =? 0)%nat = false).
  { apply Nat.eqb_neq. intros E. rewrite E in L. cbn [Z.of_nat] in L. nia. }
  rewrite NZ, orb_false_r in C. unfold holds.
  assert (LN : length (f_dirs (rounds k calc (directions inc) (output_init kd (directions inc) attrs))) = length (directions inc)).
  { rewrite C. destruct (k =? 0)%nat; [cbn [output_init f_dirs]; apply map_length|apply map_length]. }
  rewrite LN. split; [exact A|]. split; [exact B|]. split; [exact L|]. split; [|split].
  - intros i H. rewrite C. destruct (directions_nth inc i H) as (E & _). destruct (Nat.eqb k 0).
    + cbn [output_init f_dirs]. now rewrite nth_error_map, E.
    + now rewrite nth_error_map, E.
  - intros i c H1 H2. rewrite D. apply Nat.ltb_lt in H1. rewrite H1. pose proof H2 as H3. apply Nat.ltb_lt in H3. rewrite H3. cbn [andb].
    now rewrite (proj2 (directions_nth inc i H2)).
  - intros i c H. rewrite D. apply Nat.ltb_ge in H. rewrite H. reflexivity.
Qed.
Lemma all_angles_pos inc : (0 < inc)%Z -> all_angles inc = Ok (directions inc).
Proof. intros H. unfold all_angles. destruct (Z.eqb_spec inc 0); [lia|reflexivity]. Qed.

(** ** the values *)
Lemma fsub_fin x y : fsub (F x) (F y) = F (x - y).
Proof. reflexivity. Qed.
Lemma tbreak_same g h a d c v : maxus_angle g h a d c = Some (F v) -> tbreak_angle g h a d d c = Some (F 0).
Proof. intros E. unfold tbreak_angle. rewrite E, fsub_fin. do 2 f_equal. ring. Qed.

(** cells in line with a row or a column *)
Lemma line_along_x s u k : (u <> 0)%Z -> line_cell s (fst s + u, snd s)%Z k = (fst s + k * Z.sgn u, snd s)%Z.
Proof.
  intros N. unfold line_cell, steps. cbn [fst snd]. replace (fst s + u - fst s)%Z with u by ring. replace (snd s - snd s)%Z with 0%Z by ring.
  replace (Z.max (Z.abs u) (Z.abs 0)) with (Z.abs u) by lia. rewrite rounded_flat by lia. f_equal; [|ring]. f_equal.
  assert (0 < u \/ u < 0)%Z as [P|P] by lia.
  - rewrite Z.abs_eq, Z.sgn_pos by lia. rewrite rounded_full by lia. ring.
  - rewrite Z.abs_neq, Z.sgn_neg by lia. replace u with (- - u)%Z at 1 by ring. rewrite rounded_back by lia. ring.
Qed.
Lemma line_along_y s u k : (u <> 0)%Z -> line_cell s (fst s, snd s + u)%Z k = (fst s, snd s + k * Z.sgn u)%Z.
Proof.
  intros N. unfold line_cell, steps. cbn [fst snd]. replace (snd s + u - snd s)%Z with u by ring. replace (fst s - fst s)%Z with 0%Z by ring.
  replace (Z.max (Z.abs 0) (Z.abs u)) with (Z.abs u) by lia. rewrite rounded_flat by lia. f_equal; [ring|]. f_equal.
  assert (0 < u \/ u < 0)%Z as [P|P] by lia.
  - rewrite Z.abs_eq, Z.sgn_pos by lia. rewrite rounded_full by lia. ring.
  - rewrite Z.abs_neq, Z.sgn_neg by lia. replace u with (- - u)%Z at 1 by ring. rewrite rounded_back by lia. ring.
Qed.
Lemma Int_part_mono x y : x <= y -> (Int_part x <= Int_part y)%Z.
Proof.
  intros H. destruct (base_Int_part x) as (A & B). destruct (base_Int_part y) as (A' & B').
  assert (IZR (Int_part x) < IZR (Int_part y + 1)) by (rewrite plus_IZR; lra). apply lt_IZR in H0. lia.
Qed.
Lemma Int_part_at n x : IZR n <= x < IZR n + 1 -> Int_part x = n.
Proof.
  intros (A & B). destruct (base_Int_part x) as (A' & B').
  assert (IZR n < IZR (Int_part x + 1)) by (rewrite plus_IZR; lra). assert (IZR (Int_part x) < IZR (n + 1)) by (rewrite plus_IZR; lra).
  apply lt_IZR in H. apply lt_IZR in H0. lia.
Qed.

Definition unit_step (e : Z * Z) : Prop := e = (1, 0)%Z \/ e = (-1, 0)%Z \/ e = (0, 1)%Z \/ e = (0, -1)%Z.
Definition shifted (c e : Z * Z) (a : Z) : Z * Z := (fst c + a * fst e, snd c + a * snd e)%Z.
Lemma shift_line c e a k : unit_step e -> (0 < a)%Z -> line_cell c (shifted c e a) k = shifted c e k.
Proof.
  intros U A. unfold shifted. destruct U as [->|[->|[->| ->]]]; cbn [fst snd].
  - rewrite !Z.mul_0_r, !Z.add_0_r. rewrite line_along_x by lia. rewrite Z.sgn_pos by lia. reflexivity.
  - rewrite !Z.mul_0_r, !Z.add_0_r. rewrite line_along_x by lia. rewrite Z.sgn_neg by lia. reflexivity.
  - rewrite !Z.mul_0_r, !Z.add_0_r. rewrite line_along_y by lia. rewrite Z.sgn_pos by lia. reflexivity.
  - rewrite !Z.mul_0_r, !Z.add_0_r. rewrite line_along_y by lia. rewrite Z.sgn_neg by lia. reflexivity.
Qed.
Lemma shift_steps c e a : unit_step e -> (0 <= a)%Z -> steps c (shifted c e a) = a.
Proof. intros U A. unfold steps, shifted. destruct U as [->|[->|[->| ->]]]; cbn [fst snd]; lia. Qed.
Lemma shift_fits c e a b : unit_step e -> (0 <= a <= b)%Z -> fits c (shifted c e b) -> fits c (shifted c e a).
Proof. intros U A. unfold fits, shifted. destruct U as [->|[->|[->| ->]]]; cbn [fst snd]; lia. Qed.

Lemma IZR_shift z d x : 0 < d -> (IZR z * d + x) / d + 1 / 2 = IZR z + (x / d + 1 / 2).
Proof. intros P. field. lra. Qed.
Lemma still z d : 0 < d -> Int_part ((IZR z * d + 0) / d + 1 / 2) = z.
Proof. intros P. apply Int_part_at. replace ((IZR z * d + 0) / d) with (IZR z) by (field; lra). lra. Qed.
Lemma forth d x y : 0 < d -> 0 <= x <= y -> (0 <= Int_part (x / d + 1 / 2) <= Int_part (y / d + 1 / 2))%Z.
Proof.
  intros P (A & B). split.
  - assert (Int_part 0 <= Int_part (x / d + 1 / 2))%Z; [|rewrite (Int_part_at 0 0) in H by lra; lia].
    apply Int_part_mono. assert (0 <= x / d) by (unfold Rdiv; apply Rmult_le_pos; [exact A|apply Rlt_le, Rinv_0_lt_compat, P]). lra.
  - apply Int_part_mono. assert (x / d <= y / d); [|lra]. unfold Rdiv. apply Rmult_le_compat_r; [|exact B]. apply Rlt_le, Rinv_0_lt_compat, P.
Qed.
Lemma back d x y : 0 < d -> 0 <= x <= y -> (0 <= - Int_part (- x / d + 1 / 2) <= - Int_part (- y / d + 1 / 2))%Z.
Proof.
  intros P (A & B).
  assert (I : 0 < / d) by (apply Rinv_0_lt_compat, P).
  assert (Int_part (- x / d + 1 / 2) <= Int_part (1 / 2))%Z.
  { apply Int_part_mono. assert (- x / d <= 0); [|lra]. unfold Rdiv. nra. }
  rewrite (Int_part_at 0 (1 / 2)) in H by lra.
  assert (Int_part (- y / d + 1 / 2) <= Int_part (- x / d + 1 / 2))%Z; [|lia].
  apply Int_part_mono. assert (- y / d <= - x / d); [|lra]. unfold Rdiv. apply Rmult_le_compat_r; lra.
Qed.
Lemma cardinal_end dx dy angle : 0 < dx -> 0 < dy -> cardinal angle -> exists e, unit_step e /\
  forall c s d, 0 <= s <= d -> exists a b, (0 <= a <= b)%Z /\
    end_cell dx dy s (IZR angle) c = shifted c e a /\ end_cell dx dy d (IZR angle) c = shifted c e b.
Proof.
  intros Px Py [->|[->|[->| ->]]].
  - exists (0, -1)%Z. split; [unfold unit_step; tauto|]. intros c s d H.
    exists (- Int_part (- s / dy + 1 / 2))%Z, (- Int_part (- d / dy + 1 / 2))%Z. split; [now apply back|].
    assert (C : cos (IZR 0 * (PI / 180) - PI / 2) = 0) by (replace (IZR 0 * (PI / 180) - PI / 2) with (- (PI / 2)) by (simpl; lra); now rewrite cos_neg, cos_PI2).
    assert (S : sin (IZR 0 * (PI / 180) - PI / 2) = -1) by (replace (IZR 0 * (PI / 180) - PI / 2) with (- (PI / 2)) by (simpl; lra); rewrite sin_neg, sin_PI2; lra).
    unfold end_cell, shifted. rewrite C, S. cbn [fst snd]. rewrite !Rmult_0_r, !still by exact Px.
    rewrite !IZR_shift by exact Py. rewrite !Int_part_shift. split; (f_equal; [ring|]).
    + replace (s * -1 / dy) with (- s / dy) by (field; lra). ring.
    + replace (d * -1 / dy) with (- d / dy) by (field; lra). ring.
  - exists (1, 0)%Z. split; [unfold unit_step; tauto|]. intros c s d H.
    exists (Int_part (s / dx + 1 / 2))%Z, (Int_part (d / dx + 1 / 2))%Z. split; [now apply forth|].
    assert (C : cos (IZR 90 * (PI / 180) - PI / 2) = 1) by (replace (IZR 90 * (PI / 180) - PI / 2) with 0 by (simpl; lra); apply cos_0).
    assert (S : sin (IZR 90 * (PI / 180) - PI / 2) = 0) by (replace (IZR 90 * (PI / 180) - PI / 2) with 0 by (simpl; lra); apply sin_0).
    unfold end_cell, shifted. rewrite C, S. cbn [fst snd]. rewrite !Rmult_0_r, !still by exact Py.
    rewrite !IZR_shift by exact Px. rewrite !Int_part_shift, !Rmult_1_r. split; (f_equal; ring).
  - exists (0, 1)%Z. split; [unfold unit_step; tauto|]. intros c s d H.
    exists (Int_part (s / dy + 1 / 2))%Z, (Int_part (d / dy + 1 / 2))%Z. split; [now apply forth|].
    assert (C : cos (IZR 180 * (PI / 180) - PI / 2) = 0) by (replace (IZR 180 * (PI / 180) - PI / 2) with (PI / 2) by (simpl; lra); apply cos_PI2).
    assert (S : sin (IZR 180 * (PI / 180) - PI / 2) = 1) by (replace (IZR 180 * (PI / 180) - PI / 2) with (PI / 2) by (simpl; lra); apply sin_PI2).
    unfold end_cell, shifted. rewrite C, S. cbn [fst snd]. rewrite !Rmult_0_r, !still by exact Px.
    rewrite !IZR_shift by exact Py. rewrite !Int_part_shift, !Rmult_1_r. split; (f_equal; ring).
  - exists (-1, 0)%Z. split; [unfold unit_step; tauto|]. intros c s d H.
    exists (- Int_part (- s / dx + 1 / 2))%Z, (- Int_part (- d / dx + 1 / 2))%Z. split; [now apply back|].
    assert (C : cos (IZR 270 * (PI / 180) - PI / 2) = -1) by (replace (IZR 270 * (PI / 180) - PI / 2) with PI by (simpl; lra); apply cos_PI).
    assert (S : sin (IZR 270 * (PI / 180) - PI / 2) = 0) by (replace (IZR 270 * (PI / 180) - PI / 2) with PI by (simpl; lra); apply sin_PI).
    unfold end_cell, shifted. rewrite C, S. cbn [fst snd]. rewrite !Rmult_0_r, !still by exact Py.
    rewrite !IZR_shift by exact Px. rewrite !Int_part_shift. split; (f_equal; [|ring]).
    + replace (s * -1 / dx) with (- s / dx) by (field; lra). ring.
    + replace (d * -1 / dx) with (- d / dx) by (field; lra). ring.
Qed.

Lemma cardinal_axis c e a : unit_step e -> fst c = fst (shifted c e a) \/ snd c = snd (shifted c e a).
Proof. intros U. unfold shifted. destruct U as [->|[->|[->| ->]]]; cbn [fst snd]; lia. Qed.
Lemma cardinal_nested (nx ny : Z) xs ys elev c e a b : unit_step e -> (0 <= a <= b)%Z -> fits c (shifted c e b) -> inside nx ny c ->
  monotone nx xs -> monotone ny ys ->
  maxus_cell 0 nx ny xs ys elev c (shifted c e a) = Some Nan \/
  exists vs vo, vs <= vo /\
    (forall k, (0 < k < Z.to_nat 500)%nat -> (Z.of_nat k <= a)%Z -> inside nx ny (line_cell c (shifted c e a) (Z.of_nat k)) ->
       view 0 (cell_place xs ys elev c) (cell_place xs ys elev (line_cell c (shifted c e a) (Z.of_nat k))) <= vs) /\
    maxus_cell 0 nx ny xs ys elev c (shifted c e a) = Some (F (if rleb (atan vs / c_pi * 180) (-89) then 0 else atan vs / c_pi * 180)) /\
    maxus_cell 0 nx ny xs ys elev c (shifted c e b) = Some (F (if rleb (atan vo / c_pi * 180) (-89) then 0 else atan vo / c_pi * 180)).
Proof.
  intros U AB FB IN MX MY. pose proof (shift_fits c e a b U AB FB) as FA.
  destruct (C30_maxus_cardinal nx ny xs ys elev c _ FA IN MX MY (cardinal_axis c e a U)) as (ms & S1 & S2 & S3 & S4 & S5).
  destruct (C30_maxus_cardinal nx ny xs ys elev c _ FB IN MX MY (cardinal_axis c e b U)) as (mo & O1 & O2 & O3 & O4 & O5).
  rewrite !shift_steps in * by (auto; lia).
  assert (P500 : (0 < Z.to_nat 500)%nat) by (apply Nat2Z.inj_lt; rewrite Z2Nat.id; lia).
  assert (M0 : (0 < ms)%nat) by (apply S1; [exact P500|lia|]; now rewrite (lc_0 c)).
  destruct (Nat.eq_dec ms 1) as [E1|N1]; [left; now apply S4|right].
  assert (A0 : (0 < a)%Z) by lia.
  assert (LE : (ms <= mo)%nat).
  { destruct (le_lt_dec ms mo) as [|C]; [assumption|]. exfalso.
    assert (K : (mo < ms)%nat) by exact C. apply S1 in K; [|lia|lia]. rewrite shift_line in K by (auto; lia).
    assert (X : (mo < mo)%nat); [|lia]. apply O1; [lia|lia|]. now rewrite shift_line by (auto; lia). }
  destruct (S5 ltac:(lia)) as (vs & (Sx & Sy) & SE). destruct (O5 ltac:(lia)) as (vo & (Ox & Oy) & OE).
  exists vs, vo. split; [|split; [|split; [exact SE|exact OE]]].
  - destruct Sx as (k & Hk & ->). specialize (Oy k ltac:(lia)). cbv beta in Oy |- *. rewrite !shift_line in * by (auto; lia). exact Oy.
  - intros k K1 K2 K3. apply S1 in K3; [|lia|exact K2]. specialize (Sy k ltac:(lia)). cbv beta in Sy.
    change (Z.of_nat 0) with 0%Z in Sy. rewrite lc_0 in Sy. exact Sy.
Qed.
Lemma tbreak_cardinal g angle dmax sepdist c : 0 < t_dx g -> 0 < t_dy g -> cardinal angle -> 0 <= sepdist <= dmax ->
  let far := end_cell (t_dx g) (t_dy g) dmax (IZR angle) c in
  let near := end_cell (t_dx g) (t_dy g) sepdist (IZR angle) c in
  fits c far -> inside (t_nx g) (t_ny g) c -> monotone (t_nx g) (t_x g) -> monotone (t_ny g) (t_y g) ->
  tbreak_angle g 0 angle dmax sepdist c = Some Nan \/
  exists v, tbreak_angle g 0 angle dmax sepdist c = Some (F v) /\
    (v <= 0 \/
     0 < v < 89 /\ forall k, (0 < k < Z.to_nat 500)%nat -> (Z.of_nat k <= steps c near)%Z -> inside (t_nx g) (t_ny g) (line_cell c near (Z.of_nat k)) ->
       atan (view 0 (cell_place (t_x g) (t_y g) (t_dem g) c) (cell_place (t_x g) (t_y g) (t_dem g) (line_cell c near (Z.of_nat k)))) / c_pi * 180 <= -89).
Proof.
  intros Px Py CA SD far near FT IN MX MY. destruct (cardinal_end _ _ _ Px Py CA) as (e & U & EE).
  destruct (EE c sepdist dmax SD) as (a & b & AB & En & Ef). fold near in En. fold far in Ef.
  unfold tbreak_angle, maxus_angle. fold far near. rewrite En, Ef in *.
  destruct (cardinal_nested (t_nx g) (t_ny g) (t_x g) (t_y g) (t_dem g) c e a b U AB FT IN MX MY) as [EN|(vs & vo & L & B & E1 & E2)].
  - left. rewrite EN. destruct (C30_maxus_cardinal _ _ _ _ (t_dem g) c _ FT IN MX MY (cardinal_axis c e b U)) as (mo & O1 & O2 & O3 & O4 & O5).
    assert (MO : (0 < mo)%nat).
    { apply O1; [apply Nat2Z.inj_lt; rewrite Z2Nat.id; lia|rewrite shift_steps by (auto; lia); lia|]. now rewrite (lc_0 c). }
    destruct (Nat.eq_dec mo 1) as [E|N]; [rewrite (O4 E); reflexivity|]. destruct (O5 ltac:(lia)) as (v & _ & ->). reflexivity.
  - right. rewrite E1, E2, fsub_fin. pose proof (degrees_mono _ _ L) as M. eexists. split; [reflexivity|].
    rewrite shift_steps by (auto; lia).
    destruct (rleb_spec (atan vs / c_pi * 180) (-89)) as [Q|Q], (rleb_spec (atan vo / c_pi * 180) (-89)) as [Q'|Q']; try lra.
    destruct (Rle_dec 0 (atan vo / c_pi * 180)) as [Z|Z]; [left; lra|]. right. split; [lra|].
    intros k K1 K2 K3. eapply Rle_trans; [|exact Q]. apply degrees_mono. now apply B.
Qed.
Lemma tbreak_range g h angle dmax sepdist c : 0 < h ->
  fits c (end_cell (t_dx g) (t_dy g) dmax (IZR angle) c) -> fits c (end_cell (t_dx g) (t_dy g) sepdist (IZR angle) c) ->
  inside (t_nx g) (t_ny g) c -> monotone (t_nx g) (t_x g) -> monotone (t_ny g) (t_y g) ->
  exists o l, maxus_angle g h angle dmax c = Some (F o) /\ maxus_angle g h angle sepdist c = Some (F l) /\
    tbreak_angle g h angle dmax sepdist c = Some (F (l - o)) /\ -179 < l - o < 179.
Proof.
  intros H F1 F2 IN MX MY.
  destruct (C30_maxus_defined h _ _ _ _ (t_dem g) c _ H F1 IN MX MY) as (o & Eo & Ro & _).
  destruct (C30_maxus_defined h _ _ _ _ (t_dem g) c _ H F2 IN MX MY) as (l & El & Rl & _).
  exists o, l. unfold tbreak_angle, maxus_angle. rewrite Eo, El, fsub_fin. split; [reflexivity|]. split; [reflexivity|]. split; [reflexivity|]. lra.
Qed.

(** ** the scan on a line with whole coordinates and elevations, computed with whole numbers *)
Section Whole.
Context (hz : Z) (z : nat -> Z) (hpos : (0 < hz)%Z).
Definition wp (k : nat) : point := mkPoint (IZR (Z.of_nat k)) 0 (IZR (z k)).
Definition gap (i j : nat) : Z := Z.abs (Z.of_nat j - Z.of_nat i).
Definition rise (i j : nat) : Z := (z j - (hz + z i))%Z.
Definition ltw (i j k l : nat) : bool :=
  if Nat.eqb i j then negb (Nat.eqb k l) else if Nat.eqb k l then false else (rise i j * gap k l <? rise k l * gap i j)%Z.
Lemma wp_slope i j : slope (IZR hz) (wp i) (wp j) = if Nat.eqb i j then MInf else F (IZR (rise i j) / IZR (gap i j)).
Proof.
  destruct (Nat.eqb_spec i j) as [->|N].
  - rewrite slope_self. apply IZR_lt in hpos. destruct (rltb_spec (IZR hz) 0); [lra|]. destruct (rltb_spec 0 (IZR hz)); [reflexivity|lra].
  - assert (E : run (wp i) (wp j) = IZR (gap i j)).
    { unfold run, wp, gap. cbn [px py]. replace ((0 - 0) * (0 - 0)) with 0 by ring. rewrite Rplus_0_r, sqrt_abs, <- minus_IZR, abs_IZR. reflexivity. }
    assert (P : 0 < IZR (gap i j)) by (apply IZR_lt; unfold gap; lia).
    rewrite slope_finite by (rewrite E; exact P). unfold view. rewrite <- run_eq, E. unfold wp, place_of. cbn [at_z pz].
    do 2 f_equal. unfold rise. now rewrite minus_IZR, plus_IZR.
Qed.
Lemma wp_lt i j k l : flt (slope (IZR hz) (wp i) (wp j)) (slope (IZR hz) (wp k) (wp l)) = ltw i j k l.
Proof.
  rewrite !wp_slope. unfold ltw. destruct (Nat.eqb_spec i j) as [E|N], (Nat.eqb_spec k l) as [E'|N']; try reflexivity.
  cbn [flt]. assert (P : 0 < IZR (gap i j)) by (apply IZR_lt; unfold gap; lia).
  assert (P' : 0 < IZR (gap k l)) by (apply IZR_lt; unfold gap; lia).
  assert (Q : IZR (rise i j) / IZR (gap i j) < IZR (rise k l) / IZR (gap k l) <-> (rise i j * gap k l < rise k l * gap i j)%Z).
  { split; intros H.
    - apply lt_IZR. rewrite !mult_IZR. apply (Rmult_lt_compat_r (IZR (gap i j) * IZR (gap k l))) in H; [|nra].
      replace (IZR (rise i j) / IZR (gap i j) * (IZR (gap i j) * IZR (gap k l))) with (IZR (rise i j) * IZR (gap k l)) in H by (field; lra).
      replace (IZR (rise k l) / IZR (gap k l) * (IZR (gap i j) * IZR (gap k l))) with (IZR (rise k l) * IZR (gap i j)) in H by (field; lra).
      exact H.
    - apply IZR_lt in H. rewrite !mult_IZR in H. apply (Rmult_lt_reg_r (IZR (gap i j) * IZR (gap k l))); [nra|].
      replace (IZR (rise i j) / IZR (gap i j) * (IZR (gap i j) * IZR (gap k l))) with (IZR (rise i j) * IZR (gap k l)) by (field; lra).
      replace (IZR (rise k l) / IZR (gap k l) * (IZR (gap i j) * IZR (gap k l))) with (IZR (rise k l) * IZR (gap i j)) by (field; lra).
      exact H. }
  destruct (rltb_spec (IZR (rise i j) / IZR (gap i j)) (IZR (rise k l) / IZR (gap k l))) as [X|X];
    destruct (Z.ltb_spec (rise i j * gap k l) (rise k l * gap i j)) as [Y|Y]; try reflexivity.
  - apply Q in X. lia.
  - apply Q in Y. tauto.
Qed.
Fixpoint search_w (fuel n : nat) (H : nat -> nat) (i j : nat) : option nat :=
  match fuel with
  | O => None
  | S f => if ltw i j j (H j) then if Nat.eqb j (n - 1) then Some j else search_w f n H i (H j)
           else if ltw j (H j) i j then Some j else Some (H j)
  end.
Fixpoint scan_w (n i : nat) (H : nat -> nat) : option (nat -> nat) :=
  match i with
  | O => Some H
  | S i' => match search_w n n H i' i with None => None | Some h => scan_w n i' (store H i' h) end
  end.
Lemma search_whole n H : forall fuel i j, search fuel (IZR hz) n wp H i j = search_w fuel n H i j.
Proof. induction fuel as [|f IH]; intros i j; [reflexivity|]. cbn [search search_w]. rewrite !wp_lt, IH. reflexivity. Qed.
Lemma scan_whole n : forall i H, scan (IZR hz) n wp i H = scan_w n i H.
Proof. induction i as [|i IH]; intros H; [reflexivity|]. cbn [scan scan_w]. rewrite search_whole. destruct (search_w n n H i (S i)); [apply IH|reflexivity]. Qed.
Lemma hord_whole n : hord_slope (IZR hz) n wp =
  option_map (fun H => slope (IZR hz) (wp 0) (wp (H 0%nat))) (scan_w n (n - 1) (store (fun _ => 0%nat) (n - 1) (n - 1))).
Proof. unfold hord_slope. now rewrite scan_whole. Qed.
End Whole.

(** ** a terrace: level for four cells, two metres lower beyond *)
Definition drop (k : nat) : Z := if (k <? 4)%nat then 0%Z else (-2)%Z.
Definition terrace : terrain := mkTerrain 6 2 IZR IZR (fun c => if (fst c <? 4)%Z then 0 else -2).
Lemma terrace_dx : t_dx terrace = 1.
Proof. unfold t_dx. cbn [terrace t_x]. rewrite Rabs_pos_eq; lra. Qed.
Lemma terrace_dy : t_dy terrace = 1.
Proof. unfold t_dy. cbn [terrace t_y]. rewrite Rabs_pos_eq; lra. Qed.
Lemma terrace_monotone n : monotone n IZR.
Proof. left. intros i j H _. apply IZR_lt. lia. Qed.
Lemma terrace_end d : (0 <= d)%Z -> end_cell (t_dx terrace) (t_dy terrace) (IZR d) (IZR 90) (0, 0)%Z = (d, 0)%Z.
Proof.
  intros D. rewrite terrace_dx, terrace_dy.
  assert (C : cos (IZR 90 * (PI / 180) - PI / 2) = 1) by (replace (IZR 90 * (PI / 180) - PI / 2) with 0 by (simpl; lra); apply cos_0).
  assert (S : sin (IZR 90 * (PI / 180) - PI / 2) = 0) by (replace (IZR 90 * (PI / 180) - PI / 2) with 0 by (simpl; lra); apply sin_0).
  unfold end_cell. rewrite C, S. cbn [fst snd]. f_equal; apply Int_part_at; lra.
Qed.
Lemma terrace_maxus d (m : nat) (k : nat) : (0 < d < 6)%Z -> m = Z.to_nat (d + 1) ->
  option_map (fun H => H 0%nat) (scan_w 2 drop m (m - 1) (store (fun _ => 0%nat) (m - 1) (m - 1))) = Some k ->
  maxus_angle terrace 2 90 (IZR d) (0, 0)%Z = Some (correct (degrees (slope 2 (wp drop 0) (wp drop k)))).
Proof.
  intros D Hm E. unfold maxus_angle. rewrite terrace_end by lia.
  assert (FT : fits (0, 0)%Z (d, 0)%Z) by (unfold fits; cbn [fst snd]; lia).
  assert (IN : inside 6 2 (0, 0)%Z) by (unfold inside; cbn [fst snd]; lia).
  destruct (maxus_cell_eq 2 6 2 IZR IZR (t_dem terrace) (0, 0)%Z (d, 0)%Z FT IN) as (m' & M1 & M2 & M3 & EQ).
  cbn [t_nx t_ny t_x t_y terrace] in *. rewrite EQ.
  assert (ST : steps (0, 0)%Z (d, 0)%Z = d) by (unfold steps; cbn [fst snd]; lia).
  assert (LC : forall q, lc (0, 0)%Z (d, 0)%Z q = (Z.of_nat q, 0)%Z).
  { intros q. unfold lc. change (d, 0)%Z with (fst (0, 0)%Z + d, snd (0, 0)%Z)%Z. rewrite line_along_x by lia. cbn [fst snd].
    rewrite Z.sgn_pos by lia. f_equal; lia. }
  rewrite ST in *.
  assert (P5 : (Z.to_nat 5 < Z.to_nat 500)%nat) by (apply Z2Nat.inj_lt; lia).
  assert (m' = m).
  { assert (K : (Z.to_nat d < m')%nat); [|lia]. apply M3; [lia|lia|]. rewrite LC. unfold inside. cbn [fst snd]. lia. }
  subst m'. rewrite (hord_ext 2 m _ (wp drop)) by (try lia; intros q Hq; rewrite LC; unfold cell_point, wp, drop; cbn [fst snd t_dem terrace]; f_equal;
    destruct (Z.ltb_spec (Z.of_nat q) 4), (Nat.ltb_spec q 4); try lia; reflexivity).
  change 2 with (IZR 2). rewrite hord_whole by lia.
  destruct (scan_w 2 drop m (m - 1) (store (fun _ => 0%nat) (m - 1) (m - 1))) as [H|]; [|discriminate E].
  cbn [option_map] in E |- *. injection E as ->. reflexivity.
Qed.
Lemma terrace_values :
  maxus_angle terrace 2 90 (IZR 3) (0, 0)%Z = Some (F (atan (-2 / 3) / c_pi * 180)) /\
  maxus_angle terrace 2 90 (IZR 5) (0, 0)%Z = Some (F (atan (-4 / 5) / c_pi * 180)) /\
  -45 < atan (-4 / 5) / c_pi * 180 < atan (-2 / 3) / c_pi * 180 /\ atan (-2 / 3) / c_pi * 180 < 0.
Proof.
  pose proof c_pi_pos as CP. pose proof pi_high as PH.
  assert (A1 : - (PI / 4) < atan (-4 / 5)) by (rewrite <- atan_1, <- atan_opp; apply atan_increasing; lra).
  assert (A2 : atan (-4 / 5) < atan (-2 / 3)) by (apply atan_increasing; lra).
  assert (A3 : atan (-2 / 3) < 0) by (rewrite <- atan_0; apply atan_increasing; lra).
  assert (I : 0 < / c_pi) by (apply Rinv_0_lt_compat, CP).
  assert (B1 : -45 < atan (-4 / 5) / c_pi * 180).
  { apply (Rmult_lt_reg_r c_pi); [exact CP|]. replace (atan (-4 / 5) / c_pi * 180 * c_pi) with (atan (-4 / 5) * 180) by (field; lra). lra. }
  assert (B2 : atan (-4 / 5) / c_pi * 180 < atan (-2 / 3) / c_pi * 180).
  { unfold Rdiv. apply Rmult_lt_compat_r; [lra|]. apply Rmult_lt_compat_r; [exact I|exact A2]. }
  assert (B3 : atan (-2 / 3) / c_pi * 180 < 0) by (unfold Rdiv; nra).
  assert (K3 : correct (degrees (slope 2 (wp drop 0) (wp drop 3))) = F (atan (-2 / 3) / c_pi * 180)).
  { change 2 with (IZR 2). rewrite wp_slope by lia. cbn [Nat.eqb]. change (IZR (rise 2 drop 0 3) / IZR (gap 0 3)) with (-2 / 3).
    cbn [degrees fatan correct]. destruct (rleb_spec (atan (-2 / 3) / c_pi * 180) (-89)); [lra|reflexivity]. }
  assert (K5 : correct (degrees (slope 2 (wp drop 0) (wp drop 5))) = F (atan (-4 / 5) / c_pi * 180)).
  { change 2 with (IZR 2). rewrite wp_slope by lia. cbn [Nat.eqb]. change (IZR (rise 2 drop 0 5) / IZR (gap 0 5)) with (-4 / 5).
    cbn [degrees fatan correct]. destruct (rleb_spec (atan (-4 / 5) / c_pi * 180) (-89)); [lra|reflexivity]. }
  split; [|split; [|split; [split; [exact B1|exact B2]|exact B3]]].
  - rewrite <- K3. apply (terrace_maxus 3 4 3); [lia|reflexivity|vm_compute; reflexivity].
  - rewrite <- K5. apply (terrace_maxus 5 6 5); [lia|reflexivity|vm_compute; reflexivity].
Qed.

(** ** windows of unfinished files *)
Lemma combine_seq (g : nat -> Z) : forall n b, combine (seq b n) (map g (seq b n)) = map (fun i => (i, g i)) (seq b n).
Proof. induction n as [|n IH]; intros b; [reflexivity|]. cbn [seq map combine]. now rewrite IH. Qed.
Lemma filter_map {A B} (g : A -> B) p l : filter p (map g l) = map g (filter (fun a => p (g a)) l).
Proof. induction l as [|a l IH]; [reflexivity|]. cbn [map filter]. destruct (p (g a)); cbn [map]; now rewrite IH. Qed.
Lemma fsum_fin l : forall a, fold_left fadd (map F l) (F a) = F (fold_left Rplus l a).
Proof. induction l as [|x l IH]; intros a; [reflexivity|]. cbn [map fold_left fadd]. apply IH. Qed.
Lemma sum_left l : forall a, fold_left Rplus l a = a + fold_right Rplus 0 l.
Proof. induction l as [|x l IH]; intros a; cbn [fold_left fold_right]; [ring|]. rewrite IH. ring. Qed.
Lemma window_unfinished inc q d k f kd attrs val c : (0 < inc -> 360 mod inc = 0 -> 0 <= q -> q * inc < 360 -> 0 <= d < 360 -> d mod inc = 0 ->
  holds f kd attrs inc k (fun e c => Some (F (val e c))) ->
  exists sel, NoDup sel /\
    (forall e, In e sel <-> (0 <= e < 360 /\ e mod inc = 0) /\
       (Z.abs (e - d) <= q * inc \/ d + 360 - e <= q * inc \/ (e + 360 - d <= q * inc /\ e <> 0)) /\ e < inc * Z.of_nat k) /\
    window_value inc (2 * q * inc) d f c =
      match sel with [] => None | _ => Some (F (fold_right Rplus 0 (map (fun e => val e c) sel) / INR (length sel))%R) end)%Z.
Proof.
  intros Hi H360 Hq Hw Hd Dd (_ & _ & HL & _ & HV & HF).
  set (n := length (directions inc)).
  assert (LN : length (f_dirs f) = n).
  { pose proof (directions_len inc Hi) as L. fold n in L. cbv zeta in *. nia. }
  assert (DS : directions inc = map (fun i => inc * Z.of_nat i)%Z (seq 0 n)) by (unfold n, directions; now rewrite map_length, seq_length).
  set (pick := fun i => included inc (2 * q * inc) d (inc * Z.of_nat i)).
  set (sel := map (fun i => inc * Z.of_nat i)%Z (filter (fun i => (i <? k)%nat) (filter pick (seq 0 n)))).
  exists sel. split; [|split].
  - apply FinFun.Injective_map_NoDup; [intros a b H; apply Z.mul_reg_l in H; lia|]. apply NoDup_filter, NoDup_filter, seq_NoDup.
  - intros e. assert (Id : In d (directions inc)) by (apply directions_spec; auto).
    unfold sel. rewrite in_map_iff. split.
    + intros (i & <- & Hin). apply filter_In in Hin. destruct Hin as (Hin & Hk). apply filter_In in Hin. destruct Hin as (Hin & Hp).
      assert (Ie : In (inc * Z.of_nat i)%Z (directions inc)) by (rewrite DS; apply in_map_iff; now exists i).
      pose proof Ie as Ie2. apply directions_spec in Ie2; [|exact Hi]. split; [exact Ie2|]. split; [now apply aligned|]. apply Nat.ltb_lt in Hk. nia.
    + intros (He & Hwin & Hk). apply directions_spec in He; [|exact Hi]. pose proof He as Ie. rewrite DS in He. apply in_map_iff in He.
      destruct He as (i & <- & Hin). exists i. split; [reflexivity|]. apply filter_In. split; [|apply Nat.ltb_lt; nia].
      apply filter_In. split; [exact Hin|]. unfold pick. now apply aligned.
  - unfold window_value. fold n. rewrite DS, combine_seq, filter_map. cbn [snd]. fold pick.
    assert (E : flat_map (fun ie => stored (f_vals f (fst ie) c)) (map (fun i => (i, inc * Z.of_nat i)%Z) (filter pick (seq 0 n))) =
                map F (map (fun e => val e c) sel)).
    { unfold sel. assert (Hn : forall i, In i (filter pick (seq 0 n)) -> (i < n)%nat) by (intros i Hin; apply filter_In in Hin; destruct Hin as (Hin & _); apply in_seq in Hin; lia).
      induction (filter pick (seq 0 n)) as [|i l IH]; [reflexivity|].
      cbn [map flat_map filter fst]. rewrite IH by (intros j Hj; apply Hn; now right). specialize (Hn i (or_introl eq_refl)).
      destruct (Nat.ltb_spec i k) as [K|K].
      - rewrite HV by (rewrite ?LN; assumption). reflexivity.
      - rewrite HF by exact K. reflexivity. }
    rewrite E. destruct sel as [|e l] eqn:ES; [reflexivity|]. cbn [map]. rewrite <- (map_cons F), <- (map_cons (fun e => val e c)).
    rewrite fsum_fin, sum_left, Rplus_0_l, !map_length. cbn [length].
    assert (P : INR (S (length l)) <> 0) by (apply not_0_INR; discriminate).
    unfold fdiv. destruct (reqb_spec (INR (S (length l))) 0); [tauto|]. reflexivity.
Qed.
