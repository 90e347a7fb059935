(** The search line and the maximum upwind slope: C30, C31. *)
From Coq Require Import Reals List Bool ZArith Lia Lra.
From Verif Require Import RNum SpatModel BresModel BresSpec BresProofs HordModel HordSpec HordProofs.
Import ListNotations.
Local Open Scope Z_scope.

(** C31: the cells found are the cells of the straight line, in order, at most 500 of them, and the
    search stops early only beyond the border *)
Theorem C31_line : forall nx ny s f, fits s f ->
  let cells := find_line nx ny s f in
  1 <= Z.of_nat (length cells) <= 500 /\ Z.of_nat (length cells) <= steps s f + 1 /\
  (forall k, (k < length cells)%nat -> nth k cells (0, 0) = line_cell s f (Z.of_nat k)) /\
  (forall k, (S k < length cells)%nat -> 0 <= fst (nth k cells (0, 0)) <= nx /\ 0 <= snd (nth k cells (0, 0)) <= ny) /\
  (Z.of_nat (length cells) < 500 -> Z.of_nat (length cells) < steps s f + 1 ->
   ~ (0 <= fst (last cells (0, 0)) <= nx /\ 0 <= snd (last cells (0, 0)) <= ny)).
Proof.
  intros nx ny s f FT cells. destruct (find_line_spec s f nx ny FT) as (len & E & L1 & L2 & L3 & L4).
  fold cells in E. rewrite E, map_length, seq_length.
  assert (N : forall k, (k < S len)%nat -> nth k (map (lc s f) (seq 0 (S len))) (0, 0) = lc s f k).
  { intros k Hk. rewrite (nth_indep _ (0, 0) (lc s f 0)) by (now rewrite map_length, seq_length).
    rewrite map_nth, seq_nth by exact Hk. reflexivity. }
  split; [lia|]. split; [lia|]. split; [exact N|]. split.
  - intros k Hk. rewrite N by lia. apply L3. lia.
  - intros H1 H2. rewrite seq_S, map_app. cbn [map plus]. rewrite last_last. destruct L4 as [L4|[L4|L4]]; [lia|lia|exact L4].
Qed.
Print Assumptions C31_line.

(** C31: the cells of the straight line: from the start to the end, each a neighbour of the one before,
    none more than half a cell from the true line *)
Theorem C31_straight : forall s f, let n := steps s f in
  line_cell s f 0 = s /\ line_cell s f n = f /\
  (forall k, 0 < n -> adjacent (line_cell s f k) (line_cell s f (k + 1))) /\
  (forall k, 0 < n ->
     2 * Z.abs ((fst (line_cell s f k) - fst s) * n - k * (fst f - fst s)) <= n /\
     2 * Z.abs ((snd (line_cell s f k) - snd s) * n - k * (snd f - snd s)) <= n).
Proof.
  intros s f n. split; [apply lc_0|]. split; [apply lc_end|]. split; intros k Hn; [now apply lc_adjacent|now apply lc_nearest].
Qed.
Print Assumptions C31_straight.

(** C31: from a start in the domain, the elevations used are those of the line's cells in the domain (500 at most),
    no uninitialised memory *)
Theorem C31_samples : forall nx ny s f, fits s f -> inside nx ny s -> exists m,
  samples nx ny (find_line nx ny s f) = map (fun i => Some (line_cell s f (Z.of_nat i))) (seq 0 m) /\
  1 <= Z.of_nat m <= 500 /\ Z.of_nat m <= steps s f + 1 /\
  forall k, Z.of_nat k < 500 -> Z.of_nat k <= steps s f -> (k < m)%nat <-> inside nx ny (line_cell s f (Z.of_nat k)).
Proof.
  intros nx ny s f FT Hs. destruct (samples_spec s f nx ny FT Hs) as (m & E & M1 & M2 & M3).
  exists m. split; [exact E|]. split; [lia|]. split; [unfold steps in *; lia|]. intros k H1 H2. symmetry. apply M3; [lia|exact H2].
Qed.
Print Assumptions C31_samples.

(** C31: with differences too large for a C short the line is wrong even between valid coordinates *)
Theorem C31_long_lines_refuted :
  ~ (forall nx ny s f k, -32768 <= fst s <= 32767 -> -32768 <= snd s <= 32767 -> -32768 <= fst f <= 32767 -> -32768 <= snd f <= 32767 ->
       (k < length (find_line nx ny s f))%nat -> nth k (find_line nx ny s f) (0, 0) = line_cell s f (Z.of_nat k)).
Proof.
  intros H. specialize (H 30000 30000 (0, 0) (17000, 20000) (Z.to_nat 11)). cbn [fst snd] in H.
  specialize (H ltac:(lia) ltac:(lia) ltac:(lia) ltac:(lia)).
  assert (L : Nat.lt (Z.to_nat 11) (length (find_line 30000 30000 (0, 0) (17000, 20000)))).
  { apply Nat.ltb_lt. vm_compute. reflexivity. }
  specialize (H L). vm_compute in H. discriminate H.
Qed.
Print Assumptions C31_long_lines_refuted.

Local Open Scope R_scope.

(** C31: every cell searches along the same vector, within half a cell of [dmax] in the wind's direction *)
Theorem C31_search_vector : forall dx dy dmax angle, 0 < dx -> 0 < dy -> exists u v : Z,
  (forall c, end_cell dx dy dmax angle c = ((fst c + u)%Z, (snd c + v)%Z)) /\
  Rabs (IZR u * dx - dmax * cos (angle * (PI / 180) - PI / 2)) <= dx / 2 /\
  Rabs (IZR v * dy - dmax * sin (angle * (PI / 180) - PI / 2)) <= dy / 2.
Proof.
  intros dx dy dmax angle Hx Hy. exists (fst (end_cell dx dy dmax angle (0, 0)%Z)), (snd (end_cell dx dy dmax angle (0, 0)%Z)).
  split; [intros c; now apply end_cell_shift|]. unfold end_cell. cbn [fst snd]. rewrite !Rmult_0_l, !Rplus_0_l.
  set (a := dmax * cos _). set (b := dmax * sin _).
  pose proof (Int_part_half (a / dx)) as A. pose proof (Int_part_half (b / dy)) as B. split.
  - replace (IZR (Int_part (a / dx + 1 / 2)) * dx - a) with ((IZR (Int_part (a / dx + 1 / 2)) - a / dx) * dx) by (field; lra).
    rewrite Rabs_mult, (Rabs_pos_eq dx) by lra. replace (dx / 2) with (1 / 2 * dx) by field. apply Rmult_le_compat_r; lra.
  - replace (IZR (Int_part (b / dy + 1 / 2)) * dy - b) with ((IZR (Int_part (b / dy + 1 / 2)) - b / dy) * dy) by (field; lra).
    rewrite Rabs_mult, (Rabs_pos_eq dy) by lra. replace (dy / 2) with (1 / 2 * dy) by field. apply Rmult_le_compat_r; lra.
Qed.
Print Assumptions C31_search_vector.

(** C30: the scan always ends, with the slope from the first point to one of the others *)
Theorem C30_ends : forall h n p, (0 < n)%nat -> exists k, (k < n)%nat /\ ((1 < n)%nat -> (0 < k)%nat) /\
  hord_slope h n p = Some (slope h (p 0%nat) (p k)).
Proof. exact hord_later. Qed.
Print Assumptions C30_ends.

(** C30: along a ray, seen from the ground, it finds the steepest slope *)
Theorem C30_steepest_on_a_ray : forall n p, (1 < n)%nat ->
  distinct n (fun k => place_of (p k)) -> on_ray n (fun k => place_of (p k)) ->
  exists s, steepest 0 n (fun k => place_of (p k)) s /\ hord_slope 0 n p = Some (F s).
Proof. exact hord_steepest. Qed.
Print Assumptions C30_steepest_on_a_ray.

Definition profile3 (x0 y0 z0 x1 y1 z1 x2 y2 z2 : R) (k : nat) : point :=
  match k with O => mkPoint x0 y0 z0 | S O => mkPoint x1 y1 z1 | _ => mkPoint x2 y2 z2 end.

(** C30: with an instrument height (2 m by default) it need not be the steepest, even on a ray *)
Theorem C30_instrument_height_refuted :
  ~ (forall h n p, 0 < h -> (1 < n)%nat -> distinct n (fun k => place_of (p k)) -> on_ray n (fun k => place_of (p k)) ->
       exists s, steepest h n (fun k => place_of (p k)) s /\ hord_slope h n p = Some (F s)).
Proof.
  intros H. set (p := profile3 0 0 0 1 0 2 2 0 3).
  assert (D : forall i j, (i < j < 3)%nat -> run (p i) (p j) = INR j - INR i).
  { intros [|[|[|i]]] [|[|[|j]]] Hij; try lia; unfold run, p, profile3; cbn [px py pz INR];
      match goal with |- sqrt ?e = ?r => replace e with (r * r) by ring; apply sqrt_square; lra end. }
  destruct (H 2 3%nat p ltac:(lra) ltac:(lia)) as (s & (_ & S2) & E).
  - intros i j Hij. rewrite <- run_eq, D by exact Hij. assert (INR i < INR j) by (apply lt_INR; lia). lra.
  - intros i j k Hij Hk. rewrite <- !run_eq, !D by lia. lra.
  - assert (R01 : run (p 0%nat) (p 1%nat) = 1) by (rewrite D by lia; simpl; lra).
    assert (R12 : run (p 1%nat) (p 2%nat) = 1) by (rewrite D by lia; simpl; lra).
    assert (R02 : run (p 0%nat) (p 2%nat) = 2) by (rewrite D by lia; simpl; lra).
    assert (S01 : slope 2 (p 0%nat) (p 1%nat) = F 0).
    { unfold slope, fdiv. rewrite R01. destruct (reqb_spec 1 0); [lra|]. f_equal. simpl. field. }
    assert (S12 : slope 2 (p 1%nat) (p 2%nat) = F (-1)).
    { unfold slope, fdiv. rewrite R12. destruct (reqb_spec 1 0); [lra|]. f_equal. simpl. field. }
    assert (V : view 2 (place_of (p 0%nat)) (place_of (p 2%nat)) = 1 / 2).
    { unfold view. rewrite <- run_eq, R02. simpl. field. }
    specialize (S2 2%nat ltac:(lia)). cbn beta in S2. rewrite V in S2.
    assert (Q : hord_slope 2 3 p = Some (F 0)).
    { unfold hord_slope. cbn [scan search Nat.sub].
      assert (X : store (fun _ => 0%nat) 2 2 2 = 2%nat) by reflexivity. rewrite X.
      rewrite S12, (slope_self 2). rcasep. cbn [flt].
      cbn [scan search]. assert (X2 : store (store (fun _ => 0%nat) 2 2) 1 2 1 = 2%nat) by reflexivity.
      rewrite X2, S01, S12. cbn [flt]. rcasep. cbn [scan option_map].
      assert (X3 : store (store (store (fun _ => 0%nat) 2 2) 1 2) 0 1 0 = 1%nat) by reflexivity. rewrite X3, S01. reflexivity. }
    rewrite Q in E. injection E as <-. lra.
Qed.
Print Assumptions C30_instrument_height_refuted.

(** C30: nor on a line that is not a ray, even seen from the ground: the three cells (0,0), (1,0), (2,1) *)
Theorem C30_bent_line_refuted :
  ~ (forall n p, (1 < n)%nat -> distinct n (fun k => place_of (p k)) ->
       exists s, steepest 0 n (fun k => place_of (p k)) s /\ hord_slope 0 n p = Some (F s)).
Proof.
  intros H. set (p := profile3 0 0 0 1 0 1 2 1 (12 / 5)).
  assert (R01 : run (p 0%nat) (p 1%nat) = 1).
  { unfold run, p, profile3; cbn [px py pz]. replace (_ + _) with (1 * 1) by ring. apply sqrt_square. lra. }
  assert (R12 : run (p 1%nat) (p 2%nat) = sqrt 2).
  { unfold run, p, profile3; cbn [px py pz]. f_equal. ring. }
  assert (R02 : run (p 0%nat) (p 2%nat) = sqrt 5).
  { unfold run, p, profile3; cbn [px py pz]. f_equal. ring. }
  assert (Q2 : 7 / 5 < sqrt 2).
  { apply Rsqr_incrst_0; [|lra|apply sqrt_pos]. rewrite Rsqr_sqrt by lra. unfold Rsqr. lra. }
  assert (Q5 : 2 < sqrt 5 < 12 / 5).
  { split; apply Rsqr_incrst_0; try lra; try apply sqrt_pos; rewrite Rsqr_sqrt by lra; unfold Rsqr; lra. }
  destruct (H 3%nat p ltac:(lia)) as (s & (_ & S2) & E).
  - intros [|[|[|i]]] [|[|[|j]]] Hij; try lia; rewrite <- run_eq; [rewrite R01|rewrite R02|rewrite R12]; lra.
  - assert (S01 : slope 0 (p 0%nat) (p 1%nat) = F 1).
    { unfold slope, fdiv. rewrite R01. destruct (reqb_spec 1 0); [lra|]. f_equal. simpl. field. }
    assert (S12 : slope 0 (p 1%nat) (p 2%nat) = F (7 / 5 / sqrt 2)).
    { unfold slope, fdiv. rewrite R12. destruct (reqb_spec (sqrt 2) 0); [lra|]. f_equal. simpl. field. lra. }
    assert (V : view 0 (place_of (p 0%nat)) (place_of (p 2%nat)) = 12 / 5 / sqrt 5).
    { unfold view. rewrite <- run_eq, R02. simpl. field. lra. }
    assert (L1 : 7 / 5 / sqrt 2 < 1).
    { apply Rmult_lt_reg_r with (sqrt 2); [lra|]. unfold Rdiv at 1. rewrite Rmult_assoc, Rinv_l by lra. lra. }
    assert (L2 : 1 < 12 / 5 / sqrt 5).
    { apply Rmult_lt_reg_r with (sqrt 5); [lra|]. unfold Rdiv at 1. rewrite Rmult_assoc, Rinv_l by lra. lra. }
    specialize (S2 2%nat ltac:(lia)). cbn beta in S2. rewrite V in S2.
    assert (Q : hord_slope 0 3 p = Some (F 1)).
    { unfold hord_slope. cbn [scan search Nat.sub].
      assert (X : store (fun _ => 0%nat) 2 2 2 = 2%nat) by reflexivity. rewrite X.
      rewrite S12, (slope_self 0). destruct (rltb_spec 0 0); [lra|]. cbn [flt].
      cbn [scan search]. assert (X2 : store (store (fun _ => 0%nat) 2 2) 1 2 1 = 2%nat) by reflexivity.
      rewrite X2, S01, S12. cbn [flt]. destruct (rltb_spec 1 (7 / 5 / sqrt 2)); [lra|]. destruct (rltb_spec (7 / 5 / sqrt 2) 1); [|lra]. cbn [scan option_map].
      assert (X3 : store (store (store (fun _ => 0%nat) 2 2) 1 2) 0 1 0 = 1%nat) by reflexivity. rewrite X3, S01. reflexivity. }
    rewrite Q in E. injection E as <-. lra.
Qed.
Print Assumptions C30_bent_line_refuted.

(** C30: for a positive instrument height every cell gets a number of degrees above -89 and at most 90: the slope
    angle to some cell of its line in the domain, or 0 if it is steeper than -89 or the cell is alone *)
Theorem C30_maxus_defined : forall h nx ny xs ys elev s f, 0 < h -> fits s f -> inside nx ny s -> monotone nx xs -> monotone ny ys ->
  exists v, maxus_cell h nx ny xs ys elev s f = Some (F v) /\ -89 < v <= 90 /\
    (v = 0 \/ exists k, (0 < k)%nat /\ (Z.of_nat k <= steps s f)%Z /\ inside nx ny (line_cell s f (Z.of_nat k)) /\
       v = atan (view h (cell_place xs ys elev s) (cell_place xs ys elev (line_cell s f (Z.of_nat k)))) / c_pi * 180).
Proof.
  intros h nx ny xs ys elev s f Hh FT Hs Mx My.
  destruct (maxus_cell_eq h nx ny xs ys elev s f FT Hs) as (m & M1 & M2 & M3 & ->).
  set (p := fun k => cell_point xs ys elev (lc s f k)).
  destruct (hord_later h m p ltac:(lia)) as (k & K1 & K2 & ->). cbn [option_map].
  assert (P0 : p 0%nat = cell_point xs ys elev s) by (unfold p, lc; now rewrite lc_0).
  destruct (Nat.eq_dec m 1) as [E|N].
  - replace k with 0%nat by lia. rewrite (slope_self h). destruct (rltb_spec h 0); [lra|]. destruct (rltb_spec 0 h); [|lra].
    rewrite self_corrected. exists 0. split; [reflexivity|]. split; [lra|now left].
  - specialize (K2 ltac:(lia)).
    assert (P : (0 < steps s f)%Z) by (unfold steps in *; lia).
    assert (D : 0 < run (p 0%nat) (p k)).
    { rewrite run_eq. apply (line_distinct nx ny xs ys elev s f m P Mx My); [|exact M2|lia].
      intros q Hq. apply M3; [lia|unfold steps in *; lia|exact Hq]. }
    rewrite slope_finite by exact D. unfold degrees. cbn [fatan correct].
    set (a := atan _ / c_pi * 180). pose proof (degrees_range (view h (place_of (p 0%nat)) (place_of (p k)))) as R. fold a in R.
    destruct (rleb_spec a (-89)).
    + exists 0. split; [reflexivity|]. split; [lra|now left].
    + exists a. split; [reflexivity|]. split; [lra|]. right. exists k. split; [exact K2|]. split; [unfold steps in *; lia|]. split.
      * apply M3; [lia|unfold steps in *; lia|exact K1].
      * unfold a. rewrite P0. reflexivity.
Qed.
Print Assumptions C30_maxus_defined.

(** C30: for the cardinal wind directions and no instrument height maxus is the angle of the steepest slope to
    the cells of the line in the domain (NaN if there are none) *)
Theorem C30_maxus_cardinal : forall nx ny xs ys elev s f, fits s f -> inside nx ny s -> monotone nx xs -> monotone ny ys ->
  (fst s = fst f \/ snd s = snd f) ->
  exists m, (forall k, (k < Z.to_nat 500)%nat -> (Z.of_nat k <= steps s f)%Z -> (k < m)%nat <-> inside nx ny (line_cell s f (Z.of_nat k))) /\
   (m <= Z.to_nat 500)%nat /\ (m <= Z.to_nat (steps s f) + 1)%nat /\
   ((m = 1)%nat -> maxus_cell 0 nx ny xs ys elev s f = Some Nan) /\
   ((1 < m)%nat -> exists v, steepest 0 m (fun k => cell_place xs ys elev (line_cell s f (Z.of_nat k))) v /\
      maxus_cell 0 nx ny xs ys elev s f = Some (F (if rleb (atan v / c_pi * 180) (-89) then 0 else atan v / c_pi * 180))).
Proof.
  intros nx ny xs ys elev s f FT Hs Mx My C.
  destruct (maxus_cell_eq 0 nx ny xs ys elev s f FT Hs) as (m & M1 & M2 & M3 & ->). exists m.
  split; [intros k Hk Hk2; symmetry; now apply M3|]. split; [lia|]. split; [exact M2|].
  set (p := fun k => cell_point xs ys elev (lc s f k)). split.
  - intros ->. destruct (hord_later 0 1 p ltac:(lia)) as (k & K1 & _ & ->). replace k with 0%nat by lia. cbn [option_map].
    rewrite (slope_self 0). destruct (rltb_spec 0 0); [lra|]. reflexivity.
  - intros Hm. assert (P : (0 < steps s f)%Z) by (unfold steps in *; lia).
    assert (Hin : forall k, (k < m)%nat -> inside nx ny (lc s f k)).
    { intros k Hk. apply M3; [lia|unfold steps in *; lia|exact Hk]. }
    destruct (hord_steepest m p Hm) as (v & V1 & ->).
    + exact (line_distinct nx ny xs ys elev s f m P Mx My Hin M2).
    + exact (line_ray nx ny xs ys elev s f m P C Mx My Hin M2).
    + exists v. split; [exact V1|]. cbn [option_map]. unfold degrees. cbn [fatan correct].
      destruct (rleb_spec (atan v / c_pi * 180) (-89)); reflexivity.
Qed.
Print Assumptions C30_maxus_cardinal.

(** *** non-vacuity *)
Local Open Scope Z_scope.
Example C31_case : fits (2, 3) (9, 0) /\ inside 8 8 (2, 3) /\
  find_line 8 8 (2, 3) (9, 0) = [(2, 3); (3, 3); (4, 2); (5, 2); (6, 1); (7, 1); (8, 0); (9, 0)] /\
  samples 8 8 (find_line 8 8 (2, 3) (9, 0)) = map Some [(2, 3); (3, 3); (4, 2); (5, 2); (6, 1); (7, 1)].
Proof. repeat split; try (cbn; lia). Qed.
Example C31_case_border : find_line 3 8 (2, 3) (9, 0) = [(2, 3); (3, 3); (4, 2)] /\
  samples 3 8 (find_line 3 8 (2, 3) (9, 0)) = map Some [(2, 3)].
Proof. split; reflexivity. Qed.
Local Open Scope R_scope.
Example C30_case : monotone 5 IZR /\ monotone 5 (fun r => 100 - 30 * IZR r) /\ inside 5 5 (1, 1)%Z /\ fits (1, 1)%Z (1, -3)%Z.
Proof.
  split; [left; intros; apply IZR_lt; lia|]. split; [right; intros i j H1 H2; assert (IZR i < IZR j) by (apply IZR_lt; lia); lra|].
  split; [unfold inside|unfold fits]; cbn [fst snd]; lia.
Qed.
Definition rise5 (k : nat) : point := mkPoint (INR k) 0 (INR k * INR k).
Example C30_case_ray : distinct 5 (fun k => place_of (rise5 k)) /\ on_ray 5 (fun k => place_of (rise5 k)) /\
  steepest 0 5 (fun k => place_of (rise5 k)) 4.
Proof.
  assert (D : forall i j, (i <= j)%nat -> ground_distance (place_of (rise5 i)) (place_of (rise5 j)) = INR j - INR i).
  { intros i j Hij. unfold ground_distance, rise5. cbn [place_of at_x at_y px py]. apply le_INR in Hij.
    match goal with |- sqrt ?e = ?r => replace e with (r * r) by ring; apply sqrt_square; lra end. }
  split; [|split].
  - intros i j Hij. rewrite D by lia. assert (INR i < INR j) by (apply lt_INR; lia). lra.
  - intros i j k Hij Hk. rewrite !D by lia. lra.
  - split.
    + exists 4%nat. split; [lia|]. unfold view. rewrite D by lia. simpl. field.
    + intros k Hk. unfold view. rewrite D by lia. destruct k as [|[|[|[|[|k]]]]]; try lia; simpl; lra.
Qed.
