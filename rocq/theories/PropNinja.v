(** C79: wind fields from WindNinja files. *)
From Coq Require Import Reals List Bool Arith ZArith Lia Lra.
From Verif Require Import RNum RTrig WinsModel WinsSpec WinsProofs NinjaModel NinjaSpec NinjaProofs.
Import ListNotations.
Local Open Scope R_scope.

(** Filling the edges succeeds exactly for gaps at the left and at the bottom.  The columns
    at the left continue the line through the first two columns with data, then the rows at
    the bottom continue the line through the last two rows. *)
Theorem C79_fill : forall ny nx xs ys g k r, eastward nx xs -> southward ny ys -> fillable ny nx g k r ->
  exists g', fill_data ny nx xs ys g = Ok g' /\
  (forall i j, (i < ny - r)%nat -> (k <= j < nx)%nat -> g' i j = g i j) /\
  (forall i j, (i < ny - r)%nat -> (j < k)%nat -> exists a b, g i k = Some a /\ g i (k + 1)%nat = Some b /\
     g' i j = Some (through (xs k) a (xs (k + 1)%nat) b (xs j))) /\
  (forall i j, (ny - r <= i < ny)%nat -> (j < nx)%nat -> exists a b,
     g' (ny - r - 1)%nat j = Some a /\ g' (ny - r - 2)%nat j = Some b /\
     g' i j = Some (through (ys (ny - r - 1)%nat) a (ys (ny - r - 2)%nat) b (ys i))).
Proof. intros ny nx xs ys g k r He Hs H. exact (fill_ok ny nx xs ys g k r He Hs H). Qed.
Print Assumptions C79_fill.

Theorem C79_fill_only : forall ny nx xs ys g g', fill_data ny nx xs ys g = Ok g' ->
  (exists k r, fillable ny nx g k r) /\
  (forall i j, (i < ny)%nat -> (j < nx)%nat -> g' i j <> None).
Proof. intros ny nx xs ys g g' H. exact (fill_inv ny nx xs ys g g' H). Qed.
Print Assumptions C79_fill_only.

(** strips without data at the left and at the bottom are such gaps *)
Theorem C79_strips : forall ny nx g k r, edge_gap ny nx g k r -> (0 < ny)%nat -> (k + 2 <= nx)%nat ->
  (r = 0 \/ r + 2 <= ny)%nat -> fillable ny nx g k r.
Proof.
  intros ny nx g k r H H0 Hk Hr. split; [exact H0|]. split; [exact Hk|]. split; [exact Hr|]. split; [|split].
  - intros i j Hi Hj. apply H; assumption.
  - intros j Hj. apply (H 0%nat j); [exact H0|lia|left; exact Hj].
  - intros i Hi. apply (H i (k + 1)%nat); [lia|lia|right; lia].
Qed.
Print Assumptions C79_strips.

(** a field that changes linearly is continued exactly *)
Theorem C79_linear_exact : forall ny nx xs ys g k r a b c,
  eastward nx xs -> southward ny ys -> fillable ny nx g k r ->
  (forall i j, (i < ny)%nat -> (j < nx)%nat -> g i j = None \/ g i j = Some (a + b * xs j + c * ys i)) ->
  exists g', fill_data ny nx xs ys g = Ok g' /\
  forall i j, (i < ny)%nat -> (j < nx)%nat -> g' i j = Some (a + b * xs j + c * ys i).
Proof.
  intros ny nx xs ys g k r a b c He Hs Hf Hg.
  destruct (fill_ok ny nx xs ys g k r He Hs Hf) as (g' & E & F1 & F2 & F3). exists g'. split; [exact E|].
  pose proof Hf as (H0 & Hk & Hr & Hn & _).
  assert (Top : forall i j, (i < ny - r)%nat -> (j < nx)%nat -> g' i j = Some (a + b * xs j + c * ys i)).
  { intros i j Hi Hj. destruct (Nat.lt_ge_cases j k) as [C|C].
    - destruct (F2 i j Hi C) as (u & v & Eu & Ev & ->).
      destruct (Hg i k ltac:(lia) ltac:(lia)) as [G|G]; [congruence|]. rewrite Eu in G. injection G as ->.
      destruct (Hg i (k + 1)%nat ltac:(lia) ltac:(lia)) as [G|G]; [congruence|]. rewrite Ev in G. injection G as ->.
      f_equal. unfold through. pose proof (He k (k + 1)%nat ltac:(lia)) as L. field. lra.
    - rewrite (F1 i j Hi ltac:(lia)). destruct (Hg i j ltac:(lia) Hj) as [G|G]; [|exact G].
      destruct (Hn i j ltac:(lia) Hj G); lia. }
  intros i j Hi Hj. destruct (Nat.lt_ge_cases i (ny - r)) as [C|C]; [apply Top; assumption|].
  destruct (F3 i j ltac:(lia) Hj) as (u & v & Eu & Ev & ->).
  rewrite (Top (ny - r - 1)%nat j ltac:(lia) Hj) in Eu. injection Eu as <-.
  rewrite (Top (ny - r - 2)%nat j ltac:(lia) Hj) in Ev. injection Ev as <-.
  f_equal. unfold through. pose proof (Hs (ny - r - 2)%nat (ny - r - 1)%nat ltac:(lia)) as L. field. lra.
Qed.
Print Assumptions C79_linear_exact.

(** Refuted: cells with data keep it.  The columns to fill are counted in the first row
    alone and are then overwritten in every row. *)
Definition keep_g : grid rnum := fun i j => if (i =? 0)%nat && (j =? 0)%nat then None else if (j =? 0)%nat then Some 5 else Some 1.
Lemma keep_fillable : fillable 2 3 keep_g 1 0.
Proof.
  split; [lia|]. split; [lia|]. split; [left; reflexivity|]. split; [|split].
  - intros i j Hi Hj. unfold keep_g. destruct (Nat.eqb_spec j 0); [lia|]. rewrite andb_false_r. discriminate.
  - intros j Hj. assert (j = 0)%nat as -> by lia. reflexivity.
  - intros i Hi. lia.
Qed.
Theorem C79_data_kept_refuted :
  ~ (forall ny nx xs ys g g' i j v, eastward nx xs -> southward ny ys -> fill_data ny nx xs ys g = Ok g' ->
     (i < ny)%nat -> (j < nx)%nat -> g i j = Some v -> g' i j = Some v).
Proof.
  intros H.
  assert (He : eastward 3 INR) by (intros j k Hj; apply lt_INR; lia).
  assert (Hs : southward 2 (fun i => - INR i)) by (intros j k Hj; apply Ropp_lt_contravar, lt_INR; lia).
  destruct (fill_ok 2 3 INR (fun i => - INR i) keep_g 1 0 He Hs keep_fillable) as (g' & E & _ & F & _).
  destruct (F 1%nat 0%nat ltac:(lia) ltac:(lia)) as (a & b & Ea & Eb & G).
  cbv [keep_g Nat.eqb Nat.add andb] in Ea, Eb. injection Ea as <-. injection Eb as <-.
  pose proof (H 2%nat 3%nat INR (fun i => - INR i) keep_g g' 1%nat 0%nat 5 He Hs E ltac:(lia) ltac:(lia) eq_refl) as K.
  rewrite G in K. injection K as K. unfold through in K. lra.
Qed.
Print Assumptions C79_data_kept_refuted.

(** Refuted: speeds stay non-negative. *)
Theorem C79_nonnegative_refuted :
  ~ (forall ny nx xs ys g g', eastward nx xs -> southward ny ys -> fill_data ny nx xs ys g = Ok g' ->
     (forall i j v, g i j = Some v -> 0 <= v) ->
     forall i j v, (i < ny)%nat -> (j < nx)%nat -> g' i j = Some v -> 0 <= v).
Proof.
  intros H. set (g := (fun _ j => match j with 0%nat => None | 1%nat => Some 1 | _ => Some 3 end) : grid rnum).
  assert (He : eastward 3 INR) by (intros j k Hj; apply lt_INR; lia).
  assert (Hs : southward 1 (fun i => - INR i)) by (intros j k Hj; lia).
  assert (Hf : fillable 1 3 g 1 0).
  { split; [lia|]. split; [lia|]. split; [left; reflexivity|]. split; [|split].
    - intros i [|[|j]] Hi Hj; unfold g; [lia|discriminate|discriminate].
    - intros j Hj. assert (j = 0)%nat as -> by lia. reflexivity.
    - intros i Hi. lia. }
  destruct (fill_ok 1 3 INR (fun i => - INR i) g 1 0 He Hs Hf) as (g' & E & _ & F & _).
  destruct (F 0%nat 0%nat ltac:(lia) ltac:(lia)) as (a & b & Ea & Eb & G).
  cbv [g Nat.add] in Ea, Eb. injection Ea as <-. injection Eb as <-.
  assert (P : forall (i j : nat) (v : R), g i j = Some v -> 0 <= v).
  { intros i [|[|j]] v; unfold g; [discriminate| |]; intros [= <-]; lra. }
  pose proof (H 1%nat 3%nat INR (fun i => - INR i) g g' He Hs E P 0%nat 0%nat _ ltac:(lia) ltac:(lia) G) as K.
  unfold through in K. cbn [INR Nat.add] in K. lra.
Qed.
Print Assumptions C79_nonnegative_refuted.

(** Speeds are scaled from WindNinja's roughness to the vegetation's, by the ratio of two
    logarithmic profiles over the same friction velocity. *)
Theorem C79_speed : forall c vel s, convert_speed c vel = Ok s -> 0 < n_roughness c -> 0 < n_height c ->
  exists g, (let interpolated : grid rnum := fun i j => weighted vel (n_tri c i j) in
             let spacing := (n_xs c (n_nx c - 1)%nat - n_xs c 0%nat) / INR (n_nx c - 1) in
             (spacing = n_dxdy c -> g = interpolated) /\
             (spacing <> n_dxdy c -> fill_data (n_ny c) (n_nx c) (n_xs c) (n_ys c) interpolated = Ok g)) /\
  forall i j, exists z, 0.01 <= z <= 1.6 /\
    (n_veg c i j = None -> z = 0.01) /\
    (forall h, n_veg c i j = Some h -> 0.01 * 7.39 <= h <= 1.6 * 7.39 -> z = h / 7.39) /\
    (forall h, n_veg c i j = Some h -> h <= 0.01 * 7.39 -> z = 0.01) /\
    (forall h, n_veg c i j = Some h -> 1.6 * 7.39 <= h -> z = 1.6) /\
    0 < profile z (n_height c) / profile (n_roughness c) (n_height c) /\
    s i j = rlift (fun v => v * (profile z (n_height c) / profile (n_roughness c) (n_height c))) (g i j).
Proof.
  intros c vel s E Hw Hh. revert E. unfold convert_speed.
  set (interp := (fun i j => weighted vel (n_tri c i j)) : grid rnum).
  assert (K : forall g (s : grid rnum), Ok (fun i j => rlift (fun v => v * ln_wind_scale (n_roughness c) (n_height c) (n_veg c i j)) (g i j)) = Ok s ->
    forall i j, exists z, 0.01 <= z <= 1.6 /\
    (n_veg c i j = None -> z = 0.01) /\
    (forall h, n_veg c i j = Some h -> 0.01 * 7.39 <= h <= 1.6 * 7.39 -> z = h / 7.39) /\
    (forall h, n_veg c i j = Some h -> h <= 0.01 * 7.39 -> z = 0.01) /\
    (forall h, n_veg c i j = Some h -> 1.6 * 7.39 <= h -> z = 1.6) /\
    0 < profile z (n_height c) / profile (n_roughness c) (n_height c) /\
    s i j = rlift (fun v => v * (profile z (n_height c) / profile (n_roughness c) (n_height c))) (g i j)).
  { intros g s' [= <-] i j. exists (veg_roughness (n_veg c i j)). split; [apply rough_range|].
    pose proof (rough_range (n_veg c i j)) as Rr. rewrite scale_profile.
    split; [intros ->; rewrite rough_value; reflexivity|].
    assert (Q : forall h, (h / 7.39) = h * (1 / 7.39)) by (intros; unfold Rdiv; ring).
    split; [|split; [|split; [|split]]].
    - intros h -> Hr. rewrite rough_value. rewrite Rmax_right, Rmin_right; [reflexivity| |]; lra.
    - intros h -> Hr. rewrite rough_value. rewrite Rmax_left, Rmin_right; [reflexivity| |]; lra.
    - intros h -> Hr. rewrite rough_value. rewrite Rmax_right, Rmin_left; [reflexivity| |]; lra.
    - apply Rdiv_lt_0_compat; apply profile_pos; lra.
    - reflexivity. }
  cbv zeta. fold (model_dxdy c).
  destruct (reqb_spec (model_dxdy c) (n_dxdy c)) as [D|D].
  - cbn [bind]. intros E. exists interp. split; [split; [reflexivity|intros N; contradiction]|]. exact (K interp s E).
  - destruct (fill_data _ _ _ _ interp) as [g|e] eqn:F; [|discriminate]. cbn [bind]. intros E.
    exists g. split; [split; [intros; contradiction|reflexivity]|]. exact (K g s E).
Qed.
Print Assumptions C79_speed.

(** over rougher ground the same WindNinja wind gives less wind *)
Theorem C79_rougher_is_slower : forall z1 z2 w h, 0 < z1 -> z1 < z2 -> 0 < w -> 0 < h ->
  profile z2 h / profile w h < profile z1 h / profile w h.
Proof.
  intros z1 z2 w h H1 H2 Hw Hh. apply Rmult_lt_compat_r.
  - apply Rinv_0_lt_compat, profile_pos; assumption.
  - apply profile_anti; assumption.
Qed.
Print Assumptions C79_rougher_is_slower.

(** Directions are the compass directions of the filled components, and a uniform direction
    is reproduced. *)
Theorem C79_direction : forall c ang d, convert_direction c ang = Ok d ->
  exists uf vf : grid rnum,
  fill_data (n_ny c) (n_nx c) (n_xs c) (n_ys c)
    (fun i j => weighted (fun k => rlift (fun a => sin (a * PI / 180)) (ang k)) (n_tri c i j)) = Ok uf /\
  fill_data (n_ny c) (n_nx c) (n_xs c) (n_ys c)
    (fun i j => weighted (fun k => rlift (fun a => cos (a * PI / 180)) (ang k)) (n_tri c i j)) = Ok vf /\
  forall i j, (i < n_ny c)%nat -> (j < n_nx c)%nat ->
    exists u v a, uf i j = Some u /\ vf i j = Some v /\ d i j = Some a /\ points_to a u v.
Proof.
  intros c ang d. unfold convert_direction.
  destruct (fill_data _ _ _ _ _) as [uf|e] eqn:Fu; [|discriminate]. cbn [bind].
  destruct (fill_data _ _ _ _ (fun i j => weighted (fun k => rlift (fun a => cos _) _) _)) as [vf|e] eqn:Fv; [|discriminate].
  cbn [bind]. intros [= <-]. exists uf, vf. split; [reflexivity|]. split; [reflexivity|].
  intros i j Hi Hj. destruct (some_or (uf i j)) as [u Eu]; [apply (fill_inv _ _ _ _ _ _ Fu); assumption|].
  destruct (some_or (vf i j)) as [v Ev]; [apply (fill_inv _ _ _ _ _ _ Fv); assumption|].
  exists u, v, (azimuth u v). rewrite Eu, Ev. split; [reflexivity|]. split; [reflexivity|]. split; [reflexivity|].
  split; [apply azimuth_range|]. destruct (azimuth_polar u v) as [A B].
  exists (sqrt (u * u + v * v)). split; [apply sqrt_pos|]. auto.
Qed.
Print Assumptions C79_direction.

Theorem C79_uniform_direction : forall c ang d a, convert_direction c ang = Ok d ->
  0 <= a < 360 -> (forall k, ang k = Some a) ->
  (forall i j, fold_right (fun vw s => snd vw + s) 0 (n_tri c i j) = 1) ->
  forall i j, (i < n_ny c)%nat -> (j < n_nx c)%nat -> d i j = Some a.
Proof.
  intros c ang d a E Ha Hang Hw i j Hi Hj. revert E. unfold convert_direction.
  destruct (fill_data _ _ _ _ _) as [uf|e] eqn:Fu; [|discriminate]. cbn [bind].
  destruct (fill_data _ _ _ _ (fun i j => weighted (fun k => rlift (fun a => cos _) _) _)) as [vf|e] eqn:Fv; [|discriminate].
  cbn [bind]. intros [= <-].
  rewrite (fill_const _ _ _ _ _ (sin (a * PI / 180)) uf
    (fun i j => weighted_const _ (n_tri c i j) _ (fun k => or_intror (f_equal (rlift _) (Hang k))) (Hw i j)) Fu i j Hi Hj).
  rewrite (fill_const _ _ _ _ _ (cos (a * PI / 180)) vf
    (fun i j => weighted_const _ (n_tri c i j) _ (fun k => or_intror (f_equal (rlift _) (Hang k))) (Hw i j)) Fv i j Hi Hj).
  cbn [rlift2]. f_equal. rewrite compass_azimuth. apply (azimuth_direction a Ha).
Qed.
Print Assumptions C79_uniform_direction.

(** Refuted: where there is a direction there is a speed.  Gaps in the speed are left when
    the resolutions agree, those in the direction are always filled. *)
Definition gap_tri : grid (list (nat * R)) := fun i j => if (j =? 0)%nat then [(0%nat, 2); (0%nat, -1)] else [(0%nat, 1)].
Definition gap_c : ninja := mkNinja 1 3 INR (fun i => - INR i) 1 0.01 3 (fun _ _ => None) gap_tri.
Lemma gap_weighted f i j : weighted (fun _ => Some f) (gap_tri i j) = if (j =? 0)%nat then None else Some f.
Proof.
  unfold weighted, gap_tri. destruct (j =? 0)%nat; cbn [existsb snd].
  - destruct (rltb_spec 2 0); [lra|]. destruct (rltb_spec (-1) 0); [reflexivity|lra].
  - destruct (rltb_spec 1 0); [lra|]. cbn [orb fold_right fst snd rlift option_map rlift2]. f_equal. ring.
Qed.
Lemma gap_fillable f : fillable 1 3 (fun i j => weighted (fun _ => Some f) (gap_tri i j)) 1 0.
Proof.
  split; [lia|]. split; [lia|]. split; [left; reflexivity|]. split; [|split].
  - intros i j Hi Hj. rewrite gap_weighted. destruct (Nat.eqb_spec j 0); [lia|discriminate].
  - intros j Hj. rewrite gap_weighted. destruct (Nat.eqb_spec j 0); [reflexivity|lia].
  - intros i Hi. lia.
Qed.
Lemma gap_run : exists s d, convert gap_c (fun _ => Some 4) (fun _ => Some 90) = Ok (s, d) /\
  s 0%nat 0%nat = None /\ d 0%nat 0%nat = Some 90 /\ exists v, s 0%nat 1%nat = Some v.
Proof.
  unfold convert, convert_speed, convert_direction.
  destruct (reqb_spec (model_dxdy gap_c) (n_dxdy gap_c)) as [_|N].
  2:{ exfalso. apply N. unfold model_dxdy. cbn. lra. }
  cbn [bind]. cbn [n_ny n_nx n_xs n_ys n_tri gap_c].
  assert (He : eastward 3 INR) by (intros j k Hj; apply lt_INR; lia).
  assert (Hs : southward 1 (fun i => - INR i)) by (intros j k Hj; lia).
  destruct (fill_ok 1 3 INR (fun i => - INR i) _ 1 0 He Hs (gap_fillable (sin (90 * PI / 180)))) as (uf & Eu & _).
  destruct (fill_ok 1 3 INR (fun i => - INR i) _ 1 0 He Hs (gap_fillable (cos (90 * PI / 180)))) as (vf & Ev & _).
  cbn [rlift option_map]. rewrite Eu, Ev. cbn [bind].
  eexists _, _. split; [reflexivity|]. cbv beta. rewrite !gap_weighted. cbn [Nat.eqb rlift option_map].
  split; [reflexivity|]. split; [|eexists; reflexivity].
  assert (N : forall f i j, nc f (weighted (fun _ => Some f) (gap_tri i j))).
  { intros f i j. rewrite gap_weighted. destruct (j =? 0)%nat; [left|right]; reflexivity. }
  rewrite (fill_const _ _ _ _ _ _ uf (N _) Eu 0%nat 0%nat), (fill_const _ _ _ _ _ _ vf (N _) Ev 0%nat 0%nat) by lia.
  cbn [rlift2]. f_equal. rewrite compass_azimuth. apply (azimuth_direction 90). lra.
Qed.
Theorem C79_speed_defined_refuted :
  ~ (forall c vel ang s d i j, convert c vel ang = Ok (s, d) -> d i j <> None -> s i j <> None).
Proof.
  intros H. destruct gap_run as (s & d & E & Es & Ed & _).
  apply (H _ _ _ _ _ 0%nat 0%nat E); [rewrite Ed; discriminate|exact Es].
Qed.
Print Assumptions C79_speed_defined_refuted.

(** With a fixed difference from UTC every minute has a file of its own; refuted for a time
    zone that sets its clocks back. *)
Theorem C79_path_injective : forall o t1 t2, path (fun _ => o) t1 = path (fun _ => o) t2 -> t1 = t2.
Proof. intros o t1 t2 [= _ H]. lia. Qed.
Print Assumptions C79_path_injective.

(** All times of a day, and no others, have their files in the directory of this day; the file's name has the local
    time, which can be of another day. *)
Theorem C79_directory (offset : Z -> Z) (t1 t2 : Z) :
  (fst (path offset t1) = fst (path offset t2) <-> exists d, 1440 * d <= t1 < 1440 * d + 1440 /\ 1440 * d <= t2 < 1440 * d + 1440)%Z /\
  (forall d m, 0 <= m < 1440 -> path offset (1440 * d + m) = (d, 1440 * d + m + offset (1440 * d + m)))%Z.
Proof.
  unfold path. cbn [fst]. split.
  - split.
    + intros E. exists (t1 / 1440)%Z. pose proof (Z.div_mod t1 1440 ltac:(lia)). pose proof (Z.mod_pos_bound t1 1440 ltac:(lia)).
      pose proof (Z.div_mod t2 1440 ltac:(lia)). pose proof (Z.mod_pos_bound t2 1440 ltac:(lia)). rewrite <- E in *. lia.
    + intros (d & A & B). rewrite <- (Z.div_unique t1 1440 d (t1 - 1440 * d)) by lia. rewrite <- (Z.div_unique t2 1440 d (t2 - 1440 * d)) by lia. reflexivity.
  - intros d m M. rewrite <- (Z.div_unique (1440 * d + m) 1440 d m) by lia. reflexivity.
Qed.
Print Assumptions C79_directory.

(** the last hour of summer time (UTC-6) and the first one of winter time (UTC-7), at 08:00 UTC *)
Theorem C79_path_refuted :
  ~ (forall offset t1 t2, (forall t, offset t = -360 \/ offset t = -420)%Z -> path offset t1 = path offset t2 -> t1 = t2).
Proof.
  intros H. specialize (H (fun t => if (t <? 480)%Z then -360 else -420)%Z 450%Z 510%Z).
  assert (C : 450%Z = 510%Z).
  { apply H; [intros t; destruct (t <? 480)%Z; auto|]. vm_compute. reflexivity. }
  discriminate C.
Qed.
Print Assumptions C79_path_refuted.

(** a grid of three rows and three columns without its left column and its bottom row *)
Example C79_hypotheses_met :
  let g : grid rnum := fun i j => if (j =? 0)%nat || (2 <=? i)%nat then None else Some (INR i + 2 * INR j) in
  eastward 3 INR /\ southward 4 (fun i => - INR i) /\ fillable 4 3 g 1 2 /\ edge_gap 4 3 g 1 2 /\ ~ fillable 4 3 g 0 0.
Proof.
  intros g.
  assert (G : edge_gap 4 3 g 1 2).
  { intros i j Hi Hj. unfold g. destruct (Nat.eqb_spec j 0), (Nat.leb_spec 2 i); cbn [orb]; split; intros; try reflexivity; try lia; try discriminate. }
  split; [intros j k Hj; apply lt_INR; lia|]. split; [intros j k Hj; apply Ropp_lt_contravar, lt_INR; lia|].
  split; [apply C79_strips; [exact G|lia|lia|right; lia]|]. split; [exact G|].
  intros (_ & _ & _ & N & _). destruct (N 0%nat 0%nat ltac:(lia) ltac:(lia) eq_refl); lia.
Qed.
