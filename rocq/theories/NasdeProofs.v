From Coq Require Import Reals List Bool Lra Lia Arith.
From Verif Require Import RNum NasdeModel NasdeSpec.
Import ListNotations.
Local Open Scope R_scope.

(** ** percent snow *)
Definition psf (t_max t : R) : R :=
  match percent_snow t_max (Some t) with Some p => p | None => 0 end.

Lemma psf_some t_max t : percent_snow t_max (Some t) = Some (psf t_max t).
Proof. reflexivity. Qed.

Lemma psf_spec t_max : 0 <= t_max -> is_percent_snow t_max (psf t_max).
Proof.
  intros H. unfold is_percent_snow, psf, percent_snow. split; [|split; [|split]]; intros t Ht; rcase;
    try lra; try (field; lra).
  - assert (E : t = 0) by lra. rewrite E. unfold Rdiv. lra.
  - assert (E : t = t_max + 1) by lra. rewrite E. field. lra.
Qed.

Lemma div_le a b c : 0 < c -> a <= b -> a / c <= b / c.
Proof. intros Hc Hab. unfold Rdiv. apply Rmult_le_compat_r; [left; apply Rinv_0_lt_compat; exact Hc|exact Hab]. Qed.
Lemma div_lt a b c : 0 < c -> a < b -> a / c < b / c.
Proof. intros Hc Hab. unfold Rdiv. apply Rmult_lt_compat_r; [apply Rinv_0_lt_compat; exact Hc|exact Hab]. Qed.

Section PS.
Variables (t_max : R) (f : R -> R).
Hypothesis Ht : 0 <= t_max.
Hypothesis Hf : is_percent_snow t_max f.

(** any function with the four pieces is decreasing with slope at most 3/4 *)
Lemma ps_slope x y : x <= y -> 0 <= f x - f y <= 3/4 * (y - x).
Proof.
  destruct Hf as (F1 & F2 & F3 & F4). intros Hxy.
  (* piecewise steps *)
  assert (A : forall x y, x <= y -> y <= - (1/2) -> 0 <= f x - f y <= 3/4 * (y - x)).
  { intros a b ? ?. rewrite !F1 by lra. lra. }
  assert (B : forall x y, - (1/2) <= x -> x <= y -> y <= 0 -> 0 <= f x - f y <= 3/4 * (y - x)).
  { intros a b ? ? ?. rewrite !F2 by lra. lra. }
  assert (C : forall x y, 0 <= x -> x <= y -> y <= t_max + 1 -> 0 <= f x - f y <= 3/4 * (y - x)).
  { intros a b ? ? ?. rewrite !F3 by lra.
    assert (E : b / (t_max + 1) - a / (t_max + 1) = (b - a) / (t_max + 1)) by (field; lra).
    assert (0 <= (b - a) / (t_max + 1)).
    { unfold Rdiv. apply Rmult_le_pos; [lra|]. left. apply Rinv_0_lt_compat. lra. }
    assert ((b - a) / (t_max + 1) <= (b - a) / 1).
    { unfold Rdiv. apply Rmult_le_compat_l; [lra|]. apply Rinv_le_contravar; lra. }
    lra. }
  assert (D : forall x y, t_max + 1 <= x -> x <= y -> 0 <= f x - f y <= 3/4 * (y - x)).
  { intros a b ? ?. rewrite !F4 by lra. lra. }
  assert (CD : forall x y, 0 <= x -> x <= y -> 0 <= f x - f y <= 3/4 * (y - x)).
  { intros a b ? ?. destruct (Rle_dec b (t_max + 1)); [apply C; lra|].
    destruct (Rle_dec (t_max + 1) a); [apply D; lra|].
    assert (H1 := C a (t_max + 1) ltac:(lra) ltac:(lra) ltac:(lra)).
    assert (H2 := D (t_max + 1) b ltac:(lra) ltac:(lra)). lra. }
  assert (BCD : forall x y, - (1/2) <= x -> x <= y -> 0 <= f x - f y <= 3/4 * (y - x)).
  { intros a b ? ?. destruct (Rle_dec b 0); [apply B; lra|].
    destruct (Rle_dec 0 a); [apply CD; lra|].
    assert (H1 := B a 0 ltac:(lra) ltac:(lra) ltac:(lra)).
    assert (H2 := CD 0 b ltac:(lra) ltac:(lra)). lra. }
  destruct (Rle_dec y (- (1/2))); [apply A; lra|].
  destruct (Rle_dec (- (1/2)) x); [apply BCD; lra|].
  assert (H1 := A x (- (1/2)) ltac:(lra) ltac:(lra)).
  assert (H2 := BCD (- (1/2)) y ltac:(lra) ltac:(lra)). lra.
Qed.

Lemma ps_range t : 0 <= f t <= 1.
Proof.
  destruct (Rle_dec t (- (1/2))) as [L|L].
  - destruct Hf as (F1 & _). rewrite F1 by exact L. lra.
  - split.
    + destruct (Rle_dec (t_max + 1) t) as [M|M].
      * destruct Hf as (_ & _ & _ & F4). rewrite F4 by exact M. lra.
      * pose proof (ps_slope t (t_max + 1) ltac:(lra)) as H.
        destruct Hf as (_ & _ & _ & F4). rewrite (F4 (t_max + 1)) in H by lra. lra.
    + pose proof (ps_slope (- (1/2)) t ltac:(lra)) as H.
      destruct Hf as (F1 & _). rewrite (F1 (- (1/2))) in H by lra. lra.
Qed.

Lemma ps_strict x y : - (1/2) <= x -> x < y -> y <= t_max + 1 -> f y < f x.
Proof.
  destruct Hf as (F1 & F2 & F3 & F4). intros H1 H2 H3.
  assert (C : forall a b, 0 <= a -> a < b -> b <= t_max + 1 -> f b < f a).
  { intros a b ? ? ?. rewrite !F3 by lra.
    assert (a / (t_max + 1) < b / (t_max + 1)) by (apply div_lt; lra). lra. }
  destruct (Rle_dec y 0) as [L|L].
  - rewrite !F2 by lra. lra.
  - destruct (Rle_dec 0 x); [apply C; lra|].
    assert (f 0 < f x) by (rewrite !F2 by lra; lra).
    assert (f y < f 0) by (apply C; lra). lra.
Qed.
End PS.

Lemma psf_pos t : (0 < psf 0 t <-> t < 1).
Proof.
  pose proof (psf_spec 0 ltac:(lra)) as H. split.
  - intros P. destruct (Rlt_dec t 1); [assumption|].
    destruct H as (_ & _ & _ & F4). rewrite F4 in P by lra. lra.
  - intros L. destruct (Rle_dec t (- (1/2))) as [M|M].
    + destruct H as (F1 & _). rewrite F1 by exact M. lra.
    + assert (psf 0 1 < psf 0 t) by (apply (ps_strict 0 (psf 0)); try assumption; lra).
      assert (psf 0 1 = 0) by (destruct H as (_ & _ & _ & F4); apply F4; lra). lra.
Qed.

(** ** the table *)
Lemma table_at t : susong_at t (fst (table_pixel (Some t))) (snd (table_pixel (Some t))).
Proof.
  unfold susong_at, table_pixel, TABLE, in_row.
  cbn [fold_left temp_min temp_max snow density andb].
  destruct (Rlt_dec t (-5)); [left; rcasep; auto|right].
  destruct (Rlt_dec t (-3)); [left; rcasep; simpl; lra|right].
  destruct (Rlt_dec t (- (3/2))); [left; rcasep; simpl; lra|right].
  destruct (Rlt_dec t (- (1/2))); [left; rcasep; simpl; lra|right].
  destruct (Rlt_dec t 0); [left; rcasep; simpl; lra|right].
  destruct (Rlt_dec t (1/2)); [left; rcasep; simpl; lra|right].
  rcasep; simpl; lra.
Qed.

Lemma susong_at_unique t ps rho ps' rho' : susong_at t ps rho -> susong_at t ps' rho' -> ps = ps' /\ rho = rho'.
Proof. unfold susong_at. intros H H'. lra. Qed.

Lemma susong_at_mono t t' ps ps' r r' :
  susong_at t ps r -> susong_at t' ps' r' -> t <= t' ->
  ps' <= ps /\ (t' < 1/2 -> r <= r').
Proof. unfold susong_at. intros H H' L. lra. Qed.

Lemma nth_repeat' (A : Type) (x : A) n i d : (i < n)%nat -> nth i (repeat x n) d = x.
Proof. revert i; induction n; intros [|i] H; simpl; try lia; auto. apply IHn; lia. Qed.

Lemma nth_map' {A B} (f : A -> B) l i da db : (i < length l)%nat -> nth i (map f l) db = f (nth i l da).
Proof. intros H. rewrite (nth_indep _ db (f da)) by (rewrite map_length; exact H). apply map_nth. Qed.

Lemma susong_run_length t p : length t = length p -> length (susong_run t p) = length p.
Proof. intros H. unfold susong_run. destruct (dry _); [apply map_length|]. rewrite map2_length. lia. Qed.

Lemma nsum_nonneg p : (forall x, In x p -> exists v, x = Some v /\ 0 <= v) ->
  exists s, nsum p = Some s /\ 0 <= s /\ forall v, In (Some v) p -> v <= s.
Proof.
  induction p as [|a p IH]; intros H; simpl.
  - exists 0. split; [reflexivity|]. split; [lra|]. intros v [].
  - destruct (H a (or_introl eq_refl)) as (v & -> & Hv).
    destruct IH as (s & Es & Hs & Hb); [intros x Hx; apply H; right; exact Hx|].
    unfold nsum in *. rewrite Es. simpl. exists (v + s). split; [reflexivity|]. split; [lra|].
    intros w [[= ->]|Hw]; [lra|]. specialize (Hb w Hw). lra.
Qed.

(** non-negative precipitation without gaps: each pixel by itself *)
Lemma susong_pixel t p i v :
  length t = length p -> (forall x, In x p -> exists v, x = Some v /\ 0 <= v) ->
  nth_error p i = Some (Some v) ->
  (v = 0 -> nth_error (susong_run t p) i = Some (0, 0)) /\
  (0 < v -> forall x, nth_error t i = Some (Some x) ->
      exists ps rho, nth_error (susong_run t p) i = Some (ps, rho) /\ susong_at x ps rho) /\
  (0 < v -> nth_error t i = Some None -> nth_error (susong_run t p) i = Some (0, 0)).
Proof.
  intros Hl Hp Hi.
  assert (Hip : (i < length p)%nat) by (apply nth_error_Some; congruence).
  assert (Hlen := susong_run_length t p Hl).
  assert (Hnp : nth i p None = Some v) by (apply nth_error_nth with (d := None) in Hi; exact Hi).
  assert (Hit : (i < length t)%nat) by (rewrite Hl; exact Hip).
  rewrite (nth_error_nth' (susong_run t p) (0, 0)) by (rewrite Hlen; exact Hip).
  rewrite (nth_error_nth' t None) by exact Hit.
  destruct (nsum_nonneg p Hp) as (s & Es & Hs & Hb).
  assert (Hvs : v <= s) by (apply Hb; eapply nth_error_In; eauto).
  unfold susong_run. rewrite Es.
  assert (Ed : dry (Some s) = reqb s 0) by reflexivity. rewrite Ed.
  destruct (reqb_spec s 0) as [Z|Z]; cbv iota.
  - rewrite (nth_map' _ _ _ None) by exact Hip.
    split; [reflexivity|]. split; [intros; lra|reflexivity].
  - rewrite (map2_nth _ _ _ _ None None) by assumption. rewrite Hnp. unfold dry.
    split; [|split].
    + intros ->. destruct (reqb_spec 0 0); congruence.
    + intros Hv x [= Ex]. destruct (reqb_spec v 0); [lra|]. rewrite Ex.
      pose proof (table_at x) as T. destruct (table_pixel (Some x)) as [a b]. eauto.
    + intros Hv [= Ex]. destruct (reqb_spec v 0); [lra|]. rewrite Ex. reflexivity.
Qed.

(** ** density *)
Lemma Rmax_if x m : (if rltb x m then m else x) = Rmax x m.
Proof. unfold Rmax. destruct (rltb_spec x m), (Rle_dec x m); try reflexivity; lra. Qed.
Lemma Rmin_if x m : (if rltb m x then m else x) = Rmin x m.
Proof. unfold Rmin. destruct (rltb_spec m x), (Rle_dec x m); try reflexivity; lra. Qed.

Lemma clamp_some t_min x : clamp_min t_min (Some x) = Some (Rmax x t_min).
Proof. simpl. rewrite Rmax_if. reflexivity. Qed.
Lemma snow_temp_some t_max x : snow_temp t_max (Some x) = Some (Rmin x t_max).
Proof. simpl. rewrite Rmin_if. reflexivity. Qed.

Lemma density_some t_max t_min x : t_min < t_max ->
  new_density t_max t_min (clamp_min t_min (Some x)) (snow_temp t_max (clamp_min t_min (Some x))) =
  Some (fresh t_max t_min x).
Proof.
  intros H. rewrite clamp_some, snow_temp_some. unfold new_density, fresh. cbn [rlift2]. f_equal.
  set (c := Rmax x t_min). set (ts := Rmin c t_max).
  assert (Hc : t_min <= c) by apply Rmax_r.
  assert (H1 : ts <= t_max) by apply Rmin_r.
  assert (E : 1 + (t_max - t_min + (ts - t_max)) / (t_max - t_min) * (3/4) =
              1 + 3/4 * (1 - (t_max - ts) / (t_max - t_min))) by (field; lra).
  assert (0 <= (t_max - ts) / (t_max - t_min)).
  { unfold Rdiv. apply Rmult_le_pos; [lra|]. left; apply Rinv_0_lt_compat; lra. }
  rewrite E. rcase; [lra|].
  f_equal. f_equal. f_equal. lra.
Qed.

Lemma fresh_ex t_max t_min x : t_min < t_max ->
  let c := Rmax x t_min in
  1 <= 1 + 3/4 * (1 - (t_max - Rmin c t_max) / (t_max - t_min)) <= 7/4.
Proof.
  intros H c. assert (t_min <= c) by apply Rmax_r.
  assert (t_min <= Rmin c t_max) by (apply Rmin_glb; lra).
  assert (Rmin c t_max <= t_max) by apply Rmin_r.
  assert (0 <= (t_max - Rmin c t_max) / (t_max - t_min)).
  { unfold Rdiv. apply Rmult_le_pos; [lra|]. left; apply Rinv_0_lt_compat; lra. }
  assert ((t_max - Rmin c t_max) / (t_max - t_min) <= (t_max - t_min) / (t_max - t_min)) by (apply div_le; lra).
  assert ((t_max - t_min) / (t_max - t_min) = 1) by (field; lra). lra.
Qed.

Lemma Rpower_pos x y : 0 < Rpower x y.
Proof. apply exp_pos. Qed.

Lemma fresh_gt_50 t_max t_min x : 50 < fresh t_max t_min x.
Proof. unfold fresh. pose proof (Rpower_pos (Rmax x t_min + 15) (1 + 3/4 * (1 - (t_max - Rmin (Rmax x t_min) t_max) / (t_max - t_min)))). lra. Qed.

Lemma Rpower_mono2 a b x y : 1 <= a -> a <= b -> 0 <= x -> x <= y -> Rpower a x <= Rpower b y.
Proof.
  intros Ha Hab Hx Hxy. apply Rle_trans with (Rpower a y).
  - apply Rle_Rpower; assumption.
  - apply Rle_Rpower_l; [lra|lra].
Qed.

Lemma fresh_mono t_max t_min x y : t_min < t_max -> -14 <= t_min -> x <= y ->
  fresh t_max t_min x <= fresh t_max t_min y.
Proof.
  intros H H14 Hxy. pose proof (fresh_ex t_max t_min x H) as Ex. cbv zeta in Ex.
  unfold fresh. set (cx := Rmax x t_min) in *. set (cy := Rmax y t_min).
  assert (Hc : cx <= cy) by (unfold cx, cy; apply Rle_max_compat_r; exact Hxy).
  assert (Hm : Rmin cx t_max <= Rmin cy t_max) by (apply Rle_min_compat_r; exact Hc).
  assert (Hcx : t_min <= cx) by apply Rmax_r.
  assert (He : (t_max - Rmin cy t_max) / (t_max - t_min) <= (t_max - Rmin cx t_max) / (t_max - t_min))
    by (apply div_le; lra).
  assert (Rpower (cx + 15) (1 + 3/4 * (1 - (t_max - Rmin cx t_max) / (t_max - t_min))) <=
          Rpower (cy + 15) (1 + 3/4 * (1 - (t_max - Rmin cy t_max) / (t_max - t_min)))).
  { apply Rpower_mono2; lra. }
  lra.
Qed.

Lemma fresh_low t_max t_min x : t_min < t_max -> -15 < t_min -> x <= t_min ->
  fresh t_max t_min x = 50 + 17/10 * (t_min + 15).
Proof.
  intros H H15 Hx. unfold fresh. rewrite (Rmax_right x t_min) by exact Hx.
  rewrite (Rmin_left t_min t_max) by lra.
  replace (1 + 3/4 * (1 - (t_max - t_min) / (t_max - t_min))) with 1 by (field; lra).
  rewrite Rpower_1 by lra. reflexivity.
Qed.

Lemma fresh_high t_max t_min x : t_min < t_max -> t_max <= x ->
  fresh t_max t_min x = 50 + 17/10 * Rpower (x + 15) (7/4).
Proof.
  intros H Hx. unfold fresh. rewrite (Rmax_left x t_min) by lra. rewrite (Rmin_right x t_max) by exact Hx.
  replace (1 + 3/4 * (1 - (t_max - t_max) / (t_max - t_min))) with (7/4) by (field; lra). reflexivity.
Qed.

(** density is unbounded in warm air *)
Lemma fresh_unbounded t_max t_min b : t_min < t_max -> exists x, b < fresh t_max t_min x.
Proof.
  intros H. set (x := Rmax (Rmax t_max (-14)) b). exists x.
  assert (Rmax t_max (-14) <= x /\ b <= x) by (split; [apply Rmax_l|apply Rmax_r]).
  assert (t_max <= Rmax t_max (-14) /\ -14 <= Rmax t_max (-14)) by (split; [apply Rmax_l|apply Rmax_r]).
  rewrite fresh_high by lra.
  assert (Rpower (x + 15) 1 <= Rpower (x + 15) (7/4)) by (apply Rle_Rpower; lra).
  rewrite Rpower_1 in H2 by lra. lra.
Qed.

(** ** memory *)
Lemma mem_write h a v b : mem (write h a v) b = if Nat.eqb b a then v else mem h b.
Proof. reflexivity. Qed.

Lemma clamp_idem t_min a : map (clamp_min t_min) (map (clamp_min t_min) a) = map (clamp_min t_min) a.
Proof.
  rewrite map_map. apply map_ext. intros [x|]; [|reflexivity]. rewrite !clamp_some.
  f_equal. apply Rmax_left. apply Rmax_r.
Qed.

Lemma piecewise_run_spec h tpp t_max t_min : (tpp < next h)%nat ->
  let cl := map (clamp_min t_min) (mem h tpp) in
  let ts := map (snow_temp t_max) cl in
  exists h', piecewise_run h tpp t_max t_min = (h', (S (next h), S (S (next h)))) /\
    next h' = (3 + next h)%nat /\ mem h' tpp = cl /\
    mem h' (S (next h)) = calc_percent_snow t_max cl /\
    mem h' (S (S (next h))) = map2 (new_density t_max t_min) cl ts /\
    (forall a, (a < next h)%nat -> a <> tpp -> mem h' a = mem h a).
Proof.
  intros Hl cl ts. unfold piecewise_run, check_temperature, alloc, write. cbn [mem next].
  eexists. split; [reflexivity|]. cbn [mem next].
  assert (E : forall a b, a <> b -> Nat.eqb a b = false) by (intros; apply Nat.eqb_neq; assumption).
  repeat rewrite Nat.eqb_refl.
  repeat match goal with |- context [Nat.eqb ?a ?b] =>
    first [rewrite (E a b) by lia | fail] end.
  split; [reflexivity|]. split; [reflexivity|]. split; [reflexivity|]. split; [reflexivity|].
  intros a Ha Hne.
  rewrite (E a (S (S (next h)))), (E a (S (next h))), (E a (next h)), (E a tpp) by lia. reflexivity.
Qed.

Lemma alloc_spec h v : exists h', alloc h v = (h', next h) /\ next h' = S (next h) /\
  mem h' (next h) = v /\ (forall a, (a < next h)%nat -> mem h' a = mem h a).
Proof.
  unfold alloc. eexists. split; [reflexivity|]. cbn [mem next]. split; [reflexivity|].
  rewrite Nat.eqb_refl. split; [reflexivity|]. intros a Ha.
  destruct (Nat.eqb_spec a (next h)); [lia|reflexivity].
Qed.

Lemma write_spec h a v : exists h', write h a v = h' /\ next h' = next h /\
  mem h' a = v /\ (forall b, b <> a -> mem h' b = mem h b).
Proof.
  unfold write. eexists. split; [reflexivity|]. cbn [mem next]. split; [reflexivity|].
  rewrite Nat.eqb_refl. split; [reflexivity|]. intros b Hb.
  destruct (Nat.eqb_spec b a); [contradiction|reflexivity].
Qed.

(** ** the values computed by marks2017, on whole arrays *)
Section Arrays.
Variables (t p : arr).
Definition a_cl := map (clamp_min (-10)) t.
Definition a_ts := map (snow_temp 0) a_cl.
Definition a_pcs := calc_percent_snow 0 a_cl.
Definition a_swe := map2 (rlift2 Rmult) p a_pcs.
Definition a_ind := map positive a_swe.
Definition a_ns := map s_rho_ns (map2 (new_density 0 (-10)) a_cl a_ts).
Definition a_c := map3 s_d_rho_c a_ts a_swe a_ns.
Definition a_m := map2 s_d_rho_m a_ts a_ns.
Definition a_rs := map3 s_rho_s a_ns a_c a_m.
Definition a_zs := map2 s_zs a_swe a_rs.
Definition a_r := map2 (fun f x => f x) (map3 s_rho a_swe p a_pcs) a_rs.
Definition zeros := repeat (Some 0) (length t).
Definition ones := repeat (Some 1) (length t).
(** the shared array after the five writes, and rho *)
Definition a_shared :=
  masked a_ind a_rs (masked a_ind a_zs (masked a_ind a_c (masked a_ind a_m (masked a_ind a_ns zeros)))).
Definition a_rho := masked a_ind a_r ones.
End Arrays.

Lemma existsb_masked {A} (P : A -> bool) l : existsb P l = false -> map P l = repeat false (length l).
Proof.
  induction l as [|a l IH]; simpl; [reflexivity|]. intros H. apply orb_false_iff in H. destruct H as [-> H].
  rewrite IH by exact H. reflexivity.
Qed.
Lemma masked_none {A} n (v a : list A) : length v = n -> length a = n -> masked (repeat false n) v a = a.
Proof.
  revert n a; induction v as [|x v IH]; intros [|n] [|y a] H1 H2; simpl in *; try lia; [reflexivity|].
  unfold masked in *. cbn [map3]. f_equal. apply IH; lia.
Qed.
Lemma masked_self {A} m (a : list A) : length a = length m -> masked m a a = a.
Proof.
  revert a; induction m as [|b m IH]; intros [|y a] H; simpl in *; try lia; [reflexivity|].
  unfold masked in *. cbn [map3]. f_equal; [destruct b; reflexivity|]. apply IH; lia.
Qed.

Section Run.
Variables (h : heap) (tpp pp : nat).
Hypothesis Ht : (tpp < next h)%nat.
Hypothesis Hp : (pp < next h)%nat.
Hypothesis Hne : tpp <> pp.
Hypothesis Hlen : length (mem h pp) = length (mem h tpp).
Let t := mem h tpp.
Let p := mem h pp.
Let n := length t.

Lemma lens :
  length (a_cl t) = n /\ length (a_ts t) = n /\ length (a_pcs t) = n /\ length (a_swe t p) = n /\
  length (a_ind t p) = n /\ length (a_ns t) = n /\ length (a_c t p) = n /\ length (a_m t) = n /\
  length (a_rs t p) = n /\ length (a_zs t p) = n /\ length (a_r t p) = n.
Proof.
  assert (L1 : length (a_cl t) = n) by apply map_length.
  assert (L2 : length (a_ts t) = n) by (unfold a_ts; rewrite map_length; exact L1).
  assert (L3 : length (a_pcs t) = n) by (unfold a_pcs, calc_percent_snow; rewrite map_length; exact L1).
  assert (Lp : length p = n) by exact Hlen.
  assert (L4 : length (a_swe t p) = n) by (unfold a_swe; rewrite map2_length, L3, Lp; apply Nat.min_id).
  assert (L5 : length (a_ind t p) = n) by (unfold a_ind; rewrite map_length; exact L4).
  assert (L6 : length (a_ns t) = n)
    by (unfold a_ns; rewrite map_length, map2_length, L1, L2; apply Nat.min_id).
  assert (L7 : length (a_c t p) = n)
    by (unfold a_c; rewrite map3_length, L2, L4, L6, Nat.min_id; apply Nat.min_id).
  assert (L8 : length (a_m t) = n) by (unfold a_m; rewrite map2_length, L2, L6; apply Nat.min_id).
  assert (L9 : length (a_rs t p) = n)
    by (unfold a_rs; rewrite map3_length, L6, L7, L8, Nat.min_id; apply Nat.min_id).
  assert (L10 : length (a_zs t p) = n) by (unfold a_zs; rewrite map2_length, L4, L9; apply Nat.min_id).
  assert (L11 : length (a_r t p) = n)
    by (unfold a_r; rewrite map2_length, map3_length, L4, Lp, L3, L9, !Nat.min_id; reflexivity).
  tauto.
Qed.

(** contents of every output when some pixel is wet *)
Lemma marks_wet : existsb positive p = true ->
  exists h' r, marks_run h tpp pp = (h', r) /\
    mem h' (o_swe r) = a_swe t p /\ mem h' (o_pcs r) = a_pcs t /\
    mem h' (o_rho_ns r) = times1000 (a_shared t p) /\ mem h' (o_rho_s r) = times1000 (a_shared t p) /\
    mem h' (o_rho r) = times1000 (a_rho t p) /\
    mem h' (o_d_rho_c r) = a_shared t p /\ mem h' (o_d_rho_m r) = a_shared t p /\
    mem h' (o_zs r) = a_shared t p /\
    o_d_rho_c r = o_d_rho_m r /\ o_zs r = o_d_rho_m r /\
    mem h' tpp = a_cl t /\ (forall a, (a < next h)%nat -> a <> tpp -> mem h' a = mem h a).
Proof.
  intros Hwet. pose proof lens as (L1 & L2 & L3 & L4 & L5 & L6 & L7 & L8 & L9 & L10 & L11).
  unfold marks_run.
  destruct (alloc_spec h (repeat (Some 0) (length (mem h tpp)))) as (h1 & E1 & N1 & M1 & O1). rewrite E1.
  destruct (alloc_spec h1 (repeat (Some 1) (length (mem h tpp)))) as (h2 & E2 & N2 & M2 & O2). rewrite E2.
  assert (Epp : mem h2 pp = p) by (rewrite O2, O1 by lia; reflexivity).
  assert (Etpp : mem h2 tpp = t) by (rewrite O2, O1 by lia; reflexivity).
  rewrite Epp, Hwet.
  unfold check_temperature at 1.
  destruct (write_spec h2 tpp (map (clamp_min (-10)) (mem h2 tpp))) as (h3 & E3 & N3 & M3 & O3). rewrite E3.
  rewrite Etpp in M3. change (mem h3 tpp = a_cl t) in M3.
  destruct (alloc_spec h3 (map (snow_temp 0) (mem h3 tpp))) as (h4 & E4 & N4 & M4 & O4). rewrite E4.
  rewrite M3 in M4. change (mem h4 (next h3) = a_ts t) in M4.
  destruct (piecewise_run_spec h4 tpp 0 (-10) ltac:(lia)) as (h5 & E5 & N5 & M5 & M5p & M5r & O5). rewrite E5.
  rewrite (O4 tpp), M3 in M5, M5p, M5r by lia.
  unfold a_cl in M5, M5p, M5r. rewrite clamp_idem in M5, M5p, M5r. fold (a_cl t) in M5, M5p, M5r.
  fold (a_ts t) in M5r. change (mem h5 (S (next h4)) = a_pcs t) in M5p.
  assert (Epp5 : mem h5 pp = p) by (rewrite O5, O4, O3 by lia; exact Epp).
  rewrite Epp5, M5p. fold (a_swe t p).
  destruct (alloc_spec h5 (a_swe t p)) as (h6 & E6 & N6 & M6 & O6). rewrite E6. rewrite M6.
  assert (Ez6 : mem h6 (next h) = zeros t).
  { rewrite O6, O5, O4, O3, O2 by lia. exact M1. }
  assert (Er6 : mem h6 (next h1) = ones t).
  { rewrite O6, O5, O4, O3 by lia. exact M2. }
  assert (Epcs6 : mem h6 (S (next h4)) = a_pcs t) by (rewrite O6 by lia; exact M5p).
  assert (Ets6 : mem h6 (next h3) = a_ts t) by (rewrite O6, O5 by lia; exact M4).
  assert (Epp6 : mem h6 pp = p) by (rewrite O6 by lia; exact Epp5).
  assert (Ero6 : mem h6 (S (S (next h4))) = map2 (new_density 0 (-10)) (a_cl t) (a_ts t))
    by (rewrite O6 by lia; exact M5r).
  assert (Et6 : mem h6 tpp = a_cl t) by (rewrite O6 by lia; exact M5).
  assert (Old6 : forall a, (a < next h)%nat -> a <> tpp -> mem h6 a = mem h a).
  { intros a Ha Hn. rewrite O6, O5, O4, O3, O2, O1 by lia. reflexivity. }
  assert (Fin : forall hF, next hF = next h6 ->
      mem hF (next h) = a_shared t p -> mem hF (next h1) = a_rho t p -> mem hF (S (next h4)) = a_pcs t ->
      mem hF (next h5) = a_swe t p -> mem hF tpp = a_cl t ->
      (forall a, (a < next h)%nat -> a <> tpp -> mem hF a = mem h a) ->
      exists h' r,
      (let (h0, rho_ns) := alloc hF (times1000 (mem hF (next h))) in
       let (h7, rho_s) := alloc h0 (times1000 (mem h0 (next h))) in
       let (h8, rho0) := alloc h7 (times1000 (mem h7 (next h1))) in
       (h8, mkM (next h5) (S (next h4)) rho_ns (next h) (next h) rho_s rho0 (next h))) = (h', r) /\
    mem h' (o_swe r) = a_swe t p /\ mem h' (o_pcs r) = a_pcs t /\
    mem h' (o_rho_ns r) = times1000 (a_shared t p) /\ mem h' (o_rho_s r) = times1000 (a_shared t p) /\
    mem h' (o_rho r) = times1000 (a_rho t p) /\
    mem h' (o_d_rho_c r) = a_shared t p /\ mem h' (o_d_rho_m r) = a_shared t p /\
    mem h' (o_zs r) = a_shared t p /\
    o_d_rho_c r = o_d_rho_m r /\ o_zs r = o_d_rho_m r /\
    mem h' tpp = a_cl t /\ (forall a, (a < next h)%nat -> a <> tpp -> mem h' a = mem h a)).
  { intros hF NF F1 F2 F3 F4 F5 F6.
    destruct (alloc_spec hF (times1000 (mem hF (next h)))) as (k1 & K1 & KN1 & KM1 & KO1). rewrite K1.
    destruct (alloc_spec k1 (times1000 (mem k1 (next h)))) as (k2 & K2 & KN2 & KM2 & KO2). rewrite K2.
    destruct (alloc_spec k2 (times1000 (mem k2 (next h1)))) as (k3 & K3 & KN3 & KM3 & KO3). rewrite K3.
    do 2 eexists. split; [reflexivity|]. cbn [o_swe o_pcs o_rho_ns o_rho_s o_rho o_d_rho_c o_d_rho_m o_zs].
    assert (U : forall a, (a < next hF)%nat -> mem k3 a = mem hF a)
      by (intros a Ha; rewrite KO3, KO2, KO1 by lia; reflexivity).
    rewrite (U (next h)), (U (next h5)), (U (S (next h4))), (U tpp) by lia. rewrite KM3, (KO3 (next k1)), KM2, (KO3 (next hF)), (KO2 (next hF)), KM1 by lia.
    rewrite (KO2 (next h1)), (KO1 (next h1)), (KO1 (next h)) by lia.
    rewrite F1, F2, F3, F4, F5. repeat (split; [reflexivity|]).
    intros a Ha Hn. rewrite U by lia. apply F6; assumption. }
  destruct (existsb positive (a_swe t p)) eqn:Hsn.
  - rewrite Epcs6, Ets6, Epp6, Ero6, Ez6.
    fold (a_ns t) (a_ind t p). fold (a_c t p) (a_m t). fold (a_rs t p). fold (a_zs t p) (a_r t p).
    destruct (write_spec h6 (next h) (masked (a_ind t p) (a_ns t) (zeros t))) as (w1 & W1 & WN1 & WM1 & WO1). rewrite W1, WM1.
    destruct (write_spec w1 (next h) (masked (a_ind t p) (a_m t) (masked (a_ind t p) (a_ns t) (zeros t)))) as (w2 & W2 & WN2 & WM2 & WO2). rewrite W2, WM2.
    match goal with |- context [write w2 (next h) ?v] => destruct (write_spec w2 (next h) v) as (w3 & W3 & WN3 & WM3 & WO3) end. rewrite W3, WM3.
    match goal with |- context [write w3 (next h) ?v] => destruct (write_spec w3 (next h) v) as (w4 & W4 & WN4 & WM4 & WO4) end. rewrite W4, WM4.
    match goal with |- context [write w4 (next h) ?v] => destruct (write_spec w4 (next h) v) as (w5 & W5 & WN5 & WM5 & WO5) end. rewrite W5.
    assert (Er : mem w5 (next h1) = ones t) by (rewrite WO5, WO4, WO3, WO2, WO1 by lia; exact Er6).
    rewrite Er.
    match goal with |- context [write w5 (next h1) ?v] => destruct (write_spec w5 (next h1) v) as (w6 & W6 & WN6 & WM6 & WO6) end. rewrite W6.
    assert (Epc : mem w6 (S (next h4)) = a_pcs t)
      by (rewrite WO6, WO5, WO4, WO3, WO2, WO1 by lia; exact Epcs6).
    rewrite Epc, masked_self by congruence.
    match goal with |- context [write w6 (S (next h4)) ?v] => destruct (write_spec w6 (S (next h4)) v) as (w7 & W7 & WN7 & WM7 & WO7) end. rewrite W7.
    apply Fin; [lia| | | | | |].
    + rewrite WO7, WO6, WM5 by lia. reflexivity.
    + rewrite WO7 by lia. exact WM6.
    + exact WM7.
    + rewrite WO7, WO6, WO5, WO4, WO3, WO2, WO1 by lia. exact M6.
    + rewrite WO7, WO6, WO5, WO4, WO3, WO2, WO1 by lia. exact Et6.
    + intros a Ha Hn. rewrite WO7, WO6, WO5, WO4, WO3, WO2, WO1 by lia. apply Old6; assumption.
  - apply Fin; auto.
    + rewrite Ez6. unfold a_shared, a_ind. rewrite existsb_masked by exact Hsn. rewrite L4.
      assert (LZ : length (zeros t) = n) by apply repeat_length.
      rewrite (masked_none n (a_ns t)), (masked_none n (a_m t)), (masked_none n (a_c t p)),
        (masked_none n (a_zs t p)), (masked_none n (a_rs t p)) by assumption. reflexivity.
    + rewrite Er6. unfold a_rho, a_ind. rewrite existsb_masked by exact Hsn. rewrite L4.
      rewrite masked_none; auto. apply repeat_length.
Qed.

(** ... and when every pixel is dry (or missing) *)
Lemma marks_dry : existsb positive p = false ->
  exists h' r, marks_run h tpp pp = (h', r) /\
    mem h' (o_swe r) = zeros t /\ mem h' (o_pcs r) = zeros t /\
    mem h' (o_rho_ns r) = zeros t /\ mem h' (o_rho_s r) = zeros t /\
    mem h' (o_rho r) = repeat (Some 1000) n /\
    mem h' (o_d_rho_c r) = zeros t /\ mem h' (o_d_rho_m r) = zeros t /\ mem h' (o_zs r) = zeros t /\
    (forall a, (a < next h)%nat -> mem h' a = mem h a).
Proof.
  intros Hdry. unfold marks_run.
  destruct (alloc_spec h (repeat (Some 0) (length (mem h tpp)))) as (h1 & E1 & N1 & M1 & O1). rewrite E1.
  destruct (alloc_spec h1 (repeat (Some 1) (length (mem h tpp)))) as (h2 & E2 & N2 & M2 & O2). rewrite E2.
  assert (Epp : mem h2 pp = p) by (rewrite O2, O1 by lia; reflexivity).
  rewrite Epp, Hdry.
  destruct (alloc_spec h2 (times1000 (mem h2 (next h)))) as (k1 & K1 & KN1 & KM1 & KO1). rewrite K1.
  destruct (alloc_spec k1 (times1000 (mem k1 (next h)))) as (k2 & K2 & KN2 & KM2 & KO2). rewrite K2.
  destruct (alloc_spec k2 (times1000 (mem k2 (next h1)))) as (k3 & K3 & KN3 & KM3 & KO3). rewrite K3.
  do 2 eexists. split; [reflexivity|]. cbn [o_swe o_pcs o_rho_ns o_rho_s o_rho o_d_rho_c o_d_rho_m o_zs].
  assert (U : forall a, (a < next h2)%nat -> mem k3 a = mem h2 a)
    by (intros a Ha; rewrite KO3, KO2, KO1 by lia; reflexivity).
  assert (Z0 : times1000 (zeros t) = zeros t).
  { unfold times1000, zeros. generalize (length t). induction n0 as [|m IH]; simpl; [reflexivity|].
    rewrite IH. f_equal. f_equal. ring. }
  assert (Z1 : times1000 (ones t) = repeat (Some 1000) n).
  { unfold times1000, ones, n. generalize (length t). induction n0 as [|m IH]; simpl; [reflexivity|].
    rewrite IH. f_equal. f_equal. ring. }
  rewrite (U (next h)) by lia. rewrite KM3, (KO3 (next k1)), KM2, (KO3 (next h2)), (KO2 (next h2)), KM1 by lia.
  rewrite (KO2 (next h1)), (KO1 (next h1)), (KO1 (next h)) by lia.
  rewrite M2, (O2 (next h)), M1 by lia. fold t (zeros t) (ones t). rewrite Z0, Z1.
  repeat (split; [reflexivity|]). intros a Ha. rewrite U, O2, O1 by lia. reflexivity.
Qed.
End Run.

(** ** pixels of the marks2017 arrays *)
Lemma psf_clamp x : psf 0 (Rmax x (-10)) = psf 0 x.
Proof.
  destruct (psf_spec 0 ltac:(lra)) as (F1 & _).
  unfold Rmax. destruct (Rle_dec x (-10)); [|reflexivity]. rewrite !F1 by lra. reflexivity.
Qed.

Lemma times1000_nth a i : nth i (times1000 a) None = rlift (fun x => x * 1000) (nth i a None).
Proof. unfold times1000. rewrite <- (map_nth (rlift (fun x => x * 1000))). reflexivity. Qed.

Section Pixel.
Variables (t p : arr) (i : nat).
Hypothesis Hlen : length p = length t.
Hypothesis Hi : (i < length t)%nat.

Lemma px_cl : nth i (a_cl t) None = clamp_min (-10) (nth i t None).
Proof. unfold a_cl. apply nth_map'. exact Hi. Qed.
Lemma px_lens : length (a_cl t) = length t /\ length (a_ts t) = length t /\ length (a_pcs t) = length t /\
  length (a_swe t p) = length t /\ length (a_ind t p) = length t /\ length (a_ns t) = length t /\
  length (a_c t p) = length t /\ length (a_m t) = length t /\
  length (a_rs t p) = length t /\ length (a_zs t p) = length t /\ length (a_r t p) = length t.
Proof.
  set (h := mkH (fun a => match a with 0%nat => t | _ => p end) 2).
  exact (lens h 0%nat 1%nat Hlen).
Qed.
Lemma px_ts : nth i (a_ts t) None = snow_temp 0 (clamp_min (-10) (nth i t None)).
Proof.
  pose proof px_lens as (L1 & _). unfold a_ts. rewrite (nth_map' _ _ _ None), px_cl; [reflexivity|].
  rewrite L1; exact Hi.
Qed.
Lemma px_pcs : nth i (a_pcs t) None = percent_snow 0 (clamp_min (-10) (nth i t None)).
Proof.
  pose proof px_lens as (L1 & _). unfold a_pcs, calc_percent_snow.
  rewrite (nth_map' _ _ _ None), px_cl; [reflexivity|]. rewrite L1; exact Hi.
Qed.
Lemma px_swe : nth i (a_swe t p) None = rlift2 Rmult (nth i p None) (nth i (a_pcs t) None).
Proof.
  pose proof px_lens as (L1 & L2 & L3 & _). unfold a_swe.
  apply (map2_nth (rlift2 Rmult)); rewrite ?Hlen, ?L3; exact Hi.
Qed.
Lemma px_shared : nth i (a_shared t p) None =
  if positive (nth i (a_swe t p) None) then nth i (a_rs t p) None else Some 0.
Proof.
  pose proof px_lens as (L1 & L2 & L3 & L4 & L5 & L6 & L7 & L8 & L9 & L10 & L11).
  assert (LZ : length (zeros t) = length t) by apply repeat_length.
  assert (Ei : nth i (a_ind t p) false = positive (nth i (a_swe t p) None)).
  { unfold a_ind. apply nth_map'. rewrite L4; exact Hi. }
  unfold a_shared.
  assert (M : forall v a : arr, length v = length t -> length a = length t -> length (masked (a_ind t p) v a) = length t)
    by (intros v a Hv Ha; rewrite masked_length; congruence).
  assert (K : forall v a : arr, length v = length t -> length a = length t ->
     nth i (masked (a_ind t p) v a) None =
     if positive (nth i (a_swe t p) None) then nth i v None else nth i a None).
  { intros v a Hv Ha. rewrite masked_nth by (rewrite ?L5, ?Hv, ?Ha; exact Hi). rewrite Ei. reflexivity. }
  rewrite !K by (try assumption; repeat (apply M; try assumption)).
  destruct (positive _); [reflexivity|]. apply nth_repeat'. exact Hi.
Qed.
Lemma px_rho : nth i (a_rho t p) None =
  if positive (nth i (a_swe t p) None) then nth i (a_r t p) None else Some 1.
Proof.
  pose proof px_lens as (L1 & L2 & L3 & L4 & L5 & L6 & L7 & L8 & L9 & L10 & L11).
  assert (LZ : length (ones t) = length t) by apply repeat_length.
  assert (Ei : nth i (a_ind t p) false = positive (nth i (a_swe t p) None)).
  { unfold a_ind. apply nth_map'. rewrite L4; exact Hi. }
  unfold a_rho. rewrite masked_nth by (rewrite ?L5, ?L11, ?LZ; exact Hi). rewrite Ei.
  destruct (positive _); [reflexivity|]. apply nth_repeat'. exact Hi.
Qed.

Lemma px_ns x : nth i t None = Some x -> nth i (a_ns t) None = Some (fresh 0 (-10) x / 1000).
Proof.
  intros Hx. pose proof px_lens as (L1 & L2 & _). unfold a_ns.
  rewrite (nth_map' _ _ _ None) by (rewrite map2_length, L1, L2, Nat.min_id; exact Hi).
  rewrite (map2_nth _ _ _ _ None None) by (rewrite ?L1, ?L2; exact Hi).
  rewrite px_cl, px_ts, Hx, density_some by lra. reflexivity.
Qed.

(** snow falls at the pixel exactly when it rains there and the temperature is below 1 C *)
Lemma px_positive : positive (nth i (a_swe t p) None) = true <->
  exists x y, nth i t None = Some x /\ nth i p None = Some y /\ 0 < y /\ x < 1.
Proof.
  rewrite px_swe, px_pcs. destruct (nth i p None) as [y|].
  - destruct (nth i t None) as [x|].
    + rewrite clamp_some, psf_some, psf_clamp. unfold positive. cbn [rlift2 ncmp].
      pose proof (ps_range 0 (psf 0) ltac:(lra) (psf_spec 0 ltac:(lra)) x) as Hr.
      pose proof (psf_pos x) as Hp. destruct (rltb_spec 0 (y * psf 0 x)) as [L|L]; split; intros H.
      * exists x, y. split; [reflexivity|]. split; [reflexivity|].
        assert (0 < psf 0 x) by (destruct (Rle_lt_or_eq_dec _ _ (proj1 Hr)) as [?|E]; [assumption|rewrite <- E in L; lra]).
        split; [|tauto]. destruct (Rlt_dec 0 y); [assumption|]. exfalso.
        assert (y * psf 0 x <= 0 * psf 0 x) by (apply Rmult_le_compat_r; lra). lra.
      * reflexivity.
      * discriminate.
      * exfalso. destruct H as (x' & y' & [= <-] & [= <-] & H1 & H2). apply L.
        apply Rmult_lt_0_compat; [exact H1|]. apply Hp; exact H2.
    + simpl. split; [|intros (x & y' & H & _); discriminate].
      unfold positive. cbn [ncmp]. rewrite Rmult_0_r. destruct (rltb_spec 0 0); [lra|discriminate].
  - split; [discriminate|]. intros (x & y & _ & H & _). discriminate.
Qed.

Section Snow.
Variables (x y : R).
Hypothesis Hx : nth i t None = Some x.
Hypothesis Hy : nth i p None = Some y.
Let ps := psf 0 x.
Let ts := Rmin (Rmax x (-10)) 0.
Let r := fresh 0 (-10) x / 1000.

Lemma px_swe_val : nth i (a_swe t p) None = Some (y * ps).
Proof. rewrite px_swe, px_pcs, Hx, Hy, clamp_some, psf_some, psf_clamp. reflexivity. Qed.

Lemma px_rs : nth i (a_rs t p) None = Some (compacted ts (y * ps) r).
Proof.
  pose proof px_lens as (L1 & L2 & L3 & L4 & L5 & L6 & L7 & L8 & L9 & L10 & L11).
  unfold a_rs. rewrite (map3_nth _ _ _ _ _ None None None) by (rewrite ?L6, ?L7, ?L8; exact Hi).
  unfold a_c. rewrite (map3_nth _ _ _ _ _ None None None) by (rewrite ?L2, ?L4, ?L6; exact Hi).
  unfold a_m. rewrite (map2_nth _ _ _ _ None None) by (rewrite ?L2, ?L6; exact Hi).
  rewrite (px_ns x Hx), px_ts, Hx, clamp_some, snow_temp_some, px_swe_val. fold ts r.
  unfold s_rho_s, s_d_rho_c, s_d_rho_m, compacted, overburden, metamorphism. cbn [rlift rlift2 option_map].
  f_equal.
  replace (- (8/100) * (0 - ts)) with (8/100 * ts) by ring.
  replace (- (4/100) * (0 - ts)) with (4/100 * ts) by ring.
  unfold rleb. destruct (Rle_dec 100 (r * 1000)); ring.
Qed.

Lemma px_r : 0 < y -> x < 1 ->
  nth i (a_r t p) None =
  Some (Rmin 1 (if Rlt_dec ps 1 then ps * compacted ts (y * ps) r + (1 - ps) else compacted ts (y * ps) r)).
Proof.
  intros Hy0 Hx1.
  pose proof px_lens as (L1 & L2 & L3 & L4 & L5 & L6 & L7 & L8 & L9 & L10 & L11).
  unfold a_r.
  assert (L3' : length (map3 s_rho (a_swe t p) p (a_pcs t)) = length t)
    by (rewrite map3_length, L4, Hlen, L3, !Nat.min_id; reflexivity).
  rewrite (map2_nth _ _ _ _ (fun _ => None) None) by (rewrite ?L3', ?L9; exact Hi).
  rewrite (map3_nth _ _ _ _ _ None None None) by (rewrite ?L4, ?Hlen, ?L3; exact Hi).
  rewrite px_rs, px_swe_val, px_pcs, Hx, Hy, clamp_some, psf_some, psf_clamp. fold ps.
  unfold s_rho. cbn [ncmp rlift rlift2 option_map].
  assert (Hps : 0 < ps) by (apply psf_pos; exact Hx1).
  assert (E1 : rltb 0 ps = true) by (destruct (rltb_spec 0 ps); [reflexivity|contradiction]).
  assert (E2 : rltb (y * ps) y = if Rlt_dec ps 1 then true else false).
  { destruct (rltb_spec (y * ps) y) as [L|L], (Rlt_dec ps 1) as [M|M]; try reflexivity; exfalso.
    - apply M. apply (Rmult_lt_reg_l y); lra.
    - apply L. assert (y * ps < y * 1) by (apply Rmult_lt_compat_l; lra). lra. }
  rewrite E1, E2.
  assert (G : forall v, (if ncmp rltb (Some 1) (Some v) then Some 1 else Some v) = Some (Rmin 1 v)).
  { intros v. cbn [ncmp]. unfold Rmin.
    destruct (rltb_spec 1 v), (Rle_dec 1 v); try reflexivity; try lra. f_equal; lra. }
  destruct (Rlt_dec ps 1); cbn [andb]; apply G.
Qed.
End Snow.
End Pixel.

Lemma compacted_gt ts w r : 0 < r -> 0 <= w -> r < compacted ts w r.
Proof.
  intros Hr Hw. unfold compacted.
  assert (0 <= overburden ts w r).
  { unfold overburden. repeat apply Rmult_le_pos; try lra; try (left; apply exp_pos). }
  assert (0 < metamorphism ts r).
  { unfold metamorphism. apply Rmult_lt_0_compat; [|apply exp_pos]. apply Rmult_lt_0_compat; [lra|].
    destruct (Rle_dec 100 (r * 1000)); [apply exp_pos|lra]. }
  assert (r * 1 < r * (1 + (overburden ts w r + metamorphism ts r))) by (apply Rmult_lt_compat_l; lra).
  lra.
Qed.
Lemma compacted_mono ts w w' r : 0 < r -> w < w' -> compacted ts w r < compacted ts w' r.
Proof.
  intros Hr Hw. unfold compacted. apply Rmult_lt_compat_l; [exact Hr|].
  assert (overburden ts w r < overburden ts w' r).
  { unfold overburden. apply Rmult_lt_compat_r; [apply exp_pos|]. apply Rmult_lt_compat_l; [|exact Hw].
    apply Rmult_lt_0_compat; [lra|apply exp_pos]. }
  lra.
Qed.

Lemma psf_frac x : psf 0 x = frac x.
Proof.
  destruct (psf_spec 0 ltac:(lra)) as (F1 & F2 & F3 & F4). unfold frac.
  destruct (Rle_dec x (- (1/2))); [apply F1; assumption|].
  destruct (Rle_dec x 0); [apply F2; lra|].
  destruct (Rle_dec x 1); [rewrite F3 by lra; field|apply F4; lra].
Qed.

Lemma marks_dry_no_snow h tpp pp i x y :
  existsb positive (mem h pp) = false -> ~ snows h tpp pp i x y.
Proof.
  intros H (_ & Hy & H0 & _). assert (existsb positive (mem h pp) = true); [|congruence].
  apply existsb_exists. exists (Some y). split.
  - unfold at_ in Hy. destruct (Nat.lt_ge_cases i (length (mem h pp))).
    + rewrite <- Hy. apply nth_In; assumption.
    + rewrite nth_overflow in Hy by assumption. discriminate.
  - unfold positive. cbn [ncmp]. destruct (rltb_spec 0 y); [reflexivity|contradiction].
Qed.

Lemma zeros_nth t i : (i < length t)%nat -> nth i (zeros t) None = Some 0.
Proof. intros H. unfold zeros. apply nth_repeat'. exact H. Qed.

Lemma marks_density h tpp pp : inputs_ok h tpp pp ->
  exists h' r, marks_run h tpp pp = (h', r) /\
  forall i, (i < length (mem h tpp))%nat ->
    (forall x y, snows h tpp pp i x y ->
       at_ h' (o_rho_s r) i = Some (1000 * compacted (snow_t x) (y * frac x) (frac_rho x)) /\
       at_ h' (o_swe r) i = Some (y * frac x) /\
       at_ h' (o_pcs r) i = Some (frac x) /\
       at_ h' (o_rho r) i =
         Some (1000 * Rmin 1 (if Rlt_dec (frac x) 1
                              then frac x * compacted (snow_t x) (y * frac x) (frac_rho x) + (1 - frac x)
                              else compacted (snow_t x) (y * frac x) (frac_rho x)))) /\
    ((forall x y, ~ snows h tpp pp i x y) ->
       at_ h' (o_rho_s r) i = Some 0 /\ at_ h' (o_rho r) i = Some 1000).
Proof.
  intros (Ht & Hp & Hne & Hlen). set (t := mem h tpp) in *. set (p := mem h pp) in *.
  destruct (existsb positive p) eqn:W.
  - destruct (marks_wet h tpp pp Ht Hp Hne Hlen W) as
      (h' & r & E & S1 & S2 & S3 & S4 & S5 & _). exists h', r. split; [exact E|].
    intros i Hi. unfold at_. rewrite S1, S2, S4, S5. fold t p. rewrite !times1000_nth.
    rewrite (px_shared t p i Hlen Hi), (px_rho t p i Hlen Hi). split.
    + intros x y (Hx & Hy & H0 & H1). unfold at_ in Hx, Hy. fold t in Hx. fold p in Hy.
      assert (P : positive (nth i (a_swe t p) None) = true)
        by (apply (px_positive t p i Hlen Hi); exists x, y; auto).
      rewrite P, (px_rs t p i Hlen Hi x y Hx Hy), (px_swe_val t p i Hlen Hi x y Hx Hy),
        (px_pcs t p i Hlen Hi), (px_r t p i Hlen Hi x y Hx Hy H0 H1), Hx, clamp_some, psf_some, psf_clamp.
      rewrite psf_frac. unfold snow_t, frac_rho. cbn [rlift option_map].
      split; [f_equal; ring|]. split; [reflexivity|]. split; [reflexivity|]. f_equal; ring.
    + intros Hno. destruct (positive (nth i (a_swe t p) None)) eqn:P.
      * exfalso. apply (px_positive t p i Hlen Hi) in P. destruct P as (x & y & H1 & H2 & H3 & H4).
        exact (Hno x y (conj H1 (conj H2 (conj H3 H4)))).
      * cbn [rlift option_map]. split; f_equal; ring.
  - destruct (marks_dry h tpp pp Ht Hp Hne Hlen W) as
      (h' & r & E & S1 & S2 & S3 & S4 & S5 & _). exists h', r. split; [exact E|].
    intros i Hi. split.
    + intros x y Hs. exfalso. exact (marks_dry_no_snow _ _ _ _ _ _ W Hs).
    + intros _. unfold at_. rewrite S4, S5. fold t. rewrite zeros_nth, nth_repeat' by exact Hi. auto.
Qed.

Lemma marks_alias h tpp pp : inputs_ok h tpp pp -> (exists v, In (Some v) (mem h pp) /\ 0 < v) ->
  exists h' r, marks_run h tpp pp = (h', r) /\
    o_d_rho_c r = o_d_rho_m r /\ o_zs r = o_d_rho_m r /\
    mem h' (o_rho_ns r) = mem h' (o_rho_s r) /\
    (forall i, (i < length (mem h tpp))%nat ->
       at_ h' (o_rho_s r) i = option_map (fun v => 1000 * v) (at_ h' (o_zs r) i)).
Proof.
  intros (Ht & Hp & Hne & Hlen) (v & Hv & H0).
  assert (W : existsb positive (mem h pp) = true).
  { apply existsb_exists. exists (Some v). split; [exact Hv|]. unfold positive. cbn [ncmp].
    destruct (rltb_spec 0 v); [reflexivity|contradiction]. }
  destruct (marks_wet h tpp pp Ht Hp Hne Hlen W) as
      (h' & r & E & S1 & S2 & S3 & S4 & S5 & S6 & S7 & S8 & S9 & S10 & _). exists h', r.
  split; [exact E|]. split; [exact S9|]. split; [exact S10|]. split; [congruence|].
  intros i Hi. unfold at_. rewrite S4, S8, times1000_nth.
  destruct (nth i (a_shared (mem h tpp) (mem h pp)) None); cbn [rlift option_map]; [f_equal; ring|reflexivity].
Qed.

Lemma marks_inputs h tpp pp : inputs_ok h tpp pp ->
  exists h' r, marks_run h tpp pp = (h', r) /\
    (forall a, (a < next h)%nat -> a <> tpp -> mem h' a = mem h a) /\
    ((exists v, In (Some v) (mem h pp) /\ 0 < v) ->
       mem h' tpp = map (option_map (fun x => Rmax x (-10))) (mem h tpp)) /\
    ((forall v, In (Some v) (mem h pp) -> v <= 0) -> mem h' tpp = mem h tpp).
Proof.
  intros (Ht & Hp & Hne & Hlen). destruct (existsb positive (mem h pp)) eqn:W.
  - destruct (marks_wet h tpp pp Ht Hp Hne Hlen W) as
      (h' & r & E & S1 & S2 & S3 & S4 & S5 & S6 & S7 & S8 & S9 & S10 & S11 & S12). exists h', r.
    split; [exact E|]. split; [exact S12|]. split.
    + intros _. rewrite S11. unfold a_cl. apply map_ext. intros [x|]; [apply clamp_some|reflexivity].
    + intros H. apply existsb_exists in W. destruct W as ([v|] & Hv & P); [|discriminate].
      specialize (H v Hv). unfold positive in P. cbn [ncmp] in P. destruct (rltb_spec 0 v); [lra|discriminate].
  - destruct (marks_dry h tpp pp Ht Hp Hne Hlen W) as
      (h' & r & E & S1 & S2 & S3 & S4 & S5 & S6 & S7 & S8 & S9). exists h', r.
    split; [exact E|]. split; [intros a Ha _; apply S9; exact Ha|]. split.
    + intros (v & Hv & H0). exfalso. assert (existsb positive (mem h pp) = true); [|congruence].
      apply existsb_exists. exists (Some v). split; [exact Hv|]. unfold positive. cbn [ncmp].
      destruct (rltb_spec 0 v); [reflexivity|contradiction].
    + intros _. apply S9; exact Ht.
Qed.

(** ** phase_and_density copies its arguments *)
Lemma phase_inputs h tpp pp m : inputs_ok h tpp pp ->
  match phase_and_density h tpp pp m with
  | None => m = OtherModel
  | Some (h', _) => m <> OtherModel /\ forall a, (a < next h)%nat -> mem h' a = mem h a
  end.
Proof.
  intros (Ht & Hp & Hne & Hlen). unfold phase_and_density.
  destruct (alloc_spec h (mem h pp)) as (h1 & E1 & N1 & M1 & O1). rewrite E1.
  destruct (alloc_spec h1 (mem h1 tpp)) as (h2 & E2 & N2 & M2 & O2). rewrite E2.
  assert (Old : forall a, (a < next h)%nat -> mem h2 a = mem h a) by (intros a Ha; rewrite O2, O1 by lia; reflexivity).
  assert (Mp : mem h2 (next h) = mem h pp) by (rewrite O2, M1 by lia; reflexivity).
  assert (Mt : mem h2 (next h1) = mem h tpp) by (rewrite M2, O1 by lia; reflexivity).
  destruct m.
  - set (r := susong_run _ _).
    destruct (alloc_spec h2 (map (fun x => Some (fst x)) r)) as (h3 & E3 & N3 & M3 & O3). rewrite E3.
    destruct (alloc_spec h3 (map (fun x => Some (snd x)) r)) as (h4 & E4 & N4 & M4 & O4). rewrite E4.
    split; [discriminate|]. intros a Ha. rewrite O4, O3 by lia. apply Old; exact Ha.
  - destruct (piecewise_run_spec h2 (next h1) 0 (-10) ltac:(lia)) as (h5 & E5 & N5 & M5 & M5p & M5r & O5).
    rewrite E5. split; [discriminate|]. intros a Ha. rewrite O5 by lia. apply Old; exact Ha.
  - assert (I : inputs_ok h2 (next h1) (next h)).
    { unfold inputs_ok. rewrite Mp, Mt. repeat split; try lia; try exact Hlen. }
    destruct (marks_inputs h2 (next h1) (next h) I) as (h' & r & E & H1 & _). rewrite E.
    split; [discriminate|]. intros a Ha. rewrite H1 by lia. apply Old; exact Ha.
  - reflexivity.
Qed.

(** what phase_and_density returns for the piecewise model *)
Lemma phase_piecewise h tpp pp : inputs_ok h tpp pp ->
  exists h' rho ps, phase_and_density h tpp pp Piecewise = Some (h', (rho, ps)) /\
  forall i, (i < length (mem h tpp))%nat ->
    (forall x, at_ h tpp i = Some x ->
       at_ h' rho i = Some (fresh 0 (-10) x) /\ at_ h' ps i = Some (frac x)) /\
    (at_ h tpp i = None -> at_ h' rho i = None /\ at_ h' ps i = Some 0).
Proof.
  intros (Ht & Hp & Hne & Hlen). unfold phase_and_density.
  destruct (alloc_spec h (mem h pp)) as (h1 & E1 & N1 & M1 & O1). rewrite E1.
  destruct (alloc_spec h1 (mem h1 tpp)) as (h2 & E2 & N2 & M2 & O2). rewrite E2.
  assert (Mt : mem h2 (next h1) = mem h tpp) by (rewrite M2, O1 by lia; reflexivity).
  destruct (piecewise_run_spec h2 (next h1) 0 (-10) ltac:(lia)) as (h5 & E5 & N5 & M5 & M5p & M5r & O5).
  rewrite E5. do 3 eexists. split; [reflexivity|]. intros i Hi. unfold at_. rewrite M5r, M5p, Mt.
  set (t := mem h tpp) in *.
  assert (Lc : length (map (clamp_min (-10)) t) = length t) by apply map_length.
  assert (Ls : length (map (snow_temp 0) (map (clamp_min (-10)) t)) = length t) by (rewrite map_length; exact Lc).
  rewrite (map2_nth _ _ _ _ None None) by (rewrite ?Ls, ?Lc; exact Hi).
  unfold calc_percent_snow.
  rewrite (nth_map' (percent_snow 0) _ _ None) by (rewrite Lc; exact Hi).
  rewrite (nth_map' (snow_temp 0) _ _ None) by (rewrite Lc; exact Hi).
  rewrite (nth_map' (clamp_min (-10)) _ _ None) by exact Hi. split.
  - intros x Hx. rewrite Hx, density_some by lra. split; [reflexivity|].
    rewrite clamp_some, psf_some, psf_clamp, psf_frac. reflexivity.
  - intros ->. split; reflexivity.
Qed.

Lemma percent_exists t_max : 0 <= t_max ->
  exists f, is_percent_snow t_max f /\ (forall t, percent_snow t_max (Some t) = Some (f t)).
Proof. intros H. exists (psf t_max). split; [apply psf_spec; exact H|apply psf_some]. Qed.
