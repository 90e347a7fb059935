(** Proofs about the data-handling functions. *)
From Coq Require Import List Arith Bool ZArith QArith Qcanon Lia Permutation Sorted.
From Verif Require Import Num DataModel DataSpec.
Import ListNotations.
Local Open Scope Qc_scope.

Ltac qcase :=
  repeat match goal with
  | |- context [Qcltb ?x ?y] => destruct (Qcltb_spec x y)
  | |- context [Qcleb ?x ?y] => destruct (Qcleb_spec x y)
  | |- context [Qceqb ?x ?y] => destruct (Qceqb_spec x y)
  end.
Lemma nle_lt (x y : Qc) : ~ (x <= y) -> y < x.
Proof. intros H. destruct (Qclt_le_dec y x); tauto. Qed.
Lemma nlt_le (x y : Qc) : ~ (x < y) -> y <= x.
Proof. intros H. destruct (Qclt_le_dec x y); tauto. Qed.
Ltac qneg := repeat match goal with
  | H : ~ (_ <= _) |- _ => apply nle_lt in H
  | H : ~ (_ < _) |- _ => apply nlt_le in H
  end.

(** ** set_min_max *)
Definition clamp1 (lo hi : option Qc) (x : num) : num := apply_max hi (apply_min lo x).

Lemma set_min_max_map data lo hi : set_min_max data lo hi = map (clamp1 lo hi) data.
Proof.
  unfold set_min_max. induction data as [|x t IH]; [reflexivity|].
  cbn [map combine fst snd]. f_equal.
  - destruct x as [v|]; [reflexivity|]. destruct lo, hi; reflexivity.
  - exact IH.
Qed.

Lemma nth_map_none (f : num -> num) l i : f None = None -> nth i (map f l) None = f (nth i l None).
Proof. intros Hf. rewrite <- Hf at 1. apply map_nth. Qed.

Lemma clamp1_none lo hi : clamp1 lo hi None = None.
Proof. destruct lo, hi; reflexivity. Qed.

Lemma clamp1_some lo hi x : exists y, clamp1 lo hi (Some x) = Some y /\
  (consistent lo hi ->
     at_least lo y /\ at_most hi y /\
     (at_least lo x -> at_most hi x -> y = x) /\
     (forall l, lo = Some l -> x < l -> y = l) /\
     (forall h, hi = Some h -> h < x -> y = h)) /\
  (forall l h, lo = Some l -> hi = Some h -> h < l -> y = h).
Proof.
  unfold clamp1, apply_min, apply_max, consistent, at_least, at_most.
  destruct lo as [l|]; destruct hi as [h|]; simpl;
  repeat match goal with |- context [Qcleb ?a ?b] => destruct (Qcleb_spec a b) end;
  (eexists; split; [reflexivity|]); qneg;
  (split; [intros Hc; try specialize (Hc l h eq_refl eq_refl); repeat split|]);
  repeat match goal with
  | |- forall _, Some _ = Some _ -> _ => intros ? [= <-]
  | |- forall _ _, Some _ = Some _ -> _ => intros ? ? [= <-]
  | |- forall _ _, None = Some _ -> _ => intros; discriminate
  | |- forall _, None = Some _ -> _ => intros; discriminate
  end; intros;
  repeat match goal with
  | H : Some ?a = Some ?b |- _ => injection H as <-
  | H : None = Some _ |- _ => discriminate
  | H : forall _, Some ?a = Some _ -> _ |- _ => specialize (H a eq_refl)
  end; try reflexivity; try qcl.
Qed.

Lemma set_min_max_spec data lo hi :
  length (set_min_max data lo hi) = length data /\
  forall i,
    (nth i data None = None -> nth i (set_min_max data lo hi) None = None) /\
    (forall x, nth i data None = Some x ->
       exists y, nth i (set_min_max data lo hi) None = Some y /\
       (consistent lo hi ->
          at_least lo y /\ at_most hi y /\
          (at_least lo x -> at_most hi x -> y = x) /\
          (forall l, lo = Some l -> x < l -> y = l) /\
          (forall h, hi = Some h -> h < x -> y = h)) /\
       (forall l h, lo = Some l -> hi = Some h -> h < l -> y = h)).
Proof.
  rewrite set_min_max_map. split; [apply map_length|]. intros i.
  rewrite (nth_map_none _ data i (clamp1_none lo hi)). split.
  - intros ->. apply clamp1_none.
  - intros x ->. apply clamp1_some.
Qed.

Lemma set_min_max_idem data lo hi :
  set_min_max (set_min_max data lo hi) lo hi = set_min_max data lo hi.
Proof.
  rewrite !set_min_max_map, map_map. apply map_ext. intros [x|]; [|rewrite !clamp1_none; reflexivity].
  unfold clamp1, apply_min, apply_max. destruct lo as [l|], hi as [h|]; simpl;
  repeat match goal with |- context [Qcleb ?a ?b] => destruct (Qcleb_spec a b) end;
  qneg; try reflexivity; f_equal; try qcl.
Qed.

(** ** argmin *)
Lemma argmin_from_spec l : forall best bv i (full : list num),
  (best < i)%nat ->
  nth best full None = bv ->
  (forall j, (i <= j)%nat -> nth j full None = nth (j - i) l None) ->
  length full = (i + length l)%nat ->
  (forall x, In x full -> x <> None) ->
  (forall j, (j < i)%nat -> forall a b, bv = Some b -> nth j full None = Some a -> b <= a /\ ((j < best)%nat -> b < a)) ->
  let r := argmin_from best bv i l in
  (r < length full)%nat /\
  forall j a b, (j < length full)%nat -> nth r full None = Some b -> nth j full None = Some a ->
    b <= a /\ ((j < r)%nat -> b < a).
Proof.
  induction l as [|x t IH]; intros best bv i full Hb Hbv Hfull Hlen Hsome Hinv; cbn [argmin_from].
  - simpl in Hlen. split; [lia|]. intros j a b Hj Eb Ea. apply (Hinv j); auto; [lia|]. congruence.
  - simpl in Hlen.
    assert (Hx : nth i full None = x) by (rewrite Hfull, Nat.sub_diag by lia; reflexivity).
    assert (Hxin : In x full) by (rewrite <- Hx; apply nth_In; lia).
    assert (Hbin : In bv full) by (rewrite <- Hbv; apply nth_In; lia).
    destruct x as [vx|]; [|exfalso; exact (Hsome _ Hxin eq_refl)].
    destruct bv as [vb|]; [|exfalso; exact (Hsome _ Hbin eq_refl)].
    assert (Hnext : forall j, (S i <= j)%nat -> nth j full None = nth (j - S i) t None).
    { intros j Hj. rewrite Hfull by lia. replace (j - i)%nat with (S (j - S i)) by lia. reflexivity. }
    destruct (Qcltb_spec vx vb) as [L|L].
    + apply IH; auto; [lia|]. intros j Hj a b [= <-] Ea.
      destruct (Nat.eq_dec j i) as [->|Hne].
      * rewrite Hx in Ea. injection Ea as <-. split; [apply Qcle_refl|lia].
      * destruct (Hinv j ltac:(lia) a vb eq_refl Ea) as [H1 _].
        assert (vx < a) by qcl. split; [apply Qclt_le_weak; assumption|auto].
    + qneg. apply IH; auto; [lia|]. intros j Hj a b [= <-] Ea.
      destruct (Nat.eq_dec j i) as [->|Hne].
      * rewrite Hx in Ea. injection Ea as <-. split; [exact L|lia].
      * apply (Hinv j); auto. lia.
Qed.

Lemma argmin_spec l : (forall x, In x l -> x <> None) -> l <> [] ->
  exists r, argmin l = Some r /\ (r < length l)%nat /\
  forall j a b, (j < length l)%nat -> nth r l None = Some b -> nth j l None = Some a ->
    b <= a /\ ((j < r)%nat -> b < a).
Proof.
  intros Hs Hne. destruct l as [|x t]; [congruence|]. exists (argmin_from 0 x 1 t).
  split; [reflexivity|].
  apply (argmin_from_spec t 0 x 1 (x :: t)); auto.
  - intros j Hj. destruct j; [lia|]. simpl. rewrite Nat.sub_0_r. reflexivity.
  - intros j Hj a b E Ea. assert (j = 0)%nat by lia. subst j. simpl in Ea. rewrite E in Ea.
    injection Ea as <-. split; [apply Qcle_refl|lia].
Qed.

Lemma argmin_nan_from l i : argmin_from 0 None i l = 0%nat.
Proof. revert i; induction l as [|x t IH]; intros i; [reflexivity|]. simpl. apply IH. Qed.

Lemma qabs_dist a b d : dist1 a b d <-> d = qabs (a - b).
Proof.
  unfold dist1, qabs. destruct (Qclt_le_dec (a - b) 0) as [L|L]; split.
  - intros [[H ->]|[H ->]]; [|qcl]. exfalso. assert (a < b) by qcl. apply (Qclt_not_le _ _ H0 H).
  - intros ->. right. split; qcl.
  - intros [[H ->]|[H ->]]; [reflexivity|]. qcl.
  - intros ->. left. split; [qcl|reflexivity].
Qed.

Lemma find_pixel_spec c vec : vec <> [] ->
  exists i, find_pixel_location (Some c) vec = Some i /\ (i < length vec)%nat /\
  forall j dj di, (j < length vec)%nat ->
    dist1 (nth j vec 0) c dj -> dist1 (nth i vec 0) c di ->
    di <= dj /\ ((j < i)%nat -> di < dj).
Proof.
  intros Hne. unfold find_pixel_location.
  destruct (argmin_spec (map (fun v => Some (qabs (v - c))) vec)) as (r & E & Hr & H).
  - intros x Hx. apply in_map_iff in Hx. destruct Hx as (v & <- & _). discriminate.
  - destruct vec; [congruence|discriminate].
  - rewrite map_length in *. exists r. split; [exact E|]. split; [exact Hr|].
    assert (N : forall j, (j < length vec)%nat ->
      nth j (map (fun v => Some (qabs (v - c))) vec) None = Some (qabs (nth j vec 0 - c))).
    { intros j Hj. rewrite (nth_indep _ None (Some (qabs (0 - c)))) by (rewrite map_length; exact Hj).
      rewrite (map_nth (fun v => Some (qabs (v - c)))). reflexivity. }
    intros j dj di Hj D1 D2. apply qabs_dist in D1. apply qabs_dist in D2. subst.
    apply (H j); auto.
Qed.

Lemma find_pixel_nan vec : vec <> [] -> find_pixel_location None vec = Some 0%nat.
Proof.
  destruct vec as [|v t]; [congruence|]. intros _. unfold find_pixel_location. simpl.
  rewrite argmin_nan_from. reflexivity.
Qed.
Lemma find_pixel_empty c : find_pixel_location c [] = None.
Proof. reflexivity. Qed.

(** ** colocation *)
Lemma unique_in l x : In x (unique l) <-> In x l.
Proof.
  induction l as [|y t IH]; simpl; [tauto|]. rewrite filter_In, IH, negb_true_iff, Nat.eqb_neq.
  destruct (Nat.eq_dec y x); tauto.
Qed.
Lemma unique_nodup l : NoDup (unique l).
Proof.
  induction l as [|y t IH]; simpl; constructor.
  - rewrite filter_In, negb_true_iff, Nat.eqb_neq. tauto.
  - apply NoDup_filter. exact IH.
Qed.

Lemma at_pixel_spec {A} (meta : list (A * (nat * nat))) x y l :
  on_pixel x y meta l <-> l = at_pixel meta x y.
Proof.
  unfold at_pixel. split.
  - intros H. induction H as [|s m l H IH|s [px py] m l Hne H IH]; simpl.
    + reflexivity.
    + rewrite !Nat.eqb_refl. simpl. congruence.
    + destruct (Nat.eqb_spec px x), (Nat.eqb_spec py y); subst; simpl; auto. congruence.
  - intros ->. induction meta as [|[s [px py]] m IH]; simpl; [constructor|].
    destruct (Nat.eqb_spec px x), (Nat.eqb_spec py y); subst; simpl; constructor; auto; congruence.
Qed.

Definition multi {A} (meta : list (A * (nat * nat))) (p : nat * nat) : bool :=
  (1 <? length (at_pixel meta (fst p) (snd p)))%nat.

Lemma flat_pairs {A} (meta : list (A * (nat * nat))) ux uy :
  flat_map (fun x => flat_map (fun y =>
      let stations := at_pixel meta x y in
      if (1 <? length stations)%nat then [stations] else []) uy) ux
  = map (fun p => at_pixel meta (fst p) (snd p)) (filter (multi meta) (list_prod ux uy)).
Proof.
  induction ux as [|x ux IH]; [reflexivity|]. simpl. rewrite filter_app, map_app, <- IH. f_equal.
  clear IH. induction uy as [|y uy IH]; [reflexivity|]. simpl.
  unfold multi at 1. simpl. destruct (1 <? length (at_pixel meta x y))%nat; simpl; congruence.
Qed.

Lemma list_prod_nodup {A B} (a : list A) (b : list B) : NoDup a -> NoDup b -> NoDup (list_prod a b).
Proof.
  induction a as [|x a IH]; intros Ha Hb; simpl; [constructor|].
  inversion Ha; subst.
  assert (Hm : NoDup (map (fun y => (x, y)) b)).
  { clear - Hb. induction b as [|y b IH]; simpl; [constructor|]. inversion Hb; subst. constructor; auto.
    rewrite in_map_iff. intros (z & [= ->] & Hz). contradiction. }
  assert (Hd : forall p, In p (map (fun y => (x, y)) b) -> ~ In p (list_prod a b)).
  { intros [p1 p2]. rewrite in_map_iff, in_prod_iff. intros (z & [= <- <-] & _) [HH _]. contradiction. }
  specialize (IH H2 Hb). revert Hm Hd. generalize (map (fun y => (x, y)) b). intros l Hm Hd.
  induction l as [|p l IHl]; simpl; [exact IH|]. inversion Hm; subst. constructor.
  - rewrite in_app_iff. intros [H|H]; [contradiction|]. exact (Hd p (or_introl eq_refl) H).
  - apply IHl; auto. intros q Hq. apply Hd. right; exact Hq.
Qed.

Lemma at_pixel_in {A} (meta : list (A * (nat * nat))) x y : at_pixel meta x y <> [] ->
  In x (map (fun r => fst (snd r)) meta) /\ In y (map (fun r => snd (snd r)) meta).
Proof.
  unfold at_pixel. induction meta as [|[s [px py]] m IH]; simpl; [congruence|].
  destruct (Nat.eqb_spec px x), (Nat.eqb_spec py y); subst; simpl; intros H; auto;
    specialize (IH H); tauto.
Qed.

Lemma colocation_groups {A} (meta : list (A * (nat * nat))) :
  exists pixels, NoDup pixels /\
    (forall x y, In (x, y) pixels <-> exists l, on_pixel x y meta l /\ (2 <= length l)%nat) /\
    check_station_colocation meta =
      match map (fun p => at_pixel meta (fst p) (snd p)) pixels with [] => None | l => Some l end.
Proof.
  set (ux := unique (map (fun r => fst (snd r)) meta)).
  set (uy := unique (map (fun r => snd (snd r)) meta)).
  exists (filter (multi meta) (list_prod ux uy)). split; [|split].
  - apply NoDup_filter, list_prod_nodup; apply unique_nodup.
  - intros x y. rewrite filter_In, in_prod_iff. unfold multi. simpl. rewrite Nat.ltb_lt. split.
    + intros [_ H]. exists (at_pixel meta x y). split; [apply at_pixel_spec; reflexivity|lia].
    + intros (l & Hl & Hlen). apply at_pixel_spec in Hl. subst l. split; [|lia].
      subst ux uy. rewrite !unique_in. apply at_pixel_in. destruct (at_pixel meta x y); simpl in Hlen; [lia|discriminate].
  - unfold check_station_colocation. fold ux uy. rewrite flat_pairs.
    destruct (map _ (filter _ _)); reflexivity.
Qed.

Lemma colocation_spec {A} (meta : list (A * (nat * nat))) :
  exists pixels, NoDup pixels /\
    (forall x y, In (x, y) pixels <-> exists l, on_pixel x y meta l /\ (2 <= length l)%nat) /\
    (pixels = [] -> check_station_colocation meta = None) /\
    (pixels <> [] -> exists groups, check_station_colocation meta = Some groups /\
       Forall2 (fun p g => on_pixel (fst p) (snd p) meta g) pixels groups).
Proof.
  destruct (colocation_groups meta) as (px & H1 & H2 & H3). exists px.
  split; [exact H1|]. split; [exact H2|]. split.
  - intros ->. exact H3.
  - intros Hne. exists (map (fun p => at_pixel meta (fst p) (snd p)) px). split.
    + rewrite H3. destruct px; [congruence|reflexivity].
    + clear. induction px; simpl; constructor; auto. apply at_pixel_spec. reflexivity.
Qed.

(** ** grid interpolation *)
Lemma weights_sum s uv : fold_right Qcplus 0 (interp_weights s uv) = 1.
Proof. unfold interp_weights. simpl. ring. Qed.

Lemma weights_reproduce s v0 v1 uv a b c : inverse_edges s v0 v1 ->
  wsum [Some (affine a b c v0); Some (affine a b c v1); Some (affine a b c (sx_r s))] (interp_weights s uv)
  = Some (affine a b c uv).
Proof.
  intros (H1 & H2 & H3 & H4). unfold interp_weights, affine, wsum. simpl in *.
  destruct s as [vt [p q'] [p' r'] [rx ry]]. destruct uv as [u v], v0 as [x0 y0], v1 as [x1 y1].
  simpl in *. f_equal.
  transitivity (a * rx + b * ry + c
     + a * ((((x0 - rx) * p + (x1 - rx) * p') * (u - rx)) + ((x0 - rx) * q' + (x1 - rx) * r') * (v - ry))
     + b * ((((y0 - ry) * p + (y1 - ry) * p') * (u - rx)) + ((y0 - ry) * q' + (y1 - ry) * r') * (v - ry))).
  - ring.
  - rewrite H1, H2, H3, H4. ring.
Qed.

Lemma interp_point_neg values vtx wts fill w : In w wts -> w < 0 -> interp_point values vtx wts fill = fill.
Proof.
  intros Hi Hw. unfold interp_point.
  assert (E : existsb (fun w => Qcltb w 0) wts = true).
  { apply existsb_exists. exists w. split; [exact Hi|]. destruct (Qcltb_spec w 0); tauto. }
  rewrite E. reflexivity.
Qed.
Lemma interp_point_pos values vtx wts fill : (forall w, In w wts -> 0 <= w) ->
  interp_point values vtx wts fill = wsum (map (fun k => nth k values None) vtx) wts.
Proof.
  intros H. unfold interp_point.
  destruct (existsb (fun w => Qcltb w 0) wts) eqn:E; [|reflexivity].
  apply existsb_exists in E. destruct E as (w & Hi & Hw). destruct (Qcltb_spec w 0); [|discriminate].
  exfalso. apply (Qclt_not_le _ _ q). apply H. exact Hi.
Qed.

Lemma wsum_bounds lo hi vals wts : length vals = length wts ->
  (forall w, In w wts -> 0 <= w) ->
  (forall x, In x vals -> exists v, x = Some v /\ lo <= v /\ v <= hi) ->
  exists y, wsum vals wts = Some y /\
    lo * fold_right Qcplus 0 wts <= y /\ y <= hi * fold_right Qcplus 0 wts.
Proof.
  revert wts; induction vals as [|x vals IH]; intros [|w wts]; simpl; intros Hl Hw Hv; try discriminate.
  - exists 0. split; [reflexivity|]. split; qcl.
  - destruct (IH wts ltac:(lia) ltac:(auto) ltac:(auto)) as (y & -> & B1 & B2).
    destruct (Hv x (or_introl eq_refl)) as (v & -> & V1 & V2).
    specialize (Hw w (or_introl eq_refl)). simpl. exists (v * w + y). split; [reflexivity|].
    assert (lo * w <= v * w) by (apply Qcmult_le_compat_r; assumption).
    assert (v * w <= hi * w) by (apply Qcmult_le_compat_r; assumption).
    split; rewrite Qcmult_plus_distr_r; qcl.
Qed.

Lemma grid_interpolate_nth values vtx wts fill i : (i < length vtx)%nat -> length wts = length vtx ->
  nth i (grid_interpolate values vtx wts fill) None = interp_point values (nth i vtx []) (nth i wts []) fill.
Proof.
  intros Hi Hl. unfold grid_interpolate.
  rewrite (nth_indep _ None (interp_point values (fst (([] : list nat), ([] : list Qc))) (snd (([] : list nat), ([] : list Qc))) fill))
    by (rewrite map_length, combine_length; lia).
  rewrite (map_nth (fun p => interp_point values (fst p) (snd p) fill)).
  rewrite combine_nth by (symmetry; exact Hl). reflexivity.
Qed.

(** ** readImages *)
Lemma pos_inj u v : pos u = pos v -> u = v.
Proof. destruct u, v; simpl; intros; try reflexivity; discriminate. Qed.

Lemma readImages_spec {A} (file : image -> option A) (ti tf : A -> A) :
  (readImages file ti tf = None <-> file Dem = None) /\
  (forall l, readImages file ti tf = Some l ->
     map fst l = [Dem; Mask; VegType; VegHeight; VegK; VegTau] /\
     forall v r, In (v, r) l ->
       exists w a, last_present file v w /\ file w = Some a /\ r = conv ti tf w a).
Proof.
  unfold readImages, IMAGES, read_images.
  destruct (file Dem) as [d|] eqn:E0.
  2:{ simpl. split; [tauto|]. intros l. discriminate. }
  split.
  - split; [|discriminate].
    destruct (file Mask); destruct (file VegType); destruct (file VegHeight); destruct (file VegK);
      destruct (file VegTau); simpl; discriminate.
  - intros l Hl.
    destruct (file Mask) as [m|] eqn:E1; destruct (file VegType) as [t|] eqn:E2;
    destruct (file VegHeight) as [h|] eqn:E3; destruct (file VegK) as [k|] eqn:E4;
    destruct (file VegTau) as [u|] eqn:E5; simpl in Hl; injection Hl as <-;
    (split; [reflexivity|]);
    intros v r Hin; simpl in Hin;
    repeat (destruct Hin as [Hin|Hin];
      [injection Hin as <- <-;
       match goal with
       | |- exists w a, last_present _ ?v w /\ _ /\ ?tt = conv _ _ w a =>
         let go w a E := (exists w, a; split; [split; [congruence|split; [simpl; lia|intros [] ? ?; simpl in *; first [lia|assumption]]]|split; [exact E|reflexivity]]) in
         first [go VegTau u E5 | go VegK k E4 | go VegHeight h E3 | go VegType t E2 | go Mask m E1 | go Dem d E0]
       end|]); destruct Hin.
Qed.

(** ** restart *)
Lemma where_eq_none start i times : (forall t, In t times -> t <> start) -> where_eq start i times = [].
Proof.
  revert i; induction times as [|t r IH]; intros i H; [reflexivity|]. simpl.
  destruct (Z.eqb_spec t start) as [->|]; [exfalso; exact (H start (or_introl eq_refl) eq_refl)|].
  apply IH. intros x Hx. apply H. right; exact Hx.
Qed.
Lemma where_eq_first start i times k : nth_error times k = Some start ->
  (forall j, (j < k)%nat -> nth_error times j <> Some start) ->
  exists r, where_eq start i times = (i + k)%nat :: r.
Proof.
  revert i k; induction times as [|t times IH]; intros i [|k] Hk Hb; simpl in *; try discriminate.
  - injection Hk as ->. rewrite Z.eqb_refl, Nat.add_0_r. eauto.
  - destruct (Z.eqb_spec t start) as [->|Hne].
    + exfalso. apply (Hb 0%nat); [lia|reflexivity].
    + destruct (IH (S i) k Hk) as [r Hr].
      * intros j Hj. exact (Hb (S j) ltac:(lia)).
      * exists r. rewrite Hr. f_equal. lia.
Qed.

Lemma restart_spec {A} times (recs : list A) zeros start : length recs = length times ->
  (forall k, nth_error times (S k) = Some start -> (forall j, (j <= k)%nat -> nth_error times j <> Some start) ->
     storm_days_restart true times recs zeros start = nth_error recs k /\ (k < length recs)%nat) /\
  (nth_error times 0 = Some start ->
     storm_days_restart true times recs zeros start = nth_error recs (length recs - 1) /\ recs <> []) /\
  ((forall t, In t times -> t <> start) -> storm_days_restart true times recs zeros start = Some zeros).
Proof.
  intros Hl. unfold storm_days_restart. split; [|split].
  - intros k Hk Hb. destruct (where_eq_first start 0 times (S k) Hk) as [r ->].
    { intros j Hj. apply Hb. lia. }
    split.
    + unfold py_nth. replace (Z.of_nat (0 + S k) - 1)%Z with (Z.of_nat k) by lia.
      destruct (Z.ltb_spec (Z.of_nat k) 0); [lia|]. rewrite Nat2Z.id. reflexivity.
    + assert (S k < length times)%nat by (apply nth_error_Some; congruence). lia.
  - intros H0. destruct (where_eq_first start 0 times 0 H0) as [r ->]; [lia|].
    assert (Hn : (0 < length times)%nat) by (apply nth_error_Some; congruence).
    split; [|destruct recs; simpl in *; [lia|discriminate]].
    unfold py_nth. simpl (Z.of_nat (0 + 0) - 1)%Z.
    destruct (Z.ltb_spec (-1) 0); [|lia]. f_equal. lia.
  - intros H. rewrite where_eq_none by exact H. reflexivity.
Qed.

(** ** getStations *)
Lemma insert_perm x l : Permutation (x :: l) (insert x l).
Proof.
  induction l as [|y t IH]; simpl; [reflexivity|]. destruct (Nat.leb_spec x y); [reflexivity|].
  rewrite perm_swap. constructor. exact IH.
Qed.
Lemma isort_perm l : Permutation l (isort l).
Proof. induction l as [|x t IH]; simpl; [constructor|]. rewrite <- insert_perm. constructor. exact IH. Qed.
Lemma insert_sorted x l : Sorted le l -> Sorted le (insert x l).
Proof.
  induction l as [|y t IH]; intros H; simpl; [repeat constructor|].
  destruct (Nat.leb_spec x y); [constructor; [exact H|constructor; exact H0]|].
  inversion H; subst. constructor; [apply IH; assumption|].
  destruct t as [|z t]; simpl; [constructor; lia|].
  destruct (Nat.leb_spec x z); constructor; try lia. inversion H4; subst. lia.
Qed.
Lemma isort_sorted l : Sorted le (isort l).
Proof. induction l as [|x t IH]; simpl; [constructor|]. apply insert_sorted. exact IH. Qed.

Lemma getStations_spec cfg : fst (getStations cfg) = None /\
  (forall l, cfg = Some (Some l) -> exists l', snd (getStations cfg) = Some (Some l') /\
     Permutation l l' /\ Sorted le l') /\
  ((forall l, cfg <> Some (Some l)) -> snd (getStations cfg) = cfg).
Proof.
  split; [|split].
  - destruct cfg as [[l|]|]; reflexivity.
  - intros l ->. exists (isort l). split; [reflexivity|]. split; [apply isort_perm|apply isort_sorted].
  - intros H. destruct cfg as [[l|]|]; try reflexivity. exfalso. apply (H l). reflexivity.
Qed.

(** ** station filter *)
Lemma isin_keep {A} st (t : table A) : filter (fun c => isin st (fst c)) t = keep st t.
Proof.
  unfold keep, isin. apply filter_ext. intros [c a]. simpl.
  destruct (in_dec Nat.eq_dec c st) as [H|H].
  - apply existsb_exists. exists c. split; [exact H|apply Nat.eqb_refl].
  - destruct (existsb (Nat.eqb c) st) eqn:E; [|reflexivity]. apply existsb_exists in E.
    destruct E as (x & Hx & Ex). apply Nat.eqb_eq in Ex. subst. contradiction.
Qed.

Lemma filter_step_eq {A} (s : loaded A) v m :
  (forall v', ld_table (filter_step s (v, m)) v' =
     if var_eqb v' v then filtered (ld_stations s m) (ld_table s v) else ld_table s v') /\
  (forall m', ld_stations (filter_step s (v, m)) m' =
     if mod_eqb m' m then Some (columns (filtered (ld_stations s m) (ld_table s v))) else ld_stations s m').
Proof.
  unfold filter_step, filtered, columns. destruct (ld_stations s m) as [st|]; simpl.
  - rewrite isin_keep. split; intros; reflexivity.
  - split; intros.
    + destruct v', v; reflexivity.
    + destruct (ld_table s v); reflexivity.
Qed.

Lemma load_filter_spec {A} (s : loaded A) :
  (forall v m, In (v, m) [(AirTemp, MAirTemp); (VaporPressure, MVaporPressure);
                          (Precip, MPrecipitation); (CloudFactor, MCloudFactor); (Thermal, MThermal)] ->
     ld_table (load_filter s) v = filtered (ld_stations s m) (ld_table s v) /\
     ld_stations (load_filter s) m = Some (columns (filtered (ld_stations s m) (ld_table s v)))) /\
  let speed := filtered (ld_stations s MWind) (ld_table s WindSpeed) in
  let dirn := filtered (Some (columns speed)) (ld_table s WindDirection) in
  ld_table (load_filter s) WindSpeed = speed /\
  ld_table (load_filter s) WindDirection = dirn /\
  ld_stations (load_filter s) MWind = Some (columns dirn).
Proof.
  unfold load_filter, MODULE_VARIABLES. cbn [fold_left].
  destruct (filter_step_eq s AirTemp MAirTemp) as [T1 M1].
  set (s1 := filter_step s (AirTemp, MAirTemp)) in *. clearbody s1.
  destruct (filter_step_eq s1 VaporPressure MVaporPressure) as [T2 M2].
  set (s2 := filter_step s1 (VaporPressure, MVaporPressure)) in *. clearbody s2.
  destruct (filter_step_eq s2 Precip MPrecipitation) as [T3 M3].
  set (s3 := filter_step s2 (Precip, MPrecipitation)) in *. clearbody s3.
  destruct (filter_step_eq s3 WindSpeed MWind) as [T4 M4].
  set (s4 := filter_step s3 (WindSpeed, MWind)) in *. clearbody s4.
  destruct (filter_step_eq s4 WindDirection MWind) as [T5 M5].
  set (s5 := filter_step s4 (WindDirection, MWind)) in *. clearbody s5.
  destruct (filter_step_eq s5 CloudFactor MCloudFactor) as [T6 M6].
  set (s6 := filter_step s5 (CloudFactor, MCloudFactor)) in *. clearbody s6.
  destruct (filter_step_eq s6 Thermal MThermal) as [T7 M7].
  set (s7 := filter_step s6 (Thermal, MThermal)) in *. clearbody s7.
  Local Ltac run T1 T2 T3 T4 T5 T6 T7 M1 M2 M3 M4 M5 M6 M7 :=
    repeat (first [rewrite T7|rewrite M7|rewrite T6|rewrite M6|rewrite T5|rewrite M5|rewrite T4|rewrite M4
                  |rewrite T3|rewrite M3|rewrite T2|rewrite M2|rewrite T1|rewrite M1]; cbn [var_eqb mod_eqb]).
  split.
  - intros v m Hin. simpl in Hin.
    repeat (destruct Hin as [[= <- <-]|Hin];
      [split; run T1 T2 T3 T4 T5 T6 T7 M1 M2 M3 M4 M5 M6 M7; reflexivity|]). contradiction.
  - repeat split; run T1 T2 T3 T4 T5 T6 T7 M1 M2 M3 M4 M5 M6 M7; reflexivity.
Qed.

(** ** WRF precipitation *)
Lemma diff_rows_nth rows : forall prev i j,
  (i < length rows)%nat -> (j < length prev)%nat ->
  (forall r, In r rows -> length r = length prev) ->
  nth j (nth i (diff_rows prev rows) []) None =
    nsub (nth j (nth i rows []) None) (nth j (nth i (prev :: rows) []) None).
Proof.
  induction rows as [|r rows IH]; intros prev i j Hi Hj Hw; simpl in *; [lia|].
  assert (Hr : length r = length prev) by (apply Hw; auto).
  destruct i as [|i].
  - rewrite (nth_indep _ None ((fun p : num * num => nsub (fst p) (snd p)) (None, None)))
      by (rewrite map_length, combine_length; lia).
    rewrite (map_nth (fun p => nsub (fst p) (snd p))), combine_nth by exact Hr. reflexivity.
  - rewrite (IH r i j); [reflexivity|lia|lia|]. intros r' Hr'. rewrite Hr. apply Hw. auto.
Qed.
Lemma diff_rows_length rows prev : length (diff_rows prev rows) = length rows.
Proof. revert prev; induction rows; intros; simpl; auto. Qed.

Lemma wrf_precip_spec rows n : (forall r, In r rows -> length r = n) ->
  length (wrf_precip rows) = length rows /\
  forall i j, (i < length rows)%nat -> (j < n)%nat ->
    nth j (nth i (wrf_precip rows) []) None =
      match i with
      | O => Some 0
      | S i' => nsub (nth j (nth i rows []) None) (nth j (nth i' rows []) None)
      end.
Proof.
  intros Hw. destruct rows as [|r t]; [split; [reflexivity|simpl; lia]|].
  assert (Hr : length r = n) by (apply Hw; left; reflexivity).
  split; [simpl; rewrite diff_rows_length; reflexivity|].
  intros [|i] j Hi Hj; simpl in Hi |- *.
  - rewrite (nth_indep _ None ((fun _ : num => Some 0) None)) by (rewrite map_length; lia).
    rewrite (map_nth (fun _ : num => Some 0) r None j). reflexivity.
  - apply diff_rows_nth; [lia|lia|]. intros r' Hr'. rewrite Hr. apply Hw. right; exact Hr'.
Qed.

Lemma total_ext n f g : (forall k, (k < n)%nat -> f k = g k) -> total n f = total n g.
Proof. induction n; simpl; intros H; [reflexivity|]. rewrite H, IHn by (auto; lia). reflexivity. Qed.

Lemma wrf_precip_total rows n i j : (forall r, In r rows -> length r = n) ->
  (forall r x, In r rows -> In x r -> x <> None) ->
  (i < length rows)%nat -> (j < n)%nat ->
  total (S i) (fun k => nth j (nth k (wrf_precip rows) []) None) =
    nsub (nth j (nth i rows []) None) (nth j (nth 0 rows []) None).
Proof.
  intros Hw Hs Hi Hj. destruct (wrf_precip_spec rows n Hw) as [_ S].
  assert (V : forall k, (k < length rows)%nat -> exists v, nth j (nth k rows []) None = Some v).
  { intros k Hk. destruct (nth j (nth k rows []) None) as [v|] eqn:E; [eauto|]. exfalso.
    apply (Hs (nth k rows []) (nth j (nth k rows []) None)); [apply nth_In; lia| |exact E].
    apply nth_In. rewrite (Hw (nth k rows [])); [exact Hj|apply nth_In; lia]. }
  destruct (V 0%nat ltac:(lia)) as [v0 E0].
  induction i as [|i IH].
  - cbn [total]. rewrite (S 0%nat j Hi Hj), E0. simpl. f_equal. ring.
  - change (total (Datatypes.S (Datatypes.S i)) (fun k => nth j (nth k (wrf_precip rows) []) None))
      with (nadd (total (Datatypes.S i) (fun k => nth j (nth k (wrf_precip rows) []) None))
                 (nth j (nth (Datatypes.S i) (wrf_precip rows) []) None)).
    rewrite IH by lia. rewrite (S (Datatypes.S i) j Hi Hj).
    destruct (V i ltac:(lia)) as [vi Ei]. destruct (V (Datatypes.S i) Hi) as [vs Es].
    rewrite E0, Ei, Es. cbn [nadd nsub]. apply (f_equal (@Some Qc)). ring.
Qed.

(** ** cloud factor memory *)
Lemma last_number_app l v x : last_number l v ->
  last_number (l ++ [x]) (match x with Some w => w | None => v end).
Proof.
  intros H. induction H as [l v H|l y v H IH]; simpl.
  - destruct x as [w|].
    + apply ln_later. clear H. induction l; simpl; [apply ln_here; intros ? []|apply ln_later; exact IHl].
    + apply ln_here. intros y Hy. apply in_app_or in Hy. destruct Hy as [Hy|[<-|[]]]; auto.
  - apply ln_later. exact IH.
Qed.
Lemma last_number_none l v : last_number l v -> ~ (forall x, In x l -> x = None).
Proof.
  intros H. induction H as [l v H|l x v H IH]; intros N.
  - specialize (N (Some v) (or_introl eq_refl)). discriminate.
  - apply IH. intros y Hy. apply N. right; exact Hy.
Qed.
Lemma last_number_det l v w : last_number l v -> last_number l w -> v = w.
Proof.
  intros H. revert w. induction H as [l v H|l x v H IH]; intros w Hw.
  - remember (Some v :: l) as l' eqn:E. destruct Hw as [l2 w H2|l2 x w H2].
    + congruence.
    + injection E as -> ->. exfalso. exact (last_number_none _ _ H2 H).
  - remember (x :: l) as l' eqn:E. destruct Hw as [l2 w H2|l2 x2 w H2].
    + injection E as <- ->. exfalso. exact (last_number_none _ _ H H2).
    + injection E as -> ->. apply IH. exact H2.
Qed.

Lemma nth_app_l {A} (l l' : list A) i d : (i < length l)%nat -> nth i (l ++ l') d = nth i l d.
Proof. apply app_nth1. Qed.
Lemma prev_valid_app l x i : (i < length l)%nat -> prev_valid (l ++ [x]) i = prev_valid l i.
Proof.
  induction i as [|i IH]; intros Hi; simpl; rewrite app_nth1 by exact Hi; [reflexivity|].
  rewrite IH by lia. reflexivity.
Qed.

Lemma last_number_end l w : last_number (l ++ [Some w]) w.
Proof. induction l; simpl; [apply ln_here; intros ? []|apply ln_later; assumption]. Qed.
Lemma last_number_drop l v : last_number (l ++ [None]) v -> last_number l v.
Proof.
  intros H. remember (l ++ [None]) as l' eqn:E. revert l E.
  induction H as [k v H|k y v H IH]; intros l E.
  - destruct l as [|z l]; simpl in E; injection E as Ey El; [discriminate|].
    subst. apply ln_here. intros x Hx. apply H. apply in_or_app. auto.
  - destruct l as [|z l]; simpl in E; injection E as Ey El.
    + subst. inversion H.
    + subst. apply ln_later. apply IH. reflexivity.
Qed.

Lemma prev_valid_last l v : last_number l v -> exists a, prev_valid l (length l - 1) = Some (a, v).
Proof.
  intros H. induction l as [|x l IH] using rev_ind.
  - inversion H.
  - rewrite app_length. simpl. replace (length l + 1 - 1)%nat with (length l) by lia.
    destruct x as [w|].
    + exists (length l).
      assert (v = w).
      { eapply last_number_det; [exact H|apply last_number_end]. }
      subst w. destruct (length l) eqn:E; cbn [prev_valid];
      rewrite app_nth2 by lia; rewrite <- E, Nat.sub_diag; reflexivity.
    + pose proof (last_number_drop l v H) as H'.
      destruct (IH H') as [a Ha]. exists a.
      destruct l as [|z l]; [inversion H'|]. simpl length in *.
      cbn [prev_valid]. rewrite app_nth2 by (simpl; lia). simpl length.
      rewrite Nat.sub_diag. cbn [nth].
      rewrite prev_valid_app by (simpl; lia).
      replace (S (length l) - 1)%nat with (length l) in Ha by lia. exact Ha.
Qed.

Lemma prev_valid_self (l : list num) i v : nth i l None = Some v -> prev_valid l i = Some (i, v).
Proof. intros H. destruct i; cbn [prev_valid]; rewrite H; reflexivity. Qed.

Lemma interp_last l v : last_number l v -> interp_at l (length l - 1) = Some v.
Proof.
  intros H. destruct (prev_valid_last l v H) as [a Ha]. unfold interp_at. rewrite Ha.
  destruct (next_valid (skipn (length l - 1) l) (length l - 1)) as [[b vb]|] eqn:E; [|reflexivity].
  assert (Hl : l <> []) by (intros ->; inversion H).
  destruct (exists_last Hl) as (l' & x & ->). rewrite app_length in *. simpl length in *.
  replace (length l' + 1 - 1)%nat with (length l') in * by lia.
  rewrite skipn_app, skipn_all, Nat.sub_diag in E. simpl in E.
  destruct x as [w|]; [|discriminate]. injection E as <- <-.
  rewrite (prev_valid_self _ _ w) in Ha by (rewrite app_nth2, Nat.sub_diag by lia; reflexivity).
  injection Ha as <- <-. rewrite Nat.eqb_refl. reflexivity.
Qed.

Lemma last_map_seq {B} (f : nat -> B) n d : (0 < n)%nat -> last (map f (seq 0 n)) d = f (n - 1)%nat.
Proof.
  intros Hn. destruct n as [|n]; [lia|]. rewrite seq_S, map_app. simpl. rewrite last_last.
  f_equal. lia.
Qed.

Lemma ffill_last d l v : last l None = Some v -> last (ffill d l) None = Some v.
Proof.
  revert d; induction l as [|x t IH]; intros d H; [discriminate|]. destruct t as [|y t].
  - simpl in *. subst x. reflexivity.
  - change (last (y :: t) None = Some v) in H.
    change (ffill d (x :: y :: t)) with
      ((match x with Some _ => x | None => d end) :: ffill (match x with Some _ => x | None => d end) (y :: t)).
    remember (ffill (match x with Some _ => x | None => d end) (y :: t)) as f eqn:Ef.
    specialize (IH (match x with Some _ => x | None => d end) H).
    rewrite <- Ef in IH. destruct f; [discriminate|exact IH].
Qed.

Lemma column_out l v : last_number l v -> last (ffill None (interpolate l)) None = Some v.
Proof.
  intros H. apply ffill_last. unfold interpolate.
  assert (0 < length l)%nat by (destruct l; [inversion H|simpl; lia]).
  rewrite last_map_seq by assumption. apply interp_last. exact H.
Qed.

Lemma no_nan_last (l : list num) : l <> [] -> has_nan l = false -> exists v, last l None = Some v /\ last_number l v.
Proof.
  intros Hne Hn. destruct (exists_last Hne) as (l' & x & ->).
  unfold has_nan in Hn. rewrite existsb_app in Hn. apply orb_false_iff in Hn. destruct Hn as [_ Hx].
  simpl in Hx. destruct x as [v|]; [|discriminate]. exists v. split; [apply last_last|].
  clear. induction l'; simpl; [apply ln_here; intros ? []|apply ln_later; assumption].
Qed.

Lemma check_first_nan (cols : list (list num)) : (exists c x, In c cols /\ In x c /\ x = None) ->
  (forall c, In c cols -> c <> []) ->
  check_cloud_factor None cols = map (fun _ => Some 1) cols.
Proof.
  intros (c & x & Hc & Hx & ->) Hne. unfold check_cloud_factor.
  assert (E : existsb has_nan cols = true).
  { apply existsb_exists. exists c. split; [exact Hc|]. apply existsb_exists. exists None. auto. }
  rewrite E, map_map. apply map_ext_in. intros l Hl. apply column_out.
  specialize (Hne l Hl). clear - Hne. destruct (exists_last Hne) as (l' & x & ->).
  rewrite map_app. simpl.
  induction l'; simpl; [apply ln_here; intros ? []|apply ln_later; apply IHl'; destruct l'; discriminate].
Qed.

Lemma check_first_ok (cols : list (list num)) : (forall c x, In c cols -> In x c -> x <> None) ->
  (forall c, In c cols -> c <> []) ->
  check_cloud_factor None cols = map (fun c => last c None) cols.
Proof.
  intros Hs Hne. unfold check_cloud_factor.
  assert (N : forall c, In c cols -> has_nan c = false).
  { intros c Hc. destruct (has_nan c) eqn:E; [|reflexivity]. apply existsb_exists in E.
    destruct E as (x & Hx & Ex). destruct x; [discriminate|]. exfalso. exact (Hs c None Hc Hx eq_refl). }
  assert (E : existsb has_nan cols = false).
  { destruct (existsb has_nan cols) eqn:E; [|reflexivity]. apply existsb_exists in E.
    destruct E as (c & Hc & Ec). rewrite N in Ec by exact Hc. discriminate. }
  rewrite E. apply map_ext_in. intros c Hc.
  destruct (no_nan_last c (Hne c Hc) (N c Hc)) as (v & Ev & Hv). transitivity (Some v : num); [|symmetry; exact Ev]. apply column_out. exact Hv.
Qed.

Lemma has_last l m : exists v, last_number (Some m :: l) v /\
  ((exists w, last_number l w /\ v = w) \/ ((forall x, In x l -> x = None) /\ v = m)).
Proof.
  induction l as [|x l IH] using rev_ind.
  - exists m. split; [apply ln_here; intros ? []|]. right. split; [intros ? []|reflexivity].
  - destruct IH as (v & Hv & C). exists (match x with Some w => w | None => v end). split.
    + apply (last_number_app (Some m :: l)). exact Hv.
    + destruct x as [w|].
      * left. exists w. split; [|reflexivity]. clear. induction l; simpl; [apply ln_here; intros ? []|apply ln_later; assumption].
      * destruct C as [(w & Hw & ->)|(Hn & ->)].
        -- left. exists w. split; [|reflexivity]. apply (last_number_app l w None Hw).
        -- right. split; [|reflexivity]. intros y Hy. apply in_app_or in Hy. destruct Hy as [Hy|[<-|[]]]; auto.
Qed.

Lemma check_next (mem : list num) (cols : list (list num)) j m : length cols = length mem -> (j < length mem)%nat -> nth j mem None = Some m ->
  (forall v, last_number (nth j cols []) v -> nth j (check_cloud_factor (Some mem) cols) None = Some v) /\
  ((forall x, In x (nth j cols []) -> x = None) -> nth j (check_cloud_factor (Some mem) cols) None = Some m).
Proof.
  intros Hl Hj Hm. unfold check_cloud_factor. rewrite map_map.
  set (f := fun p : num * list num => last (ffill None (interpolate (fst p :: snd p))) None).
  assert (E : nth j (map f (combine mem cols)) None = f (Some m, nth j cols [])).
  { rewrite (nth_indep _ None (f (None, []))) by (rewrite map_length, combine_length; lia).
    rewrite map_nth, combine_nth by (symmetry; exact Hl). rewrite Hm. reflexivity. }
  change (map (fun x => last (ffill None (interpolate (fst x :: snd x))) None) (combine mem cols))
    with (map f (combine mem cols)).
  rewrite E. unfold f. simpl fst. simpl snd. split; intros.
  - apply column_out. apply ln_later. assumption.
  - apply column_out. apply ln_here. assumption.
Qed.

Lemma check_length mem cols : length cols = length mem -> length (check_cloud_factor (Some mem) cols) = length mem.
Proof. intros H. unfold check_cloud_factor. rewrite !map_length, combine_length. lia. Qed.

Lemma check_next_some (mem : list num) (cols : list (list num)) : length cols = length mem -> (forall x, In x mem -> x <> None) ->
  forall x, In x (check_cloud_factor (Some mem) cols) -> x <> None.
Proof.
  intros Hl Hm x Hx. apply (In_nth _ _ None) in Hx. destruct Hx as (j & Hj & <-).
  rewrite check_length in Hj by exact Hl.
  destruct (nth j mem None) as [m|] eqn:E; [|exfalso; apply (Hm (nth j mem None)); [apply nth_In; exact Hj|exact E]].
  destruct (check_next mem cols j m Hl Hj E) as [C1 C2].
  destruct (has_last (nth j cols []) m) as (v & _ & [(w & Hw & _)|(Hn & _)]).
  - rewrite (C1 w Hw). discriminate.
  - rewrite (C2 Hn). discriminate.
Qed.

Lemma check_first_some (cols : list (list num)) : (forall c, In c cols -> c <> []) ->
  length (check_cloud_factor None cols) = length cols /\
  forall x, In x (check_cloud_factor None cols) -> x <> None.
Proof.
  intros Hne. split; [unfold check_cloud_factor; destruct (existsb has_nan cols); rewrite !map_length; reflexivity|].
  destruct (existsb has_nan cols) eqn:E.
  - rewrite check_first_nan; [|apply existsb_exists in E; destruct E as (c & Hc & Hx); apply existsb_exists in Hx;
      destruct Hx as ([v|] & Hx & Ex); [discriminate|exists c, None; auto]|exact Hne].
    intros x Hx. apply in_map_iff in Hx. destruct Hx as (y & <- & _). discriminate.
  - assert (N : forall c x, In c cols -> In x c -> x <> None).
    { intros c x Hc Hx ->. assert (existsb has_nan cols = true).
      { apply existsb_exists. exists c. split; [exact Hc|]. apply existsb_exists. exists None. auto. }
      congruence. }
    rewrite check_first_ok by assumption. intros x Hx. apply in_map_iff in Hx. destruct Hx as (c & <- & Hc).
    destruct (no_nan_last c (Hne c Hc)) as (v & -> & _); [|discriminate].
    destruct (has_nan c) eqn:Ec; [|reflexivity]. apply existsb_exists in Ec. destruct Ec as ([v|] & Hx & Ex); [discriminate|].
    exfalso. exact (N c None Hc Hx eq_refl).
Qed.

Lemma cloud_run_some n frames : forall mem,
  length mem = n -> (forall x, In x mem -> x <> None) ->
  (forall f, In f frames -> length f = n) ->
  forall row x, In row (cloud_run (Some mem) frames) -> In x row -> x <> None.
Proof.
  induction frames as [|f t IH]; intros mem Hl Hm Hf row x Hr Hx; [destruct Hr|].
  assert (Hfl : length f = length mem) by (rewrite Hl; apply Hf; left; reflexivity).
  destruct Hr as [<-|Hr].
  - apply (check_next_some mem f Hfl Hm x Hx).
  - apply (IH (check_cloud_factor (Some mem) f)) with row; auto.
    + rewrite check_length by exact Hfl. exact Hl.
    + apply check_next_some; assumption.
    + intros g Hg. apply Hf. right; exact Hg.
Qed.

Lemma cloud_run_no_nan n frames : (forall f, In f frames -> length f = n) ->
  (forall f, hd_error frames = Some f -> forall c, In c f -> c <> []) ->
  length (cloud_run None frames) = length frames /\
  forall row x, In row (cloud_run None frames) -> In x row -> x <> None.
Proof.
  intros Hf H0. split.
  - clear. generalize (@None (list num)). induction frames; intros; simpl; auto.
  - destruct frames as [|f t]; [intros ? ? []|]. simpl in H0. specialize (H0 f eq_refl).
    destruct (check_first_some f H0) as [L1 S1].
    intros row x [<-|Hr] Hx; [apply S1; exact Hx|].
    apply (cloud_run_some n t (check_cloud_factor None f)) with row; auto.
    + rewrite L1. apply Hf. left; reflexivity.
    + intros g Hg. apply Hf. right; exact Hg.
Qed.

(** ** which precipitation pipeline runs *)
Lemma ppt_skip {D S} adjust (marks susong : D -> S -> S) drift c cold corrected data s :
  c_grid c = false -> c_marks c = false -> c_under c = false ->
  ppt_distribute adjust marks susong drift c cold corrected data s =
    (corrected, if c_winstral c && cold then drift s else s).
Proof.
  intros H1 H2 H3. unfold ppt_distribute. rewrite H1, H2, H3. simpl.
  destruct (c_winstral c), cold; reflexivity.
Qed.
Lemma ppt_runs {D S} adjust (marks susong : D -> S -> S) drift c cold corrected data s :
  let post := fun x => if c_winstral c && cold then drift x else x in
  (c_grid c = true ->
     ppt_distribute adjust marks susong drift c cold corrected data s = (corrected, post (susong data s))) /\
  (c_grid c = false -> c_marks c = true ->
     let row := if c_under c then adjust corrected else corrected in
     ppt_distribute adjust marks susong drift c cold corrected data s = (row, post (marks row s))) /\
  (c_grid c = false -> c_marks c = false -> c_under c = true ->
     ppt_distribute adjust marks susong drift c cold corrected data s = (corrected, post (susong (adjust data) s))).
Proof.
  destruct c as [g m u w]; simpl. split; [|split]; intros; subst; unfold ppt_distribute; simpl;
    destruct w, cold; try destruct m; try destruct u; reflexivity.
Qed.

Lemma grid_interpolate_point values vtx wts fill i : (i < length vtx)%nat -> length wts = length vtx ->
  let r := nth i (grid_interpolate values vtx wts fill) None in
  (forall w, In w (nth i wts []) -> w < 0 -> r = fill) /\
  ((forall w, In w (nth i wts []) -> 0 <= w) ->
     r = wsum (map (fun k => nth k values None) (nth i vtx [])) (nth i wts [])).
Proof.
  intros Hi Hl r. subst r. rewrite grid_interpolate_nth by assumption. split.
  - intros w. apply interp_point_neg.
  - apply interp_point_pos.
Qed.

Lemma grid_interpolate_between lo hi values vtx wts fill i : (i < length vtx)%nat -> length wts = length vtx ->
  length (nth i vtx []) = length (nth i wts []) ->
  (forall w, In w (nth i wts []) -> 0 <= w) -> fold_right Qcplus 0 (nth i wts []) = 1 ->
  (forall k, In k (nth i vtx []) -> exists v, nth k values None = Some v /\ lo <= v /\ v <= hi) ->
  exists y, nth i (grid_interpolate values vtx wts fill) None = Some y /\ lo <= y /\ y <= hi.
Proof.
  intros Hi Hl Hll Hw Hs Hv. rewrite grid_interpolate_nth, interp_point_pos by assumption.
  destruct (wsum_bounds lo hi (map (fun k => nth k values None) (nth i vtx [])) (nth i wts [])) as (y & E & B1 & B2).
  - rewrite map_length. exact Hll.
  - exact Hw.
  - intros x Hx. apply in_map_iff in Hx. destruct Hx as (k & <- & Hk). apply Hv. exact Hk.
  - exists y. rewrite Hs, Qcmult_1_r in B1, B2. auto.
Qed.
