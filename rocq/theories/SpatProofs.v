From Coq Require Import Reals List Bool Lia Lra.
From Verif Require Import RNum SpatModel SpatSpec.
Import ListNotations.
Local Open Scope R_scope.

(** ** distances *)
Lemma dist_alt a b : sqrt ((fst a - fst b) ^ 2 + (snd a - snd b) ^ 2) = dist a b.
Proof. unfold dist. f_equal. ring. Qed.
Lemma dist_nonneg a b : 0 <= dist a b.
Proof. apply sqrt_pos. Qed.
Lemma dist_zero a b : dist a b = 0 <-> a = b.
Proof.
  unfold dist. destruct a as [x y], b as [u v]. cbn [fst snd].
  assert (P1 := Rle_0_sqr (x - u)). assert (P2 := Rle_0_sqr (y - v)). unfold Rsqr in *. split.
  - intros H. apply sqrt_eq_0 in H; [|lra].
    assert (A : (x - u) * (x - u) = 0) by lra. assert (B : (y - v) * (y - v) = 0) by lra.
    apply Rmult_integral in A. apply Rmult_integral in B. f_equal; lra.
  - intros [= -> ->]. replace ((u - u) * (u - u) + (v - v) * (v - v)) with 0 by ring. apply sqrt_0.
Qed.
Lemma distances_eq sta c : distances sta c = map (dist c) sta.
Proof. unfold distances. apply map_ext. intros s. apply (dist_alt c s). Qed.

Lemma list_min_le l m : list_min l = Some m -> In m l /\ forall x, In x l -> m <= x.
Proof.
  revert m. induction l as [|x l IH]; intros m; simpl; [discriminate|].
  destruct (list_min l) as [k|] eqn:E.
  - intros [= <-]. destruct (IH k eq_refl) as (A & B). split.
    + unfold Rmin. destruct (Rle_dec x k); [now left|now right].
    + intros y [<-|Hy]; [apply Rmin_l|]. apply Rle_trans with k; [apply Rmin_r|now apply B].
  - intros [= <-]. destruct l as [|y l].
    + split; [now left|]. intros y [<-|[]]. lra.
    + simpl in E. destruct (list_min l); discriminate.
Qed.
Lemma list_min_none l : list_min l = None -> l = [].
Proof. destruct l as [|x l]; [reflexivity|]. simpl. destruct (list_min l); discriminate. Qed.

(** line 69 changes nothing *)
Lemma replace_zeros_id d : (forall row x, In row d -> In x row -> 0 <= x) -> replace_zeros d = d.
Proof.
  intros H. unfold replace_zeros. destruct (list_min (concat d)) as [m|] eqn:E; [|reflexivity].
  destruct (list_min_le _ _ E) as (A & B). apply in_concat in A. destruct A as (row0 & R1 & R2).
  assert (M0 : 0 <= m) by (eapply H; eauto).
  rewrite <- (map_id d) at 2. apply map_ext_in. intros row Hr. rewrite <- (map_id row) at 2. apply map_ext_in.
  intros x Hx. destruct (reqb_spec x 0) as [->|]; [|reflexivity].
  assert (m <= 0) by (apply B; apply in_concat; eauto). lra.
Qed.
Lemma idw_weights_eq p sta cells : idw_weights p sta cells = map (fun c => map (fun s => weight p (dist c s)) sta) cells.
Proof.
  unfold idw_weights. rewrite replace_zeros_id.
  - rewrite map_map. apply map_ext. intros c. rewrite distances_eq, map_map. reflexivity.
  - intros row x Hr Hx. apply in_map_iff in Hr. destruct Hr as (c & <- & _). rewrite distances_eq in Hx.
    apply in_map_iff in Hx. destruct Hx as (s & <- & _). apply dist_nonneg.
Qed.
Lemma weight_pos p d : 0 < p -> 0 <= d -> weight p d = if reqb d 0 then PInf else F (/ Rpower d p).
Proof.
  intros Hp Hd. unfold weight, fpower. destruct (reqb_spec d 0) as [->|N].
  - rcasep; try reflexivity; exfalso; lra.
  - assert (P : 0 < Rpower d p) by apply exp_pos. destruct (reqb_spec (Rpower d p) 0); [lra|]. f_equal. unfold Rdiv. ring.
Qed.

Lemma reported_map {A B} (f : A -> B) : forall w data, reported (map f w) data = map (fun p => (f (fst p), snd p)) (reported w data).
Proof. induction w as [|a w IH]; intros [|[x|] data]; simpl; auto. now rewrite IH. Qed.
Lemma reported_readings : forall sta data, reported sta data = readings sta data.
Proof. induction sta as [|s sta IH]; intros [|[x|] data]; simpl; auto. now rewrite IH. Qed.
Lemma reported_profile : forall mz data, reported mz data = profile mz data.
Proof. induction mz as [|s mz IH]; intros [|[x|] data]; simpl; auto. now rewrite IH. Qed.

(** the cell value in terms of the readings *)
Definition cellw (p : R) (c : R * R) (s : R * R) : fl := weight p (dist c s).
Definition cell_value (p : R) (r : list ((R * R) * R)) (c : R * R) : fl :=
  fdiv (fnansum (map (fun x => fmul_r (cellw p c (fst x)) (snd x)) r)) (fsum (map (fun x => cellw p c (fst x)) r)).
Lemma calculate_idw_eq p sta cells data : calculate_idw p sta cells data = map (cell_value p (readings sta data)) cells.
Proof.
  unfold calculate_idw. rewrite idw_weights_eq, map_map. apply map_ext. intros c. unfold idw_cell, cell_value.
  rewrite (reported_map (cellw p c)), reported_readings, !map_map. reflexivity.
Qed.

(** ** sums *)
Lemma fsum_finite l : forall acc, fold_left fadd (map F l) (F acc) = F (acc + rsum l).
Proof. induction l as [|x l IH]; intros acc; simpl; [f_equal; lra|]. rewrite IH. f_equal. lra. Qed.
Lemma fnansum_finite l : forall acc,
  fold_left (fun s x => match x with Nan => s | _ => fadd s x end) (map F l) (F acc) = F (acc + rsum l).
Proof. induction l as [|x l IH]; intros acc; simpl; [f_equal; lra|]. rewrite IH. f_equal. lra. Qed.

Lemma rsum_pos l : l <> [] -> (forall x, In x l -> 0 < x) -> 0 < rsum l.
Proof.
  induction l as [|x l IH]; intros N H; [congruence|]. simpl. assert (0 < x) by (apply H; now left).
  destruct l as [|y l]; [simpl; lra|]. assert (0 < rsum (y :: l)) by (apply IH; [discriminate|intros; apply H; now right]).
  lra.
Qed.

(** a cell away from all reporting stations *)
Lemma cell_away p r c : 0 < p -> r <> [] -> (forall x, In x r -> fst x <> c) ->
  cell_value p r c = F (inverse_distance p r c).
Proof.
  intros Hp Hn Hr. unfold cell_value.
  assert (W : forall x, In x r -> cellw p c (fst x) = F (/ Rpower (dist c (fst x)) p)).
  { intros x Hx. unfold cellw. rewrite weight_pos by (try apply dist_nonneg; exact Hp).
    destruct (reqb_spec (dist c (fst x)) 0) as [Z|]; [|reflexivity]. apply dist_zero in Z. exfalso. eapply Hr; eauto. }
  assert (E1 : map (fun x => fmul_r (cellw p c (fst x)) (snd x)) r = map F (map (fun x => snd x / Rpower (dist c (fst x)) p) r)).
  { rewrite map_map. apply map_ext_in. intros x Hx. rewrite W by exact Hx. simpl. f_equal. unfold Rdiv. ring. }
  assert (E2 : map (fun x => cellw p c (fst x)) r = map F (map (fun x => / Rpower (dist c (fst x)) p) r)).
  { rewrite map_map. apply map_ext_in. exact W. }
  unfold fnansum, fsum. rewrite E1, E2, fnansum_finite, fsum_finite, !Rplus_0_l. unfold fdiv.
  assert (P : 0 < rsum (map (fun x => / Rpower (dist c (fst x)) p) r)).
  { apply rsum_pos.
    - destruct r; [congruence|discriminate].
    - intros y Hy. apply in_map_iff in Hy. destruct Hy as (x & <- & _). apply Rinv_0_lt_compat. apply exp_pos. }
  destruct (reqb_spec (rsum (map (fun x => / Rpower (dist c (fst x)) p) r)) 0); [lra|]. reflexivity.
Qed.

Lemma rsum_weighted (A : Type) (w y : A -> R) lo hi : forall r, (forall x, In x r -> 0 < w x /\ lo <= y x <= hi) ->
  lo * rsum (map w r) <= rsum (map (fun x => y x * w x) r) <= hi * rsum (map w r).
Proof.
  induction r as [|x r IH]; intros H; simpl; [lra|].
  destruct (H x (or_introl eq_refl)) as (W & L & U). specialize (IH (fun y Hy => H y (or_intror Hy))).
  assert (lo * w x <= y x * w x) by (apply Rmult_le_compat_r; lra).
  assert (y x * w x <= hi * w x) by (apply Rmult_le_compat_r; lra). lra.
Qed.
Lemma inverse_distance_bounds p r c lo hi : r <> [] -> (forall x, In x r -> lo <= snd x <= hi) ->
  lo <= inverse_distance p r c <= hi.
Proof.
  intros N H. unfold inverse_distance.
  set (w := fun x : (R * R) * R => / Rpower (dist c (fst x)) p).
  assert (W : forall x, 0 < w x) by (intros x; apply Rinv_0_lt_compat, exp_pos).
  destruct (rsum_weighted _ w snd lo hi r) as (A & B); [intros x Hx; split; [apply W|now apply H]|].
  assert (P : 0 < rsum (map w r)).
  { apply rsum_pos; [destruct r; [congruence|discriminate]|]. intros y Hy. apply in_map_iff in Hy. destruct Hy as (x & <- & _). apply W. }
  replace (rsum (map (fun x => snd x / Rpower (dist c (fst x)) p) r)) with (rsum (map (fun x => snd x * w x) r)) by reflexivity.
  fold w. split.
  - apply Rmult_le_reg_r with (rsum (map w r)); [exact P|]. unfold Rdiv. rewrite Rmult_assoc, Rinv_l by lra. lra.
  - apply Rmult_le_reg_r with (rsum (map w r)); [exact P|]. unfold Rdiv. rewrite Rmult_assoc, Rinv_l by lra. lra.
Qed.

(** powers that are not positive *)
Lemma cell_mean r c : r <> [] -> cell_value 0 r c = F (rsum (map snd r) / INR (length r)).
Proof.
  intros N. unfold cell_value.
  assert (W : forall s, cellw 0 c s = F 1).
  { intros s. unfold cellw, weight, fpower. destruct (reqb_spec (dist c s) 0) as [Z|Z].
    - destruct (reqb_spec 0 0); [|lra]. destruct (reqb_spec 1 0); [lra|]. f_equal. lra.
    - replace (Rpower (dist c s) 0) with 1 by (unfold Rpower; now rewrite Rmult_0_l, exp_0). destruct (reqb_spec 1 0); [lra|]. f_equal. lra. }
  assert (E1 : map (fun x => fmul_r (cellw 0 c (fst x)) (snd x)) r = map F (map snd r)).
  { rewrite map_map. apply map_ext. intros x. rewrite W. simpl. f_equal. ring. }
  assert (E2 : map (fun x => cellw 0 c (fst x)) r = map F (map (fun _ => 1) r)).
  { rewrite map_map. apply map_ext. intros x. apply W. }
  unfold fnansum, fsum. rewrite E1, E2, fnansum_finite, fsum_finite, !Rplus_0_l.
  assert (L : forall l : list ((R * R) * R), rsum (map (fun _ => 1) l) = INR (length l)).
  { induction l as [|x l IH]; [reflexivity|]. cbn [map rsum fold_right length]. fold (rsum (map (fun _ : R * R * R => 1) l)). rewrite IH, S_INR. ring. }
  rewrite L. unfold fdiv. destruct (reqb_spec (INR (length r)) 0) as [Z|]; [|reflexivity].
  destruct r; [congruence|]. cbn [length] in Z. rewrite S_INR in Z. pose proof (pos_INR (length r)). lra.
Qed.
Lemma cell_negative p r c : p < 0 -> away c r <> [] -> cell_value p r c = F (inverse_distance p (away c r) c).
Proof.
  intros Hp N. unfold cell_value.
  assert (W : forall s, cellw p c s = F (if Rlt_dec 0 (dist c s) then / Rpower (dist c s) p else 0)).
  { intros s. unfold cellw, weight, fpower. pose proof (dist_nonneg c s). destruct (reqb_spec (dist c s) 0) as [Z|Z].
    - destruct (reqb_spec p 0); [lra|]. destruct (rltb_spec 0 p); [lra|]. destruct (Rlt_dec 0 (dist c s)); [lra|reflexivity].
    - destruct (Rlt_dec 0 (dist c s)); [|lra]. assert (P : 0 < Rpower (dist c s) p) by apply exp_pos.
      destruct (reqb_spec (Rpower (dist c s) p) 0); [lra|]. f_equal. unfold Rdiv. ring. }
  assert (E1 : map (fun x => fmul_r (cellw p c (fst x)) (snd x)) r =
               map F (map (fun x => if Rlt_dec 0 (dist c (fst x)) then snd x / Rpower (dist c (fst x)) p else 0) r)).
  { rewrite map_map. apply map_ext. intros x. rewrite W. simpl. f_equal. destruct (Rlt_dec 0 (dist c (fst x))); [unfold Rdiv|]; ring. }
  assert (E2 : map (fun x => cellw p c (fst x)) r = map F (map (fun x => if Rlt_dec 0 (dist c (fst x)) then / Rpower (dist c (fst x)) p else 0) r)).
  { rewrite map_map. apply map_ext. intros x. apply W. }
  assert (L : forall (f : (R * R) * R -> R) l, rsum (map (fun x => if Rlt_dec 0 (dist c (fst x)) then f x else 0) l) = rsum (map f (away c l))).
  { intros f. induction l as [|x l IH]; [reflexivity|]. unfold away in *. cbn [map rsum fold_right filter].
    fold (rsum (map (fun x => if Rlt_dec 0 (dist c (fst x)) then f x else 0) l)). rewrite IH. destruct (Rlt_dec 0 (dist c (fst x))); cbn [map fold_right]; [reflexivity | apply Rplus_0_l]. }
  unfold fnansum, fsum. rewrite E1, E2, fnansum_finite, fsum_finite, !Rplus_0_l, !L. unfold fdiv, inverse_distance.
  assert (P : 0 < rsum (map (fun x => / Rpower (dist c (fst x)) p) (away c r))).
  { apply rsum_pos.
    - destruct (away c r); [congruence|discriminate].
    - intros y Hy. apply in_map_iff in Hy. destruct Hy as (x & <- & _). apply Rinv_0_lt_compat. apply exp_pos. }
  destruct (reqb_spec (rsum (map (fun x => / Rpower (dist c (fst x)) p) (away c r))) 0); [lra|]. reflexivity.
Qed.

(** a cell at a reporting station *)
Definition posw (w : fl) : Prop := match w with F _ => True | PInf => True | _ => False end.
Lemma fsum_inf : forall l acc, (forall w, In w l -> posw w) -> posw acc -> (acc = PInf \/ In PInf l) ->
  fold_left fadd l acc = PInf.
Proof.
  induction l as [|w l IH]; intros acc H Ha [E|E]; simpl; auto.
  - destruct E.
  - subst. apply IH; [intros; apply H; now right| |left].
    + specialize (H w (or_introl eq_refl)). destruct w; simpl in *; auto.
    + specialize (H w (or_introl eq_refl)). destruct w; simpl in *; tauto.
  - destruct E as [->|E].
    + apply IH; [intros; apply H; now right| |left]; destruct acc; simpl in *; tauto.
    + apply IH; [intros; apply H; now right| |now right].
      specialize (H w (or_introl eq_refl)). destruct w, acc; simpl in *; auto.
Qed.
Definition infinite (a : fl) : Prop := match a with F _ => False | _ => True end.
Lemma nansum_infinite : forall l acc, infinite acc \/ (exists x, In x l /\ infinite x /\ x <> Nan) ->
  infinite (fold_left (fun s x => match x with Nan => s | _ => fadd s x end) l acc).
Proof.
  induction l as [|x l IH]; intros acc H; simpl.
  - destruct H as [H|(x & [] & _)]. exact H.
  - apply IH. destruct H as [H|(y & [<-|Hy] & Hi & Hn)].
    + left. destruct x; destruct acc; simpl in *; auto.
    + left. destruct x; destruct acc; simpl in *; auto; congruence.
    + right. eauto.
Qed.
Lemma nansum_stays_finite : forall l acc, (forall x, In x l -> exists r, x = F r \/ x = Nan) ->
  exists r, fold_left (fun s x => match x with Nan => s | _ => fadd s x end) l (F acc) = F r.
Proof.
  induction l as [|x l IH]; intros acc H; simpl; [eauto|].
  destruct (H x (or_introl eq_refl)) as (r & [-> | ->]); simpl; apply IH; intros; apply H; now right.
Qed.
Lemma cell_at p r c : 0 < p -> (exists x, In x r /\ fst x = c) ->
  ((forall x, In x r -> fst x = c -> snd x = 0) -> cell_value p r c = F 0) /\
  ((exists x, In x r /\ fst x = c /\ snd x <> 0) -> cell_value p r c = Nan).
Proof.
  intros Hp (x0 & Hx0 & E0). unfold cell_value.
  assert (W : forall x : (R * R) * R, cellw p c (fst x) = if reqb (dist c (fst x)) 0 then PInf else F (/ Rpower (dist c (fst x)) p)).
  { intros x. unfold cellw. apply weight_pos; [exact Hp|apply dist_nonneg]. }
  assert (WP : fsum (map (fun x => cellw p c (fst x)) r) = PInf).
  { apply fsum_inf; [|exact I|right].
    - intros w Hw. apply in_map_iff in Hw. destruct Hw as (x & <- & _). rewrite W. destruct (reqb_spec (dist c (fst x)) 0); exact I.
    - apply in_map_iff. exists x0. split; [|exact Hx0]. rewrite W, E0.
      destruct (reqb_spec (dist c c) 0) as [|N]; [reflexivity|]. exfalso. apply N. now apply dist_zero. }
  rewrite WP. split.
  - intros Z. destruct (nansum_stays_finite (map (fun x => fmul_r (cellw p c (fst x)) (snd x)) r) 0) as (v & Hv).
    + intros y Hy. apply in_map_iff in Hy. destruct Hy as (x & <- & Hx). rewrite W.
      destruct (reqb_spec (dist c (fst x)) 0) as [E|N].
      * apply dist_zero in E. rewrite (Z x Hx (eq_sym E)). exists 0. right. simpl. rcasep; try reflexivity; lra.
      * simpl. eauto.
    + unfold fnansum. rewrite Hv. reflexivity.
  - intros (x & Hx & E & Nz).
    assert (I0 : infinite (fnansum (map (fun x => fmul_r (cellw p c (fst x)) (snd x)) r))).
    { apply nansum_infinite. right. exists (fmul_r (cellw p c (fst x)) (snd x)). split; [now apply (in_map (fun x => fmul_r (cellw p c (fst x)) (snd x)))|].
      rewrite W, E. destruct (reqb_spec (dist c c) 0) as [|N]; [|exfalso; apply N; now apply dist_zero].
      simpl. destruct (rltb_spec 0 (snd x)); [simpl; auto; split; [exact I|discriminate]|].
      destruct (rltb_spec (snd x) 0); [split; [exact I|discriminate]|]. exfalso. apply Nz. lra. }
    destruct (fnansum (map (fun x1 => fmul_r (cellw p c (fst x1)) (snd x1)) r)); [destruct I0|reflexivity|reflexivity|reflexivity].
Qed.

(** readings exactly zero everywhere give zero, also at the stations *)
Lemma cell_zero p r c : 0 < p -> r <> [] -> (forall x, In x r -> snd x = 0) -> cell_value p r c = F 0.
Proof.
  intros Hp Hn Hz.
  destruct (Exists_dec (fun x : (R * R) * R => fst x = c) r) as [E|E].
  { intros x. destruct (Req_EM_T (dist (fst x) c) 0) as [Z|Z]; [left|right]; rewrite <- dist_zero; exact Z. }
  - apply Exists_exists in E. apply cell_at; auto.
  - rewrite cell_away; auto.
    + f_equal. destruct (inverse_distance_bounds p r c 0 0 Hn); [|lra]. intros x Hx. rewrite (Hz x Hx). lra.
    + intros x Hx Ec. apply E. apply Exists_exists. eauto.
Qed.

(** ** trends *)
Lemma constrain_spec flag line :
  (match flag with Positive => 0 <= fst line | Negative => fst line <= 0 | Any => True end -> constrain flag line = line) /\
  (match flag with Positive => fst line < 0 | Negative => 0 < fst line | Any => False end -> constrain flag line = (0, 0)).
Proof. destruct flag; simpl; split; intros; rcasep; auto; try lra; contradiction. Qed.

Lemma misfit_zero line pts : misfit line pts <= 0 -> forall p, In p pts -> snd p = on_line line (fst p).
Proof.
  unfold misfit.
  assert (P : forall l : list (R * R), 0 <= rsum (map (fun p => (snd p - on_line line (fst p)) * (snd p - on_line line (fst p))) l)).
  { induction l as [|p l IH]; simpl; [lra|]. pose proof (Rle_0_sqr (snd p - on_line line (fst p))). unfold Rsqr in *. lra. }
  induction pts as [|q pts IH]; simpl; [tauto|]. intros H p.
  pose proof (Rle_0_sqr (snd q - on_line line (fst q))) as S. unfold Rsqr in S. specialize (P pts).
  intros [<-|Hp].
  - assert (Z : (snd q - on_line line (fst q)) * (snd q - on_line line (fst q)) = 0) by lra.
    apply Rmult_integral in Z. lra.
  - apply IH; [lra|exact Hp].
Qed.
Lemma misfit_exact line pts : (forall p, In p pts -> snd p = on_line line (fst p)) -> misfit line pts = 0.
Proof.
  unfold misfit. induction pts as [|p pts IH]; intros H; simpl; [reflexivity|].
  rewrite IH by (intros; apply H; now right). rewrite (H p) by now left. ring.
Qed.
Lemma exact_line fit pts line : least_squares pts (fit pts) -> two_heights pts ->
  (forall p, In p pts -> snd p = on_line line (fst p)) -> fit pts = line.
Proof.
  intros LS (p & p' & Hp & Hp' & N) H. pose proof (LS line) as L. rewrite (misfit_exact line pts H) in L.
  pose proof (misfit_zero _ _ L) as Z. pose proof (H p Hp) as E1. pose proof (H p' Hp') as E2.
  rewrite (Z p Hp) in E1. rewrite (Z p' Hp') in E2. destruct (fit pts) as [s i], line as [a b]. unfold on_line in *. cbn [fst snd] in *.
  assert (D : (s - a) * (fst p - fst p') = 0) by lra. apply Rmult_integral in D. destruct D as [D|D]; [|lra].
  assert (s = a) by lra. subst. f_equal. lra.
Qed.

Lemma readings_detrended pv : forall sta mz data, length mz = length data ->
  map snd (readings sta (detrended pv mz data)) = map snd (readings sta (detrended pv mz data)) /\
  forall x, In x (readings sta (detrended pv mz data)) ->
    exists q, In q (profile mz data) /\ snd x = snd q - on_line pv (fst q) /\ In (fst x, snd q) (readings sta data).
Proof.
  intros sta mz data HL. split; [reflexivity|]. revert sta data HL.
  induction mz as [|z mz IH]; intros [|s sta] [|[v|] data] HL; simpl in *; try discriminate; try tauto; try lia.
  - intros x [<-|Hx].
    + exists (z, v). cbn [fst snd]. split; [now left|]. split; [unfold on_line; ring|now left].
    + destruct (IH sta data ltac:(lia) x Hx) as (q & A & B & C). exists q. split; [now right|]. split; [exact B|now right].
  - intros x Hx. destruct (IH sta data ltac:(lia) x Hx) as (q & A & B & C). exists q. auto.
Qed.
Lemma readings_nonempty pv : forall sta mz data, length mz = length data -> length sta = length data ->
  profile mz data <> [] -> readings sta (detrended pv mz data) <> [].
Proof.
  induction sta as [|s sta IH]; intros [|z mz] [|[v|] data] H1 H2 N; simpl in *; try discriminate; try congruence.
  apply IH; auto; lia.
Qed.

Lemma detrended_idw_nth fit flag p sta mz cells gz data c : length gz = length cells -> (c < length cells)%nat ->
  nth c (detrended_idw fit flag p sta mz cells gz data) Nan =
  retrended (trend fit flag mz data) (cell_value p (readings sta (detrended (trend fit flag mz data) mz data)) (nth c cells (0, 0))) (nth c gz 0).
Proof.
  intros HL Hc. unfold detrended_idw. set (pv := trend fit flag mz data).
  rewrite (map2_nth _ _ _ c Nan 0 Nan).
  - rewrite calculate_idw_eq.
    rewrite (nth_indep _ Nan (cell_value p (readings sta (detrended pv mz data)) (0, 0))) by now rewrite map_length.
    rewrite (map_nth (cell_value p (readings sta (detrended pv mz data)))). reflexivity.
  - rewrite calculate_idw_eq, map_length. exact Hc.
  - lia.
Qed.

Lemma detrended_idw_line fit flag p sta mz cells gz data c line :
  0 < p -> length sta = length data -> length mz = length data -> length gz = length cells -> (c < length cells)%nat ->
  least_squares (profile mz data) (fit (profile mz data)) -> two_heights (profile mz data) ->
  (forall q, In q (profile mz data) -> snd q = on_line line (fst q)) ->
  match flag with Positive => 0 <= fst line | Negative => fst line <= 0 | Any => True end ->
  nth c (detrended_idw fit flag p sta mz cells gz data) Nan = F (on_line line (nth c gz 0)).
Proof.
  intros Hp H1 H2 H3 Hc LS TH Hex Hal. rewrite detrended_idw_nth by assumption.
  assert (T : trend fit flag mz data = line).
  { unfold trend. rewrite reported_profile, (exact_line fit _ line LS TH Hex). now apply constrain_spec. }
  rewrite T, cell_zero.
  - unfold retrended, fadd_r, on_line. simpl. f_equal. ring.
  - exact Hp.
  - apply readings_nonempty; auto. destruct TH as (q & _ & Hq & _). intros E. rewrite E in Hq. destruct Hq.
  - intros x Hx. destruct (readings_detrended line sta mz data H2) as (_ & R). destruct (R x Hx) as (q & Hq & -> & _).
    rewrite (Hex q Hq). ring.
Qed.

Lemma detrended_idw_away fit flag p sta mz cells gz data c lo hi :
  0 < p -> length sta = length data -> length mz = length data -> length gz = length cells -> (c < length cells)%nat ->
  profile mz data <> [] ->
  (forall x, In x (readings sta data) -> fst x <> nth c cells (0, 0)) ->
  (forall q, In q (profile mz data) -> lo <= snd q - on_line (trend fit flag mz data) (fst q) <= hi) ->
  exists v, nth c (detrended_idw fit flag p sta mz cells gz data) Nan = F v /\
    lo <= v - on_line (trend fit flag mz data) (nth c gz 0) <= hi.
Proof.
  intros Hp H1 H2 H3 Hc Hn Haway Hb. rewrite detrended_idw_nth by assumption. set (pv := trend fit flag mz data) in *.
  set (r := readings sta (detrended pv mz data)).
  destruct (readings_detrended pv sta mz data H2) as (_ & R).
  assert (Rn : r <> []) by now apply readings_nonempty.
  rewrite cell_away; auto.
  - exists (inverse_distance p r (nth c cells (0, 0)) + on_line pv (nth c gz 0)). split.
    + unfold retrended, fadd_r, on_line. simpl. f_equal. ring.
    + destruct (inverse_distance_bounds p r (nth c cells (0, 0)) lo hi Rn).
      * intros x Hx. destruct (R x Hx) as (q & Hq & -> & _). now apply Hb.
      * lra.
  - intros x Hx E. destruct (R x Hx) as (q & _ & _ & I). apply (Haway _ I). exact E.
Qed.

(** ** GRID *)
Lemma argmin_spec v : forall l, l <> [] -> first_nearest v l (argmin v l).
Proof.
  induction l as [|x l IH]; intros N; [congruence|]. simpl argmin.
  destruct (list_min (map (fun y => Rabs (y - v)) l)) as [m|] eqn:E.
  - destruct (list_min_le _ _ E) as (A & B). destruct (rleb_spec (Rabs (x - v)) m) as [L|L].
    + split; [simpl; lia|]. split; [|lia]. intros [|j] Hj; simpl in *; [lra|].
      apply Rle_trans with m; [exact L|]. apply B. apply (in_map (fun y => Rabs (y - v))). apply nth_In. lia.
    + assert (Nl : l <> []) by (destruct l; [destruct A|discriminate]).
      destruct (IH Nl) as (I1 & I2 & I3). apply in_map_iff in A. destruct A as (y & Ey & Hy).
      assert (Lx : Rabs (nth (argmin v l) l 0 - v) < Rabs (x - v)).
      { destruct (In_nth l y 0 Hy) as (k & Hk & Ek). specialize (I2 k Hk). rewrite Ek, Ey in I2. lra. }
      split; [simpl; lia|]. split.
      * intros [|j] Hj; simpl in *; [lra|]. apply I2. lia.
      * intros [|j] Hj; simpl; [exact Lx|]. apply I3. lia.
  - apply list_min_none in E. apply map_eq_nil in E. subst. split; [simpl; lia|]. split; [|lia].
    intros [|j] Hj; simpl in *; [lra|lia].
Qed.

Lemma grid_exact fit griddata flag mask mz gz data c i :
  length mz = length data -> (i < length data)%nat -> (c < length gz)%nat ->
  (forall v, length v = length data -> length (griddata v) = length gz /\ nth c (griddata v) Nan = F (nth i v 0)) ->
  nth c gz 0 = nth i mz 0 ->
  nth c (detrended_grid fit griddata flag mask mz gz data) Nan = F (nth i data 0).
Proof.
  intros HL Hi Hc Hg Hz. unfold detrended_grid. set (pv := constrain _ _).
  set (d := map2 (fun z x => x - (z * fst pv + snd pv)) mz data).
  assert (Ld : length d = length data) by (unfold d; rewrite map2_length; lia).
  destruct (Hg d Ld) as (G1 & G2). rewrite (map2_nth _ _ _ c Nan 0 Nan) by lia. rewrite G2.
  unfold d. rewrite (map2_nth _ _ _ i 0 0 0) by lia. rewrite Hz. unfold retrended, fadd_r. simpl. f_equal. ring.
Qed.
Lemma grid_line fit griddata flag mask mz gz data c line :
  length mz = length data -> (c < length gz)%nat ->
  least_squares (select mask (combine mz data)) (fit (select mask (combine mz data))) ->
  two_heights (select mask (combine mz data)) ->
  (forall q, In q (combine mz data) -> snd q = on_line line (fst q)) ->
  match flag with Positive => 0 <= fst line | Negative => fst line <= 0 | Any => True end ->
  (forall v, length v = length data -> length (griddata v) = length gz /\ ((forall x, In x v -> x = 0) -> nth c (griddata v) Nan = F 0)) ->
  nth c (detrended_grid fit griddata flag mask mz gz data) Nan = F (on_line line (nth c gz 0)).
Proof.
  intros HL Hc LS TH Hex Hal Hg. unfold detrended_grid.
  assert (Sub : forall q, In q (select mask (combine mz data)) -> In q (combine mz data)).
  { intros q Hq. unfold select in Hq. apply in_map_iff in Hq. destruct Hq as ([b q'] & <- & Hq). apply filter_In in Hq.
    destruct Hq as (Hq & _). eapply in_combine_r. exact Hq. }
  rewrite (exact_line fit _ line LS TH) by (intros q Hq; apply Hex, Sub, Hq).
  destruct (constrain_spec flag line) as (-> & _); [|exact Hal].
  set (d := map2 (fun z x => x - (z * fst line + snd line)) mz data).
  assert (Ld : length d = length data) by (unfold d; rewrite map2_length; lia).
  destruct (Hg d Ld) as (G1 & G2). rewrite (map2_nth _ _ _ c Nan 0 Nan) by lia. rewrite G2.
  - unfold retrended, fadd_r, on_line. simpl. f_equal. ring.
  - intros x Hx. destruct (In_nth d x 0 Hx) as (k & Hk & <-). unfold d in *. rewrite map2_length in Hk.
    rewrite (map2_nth _ _ _ k 0 0 0) by lia.
    assert (I : In (nth k (combine mz data) (0, 0)) (combine mz data)) by (apply nth_In; rewrite combine_length; lia).
    rewrite combine_nth in I by exact HL. pose proof (Hex _ I) as E. unfold on_line in E. cbn [fst snd] in E. rewrite E. ring.
Qed.

(** ** local detrending *)
Lemma local_exact fit interp flag near n elev data gz c i :
  (i < n)%nat -> (c < length gz)%nat -> first near i = i -> nth c gz 0 = elev i ->
  (forall v, length v = n -> length (interp v) = length gz /\ nth c (interp v) None = Some (nth i v 0)) ->
  nth c (detrended_local fit interp flag near n elev data gz) None = Some (data i).
Proof.
  intros Hi Hc Hf Hz Hg. unfold detrended_local. set (lf := local_fit fit flag near elev data).
  set (vs := map (fun i => fst (lf i)) (seq 0 n)). set (vi := map (fun i => snd (lf i)) (seq 0 n)).
  set (d := map _ (seq 0 n)).
  assert (Lv : length vs = n /\ length vi = n /\ length d = n) by (unfold vs, vi, d; rewrite !map_length, seq_length; auto).
  destruct Lv as (L1 & L2 & L3).
  destruct (Hg vs L1) as (A1 & A2). destruct (Hg vi L2) as (B1 & B2). destruct (Hg d L3) as (C1 & C2).
  assert (N : forall (f : nat -> R), nth i (map f (seq 0 n)) 0 = f i).
  { intros f. rewrite (nth_indep _ 0 (f 0%nat)) by (now rewrite map_length, seq_length). rewrite map_nth, seq_nth by exact Hi. reflexivity. }
  rewrite (map2_nth _ _ _ c None None None) by (rewrite ?map2_length; lia).
  rewrite (map2_nth _ _ _ c None None None) by (rewrite ?map2_length; lia).
  rewrite (map2_nth _ _ _ c None 0 None) by lia.
  rewrite A2, B2, C2. unfold vs, vi, d. rewrite !N, Hf, Hz. simpl. f_equal. ring.
Qed.
Lemma local_line fit interp flag near n elev data gz c line :
  (c < length gz)%nat ->
  (forall i, (i < n)%nat -> near i <> [] /\ (forall j, In j (near i) -> (j < n)%nat) /\
     least_squares (map (fun j => (elev j, data j)) (near i)) (fit (map (fun j => (elev j, data j)) (near i))) /\ two_heights (map (fun j => (elev j, data j)) (near i))) ->
  (forall i, (i < n)%nat -> data i = on_line line (elev i)) ->
  match flag with Positive => 0 <= fst line | Negative => fst line <= 0 | Any => True end ->
  (forall v k, length v = n -> length (interp v) = length gz /\ ((forall x, In x v -> x = k) -> nth c (interp v) None = Some k)) ->
  nth c (detrended_local fit interp flag near n elev data gz) None = Some (on_line line (nth c gz 0)).
Proof.
  intros Hc Hnear Hex Hal Hg. unfold detrended_local. set (lf := local_fit fit flag near elev data).
  assert (Lf : forall i, (i < n)%nat -> lf i = line).
  { intros i Hi. destruct (Hnear i Hi) as (_ & N2 & LS & N3). unfold lf, local_fit. rewrite (exact_line fit _ line LS N3).
    - now apply constrain_spec.
    - intros p Hp. apply in_map_iff in Hp. destruct Hp as (j & <- & Hj). cbn [fst snd]. apply Hex. now apply N2. }
  set (vs := map (fun i => fst (lf i)) (seq 0 n)). set (vi := map (fun i => snd (lf i)) (seq 0 n)).
  set (d := map _ (seq 0 n)).
  assert (Lv : length vs = n /\ length vi = n /\ length d = n) by (unfold vs, vi, d; rewrite !map_length, seq_length; auto).
  destruct Lv as (L1 & L2 & L3).
  destruct (Hg vs (fst line) L1) as (A1 & A2). destruct (Hg vi (snd line) L2) as (B1 & B2). destruct (Hg d 0 L3) as (C1 & C2).
  rewrite (map2_nth _ _ _ c None None None) by (rewrite ?map2_length; lia).
  rewrite (map2_nth _ _ _ c None None None) by (rewrite ?map2_length; lia).
  rewrite (map2_nth _ _ _ c None 0 None) by lia.
  rewrite A2, B2, C2.
  - simpl. unfold on_line. f_equal. ring.
  - intros x Hx. apply in_map_iff in Hx. destruct Hx as (i & <- & Hi). apply in_seq in Hi. rewrite Lf by lia.
    destruct (Hnear i ltac:(lia)) as (N1 & N2 & _). unfold first. destruct (near i) as [|j l] eqn:E; [congruence|]. simpl.
    rewrite (Hex j) by (apply N2; now left). unfold on_line. ring.
  - intros x Hx. apply in_map_iff in Hx. destruct Hx as (i & <- & Hi). apply in_seq in Hi. rewrite Lf by lia. reflexivity.
  - intros x Hx. apply in_map_iff in Hx. destruct Hx as (i & <- & Hi). apply in_seq in Hi. rewrite Lf by lia. reflexivity.
Qed.

(** ** pykrige *)
Lemma krige_line fit ok flag sta mz gz data c line :
  length mz = length data -> (c < length gz)%nat ->
  least_squares (profile mz data) (fit (profile mz data)) -> two_heights (profile mz data) ->
  (forall q, In q (profile mz data) -> snd q = on_line line (fst q)) ->
  (forall s v, length (ok s v) = length gz /\ ((forall x, In x v -> x = 0) -> nth c (ok s v) 0 = 0)) ->
  nth c (krige_calculate fit ok flag sta mz gz data) 0 = on_line line (nth c gz 0).
Proof.
  intros HL Hc LS TH Hex Hok. unfold krige_calculate.
  assert (T : trend fit Any mz data = line).
  { unfold trend. rewrite reported_profile, (exact_line fit _ line LS TH Hex). reflexivity. }
  rewrite T. set (d := reported sta (detrended line mz data)). destruct (Hok (map fst d) (map snd d)) as (L & Z).
  rewrite (map2_nth _ _ _ c 0 0 0) by lia. rewrite Z.
  - unfold on_line. ring.
  - intros x Hx. unfold d in Hx. rewrite reported_readings in Hx. apply in_map_iff in Hx. destruct Hx as (y & <- & Hy).
    destruct (readings_detrended line sta mz data HL) as (_ & R). destruct (R y Hy) as (q & Hq & -> & _).
    rewrite (Hex q Hq). ring.
Qed.

(** ** discarded trends, missing stations *)
Lemma retrended_flat v z : retrended (0, 0) v z = v.
Proof. unfold retrended, fadd_r. cbn [fst snd]. destruct v; simpl; auto. f_equal. ring. Qed.
Lemma detrended_flat : forall mz data, length mz = length data -> detrended (0, 0) mz data = data.
Proof.
  unfold detrended. induction mz as [|z mz IH]; intros [|x data] H; simpl in *; try discriminate; auto.
  rewrite IH by lia. f_equal. destruct x; simpl; auto. f_equal. ring.
Qed.
Lemma map2_left {A B} (f : A -> B -> A) : (forall a b, f a b = a) -> forall a b, length a = length b -> map2 f a b = a.
Proof. intros H a. induction a as [|x a IH]; intros [|y b] L; simpl in *; try discriminate; auto. now rewrite H, IH by lia. Qed.
Lemma calculate_idw_length p sta cells data : length (calculate_idw p sta cells data) = length cells.
Proof. now rewrite calculate_idw_eq, map_length. Qed.
Lemma idw_discarded fit flag p sta mz cells gz data :
  length mz = length data -> length gz = length cells ->
  match flag with Positive => fst (fit (profile mz data)) < 0 | Negative => 0 < fst (fit (profile mz data)) | Any => False end ->
  detrended_idw fit flag p sta mz cells gz data = calculate_idw p sta cells data.
Proof.
  intros H1 H2 H. unfold detrended_idw, trend. rewrite reported_profile.
  destruct (constrain_spec flag (fit (profile mz data))) as (_ & ->); [|exact H].
  rewrite detrended_flat by exact H1. apply map2_left.
  - intros a b. apply retrended_flat.
  - now rewrite calculate_idw_length.
Qed.
Lemma grid_discarded fit griddata flag mask mz gz data :
  length mz = length data -> length (griddata data) = length gz ->
  match flag with Positive => fst (fit (select mask (combine mz data))) < 0
  | Negative => 0 < fst (fit (select mask (combine mz data))) | Any => False end ->
  detrended_grid fit griddata flag mask mz gz data = griddata data.
Proof.
  intros H1 H2 H. unfold detrended_grid.
  destruct (constrain_spec flag (fit (select mask (combine mz data)))) as (_ & ->); [|exact H].
  assert (E : map2 (fun z x => x - (z * fst (0, 0) + snd (0, 0))) mz data = data).
  { clear H2 H. revert data H1. induction mz as [|z mz IH]; intros [|x data] L; simpl in *; try discriminate; auto.
    f_equal; [ring|apply IH; lia]. }
  cbn [fst snd] in E. cbn [fst snd]. rewrite E. apply map2_left; [intros; apply retrended_flat|exact H2].
Qed.
Lemma readings_all : forall r : list ((R * R) * R), readings (map fst r) (map (fun x => Some (snd x)) r) = r.
Proof. induction r as [|[s x] r IH]; simpl; [reflexivity|]. now rewrite IH. Qed.
Lemma idw_missing p sta cells data :
  calculate_idw p sta cells data =
  calculate_idw p (map fst (readings sta data)) cells (map (fun x => Some (snd x)) (readings sta data)).
Proof. now rewrite !calculate_idw_eq, readings_all. Qed.
Lemma idw_none p sta cells data : readings sta data = [] -> calculate_idw p sta cells data = map (fun _ => Nan) cells.
Proof.
  intros E. rewrite calculate_idw_eq, E. apply map_ext. intros c. unfold cell_value, fnansum, fsum. simpl.
  rcasep; reflexivity.
Qed.
Lemma idw_nth p sta cells data c : (c < length cells)%nat ->
  nth c (calculate_idw p sta cells data) Nan = cell_value p (readings sta data) (nth c cells (0, 0)).
Proof.
  intros H. rewrite calculate_idw_eq. rewrite (nth_indep _ Nan (cell_value p (readings sta data) (0, 0))) by now rewrite map_length.
  apply map_nth.
Qed.
