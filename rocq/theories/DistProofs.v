(** Proofs about the way from readings to a grid. *)
From Coq Require Import Ascii String Reals List Bool Arith Permutation Lia Lra.
From Verif Require Import RNum SpatModel SpatSpec SpatProofs WinsSpec DistModel DistSpec.
Import ListNotations.
Local Open Scope R_scope.

(** ** rows *)
Lemma get_in row s x : one_each row -> (get row s = Some x <-> In (s, x) row).
Proof.
  unfold one_each. induction row as [|(k, y) row IH]; cbn [map get fst In]; intros N; [split; [discriminate | intros []]|].
  inversion N as [|? ? NI N']; subst. destruct (Nat.eqb_spec k s) as [->|NE].
  - split; [intros [= ->]; now left|]. intros [[= ->]|I]; [reflexivity|]. exfalso. apply NI. apply in_map_iff. exists (s, x). auto.
  - rewrite IH by exact N'. split; [tauto|]. intros [[= -> ->]|I]; [congruence | exact I].
Qed.
Definition gr (row : list (nat * rnum)) (s : nat) : rnum := match get row s with Some x => x | None => None end.
Lemma pick_ok row : forall ss, (forall s, In s ss -> get row s <> None) -> pick row ss = Ok (map (gr row) ss).
Proof.
  induction ss as [|s ss IH]; intros H; [reflexivity|]. cbn [pick map]. unfold gr at 1. destruct (get row s) as [x|] eqn:E; [|exfalso; apply (H s); [now left | exact E]].
  rewrite IH by (intros; apply H; now right). reflexivity.
Qed.
Lemma pick_err row : forall ss, (exists s, In s ss /\ get row s = None) -> pick row ss = Err KeyError.
Proof.
  induction ss as [|s ss IH]; intros (u & I & E); [destruct I|]. cbn [pick]. destruct (get row s) as [x|] eqn:G; [|reflexivity].
  destruct I as [->|I]; [congruence|]. rewrite IH by eauto. reflexivity.
Qed.
Lemma pick_same row row' : forall ss, (forall s, In s ss -> get row s = get row' s) -> pick row ss = pick row' ss.
Proof. induction ss as [|s ss IH]; intros H; [reflexivity|]. cbn [pick]. rewrite <- (H s) by now left. rewrite IH by (intros; apply H; now right). reflexivity. Qed.
Lemma pick_cases row ss : (exists s, In s ss /\ get row s = None) \/ (forall s, In s ss -> get row s <> None).
Proof.
  induction ss as [|s ss [(u & I & E)|IH]]; [right; intros ? []|left; exists u; split; [now right | exact E]|].
  destruct (get row s) eqn:G; [right; intros u [<-|I]; [congruence | auto] | left; exists s; split; [now left | exact G]].
Qed.
Lemma count_all l : Nat.eqb (count_null l) (length l) = forallb isnull l.
Proof.
  assert (LE : forall l : list rnum, (count_null l <= length l)%nat) by (clear l; unfold count_null; induction l as [|x l IH]; [apply le_n|]; cbn [filter]; destruct (isnull x); cbn [length]; lia).
  induction l as [|x l IH]; [reflexivity|]. unfold count_null in *. destruct x as [x|]; cbn [filter isnull length forallb].
  - apply Nat.eqb_neq. specialize (LE l). lia.
  - cbn [andb]. rewrite <- IH. reflexivity.
Qed.

(** ** the stations that report *)
Definition reps (g : nat -> rnum) (l : list nat) : list (nat * R) := flat_map (fun s => match g s with Some x => [(s, x)] | None => [] end) l.
Lemma readings_reps (xy : nat -> R * R) g : forall l, readings (map xy l) (map g l) = map (fun q => (xy (fst q), snd q)) (reps g l).
Proof. induction l as [|s l IH]; [reflexivity|]. cbn [map readings reps flat_map]. fold (reps g l). destruct (g s); cbn [app map fst snd]; now rewrite IH. Qed.
Lemma reported_reps {A} (z : nat -> A) g : forall l, reported (map z l) (map g l) = map (fun q => (z (fst q), snd q)) (reps g l).
Proof. induction l as [|s l IH]; [reflexivity|]. cbn [map reported reps flat_map]. fold (reps g l). destruct (g s); cbn [app map fst snd]; now rewrite IH. Qed.
Lemma detrended_map pv (z : nat -> R) g l : detrended pv (map z l) (map g l) = map (fun s => rlift (fun v => v - (z s * fst pv + snd pv)) (g s)) l.
Proof. unfold detrended. induction l as [|s l IH]; [reflexivity|]. cbn [map map2]. now rewrite IH. Qed.
Lemma reps_detrended pv (z : nat -> R) g : forall l, reps (fun s => rlift (fun v => v - (z s * fst pv + snd pv)) (g s)) l =
  map (fun q => (fst q, snd q - (z (fst q) * fst pv + snd pv))) (reps g l).
Proof. induction l as [|s l IH]; [reflexivity|]. cbn [reps flat_map]. fold (reps g l). fold (reps (fun s => rlift (fun v => v - (z s * fst pv + snd pv)) (g s)) l). rewrite IH. destruct (g s); reflexivity. Qed.

Definition idw_of (fit : list (R * R) -> R * R) (c : config) (p : topo) (xy : nat -> R * R) (z : nat -> R) (r : list (nat * R)) : list fl :=
  if c_detrend c then
    let pv := constrain (c_slope c) (fit (map (fun q => (z (fst q), snd q)) r)) in
    map2 (retrended pv) (map (cell_value (c_power c) (map (fun q => (xy (fst q), snd q - (z (fst q) * fst pv + snd pv))) r)) (p_cells p)) (p_gz p)
  else map (cell_value (c_power c) (map (fun q => (xy (fst q), snd q)) r)) (p_cells p).
Lemma idw_eq fit c p xy z g l :
  (if c_detrend c then detrended_idw fit (c_slope c) (c_power c) (map xy l) (map z l) (p_cells p) (p_gz p) (map g l)
   else calculate_idw (c_power c) (map xy l) (p_cells p) (map g l)) = idw_of fit c p xy z (reps g l).
Proof.
  unfold idw_of. destruct (c_detrend c).
  - unfold detrended_idw, trend. rewrite reported_reps. set (pv := constrain _ _). cbv zeta. rewrite calculate_idw_eq, detrended_map, readings_reps, reps_detrended, map_map. reflexivity.
  - rewrite calculate_idw_eq, readings_reps. reflexivity.
Qed.

(** ** order *)
Lemma fold_perm {A B} (op : A -> B -> A) : (forall a x y, op (op a x) y = op (op a y) x) ->
  forall l l', Permutation l l' -> forall a, fold_left op l a = fold_left op l' a.
Proof. intros C l l' P. induction P; intros a; cbn [fold_left]; auto; [now rewrite C | now rewrite IHP1]. Qed.
Lemma fadd_comm a x y : fadd (fadd a x) y = fadd (fadd a y) x.
Proof. destruct a, x, y; cbn; try reflexivity. f_equal. ring. Qed.
Lemma cell_value_perm p c r r' : Permutation r r' -> cell_value p r c = cell_value p r' c.
Proof.
  intros P. unfold cell_value. f_equal.
  - unfold fnansum. apply fold_perm; [|now apply Permutation_map]. intros a x y. destruct x, y; try reflexivity; apply fadd_comm.
  - unfold fsum. apply fold_perm; [exact fadd_comm | now apply Permutation_map].
Qed.
Lemma reps_perm g l l' : Permutation l l' -> Permutation (reps g l) (reps g l').
Proof. intros P. now apply Permutation_flat_map. Qed.
Lemma idw_of_perm fit c p xy z r r' : (forall a b, Permutation a b -> fit a = fit b) -> Permutation r r' ->
  idw_of fit c p xy z r = idw_of fit c p xy z r'.
Proof.
  intros FI P. unfold idw_of. destruct (c_detrend c).
  - rewrite (FI _ _ (Permutation_map (fun q => (z (fst q), snd q)) P)). set (pv := constrain _ _). cbv zeta. f_equal.
    apply map_ext. intros u. apply cell_value_perm. now apply Permutation_map.
  - apply map_ext. intros u. apply cell_value_perm. now apply Permutation_map.
Qed.

(** ** only those that report *)
Lemma reports_gr row s : one_each row -> reports row s = negb (isnull (gr row s)).
Proof.
  intros N. unfold reports, gr. destruct (existsb _ row) eqn:E.
  - apply existsb_exists in E. destruct E as ((k, x) & I & B). apply andb_true_iff in B. destruct B as (K & X). cbn in K, X. apply Nat.eqb_eq in K. subst k.
    apply (get_in row s x N) in I. rewrite I. destruct x; [reflexivity | discriminate X].
  - destruct (get row s) as [[x|]|] eqn:G; try reflexivity. apply (get_in row s _ N) in G. exfalso.
    enough (C : existsb (fun e => Nat.eqb (fst e) s && match snd e with Some _ => true | None => false end) row = true) by congruence.
    apply existsb_exists. exists (s, Some x). split; [exact G|]. cbn. now rewrite Nat.eqb_refl.
Qed.
Lemma reps_filter row l : one_each row -> reps (gr row) (filter (reports row) l) = reps (gr row) l.
Proof.
  intros N. induction l as [|s l IH]; [reflexivity|]. cbn [filter reps flat_map]. fold (reps (gr row) l). rewrite (reports_gr row s N).
  destruct (gr row s) as [x|] eqn:G; cbn [isnull negb]; [|exact IH]. cbn [reps flat_map]. rewrite G. fold (reps (gr row) (filter (reports row) l)). now rewrite IH.
Qed.
Lemma listed_reps {B} (xy : nat -> B) row : one_each row -> forall ss r, listed xy row ss r ->
  (forall s, In s ss -> get row s <> None) /\ r = map (fun q => (xy (fst q), snd q)) (reps (gr row) ss).
Proof.
  intros N ss r L. induction L as [|s x ss r I L (A & E)|s ss r I L (A & E)]; [split; [intros ? []|reflexivity]| |];
    apply (get_in row s _ N) in I; (split; [intros u [<-|J]; [congruence | auto]|]);
    cbn [reps flat_map]; unfold gr at 1; rewrite I; cbn [app map]; rewrite E; reflexivity.
Qed.
Lemma reps_nil g l : reps g l = [] <-> forallb isnull (map g l) = true.
Proof.
  induction l as [|s l IH]; [split; reflexivity|]. cbn [reps flat_map map forallb]. fold (reps g l). destruct (g s); cbn [app isnull andb]; [split; discriminate | exact IH].
Qed.

(** ** limits *)
Lemma limit_within lo hi x : proper lo hi -> within lo hi (limit lo hi x).
Proof.
  intros P. unfold limit, within, at_least, at_most, proper in *. destruct lo as [l|], hi as [h|], x as [a| | |];
    repeat (match goal with |- context[rleb ?u ?v] => destruct (rleb_spec u v) end; cbn iota beta); try split; auto; try lra.
Qed.
Lemma limit_real lo hi a : proper lo hi -> exists b, limit lo hi (F a) = F b /\ limited lo hi a b.
Proof.
  intros P. unfold limit, limited, at_least, at_most, proper in *.
  destruct lo as [l|], hi as [h|]; repeat (match goal with |- context[rleb ?u ?v] => destruct (rleb_spec u v) end; cbn iota beta);
    eexists; (split; [reflexivity|]); repeat split; intros; try lra; try (f_equal; lra); try tauto; exfalso; tauto.
Qed.

(** ** the object *)
Lemma init_ok c st p t v : initialize c st p t = Ok v -> exists xy, place t = Ok xy /\
  v_config v = c /\ v_topo v = p /\ v_table v = t /\ rows st t = Ok (v_stations v) /\ v_xy v = map xy (v_stations v) /\ v_mz v = map (t_elev t) (v_stations v) /\
  v_used v = map (fun s => if c_grid_mask c then station_mask (p_mask p) (p_xs p) (p_ys p) (xy s) else true) (v_stations v).
Proof.
  unfold initialize. destruct (rows st t) as [ss|e]; cbn [bind]; [|discriminate]. destruct (place t) as [xy|e]; cbn [bind]; [|discriminate]. cbv zeta.
  intros H. exists xy. split; [reflexivity|].
  assert (v = mk_variable c p t ss (map xy ss) (map (t_elev t) ss)
     (map (fun s => if c_grid_mask c then station_mask (p_mask p) (p_xs p) (p_ys p) (xy s) else true) ss)) as ->
    by (destruct (c_distribution c) as [d|]; [destruct (known d)|]; congruence).
  cbn. repeat split; reflexivity.
Qed.

Lemma limit_cut lo hi x : proper lo hi -> cut lo hi x (limit lo hi x).
Proof.
  intros P. destruct x as [a| | |]; cbn [cut]; [now apply limit_real| | |]; unfold limit, proper in *; destruct lo as [l|], hi as [h|]; try reflexivity.
  destruct (rleb_spec h l); [f_equal; lra | reflexivity].
Qed.
Lemma cut_map lo hi h : proper lo hi -> Forall2 (cut lo hi) h (map (limit lo hi) h).
Proof. intros P. induction h; cbn [map]; constructor; auto using limit_cut. Qed.
Lemma gr_map row (x : nat -> rnum) ss : one_each row -> (forall s, In s ss -> In (s, x s) row) ->
  (forall s, In s ss -> get row s <> None) /\ map (gr row) ss = map x ss.
Proof.
  intros N H. assert (G : forall s, In s ss -> get row s = Some (x s)) by (intros s I; apply (get_in row s _ N), H, I).
  split; [intros s I; rewrite (G s I); discriminate|]. apply map_ext_in. intros s I. unfold gr. now rewrite (G s I).
Qed.
Lemma some_reading (x : nat -> rnum) ss : (exists s, In s ss /\ x s <> None) -> forallb isnull (map x ss) = false.
Proof.
  intros (s & I & NX). apply not_true_iff_false. intros A. rewrite forallb_forall in A. specialize (A (x s) (in_map _ _ _ I)). destruct (x s); [discriminate A | congruence].
Qed.
Lemma select_map {A B} (f : A -> B) : forall m l, select m (map f l) = map f (select m l).
Proof.
  unfold select. induction m as [|b m IH]; intros [|a l]; try reflexivity. cbn [map combine filter fst]. destruct b; cbn [map snd]; now rewrite IH.
Qed.
Lemma combine_map_r {A B C} (f : B -> C) : forall (z : list A) l, combine z (map f l) = map (fun q => (fst q, f (snd q))) (combine z l).
Proof. induction z as [|a z IH]; intros [|b l]; try reflexivity. cbn [map combine fst snd]. now rewrite IH. Qed.
Lemma select_nil {A} : forall m (l : list A), length m = length l -> (select m l = [] <-> ~ In true m).
Proof.
  unfold select. induction m as [|b m IH]; intros [|a l] L; try discriminate L; [split; [intros _ []|reflexivity]|]. injection L as L. specialize (IH l L).
  destruct b; cbn [combine filter fst map In]; [split; [discriminate | intros H; exfalso; apply H; now left]|]. rewrite IH. intuition discriminate.
Qed.
Lemma map2_map_r {A B C D} (f : A -> C -> D) (g : B -> C) : forall a b, map2 f a (map g b) = map2 (fun x y => f x (g y)) a b.
Proof. induction a as [|x a IH]; intros [|y b]; try reflexivity. cbn [map map2]. now rewrite IH. Qed.
Lemma map_map2 {A B C D} (f : A -> B -> C) (g : C -> D) : forall a b, map g (map2 f a b) = map2 (fun x y => g (f x y)) a b.
Proof. induction a as [|x a IH]; intros [|y b]; try reflexivity. cbn [map map2]. now rewrite IH. Qed.

(** local trends only look at the neighbours *)
Lemma local_ext fit interp flag near n elev data data' gz :
  (forall i, (i < n)%nat -> near i <> [] /\ forall j, In j (near i) -> data j = data' j) ->
  detrended_local fit interp flag near n elev data gz = detrended_local fit interp flag near n elev data' gz.
Proof.
  intros H. unfold detrended_local. cbv zeta.
  assert (LF : forall i, In i (seq 0 n) -> local_fit fit flag near elev data i = local_fit fit flag near elev data' i).
  { intros i I. apply in_seq in I. unfold local_fit. do 2 f_equal. apply map_ext_in. intros j J. destruct (H i) as (_ & E); [lia|]. now rewrite (E j J). }
  assert (E1 : map (fun i => fst (local_fit fit flag near elev data i)) (seq 0 n) = map (fun i => fst (local_fit fit flag near elev data' i)) (seq 0 n))
    by (apply map_ext_in; intros i I; now rewrite LF).
  assert (E2 : map (fun i => snd (local_fit fit flag near elev data i)) (seq 0 n) = map (fun i => snd (local_fit fit flag near elev data' i)) (seq 0 n))
    by (apply map_ext_in; intros i I; now rewrite LF).
  rewrite E1, E2. do 3 f_equal. apply map_ext_in. intros i I. rewrite LF by exact I. apply in_seq in I. destruct (H i) as (NE & E); [lia|]. unfold first.
  destruct (near i) as [|j l]; [congruence|]. cbn [hd]. rewrite (E j) by now left. reflexivity.
Qed.
