From Coq Require Import Reals List Bool ZArith Arith Lia Lra.
From Verif Require Import RNum WinsModel SatModel SatSpec SatProofs GridWindModel SolarModel HrrrModel HrrrSpec.
Import ListNotations.

Lemma bind_ok {A B} (r : res A) (f : A -> res B) b : bind r f = Ok b <-> exists a, r = Ok a /\ f a = Ok b.
Proof. destruct r as [a|e]; cbn; [split; [eauto|intros (a' & [= ->] & H); exact H]|]. split; [discriminate|intros (a & H & _); discriminate H]. Qed.

Lemma list_eqb_spec {A} (eqb : A -> A -> bool) : (forall x y, reflect (x = y) (eqb x y)) -> forall a b, reflect (a = b) (list_eqb eqb a b).
Proof.
  intros H. induction a as [|x a IH]; intros [|y b]; cbn; try (constructor; congruence).
  destruct (H x y) as [->|N]; cbn [andb]; [|constructor; congruence]. destruct (IH b) as [->|N]; constructor; congruence.
Qed.
Lemma repeats_spec {A} (eqb : A -> A -> bool) : (forall x y, reflect (x = y) (eqb x y)) -> forall l, repeats eqb l = false <-> NoDup l.
Proof.
  intros H. induction l as [|x l IH]; cbn; [split; [constructor|reflexivity]|]. rewrite orb_false_iff, IH. split.
  - intros (N & ND). constructor; [|exact ND]. intros I. apply not_true_iff_false in N. apply N. apply existsb_exists. exists x. split; [exact I|].
    now destruct (H x x).
  - intros ND. inversion ND; subst. split; [|assumption]. apply not_true_iff_false. intros X. apply existsb_exists in X. destruct X as (y & I & E).
    destruct (H x y); [subst; contradiction|discriminate].
Qed.
Lemma find_label_some {A} (eqb : A -> A -> bool) : (forall x y, reflect (x = y) (eqb x y)) -> forall x l i, find_label eqb x l = Some i -> nth_error l i = Some x.
Proof.
  intros H x. induction l as [|y l IH]; intros i E; cbn in E; [discriminate|]. destruct (H x y) as [->|N]; [injection E as <-; reflexivity|].
  destruct (find_label eqb x l) as [k|]; [|discriminate]. injection E as <-. cbn. now apply IH.
Qed.
Lemma find_label_none {A} (eqb : A -> A -> bool) : (forall x y, reflect (x = y) (eqb x y)) -> forall x l, find_label eqb x l = None -> ~ In x l.
Proof.
  intros H x. induction l as [|y l IH]; intros E I; cbn in E; [exact I|]. destruct (H x y) as [->|N]; [discriminate|].
  destruct (find_label eqb x l) as [k|]; [discriminate|]. destruct I as [->|I]; [congruence|]. now apply IH.
Qed.
Lemma places_ok {A} (eqb : A -> A -> bool) (old new : list A) : (forall x y, reflect (x = y) (eqb x y)) ->
  (exists p, places eqb old new = Ok p) <-> (old = new \/ NoDup old).
Proof.
  intros H. unfold places. destruct (list_eqb_spec eqb H old new) as [E|N]; [split; eauto|].
  destruct (repeats eqb old) eqn:R.
  - split; [intros (p & X); discriminate X|]. intros [E|ND]; [contradiction|]. apply (repeats_spec eqb H) in ND. congruence.
  - split; [intros _; right; now apply (repeats_spec eqb H)|eauto].
Qed.
Lemma places_at {A} (eqb : A -> A -> bool) (old new : list A) p i x : (forall x y, reflect (x = y) (eqb x y)) ->
  places eqb old new = Ok p -> nth_error new i = Some x ->
  match p i with Some k => nth_error old k = Some x | None => ~ In x old end.
Proof.
  intros H E N. unfold places in E. destruct (list_eqb_spec eqb H old new) as [->|_]; [injection E as <-; exact N|].
  destruct (repeats eqb old); [discriminate|]. injection E as <-. rewrite N. destruct (find_label eqb x old) eqn:F.
  - now apply (find_label_some eqb H).
  - now apply (find_label_none eqb H).
Qed.

Lemma reindex_ok f idx cols : (exists g, reindex f idx cols = Ok g) <->
  (f_cols f = cols \/ NoDup (f_cols f)) /\ (f_index f = idx \/ NoDup (f_index f)).
Proof.
  unfold reindex. rewrite <- (places_ok Nat.eqb _ cols Nat.eqb_spec), <- (places_ok Z.eqb _ idx Z.eqb_spec). split.
  - intros (g & E). apply bind_ok in E. destruct E as (pc & E1 & E). apply bind_ok in E. destruct E as (pr & E2 & E). eauto.
  - intros ((pc & E1) & (pr & E2)). rewrite E1. cbn [bind]. rewrite E2. cbn [bind]. eauto.
Qed.
Lemma reindex_seen f idx cols g : reindex f idx cols = Ok g ->
  f_index g = idx /\ f_cols g = cols /\ forall t c x, reads g t c x -> seen_at f t c x.
Proof.
  unfold reindex. intros E. apply bind_ok in E. destruct E as (pc & E1 & E). apply bind_ok in E. destruct E as (pr & E2 & E).
  injection E as <-. cbn [f_index f_cols]. split; [reflexivity|]. split; [reflexivity|].
  intros t c x (i & j & I & J & X). cbn [f_index f_cols f_cell] in *.
  pose proof (places_at Nat.eqb _ _ _ _ _ Nat.eqb_spec E1 J) as C. pose proof (places_at Z.eqb _ _ _ _ _ Z.eqb_spec E2 I) as T.
  destruct (pr i) as [i'|]; [destruct (pc j) as [j'|]|].
  - left. exists i', j'. auto.
  - right. split; [now right|now symmetry].
  - right. split; [now left|now symmetry].
Qed.

Lemma all_of_spec {A B} (f : A -> option B) l : (exists r, all_of f l = Some r) <-> forall x, In x l -> f x <> None.
Proof.
  induction l as [|x l IH]; cbn; [split; [intros _ ? []|eauto]|]. split.
  - intros (r & E) y [<-|I].
    + destruct (f x); [discriminate|discriminate E].
    + destruct (f x); [|discriminate E]. destruct (all_of f l); [|discriminate E]. apply IH; eauto.
  - intros H. destruct (f x) as [y|] eqn:E; [|now apply H in E; auto]. destruct (proj2 IH) as (r & ->); eauto.
Qed.
Lemma all_of_match {A B} (f : A -> option B) l : forall r, all_of f l = Some r -> Forall2 (fun x y => f x = Some y) l r.
Proof.
  induction l as [|x l IH]; cbn; intros r E; [injection E as <-; constructor|].
  destruct (f x) as [y|] eqn:F; [|discriminate]. destruct (all_of f l); [|discriminate]. injection E as <-. constructor; auto.
Qed.
Lemma all_cells_spec n m p : all_cells n m p = true <-> forall i j, i < n -> j < m -> p i j = true.
Proof.
  unfold all_cells. rewrite forallb_forall. split.
  - intros H i j I J. specialize (H i). rewrite forallb_forall in H. apply H; apply in_seq; lia.
  - intros H i I. apply forallb_forall. intros j J. apply in_seq in I, J. apply H; lia.
Qed.

Section Parse.
Variable E : Type.
Variable numeric : E -> option rnum.
Variable zone : Z -> option Z.

Notation readable := (HrrrSpec.readable numeric zone).

Lemma convert_spec f : (exists g, convert E numeric zone f = Ok g) <-> readable f.
Proof.
  unfold convert, HrrrSpec.readable. rewrite <- all_of_spec. split.
  - intros (g & H). destruct (all_of zone (f_index f)); [|discriminate]. split; [eauto|].
    destruct (all_cells _ _ _) eqn:A; [|discriminate]. rewrite all_cells_spec in A. intros i j I J. specialize (A i j I J).
    destruct (numeric (f_cell f i j)); [discriminate|discriminate A].
  - intros ((r & ->) & H). replace (all_cells _ _ _) with true; [eauto|]. symmetry. apply all_cells_spec. intros i j I J.
    specialize (H i j I J). now destruct (numeric (f_cell f i j)).
Qed.
Lemma convert_reads f g : convert E numeric zone f = Ok g -> read_as numeric zone f g.
Proof.
  unfold convert. intros H. destruct (all_of zone (f_index f)) eqn:Z; [|discriminate]. destruct (all_cells _ _ _) eqn:A; [|discriminate].
  injection H as <-. rewrite all_cells_spec in A. split; [reflexivity|]. cbn [f_index f_cols f_cell]. split; [now apply all_of_match|].
  intros i j I J. specialize (A i j I J). now destruct (numeric (f_cell f i j)).
Qed.
Lemma convert_fails f : ~ readable f -> convert E numeric zone f = Err ValueError.
Proof.
  intros N. destruct (convert E numeric zone f) as [g|e] eqn:C; [exfalso; apply N, convert_spec; eauto|].
  unfold convert in C. destruct (all_of zone (f_index f)); [destruct (all_cells _ _ _); [discriminate|]|]; congruence.
Qed.

Lemma convert_all_ok data ks : (exists ts, convert_all E numeric zone data ks = Ok ts) <->
  forall k f, In k ks -> data k = Some f -> readable f.
Proof.
  induction ks as [|k ks IH]; cbn [convert_all]; [split; [intros _ ? ? []|eauto]|]. split.
  - intros (ts & H) k' f [<-|I] D.
    + rewrite D in H. apply bind_ok in H. destruct H as (g & H & _). apply convert_spec. eauto.
    + destruct (data k); [|apply (proj1 IH (ex_intro _ _ H) k'); auto].
      apply bind_ok in H. destruct H as (g & _ & H). apply bind_ok in H. destruct H as (r & H & _).
      apply (proj1 IH (ex_intro _ _ H) k'); auto.
  - intros H. destruct (proj2 IH) as (r & R); [intros k' f I; apply H; now right|].
    destruct (data k) as [f|] eqn:D; [|eauto]. destruct (proj2 (convert_spec f)) as (g & G); [apply (H k); auto; now left|].
    rewrite G. cbn [bind]. rewrite R. cbn [bind]. eauto.
Qed.
Lemma convert_all_fails data ks k f : In k ks -> data k = Some f -> ~ readable f -> convert_all E numeric zone data ks = Err ValueError.
Proof.
  induction ks as [|k' ks IH]; intros I D N; [contradiction|]. cbn [convert_all]. destruct I as [->|I].
  - rewrite D, (convert_fails f N). reflexivity.
  - destruct (data k') as [f'|] eqn:D'; [|now apply IH]. destruct (convert E numeric zone f') as [g|e] eqn:C; cbn [bind].
    + now rewrite IH.
    + f_equal. unfold convert in C. destruct (all_of zone (f_index f')); [destruct (all_cells _ _ _); [discriminate|]|]; congruence.
Qed.
Lemma key_eqb_spec a b : reflect (a = b) (key_eqb a b).
Proof. destruct a, b; constructor; congruence. Qed.
Lemma get_spec data ks : NoDup ks -> forall ts, convert_all E numeric zone data ks = Ok ts -> forall k, In k ks ->
  get ts k = match data k with Some f => convert E numeric zone f | None => Err KeyError end.
Proof.
  induction ks as [|k' ks IH]; intros ND ts H k I; [contradiction|]. inversion ND; subst. cbn [convert_all] in H.
  assert (Miss : forall ts k, convert_all E numeric zone data ks = Ok ts -> ~ In k ks -> get ts k = Err KeyError).
  { clear. intros ts k. revert ts. induction ks as [|k' ks IH]; intros ts H N; cbn [convert_all] in H; [injection H as <-; reflexivity|].
    destruct (data k') as [f|]; [|apply IH; auto; intros X; apply N; now right].
    apply bind_ok in H. destruct H as (g & _ & H). apply bind_ok in H. destruct H as (r & H & E'). injection E' as <-.
    unfold get. cbn [find fst]. destruct (key_eqb_spec k' k) as [->|_]; [exfalso; apply N; now left|]. apply IH; auto. intros X. apply N. now right. }
  destruct (data k') as [f|] eqn:D.
  - apply bind_ok in H. destruct H as (g & G & H). apply bind_ok in H. destruct H as (r & R & E'). injection E' as <-.
    unfold get. cbn [find fst]. destruct (key_eqb_spec k' k) as [->|N]; [rewrite D; now symmetry|].
    destruct I as [->|I]; [congruence|]. now apply IH.
  - destruct I as [->|I]; [rewrite D; now apply Miss|]. now apply IH.
Qed.
Lemma keys_all k : In k keys.
Proof. destruct k; cbn; tauto. Qed.
Lemma keys_nodup : NoDup keys.
Proof. repeat constructor; cbn; intuition congruence. Qed.

Lemma get_reads data ts k g : convert_all E numeric zone data keys = Ok ts -> get ts k = Ok g ->
  exists f, data k = Some f /\ read_as numeric zone f g.
Proof.
  intros H G. rewrite (get_spec data keys keys_nodup ts H k (keys_all k)) in G. destruct (data k) as [f|]; [|discriminate].
  exists f. split; [reflexivity|]. now apply convert_reads.
Qed.
Lemma get_some data ts k f : convert_all E numeric zone data keys = Ok ts -> data k = Some f -> exists g, get ts k = Ok g /\ read_as numeric zone f g.
Proof.
  intros H D. rewrite (get_spec data keys keys_nodup ts H k (keys_all k)), D.
  destruct (proj2 (convert_spec f)) as (g & G); [apply (proj1 (convert_all_ok data keys) (ex_intro _ _ H) k f (keys_all k) D)|].
  exists g. split; [exact G|]. now apply convert_reads.
Qed.
End Parse.

(** ** vapour pressure *)
Lemma flat_length {A} n m (c : nat -> nat -> A) : length (flat n m c) = n * m.
Proof.
  unfold flat. assert (G : forall l, length (flat_map (fun i => map (fun j => c i j) (seq 0 m)) l) = length l * m).
  { induction l as [|i l IH]; [reflexivity|]. cbn [flat_map length]. rewrite app_length, map_length, seq_length, IH. lia. }
  rewrite G, seq_length. reflexivity.
Qed.
Lemma flat_nth {A} n m (c : nat -> nat -> A) i j d : i < n -> j < m -> nth (i * m + j) (flat n m c) d = c i j.
Proof.
  intros I J. unfold flat. assert (G : forall k s, i < s + k -> s <= i ->
    nth ((i - s) * m + j) (flat_map (fun i => map (fun j => c i j) (seq 0 m)) (seq s k)) d = c i j).
  { induction k as [|k IH]; intros s L S; [lia|]. cbn [seq flat_map]. destruct (Nat.eq_dec i s) as [->|N].
    - rewrite Nat.sub_diag, app_nth1 by (rewrite map_length, seq_length; lia). cbn [Nat.mul Nat.add].
      rewrite (nth_indep _ d (c s 0)) by (rewrite map_length, seq_length; lia). rewrite (map_nth (fun j => c s j)), seq_nth by lia. reflexivity.
    - rewrite app_nth2 by (rewrite map_length, seq_length; nia). rewrite map_length, seq_length.
      replace ((i - s) * m + j - m) with ((i - Datatypes.S s) * m + j) by nia. apply IH; lia. }
  specialize (G n 0 ltac:(lia) ltac:(lia)). now rewrite Nat.sub_0_r in G.
Qed.
Lemma flat_first {A} n m (c : nat -> nat -> A) : 0 < n -> 0 < m -> exists r, flat n m c = c 0 0 :: r.
Proof.
  intros N M. destruct n as [|n]; [lia|]. destruct m as [|m]; [lia|]. unfold flat. cbn [seq flat_map map app]. eauto.
Qed.

Local Open Scope R_scope.
Lemma rh2vp_cell cells k d : (k < length cells)%nat ->
  vapor_of (fst (nth k cells d)) (in_unit_of (snd (nth 0 cells d)) (snd (nth k cells d))) (nth k (rh2vp cells) None).
Proof.
  intros K. destruct cells as [|[t0 r0] rest]; [cbn in K; lia|]. replace (snd (nth 0 ((t0, r0) :: rest) d)) with r0 by reflexivity.
  set (flag := match r0 with Some r => rleb 1 r | None => false end).
  set (F := fun c : rnum * rnum => rlift2 Rmult (sati_py (rlift (fun t => t + 273.15) (fst c))) (if flag then rlift (fun r => r / 100) (snd c) else snd c)).
  assert (RH : rh2vp ((t0, r0) :: rest) = map F ((t0, r0) :: rest)) by (unfold rh2vp, F, flag; destruct r0; reflexivity).
  rewrite RH. set (cells := (t0, r0) :: rest) in *.
  assert (EN : nth k (map F cells) None = F (nth k cells d)).
  { rewrite (nth_indep _ None (F d)) by now rewrite map_length. apply map_nth. }
  rewrite EN. clear EN. destruct (nth k cells d) as [t r]. unfold F. cbn [fst snd].
  assert (EU : (if flag then rlift (fun r => r / 100) r else r) = in_unit_of r0 r).
  { unfold flag, in_unit_of, percent. destruct r0 as [f|]; [|reflexivity]. unfold rleb. destruct (Rle_dec 1 f); reflexivity. }
  rewrite EU. generalize (in_unit_of r0 r). clear. intros q. split.
  - intros t' r' -> -> T. cbn [rlift option_map]. unfold sati_py. destruct (rltb_spec (t' + 273.15) 0); [lra|].
    destruct (reqb_spec (t' + 273.15) 0); [lra|]. rewrite sat_is. reflexivity.
  - intros [-> | ->]; [reflexivity|]. destruct (sati_py _); reflexivity.
Qed.
Local Open Scope nat_scope.
Lemma vapor_ok air rh : (exists vp, vapor air rh = Ok vp) <->
  0 < rows rh /\ 0 < width rh /\ (rows rh = rows air \/ rows rh = 1) /\ (width rh = width air \/ width rh = 1).
Proof.
  unfold vapor, stretched. destruct (Nat.eqb_spec (rows rh) 0); cbn [orb]; [split; [intros (? & X); discriminate X|lia]|].
  destruct (Nat.eqb_spec (width rh) 0); [split; [intros (? & X); discriminate X|lia]|].
  destruct (Nat.eqb_spec (rows rh) (rows air)), (Nat.eqb_spec (rows rh) 1), (Nat.eqb_spec (width rh) (width air)), (Nat.eqb_spec (width rh) 1);
    cbn [orb andb]; (split; [intros (? & X); try discriminate X; lia|intros H; try (eexists; reflexivity); lia]).
Qed.
Lemma vapor_cell air rh vp i j : vapor air rh = Ok vp -> i < rows air -> j < width air ->
  f_index vp = f_index air /\ f_cols vp = f_cols air /\
  exists i' j', (i' = i \/ rows rh = 1 /\ i' = 0) /\ (j' = j \/ width rh = 1 /\ j' = 0) /\
    vapor_of (f_cell air i j) (in_unit_of (f_cell rh 0 0) (f_cell rh i' j')) (f_cell vp i j).
Proof.
  intros H I J. unfold vapor in H. destruct (_ || _); [discriminate|]. destruct (_ && _); [|discriminate]. injection H as <-.
  cbn [f_index f_cols f_cell]. split; [reflexivity|]. split; [reflexivity|].
  set (c := fun i j => (f_cell air i j, f_cell rh (at_axis (rows rh) i) (at_axis (width rh) j))).
  exists (at_axis (rows rh) i), (at_axis (width rh) j).
  split; [unfold at_axis; destruct (Nat.eqb_spec (rows rh) 1); auto|].
  split; [unfold at_axis; destruct (Nat.eqb_spec (width rh) 1); auto|].
  pose proof (rh2vp_cell (flat (rows air) (width air) c) (i * width air + j) (None, None)) as R.
  rewrite flat_length in R. specialize (R ltac:(nia)). rewrite flat_nth in R by assumption.
  destruct (flat_first (rows air) (width air) c ltac:(lia) ltac:(lia)) as (r & F). 
  assert (N0 : nth 0 (flat (rows air) (width air) c) (None, None) = c 0 0) by (rewrite F; reflexivity). rewrite N0 in R.
  unfold c in R at 1 2 3. cbn [fst snd] in R. unfold at_axis in R at 1 2.
  assert (Z : forall n, (if n =? 1 then 0 else 0) = 0) by (intros n; destruct (n =? 1); reflexivity). rewrite !Z in R. exact R.
Qed.
Lemma vapor_labels air rh vp : vapor air rh = Ok vp -> labels_of vp air.
Proof. unfold vapor. destruct (_ || _); [discriminate|]. destruct (_ && _); [|discriminate]. intros [= <-]. split; reflexivity. Qed.

(** ** wind *)
Lemma same_labels_spec u v : same_labels u v = true <-> labels_of u v.
Proof.
  unfold same_labels, labels_of. rewrite andb_true_iff.
  destruct (list_eqb_spec Z.eqb Z.eqb_spec (f_index u) (f_index v)), (list_eqb_spec Nat.eqb Nat.eqb_spec (f_cols u) (f_cols v)); intuition congruence.
Qed.
Lemma both_seen u v f t c x : labels_of u v ->
  seen_at (mkFrame (f_index u) (f_cols u) (fun i j => rlift2 f (f_cell u i j) (f_cell v i j))) t c x ->
  exists a b, seen_at u t c a /\ seen_at v t c b /\ x = rlift2 f a b.
Proof.
  intros (L1 & L2) [(i & j & I & J & X)|(N & ->)]; cbn [f_index f_cols f_cell] in *.
  - exists (f_cell u i j), (f_cell v i j). split; [left; exists i, j; auto|]. split; [|now symmetry].
    left. exists i, j. rewrite <- L1, <- L2. auto.
  - exists None, None. split; [right; auto|]. split; [right; rewrite <- L1, <- L2; auto|reflexivity].
Qed.

Lemma all2_length {A B} (P : A -> B -> Prop) l m : Forall2 P l m -> length l = length m.
Proof. induction 1; cbn; congruence. Qed.
Lemma same_entries {A} (l : list A) : forall m, (forall i, nth_error l i = nth_error m i) -> l = m.
Proof.
  induction l as [|a l IH]; intros [|b m] H; [reflexivity|discriminate (H 0)|discriminate (H 0)|].
  assert (X := H 0). cbn in X. injection X as ->. f_equal. apply IH. intros i. exact (H (S i)).
Qed.
