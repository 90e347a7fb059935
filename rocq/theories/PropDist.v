(** C91: from the readings of the stations to the grid of a variable.  The external interpolators are the
    parameters of the section; every statement holds whatever they are. *)
From Coq Require Import Ascii String Reals List Bool Arith Permutation Lia Lra.
From Verif Require Import RNum SpatModel SpatSpec SpatProofs WinsSpec DistModel DistSpec DistProofs.
Import ListNotations.
Local Open Scope string_scope.
Local Open Scope R_scope.

(** A variable is set up exactly if its method is one of the four, or is not given at all, and the table has
    coordinates under the new names or the old ones; all stations of the table are used, in its order. *)
Theorem C91_initialize (c : config) (p : topo) (t : table) :
  ((exists v, initialize c None p t = Ok v) <->
     (t_utm t <> None \/ t_old t <> None) /\
     (forall d, c_distribution c = Some d -> In d ["idw"; "dk"; "grid"; "kriging"])) /\
  (t_utm t = None -> t_old t = None -> initialize c None p t = Err AttributeError) /\
  (t_utm t <> None \/ t_old t <> None -> forall d, c_distribution c = Some d -> ~ In d ["idw"; "dk"; "grid"; "kriging"] ->
     initialize c None p t = Err Undetermined) /\
  (forall v, initialize c None p t = Ok v -> v_stations v = t_index t).
Proof.
  assert (K : forall d, known d = true <-> In d ["idw"; "dk"; "grid"; "kriging"]).
  { intros d. unfold known. rewrite !orb_true_iff, !String.eqb_eq. cbn. intuition. }
  assert (PL : (t_utm t <> None \/ t_old t <> None) -> exists xy, place t = Ok xy).
  { unfold place. destruct (t_utm t), (t_old t); eauto. intros [H|H]; congruence. }
  split; [split|split; [|split]].
  - intros (v & E). unfold initialize, rows in E. cbn [bind] in E. split.
    + unfold place in E. destruct (t_utm t), (t_old t); cbn [bind] in E; first [left; discriminate | right; discriminate | discriminate E].
    + intros d D. rewrite D in E. destruct (place t); cbn [bind] in E; [|discriminate]. apply K. destruct (known d); [reflexivity | discriminate].
  - intros (H & D). destruct (PL H) as (xy & E). unfold initialize, rows. rewrite E. cbn [bind]. destruct (c_distribution c) as [d|]; [|eauto].
    rewrite (proj2 (K d) (D d eq_refl)). eauto.
  - intros U O. unfold initialize, place, rows. rewrite U, O. reflexivity.
  - intros H d D N. destruct (PL H) as (xy & E). unfold initialize, rows. rewrite E. cbn [bind]. rewrite D.
    destruct (known d) eqn:KD; [|reflexivity]. exfalso. apply N, K, KD.
  - intros v E. destruct (init_ok _ _ _ _ _ E) as (xy & _ & _ & _ & _ & R1 & _). cbn in R1. congruence.
Qed.
Print Assumptions C91_initialize.

(** Stations that are named are used in the order of the names, and all of them must be in the table. *)
Theorem C91_named_stations (c : config) (p : topo) (t : table) (l : list nat) :
  (forall v, initialize c (Some l) p t = Ok v -> v_stations v = l /\ forall s, In s l -> In s (t_index t)) /\
  ((forall s, In s l -> In s (t_index t)) ->
     (exists v, initialize c (Some l) p t = Ok v) <-> exists v, initialize c None p t = Ok v) /\
  (forall s, In s l -> ~ In s (t_index t) -> initialize c (Some l) p t = Err KeyError).
Proof.
  assert (ALL : forallb (fun s => existsb (Nat.eqb s) (t_index t)) l = true <-> forall s, In s l -> In s (t_index t)).
  { rewrite forallb_forall. split; intros H s I; specialize (H s I).
    - apply existsb_exists in H. destruct H as (x & X & E). apply Nat.eqb_eq in E. now subst.
    - apply existsb_exists. exists s. split; [exact H|apply Nat.eqb_refl]. }
  unfold initialize, rows. destruct (forallb _ l) eqn:F; cbn [bind].
  - assert (A := proj1 ALL eq_refl). split; [|split].
    + intros v H. split; [|exact A]. destruct (place t); cbn [bind] in H; [|discriminate].
      destruct (c_distribution c) as [d|]; [destruct (known d)|]; first [discriminate H | injection H as <-; reflexivity].
    + intros _. destruct (place t); cbn [bind]; [|split; intros (v & H); discriminate H].
      destruct (c_distribution c) as [d|]; [destruct (known d)|]; (split; intros (v & H); first [discriminate H | eexists; reflexivity]).
    + intros s I N. exfalso. apply N, A, I.
  - split; [intros v H; discriminate H|]. split; [|reflexivity]. intros A. apply ALL in A. congruence.
Qed.
Print Assumptions C91_named_stations.

Section Any.
Context (fit : list (R * R) -> R * R) (dk : list (R * R) -> list R -> sign -> list rnum -> list fl)
        (griddata : gmethod -> list (R * R) -> list rnum -> list fl) (interp : gmethod -> list (R * R) -> list R -> list rnum)
        (near : list nat -> nat -> list nat) (ok : list (R * R) -> list R -> list R).
Notation interpolate := (interpolate fit dk griddata interp near ok).
Notation distribute := (distribute fit dk griddata interp near ok).

(** Only the readings of the variable's own stations matter: not the order of the row, not other stations. *)
Theorem C91_own_readings (v : variable) (row row' : list (nat * rnum)) (before : option (list fl)) :
  one_each row -> one_each row' -> (forall s x, In s (v_stations v) -> (In (s, x) row <-> In (s, x) row')) ->
  distribute v before row = distribute v before row'.
Proof.
  intros N N' H. unfold DistModel.distribute, DistModel.interpolate.
  rewrite (pick_same row row'); [reflexivity|]. intros s I. destruct (get row s) as [x|] eqn:E.
  - symmetry. apply (get_in row' s x N'), (H s x I), (get_in row s x N), E.
  - destruct (get row' s) as [y|] eqn:E'; [|reflexivity]. apply (get_in row' s y N'), (H s y I), (get_in row s y N) in E'. congruence.
Qed.

(** When a step fails the grid stays what it was; it fails if a station has no entry, if no station reports, or
    if the method was not given. *)
Theorem C91_failures (c : config) (p : topo) (t : table) (v : variable) (row : list (nat * rnum)) (before : option (list fl)) :
  initialize c None p t = Ok v -> one_each row ->
  ((exists s, In s (t_index t) /\ forall x, ~ In (s, x) row) -> distribute v before row = (before, Some KeyError)) /\
  ((forall s, In s (t_index t) -> In (s, None) row) -> distribute v before row = (before, Some AllMissing)) /\
  ((forall s, In s (t_index t) -> exists x, In (s, x) row) -> (exists s x, In s (t_index t) /\ In (s, Some x) row) ->
     (c_distribution c = None -> distribute v before row = (before, Some KeyError)) /\
     (c_distribution c <> None -> c_distribution c <> Some "grid" -> exists g, distribute v before row = (Some g, None))).
Proof.
  intros I N. destruct (init_ok _ _ _ _ _ I) as (xy & PL & CC & PP & TT & RR & XY & MZ & _). cbn in RR. assert (VS : v_stations v = t_index t) by congruence.
  unfold DistModel.distribute, DistModel.interpolate. rewrite VS. split; [|split].
  - intros (s & IS & H). rewrite pick_err; [reflexivity|]. exists s. split; [exact IS|]. destruct (get row s) as [x|] eqn:E; [|reflexivity].
    apply (get_in row s x N) in E. destruct (H x E).
  - intros H. rewrite pick_ok by (intros s IS; rewrite (proj2 (get_in row s None N) (H s IS)); discriminate). cbn [bind]. rewrite count_all.
    replace (forallb isnull (map (gr row) (t_index t))) with true; [reflexivity|]. symmetry. apply forallb_forall. intros x X. apply in_map_iff in X. destruct X as (s & <- & IS).
    unfold gr. rewrite (proj2 (get_in row s None N) (H s IS)). reflexivity.
  - intros H (s & x & IS & E). rewrite pick_ok by (intros u IU; destruct (H u IU) as (y & Y); rewrite (proj2 (get_in row u y N) Y); discriminate). cbn [bind]. rewrite count_all.
    replace (forallb isnull (map (gr row) (t_index t))) with false.
    2:{ symmetry. apply not_true_iff_false. intros A. rewrite forallb_forall in A. specialize (A (gr row s) (in_map _ _ _ IS)). unfold gr in A. rewrite (proj2 (get_in row s _ N) E) in A. discriminate A. }
    rewrite CC. split; [intros ->; reflexivity|]. destruct (c_distribution c) as [d|]; [|congruence]. intros _ D.
    destruct (String.eqb_spec d "idw"); [eexists; reflexivity|]. destruct (String.eqb_spec d "dk"); [eexists; reflexivity|].
    destruct (String.eqb_spec d "grid") as [->|]; [congruence|]. eexists; reflexivity.
Qed.

(** Every number of the grid obeys the limits, whatever the method; those that do already are not changed. *)
Theorem C91_limits (v : variable) (row : list (nat * rnum)) (before : option (list fl)) (g : list fl) :
  proper (c_min (v_config v)) (c_max (v_config v)) -> distribute v before row = (Some g, None) ->
  (forall x, In x g -> within (c_min (v_config v)) (c_max (v_config v)) x) /\
  exists h, interpolate v row = Ok h /\ Forall2 (cut (c_min (v_config v)) (c_max (v_config v))) h g.
Proof.
  intros P. unfold DistModel.distribute. destruct (interpolate v row) as [h|e]; [|discriminate]. intros [= <-]. split.
  - intros x X. apply in_map_iff in X. destruct X as (y & <- & _). now apply limit_within.
  - exists h. split; [reflexivity | now apply cut_map].
Qed.

(** What the other methods are given: the places, elevations and readings [x] of the stations, in the order of
    the table. *)
Theorem C91_dk_grid (c : config) (p : topo) (t : table) (v : variable) (xy : nat -> R * R) (row : list (nat * rnum)) (x : nat -> rnum) (before : option (list fl)) :
  initialize c None p t = Ok v -> (t_utm t = Some xy \/ (t_utm t = None /\ t_old t = Some xy)) -> proper (c_min c) (c_max c) ->
  one_each row -> (forall s, In s (t_index t) -> In (s, x s) row) -> (exists s, In s (t_index t) /\ x s <> None) ->
  (c_distribution c = Some "dk" ->
     exists g, distribute v before row = (Some g, None) /\
       Forall2 (cut (c_min c) (c_max c)) (dk (map xy (t_index t)) (map (t_elev t) (t_index t)) (c_slope c) (map x (t_index t))) g) /\
  (c_distribution c = Some "grid" -> c_detrend c = false ->
     exists g, distribute v before row = (Some g, None) /\
       Forall2 (cut (c_min c) (c_max c)) (griddata (c_method c) (map xy (t_index t)) (map x (t_index t))) g).
Proof.
  intros I PL P N H NZ. destruct (init_ok _ _ _ _ _ I) as (xy' & PL' & CC & PP & TT & RR & XY & MZ & _). cbn in RR. assert (VS : v_stations v = t_index t) by congruence.
  assert (xy' = xy) as -> by (unfold place in PL'; destruct PL as [Q | (Q & Q')]; rewrite Q in PL'; [|rewrite Q' in PL']; congruence).
  destruct (gr_map row x _ N H) as (A & E). unfold DistModel.distribute, DistModel.interpolate. rewrite VS, pick_ok by exact A. cbn [bind]. rewrite count_all, E, (some_reading x _ NZ), CC, XY, MZ, VS.
  split; intros ->; cbn [String.eqb Ascii.eqb Bool.eqb]; [|intros ->]; (eexists; split; [reflexivity | now apply cut_map]).
Qed.

(** Gridded data with one trend, all readings present: only the stations whose nearest cell is in the mask decide
    the trend (as in C28), all of them without grid_mask, and there must be one. *)
Theorem C91_grid_trend (c : config) (p : topo) (t : table) (v : variable) (xy : nat -> R * R) (row : list (nat * rnum)) (y : nat -> R) (before : option (list fl)) :
  initialize c None p t = Ok v -> (t_utm t = Some xy \/ (t_utm t = None /\ t_old t = Some xy)) -> proper (c_min c) (c_max c) ->
  one_each row -> (forall s, In s (t_index t) -> In (s, Some (y s)) row) -> t_index t <> [] -> p_xs p <> [] -> p_ys p <> [] ->
  c_distribution c = Some "grid" -> c_detrend c = true -> c_grid_local c = false ->
  exists used : nat -> bool,
    (forall s, if c_grid_mask c then exists i j, first_nearest (snd (xy s)) (p_ys p) i /\ first_nearest (fst (xy s)) (p_xs p) j /\ used s = p_mask p i j
               else used s = true) /\
    ((exists s, In s (t_index t) /\ used s = true) ->
       exists g, distribute v before row = (Some g, None) /\
         Forall2 (cut (c_min c) (c_max c))
           (detrended_grid fit (fun l => griddata (c_method c) (map xy (t_index t)) (map Some l)) (c_slope c) (map used (t_index t)) (map (t_elev t) (t_index t)) (p_gz p) (map y (t_index t))) g) /\
    ((forall s, In s (t_index t) -> used s = false) -> distribute v before row = (before, Some TypeError)).
Proof.
  intros I PL P N H NE NX NY D DT LO. destruct (init_ok _ _ _ _ _ I) as (xy' & PL' & CC & PP & TT & RR & XY & MZ & US). cbn in RR. assert (VS : v_stations v = t_index t) by congruence.
  assert (xy' = xy) as -> by (unfold place in PL'; destruct PL as [Q | (Q & Q')]; rewrite Q in PL'; [|rewrite Q' in PL']; congruence).
  set (used := fun s => if c_grid_mask c then station_mask (p_mask p) (p_xs p) (p_ys p) (xy s) else true) in *. exists used. split.
  { intros s. unfold used. destruct (c_grid_mask c); [|reflexivity]. exists (argmin (snd (xy s)) (p_ys p)), (argmin (fst (xy s)) (p_xs p)).
    split; [now apply argmin_spec|]. split; [now apply argmin_spec | reflexivity]. }
  destruct (gr_map row (fun s => Some (y s)) _ N H) as (A & E).
  assert (NZ : exists s, In s (t_index t) /\ Some (y s) <> None) by (destruct (t_index t) as [|s l]; [congruence|]; exists s; split; [now left | discriminate]).
  assert (GD : interpolate v row = grid_mask fit griddata v (map (fun s => Some (y s)) (t_index t))).
  { unfold DistModel.interpolate. rewrite VS, pick_ok by exact A. cbn [bind]. rewrite count_all, E, (some_reading _ _ NZ), CC, D, DT, LO. reflexivity. }
  unfold DistModel.distribute. rewrite GD, CC. unfold grid_mask. rewrite US, MZ, XY, VS, CC, PP.
  assert (SE : select (map used (t_index t)) (map (fun s => Some (y s)) (t_index t)) = map Some (select (map used (t_index t)) (map y (t_index t)))).
  { rewrite <- (map_map y Some). apply select_map. }
  assert (SN := select_nil (map used (t_index t)) (map y (t_index t))). rewrite !map_length in SN. specialize (SN eq_refl). rewrite SE. split.
  - intros (s & IS & U). destruct (select (map used (t_index t)) (map y (t_index t))) as [|a l] eqn:SL.
    { exfalso. apply (proj1 SN eq_refl). apply in_map_iff. eauto. }
    assert (FB : forallb (fun q => negb (isnull q)) (map Some (a :: l)) = true) by (apply forallb_forall; intros q Q; apply in_map_iff in Q; destruct Q as (? & <- & _); reflexivity).
    rewrite FB. cbn [map]. eexists. split; [reflexivity|].
    rewrite <- (map_map y Some), combine_map_r, select_map, map_map. cbn [fst snd num].
    replace (map (fun q : R * R => (fst q, snd q)) (select (map used (t_index t)) (combine (map (t_elev t) (t_index t)) (map y (t_index t)))))
      with (select (map used (t_index t)) (combine (map (t_elev t) (t_index t)) (map y (t_index t)))) by (symmetry; rewrite <- map_id; apply map_ext; intros []; reflexivity).
    unfold detrended_grid. cbv zeta. rewrite (map2_map_r _ Some), map_map2. cbn [rlift]. now apply cut_map.
  - intros U. rewrite (proj2 SN); [reflexivity|]. intros Q. apply in_map_iff in Q. destruct Q as (s & Q & IS). rewrite (U s IS) in Q. discriminate Q.
Qed.

(** Gridded data with local trends, all readings present (C28 for the grid itself).  The method nearest, one of the
    three options, fails in every step. *)
Theorem C91_local_trend (c : config) (p : topo) (t : table) (v : variable) (xy : nat -> R * R) (row : list (nat * rnum)) (y : nat -> R) (before : option (list fl)) :
  initialize c None p t = Ok v -> t_utm t = Some xy -> proper (c_min c) (c_max c) ->
  one_each row -> (forall s, In s (t_index t) -> In (s, Some (y s)) row) -> t_index t <> [] ->
  (forall l i j, (i < length l)%nat -> In j (near l i) -> (j < length l)%nat) ->
  (forall l i, (i < length l)%nat -> near l i <> []) ->
  c_distribution c = Some "grid" -> c_detrend c = true -> c_grid_local c = true ->
  (c_method c <> Nearest ->
     exists g, distribute v before row = (Some g, None) /\
       Forall2 (fun x z => match x with Some a => exists b, z = F b /\ limited (c_min c) (c_max c) a b | None => z = Nan end)
         (detrended_local fit (interp (c_method c) (map xy (t_index t))) (c_slope c) (near (t_index t)) (length (t_index t))
            (fun i => nth i (map (t_elev t) (t_index t)) 0) (fun i => nth i (map y (t_index t)) 0) (p_gz p)) g) /\
  (c_method c = Nearest -> distribute v before row = (before, Some TypeError)).
Proof.
  intros I U P N H NE NR NN D DT LO. destruct (init_ok _ _ _ _ _ I) as (xy' & PL' & CC & PP & TT & RR & XY & MZ & US). cbn in RR. assert (VS : v_stations v = t_index t) by congruence.
  destruct (gr_map row (fun s => Some (y s)) _ N H) as (A & E).
  assert (NZ : exists s, In s (t_index t) /\ Some (y s) <> None) by (destruct (t_index t) as [|s l]; [congruence|]; exists s; split; [now left | discriminate]).
  assert (GD : interpolate v row = grid_local fit interp near v (map (fun s => Some (y s)) (t_index t))).
  { unfold DistModel.interpolate. rewrite VS, pick_ok by exact A. cbn [bind]. rewrite count_all, E, (some_reading _ _ NZ), CC, D, DT, LO. reflexivity. }
  unfold DistModel.distribute. rewrite GD, CC. unfold grid_local. rewrite MZ, VS, CC, PP, TT, U.
  assert (VA : forall j, (j < length (t_index t))%nat -> value (map (fun s => Some (y s)) (t_index t)) j = Some (nth j (map y (t_index t)) 0)).
  { intros j J. unfold value. rewrite <- (map_map y Some). rewrite (nth_indep _ None (Some 0)) by now rewrite !map_length. apply map_nth. }
  replace (forallb _ (seq 0 (length (t_index t)))) with true.
  2:{ symmetry. apply forallb_forall. intros i Hi. apply in_seq in Hi. apply forallb_forall. intros j Hj. rewrite VA; [reflexivity|]. apply (NR (t_index t) i); [lia | exact Hj]. }
  split.
  - intros M. replace (detrended_local fit (interp (c_method c) (map xy (t_index t))) (c_slope c) (near (t_index t)) (length (t_index t))
       (fun i => nth i (map (t_elev t) (t_index t)) 0) (fun i => nth i (map y (t_index t)) 0) (p_gz p))
      with (detrended_local fit (interp (c_method c) (map xy (t_index t))) (c_slope c) (near (t_index t)) (length (t_index t))
       (fun i => nth i (map (t_elev t) (t_index t)) 0) (fun j => num (value (map (fun s => Some (y s)) (t_index t)) j)) (p_gz p)).
    + assert (F2 : forall h, Forall2 (fun x z => match x with Some a => exists b, z = F b /\ limited (c_min c) (c_max c) a b | None => z = Nan end) h (map (limit (c_min c) (c_max c)) (map to_fl h))).
      { induction h as [|[a|] h IH]; cbn [map]; constructor; try exact IH; cbn [to_fl]; [now apply limit_real|]. unfold limit. destruct (c_min c), (c_max c); reflexivity. }
      destruct (c_method c); [congruence| |]; (eexists; split; [reflexivity | apply F2]).
    + apply local_ext; intros i HI; (split; [now apply NN|]); intros j HJ; rewrite VA; try reflexivity; now apply (NR (t_index t) i).
  - intros ->. reflexivity.
Qed.

(** Kriging: the places of the stations that report, with their readings, or with what remains of them above the
    line fitted to their elevations, which is added back. *)
Theorem C91_kriging (c : config) (p : topo) (t : table) (v : variable) (xy : nat -> R * R) (row : list (nat * rnum)) (before : option (list fl)) r rz :
  initialize c None p t = Ok v -> (t_utm t = Some xy \/ (t_utm t = None /\ t_old t = Some xy)) -> proper (c_min c) (c_max c) ->
  c_distribution c = Some "kriging" -> one_each row -> listed xy row (t_index t) r -> listed (t_elev t) row (t_index t) rz -> r <> [] ->
  exists g, distribute v before row = (Some g, None) /\
    (c_detrend c = false -> Forall2 (cut (c_min c) (c_max c)) (map F (ok (map fst r) (map snd r))) g) /\
    (c_detrend c = true ->
       Forall2 (cut (c_min c) (c_max c))
         (map2 (fun a z => F (a + on_line (fit rz) z)) (ok (map fst r) (map (fun q => snd q - on_line (fit rz) (fst q)) rz)) (p_gz p)) g).
Proof.
  intros I PL P D N L LZ NE. destruct (init_ok _ _ _ _ _ I) as (xy' & PL' & CC & PP & TT & RR & XY & MZ & _). cbn in RR. assert (VS : v_stations v = t_index t) by congruence.
  assert (xy' = xy) as -> by (unfold place in PL'; destruct PL as [Q | (Q & Q')]; rewrite Q in PL'; [|rewrite Q' in PL']; congruence).
  destruct (listed_reps xy row N _ _ L) as (A & RE). destruct (listed_reps (t_elev t) row N _ _ LZ) as (_ & RZ).
  unfold DistModel.distribute, DistModel.interpolate. rewrite VS, pick_ok by exact A. cbn [bind]. rewrite count_all.
  destruct (forallb isnull (map (gr row) (t_index t))) eqn:Z; [apply reps_nil in Z; rewrite Z in RE; destruct (NE RE)|].
  rewrite CC, D, PP, XY, MZ, VS. cbn [String.eqb Ascii.eqb Bool.eqb]. eexists. split; [reflexivity|]. split; intros ->.
  - rewrite reported_reps, <- RE. now apply cut_map.
  - unfold krige_calculate, trend. rewrite reported_reps, detrended_map, reported_reps, reps_detrended, <- RZ. cbn [constrain]. rewrite map_map2.
    replace (map2 (fun a z => F (a + on_line (fit rz) z)) (ok (map fst r) (map (fun q => snd q - on_line (fit rz) (fst q)) rz)) (p_gz p))
      with (map2 (fun x y => F (x + fst (fit rz) * y + snd (fit rz))) (ok (map fst r) (map (fun q => snd q - on_line (fit rz) (fst q)) rz)) (p_gz p)).
    2:{ generalize (ok (map fst r) (map (fun q => snd q - on_line (fit rz) (fst q)) rz)) (p_gz p). unfold on_line.
        induction l as [|a l IH]; intros [|b m]; try reflexivity. cbn [map2]. rewrite IH. do 2 f_equal. ring. }
    rewrite !map_map. cbn [fst snd].
    replace (ok (map (fun x => xy (fst x)) (reps (gr row) (t_index t))) (map (fun x => snd x - (t_elev t (fst x) * fst (fit rz) + snd (fit rz))) (reps (gr row) (t_index t))))
      with (ok (map fst r) (map (fun q => snd q - on_line (fit rz) (fst q)) rz)); [now apply cut_map|].
    f_equal; [rewrite RE, map_map; reflexivity|]. generalize (fit rz). intros ln. rewrite RZ, map_map. cbn [fst snd]. apply map_ext. intros q. unfold on_line. ring.
Qed.

(** Inverse distances end to end: a cell away from the stations that report holds the weighted mean of their
    readings, limited.  [r]: places and readings of the stations that report. *)
Theorem C91_idw (c : config) (p : topo) (t : table) (v : variable) (xy : nat -> R * R) (row : list (nat * rnum)) (before : option (list fl)) r :
  initialize c None p t = Ok v -> c_distribution c = Some "idw" -> c_detrend c = false -> 0 < c_power c ->
  (t_utm t = Some xy \/ (t_utm t = None /\ t_old t = Some xy)) ->
  proper (c_min c) (c_max c) -> one_each row -> listed xy row (t_index t) r -> r <> [] ->
  exists g, distribute v before row = (Some g, None) /\ length g = length (p_cells p) /\
    forall i, (i < length (p_cells p))%nat ->
      let cell := nth i (p_cells p) (0, 0) in
      (forall x, In x r -> fst x <> cell) ->
      exists w, nth i g Nan = F w /\ limited (c_min c) (c_max c) (inverse_distance (c_power c) r cell) w.
Proof.
  intros I D DT PW PL P N L NE. destruct (init_ok _ _ _ _ _ I) as (xy' & PL' & CC & PP & TT & RR & XY & MZ & _). cbn in RR. assert (VS : v_stations v = t_index t) by congruence.
  assert (xy' = xy) as -> by (unfold place in PL'; destruct PL as [Q | (Q & Q')]; rewrite Q in PL'; [|rewrite Q' in PL']; congruence).
  destruct (listed_reps xy row N _ _ L) as (A & RE).
  assert (E : interpolate v row = Ok (idw_of fit c p xy (t_elev t) (reps (gr row) (t_index t)))).
  { unfold DistModel.interpolate. rewrite VS, pick_ok by exact A. cbn [bind]. rewrite count_all.
    destruct (forallb isnull (map (gr row) (t_index t))) eqn:Z; [apply reps_nil in Z; rewrite Z in RE; destruct (NE RE)|].
    rewrite CC, D, PP, XY, MZ, VS. cbn [String.eqb Ascii.eqb Bool.eqb]. f_equal. apply idw_eq. }
  unfold DistModel.distribute. rewrite E, CC. eexists. split; [reflexivity|]. unfold idw_of. rewrite DT, <- RE. rewrite !map_length. split; [reflexivity|].
  intros i HI AW. set (cell := nth i (p_cells p) (0, 0)) in *. destruct (limit_real (c_min c) (c_max c) (inverse_distance (c_power c) r cell) P) as (w & LW & LI). exists w. split; [|exact LI].
  rewrite map_map. rewrite (nth_indep _ Nan (limit (c_min c) (c_max c) (cell_value (c_power c) r (0, 0)))) by now rewrite map_length.
  rewrite (map_nth (fun u => limit (c_min c) (c_max c) (cell_value (c_power c) r u))). fold cell. rewrite cell_away by assumption. exact LW.
Qed.

(** The order of the stations in the table does not matter to inverse distances, detrended or not, if it does
    not matter to the fitted line. *)
Theorem C91_station_order (c : config) (p : topo) (t t' : table) (v v' : variable) (row : list (nat * rnum)) (before : option (list fl)) :
  initialize c None p t = Ok v -> initialize c None p t' = Ok v' -> c_distribution c = Some "idw" ->
  (forall a b, Permutation a b -> fit a = fit b) ->
  t_utm t' = t_utm t -> t_old t' = t_old t -> t_elev t' = t_elev t -> Permutation (t_index t) (t_index t') ->
  distribute v' before row = distribute v before row.
Proof.
  intros I I' D FI U O Z PM.
  destruct (init_ok _ _ _ _ _ I) as (xy & PL & CC & PP & TT & RR & XY & MZ & _). cbn in RR. assert (VS : v_stations v = t_index t) by congruence.
  destruct (init_ok _ _ _ _ _ I') as (xy' & PL' & CC' & PP' & TT' & RR' & XY' & MZ' & _). cbn in RR'. assert (VS' : v_stations v' = t_index t') by congruence.
  assert (xy' = xy) as -> by (unfold place in *; rewrite U, O in PL'; congruence).
  unfold DistModel.distribute. rewrite CC, CC'.
  assert (E : interpolate v' row = interpolate v row); [|now rewrite E].
  unfold DistModel.interpolate. rewrite VS, VS'. destruct (pick_cases row (t_index t)) as [(s & IS & G)|A].
  - rewrite !pick_err; [reflexivity| |]; exists s; split; auto. now apply (Permutation_in _ PM).
  - assert (A' : forall s, In s (t_index t') -> get row s <> None) by (intros s IS; apply A; now apply (Permutation_in _ (Permutation_sym PM))).
    rewrite !pick_ok by assumption. cbn [bind]. rewrite !count_all.
    assert (F1 : forallb isnull (map (gr row) (t_index t')) = forallb isnull (map (gr row) (t_index t))).
    { apply eq_true_iff_eq. rewrite <- !reps_nil. pose proof (reps_perm (gr row) _ _ PM) as Q. split; intros H; rewrite H in Q; [apply Permutation_sym, Permutation_nil in Q | apply Permutation_nil in Q]; exact Q. }
    rewrite F1. destruct (forallb isnull (map (gr row) (t_index t))); [reflexivity|]. rewrite CC, CC', D, PP, PP', XY, XY', MZ, MZ', VS, VS', Z. cbn [String.eqb Ascii.eqb Bool.eqb]. rewrite !idw_eq.
    f_equal. apply idw_of_perm; [exact FI|]. now apply Permutation_sym, reps_perm.
Qed.

(** A station without a reading might as well not be in the table: inverse distances and kriging. *)
Theorem C91_missing_ignored (c : config) (p : topo) (t t' : table) (v v' : variable) (row : list (nat * rnum)) (before : option (list fl)) :
  initialize c None p t = Ok v -> initialize c None p t' = Ok v' -> c_distribution c = Some "idw" \/ c_distribution c = Some "kriging" ->
  t_utm t' = t_utm t -> t_old t' = t_old t -> t_elev t' = t_elev t -> t_index t' = filter (reports row) (t_index t) ->
  one_each row -> (forall s, In s (t_index t) -> exists x, In (s, x) row) -> (exists s x, In s (t_index t) /\ In (s, Some x) row) ->
  distribute v' before row = distribute v before row.
Proof.
  intros I I' D U O Z FL N H (s & x & IS & SX).
  destruct (init_ok _ _ _ _ _ I) as (xy & PL & CC & PP & TT & RR & XY & MZ & _). cbn in RR. assert (VS : v_stations v = t_index t) by congruence.
  destruct (init_ok _ _ _ _ _ I') as (xy' & PL' & CC' & PP' & TT' & RR' & XY' & MZ' & _). cbn in RR'. assert (VS' : v_stations v' = t_index t') by congruence.
  assert (xy' = xy) as -> by (unfold place in *; rewrite U, O in PL'; congruence).
  unfold DistModel.distribute. rewrite CC, CC'.
  assert (E : interpolate v' row = interpolate v row); [|now rewrite E].
  assert (A : forall u, In u (t_index t) -> get row u <> None) by (intros u IU; destruct (H u IU) as (y & Y); rewrite (proj2 (get_in row u y N) Y); discriminate).
  assert (A' : forall u, In u (t_index t') -> get row u <> None) by (intros u IU; rewrite FL in IU; apply filter_In in IU; now apply A).
  assert (RP : reps (gr row) (t_index t') = reps (gr row) (t_index t)) by (rewrite FL; now apply reps_filter).
  unfold DistModel.interpolate. rewrite VS, VS', !pick_ok by assumption. cbn [bind]. rewrite !count_all.
  assert (F1 : forallb isnull (map (gr row) (t_index t')) = forallb isnull (map (gr row) (t_index t))).
  { apply eq_true_iff_eq. rewrite <- !reps_nil, RP. tauto. }
  rewrite F1. destruct (forallb isnull (map (gr row) (t_index t))); [reflexivity|]. rewrite CC, CC', PP, PP', XY, XY', MZ, MZ', VS, VS', Z.
  destruct D as [-> | ->]; cbn [String.eqb Ascii.eqb Bool.eqb].
  - rewrite !idw_eq, RP. reflexivity.
  - f_equal. f_equal. unfold krige_calculate, trend. rewrite !reported_reps, !detrended_map, !reported_reps, !reps_detrended, RP. reflexivity.
Qed.
End Any.
Print Assumptions C91_own_readings. Print Assumptions C91_failures. Print Assumptions C91_limits.
Print Assumptions C91_dk_grid. Print Assumptions C91_local_trend. Print Assumptions C91_grid_trend. Print Assumptions C91_kriging.
Print Assumptions C91_idw. Print Assumptions C91_station_order. Print Assumptions C91_missing_ignored.

(** A table of two stations and a grid of one cell. *)
Definition ex_xy (s : nat) : R * R := if Nat.eqb s 7 then (0, 0) else (2, 0).
Definition ex_table (l : list nat) : table := mk_table l (Some ex_xy) None (fun s => if Nat.eqb s 7 then 0 else 10).
Definition old_table (l : list nat) : table := mk_table l None (Some ex_xy) (fun s => if Nat.eqb s 7 then 0 else 10).
Definition ex_topo : topo := mk_topo [(1, 0)] [5] [0; 1; 2] [0] (fun _ _ => true).
Definition ex_config (d : string) (local detrend : bool) : config := mk_config (Some d) detrend Any 2 local false Linear (Some 0) (Some 4).

(** Not so for gridded data with a trend: one missing value ends the run, whatever the line fit and the
    interpolator; without that station in the table it goes on. *)
Theorem C91_missing_grid_refuted (fit : list (R * R) -> R * R) dk griddata interp near ok :
  exists v v' row g, initialize (ex_config "grid" false true) None ex_topo (ex_table [7; 3]%nat) = Ok v /\
    initialize (ex_config "grid" false true) None ex_topo (ex_table [7]%nat) = Ok v' /\
    one_each row /\ (t_index (ex_table [7]%nat)) = filter (reports row) (t_index (ex_table [7; 3]%nat)) /\
    distribute fit dk griddata interp near ok v None row = (None, Some LinAlgError) /\
    distribute fit dk griddata interp near ok v' None row = (Some g, None).
Proof.
  eexists _, _, [(3%nat, None); (7%nat, Some 1)], _. split; [reflexivity|]. split; [reflexivity|]. split; [|split; [reflexivity|split; reflexivity]].
  unfold one_each. repeat constructor; cbn; intuition discriminate.
Qed.
Print Assumptions C91_missing_grid_refuted.

(** The old names of the coordinates are accepted at the start, but gridded data with local trends need the new
    ones: the first step with all the readings fails. *)
Theorem C91_old_names_refuted (fit : list (R * R) -> R * R) dk griddata interp near ok (c : config) (p : topo) (t : table)
  (row : list (nat * rnum)) (before : option (list fl)) :
  c_distribution c = Some "grid" -> c_detrend c = true -> c_grid_local c = true -> t_utm t = None -> t_old t <> None ->
  t_index t <> [] -> (forall l i j, (i < length l)%nat -> In j (near l i) -> (j < length l)%nat) ->
  one_each row -> (forall s, In s (t_index t) -> exists x, In (s, Some x) row) ->
  exists v, initialize c None p t = Ok v /\ distribute fit dk griddata interp near ok v before row = (before, Some AttributeError).
Proof.
  intros D DT LO U O NE NR N H. destruct (proj2 (proj1 (C91_initialize c p t))) as (w & I).
  { split; [now right|]. intros d E. rewrite D in E. injection E as <-. cbn. tauto. }
  exists w. split; [exact I|]. destruct (init_ok _ _ _ _ _ I) as (xy & PL & CC & PP & TT & RR & XY & MZ & _). cbn in RR. assert (VS : v_stations w = t_index t) by congruence.
  assert (G : forall s, In s (t_index t) -> exists x, get row s = Some (Some x)) by (intros s IS; destruct (H s IS) as (x & X); exists x; now apply (get_in row s _ N)).
  unfold distribute, interpolate. rewrite VS, pick_ok by (intros s IS; destruct (G s IS) as (x & ->); discriminate). cbn [bind]. rewrite count_all.
  assert (NZ : forall u, In u (map (gr row) (t_index t)) -> isnull u = false).
  { intros u IU. apply in_map_iff in IU. destruct IU as (s & <- & IS). unfold gr. destruct (G s IS) as (x & ->). reflexivity. }
  destruct (forallb isnull (map (gr row) (t_index t))) eqn:Z.
  { exfalso. destruct (t_index t) as [|s l]; [congruence|]. cbn [map forallb] in Z. rewrite (NZ (gr row s)) in Z by now left. discriminate Z. }
  rewrite CC, D, DT, LO. cbn [String.eqb Ascii.eqb Bool.eqb]. unfold grid_local. rewrite VS, TT, U.
  replace (forallb _ (seq 0 (length (t_index t)))) with true; [reflexivity|]. symmetry. apply forallb_forall. intros i Hi. apply in_seq in Hi.
  apply forallb_forall. intros j Hj. unfold value. rewrite NZ; [reflexivity|]. apply nth_In. rewrite map_length. apply (NR (t_index t) i); [lia | exact Hj].
Qed.
Print Assumptions C91_old_names_refuted.
Example C91_old_names_case fit dk griddata interp ok : exists v,
  initialize (ex_config "grid" true true) None ex_topo (old_table [7; 3]%nat) = Ok v /\
  distribute fit dk griddata interp (fun _ i => [i]) ok v None [(7%nat, Some 1); (3%nat, Some 2)] = (None, Some AttributeError).
Proof.
  apply (C91_old_names_refuted fit dk griddata interp (fun _ i => [i]) ok); try reflexivity; try discriminate.
  - intros l i j H [<-|[]]. exact H.
  - unfold one_each. repeat constructor; cbn; intuition discriminate.
  - cbn. intros s [<-|[<-|[]]]; eauto.
Qed.

(** Stations 7 and 3 at equal distance of the cell: the mean of 1 and 5, and 4 where the mean is above the limit;
    a station that is not in the table changes nothing. *)
Example C91_ex fit dk griddata interp near ok : exists v, initialize (ex_config "idw" false false) None ex_topo (ex_table [7; 3]%nat) = Ok v /\
  (exists g, distribute fit dk griddata interp near ok v None [(3%nat, Some 5); (9%nat, None); (7%nat, Some 1)] = (Some g, None) /\ nth 0 g Nan = F 3) /\
  (exists g, distribute fit dk griddata interp near ok v None [(3%nat, Some 9); (7%nat, Some 1)] = (Some g, None) /\ nth 0 g Nan = F 4).
Proof.
  assert (A : forall row x y, one_each row -> In (7%nat, Some x) row -> In (3%nat, Some y) row ->
    exists g, (exists v, initialize (ex_config "idw" false false) None ex_topo (ex_table [7; 3]%nat) = Ok v /\ distribute fit dk griddata interp near ok v None row = (Some g, None)) /\
      exists w, nth 0 g Nan = F w /\ limited (Some 0) (Some 4) ((x + y) / 2) w).
  { intros row x y N I7 I3. destruct (initialize (ex_config "idw" false false) None ex_topo (ex_table [7; 3]%nat)) as [v|e] eqn:I; [|discriminate I].
    destruct (C91_idw fit dk griddata interp near ok _ _ _ v ex_xy row None [((0, 0), x); ((2, 0), y)] I) as (g & E & _ & C); try reflexivity.
    - cbn. lra.
    - left. reflexivity.
    - cbn. lra.
    - exact N.
    - apply (listed_number ex_xy row 7 x [3%nat] [((2, 0), y)] I7). apply (listed_number ex_xy row 3 y [] [] I3). constructor.
    - discriminate.
    - exists g. split; [eauto|]. destruct (C 0%nat) as (w & W & L); [cbn; lia | |].
      + cbn. intros q [<-|[<-|[]]]; cbn; intros [= Q]; lra.
      + exists w. split; [exact W|]. replace ((x + y) / 2) with (inverse_distance 2 [((0, 0), x); ((2, 0), y)] (1, 0)); [exact L|].
        unfold inverse_distance, dist. cbn. replace ((1 - 0) * (1 - 0) + (0 - 0) * (0 - 0)) with 1 by ring. replace ((1 - 2) * (1 - 2) + (0 - 0) * (0 - 0)) with 1 by ring.
        rewrite sqrt_1. unfold Rpower. rewrite ln_1, Rmult_0_r, exp_0. field. }
  assert (N1 : one_each [(3%nat, Some 5); (9%nat, None); (7%nat, Some 1)]) by (unfold one_each; repeat constructor; cbn; intuition discriminate).
  assert (N2 : one_each [(3%nat, Some 9); (7%nat, Some 1)]) by (unfold one_each; repeat constructor; cbn; intuition discriminate).
  destruct (A _ 1 5 N1) as (g1 & (v & I & E1) & w1 & W1 & L1); [cbn; auto | cbn; auto |].
  destruct (A _ 1 9 N2) as (g2 & (v' & I' & E2) & w2 & W2 & L2); [cbn; auto | cbn; auto |].
  assert (v' = v) as -> by congruence.
  exists v. split; [exact I|]. split; [exists g1 | exists g2]; (split; [assumption|]).
  - rewrite W1. destruct L1 as (_ & _ & Q & _). cbn in Q. f_equal. rewrite Q; lra.
  - rewrite W2. destruct L2 as (_ & _ & _ & _ & Q). cbn in Q. assert (Some 4 = Some w2) by (apply Q; lra). congruence.
Qed.

Example C91_ex_named : (exists v, initialize (ex_config "idw" false false) (Some [3]%nat) ex_topo (ex_table [7; 3]%nat) = Ok v /\ v_stations v = [3]%nat) /\
  initialize (ex_config "idw" false false) (Some [3; 9]%nat) ex_topo (ex_table [7; 3]%nat) = Err KeyError.
Proof. split; [eexists; split; reflexivity|reflexivity]. Qed.
