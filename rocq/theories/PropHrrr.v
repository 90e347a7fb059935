(** Property C95: the tables made of HRRR data. *)
From Coq Require Import Reals List Bool ZArith Arith Lia Lra.
From Verif Require Import RNum WinsModel SatModel SatSpec SatProofs GridWindModel PropGridWind SolarModel SolarSpec PropSolar HrrrModel HrrrSpec HrrrProofs.
Import ListNotations.
Local Open Scope nat_scope.

(** When the data are accepted. *)
Theorem C95_accepted {E} (numeric : E -> option rnum) zone solar lw data :
  (exists ts, parse_data E numeric zone solar lw data = Ok ts) <->
  (forall k f, data k = Some f -> readable numeric zone f) /\
  exists air rh p s, data AirTemp = Some air /\ data Humidity = Some rh /\ data PrecipInt = Some p /\ data ShortWave = Some s /\
    0 < rows rh /\ 0 < width rh /\ (rows rh = rows air \/ rows rh = 1) /\ (width rh = width air \/ width rh = 1) /\
    forall air' p' s', read_as numeric zone air air' -> read_as numeric zone p p' -> read_as numeric zone s s' ->
      can_follow p' air' /\ can_follow s' air' /\
      (lw = true -> exists u v, data WindU = Some u /\ data WindV = Some v /\
         forall u' v', read_as numeric zone u u' -> read_as numeric zone v v' -> labels_of u' v' /\ can_follow u' air').
Proof.
  assert (LEN : forall f g, read_as numeric zone f g -> rows g = rows f /\ width g = width f).
  { intros f g (A & B & _). unfold rows, width. rewrite A. split; [symmetry; exact (all2_length _ _ _ B)|reflexivity]. }
  assert (UNI : forall f g g', read_as numeric zone f g -> read_as numeric zone f g' -> labels_of g g').
  { intros f g g' (A & B & _) (A' & B' & _). split; [|congruence]. clear - B B'. revert B'. generalize (f_index g').
    induction B as [|w t l l' X B IH]; intros m M; inversion M; subst; [reflexivity|]. f_equal; [congruence|]. now apply IH. }
  unfold parse_data. split.
  - intros (T & H). apply bind_ok in H. destruct H as (ts & C & H).
    assert (RD := proj1 (convert_all_ok E numeric zone data keys) (ex_intro _ _ C)).
    split; [intros k f; apply RD, keys_all|].
    apply bind_ok in H. destruct H as (air & A & H). apply bind_ok in H. destruct H as (rh & Hh & H). apply bind_ok in H. destruct H as (vp & V & H).
    apply bind_ok in H. destruct H as (w & W & H). apply bind_ok in H. destruct H as (p & P & H). apply bind_ok in H. destruct H as (p2 & P2 & H).
    apply bind_ok in H. destruct H as (s & S & H). apply bind_ok in H. destruct H as (s2 & S2 & _).
    destruct (get_reads _ _ _ _ _ _ _ C A) as (fa & DA & RA). destruct (get_reads _ _ _ _ _ _ _ C Hh) as (fh & DH & RH).
    destruct (get_reads _ _ _ _ _ _ _ C P) as (fp & DP & RP). destruct (get_reads _ _ _ _ _ _ _ C S) as (fs & DS & RS).
    exists fa, fh, fp, fs. do 4 (split; [assumption|]).
    destruct (LEN _ _ RA) as (<- & <-). destruct (LEN _ _ RH) as (<- & <-).
    destruct (proj1 (vapor_ok air rh) (ex_intro _ _ V)) as (V1 & V2 & V3 & V4). do 4 (split; [assumption|]).
    intros air' p' s' RA' RP' RS'. destruct (UNI _ _ _ RA RA') as (IA & CA). destruct (UNI _ _ _ RP RP') as (IP & CP). destruct (UNI _ _ _ RS RS') as (IS & CS).
    unfold can_follow. rewrite <- IA, <- CA, <- IP, <- CP, <- IS, <- CS.
    split; [apply reindex_ok; eauto|]. split; [apply reindex_ok; eauto|]. intros ->. unfold calculate_wind in W.
    apply bind_ok in W. destruct W as (u & U & W). apply bind_ok in W. destruct W as (v & Vv & W).
    destruct (get_reads _ _ _ _ _ _ _ C U) as (fu & DU & RU). destruct (get_reads _ _ _ _ _ _ _ C Vv) as (fv & DV & RV).
    exists fu, fv. split; [exact DU|]. split; [exact DV|]. intros u' v' RU' RV'. destruct (same_labels u v) eqn:SL; [|discriminate].
    apply same_labels_spec in SL. destruct (UNI _ _ _ RU RU') as (IU & CU). destruct (UNI _ _ _ RV RV') as (IV & CV).
    apply bind_ok in W. destruct W as (sp & SP & _). split; [destruct SL; split; congruence|].
    rewrite <- IU, <- CU. exact (proj1 (reindex_ok _ _ _) (ex_intro _ _ SP)).
  - intros (RD & fa & fh & fp & fs & DA & DH & DP & DS & V1 & V2 & V3 & V4 & F).
    destruct (proj2 (convert_all_ok E numeric zone data keys)) as (ts & C); [intros k f _; apply RD|]. rewrite C. cbn [bind].
    destruct (get_some _ _ _ _ _ _ _ C DA) as (air & A & RA). destruct (get_some _ _ _ _ _ _ _ C DH) as (rh & Hh & RH).
    destruct (get_some _ _ _ _ _ _ _ C DP) as (p & P & RP). destruct (get_some _ _ _ _ _ _ _ C DS) as (s & S & RS).
    destruct (F air p s RA RP RS) as (F1 & F2 & F3). rewrite A, Hh, P, S. cbn [bind].
    destruct (LEN _ _ RA) as (LA1 & LA2). destruct (LEN _ _ RH) as (LH1 & LH2).
    destruct (proj2 (vapor_ok air rh)) as (vp & ->); [rewrite LA1, LA2, LH1, LH2; auto|]. cbn [bind].
    assert (W : exists w, calculate_wind lw ts air = Ok w).
    { unfold calculate_wind. destruct lw; [|eauto]. destruct (F3 eq_refl) as (fu & fv & DU & DV & G).
      destruct (get_some _ _ _ _ _ _ _ C DU) as (u & U & RU). destruct (get_some _ _ _ _ _ _ _ C DV) as (v & Vv & RV). destruct (G u v RU RV) as (L & FU).
      rewrite U, Vv. cbn [bind]. rewrite (proj2 (same_labels_spec u v) L).
      edestruct (proj2 (reindex_ok (mkFrame (f_index u) (f_cols u) (fun i j => rlift2 grid_speed (f_cell u i j) (f_cell v i j))) (f_index air) (f_cols air))) as (sp & ->); [exact FU|].
      edestruct (proj2 (reindex_ok (mkFrame (f_index u) (f_cols u) (fun i j => rlift2 grid_direction (f_cell u i j) (f_cell v i j))) (f_index air) (f_cols air))) as (d & ->); [exact FU|].
      cbn [bind]. eauto. }
    destruct W as (w & ->). cbn [bind]. destruct (proj2 (reindex_ok p (f_index air) (f_cols air)) F1) as (p2 & ->).
    destruct (proj2 (reindex_ok s (f_index air) (f_cols air)) F2) as (s2 & ->). cbn [bind]. eauto.
Qed.
Print Assumptions C95_accepted.

(** An entry that is no number or a time that the zone does not have refuses the data, in whatever table. *)
Theorem C95_unreadable {E} (numeric : E -> option rnum) zone solar lw data k f :
  data k = Some f -> ~ readable numeric zone f -> parse_data E numeric zone solar lw data = Err ValueError.
Proof. intros D N. unfold parse_data. rewrite (convert_all_fails E numeric zone data keys k f (keys_all k) D N). reflexivity. Qed.
Print Assumptions C95_unreadable.

(** All tables have the times and the pixels of the air temperature, which is the library's.  The precipitation of a
    time and a pixel is the library's for them. *)
Theorem C95_tables {E} (numeric : E -> option rnum) zone solar lw data T :
  parse_data E numeric zone solar lw data = Ok T ->
  exists air p p', data AirTemp = Some air /\ read_as numeric zone air (t_air T) /\
    data PrecipInt = Some p /\ read_as numeric zone p p' /\
    (forall t c x, reads (t_precip T) t c x -> seen_at p' t c x) /\
    labels_of (t_vapor T) (t_air T) /\ labels_of (t_speed T) (t_air T) /\ labels_of (t_direction T) (t_air T) /\
    labels_of (t_precip T) (t_air T) /\ labels_of (t_cloud T) (t_air T).
Proof.
  unfold parse_data. intros H. apply bind_ok in H. destruct H as (ts & C & H).
  apply bind_ok in H. destruct H as (air & A & H). apply bind_ok in H. destruct H as (rh & Hh & H). apply bind_ok in H. destruct H as (vp & V & H).
  apply bind_ok in H. destruct H as (w & W & H). apply bind_ok in H. destruct H as (p & P & H). apply bind_ok in H. destruct H as (p2 & P2 & H).
  apply bind_ok in H. destruct H as (s & S & H). apply bind_ok in H. destruct H as (s2 & S2 & H). injection H as <-. cbn [t_air t_vapor t_speed t_direction t_precip t_cloud].
  destruct (get_reads _ _ _ _ _ _ _ C A) as (fa & DA & RA). destruct (get_reads _ _ _ _ _ _ _ C P) as (fp & DP & RP).
  destruct (reindex_seen _ _ _ _ P2) as (I2 & C2 & G2). destruct (reindex_seen _ _ _ _ S2) as (I3 & C3 & _).
  exists fa, fp, p. do 5 (split; [assumption|]). split; [exact (vapor_labels _ _ _ V)|].
  assert (LW : labels_of (fst w) air /\ labels_of (snd w) air).
  { unfold calculate_wind in W. destruct lw; [|injection W as <-; repeat split].
    apply bind_ok in W. destruct W as (u & U & W). apply bind_ok in W. destruct W as (v & Vv & W). destruct (same_labels u v); [|discriminate].
    apply bind_ok in W. destruct W as (sp & SP & W). apply bind_ok in W. destruct W as (d & D & W). injection W as <-. cbn [fst snd].
    destruct (reindex_seen _ _ _ _ SP) as (? & ? & _). destruct (reindex_seen _ _ _ _ D) as (? & ? & _). repeat split; assumption. }
  split; [apply LW|]. split; [apply LW|]. split; [split; assumption|]. split; assumption.
Qed.
Print Assumptions C95_tables.

(** The vapour pressure of a time and a pixel comes from their temperature and humidity, if the humidities have the
    labels of the temperatures. *)
Theorem C95_vapor {E} (numeric : E -> option rnum) zone solar lw data T :
  parse_data E numeric zone solar lw data = Ok T ->
  exists rh rh', data Humidity = Some rh /\ read_as numeric zone rh rh' /\
    (labels_of rh' (t_air T) -> distinct (t_air T) -> forall t c a r v,
       reads (t_air T) t c a -> reads rh' t c r -> reads (t_vapor T) t c v -> vapor_of a (in_unit_of (f_cell rh' 0 0) r) v).
Proof.
  unfold parse_data. intros H. apply bind_ok in H. destruct H as (ts & C & H).
  apply bind_ok in H. destruct H as (air & A & H). apply bind_ok in H. destruct H as (rh & Hh & H). apply bind_ok in H. destruct H as (vp & V & H).
  destruct (get_reads _ _ _ _ _ _ _ C Hh) as (fh & DH & RH). exists fh, rh. split; [exact DH|]. split; [exact RH|].
  apply bind_ok in H. destruct H as (w & W & H). apply bind_ok in H. destruct H as (p & P & H). apply bind_ok in H. destruct H as (p2 & P2 & H).
  apply bind_ok in H. destruct H as (s & S & H). apply bind_ok in H. destruct H as (s2 & S2 & H). injection H as <-. cbn [t_air t_vapor].
  intros (L1 & L2) (D1 & D2) t c a r v (i & j & I & J & Xa) (i1 & j1 & I1 & J1 & Xr) (i2 & j2 & I2 & J2 & Xv).
  destruct (vapor_labels _ _ _ V) as (K1 & K2). rewrite L1 in I1. rewrite L2 in J1. rewrite K1 in I2. rewrite K2 in J2.
  assert (NI : forall x y, nth_error (f_index air) x = Some t -> nth_error (f_index air) y = Some t -> x = y).
  { intros x y X Y. apply (proj1 (NoDup_nth_error (f_index air)) D1); [apply nth_error_Some; congruence|congruence]. }
  assert (NJ : forall x y, nth_error (f_cols air) x = Some c -> nth_error (f_cols air) y = Some c -> x = y).
  { intros x y X Y. apply (proj1 (NoDup_nth_error (f_cols air)) D2); [apply nth_error_Some; congruence|congruence]. }
  rewrite (NI i1 i I1 I), (NJ j1 j J1 J) in *. rewrite (NI i2 i I2 I), (NJ j2 j J2 J) in *.
  assert (RI : i < rows air) by (apply nth_error_Some; congruence). assert (RJ : j < width air) by (apply nth_error_Some; congruence).
  destruct (vapor_cell air rh vp i j V RI RJ) as (_ & _ & i' & j' & E1 & E2 & G).
  assert (i' = i) as -> by (destruct E1 as [->|(O & ->)]; [reflexivity|]; unfold rows in *; rewrite L1 in O; lia).
  assert (j' = j) as -> by (destruct E2 as [->|(O & ->)]; [reflexivity|]; unfold width in *; rewrite L2 in O; lia).
  subst. exact G.
Qed.
Print Assumptions C95_vapor.

(** Speed and direction of a time and a pixel come from the components for them; without wind they are NaN. *)
Theorem C95_wind {E} (numeric : E -> option rnum) zone solar lw data T :
  parse_data E numeric zone solar lw data = Ok T ->
  (lw = false -> forall t c x, reads (t_speed T) t c x \/ reads (t_direction T) t c x -> x = None) /\
  (lw = true -> exists u u' v v', data WindU = Some u /\ read_as numeric zone u u' /\ data WindV = Some v /\ read_as numeric zone v v' /\
     forall t c,
       (forall x, reads (t_speed T) t c x -> exists a b, seen_at u' t c a /\ seen_at v' t c b /\
          (a = None \/ b = None -> x = None) /\
          forall e n, a = Some e -> b = Some n -> exists s, x = Some s /\ (0 <= s)%R /\ (s * s = e * e + n * n)%R) /\
       (forall x, reads (t_direction T) t c x -> exists a b, seen_at u' t c a /\ seen_at v' t c b /\
          (a = None \/ b = None -> x = None) /\
          forall e n, a = Some e -> b = Some n -> exists d s, x = Some d /\ (0 <= d < 360)%R /\ (0 <= s)%R /\
            e = (s * cos (d * PI / 180))%R /\ n = (s * sin (d * PI / 180))%R)).
Proof.
  unfold parse_data. intros H. apply bind_ok in H. destruct H as (ts & C & H).
  apply bind_ok in H. destruct H as (air & A & H). apply bind_ok in H. destruct H as (rh & Hh & H). apply bind_ok in H. destruct H as (vp & V & H).
  apply bind_ok in H. destruct H as (w & W & H). apply bind_ok in H. destruct H as (p & P & H). apply bind_ok in H. destruct H as (p2 & P2 & H).
  apply bind_ok in H. destruct H as (s & S & H). apply bind_ok in H. destruct H as (s2 & S2 & H). injection H as <-. cbn [t_speed t_direction].
  split.
  - intros ->. cbn in W. injection W as <-. cbn [fst snd]. intros t c x [(i & j & _ & _ & X)|(i & j & _ & _ & X)]; cbn in X; now symmetry.
  - intros ->. unfold calculate_wind in W. apply bind_ok in W. destruct W as (u & U & W). apply bind_ok in W. destruct W as (v & Vv & W).
    destruct (same_labels u v) eqn:SL; [|discriminate]. apply same_labels_spec in SL.
    apply bind_ok in W. destruct W as (sp & SP & W). apply bind_ok in W. destruct W as (d & D & W). injection W as <-. cbn [fst snd].
    destruct (get_reads _ _ _ _ _ _ _ C U) as (fu & DU & RU). destruct (get_reads _ _ _ _ _ _ _ C Vv) as (fv & DV & RV).
    exists fu, u, fv, v. do 4 (split; [assumption|]). intros t c. split.
    + intros x X. apply (reindex_seen _ _ _ _ SP) in X. destruct (both_seen _ _ _ _ _ _ SL X) as (a & b & Ra & Rb & ->). exists a, b.
      split; [exact Ra|]. split; [exact Rb|]. split; [intros [-> | ->]; [reflexivity|destruct a; reflexivity]|].
      intros e n -> ->. exists (grid_speed e n). split; [reflexivity|]. unfold grid_speed. split; [apply sqrt_pos|].
      rewrite sqrt_sqrt; [ring|]. nra.
    + intros x X. apply (reindex_seen _ _ _ _ D) in X. destruct (both_seen _ _ _ _ _ _ SL X) as (a & b & Ra & Rb & ->). exists a, b.
      split; [exact Ra|]. split; [exact Rb|]. split; [intros [-> | ->]; [reflexivity|destruct a; reflexivity]|].
      intros e n -> ->. exists (grid_direction e n), (grid_speed e n). split; [reflexivity|]. split; [apply grid_direction_range|].
      split; [unfold grid_speed; apply sqrt_pos|]. apply grid_direction_polar.
Qed.
Print Assumptions C95_wind.

(** The cloud factor of a pixel is in [0, 1].  For a pixel whose radiation is known at all times it is the ratio
    to the modelled radiation where that is at least 50, interpolated in between and limited. *)
Theorem C95_cloud {E} (numeric : E -> option rnum) zone solar lw data T :
  parse_data E numeric zone solar lw data = Ok T ->
  exists s s', data ShortWave = Some s /\ read_as numeric zone s s' /\
    (forall t c w, reads (t_cloud T) t c (Some w) -> (0 <= w <= 1)%R) /\
    forall c j (sol top : list R), nth_error (f_cols (t_air T)) j = Some c ->
      Forall2 (fun t y => reads s' t c (Some y)) (f_index (t_air T)) sol -> distinct s' ->
      map Some top = map solar (f_index (t_air T)) ->
      exists ratio filled, length ratio = length sol /\
        (forall i y t, nth_error sol i = Some y -> nth_error top i = Some t ->
           ((50 <= t)%R -> nth_error ratio i = Some (Some (y / t)%R)) /\ ((t < 50)%R -> nth_error ratio i = Some None)) /\
        gap_filled ratio filled /\
        forall i, i < length sol ->
          (nth_error filled i = Some None -> f_cell (t_cloud T) i j = None) /\
          (forall v, nth_error filled i = Some (Some v) -> exists w, f_cell (t_cloud T) i j = Some w /\ unit_limited v w).
Proof.
  unfold parse_data. intros H. apply bind_ok in H. destruct H as (ts & C & H).
  apply bind_ok in H. destruct H as (air & A & H). apply bind_ok in H. destruct H as (rh & Hh & H). apply bind_ok in H. destruct H as (vp & V & H).
  apply bind_ok in H. destruct H as (w & W & H). apply bind_ok in H. destruct H as (p & P & H). apply bind_ok in H. destruct H as (p2 & P2 & H).
  apply bind_ok in H. destruct H as (s & S & H). apply bind_ok in H. destruct H as (s2 & S2 & H). injection H as <-. cbn [t_cloud t_air].
  destruct (get_reads _ _ _ _ _ _ _ C S) as (fs & DS & RS). exists fs, s. split; [exact DS|]. split; [exact RS|].
  destruct (reindex_seen _ _ _ _ S2) as (I2 & C2 & G2). split.
  - intros t c x (i & j & _ & _ & X). cbn [cloud f_cell] in X. eapply (C70_bounds _ _ i).
    destruct (nth_error (hrrr_cloud _ _) i) as [y|] eqn:N.
    + f_equal. rewrite <- X. symmetry. apply nth_error_nth. exact N.
    + exfalso. apply nth_error_None in N. rewrite nth_overflow in X by exact N. discriminate X.
  - intros c j sol top J F (DI & DC) TP.
    assert (COL : map (fun i' => f_cell s2 i' j) (seq 0 (rows s2)) = map Some sol).
    { unfold rows. rewrite I2. apply same_entries. intros i. rewrite !nth_error_map.
      destruct (Nat.lt_ge_cases i (length (f_index air))) as [L|L].
      - assert (NS : nth_error (seq 0 (length (f_index air))) i = Some i) by (rewrite (nth_error_nth' _ 0) by (rewrite seq_length; exact L); now rewrite seq_nth by exact L).
        rewrite NS. cbn [option_map]. destruct (nth_error (f_index air) i) as [t|] eqn:NT; [|apply nth_error_None in NT; lia].
        assert (SY : exists y, nth_error sol i = Some y /\ reads s t c (Some y)).
        { clear - F NT. revert i NT. induction F as [|t0 y0 l l' R F IH]; intros [|i] NT; try discriminate; cbn in *; [injection NT as ->; eauto|now apply IH]. }
        destruct SY as (y & NY & R). rewrite NY. cbn [option_map]. f_equal.
        destruct (G2 t c (f_cell s2 i j)) as [(i1 & j1 & A1 & B1 & X1)|([N|N] & _)].
        + exists i, j. rewrite I2, C2. auto.
        + destruct R as (i3 & j3 & A3 & B3 & X3). rewrite <- X1, <- X3. f_equal.
          * apply (proj1 (NoDup_nth_error (f_index s)) DI); [apply nth_error_Some; congruence|congruence].
          * apply (proj1 (NoDup_nth_error (f_cols s)) DC); [apply nth_error_Some; congruence|congruence].
        + exfalso. apply N. destruct R as (i3 & j3 & A3 & _). now apply nth_error_In in A3.
        + exfalso. apply N. destruct R as (i3 & j3 & _ & B3 & _). now apply nth_error_In in B3.
      - rewrite (proj2 (nth_error_None (seq 0 (length (f_index air))) i)) by (rewrite seq_length; exact L).
        rewrite (proj2 (nth_error_None sol i)) by (rewrite <- (all2_length _ _ _ F); exact L). reflexivity. }
    assert (LT : length sol = length top) by (rewrite <- (all2_length _ _ _ F), <- (map_length Some top), TP, map_length; reflexivity).
    destruct (C70_cloud_factor sol top LT) as (ratio & filled & L & R & G & LC & OUT).
    exists ratio, filled. split; [exact L|]. split; [exact R|]. split; [exact G|]. intros i I. cbn [cloud f_cell]. rewrite COL, I2, <- TP.
    destruct (OUT i) as (O1 & O2). split.
    + intros N. apply nth_error_nth. now apply O1.
    + intros v N. destruct (O2 v N) as (y & Y & U). exists y. split; [|exact U]. now apply nth_error_nth.
Qed.
Print Assumptions C95_cloud.

(** Humidities whose pixels are in another order, or that are of one time only, are still combined by position:
    the vapour pressure of a pixel can be made of another pixel's humidity, and that of a time of another time's. *)
Section Place.
Let air := mkFrame [0%Z; 1%Z] [4; 7] (fun i j => Some (INR (i + j))).
Let other := mkFrame [0%Z; 1%Z] [4; 7] (fun i j => Some 100%R).
Let at_ (rh : frame rnum) (k : key) := Some (match k with AirTemp => air | Humidity => rh | _ => other end).
Let swapped := mkFrame [0%Z; 1%Z] [7; 4] (fun i j => Some (if j =? 0 then 50 else 25)%R).
Let once := mkFrame [1%Z] [4; 7] (fun i j => Some 50%R).
Lemma parsed rh : 0 < rows rh -> 0 < width rh -> rows rh = 2 \/ rows rh = 1 -> width rh = 2 \/ width rh = 1 ->
  exists T, parse_data rnum Some Some (fun _ => Some 200%R) true (at_ rh) = Ok T.
Proof.
  intros A B C D. apply C95_accepted. split.
  - intros k f _. split; [intros; discriminate|intros; discriminate].
  - exists air, rh, other, other. do 4 (split; [reflexivity|]). do 4 (split; [assumption|]).
    assert (F : forall f g a, f_index f = [0%Z; 1%Z] -> f_cols f = [4; 7] -> read_as (fun x : rnum => Some x) (fun w => Some w) f g -> read_as (fun x : rnum => Some x) (fun w => Some w) air a -> labels_of g a).
    { intros f g a FI FC (C1 & I1 & _) (C2 & I2 & _). rewrite FI in I1. cbn in I2. split; [|rewrite C1, C2, FC; reflexivity].
      inversion I1 as [|? ? ? ? X1 I3]; subst. inversion I3 as [|? ? ? ? X2 I4]; subst. inversion I4; subst.
      inversion I2 as [|? ? ? ? Y1 I5]; subst. inversion I5 as [|? ? ? ? Y2 I6]; subst. inversion I6; subst. congruence. }
    intros a p s RA RP RS. destruct (F other p a eq_refl eq_refl RP RA) as (? & ?). destruct (F other s a eq_refl eq_refl RS RA) as (? & ?).
    unfold can_follow. do 2 (split; [auto|]). intros _. exists other, other. do 2 (split; [reflexivity|]). intros u v RU RV.
    destruct (F other u a eq_refl eq_refl RU RA). destruct (F other v a eq_refl eq_refl RV RA). split; [split; congruence|auto].
Qed.
Lemma made rh T i j : 0 < rows rh -> 0 < width rh -> i < 2 -> j < 2 -> parse_data rnum Some Some (fun _ => Some 200%R) true (at_ rh) = Ok T ->
  read_as Some Some air (t_air T) /\ exists rh', read_as Some Some rh rh' /\
  f_index (t_vapor T) = [0%Z; 1%Z] /\ f_cols (t_vapor T) = [4; 7] /\
  exists i' j', (i' = i \/ rows rh = 1 /\ i' = 0) /\ (j' = j \/ width rh = 1 /\ j' = 0) /\
    vapor_of (f_cell (t_air T) i j) (in_unit_of (f_cell rh' 0 0) (f_cell rh' i' j')) (f_cell (t_vapor T) i j).
Proof.
  intros H1 H2 I J H. unfold parse_data in H. apply bind_ok in H. destruct H as (ts & C & H).
  apply bind_ok in H. destruct H as (a & A & H). apply bind_ok in H. destruct H as (r & Hh & H). apply bind_ok in H. destruct H as (vp & V & H).
  apply bind_ok in H. destruct H as (w & _ & H). apply bind_ok in H. destruct H as (p & _ & H). apply bind_ok in H. destruct H as (p2 & _ & H).
  apply bind_ok in H. destruct H as (s & _ & H). apply bind_ok in H. destruct H as (s2 & _ & H). injection H as <-. cbn [t_air t_vapor].
  destruct (get_reads _ _ _ _ _ _ _ C A) as (fa & DA & RA). injection DA as <-. destruct (get_reads _ _ _ _ _ _ _ C Hh) as (fh & DH & RH). injection DH as <-.
  split; [exact RA|]. exists r. split; [exact RH|]. destruct RA as (A1 & A2 & A3). destruct RH as (B1 & B2 & _).
  assert (IA : f_index a = [0%Z; 1%Z]).
  { cbn in A2. inversion A2 as [|? ? ? ? X1 I3]; subst. inversion I3 as [|? ? ? ? X2 I4]; subst. inversion I4; subst. congruence. }
  destruct (vapor_cell a r vp i j V) as (L1 & L2 & i' & j' & E1 & E2 & G).
  - unfold rows. rewrite IA. exact I.
  - unfold width. rewrite A1. exact J.
  - rewrite L1, L2, IA, A1. do 2 (split; [reflexivity|]). exists i', j'.
    unfold rows, width in *. rewrite B1 in E2. rewrite <- (all2_length _ _ _ B2) in E1. auto.
Qed.
Theorem C95_place_refuted :
  (exists data T rh t c a r v, parse_data rnum Some Some (fun _ => Some 200%R) true data = Ok T /\ data Humidity = Some rh /\ distinct rh /\
     reads (t_air T) t c a /\ reads rh t c r /\ reads (t_vapor T) t c v /\ ~ vapor_of a (in_unit_of (f_cell rh 0 0) r) v) /\
  (exists data T rh t c v, parse_data rnum Some Some (fun _ => Some 200%R) true data = Ok T /\ data Humidity = Some rh /\ distinct rh /\
     ~ In t (f_index rh) /\ reads (t_vapor T) t c v /\ v <> None).
Proof.
  assert (P : forall t, (0 < t)%R -> (0 < saturation t)%R) by (intros t X; rewrite <- sat_is; apply SatProofs.sat_pos).
  split.
  - destruct (parsed swapped) as (T & H); cbn; try lia; auto. destruct (made swapped T 0 0 ltac:(cbn; lia) ltac:(cbn; lia) ltac:(lia) ltac:(lia) H) as ((A1 & A2 & A3) & rh' & (B1 & B2 & B3) & L1 & L2 & i' & j' & E1 & E2 & G).
    assert (i' = 0) as -> by (cbn in E1; lia). assert (j' = 0) as -> by (cbn in E2; lia).
    exists (at_ swapped), T, swapped, 0%Z, 4, (Some 0%R), (Some 25%R), (f_cell (t_vapor T) 0 0).
    split; [exact H|]. split; [reflexivity|]. split; [split; cbn; repeat constructor; cbn; intuition discriminate|].
    assert (X0 := A3 0 0 ltac:(cbn; lia) ltac:(cbn; lia)). cbn in X0. injection X0 as X0.
    assert (Y0 := B3 0 0 ltac:(cbn; lia) ltac:(cbn; lia)). cbn in Y0. injection Y0 as Y0.
    split; [exists 0, 0; rewrite A1; inversion A2; subst; split; [cbn; congruence|split; [reflexivity|now symmetry]]|].
    split; [exists 0, 1; repeat split|]. split; [exists 0, 0; rewrite L1, L2; repeat split|].
    rewrite <- X0, <- Y0 in G. unfold in_unit_of in *. cbn [f_cell swapped Nat.eqb] in *.
    destruct (Rle_dec 1 50) as [_|N]; [|exfalso; apply N; lra]. intros (N & _). destruct G as (G & _).
    specialize (N 0%R (25 / 100)%R eq_refl eq_refl ltac:(lra)). specialize (G 0%R (50 / 100)%R eq_refl eq_refl ltac:(lra)).
    rewrite N in G. injection G as G. pose proof (P (0 + 273.15)%R ltac:(lra)). nra.
  - destruct (parsed once) as (T & H); cbn; try lia; auto. destruct (made once T 0 0 ltac:(cbn; lia) ltac:(cbn; lia) ltac:(lia) ltac:(lia) H) as ((A1 & A2 & A3) & rh' & (B1 & B2 & B3) & L1 & L2 & i' & j' & E1 & E2 & G).
    exists (at_ once), T, once, 0%Z, 4, (f_cell (t_vapor T) 0 0).
    split; [exact H|]. split; [reflexivity|]. split; [split; cbn; repeat constructor; cbn; intuition discriminate|].
    split; [cbn; intuition discriminate|]. split; [exists 0, 0; rewrite L1, L2; repeat split|].
    assert (i' = 0) as -> by lia. assert (j' = 0) as -> by (cbn in E2; lia).
    assert (X0 := A3 0 0 ltac:(cbn; lia) ltac:(cbn; lia)). cbn in X0. injection X0 as X0.
    assert (Y0 := B3 0 0 ltac:(cbn; lia) ltac:(cbn; lia)). cbn in Y0. injection Y0 as Y0.
    rewrite <- X0, <- Y0 in G. unfold in_unit_of in G. destruct (Rle_dec 1 50) as [_|N]; [|exfalso; apply N; lra].
    destruct G as (G & _). rewrite (G 0%R (50 / 100)%R eq_refl eq_refl ltac:(lra)). discriminate.
Qed.
Print Assumptions C95_place_refuted.

(** The hypotheses hold of two times and two pixels with all tables. *)
Example C95_example : exists T, parse_data rnum Some Some (fun _ => Some 200%R) true (at_ other) = Ok T /\
  distinct (t_air T) /\ reads (t_air T) 1%Z 7 (Some 2%R).
Proof.
  destruct (parsed other) as (T & H); cbn; try lia; auto. exists T. split; [exact H|].
  destruct (made other T 0 0 ltac:(cbn; lia) ltac:(cbn; lia) ltac:(lia) ltac:(lia) H) as ((A1 & A2 & A3) & _).
  assert (IA : f_index (t_air T) = [0%Z; 1%Z]).
  { cbn in A2. inversion A2 as [|? ? ? ? X1 I3]; subst. inversion I3 as [|? ? ? ? X2 I4]; subst. inversion I4; subst. congruence. }
  split; [split; [rewrite IA|rewrite A1]; cbn; repeat constructor; cbn; intuition discriminate|].
  exists 1, 1. rewrite IA, A1. do 2 (split; [reflexivity|]). assert (X := A3 1 1 ltac:(cbn; lia) ltac:(cbn; lia)). cbn in X. injection X as <-. reflexivity.
Qed.
(** A table with an entry that is no number, which nothing needs, still refuses the data. *)
Example C95_example_refused : exists (data : key -> option (frame (option rnum))),
  ~ readable (fun x => x) Some (mkFrame [0%Z] [4] (fun _ _ => @None rnum)) /\
  data WindU = Some (mkFrame [0%Z] [4] (fun _ _ => None)) /\ parse_data (option rnum) (fun x => x) Some (fun _ => None) false data = Err ValueError.
Proof.
  exists (fun _ => Some (mkFrame [0%Z] [4] (fun _ _ => None))).
  assert (N : ~ readable (fun x => x) Some (mkFrame [0%Z] [4] (fun _ _ => @None rnum))) by (intros (_ & X); apply (X 0 0); cbn; auto).
  split; [exact N|]. split; [reflexivity|]. now apply (C95_unreadable _ _ _ _ _ WindU (mkFrame [0%Z] [4] (fun _ _ => None))).
Qed.
End Place.
