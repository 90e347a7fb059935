(** Proofs about gauge undercatch and wind redistribution. *)
From Coq Require Import Reals ZArith String List Bool Lra Lia.
From Verif Require Import RNum ExpBounds WinsModel WinsSpec WinsProofs PptModel PptSpec.
Import ListNotations.
Local Open Scope R_scope.

(** ** powers *)
Lemma pow_lt_compat_l a b n : 0 <= a < b -> (0 < n)%nat -> a ^ n < b ^ n.
Proof.
  intros [A B] N. destruct n as [|n]; [lia|]. clear N. simpl.
  apply Rle_lt_trans with (a * b ^ n).
  - apply Rmult_le_compat_l; [exact A|]. apply pow_incr. lra.
  - apply Rmult_lt_compat_r; [apply pow_lt; lra | exact B].
Qed.
Lemma Rpower_root x p q : (0 < q)%nat -> 0 < x -> Rpower x (INR p / INR q) ^ q = x ^ p.
Proof.
  intros Q X. assert (0 < INR q) by (apply lt_0_INR; lia).
  rewrite <- Rpower_pow, Rpower_mult, <- Rpower_pow; [| exact X | apply exp_pos].
  f_equal. field. lra.
Qed.
Lemma Rpower_ge x p q c : (0 < q)%nat -> 0 < x -> 0 <= c -> c ^ q <= x ^ p -> c <= Rpower x (INR p / INR q).
Proof.
  intros Q X C H. apply Rnot_lt_le. intros L.
  assert (Rpower x (INR p / INR q) ^ q < c ^ q); [|rewrite Rpower_root in * by assumption; lra].
  apply pow_lt_compat_l; [|exact Q]. split; [|exact L]. left. apply exp_pos.
Qed.
Lemma Rpower_le x p q c : (0 < q)%nat -> 0 < x -> 0 <= c -> x ^ p <= c ^ q -> Rpower x (INR p / INR q) <= c.
Proof.
  intros Q X C H. apply Rnot_lt_le. intros L.
  assert (c ^ q < Rpower x (INR p / INR q) ^ q); [|rewrite Rpower_root in * by assumption; lra].
  apply pow_lt_compat_l; [|exact Q]. split; [exact C | exact L].
Qed.
Lemma exp_mono a b : a <= b -> exp a <= exp b.
Proof. intros [L| ->]; [left; apply exp_increasing; exact L | lra]. Qed.

(** ** the ratio *)
Lemma fpow_power w a : 0 <= w -> exists p, fpow w a = Some p /\ power w a p.
Proof.
  intros W. unfold fpow, power. destruct (rltb_spec w 0); [lra|]. destruct (reqb_spec w 0) as [->|NZ].
  - exists 0. split; [reflexivity|]. split; [lra | reflexivity].
  - eexists. split; [reflexivity|]. split; [reflexivity | contradiction].
Qed.
Lemma snowing_spec t : reflect (snowing t) (ncmp rltb t (Some (-0.5))).
Proof.
  unfold snowing. destruct t as [x|]; cbn [ncmp].
  - destruct (rltb_spec x (-0.5)); constructor; [eauto|]. intros (y & [= <-] & Y). contradiction.
  - constructor. intros (y & E & _). discriminate.
Qed.
Lemma ratio_spec g t ws :
  exists r, catchment_ratios (if ncmp rltb (Some 6.0) ws then Some 6.0 else ws) (gauge_name g) (ncmp rltb t (Some (-0.5))) = Ok r /\
            catch_ratio g t ws r.
Proof.
  destruct ws as [w|].
  2:{ exists 1. cbn [ncmp catch_ratio]. split; [|reflexivity]. destruct g; unfold catchment_ratios;
      cbn [gauge_name String.eqb Ascii.eqb Bool.eqb]; destruct (ncmp rltb t (Some (-0.5))); cbn [rlift option_map]; f_equal; lra. }
  assert (M : (if ncmp rltb (Some 6.0) (Some w) then Some 6.0 else Some w) = Some (Rmin 6 w)).
  { cbn [ncmp]. destruct (rltb_spec 6.0 w); f_equal; [rewrite Rmin_left by lra | rewrite Rmin_right by lra]; lra. }
  rewrite M. clear M. set (m := Rmin 6 w).
  assert (MN : w < 0 -> m < 0) by (intros; unfold m; rewrite Rmin_right by lra; exact H).
  assert (MP : 0 <= w -> 0 <= m) by (intros; unfold m; apply Rmin_glb; lra).
  unfold catch_ratio. fold m. destruct (snowing_spec t) as [S|S].
  - destruct (Rlt_dec w 0) as [N|N].
    + exists 1. split; [|split; [intros _; split; [reflexivity | lra] | tauto]].
      specialize (MN N). destruct g; unfold catchment_ratios; cbn [gauge_name String.eqb Ascii.eqb Bool.eqb]; unfold fpow;
      destruct (rltb_spec m 0); try lra; cbn [rlift option_map]; f_equal; lra.
    + specialize (MP ltac:(lra)). destruct (fpow_power m (snd (snow_coefficient g)) MP) as (p & P1 & P2).
      exists (exp (4.61 - fst (snow_coefficient g) * p) / 100). split.
      * destruct g; unfold catchment_ratios; cbn [gauge_name String.eqb Ascii.eqb Bool.eqb snow_coefficient fst snd] in *; rewrite P1; cbn [rlift option_map];
        (replace 100.0 with 100 by lra); reflexivity.
      * split; [intros _; split; [lra|] | tauto]. intros _. exists p. split; [exact P2 | field].
  - exists ((fst (rain_line g) - snd (rain_line g) * m) / 100). split.
    + destruct g; unfold catchment_ratios; cbn [gauge_name String.eqb Ascii.eqb Bool.eqb rain_line fst snd rlift option_map];
      (replace 100.0 with 100 by lra); reflexivity.
    + split; [tauto|]. intros _. field.
Qed.

Lemma power_mono w v a p q : 0 <= a -> 0 <= w -> w <= v -> power w a p -> power v a q -> p <= q.
Proof.
  intros A W V [P1 P2] [Q1 Q2]. destruct (Req_dec w 0) as [Z|Z].
  - rewrite P2 by exact Z. destruct (Req_dec v 0) as [Z'|Z']; [rewrite Q2 by exact Z'; lra|]. rewrite Q1 by lra. left. apply exp_pos.
  - rewrite P1, Q1 by lra. apply Rle_Rpower_l; lra.
Qed.
Lemma power_nonneg w a p : 0 <= w -> power w a p -> 0 <= p.
Proof. intros W [P1 P2]. destruct (Req_dec w 0) as [Z|Z]; [rewrite P2 by exact Z; lra | rewrite P1 by lra; left; apply exp_pos]. Qed.

Lemma pow_6_175 : Rpower 6 1.75 <= 23.01.
Proof. replace 1.75 with (INR 7 / INR 4) by (simpl; lra). apply Rpower_le; [lia | lra | lra | lra]. Qed.
Lemma pow_6_128 : Rpower 6 1.28 <= 9.91.
Proof. replace 1.28 with (INR 32 / INR 25) by (rewrite !INR_IZR_INZ; simpl Z.of_nat; lra). apply Rpower_le; [lia | lra | lra | lra]. Qed.
Lemma pow_03_175 : 0.1216 <= Rpower 0.3 1.75.
Proof. replace 1.75 with (INR 7 / INR 4) by (simpl; lra). apply Rpower_ge; [lia | lra | lra | lra]. Qed.
Lemma pow_007_128 : 0.0304 <= Rpower 0.07 1.28.
Proof. replace 1.28 with (INR 32 / INR 25) by (rewrite !INR_IZR_INZ; simpl Z.of_nat; lra). apply Rpower_ge; [lia | lra | lra | lra]. Qed.

Lemma ratio_positive g t ws r : catch_ratio g t ws r -> 0 < r.
Proof.
  unfold catch_ratio. destruct ws as [w|]; [|lra]. destruct (snowing_spec t) as [S|S]; intros [A B].
  - destruct (A S) as [A1 A2]. destruct (Rlt_dec w 0); [rewrite A1 by assumption; lra|].
    destruct (A2 ltac:(lra)) as (p & _ & E). pose proof (exp_pos (4.61 - fst (snow_coefficient g) * p)). lra.
  - specialize (B S). pose proof (Rmin_l 6 w). destruct g; simpl in B; nra.
Qed.
Lemma ratio_lower g t w r : 0 <= w -> catch_ratio g t (Some w) r ->
  (snowing t -> fst (least_ratio g) <= r) /\ (~ snowing t -> snd (least_ratio g) <= r).
Proof.
  intros W [A B]. pose proof (Rmin_l 6 w) as M6. assert (M0 : 0 <= Rmin 6 w) by (apply Rmin_glb; lra). split; intros S.
  - destruct (A S) as [_ A2]. destruct (A2 W) as (p & P & E).
    assert (Q : power 6 (snd (snow_coefficient g)) (Rpower 6 (snd (snow_coefficient g)))) by (split; [reflexivity | lra]).
    assert (PQ : p <= Rpower 6 (snd (snow_coefficient g))) by (apply (power_mono (Rmin 6 w) 6 (snd (snow_coefficient g))); [destruct g; simpl; lra | exact M0 | exact M6 | exact P | exact Q]).
    destruct g; simpl in *.
    + pose proof pow_6_175. assert (exp 3.6896 <= exp (4.61 - 0.04 * p)) by (apply exp_mono; lra). pose proof exp_6_shielded. lra.
    + pose proof pow_6_128. assert (exp 3.0244 <= exp (4.61 - 0.16 * p)) by (apply exp_mono; lra). pose proof exp_6_unshielded. lra.
  - specialize (B S). destruct g; simpl in *; lra.
Qed.
Lemma ratio_upper g t w r : 0 <= w -> catch_ratio g t (Some w) r -> ~ calm g (snowing t) w -> r <= 1.
Proof.
  intros W [A B] C. destruct (snowing_spec t) as [S|S].
  - destruct (A S) as [_ A2]. destruct (A2 W) as (p & P & E).
    assert (M0 : 0 <= Rmin 6 w) by (apply Rmin_glb; lra). pose proof exp_calm as X.
    destruct g; simpl in *.
    + assert (L : 0.3 <= w). { apply Rnot_lt_le. intros L. apply C. split; tauto. }
      assert (Rpower 0.3 1.75 <= p).
      { eapply (power_mono 0.3 (Rmin 6 w) 1.75); [lra | lra | apply Rmin_glb; lra | split; [reflexivity | lra] | exact P]. }
      pose proof pow_03_175. assert (exp (4.61 - 0.04 * p) <= exp 4.605136) by (apply exp_mono; lra). lra.
    + assert (L : 0.07 <= w). { apply Rnot_lt_le. intros L. apply C. split; tauto. }
      assert (Rpower 0.07 1.28 <= p).
      { eapply (power_mono 0.07 (Rmin 6 w) 1.28); [lra | lra | apply Rmin_glb; lra | split; [reflexivity | lra] | exact P]. }
      pose proof pow_007_128. assert (exp (4.61 - 0.16 * p) <= exp 4.605136) by (apply exp_mono; lra). lra.
  - specialize (B S). destruct g; simpl in *.
    + assert (L : 1.04 / 5.62 <= w). { apply Rnot_lt_le. intros L. apply C. split; tauto. }
      assert (1.04 / 5.62 <= Rmin 6 w) by (apply Rmin_glb; lra). lra.
    + assert (L : 0.77 / 8.34 <= w). { apply Rnot_lt_le. intros L. apply C. split; tauto. }
      assert (0.77 / 8.34 <= Rmin 6 w) by (apply Rmin_glb; lra). lra.
Qed.
Lemma ratio_calm g t r : catch_ratio g t (Some 0) r -> 1.004 <= r.
Proof.
  intros [A B]. rewrite Rmin_right in * by lra. destruct (snowing_spec t) as [S|S].
  - destruct (A S) as [_ A2]. destruct (A2 ltac:(lra)) as (p & [_ P] & E). rewrite P in E by reflexivity.
    rewrite Rmult_0_r, Rminus_0_r in E. pose proof exp_461. lra.
  - specialize (B S). destruct g; simpl in *; lra.
Qed.

(** ** the adjustment *)
Lemma adjust_ok types wind temp p_vec out :
  (forall k g, find_type types k = Some g -> k = "station_undercatch_model_default"%string \/ (exists v, In (k, v) p_vec) -> exists h, g = gauge_name h) ->
  adjust_for_undercatch p_vec wind temp types = Ok out ->
  map fst out = map fst p_vec /\
  forall k sta v, nth_error p_vec k = Some (sta, v) -> exists a, nth_error out k = Some (sta, a) /\
    (get temp sta = None \/ get wind sta = None -> a = v) /\
    (forall t ws, get temp sta = Some t -> get wind sta = Some ws ->
       exists g r, (find_type types sta = Some (gauge_name g) \/
                    find_type types sta = None /\ find_type types "station_undercatch_model_default" = Some (gauge_name g)) /\
                   catch_ratio g t ws r /\ a = option_map (fun x => x / r) v).
Proof.
  revert out. induction p_vec as [|[sta p] rest IH]; intros out TY H; cbn [adjust_for_undercatch] in H.
  - injection H as <-. split; [reflexivity|]. intros [|k] sta v; discriminate.
  - destruct (adjust_one types wind temp sta p) as [a|] eqn:A; [|discriminate]. cbn [bind] in H.
    destruct (adjust_for_undercatch rest wind temp types) as [l|] eqn:L; [|discriminate]. injection H as <-.
    destruct (IH l) as [N F]; [|reflexivity|].
    { intros k g FT [E|(v & I)]; apply (TY k g FT); [left; exact E | right; exists v; right; exact I]. }
    split; [simpl; rewrite N; reflexivity|]. intros [|k] st v K; simpl in *; [|apply F; exact K].
    injection K as <- <-. exists a. split; [reflexivity|]. unfold adjust_one in A.
    destruct (get temp sta) as [t|], (get wind sta) as [ws|].
    + split; [intros [E|E]; discriminate|]. intros t' ws' [= <-] [= <-].
      destruct (find_type types sta) as [g|] eqn:G.
      * destruct (TY sta g G) as (h & ->); [right; eauto|]. destruct (ratio_spec h t ws) as (r & R & CR).
        rewrite R in A. cbn [bind] in A. injection A as <-. exists h, r. auto.
      * destruct (find_type types "station_undercatch_model_default") as [g|] eqn:G2; [|discriminate].
        destruct (TY _ g G2) as (h & ->); [left; reflexivity|]. destruct (ratio_spec h t ws) as (r & R & CR).
        rewrite R in A. cbn [bind] in A. injection A as <-. exists h, r. auto.
    + injection A as <-. split; [reflexivity | discriminate].
    + injection A as <-. split; [reflexivity | discriminate].
    + injection A as <-. split; [reflexivity | discriminate].
Qed.
Lemma adjust_total types wind temp p_vec :
  (forall k g, find_type types k = Some g -> exists h, g = gauge_name h) ->
  find_type types "station_undercatch_model_default" <> None ->
  exists out, adjust_for_undercatch p_vec wind temp types = Ok out.
Proof.
  intros TY D. induction p_vec as [|[sta p] rest (l & IH)]; cbn [adjust_for_undercatch]; [eauto|].
  assert (A : exists a, adjust_one types wind temp sta p = Ok a).
  { unfold adjust_one. destruct (get temp sta) as [t|]; [|eauto]. destruct (get wind sta) as [ws|]; [|eauto].
    destruct (find_type types sta) as [g|] eqn:G.
    - destruct (TY _ _ G) as (h & ->). destruct (ratio_spec h t ws) as (r & R & _). rewrite R. cbn [bind]. eauto.
    - destruct (find_type types "station_undercatch_model_default") as [g|] eqn:G2; [|contradiction].
      destruct (TY _ _ G2) as (h & ->). destruct (ratio_spec h t ws) as (r & R & _). rewrite R. cbn [bind]. eauto. }
  destruct A as (a & ->). rewrite IH. cbn [bind]. eauto.
Qed.

(** ** redistribution *)
Definition lim_of (d : drift_cfg) : limits := mk_limits (d_thr d) (d_min_scour d) (d_max_scour d) (d_min_drift d) (d_max_drift d).
Lemma veg_prod_fold vf v p :
  fold_left (fun p kv => if (v =? fst kv)%Z then rlift (fun x => x * 1.0 / snd kv) p else p) vf p =
  rlift (fun x => x / veg_product vf v) p.
Proof.
  revert p. induction vf as [|[k r] vf IH]; intros p; simpl.
  - destruct p; simpl; f_equal. field.
  - rewrite IH. destruct (Z.eqb_spec v k), (Z.eq_dec k v); try congruence; destruct p; simpl; f_equal.
    + unfold Rdiv. rewrite Rinv_mult. lra.
    + rewrite Rmult_1_l. reflexivity.
Qed.
Lemma pine_spec v : reflect (pine v) ((v =? 3055) || (v =? 3053) || (v =? 42))%Z.
Proof.
  unfold pine. destruct (Z.eqb_spec v 3055); [constructor; auto|]. destruct (Z.eqb_spec v 3053); [constructor; auto|].
  destruct (Z.eqb_spec v 42); constructor; tauto.
Qed.
Lemma drift_cell_spec d vf precip ptemp tb ws mx v :
  d_min_scour d <= d_max_scour d -> d_min_drift d <= d_max_drift d ->
  redistributed (lim_of d) vf precip ptemp tb ws mx v (drift_cell d vf precip ptemp tb ws mx v).
Proof.
  intros SC DR. unfold redistributed, drift_cell, lim_of. cbn [threshold min_scour max_scour min_drift max_drift].
  split; [|split].
  - intros t -> T. cbn [ncmp]. destruct (rleb_spec 0.5 t); [reflexivity | lra].
  - intros ->. cbn [ncmp]. rewrite !andb_false_r. reflexivity.
  - intros t -> T. cbn [ncmp]. destruct (rleb_spec 0.5 t); [lra|]. destruct (rltb_spec t 0.5); [|lra]. rewrite !andb_true_r. split.
    + intros ->. reflexivity.
    + intros b ->. cbn [ncmp]. split; intros B.
      * destruct (rleb_spec b (d_thr d)); [lra|]. destruct (rltb_spec (d_thr d) b); [|lra]. unfold drift_factor. split.
        -- intros ->. reflexivity.
        -- intros w ->. cbn [rlift option_map].
           destruct (set_min_max_spec (Some (d_min_drift d)) (Some (d_max_drift d)) (1.000761 * exp (-0.0956 * w + 0.0289 * w ^ 2)) DR) as (k & K & LIM).
           exists k. rewrite K. replace (w * w) with (w ^ 2) by ring. split; [exact LIM|]. destruct precip; reflexivity.
      * destruct (rleb_spec b (d_thr d)); [|lra]. destruct (rltb_spec (d_thr d) b); [lra|]. unfold scour_factor. cbv zeta.
        destruct (pine_spec v) as [P|P]; (split; intros H; [|]); try contradiction.
        -- destruct (set_min_max_spec (Some (d_min_scour d)) (Some (d_max_scour d)) 1 SC) as (k & K & LIM).
           exists k. replace 1.0 with 1 by lra. rewrite K. split; [exact LIM|]. destruct precip; reflexivity.
        -- rewrite veg_prod_fold. split.
           ++ intros ->. reflexivity.
           ++ intros m ->. cbn [rlift option_map].
              match goal with |- context [set_min_max _ _ (Some ?z)] => destruct (set_min_max_spec (Some (d_min_scour d)) (Some (d_max_scour d)) z SC) as (k & K & LIM) end.
              exists k. rewrite K. replace (m * m * m) with (m ^ 3) by ring. replace (m * m) with (m ^ 2) by ring.
              split; [exact LIM|]. destruct precip; reflexivity.
Qed.

Lemma dist_ok ny nx c precip ptemp dr wind maxus tbreak tdirs vt vf out :
  dist_precip_wind ny nx c precip ptemp dr wind maxus tbreak tdirs vt vf = Ok out ->
  exists l tbl, cfg_get c "tbreak_threshold" = Ok (threshold l) /\ cfg_get c "winstral_min_scour" = Ok (min_scour l) /\
    cfg_get c "winstral_max_scour" = Ok (max_scour l) /\ cfg_get c "winstral_min_drift" = Ok (min_drift l) /\
    cfg_get c "winstral_max_drift" = Ok (max_drift l) /\ veg_keys vf = Ok tbl /\
    (min_scour l <= max_scour l -> min_drift l <= max_drift l ->
     forall y x, (y < ny)%nat -> (x < nx)%nat ->
       exists d i, dr y x = Some d /\ nth_error tdirs i = Some d /\ (forall j, (j < i)%nat -> nth_error tdirs j <> Some d) /\
         redistributed l tbl (precip y x) (ptemp y x) (tbreak i y x) (wind y x) (maxus y x) (vt y x) (out y x)).
Proof.
  unfold dist_precip_wind. destruct (read_cfg c) as [d|] eqn:RC; [|discriminate]. cbn [bind].
  destruct (classify ny nx tdirs tbreak dr) as [tb|] eqn:CL; [|discriminate]. cbn [bind].
  destruct (veg_keys vf) as [tbl|] eqn:VK; [|discriminate]. cbn [bind]. intros [= <-].
  unfold read_cfg in RC.
  destruct (cfg_get c "tbreak_threshold") as [t|] eqn:E1; [|discriminate].
  destruct (cfg_get c "winstral_min_scour") as [a|] eqn:E2; [|discriminate].
  destruct (cfg_get c "winstral_max_scour") as [b|] eqn:E3; [|discriminate].
  destruct (cfg_get c "winstral_min_drift") as [e|] eqn:E4; [|discriminate].
  destruct (cfg_get c "winstral_max_drift") as [f|] eqn:E5; [|discriminate]. cbn [bind] in RC. injection RC as <-.
  exists (mk_limits t a b e f), tbl. repeat (split; [first [assumption | reflexivity]|]).
  cbn [min_scour max_scour min_drift max_drift]. intros SC DR y x Y X.
  destruct (classify_ok _ _ _ _ _ _ CL y x Y X) as (q & i & Q & FI & RAW). apply first_index_some in FI. destruct FI as [F1 F2].
  exists q, i. split; [exact Q | split; [exact F1 | split; [exact F2|]]]. rewrite <- RAW.
  apply (drift_cell_spec (mk_drift_cfg t a b e f)); assumption.
Qed.

(** a factor between the limits, in every cell that is defined *)
Lemma limited_between lo hi v k : limited (Some lo) (Some hi) v k -> lo <= k <= hi.
Proof. intros (A & B & _). simpl in *. lra. Qed.

(** ** the configured vegetation factors *)
Lemma any_cell_spec ny nx p y x : (y < ny)%nat -> (x < nx)%nat -> p y x = true -> any_cell ny nx p = true.
Proof.
  intros Y X P. unfold any_cell. apply existsb_exists. exists y. split; [apply in_seq; lia|].
  apply existsb_exists. exists x. split; [apply in_seq; lia | exact P].
Qed.
Lemma dict_set_has d k v : exists w, In (k, w) (dict_set d k v).
Proof.
  induction d as [|[a b] d (w & IH)]; simpl; [eauto|]. destruct (String.eqb_spec a k) as [->|]; [exists v; left; reflexivity | exists w; right; exact IH].
Qed.
Lemma dict_set_keeps d k v a : (exists w, In (a, w) d) -> exists w, In (a, w) (dict_set d k v).
Proof.
  intros (w & I). induction d as [|[x b] d IH]; [contradiction|]. simpl. destruct (String.eqb_spec x k) as [->|NE].
  - destruct I as [E|I]; [injection E as <- <-; exists v; left; reflexivity | exists w; right; exact I].
  - destruct I as [E|I]; [exists w; left; exact E|]. destruct (IH I) as (w' & I'). exists w'. right. exact I'.
Qed.
Lemma split_prefix s : nth 1 (split_us (String.append "winstral_veg_" s)) EmptyString = "veg"%string.
Proof.
  cbn [String.append split_us Ascii.eqb Bool.eqb]. reflexivity.
Qed.
Lemma index_prefix sub s : String.index 0 sub (String.append sub s) = Some 0%nat.
Proof.
  assert (P : forall a b, String.prefix a (String.append a b) = true).
  { induction a as [|c a IH]; intros b; simpl; [destruct b; reflexivity|]. destruct (Ascii.ascii_dec c c); [apply IH | contradiction]. }
  destruct sub as [|c sub]; simpl.
  - destruct s; reflexivity.
  - destruct (Ascii.ascii_dec c c); [|contradiction]. rewrite P. reflexivity.
Qed.
Lemma init_veg_has c k v s : In (k, v) c -> k = String.append "winstral_veg_" s -> s <> "default"%string ->
  exists w, In ("veg"%string, w) (init_veg c).
Proof.
  intros I K D. unfold init_veg.
  assert (G : forall l d, (exists w, In ("veg"%string, w) d) ->
    exists w, In ("veg"%string, w) (fold_left (fun d kv => if contains "winstral_veg_" (fst kv) && negb (String.eqb (fst kv) "winstral_veg_default")
                         then dict_set d (nth 1 (split_us (fst kv)) EmptyString) (snd kv) else d) l d)).
  { induction l as [|[a b] l IH]; intros d H; [exact H|]. simpl fold_left. apply IH.
    destruct (_ && _); [apply dict_set_keeps; exact H | exact H]. }
  revert I. generalize (@nil (string * R)). induction c as [|[a b] c IH]; intros d I; [contradiction|]. simpl fold_left.
  destruct I as [E|I]; [|apply IH; exact I]. injection E as -> ->. apply G. subst k. cbn [fst snd].
  assert (CT : contains "winstral_veg_" (String.append "winstral_veg_" s) = true) by (unfold contains; rewrite index_prefix; reflexivity).
  rewrite CT. destruct (String.eqb_spec (String.append "winstral_veg_" s) "winstral_veg_default") as [E|NE].
  - exfalso. apply D. simpl in E. injection E as E. exact E.
  - cbn [andb negb]. rewrite split_prefix. apply dict_set_has.
Qed.
Lemma veg_keys_bad vf w : In ("veg"%string, w) vf -> veg_keys vf = Err ValueError.
Proof.
  induction vf as [|[k r] vf IH]; [contradiction|]. intros [E|I]; simpl.
  - injection E as -> ->. reflexivity.
  - rewrite (IH I). destruct (py_int k); reflexivity.
Qed.
