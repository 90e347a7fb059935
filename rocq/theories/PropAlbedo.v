(** Property C39 (snow albedo). *)
From Coq Require Import Reals ZArith String List Bool Lra Lia.
From Verif Require Import RNum WinsModel WinsSpec WinsProofs PptModel SolarProofs AlbedoModel AlbedoSpec AlbedoProofs.
Import ListNotations.
Local Open Scope string_scope.
Local Open Scope R_scope.

(** Without decay the albedos are those of clean snow, limited to the configured range. *)
Theorem C39_clean (c : albedo_cfg) (now : Z) (mu day : R) (z : Z) :
  valid_grain (a_grain c) (a_max_grain c) (a_dirt c) -> 0 <= day -> a_method c = NoDecay -> proper (a_min c) (a_max c) ->
  exists v i, distribute_albedo c now (Some mu) day z = Ok (Some v, Some i) /\
    limited (a_min c) (a_max c) (snow_vis (a_grain c) (a_max_grain c) (a_dirt c) day mu) v /\
    limited (a_min c) (a_max c) (snow_ir (a_grain c) (a_max_grain c) day mu) i.
Proof.
  intros G D M P. unfold distribute_albedo. rewrite clean_spec by assumption. cbn [bind fst snd]. rewrite M. cbn [bind fst snd].
  destruct (set_min_max_spec (a_min c) (a_max c) (snow_vis (a_grain c) (a_max_grain c) (a_dirt c) day mu) P) as (v & V & LV).
  destruct (set_min_max_spec (a_min c) (a_max c) (snow_ir (a_grain c) (a_max_grain c) day mu) P) as (i & I & LI).
  exists v, i. split; [|split; assumption]. unfold snow_vis in V. unfold snow_ir in I. rewrite V, I. reflexivity.
Qed.
Print Assumptions C39_clean.
(** Bounds of the clean albedos, whatever the age. *)
Theorem C39_bounds (gs mx dirt day mu : R) : valid_grain gs mx dirt -> 0 <= day -> mu <= 1 ->
  1 - 0.002 * sqrt (dirt * mx) <= snow_vis gs mx dirt day mu <= 1 /\ 0.23 < snow_ir gs mx day mu <= 0.95447.
Proof.
  intros (G & M & DT) D MU. destruct (growth_grown day D) as [_ GR].
  destruct (grain_range (dirt * gs) (dirt * mx) (grown day)) as [A B]; try nra.
  destruct (grain_range gs mx (grown day)) as [A' B']; try lra.
  assert (sqrt mx <= sqrt 2000) by (apply sqrt_le_1_alt; lra). pose proof sqrt_2000.
  split; [unfold snow_vis | apply ir_range; lra].
  pose proof (vis_range (between_at (sqrt (dirt * gs)) (sqrt (dirt * mx)) (grown day)) mu). lra.
Qed.
Print Assumptions C39_bounds.
(** Older snow is darker: both albedos fall strictly with the days since the storm (the visible one when there
    is any contamination), at any illumination. *)
Theorem C39_ageing (gs mx dirt day day' mu : R) : valid_grain gs mx dirt -> 0 <= day < day' -> mu <= 1 ->
  (0 < dirt -> snow_vis gs mx dirt day' mu < snow_vis gs mx dirt day mu) /\ snow_ir gs mx day' mu < snow_ir gs mx day mu.
Proof.
  intros (G & M & DT) D MU. pose proof (grown_increasing day day' D) as GI.
  destruct (growth_grown day ltac:(lra)) as [_ G1]. destruct (growth_grown day' ltac:(lra)) as [_ G2].
  assert (S : forall a b, 0 <= a < b -> 0 <= between_at (sqrt a) (sqrt b) (grown day) < between_at (sqrt a) (sqrt b) (grown day')).
  { intros a b H. assert (sqrt a < sqrt b) by (apply sqrt_lt_1_alt; exact H). pose proof (sqrt_pos a). unfold between_at. split; nra. }
  split.
  - intros DP. apply vis_decreasing; [|exact MU]. apply S. split; [nra|]. apply Rmult_lt_compat_l; lra.
  - apply ir_decreasing; [apply S; lra | | exact MU]. destruct (grain_range gs mx (grown day')) as [_ B]; try lra.
    assert (sqrt mx <= sqrt 2000) by (apply sqrt_le_1_alt; lra). pose proof sqrt_2000. lra.
Qed.
Print Assumptions C39_ageing.
(** Grain sizes out of range stop the run; during the night they do not. *)
Theorem C39_grain_refused (c : albedo_cfg) (now : Z) (mu day : R) (z : Z) :
  a_grain c <= 0 \/ 500 < a_grain c \/ a_max_grain c <= a_grain c \/ 2000 < a_max_grain c ->
  distribute_albedo c now (Some mu) day z = Err PlainException /\ distribute_albedo c now None day z = Ok (Some 0, Some 0).
Proof. intros H. unfold distribute_albedo. rewrite clean_refused by exact H. split; reflexivity. Qed.
Print Assumptions C39_grain_refused.
(** The range check of the contamination never fires: no value of it stops the run with that message, and any
    amount, however large, is used. *)
Theorem C39_dirt_checked_refuted (c : albedo_cfg) (now : Z) (mu day : R) (z : Z) :
  0 < a_grain c <= 500 -> a_grain c < a_max_grain c <= 2000 -> 0 <= day -> a_method c = NoDecay ->
  (a_dirt c < 0 -> distribute_albedo c now (Some mu) day z = Err ValueError) /\
  (0 <= a_dirt c -> exists r, distribute_albedo c now (Some mu) day z = Ok r).
Proof.
  intros G M D ME. split.
  - intros N. unfold distribute_albedo, clean_albedo.
    destruct (rleb_spec (a_grain c) 0), (rltb_spec 500 (a_grain c)), (rleb_spec (a_max_grain c) (a_grain c)), (rltb_spec 2000 (a_max_grain c)); try lra. cbn [orb].
    destruct (rleb_spec (a_dirt c) 1), (rleb_spec 10 (a_dirt c)); try lra; cbn [andb].
    destruct (rltb_spec (a_dirt c * a_grain c) 0); [reflexivity | nra].
  - intros P. unfold distribute_albedo. rewrite clean_spec by first [assumption | split; [|split]; assumption]. cbn [bind fst snd]. rewrite ME.
    cbn [bind fst snd]. eexists. reflexivity.
Qed.
Print Assumptions C39_dirt_checked_refuted.
(** A contamination of a hundred thousand gives, without limits, an albedo below zero. *)
Theorem C39_nonnegative_refuted : exists (c : albedo_cfg) (v i : R),
  valid_grain (a_grain c) (a_max_grain c) (a_dirt c) /\ distribute_albedo c 0 (Some 1) 0 0 = Ok (Some v, Some i) /\ v < 0.
Proof.
  set (c := mk_albedo_cfg 100 400 100000 NoDecay 0 0 1 [] [] None None).
  assert (G : valid_grain (a_grain c) (a_max_grain c) (a_dirt c)) by (unfold valid_grain, c; cbn [a_grain a_max_grain a_dirt]; lra).
  exists c. destruct (C39_clean c 0 1 0 0 G ltac:(lra) eq_refl I) as (v & i & E & (_ & _ & V & _) & _). exists v, i.
  split; [exact G|]. split; [exact E|]. rewrite (V I I). unfold snow_vis, c, clean_vis, between_at, grown. cbn [a_grain a_max_grain a_dirt].
  replace ((0 * 0 + 0) / (0 * 0 + 3 * 0 + 4)) with 0 by field.
  assert (sqrt (3000 * 3000) <= sqrt (100000 * 100)) by (apply sqrt_le_1_alt; lra). rewrite sqrt_square in H by lra.
  destruct (Rlt_dec 0 1); lra.
Qed.
Print Assumptions C39_nonnegative_refuted.

(** ** Decay with the date.  Times are in microseconds; hours are counted in whole seconds. *)
Definition hrs (us : Z) : R := IZR (us / 1000000) / 3600.
Theorem C39_date (c : albedo_cfg) (now : Z) (mu day : R) (z : Z) (dflt : R) :
  valid_grain (a_grain c) (a_max_grain c) (a_dirt c) -> 0 <= day -> a_method c = DateMethod -> proper (a_min c) (a_max c) ->
  lookup (a_veg c) "default" = Some dflt -> (forall k v, In (k, v) (a_veg c) -> 0 < v) -> 0 < a_power c ->
  exists x v i, distribute_albedo c now (Some mu) day z = Ok (Some v, Some i) /\
    limited (a_min c) (a_max c) (snow_vis (a_grain c) (a_max_grain c) (a_dirt c) day mu - x) v /\
    limited (a_min c) (a_max c) (snow_ir (a_grain c) (a_max_grain c) day mu - x) i /\
    (hrs (now - a_start c) <= 0 -> x = 0) /\
    (0 < hrs (now - a_start c) -> exists m, class_value (a_veg c) z m /\
       (hrs (a_end c - a_start c) < hrs (now - a_start c) -> x = m) /\
       (hrs (now - a_start c) <= hrs (a_end c - a_start c) ->
          x = m * Rpower (hrs (now - a_start c) / hrs (a_end c - a_start c)) (a_power c) /\ 0 < x <= m)).
Proof.
  intros G D M P L V PW.
  destruct (decay_power_spec (a_veg c) z (a_start c) (a_end c) now (a_power c) dflt L) as (S1 & S2 & S3).
  fold (hrs (now - a_start c)) in S1, S2, S3. fold (hrs (a_end c - a_start c)) in S2, S3.
  assert (X : exists x, decay_power (a_veg c) z (a_start c) (a_end c) now (a_power c) = Ok x /\
    (hrs (now - a_start c) <= 0 -> x = 0) /\
    (0 < hrs (now - a_start c) -> exists m, class_value (a_veg c) z m /\
       (hrs (a_end c - a_start c) < hrs (now - a_start c) -> x = m) /\
       (hrs (now - a_start c) <= hrs (a_end c - a_start c) ->
          x = m * Rpower (hrs (now - a_start c) / hrs (a_end c - a_start c)) (a_power c) /\ 0 < x <= m))).
  { destruct (Rle_dec (hrs (now - a_start c)) 0) as [B|B].
    - exists 0. split; [exact (S1 B)|]. split; [reflexivity | lra].
    - destruct (Rlt_dec (hrs (a_end c - a_start c)) (hrs (now - a_start c))) as [A|A].
      + destruct (S2 ltac:(lra) A) as (m & C & E). exists m. split; [exact E|]. split; [lra|]. intros _. exists m. split; [exact C|]. split; [reflexivity | lra].
      + destruct (S3 ltac:(lra) ltac:(lra) V) as (m & C & E). eexists. split; [exact E|]. split; [lra|]. intros _. exists m. split; [exact C|].
        split; [lra|]. intros _. split; [reflexivity|]. destruct (class_in (a_veg c) z m C) as (k & I). pose proof (V k m I) as MP.
        set (t := hrs (now - a_start c)) in *. set (T := hrs (a_end c - a_start c)) in *.
        assert (U : 0 < t / T <= 1).
        { split; [apply Rdiv_lt_0_compat; lra|]. apply Rmult_le_reg_r with T; [lra|]. unfold Rdiv. rewrite Rmult_assoc, Rinv_l by lra. lra. }
        destruct (Rpower_unit (t / T) (a_power c) U PW) as [R1 R2]. split; [apply Rmult_lt_0_compat; assumption | nra]. }
  destruct X as (x & E & X1 & X2). unfold distribute_albedo. rewrite clean_spec by assumption. cbn [bind fst snd]. rewrite M, E. cbn [bind fst snd].
  destruct (set_min_max_spec (a_min c) (a_max c) (snow_vis (a_grain c) (a_max_grain c) (a_dirt c) day mu - x) P) as (v & EV & LV).
  destruct (set_min_max_spec (a_min c) (a_max c) (snow_ir (a_grain c) (a_max_grain c) day mu - x) P) as (i & EI & LI).
  exists x, v, i. unfold snow_vis in EV. unfold snow_ir in EI. rewrite EV, EI. repeat (split; [assumption || reflexivity|]). assumption.
Qed.
Print Assumptions C39_date.
(** The decay grows through the period and reaches the configured maximum at its end. *)
Theorem C39_date_grows (t t' T pwr m : R) : 0 < t < t' -> t' <= T -> 0 < pwr -> 0 < m ->
  m * Rpower (t / T) pwr < m * Rpower (t' / T) pwr /\ m * Rpower (T / T) pwr = m.
Proof.
  intros H H' P M. split.
  - apply Rmult_lt_compat_l; [exact M|]. unfold Rpower. apply exp_increasing. apply Rmult_lt_compat_l; [exact P|]. apply ln_increasing.
    + apply Rdiv_lt_0_compat; lra.
    + unfold Rdiv. apply Rmult_lt_compat_r; [apply Rinv_0_lt_compat; lra | lra].
  - unfold Rdiv. rewrite Rinv_r by lra. unfold Rpower. rewrite ln_1, Rmult_0_r, exp_0. ring.
Qed.
Print Assumptions C39_date_grows.
(** A maximum of zero for any class, present on the grid or not, stops the run during the decay period; before
    it and after it the run goes on. *)
Theorem C39_date_zero_refuted (c : albedo_cfg) (now : Z) (mu day : R) (z : Z) (dflt : R) (k : string) :
  valid_grain (a_grain c) (a_max_grain c) (a_dirt c) -> 0 <= day -> a_method c = DateMethod ->
  lookup (a_veg c) "default" = Some dflt -> (forall k v, In (k, v) (a_veg c) -> 0 <= v) -> In (k, 0) (a_veg c) ->
  (0 < hrs (now - a_start c) <= hrs (a_end c - a_start c) -> distribute_albedo c now (Some mu) day z = Err ZeroDivisionError) /\
  (hrs (now - a_start c) <= 0 \/ hrs (a_end c - a_start c) < hrs (now - a_start c) -> exists r, distribute_albedo c now (Some mu) day z = Ok r).
Proof.
  intros G D M L V K. unfold distribute_albedo. rewrite clean_spec by assumption. cbn [bind fst snd]. rewrite M.
  unfold decay_power. rewrite !hours_spec. fold (hrs (now - a_start c)) (hrs (a_end c - a_start c)). rewrite L. split.
  - intros H. destruct (rleb_spec (hrs (now - a_start c)) 0); [lra|].
    destruct (rltb_spec (hrs (a_end c - a_start c)) (hrs (now - a_start c))); [lra|].
    rewrite (check_zero _ _ _ (a_veg c) k V K).
    destruct (lookup_spec (a_veg c) "default" dflt L) as (pre & post & EQ & _).
    assert (0 <= dflt) by (apply (V "default"); rewrite EQ; apply in_elt). unfold decay_of.
    destruct (reqb_spec (a_power c) 0); [reflexivity|]. destruct (reqb_spec dflt 0); [reflexivity|]. destruct (rltb_spec dflt 0); [lra | reflexivity].
  - intros H. destruct (rleb_spec (hrs (now - a_start c)) 0); [eexists; reflexivity|].
    destruct (rltb_spec (hrs (a_end c - a_start c)) (hrs (now - a_start c))); [eexists; reflexivity | lra].
Qed.
Print Assumptions C39_date_zero_refuted.

(** ** Decay by litter *)
(** The average of snow and litter by the litter cover of the class, which is 1 - (1 - rate)^days. *)
Theorem C39_hardy (c : albedo_cfg) (now : Z) (mu day : R) (z : Z) (dflt la : R) :
  valid_grain (a_grain c) (a_max_grain c) (a_dirt c) -> 0 <= day -> a_method c = Hardy2000 -> proper (a_min c) (a_max c) ->
  lookup (a_litter c) "default" = Some dflt -> lookup (a_litter c) "albedo" = Some la -> dflt <= 1 ->
  (forall k v, In (k, v) (a_litter c) -> py_int k = Some z -> v <= 1) ->
  let sv := snow_vis (a_grain c) (a_max_grain c) (a_dirt c) day mu in
  let si := snow_ir (a_grain c) (a_max_grain c) day mu in
  exists l v i, class_value (a_litter c) z l /\
    let lc := 1 - uncovered l day in
    distribute_albedo c now (Some mu) day z = Ok (Some v, Some i) /\
    limited (a_min c) (a_max c) (sv * (1 - lc) + la * lc) v /\
    limited (a_min c) (a_max c) (si * (1 - lc) + la * lc) i /\
    (0 <= l -> 0 <= lc <= 1 /\ Rmin sv la <= sv * (1 - lc) + la * lc <= Rmax sv la /\ Rmin si la <= si * (1 - lc) + la * lc <= Rmax si la) /\
    (day = 0 -> lc = 0).
Proof.
  intros G D M P L A DL V sv si. 
  destruct (hardy_spec (a_litter c) z day sv si dflt la L A DL D V) as (l & C & L1 & E).
  destruct (set_min_max_spec (a_min c) (a_max c) (sv * uncovered l day + la * (1 - uncovered l day)) P) as (v & EV & LV).
  destruct (set_min_max_spec (a_min c) (a_max c) (si * uncovered l day + la * (1 - uncovered l day)) P) as (i & EI & LI).
  exists l, v, i. split; [exact C|]. cbv zeta. replace (1 - (1 - uncovered l day)) with (uncovered l day) by ring. split; [|split; [exact LV|split; [exact LI|split]]].
  - unfold distribute_albedo. rewrite clean_spec by assumption. cbn [bind fst snd]. rewrite M. unfold sv, si, snow_vis, snow_ir in E. rewrite E.
    cbn [bind fst snd]. unfold sv, snow_vis in EV. unfold si, snow_ir in EI. rewrite EV, EI. reflexivity.
  - intros LP. pose proof (uncovered_unit l day (conj LP L1) D). split; [lra|]. split; apply weighted_between; assumption.
  - intros ->. rewrite uncovered_0. ring.
Qed.
Print Assumptions C39_hardy.
(** More litter cover with every day. *)
Theorem C39_hardy_grows (l day day' : R) : 0 < l < 1 -> 0 <= day < day' -> 1 - uncovered l day < 1 - uncovered l day'.
Proof.
  intros L D. unfold uncovered. destruct (Rlt_dec l 1); [|lra]. apply Rplus_lt_compat_l, Ropp_lt_contravar. unfold Rpower. apply exp_increasing.
  assert (ln (1 - l) < 0) by (rewrite <- ln_1; apply ln_increasing; lra). nra.
Qed.
Print Assumptions C39_hardy_grows.

(** Nothing is missing: the configuration dictionaries need their default. *)
Theorem C39_default_needed (c : albedo_cfg) (now : Z) (mu day : R) (z : Z) :
  valid_grain (a_grain c) (a_max_grain c) (a_dirt c) -> 0 <= day ->
  (a_method c = DateMethod -> lookup (a_veg c) "default" = None -> 0 < hrs (now - a_start c) ->
     distribute_albedo c now (Some mu) day z = Err KeyError) /\
  (a_method c = Hardy2000 -> lookup (a_litter c) "default" = None \/ lookup (a_litter c) "albedo" = None ->
     distribute_albedo c now (Some mu) day z = Err KeyError).
Proof.
  intros G D. unfold distribute_albedo. rewrite clean_spec by assumption. cbn [bind fst snd]. split.
  - intros -> L H. unfold decay_power. rewrite !hours_spec. fold (hrs (now - a_start c)). destruct (rleb_spec (hrs (now - a_start c)) 0); [lra|]. rewrite L. reflexivity.
  - intros -> [L|L]; unfold decay_hardy; rewrite L; [reflexivity|]. destruct (lookup (a_litter c) "default"); reflexivity.
Qed.
Print Assumptions C39_default_needed.
(** No sun, no albedo: at night both grids are zero, even below a configured minimum. *)
Theorem C39_night (c : albedo_cfg) (now : Z) (day : R) (z : Z) : distribute_albedo c now None day z = Ok (Some 0, Some 0).
Proof. reflexivity. Qed.
Print Assumptions C39_night.

(** A base configuration: grains from 100 to 700 micrometres, dirt 2, decay of 0.2 (0.1 for class 41) over 30 days. *)
Definition example_cfg (m : decay_method) : albedo_cfg :=
  mk_albedo_cfg 100 700 2 m 0 2592000000000 0.5 [("default", 0.2); ("41", 0.1)] [("default", 0.003); ("albedo", 0.2); ("41", 0.006)] (Some 0) (Some 1).
Example C39_case_valid m : valid_grain (a_grain (example_cfg m)) (a_max_grain (example_cfg m)) (a_dirt (example_cfg m)).
Proof. unfold valid_grain. cbn. lra. Qed.
(** Fresh snow under an overhead sun; the sun at half height brightens it. *)
Example C39_case_clean : clean_albedo 0 1 100 400 1 = Ok (snow_vis 100 400 1 0 1, snow_ir 100 400 0 1) /\
  snow_vis 100 400 1 0 1 = 0.98 /\ snow_vis 100 400 1 0 (1/2) = 0.986875.
Proof.
  assert (S : sqrt (1 * 100) = 10) by (replace (1 * 100) with (10 * 10) by lra; apply sqrt_square; lra).
  assert (GR : grown 0 = 0) by (unfold grown; field).
  split; [apply clean_spec; [unfold valid_grain|]; lra|]. unfold snow_vis, clean_vis, between_at. rewrite S, GR.
  split; destruct (Rlt_dec _ _); lra.
Qed.
(** Class 41 a quarter into the period with power one half: half of its 0.1. *)
Example C39_case_date : exists v i, distribute_albedo (example_cfg DateMethod) 648000000000 (Some 1) 0 41 = Ok (Some v, Some i) /\
  limited (Some 0) (Some 1) (snow_vis 100 700 2 0 1 - 0.05) v.
Proof.
  destruct (C39_date (example_cfg DateMethod) 648000000000 1 0 41 0.2 (C39_case_valid _) ltac:(lra) eq_refl ltac:(cbn; lra) eq_refl) as (x & v & i & E & LV & _ & _ & X).
  { cbn. intros k v [[= <- <-]|[[= <- <-]|[]]]; lra. } { cbn. lra. }
  exists v, i. split; [exact E|].
  replace (hrs (648000000000 - a_start (example_cfg DateMethod))) with 180 in X by (unfold hrs; vm_compute Z.div; lra).
  replace (hrs (a_end (example_cfg DateMethod) - a_start (example_cfg DateMethod))) with 720 in X by (unfold hrs; vm_compute Z.div; lra).
  destruct (X ltac:(lra)) as (m & C & _ & XX). destruct (XX ltac:(lra)) as [XE _].
  assert (M : m = 0.1).
  { cbn in C. destruct C as [(pre & k & post & EQ & K & _)|(N & _)].
    - destruct pre as [|p [|p' [|p'' pre]]]; injection EQ; intros; subst; try discriminate; reflexivity.
    - exfalso. apply (N "41" 0.1); [right; left; reflexivity | reflexivity]. }
  cbn [a_power example_cfg] in XE. replace (Rpower (180 / 720) 0.5) with 0.5 in XE.
  - rewrite XE, M in LV. replace (0.1 * 0.5) with 0.05 in LV by lra. exact LV.
  - replace (180 / 720) with (Rpower 0.5 2).
    + rewrite Rpower_mult. replace (2 * 0.5) with 1 by lra. rewrite Rpower_1; lra.
    + replace 2 with (1 + 1) by lra. rewrite Rpower_plus, Rpower_1 by lra. lra.
Qed.
