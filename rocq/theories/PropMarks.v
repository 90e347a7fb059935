(** Property C98: precipitation over a whole station run with the density model marks2017. *)
From Coq Require Import List Arith Bool ZArith QArith Qcanon Lia.
From Verif Require Import Num StormsModel StormsSpec StormsProofs DataModel MarksModel MarksSpec MarksProofs.
Import ListNotations.
Local Open Scope Qc_scope.

Section C98.
Variables (interp : list num -> list num) (phase : list num -> list num -> list num * list num)
          (gauge : nat -> nat -> Qc) (drift : nat -> list num -> list num) (wday : nat -> Qc)
          (lo hi : option Qc) (ts thr : Qc) (steps width : nat).
Variables (rows temps : list (list num)) (spans : list (nat * nat)) (days0 : list Qc)
          (threaded : bool) (l : list mstate) (e : option merr).

(** The steps are completed one by one to the end of the record, unless a storm starts cold and
    none of its station totals is known, or a threaded run has no precipitation at all. *)
Theorem C98_ends :
  station_input thr steps width gauge rows temps spans ->
  marks_station_run interp phase gauge drift wday lo hi ts thr steps width threaded rows temps days0 = (l, e) ->
  let stops t er :=
    (er = NoStormId /\ threaded = true /\ ~ any_rain rows) \/
    (er = AllMissing /\ exists b, In (t, b) spans /\ no_totals thr rows temps width t b) in
  match e with
  | None => length l = length rows /\ forall t er, (t < length rows)%nat -> ~ stops t er
  | Some er => (length l < length rows)%nat /\ stops (length l) er /\
               forall t er', (t < length l)%nat -> ~ stops t er'
  end.
Proof.
  intros (H1 & H2 & H3 & H4 & H5 & H6) R. cbv zeta.
  exact (proj2 (whole_run interp phase gauge drift wday lo hi ts thr steps width rows temps spans days0
                  threaded H1 H2 H3 H4 H5 H6 l e R)).
Qed.

(** A step without precipitation in a storm: no precipitation, no snow; a storm's dry steps are
    such steps too, and what stations measured outside the storms is not used there. *)
Theorem C98_dry_step t o :
  station_input thr steps width gauge rows temps spans ->
  marks_station_run interp phase gauge drift wday lo hi ts thr steps width threaded rows temps days0 = (l, e) ->
  nth_error l t = Some o -> ~ raining rows spans t ->
  exists prev, nth_error (days0 :: map m_days l) t = Some prev /\
    m_days o = map (fun d => d + ts) prev /\
    let zeros := repeat (Some 0) (length prev) in
    m_precip o = drift t zeros /\ m_psnow o = zeros /\ m_dens o = zeros.
Proof.
  intros (H1 & H2 & H3 & H4 & H5 & H6) R Ho D.
  destruct (whole_run interp phase gauge drift wday lo hi ts thr steps width rows temps spans days0
                  threaded H1 H2 H3 H4 H5 H6 l e R) as (P & Q).
  destruct (P t o Ho) as (st & Hst & G & _).
  assert (Lt : (t < length l)%nat) by (apply nth_error_Some; congruence).
  assert (Lt' : (t < length rows)%nat) by (destruct e; lia).
  rewrite (step_dry interp phase gauge drift wday lo hi ts thr steps width rows temps spans H1 H2 H4 H5) in G by assumption.
  injection G as <-. exists (m_days st). split.
  - pose proof (map_nth_error m_days _ _ Hst) as B. exact B.
  - unfold after_dry. cbn [m_days m_precip m_psnow m_dens].
    assert (Z : zeros_of (map (fun d => d + ts) (m_days st)) = repeat (Some 0) (length (m_days st))).
    { generalize (m_days st). intros d. induction d as [|x d IH]; [reflexivity|]. cbn. f_equal. exact IH. }
    rewrite Z. auto.
Qed.

(** A step with precipitation: the storm is the one the step lies in; the grid is interpolated
    from the stations' shares and limited, then the wind moves it; below 2 C somewhere, density
    and percent snow come from the grid before the wind, otherwise they are zero. *)
Theorem C98_wet_step t o :
  station_input thr steps width gauge rows temps spans ->
  marks_station_run interp phase gauge drift wday lo hi ts thr steps width threaded rows temps days0 = (l, e) ->
  nth_error l t = Some o -> raining rows spans t ->
  let p := set_min_max (interp (used gauge rows spans width t)) lo hi in
  let tp := nth t temps [] in
  (exists k s, nth_error spans k = Some s /\ (fst s <= t <= snd s)%nat /\ m_id o = Id k /\
     forall k' s', nth_error spans k' = Some s' -> (fst s' <= t <= snd s')%nat -> k' = k) /\
  m_on o = true /\ m_precip o = drift t p /\
  (snow_cold tp -> phase tp p = (m_dens o, m_psnow o)) /\
  (~ snow_cold tp -> m_dens o = repeat (Some 0) (length p) /\ m_psnow o = repeat (Some 0) (length p)).
Proof.
  intros (H1 & H2 & H3 & H4 & H5 & H6) R Ho D. cbv zeta.
  destruct (whole_run interp phase gauge drift wday lo hi ts thr steps width rows temps spans days0
                  threaded H1 H2 H3 H4 H5 H6 l e R) as (P & Q).
  destruct (P t o Ho) as (st & Hst & G & _).
  assert (Lt : (t < length l)%nat) by (apply nth_error_Some; congruence).
  assert (Lt' : (t < length rows)%nat) by (destruct e; lia).
  destruct (rain_storm thr steps rows temps spans H5 H6 t D) as (k & s & Hk & Hs).
  rewrite (step_wet interp phase gauge drift wday lo hi ts thr steps width rows temps spans H1 H2 H4 H5 H6 t k s) in G by assumption.
  assert (Hsp := storm_span thr steps rows spans H6 k s Hk).
  assert (E : exists tot, o = after_wet interp phase gauge drift wday lo hi ts thr width rows spans t k (nth t temps []) tot st).
  { destruct ((t =? s_start s)%nat && cold (nth t temps [])); [destruct (missing (s_tot s)); [discriminate|]|];
      injection G as <-; eauto. }
  clear G. destruct E as (tot & ->). unfold after_wet, snow_grids.
  set (p := rain_grid interp gauge lo hi width rows spans t). fold p.
  assert (K : m_id (let '(den, ps) := if cold (nth t temps []) then phase (nth t temps []) p else (zeros_of p, zeros_of p) in
     let days := marks_step ts thr (m_days st) (MWet true (combine (combine p ps) (nth t temps []))) in
     mkM (Id k) true tot days (drift t p) ps den (map (fun d => wday t - d - q 1 1000) days)) = Id k)
    by (destruct (cold (nth t temps [])); [destruct (phase (nth t temps []) p)|]; reflexivity).
  split; [|].
  - exists k, (s_start s, s_end s). split; [exact Hsp|]. split; [exact Hs|]. split; [exact K|].
    intros k' s' Hk' Hs'. destruct (lt_eq_lt_dec k k') as [[L|Ek]|L]; [|auto|].
    + pose proof (starts_inj thr steps rows spans H6 _ _ _ _ Hsp Hk' L) as B. cbn in B. lia.
    + pose proof (starts_inj thr steps rows spans H6 _ _ _ _ Hk' Hsp L) as B. cbn in B. lia.
  - assert (Z : zeros_of p = repeat (Some 0) (length p)).
    { generalize p. intros d. induction d as [|x d IH]; [reflexivity|]. cbn. f_equal. exact IH. }
    destruct (cold (nth t temps [])) eqn:C.
    + destruct (phase (nth t temps []) p) as (den, ps) eqn:Ph. cbn [m_on m_precip m_dens m_psnow].
      split; [reflexivity|]. split; [reflexivity|]. split; [intros _; exact Ph|].
      intros B. exfalso. apply B, cold_iff, C.
    + cbn [m_on m_precip m_dens m_psnow]. split; [reflexivity|]. split; [reflexivity|].
      split; [intros B; apply cold_iff in B; congruence|]. intros _. rewrite Z. auto.
Qed.

(** The days since the last storm of a step with precipitation, cell by cell. *)
Theorem C98_days t o :
  station_input thr steps width gauge rows temps spans ->
  marks_station_run interp phase gauge drift wday lo hi ts thr steps width threaded rows temps days0 = (l, e) ->
  nth_error l t = Some o -> raining rows spans t ->
  let p := set_min_max (interp (used gauge rows spans width t)) lo hi in
  let tp := nth t temps [] in
  exists prev, nth_error (days0 :: map m_days l) t = Some prev /\
    (length p = length prev -> length (m_psnow o) = length prev -> length tp = length prev ->
     length (m_days o) = length prev /\
     forall x, (x < length prev)%nat ->
       let resets := snow_cold tp /\ (exists v, nth x p None = Some v /\ thr <= v) /\
                     (exists v, nth x (m_psnow o) None = Some v /\ q 1 2 <= v) in
       (resets -> nth x (m_days o) 0 = 0) /\
       (~ resets -> nth x (m_days o) 0 = nth x prev 0 + ts)).
Proof.
  intros (H1 & H2 & H3 & H4 & H5 & H6) R Ho D. cbv zeta.
  destruct (whole_run interp phase gauge drift wday lo hi ts thr steps width rows temps spans days0
                  threaded H1 H2 H3 H4 H5 H6 l e R) as (P & Q).
  destruct (P t o Ho) as (st & Hst & G & _).
  assert (Lt : (t < length l)%nat) by (apply nth_error_Some; congruence).
  assert (Lt' : (t < length rows)%nat) by (destruct e; lia).
  destruct (rain_storm thr steps rows temps spans H5 H6 t D) as (k & s & Hk & Hs).
  rewrite (step_wet interp phase gauge drift wday lo hi ts thr steps width rows temps spans H1 H2 H4 H5 H6 t k s) in G by assumption.
  assert (E : exists tot, o = after_wet interp phase gauge drift wday lo hi ts thr width rows spans t k (nth t temps []) tot st).
  { destruct ((t =? s_start s)%nat && cold (nth t temps [])); [destruct (missing (s_tot s)); [discriminate|]|];
      injection G as <-; eauto. }
  clear G. destruct E as (tot & ->). exists (m_days st).
  split; [exact (map_nth_error m_days _ _ Hst)|].
  unfold after_wet, snow_grids.
  set (p := set_min_max (interp (used gauge rows spans width t)) lo hi).
  fold (rain_grid interp gauge lo hi width rows spans t) in p. fold p.
  set (tp := nth t temps []). set (d := m_days st).
  destruct (if cold tp then phase tp p else (zeros_of p, zeros_of p)) as (den, ps).
  cbn [m_days m_psnow]. intros L1 L2 L3.
  assert (Lc : length (combine (combine (combine p ps) tp) d) = length d) by (rewrite !combine_length; lia).
  split.
  - cbn [marks_step]. unfold time_since_storm_pixel. rewrite !map_length. exact Lc.
  - intros x Hx. cbn [marks_step].
    set (g := map mk_ppx (combine (combine (combine p ps) tp) d)).
    assert (Lg : length g = length d) by (unfold g; rewrite map_length; exact Lc).
    pose proof (tssp_spec true ts thr (q 1 2) g x (mkPpx None None None 0) ltac:(lia)) as (S1 & S2).
    assert (En : nth x g (mkPpx None None None 0) = mkPpx (nth x p None) (nth x ps None) (nth x tp None) (nth x d 0)).
    { unfold g. change (mkPpx None None None 0) with (mk_ppx (None, None, None, 0)). rewrite map_nth.
      rewrite combine_nth by (rewrite !combine_length; lia).
      rewrite combine_nth by (rewrite !combine_length; lia).
      rewrite combine_nth by lia. reflexivity. }
    assert (Et : map p_dpt g = tp).
    { unfold g. rewrite map_map. cbn [mk_ppx p_dpt].
      apply (nth_ext _ _ None None); [rewrite map_length; lia|].
      intros y Hy. rewrite map_length, Lc in Hy.
      rewrite (nth_map_in _ _ _ _ y (None, None, None, 0) None) by lia.
      rewrite combine_nth by (rewrite !combine_length; lia).
      rewrite combine_nth by (rewrite !combine_length; lia).
      rewrite combine_nth by lia. reflexivity. }
    rewrite En, Et in S1, S2. cbn [p_p p_ps p_days] in S1, S2. unfold resets in S1, S2. split.
    + intros (A1 & A2 & A3). apply S1. destruct A1 as (A1 & A1'). auto.
    + intros B. apply S2. intros (_ & A1 & A1' & A2 & A3). apply B. split; [split; assumption|auto].
Qed.

(** The day of the last storm is the step's day of the water year less the days since. *)
Theorem C98_last_storm t o :
  station_input thr steps width gauge rows temps spans ->
  marks_station_run interp phase gauge drift wday lo hi ts thr steps width threaded rows temps days0 = (l, e) ->
  nth_error l t = Some o -> m_last o = map (fun d => wday t - d - q 1 1000) (m_days o).
Proof.
  intros (H1 & H2 & H3 & H4 & H5 & H6) R Ho.
  destruct (whole_run interp phase gauge drift wday lo hi ts thr steps width rows temps spans days0
                  threaded H1 H2 H3 H4 H5 H6 l e R) as (P & Q).
  destruct (P t o Ho) as (st & Hst & G & _). clear -G.
  unfold marks_distribute, marks_time in G.
  destruct (Qcltb _ _); [|injection G as <-; reflexivity].
  destruct (look _ _ _ _) as ((cur & last) & on). destruct (match cur with Some _ => _ | None => _ end); [discriminate| |];
    unfold mbind in G; destruct (distribute1 interp _) as [p0|]; try discriminate; destruct last as [s0|]; try discriminate;
    destruct (if (t =? s0)%nat && _ then _ else _); try discriminate;
    destruct (if on && _ then _ else _); injection G as <-; reflexivity.
Qed.

(** The storm total. *)
Theorem C98_storm_total t o :
  station_input thr steps width gauge rows temps spans ->
  marks_station_run interp phase gauge drift wday lo hi ts thr steps width threaded rows temps days0 = (l, e) ->
  nth_error l t = Some o ->
  total_after interp (fun g => set_min_max g lo hi) thr rows temps spans width (length days0) t (m_total o).
Proof.
  intros (H1 & H2 & H3 & H4 & H5 & H6) R Ho.
  destruct (whole_run interp phase gauge drift wday lo hi ts thr steps width rows temps spans days0
                  threaded H1 H2 H3 H4 H5 H6 l e R) as (P & Q).
  destruct (P t o Ho) as (st & Hst & _ & _ & T & _).
  assert (Z : zeros_of days0 = repeat (Some 0) (length days0)).
  { generalize days0. intros d. induction d as [|x d IH]; [reflexivity|]. cbn. f_equal. exact IH. }
  destruct T as [(T1 & T2)|(a & b & sums & T1 & T2 & T3 & T4 & T5 & T6)].
  - left. split; [|rewrite <- Z; exact T2]. intros a b Hi L. apply (T1 a b Hi). lia.
  - right. exists a, b, sums. split; [exact T1|]. split; [lia|]. split; [exact T3|]. split; [exact T4|].
    split; [exact T5|]. intros a' b' Hi L C. apply (T6 a' b' Hi ltac:(lia) C).
Qed.

(** The storm's number and the flag storming after a step. *)
Theorem C98_storm_id t o :
  station_input thr steps width gauge rows temps spans ->
  marks_station_run interp phase gauge drift wday lo hi ts thr steps width threaded rows temps days0 = (l, e) ->
  nth_error l t = Some o ->
  (m_on o = true <-> exists s, In s spans /\ (fst s <= t)%nat) /\
  match m_id o with
  | Unset => ~ any_rain rows /\ threaded = false
  | NaNId => any_rain rows /\ spans = []
  | Id k => spans <> [] /\
      ((k = 0%nat /\ forall s, In s spans -> (t < fst s)%nat) \/
       (exists s, nth_error spans k = Some s /\ (fst s <= t)%nat /\
          forall k' s', nth_error spans k' = Some s' -> (fst s' <= t)%nat -> (k' <= k)%nat))
  end.
Proof.
  intros HI R Ho. pose proof (C98_ends HI R) as En. cbv zeta in En. destruct HI as (H1 & H2 & H3 & H4 & H5 & H6).
  destruct (whole_run interp phase gauge drift wday lo hi ts thr steps width rows temps spans days0
                  threaded H1 H2 H3 H4 H5 H6 l e R) as (P & Q).
  destruct (P t o Ho) as (st & Hst & _ & _ & _ & I & O).
  assert (Lt : (t < length l)%nat) by (apply nth_error_Some; congruence).
  split.
  - rewrite O. split; intros (s & Hs & L); exists s; (split; [exact Hs|lia]).
  - destruct (m_id o) as [| |k]; [|exact I|].
    + split; [exact I|]. destruct threaded; [|reflexivity]. exfalso.
      destruct e as [er|].
      * destruct En as (_ & _ & E3). apply (E3 t NoStormId Lt). left. auto.
      * destruct En as (E1 & E2). apply (E2 t NoStormId ltac:(lia)). left. auto.
    + destruct I as (I1 & I2). split; [exact I1|]. destruct I2 as [(I2 & I3)|(s & I2 & I3 & I4)].
      * left. split; [exact I2|]. intros s Hs. specialize (I3 s Hs). lia.
      * right. exists s. split; [exact I2|]. split; [lia|]. intros k' s' Hk L. apply (I4 k' s' Hk). lia.
Qed.
End C98.
Print Assumptions C98_ends.
Print Assumptions C98_dry_step.
Print Assumptions C98_wet_step.
Print Assumptions C98_days.
Print Assumptions C98_last_storm.
Print Assumptions C98_storm_total.
Print Assumptions C98_storm_id.

(** A record without any precipitation: a threaded run ends at its first step, the same run
    without threads goes through. *)
Theorem C98_no_rain interp phase gauge drift wday lo hi ts thr steps width rows temps days0 threaded :
  station_input thr steps width gauge rows temps [] -> rows <> [] -> ~ any_rain rows ->
  let '(l, e) := marks_station_run interp phase gauge drift wday lo hi ts thr steps width threaded rows temps days0 in
  if threaded then l = [] /\ e = Some NoStormId else length l = length rows /\ e = None.
Proof.
  intros HI Ne NR.
  destruct (marks_station_run interp phase gauge drift wday lo hi ts thr steps width threaded rows temps days0) as (l, e) eqn:R.
  pose proof (C98_ends interp phase gauge drift wday lo hi ts thr steps width rows temps [] days0 threaded l e HI R) as En.
  cbv zeta in En. assert (Ln : (0 < length rows)%nat) by (destruct rows; [congruence|cbn; lia]).
  destruct e as [er|].
  - destruct En as (E1 & [(E2 & E3 & _)|(_ & b & [] & _)] & E4). rewrite E3. subst er.
    split; [|reflexivity]. destruct l as [|x l]; [reflexivity|]. exfalso.
    apply (E4 0%nat NoStormId); [cbn; lia|]. left. auto.
  - destruct En as (E1 & E2). destruct threaded; [|auto]. exfalso.
    apply (E2 0%nat NoStormId Ln). left. auto.
Qed.
Print Assumptions C98_no_rain.

(** Two storms of two stations, the second starts warm; a dry step closes a storm. *)
Definition ex_rows : list (list num) :=
  [[Some (q 3 1); Some 0]; [Some 0; Some 0]; [Some (q 1 4); Some 0];
   [Some (q 2 1); Some 1]; [Some (q 5 1); None]].
Definition ex_warm : list num := [Some (q 5 1); Some (q 4 1)].
Definition ex_cold : list num := [Some (q 5 1); Some (q (-1) 1)].
Definition ex_temps : list (list num) := [ex_cold; ex_cold; ex_cold; ex_warm; ex_cold].
Definition ex_phase (tp p : list num) : list num * list num :=
  (map (fun _ => Some (q 100 1)) p, map (fun _ => Some 1) p).
Definition ex_run (th : bool) (rows temps : list (list num)) :=
  marks_station_run (fun d => d) ex_phase (fun _ _ => 1) (fun _ g => g) (fun _ => 0) None None
    (q 1 24) (q 1 2) 1 2 th rows temps [0; 0].

Lemma ex_input rows temps spans :
  Forall (fun r => length r = 2%nat) rows -> nonneg rows -> length temps = length rows ->
  map row_span (tracking_by_station (q 1 2) 1 rows) = spans ->
  station_input (q 1 2) 1 2 (fun _ _ => 1) rows temps spans.
Proof.
  intros H1 H2 H3 <-. split; [exact H1|]. split; [exact H2|]. split; [now vm_compute|].
  split; [intros; reflexivity|]. split; [exact H3|]. exact (station_spec (q 1 2) 1 rows).
Qed.

Lemma ex_rows_input : station_input (q 1 2) 1 2 (fun _ _ => 1) ex_rows ex_temps [(0, 1); (3, 4)]%nat.
Proof.
  apply ex_input; [repeat constructor| |reflexivity|vm_compute; reflexivity].
  intros r v Hr Hv. cbn in Hr.
  repeat (destruct Hr as [<-|Hr]; [cbn in Hv; repeat (destruct Hv as [E|Hv]; [try discriminate E; injection E as <-; now vm_compute|]); contradiction|]).
  contradiction.
Qed.

Lemma ex_cold_cold : snow_cold ex_cold.
Proof. apply cold_iff. reflexivity. Qed.

Lemma ex_pair th rows temps :
  marks_station_run (fun d => d) ex_phase (fun _ _ => 1) (fun _ g => g) (fun _ => 0) None None
    (q 1 24) (q 1 2) 1 2 th rows temps [0; 0] = (fst (ex_run th rows temps), snd (ex_run th rows temps)).
Proof. fold (ex_run th rows temps). apply surjective_pairing. Qed.

Lemma ex_rain4 : raining ex_rows [(0, 1); (3, 4)]%nat 4.
Proof.
  split; [exists (3, 4)%nat; split; [right; left; reflexivity|cbn; lia]|].
  exists [Some (q 5 1); None], (q 5 1). split; [reflexivity|]. split; [left; reflexivity|now vm_compute].
Qed.
Lemma ex_at4 : exists o, nth_error (fst (ex_run true ex_rows ex_temps)) 4 = Some o /\
  m_total o = [Some (q 3 1); Some 0] /\ m_id o = Id 1.
Proof.
  destruct (nth_error (fst (ex_run true ex_rows ex_temps)) 4) as [o|] eqn:E.
  - exists o. split; [reflexivity|].
    assert (N : option_map (fun o => (m_total o, m_id o)) (nth_error (fst (ex_run true ex_rows ex_temps)) 4) =
                Some ([Some (q 3 1); Some 0], Id 1)) by (vm_compute; reflexivity).
    rewrite E in N. cbn [option_map] in N. split; congruence.
  - assert (N : nth_error (map m_id (fst (ex_run true ex_rows ex_temps))) 4 = Some (Id 1)) by (vm_compute; reflexivity).
    rewrite nth_error_map, E in N. discriminate N.
Qed.
Lemma ex_at2 : exists o, nth_error (fst (ex_run true ex_rows ex_temps)) 2 = Some o /\ m_on o = true.
Proof.
  destruct (nth_error (fst (ex_run true ex_rows ex_temps)) 2) as [o|] eqn:E.
  - exists o. split; [reflexivity|].
    assert (N : option_map m_on (nth_error (fst (ex_run true ex_rows ex_temps)) 2) = Some true) by (vm_compute; reflexivity).
    rewrite E in N. cbn [option_map] in N. congruence.
  - assert (N : nth_error (map m_on (fst (ex_run true ex_rows ex_temps))) 2 = Some true) by (vm_compute; reflexivity).
    rewrite nth_error_map, E in N. discriminate N.
Qed.

(** The storm total is not that of the storm a step lies in: a storm that starts warm leaves the
    total of the storm before. *)
Theorem C98_total_refuted :
  ~ forall interp phase gauge drift wday lo hi ts thr steps width rows temps spans days0 threaded l e t o a b sums,
      station_input thr steps width gauge rows temps spans ->
      marks_station_run interp phase gauge drift wday lo hi ts thr steps width threaded rows temps days0 = (l, e) ->
      nth_error l t = Some o -> raining rows spans t -> snow_cold (nth t temps []) ->
      In (a, b) spans -> (a <= t <= b)%nat -> storm_sums thr rows width a b sums ->
      m_total o = set_min_max (interp sums) lo hi.
Proof.
  intros H. destruct ex_at4 as (o & No & To & _).
  assert (S : storm_sums (q 1 2) ex_rows 2 3 4 [Some (q 7 1); None]).
  { apply (sums_storm (q 1 2) 1 2 ex_rows (proj1 ex_rows_input) 1 (mkStorm 3 4 [Some (q 7 1); None])).
    vm_compute. reflexivity. }
  specialize (H (fun d => d) ex_phase (fun _ _ => 1) (fun _ g => g) (fun _ => 0) None None (q 1 24) (q 1 2) 1%nat 2%nat
                ex_rows ex_temps _ [0; 0] true _ _ 4%nat o 3%nat 4%nat _ ex_rows_input
                (ex_pair true ex_rows ex_temps) No ex_rain4
                ex_cold_cold ltac:(right; left; reflexivity) ltac:(lia) S).
  rewrite To in H. vm_compute in H. discriminate H.
Qed.
Print Assumptions C98_total_refuted.

(** The flag storming does not say that a step lies in a storm: it is never cleared. *)
Theorem C98_flag_refuted :
  ~ forall interp phase gauge drift wday lo hi ts thr steps width rows temps spans days0 threaded l e t o,
      station_input thr steps width gauge rows temps spans ->
      marks_station_run interp phase gauge drift wday lo hi ts thr steps width threaded rows temps days0 = (l, e) ->
      nth_error l t = Some o -> m_on o = true -> exists s, In s spans /\ (fst s <= t <= snd s)%nat.
Proof.
  intros H. destruct ex_at2 as (o & No & On).
  destruct (H (fun d => d) ex_phase (fun _ _ => 1) (fun _ g => g) (fun _ => 0) None None (q 1 24) (q 1 2) 1%nat 2%nat
                ex_rows ex_temps _ [0; 0] true _ _ 2%nat o ex_rows_input
              (ex_pair true ex_rows ex_temps) No On) as (s & [<-|[<-|[]]] & L);
    cbn in L; lia.
Qed.
Print Assumptions C98_flag_refuted.

(** A run is not sure to finish although at every step some station reports: when every station
    misses one wet step of a storm that starts cold, the run ends there. *)
Theorem C98_finish_refuted :
  ~ forall interp phase gauge drift wday lo hi ts thr steps width rows temps spans days0 l e,
      station_input thr steps width gauge rows temps spans ->
      (forall r, In r rows -> exists v, In (Some v) r) ->
      marks_station_run interp phase gauge drift wday lo hi ts thr steps width false rows temps days0 = (l, e) ->
      e = None.
Proof.
  intros H.
  pose (rows := [[Some 1; None]; [None; Some (q 2 1)]] : list (list num)).
  assert (I : station_input (q 1 2) 1 2 (fun _ _ => 1) rows [ex_cold; ex_cold] [(0, 1)]%nat).
  { apply ex_input; [repeat constructor| |reflexivity|vm_compute; reflexivity].
    intros r v Hr Hv. unfold rows in Hr. cbn in Hr.
    destruct Hr as [<-|[<-|[]]]; cbn in Hv; destruct Hv as [E|[E|[]]]; try discriminate E;
      injection E as <-; now vm_compute. }
  assert (E : snd (ex_run false rows [ex_cold; ex_cold]) = None).
  { refine (H (fun d => d) ex_phase (fun _ _ => 1) (fun _ g => g) (fun _ => 0) None None (q 1 24) (q 1 2) 1%nat 2%nat
              rows [ex_cold; ex_cold] _ [0; 0] _ _ I _ (ex_pair false rows [ex_cold; ex_cold])).
    intros r [<-|[<-|[]]]; eexists; [left|right; left]; reflexivity. }
  vm_compute in E. discriminate E.
Qed.
Print Assumptions C98_finish_refuted.

(** What a step gives depends on what the stations measure later: adding a step to the record changes the precipitation
    of the steps before it. *)
Theorem C98_hindsight_refuted :
  ~ forall interp phase gauge drift wday lo hi ts thr steps width rows temps spans rows' temps' spans' days0 threaded l e l' e' t o o',
      station_input thr steps width gauge rows temps spans ->
      station_input thr steps width gauge (rows ++ rows') (temps ++ temps') spans' ->
      marks_station_run interp phase gauge drift wday lo hi ts thr steps width threaded rows temps days0 = (l, e) ->
      marks_station_run interp phase gauge drift wday lo hi ts thr steps width threaded (rows ++ rows') (temps ++ temps') days0 = (l', e') ->
      nth_error l t = Some o -> nth_error l' t = Some o' -> m_precip o = m_precip o'.
Proof.
  intros H.
  pose (rows := [[Some (q 2 1); Some 1]; [Some 0; Some 0]; [Some 0; Some 0]] : list (list num)).
  pose (more := [[Some (q 1 4); Some 0]] : list (list num)).
  pose (temps := [ex_cold; ex_cold; ex_cold]).
  assert (I : station_input (q 1 2) 1 2 (fun _ _ => 1) rows temps [(0, 1)]%nat).
  { apply ex_input; [repeat constructor| |reflexivity|vm_compute; reflexivity].
    intros r v Hr Hv. cbn in Hr.
    repeat (destruct Hr as [<-|Hr]; [cbn in Hv; repeat (destruct Hv as [E|Hv]; [injection E as <-; now vm_compute|]); contradiction|]). contradiction. }
  assert (I' : station_input (q 1 2) 1 2 (fun _ _ => 1) (rows ++ more) (temps ++ [ex_cold]) [(0, 1)]%nat).
  { apply ex_input; [repeat constructor| |reflexivity|vm_compute; reflexivity].
    intros r v Hr Hv. cbn in Hr.
    repeat (destruct Hr as [<-|Hr]; [cbn in Hv; repeat (destruct Hv as [E|Hv]; [injection E as <-; now vm_compute|]); contradiction|]). contradiction. }
  assert (N : exists o o', nth_error (fst (ex_run false rows temps)) 0 = Some o /\ nth_error (fst (ex_run false (rows ++ more) (temps ++ [ex_cold]))) 0 = Some o' /\
    map (option_map this) (m_precip o) <> map (option_map this) (m_precip o')).
  { vm_compute. do 2 eexists. split; [reflexivity|]. split; [reflexivity|]. discriminate. }
  destruct N as (o & o' & A & B & D). apply D. f_equal.
  exact (H (fun d => d) ex_phase (fun _ _ => 1) (fun _ g => g) (fun _ => 0) None None (q 1 24) (q 1 2) 1%nat 2%nat
    rows temps _ more [ex_cold] _ [0; 0] false _ _ _ _ 0%nat o o' I I' (ex_pair false rows temps) (ex_pair false (rows ++ more) (temps ++ [ex_cold])) A B).
Qed.
Print Assumptions C98_hindsight_refuted.

(** The example in full: storm numbers, totals, precipitation with what fell outside the storms
    ((3 + 1/4 + 2 + 5) / (3 + 2 + 5) of every value), days since the last storm. *)
Example C98_case :
  map m_id (fst (ex_run true ex_rows ex_temps)) = [Id 0; Id 0; Id 0; Id 1; Id 1] /\
  map (fun o => map (option_map this) (m_precip o)) (fst (ex_run true ex_rows ex_temps)) =
    map (map (option_map this)) [[Some (q 123 40); Some 0]; [Some 0; Some 0]; [Some 0; Some 0]; [Some (q 41 20); Some 1]; [Some (q 41 8); None]] /\
  map (fun o => map this (m_days o)) (fst (ex_run true ex_rows ex_temps)) =
    map (map this) [[0; q 1 24]; [q 1 24; q 1 12]; [q 1 12; q 1 8]; [q 1 8; q 1 6]; [0; q 5 24]] /\
  snd (ex_run true ex_rows ex_temps) = None /\
  ex_run true [[Some 0; None]] [ex_cold] = ([], Some NoStormId) /\
  snd (ex_run false [[Some 0; None]] [ex_cold]) = None.
Proof. vm_compute. repeat split. Qed.
