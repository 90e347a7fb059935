(** C99: the precipitation module over a whole run with the storm counters of
    [time_since_storm] (gridded runs, and station runs with undercatch adjustment and a density
    model other than marks2017). *)
From Coq Require Import List Arith Lia Bool ZArith QArith Qcanon.
From Verif Require Import Num StormsModel DataModel DataProofs MarksModel SusongModel StormsSpec SusongSpec SusongProofs.
Import ListNotations.
Local Open Scope Qc_scope.

Section C99.
Context (interp : list num -> list num) (phase : list num -> list num -> list num * list num)
        (gauge : nat -> nat -> Qc) (drift : nat -> list num -> list num) (wday : nat -> Qc)
        (lo hi : option Qc) (ts mass time : Qc) (width : nat) (rows temps : list (list num)) (days0 : list Qc)
        (l : list dstate) (e : option merr).

(** A run completes every step, whatever the stations report: a step without any value counts
    as dry. *)
Theorem C99_completes :
  run_input width gauge phase rows temps ->
  sus_run interp phase gauge drift wday lo hi ts mass time rows temps days0 = (l, e) ->
  e = None /\ length l = length rows.
Proof.
  intros (_ & _ & _ & L & _) R. destruct (from_ok _ _ _ _ _ _ _ _ _ _ _ _ _ _ _ _ L R) as (A & B & _). auto.
Qed.

Lemma step_of t o :
  run_input width gauge phase rows temps ->
  sus_run interp phase gauge drift wday lo hi ts mass time rows temps days0 = (l, e) ->
  nth_error l t = Some o -> (t < length rows)%nat /\
  exists st, nth_error (mkD [] [] [] days0 (zeros_of days0) [] :: l) t = Some st /\
    nth_error (days0 :: map d_days l) t = Some (d_days st) /\
    nth_error (repeat (Some 0) (length days0) :: map d_total l) t = Some (d_total st) /\
    sus_distribute interp phase gauge drift wday lo hi ts mass time t (nth t rows []) (nth t temps []) st = MOk o.
Proof.
  intros (_ & _ & _ & L & _) R Ho. destruct (from_ok _ _ _ _ _ _ _ _ _ _ _ _ _ _ _ _ L R) as (_ & B & N).
  split; [rewrite <- B; apply nth_error_Some; congruence|].
  destruct (N t o Ho) as (st & A & D). exists st. split; [exact A|]. split; [|split; [|exact D]].
  - change (days0 :: map d_days l) with (map d_days (mkD [] [] [] days0 (zeros_of days0) [] :: l)). rewrite nth_error_map, A. reflexivity.
  - assert (Z : repeat (Some 0) (length days0) = zeros_of days0).
    { clear. induction days0 as [|x d IH]; [reflexivity|]. cbn. f_equal. exact IH. }
    rewrite Z. change (zeros_of days0 :: map d_total l) with (map d_total (mkD [] [] [] days0 (zeros_of days0) [] :: l)).
    rewrite nth_error_map, A. reflexivity.
Qed.

(** A step without precipitation: no precipitation and no snow (wind may act on that grid of
    zeros), the days grow by one time step and the storm total stays. *)
Theorem C99_dry_step t o :
  run_input width gauge phase rows temps ->
  sus_run interp phase gauge drift wday lo hi ts mass time rows temps days0 = (l, e) ->
  nth_error l t = Some o -> ~ measured rows t ->
  exists prev, nth_error (days0 :: map d_days l) t = Some prev /\
    nth_error (repeat (Some 0) (length days0) :: map d_total l) t = Some (d_total o) /\
    d_days o = map (fun d => d + ts) prev /\
    let zeros := repeat (Some 0) (length prev) in
    d_precip o = drift t zeros /\ d_psnow o = zeros /\ d_dens o = zeros.
Proof.
  intros IN R Ho D. destruct (step_of t o IN R Ho) as (T & st & _ & A & B & E).
  unfold sus_distribute, sus_time in E. rewrite (adjusted_row _ _ _ _ _ IN t T) in E.
  destruct (Qcltb_spec 0 (pd_sum (adjusted gauge rows width t))) as [L|L].
  { exfalso. apply D. apply (adjusted_wet _ _ _ _ _ IN t T). exact L. }
  cbn [mbind] in E. injection E as <-. cbn [d_total d_days d_precip d_psnow d_dens].
  exists (d_days st). split; [exact A|]. split; [exact B|]. split; [reflexivity|].
  assert (Z : zeros_of (map (fun d => d + ts) (d_days st)) = repeat (Some 0) (length (d_days st))).
  { clear. induction (d_days st) as [|x d IH]; [reflexivity|]. cbn. f_equal. exact IH. }
  cbv zeta. rewrite Z. auto.
Qed.

(** A step with precipitation: the grid is interpolated from the adjusted values and limited;
    density and percent of snow belong to that grid; the wind moves it afterwards. *)
Theorem C99_wet_step t o :
  run_input width gauge phase rows temps ->
  sus_run interp phase gauge drift wday lo hi ts mass time rows temps days0 = (l, e) ->
  nth_error l t = Some o -> measured rows t ->
  let p := set_min_max (interp (adjusted gauge rows width t)) lo hi in
  d_precip o = drift t p /\ phase (nth t temps []) p = (d_dens o, d_psnow o).
Proof.
  intros IN R Ho D p. destruct (step_of t o IN R Ho) as (T & st & _ & A & B & E).
  unfold sus_distribute, sus_time in E. rewrite (adjusted_row _ _ _ _ _ IN t T) in E.
  apply (adjusted_wet _ _ _ _ _ IN t T) in D. destruct (Qcltb_spec 0 (pd_sum (adjusted gauge rows width t))) as [L|L]; [|contradiction].
  unfold distribute1 in E. destruct (forallb _ _); [discriminate E|]. cbn [mbind] in E. fold p in E.
  destruct (phase (nth t temps []) p) as (den, ps) eqn:F. cbn [mbind] in E. injection E as <-. auto.
Qed.

(** The storm counters of such a step.  Without any snow in the grid every cell's days grow by
    1 (whatever the time step) and its storm total is 0.  Otherwise a cell with snow records
    the precipitation of this step as its storm total; another one keeps its total, unless its
    days reach [time]: then it is 0.  The days become 0 exactly where the total is at least
    [mass], whether it snows there or not, and grow by 1 elsewhere. *)
Theorem C99_storm t o :
  run_input width gauge phase rows temps ->
  sus_run interp phase gauge drift wday lo hi ts mass time rows temps days0 = (l, e) ->
  nth_error l t = Some o -> measured rows t ->
  let p := set_min_max (interp (adjusted gauge rows width t)) lo hi in
  exists prev ptot, nth_error (days0 :: map d_days l) t = Some prev /\
    nth_error (repeat (Some 0) (length days0) :: map d_total l) t = Some ptot /\
    (length p = length prev -> length (d_psnow o) = length prev -> length ptot = length prev ->
     length (d_days o) = length prev /\ length (d_total o) = length prev /\
     forall x, (x < length prev)%nat ->
       let total := nth x (d_total o) None in
       let days := nth x (d_days o) 0 in
       let days' := nth x prev 0 + 1 in
       (no_snow (d_psnow o) -> days = days' /\ total = Some 0) /\
       (~ no_snow (d_psnow o) ->
          (snows (d_psnow o) x -> total = nth x p None) /\
          (~ snows (d_psnow o) x -> days' < time -> total = nth x ptot None) /\
          (~ snows (d_psnow o) x -> time <= days' -> total = Some 0) /\
          ((exists v, total = Some v /\ mass <= v) -> days = 0) /\
          (~ (exists v, total = Some v /\ mass <= v) -> days = days'))).
Proof.
  intros IN R Ho D p. destruct (step_of t o IN R Ho) as (T & st & _ & A & B & E).
  exists (d_days st), (d_total st). split; [exact A|]. split; [exact B|].
  unfold sus_distribute, sus_time in E. rewrite (adjusted_row _ _ _ _ _ IN t T) in E.
  apply (adjusted_wet _ _ _ _ _ IN t T) in D. destruct (Qcltb_spec 0 (pd_sum (adjusted gauge rows width t))) as [L|L]; [|contradiction].
  unfold distribute1 in E. destruct (forallb _ _); [discriminate E|]. cbn [mbind] in E. fold p in E.
  assert (NN : forall v, In (Some v) (snd (phase (nth t temps []) p)) -> 0 <= v) by (destruct IN as (_ & _ & _ & _ & N); intros v; apply N).
  destruct (phase (nth t temps []) p) as (den, ps) eqn:F. cbn [snd] in NN. cbn [mbind] in E. injection E as <-.
  cbn [d_psnow d_days d_total]. intros L1 L2 L3. rewrite !map_length.
  rewrite (storm_cells_length mass time p ps (d_days st) (d_total st) L1 L2 L3). split; [reflexivity|]. split; [reflexivity|].
  intros x X. cbv zeta.
  pose proof (storm_cells_nth mass time p ps (d_days st) (d_total st) x L1 L2 L3 X) as C.
  assert (C1 : nth x (map fst (storm_cells mass time p ps (d_days st) (d_total st))) 0 = fst (nth x (storm_cells mass time p ps (d_days st) (d_total st)) (0, None)))
    by (change 0 with (fst (0 : Qc, None : num)) at 1; apply map_nth).
  assert (C2 : nth x (map snd (storm_cells mass time p ps (d_days st) (d_total st))) None = snd (nth x (storm_cells mass time p ps (d_days st) (d_total st)) (0, None)))
    by (change (@None Qc) with (snd (0 : Qc, None : num)) at 1; apply map_nth).
  rewrite C1, C2, C. clear C C1 C2. unfold storm_cell. destruct (none_spec ps NN) as [NS|NS].
  - split; [intros _; split; reflexivity | intros H; contradiction].
  - split; [intros H; contradiction|]. intros _. cbn [fst snd].
    assert (SN : geb (nth x ps None) (q 1 2) = true <-> snows ps x).
    { unfold snows, geb. destruct (nth x ps None) as [v|]; [|split; [discriminate|intros (v & V & _); discriminate V]].
      destruct (Qcleb_spec (q 1 2) v); split; try discriminate; eauto.
      intros (w & [= <-] & W). contradiction. }
    assert (MS : forall s, geb s mass = true <-> exists v, s = Some v /\ mass <= v).
    { intros [v|]; unfold geb; [|split; [discriminate|intros (v & V & _); discriminate V]].
      destruct (Qcleb_spec mass v); split; try discriminate; eauto. intros (w & [= <-] & W). contradiction. }
    destruct (geb (nth x ps None) (q 1 2)) eqn:G.
    + split; [reflexivity|]. split; [intros H; exfalso; apply H; apply SN; reflexivity|].
      split; [intros H; exfalso; apply H; apply SN; reflexivity|].
      rewrite <- MS. destruct (geb (nth x p None) mass); split; congruence.
    + split; [intros H; apply SN in H; discriminate H|].
      destruct (Qcleb_spec time (nth x (d_days st) 0 + 1)) as [TT|TT].
      * split; [intros _ H; exfalso; exact (Qclt_not_le _ _ H TT)|]. split; [reflexivity|].
        rewrite <- MS. destruct (geb (Some 0) mass); split; congruence.
      * split; [reflexivity|]. split; [intros _ H; contradiction|].
        rewrite <- MS. destruct (geb (nth x (d_total st) None) mass); split; congruence.
Qed.

(** The day of the last storm. *)
Theorem C99_last_storm t o :
  run_input width gauge phase rows temps ->
  sus_run interp phase gauge drift wday lo hi ts mass time rows temps days0 = (l, e) ->
  nth_error l t = Some o -> d_last o = map (fun d => wday t - d - q 1 1000) (d_days o).
Proof.
  intros IN R Ho. destruct (step_of t o IN R Ho) as (_ & st & _ & _ & _ & E).
  unfold sus_distribute, sus_time in E. destruct (Qcltb _ _).
  - unfold distribute1 in E. destruct (forallb _ _); [discriminate E|]. cbn [mbind] in E.
    destruct (phase _ _). cbn [mbind] in E. injection E as <-. reflexivity.
  - cbn [mbind] in E. injection E as <-. reflexivity.
Qed.

(** All grids have the same size. *)
Definition sized : Prop :=
  (forall d, length (interp d) = length days0) /\ (forall tp p, length (snd (phase tp p)) = length p).

Lemma sizes t o :
  run_input width gauge phase rows temps -> sized ->
  sus_run interp phase gauge drift wday lo hi ts mass time rows temps days0 = (l, e) ->
  nth_error (mkD [] [] [] days0 (zeros_of days0) [] :: l) t = Some o ->
  length (d_days o) = length days0 /\ length (d_total o) = length days0.
Proof.
  intros IN (S1 & S2) R. revert o. induction t as [|t IH]; intros o Ho; cbn [nth_error] in Ho.
  { injection Ho as <-. split; [reflexivity|]. unfold zeros_of. cbn [d_total]. apply map_length. }
  destruct (step_of t o IN R Ho) as (T & st & A & _ & _ & E). destruct (IH st A) as (L1 & L2).
  unfold sus_distribute, sus_time in E. destruct (Qcltb _ _).
  - unfold distribute1 in E. destruct (forallb _ _); [discriminate E|]. cbn [mbind] in E.
    match type of E with context [phase ?a ?b] => set (p := b) in *; pose proof (S2 a p) as LP; destruct (phase a p) as (den, ps) end.
    cbn [mbind] in E. injection E as <-. cbn [d_days d_total]. cbn [snd] in LP.
    assert (Lp : length p = length days0).
    { unfold p. rewrite (proj1 (DataProofs.set_min_max_spec _ lo hi)). apply S1. }
    rewrite !map_length, storm_cells_length; lia.
  - cbn [mbind] in E. injection E as <-. cbn [d_days d_total]. rewrite map_length. auto.
Qed.

(** One step of a cell where it does not snow, while it does elsewhere. *)
Lemma kept t o o' x v :
  run_input width gauge phase rows temps -> sized ->
  sus_run interp phase gauge drift wday lo hi ts mass time rows temps days0 = (l, e) ->
  nth_error l t = Some o -> nth_error l (S t) = Some o' -> (x < length days0)%nat -> nth x (d_total o) None = Some v ->
  (measured rows (S t) -> ~ no_snow (d_psnow o') /\ ~ snows (d_psnow o') x /\ nth x (d_days o) 0 + 1 < time) ->
  nth x (d_total o') None = Some v /\ (measured rows (S t) -> mass <= v -> nth x (d_days o') 0 = 0).
Proof.
  intros IN SZ R Ho Ho' X V H.
  destruct (sizes (S t) o IN SZ R Ho) as (L1 & L2).
  assert (PD : nth_error (days0 :: map d_days l) (S t) = Some (d_days o)) by (cbn [nth_error]; rewrite nth_error_map, Ho; reflexivity).
  assert (PT : nth_error (repeat (Some 0) (length days0) :: map d_total l) (S t) = Some (d_total o)) by (cbn [nth_error]; rewrite nth_error_map, Ho; reflexivity).
  assert (T : (S t < length rows)%nat) by (destruct (step_of _ _ IN R Ho') as (T & _); exact T).
  destruct (Qclt_le_dec 0 (pd_sum (adjusted gauge rows width (S t)))) as [M|M].
  - apply (adjusted_wet _ _ _ _ _ IN (S t) T) in M. destruct (H M) as (H1 & H2 & H3).
    destruct (C99_storm (S t) o' IN R Ho' M) as (prev & ptot & A & B & C). rewrite PD in A. injection A as <-. rewrite PT in B. injection B as <-.
    destruct (C99_wet_step (S t) o' IN R Ho' M) as (_ & F).
    assert (Lp : length (set_min_max (interp (adjusted gauge rows width (S t))) lo hi) = length days0)
      by (rewrite (proj1 (DataProofs.set_min_max_spec _ lo hi)); apply SZ).
    assert (Ls : length (d_psnow o') = length days0).
    { pose proof (proj2 SZ (nth (S t) temps []) (set_min_max (interp (adjusted gauge rows width (S t))) lo hi)) as S2. rewrite F in S2. cbn [snd] in S2. lia. }
    destruct (C ltac:(lia) ltac:(lia) ltac:(lia)) as (_ & _ & D). specialize (D x ltac:(lia)). cbv zeta in D.
    destruct D as (_ & D). specialize (D H1). destruct D as (_ & D2 & _ & D4 & _). specialize (D2 H2 H3). rewrite V in D2.
    split; [exact D2|]. intros _ MV. apply D4. exists v. auto.
  - assert (M' : ~ measured rows (S t)) by (intros C; apply (adjusted_wet _ _ _ _ _ IN (S t) T) in C; exact (Qclt_not_le _ _ C M)).
    destruct (C99_dry_step (S t) o' IN R Ho' M') as (prev & _ & B & _). rewrite PT in B. injection B as B. rewrite <- B.
    split; [exact V|]. intros C. contradiction.
Qed.

(** What a cell recorded in its last snow stays its storm total, and makes every later step with
    precipitation a new storm there, as long as such steps bring snow somewhere in the grid,
    none to the cell itself, and come before its days reach [time]. *)
Theorem C99_held s t x os ot v :
  run_input width gauge phase rows temps -> sized ->
  sus_run interp phase gauge drift wday lo hi ts mass time rows temps days0 = (l, e) ->
  (s <= t)%nat -> nth_error l s = Some os -> nth_error l t = Some ot -> (x < length days0)%nat ->
  nth x (d_total os) None = Some v ->
  (forall i o o', (s <= i < t)%nat -> nth_error l i = Some o -> nth_error l (S i) = Some o' -> measured rows (S i) ->
     ~ no_snow (d_psnow o') /\ ~ snows (d_psnow o') x /\ nth x (d_days o) 0 + 1 < time) ->
  nth x (d_total ot) None = Some v /\ ((s < t)%nat -> measured rows t -> mass <= v -> nth x (d_days ot) 0 = 0).
Proof.
  intros IN SZ R ST Hs Ht X V H. revert ot Ht. induction ST as [|t ST IH]; intros ot Ht.
  { rewrite Hs in Ht. injection Ht as <-. split; [exact V|]. intros; lia. }
  destruct (nth_error l t) as [o|] eqn:Ho.
  2:{ exfalso. apply nth_error_None in Ho. assert (S t < length l)%nat by (apply nth_error_Some; congruence). lia. }
  destruct (IH (fun i a b Hi => H i a b ltac:(lia)) o eq_refl) as (V' & _).
  destruct (kept t o ot x v IN SZ R Ho Ht X V' (H t o ot ltac:(lia) Ho Ht)) as (A & B). split; [exact A|]. intros _. exact B.
Qed.

(** So rain that goes on at a cell while it snows elsewhere leaves its days since the last
    storm at 0, for any length of time. *)
Theorem C99_rain_on s t x os ot v :
  run_input width gauge phase rows temps -> sized ->
  sus_run interp phase gauge drift wday lo hi ts mass time rows temps days0 = (l, e) ->
  (s <= t)%nat -> nth_error l s = Some os -> nth_error l t = Some ot -> (x < length days0)%nat ->
  nth x (d_total os) None = Some v -> mass <= v -> nth x (d_days os) 0 = 0 -> 1 < time ->
  (forall i o, (s < i <= t)%nat -> nth_error l i = Some o ->
     measured rows i /\ ~ no_snow (d_psnow o) /\ ~ snows (d_psnow o) x) ->
  nth x (d_days ot) 0 = 0.
Proof.
  intros IN SZ R ST Hs Ht X V MV D0 TM H.
  assert (G : nth x (d_total ot) None = Some v /\ nth x (d_days ot) 0 = 0); [|exact (proj2 G)].
  revert ot Ht. induction ST as [|t ST IH]; intros ot Ht.
  { rewrite Hs in Ht. injection Ht as <-. auto. }
  destruct (nth_error l t) as [o|] eqn:Ho.
  2:{ exfalso. apply nth_error_None in Ho. assert (S t < length l)%nat by (apply nth_error_Some; congruence). lia. }
  destruct (IH (fun i a Hi => H i a ltac:(lia)) o eq_refl) as (V' & D').
  destruct (H (S t) ot ltac:(lia) Ht) as (M & N & SN).
  destruct (kept t o ot x v IN SZ R Ho Ht X V') as (A & B).
  { intros _. split; [exact N|]. split; [exact SN|]. rewrite D', Qcplus_0_l. exact TM. }
  auto.
Qed.

(** What a step gives does not depend on what is measured later: the same steps begin the run of a longer record. *)
Theorem C99_no_hindsight rows' temps' l' e' :
  run_input width gauge phase rows temps ->
  sus_run interp phase gauge drift wday lo hi ts mass time rows temps days0 = (l, e) ->
  sus_run interp phase gauge drift wday lo hi ts mass time (rows ++ rows') (temps ++ temps') days0 = (l', e') ->
  firstn (length rows) l' = l.
Proof.
  intros IN R R'. destruct (C99_completes IN R) as (E & _). destruct IN as (_ & _ & _ & L & _).
  pose proof (from_app interp phase gauge drift wday lo hi ts mass time rows temps rows' temps' 0 (mkD [] [] [] days0 (zeros_of days0) []) L) as H.
  unfold sus_run in *. rewrite R, R' in H. exact (H E).
Qed.
End C99.
Print Assumptions C99_completes.
Print Assumptions C99_dry_step.
Print Assumptions C99_wet_step.
Print Assumptions C99_storm.
Print Assumptions C99_last_storm.
Print Assumptions C99_held.
Print Assumptions C99_rain_on.
Print Assumptions C99_no_hindsight.

(** ** A run: two cells measured by their own station; snow below 0 C.  Both get snow at the first
    step, then the first one gets rain for as long as one likes while the second gets snow. *)
Definition ex_phase (tp p : list num) : list num * list num :=
  (p, map (fun c => if geb (nth c tp None) 0 then Some 0 else Some 1) (seq 0 (length p))).
Definition ex_rows (n : nat) : list (list num) := repeat [Some 1; Some 1] (S n).
Definition ex_temps (n : nat) : list (list num) := [Some (q (-1) 1); Some (q (-1) 1)] :: repeat [Some (q 2 1); Some (q (-1) 1)] n.
Definition pair_up (d : list num) : list num := [nth 0 d None; nth 1 d None].
Definition ex_run (n : nat) := sus_run pair_up ex_phase (fun _ _ => 1) (fun _ p => p) (fun _ => 0) None None (q 1 24) (q 1 2) (q 4 1) (ex_rows n) (ex_temps n) [0; 0].
Lemma ex_input n : run_input 2 (fun _ _ => 1) ex_phase (ex_rows n) (ex_temps n).
Proof.
  split; [|split; [|split; [|split]]].
  - apply Forall_forall. intros r H. apply repeat_spec in H. subst r. reflexivity.
  - intros r v H I. apply repeat_spec in H. subst r. destruct I as [[= <-]|[[= <-]|[]]]; discriminate.
  - reflexivity.
  - unfold ex_temps, ex_rows. cbn [length]. rewrite !repeat_length. reflexivity.
  - intros tp p v H. cbn [ex_phase snd] in H. apply in_map_iff in H. destruct H as (c & E & _).
    destruct (geb _ _); injection E as <-; discriminate.
Qed.
Lemma ex_sized : sized pair_up ex_phase [0; 0].
Proof. split; [reflexivity|]. intros tp p. cbn [ex_phase snd]. rewrite map_length, seq_length. reflexivity. Qed.
Lemma ex_measured n t : (t <= n)%nat -> measured (ex_rows n) t.
Proof.
  intros T. exists [Some 1; Some 1], 1. split; [|split; [now left | reflexivity]].
  unfold ex_rows. rewrite (nth_error_nth' _ [Some 1; Some 1]) by (rewrite repeat_length; lia). f_equal. apply nth_repeat.
Qed.
Lemma ex_adjusted n t : (t <= n)%nat -> set_min_max (pair_up (adjusted (fun _ _ => 1) (ex_rows n) 2 t)) None None = [Some (1 * 1); Some (1 * 1)].
Proof.
  intros T. unfold adjusted, cell. cbn [seq map].
  assert (E : nth t (ex_rows n) [] = [Some 1; Some 1]).
  { unfold ex_rows. rewrite (nth_indep _ [] [Some 1; Some 1]) by (rewrite repeat_length; lia). apply nth_repeat. }
  rewrite E. reflexivity.
Qed.
Lemma ex_psnow n l e t o : ex_run n = (l, e) -> nth_error l t = Some o ->
  d_psnow o = [Some (if (t =? 0)%nat then 1 else 0); Some 1].
Proof.
  intros R Ho. destruct (C99_completes _ _ _ _ _ _ _ _ _ _ _ _ _ _ _ _ (ex_input n) R) as (_ & L).
  assert (T : (t <= n)%nat).
  { assert (t < length l)%nat by (apply nth_error_Some; congruence). unfold ex_rows in L. rewrite repeat_length in L. lia. }
  destruct (C99_wet_step _ _ _ _ _ _ _ _ _ _ _ _ _ _ _ _ t o (ex_input n) R Ho (ex_measured n t T)) as (_ & F).
  rewrite (ex_adjusted n t T) in F. unfold ex_phase in F. cbn [length seq map] in F. injection F as _ F. rewrite <- F.
  destruct t as [|t]; [reflexivity|]. unfold ex_temps. cbn [nth Nat.eqb].
  assert (E : nth t (repeat [Some (q 2 1); Some (q (-1) 1)] n) [] = [Some (q 2 1); Some (q (-1) 1)]).
  { rewrite (nth_indep _ [] [Some (q 2 1); Some (q (-1) 1)]) by (rewrite repeat_length; lia). apply nth_repeat. }
  rewrite E. reflexivity.
Qed.
Lemma ex_first n l e o : ex_run n = (l, e) -> nth_error l 0 = Some o ->
  nth 0 (d_total o) None = Some (1 * 1) /\ nth 0 (d_days o) 0 = 0.
Proof.
  intros R Ho.
  destruct (C99_storm _ _ _ _ _ _ _ _ _ _ _ _ _ _ _ _ 0 o (ex_input n) R Ho (ex_measured n 0 ltac:(lia))) as (prev & ptot & A & B & C).
  cbn [nth_error] in A, B. injection A as <-. injection B as <-.
  rewrite (ex_adjusted n 0 ltac:(lia)), (ex_psnow n l e 0 o R Ho) in C. cbn [Nat.eqb] in C.
  destruct (C eq_refl eq_refl eq_refl) as (_ & _ & D). specialize (D 0%nat ltac:(cbn; lia)). cbv zeta in D. destruct D as (_ & D).
  assert (N : ~ no_snow [Some 1; Some 1]) by (intros N; specialize (N (Some 1) (or_introl eq_refl)); discriminate N).
  destruct (D N) as (D1 & _ & _ & D4 & _).
  assert (S : snows [Some 1; Some 1] 0) by (exists 1; split; [reflexivity | discriminate]).
  specialize (D1 S). cbn [nth] in D1. split; [exact D1|]. apply D4. exists (1 * 1). split; [exact D1 | discriminate].
Qed.
(** A storm does not end at a cell when it has not snowed there for some number of steps. *)
Theorem C99_storm_ends_refuted :
  ~ exists N, forall interp phase gauge drift wday lo hi ts mass time width rows temps days0 l e s x o,
      run_input width gauge phase rows temps -> sized interp phase days0 ->
      sus_run interp phase gauge drift wday lo hi ts mass time rows temps days0 = (l, e) -> 0 < ts -> 0 < mass ->
      (x < length days0)%nat -> nth_error l (s + N) = Some o ->
      (forall i o', (s <= i <= s + N)%nat -> nth_error l i = Some o' -> ~ snows (d_psnow o') x) ->
      0 < nth x (d_days o) 0.
Proof.
  intros (N & H). destruct (ex_run (1 + N)) as (l, e) eqn:R.
  destruct (C99_completes _ _ _ _ _ _ _ _ _ _ _ _ _ _ _ _ (ex_input (1 + N)) R) as (_ & L).
  unfold ex_rows in L. rewrite repeat_length in L.
  destruct (nth_error l (1 + N)) as [o|] eqn:Ho; [|apply nth_error_None in Ho; lia].
  destruct (nth_error l 0) as [o0|] eqn:H0; [|apply nth_error_None in H0; lia].
  assert (NS : forall b, ~ snows [Some 0; b] 0) by (intros b (v & [= <-] & V); apply V; reflexivity).
  assert (P : 0 < nth 0 (d_days o) 0).
  { refine (H _ _ _ _ _ _ _ _ _ _ _ _ _ _ l e 1%nat 0%nat o (ex_input (1 + N)) ex_sized R _ _ _ Ho _); [reflexivity | reflexivity | cbn; lia |].
    intros i o' Hi Ho'. rewrite (ex_psnow _ _ _ _ _ R Ho'). destruct (Nat.eqb_spec i 0); [lia|]. apply NS. }
  destruct (ex_first _ _ _ _ R H0) as (V & D).
  rewrite (C99_rain_on _ _ _ _ _ _ _ _ _ _ _ _ _ _ _ _ 0 (1 + N) 0 o0 o (1 * 1) (ex_input (1 + N)) ex_sized R) in P; try assumption.
  - discriminate P.
  - lia.
  - cbn; lia.
  - discriminate.
  - reflexivity.
  - intros i o' Hi Ho'. split; [apply ex_measured; lia|]. rewrite (ex_psnow _ _ _ _ _ R Ho'). destruct (Nat.eqb_spec i 0); [lia|].
    split; [|apply NS]. intros C. specialize (C (Some 1) (or_intror (or_introl eq_refl))). discriminate C.
Qed.
Print Assumptions C99_storm_ends_refuted.

(** A run with dry steps, whole: snow, two dry hours, rain at one cell and snow at the other. *)
Example C99_case :
  map (fun o => (map this (d_days o), map (option_map this) (d_total o), map (option_map this) (d_psnow o)))
    (fst (sus_run pair_up ex_phase (fun _ _ => 1) (fun _ p => p) (fun _ => 0) None None (q 1 24) (q 1 2) (q 4 1)
      [[Some 1; Some (q 1 4)]; [None; Some 0]; [None; None]; [Some 1; Some 1]]
      [[Some (q (-1) 1); Some (q (-1) 1)]; []; []; [Some (q 2 1); Some (q (-1) 1)]] [q 5 1; q 5 1]))
  = [ ([0; 6], [Some 1; Some (1 # 4)], [Some 1; Some 1]);
      ([1 # 24; 145 # 24], [Some 1; Some (1 # 4)], [Some 0; Some 0]);
      ([1 # 12; 73 # 12], [Some 1; Some (1 # 4)], [Some 0; Some 0]);
      ([0; 0], [Some 1; Some 1], [Some 0; Some 1]) ]%Q.
Proof. vm_compute. reflexivity. Qed.
(** Three more steps of rain and snow leave the first one as it is. *)
Example C99_case_longer : firstn 1 (fst (ex_run 3)) = fst (ex_run 0) /\ length (fst (ex_run 3)) = 4%nat.
Proof.
  destruct (ex_run 3) as (l3, e3) eqn:R3, (ex_run 0) as (l0, e0) eqn:R0. split; [|vm_compute in R3; injection R3 as <- _; reflexivity].
  exact (C99_no_hindsight pair_up ex_phase (fun _ _ => 1) (fun _ p => p) (fun _ => 0) None None (q 1 24) (q 1 2) (q 4 1) 2 (ex_rows 0) (ex_temps 0) [0; 0]
    l0 e0 (repeat [Some 1; Some 1] 3) (repeat [Some (q 2 1); Some (q (-1) 1)] 3) l3 e3 (ex_input 0) R0 R3).
Qed.
