(** C100: a run that is started again from the storm days an earlier run has written. *)
From Coq Require Import List Arith Lia Bool ZArith QArith Qcanon.
From Verif Require Import Num StormsModel DataModel DataProofs MarksModel SusongModel StormsSpec SusongSpec SusongProofs ContProofs PropData PropSusong.
Import ListNotations.
Local Open Scope Qc_scope.

Lemma nth_error_skipn {A} (l : list A) : forall k i, nth_error (skipn k l) i = nth_error l (k + i).
Proof. induction l as [|a l IH]; intros [|k] i; try reflexivity; [destruct i; reflexivity|]. cbn. apply IH. Qed.

Section C100.
Context (interp : list num -> list num) (phase : list num -> list num -> list num * list num)
        (gauge : nat -> nat -> Qc) (drift : nat -> list num -> list num) (wday : nat -> Qc)
        (lo hi : option Qc) (ts mass time : Qc) (width : nat) (rows temps : list (list num)) (days0 : list Qc)
        (dates : list Z) (l : list dstate) (e : option merr).

(** The run of [dates] again, from the date with index [j] on, with the file of storm days of the first one. *)
Definition again (j : nat) (start : Z) : option (list dstate * option merr) :=
  sus_restart interp phase (fun t => gauge (j + t)%nat) (fun t => drift (j + t)%nat) (fun t => wday (j + t)%nat) lo hi ts mass time
    dates (map d_days l) (length days0) start (skipn j rows) (skipn j temps).

(** Started at any date of the first run but its first, it completes; precipitation, percent of snow and density are those of
    the first run at every step, and so are the days since the last storm and the day of the last storm in all cells
    whose storm total was below the threshold of a storm (or missing) just before. *)
Theorem C100_again j start prev :
  run_input width gauge phase rows temps -> sized interp phase days0 ->
  sus_run interp phase gauge drift wday lo hi ts mass time rows temps days0 = (l, e) ->
  length dates = length rows -> NoDup dates -> nth_error dates (S j) = Some start -> nth_error l j = Some prev -> 0 < mass ->
  exists l', again (S j) start = Some (l', None) /\ length l' = (length rows - S j)%nat /\
    forall t o, nth_error l (S j + t) = Some o -> exists o', nth_error l' t = Some o' /\
      d_precip o' = d_precip o /\ d_psnow o' = d_psnow o /\ d_dens o' = d_dens o /\
      forall x, (x < length days0)%nat -> ~ (exists v, nth x (d_total prev) None = Some v /\ mass <= v) ->
        nth x (d_days o') 0 = nth x (d_days o) 0 /\ nth x (d_last o') 0 = nth x (d_last o) 0.
Proof.
  intros IN SZ R LD ND HS HP MP.
  destruct (C99_completes _ _ _ _ _ _ _ _ _ _ _ _ _ _ _ _ IN R) as (E0 & LL).
  destruct (sizes _ _ _ _ _ _ _ _ _ _ _ _ _ _ _ _ (S j) prev IN SZ R HP) as (S1 & S2).
  destruct SZ as (I1 & I2).
  assert (RS : storm_days_restart true dates (map d_days l) (repeat 0 (length days0)) start = Some (d_days prev)).
  { destruct (C46_restart dates (map d_days l) (repeat 0 (length days0)) start) as (C & _); [rewrite map_length; lia|].
    destruct (C j HS) as (-> & _); [|rewrite nth_error_map, HP; reflexivity].
    intros i I H. rewrite NoDup_nth_error in ND. specialize (ND i (S j)).
    assert (i < length dates)%nat by (apply nth_error_Some; congruence). specialize (ND H0 ltac:(congruence)). lia. }
  set (first := mkD [] [] [] (d_days prev) (zeros_of (d_days prev)) []).
  assert (LK : like (length days0) prev first).
  { unfold like. cbn [first d_days d_total]. rewrite zeros_repeat, repeat_length. auto. }
  pose proof (from_rest _ _ _ _ _ _ _ _ _ _ _ _ _ _ _ _ _ _ R HP) as RR. cbn [Nat.add] in RR.
  destruct (from_agree interp phase gauge drift wday lo hi ts mass time (length days0) I1 I2 _ _ _ prev first _ _ LK RR E0) as (l' & F & FL & N).
  exists l'. split; [|split].
  - unfold again, sus_restart. rewrite RS. cbn [option_map]. unfold sus_run. f_equal. rewrite from_shift, Nat.add_0_r. exact F.
  - rewrite FL, skipn_length. lia.
  - intros t o Ho. destruct (N t o) as (o' & H' & P1 & P2 & P3 & AG); [rewrite nth_error_skipn; exact Ho|].
    exists o'. repeat (split; [assumption|]). intros x X T.
    destruct (AG x X) as ((A1 & _) & A2); [|split; congruence]. split; [reflexivity|]. cbn [first d_total].
    rewrite zeros_repeat. assert (Z : nth x (repeat (Some 0) (length (d_days prev))) None = Some 0)
      by (rewrite (nth_indep _ None (Some 0)) by (rewrite repeat_length; lia); apply nth_repeat).
    rewrite Z. unfold geb. destruct (Qcleb_spec mass 0) as [M0|M0]; [exfalso; exact (Qclt_not_le _ _ MP M0)|].
    destruct (nth x (d_total prev) None) as [v|]; [|reflexivity]. destruct (Qcleb_spec mass v) as [MV|MV]; [|reflexivity].
    exfalso. apply T. eauto.
Qed.

(** A run of anything, started at a date that file does not have, starts with 0 days everywhere, whatever the first run has
    written; started at the first date of the file, with the days of the last record. *)
Theorem C100_other_dates gauge' drift' wday' rows' temps' start :
  sus_run interp phase gauge drift wday lo hi ts mass time rows temps days0 = (l, e) -> length dates = length l ->
  let next := sus_restart interp phase gauge' drift' wday' lo hi ts mass time dates (map d_days l) (length days0) start rows' temps' in
  let from days := sus_run interp phase gauge' drift' wday' lo hi ts mass time rows' temps' days in
  (~ In start dates -> next = Some (from (repeat 0 (length days0)))) /\
  (nth_error dates 0 = Some start -> exists last, nth_error l (length l - 1) = Some last /\ next = Some (from (d_days last))).
Proof.
  intros R LD next from. destruct (C46_restart dates (map d_days l) (repeat 0 (length days0)) start) as (_ & C1 & C2); [rewrite map_length; lia|].
  split.
  - intros NI. unfold next, sus_restart. rewrite C2; [reflexivity|]. intros t I ->. contradiction.
  - intros H0. destruct (C1 H0) as (E & NE). rewrite map_length, nth_error_map in E.
    destruct (nth_error l (length l - 1)) as [last|] eqn:EL.
    + exists last. split; [reflexivity|]. unfold next, sus_restart. rewrite E. reflexivity.
    + apply nth_error_None in EL. destruct l; [contradiction NE; reflexivity|]. cbn in EL. lia.
Qed.
End C100.
Print Assumptions C100_again.
Print Assumptions C100_other_dates.

(** ** Two cells (see PropSusong.v): snow in both, then rain in the first one while it snows in the second. *)
Definition ex_again := again pair_up ex_phase (fun _ _ => 1) (fun _ p => p) (fun _ => 0) None None (q 1 24) (q 1 2) (q 4 1) (ex_rows 1) (ex_temps 1) [0; 0] [10; 20]%Z.
Example C100_case : exists l o, ex_run 1 = (l, None) /\ nth_error l 1 = Some o /\
  exists o', ex_again l 1 20 = Some ([o'], None) /\ d_psnow o' = d_psnow o /\
    map this (d_days o) = [0; 0]%Q /\ map this (d_days o') = [1; 0]%Q.
Proof. vm_compute. do 2 eexists. split; [reflexivity|]. split; [reflexivity|]. eexists. repeat split; reflexivity. Qed.
(** The same with a threshold of 2 for a storm: no cell has had one, and the days agree. *)
Example C100_case_small : exists l prev o,
  let run := sus_run pair_up ex_phase (fun _ _ => 1) (fun _ p => p) (fun _ => 0) None None (q 1 24) (q 2 1) (q 4 1) (ex_rows 1) (ex_temps 1) [0; 0] in
  run = (l, None) /\ nth_error l 0 = Some prev /\ nth_error l 1 = Some o /\
  ~ (exists v, nth 0 (d_total prev) None = Some v /\ q 2 1 <= v) /\
  exists o', again pair_up ex_phase (fun _ _ => 1) (fun _ p => p) (fun _ => 0) None None (q 1 24) (q 2 1) (q 4 1) (ex_rows 1) (ex_temps 1) [0; 0] [10; 20]%Z l 1 20 = Some ([o'], None) /\
    nth 0 (d_days o') 0 = nth 0 (d_days o) 0.
Proof.
  destruct (sus_run pair_up ex_phase (fun _ _ => 1) (fun _ p => p) (fun _ => 0) None None (q 1 24) (q 2 1) (q 4 1) (ex_rows 1) (ex_temps 1) [0; 0]) as (l, e) eqn:R.
  destruct (C99_completes _ _ _ _ _ _ _ _ _ _ _ _ _ _ _ _ (ex_input 1) R) as (-> & L).
  destruct l as [|prev [|o [|z l]]]; try discriminate L. exists [prev; o], prev, o. cbv zeta. split; [reflexivity|]. split; [reflexivity|]. split; [reflexivity|].
  assert (T : ~ (exists v, nth 0 (d_total prev) None = Some v /\ q 2 1 <= v)).
  { vm_compute in R. injection R as <- _. intros (v & V & M). injection V as <-. exact (M eq_refl). }
  split; [exact T|].
  destruct (C100_again _ _ _ _ _ _ _ _ _ _ _ _ _ _ [10; 20]%Z _ _ 0 20%Z prev (ex_input 1) ex_sized R eq_refl) as (l' & A & L' & N); try reflexivity.
  { repeat constructor; cbn; intuition discriminate. }
  destruct l' as [|o' [|z l']]; try discriminate L'. exists o'. split; [exact A|].
  destruct (N 0%nat o eq_refl) as (o2 & [= <-] & _ & _ & _ & D). exact (proj1 (D 0%nat ltac:(cbn; lia) T)).
Qed.
(** "A run started again from the file of storm days gives the same storm days" is false: the storm totals are not
    in the file, or are not read from it. *)
Theorem C100_same_days_refuted :
  ~ forall interp phase gauge drift wday lo hi ts mass time width rows temps days0 dates l e j start l' e',
      run_input width gauge phase rows temps -> sized interp phase days0 ->
      sus_run interp phase gauge drift wday lo hi ts mass time rows temps days0 = (l, e) ->
      length dates = length rows -> NoDup dates -> nth_error dates (S j) = Some start -> 0 < mass ->
      again interp phase gauge drift wday lo hi ts mass time rows temps days0 dates l (S j) start = Some (l', e') ->
      map d_days l' = skipn (S j) (map d_days l).
Proof.
  intros H. destruct C100_case as (l & o & R & O & o' & A & _ & D & D').
  unfold ex_run in R. unfold ex_again in A.
  assert (L : exists p, l = [p; o]).
  { destruct (C99_completes _ _ _ _ _ _ _ _ _ _ _ _ _ _ _ _ (ex_input 1) R) as (_ & L). destruct l as [|p [|o1 [|z l]]]; try discriminate L.
    injection O as <-. eexists. reflexivity. }
  destruct L as (p & ->).
  specialize (H pair_up ex_phase (fun _ _ => 1) (fun _ p => p) (fun _ => 0) None None (q 1 24) (q 1 2) (q 4 1) 2%nat (ex_rows 1) (ex_temps 1) [0; 0]
    [10; 20]%Z _ _ 0%nat 20%Z _ _ (ex_input 1) ex_sized R eq_refl
    ltac:(repeat constructor; cbn; intuition discriminate) eq_refl eq_refl A).
  cbn [map skipn] in H. injection H as H. rewrite <- H in D. rewrite D in D'. discriminate D'.
Qed.
Print Assumptions C100_same_days_refuted.
(** "A run that starts where an earlier one ended goes on from its storm days" is false: the file has no record of the start date. *)
Theorem C100_goes_on_refuted :
  ~ forall interp phase gauge drift wday lo hi ts mass time width rows temps days0 dates k start l e full ef next en,
      run_input width gauge phase rows temps -> sized interp phase days0 -> length dates = length rows -> NoDup dates ->
      nth_error dates (S k) = Some start ->
      sus_run interp phase gauge drift wday lo hi ts mass time rows temps days0 = (full, ef) ->
      sus_run interp phase gauge drift wday lo hi ts mass time (firstn (S k) rows) (firstn (S k) temps) days0 = (l, e) ->
      sus_restart interp phase (fun t => gauge (S k + t)%nat) (fun t => drift (S k + t)%nat) (fun t => wday (S k + t)%nat) lo hi ts mass time
        (firstn (S k) dates) (map d_days l) (length days0) start (skipn (S k) rows) (skipn (S k) temps) = Some (next, en) ->
      map d_days next = skipn (S k) (map d_days full).
Proof.
  intros H.
  assert (IN : run_input 2 (fun _ _ => 1) ex_phase [[Some 0; Some 0]; [Some 0; Some 0]] [[Some 0; Some 0]; [Some 0; Some 0]]).
  { destruct (ex_input 1) as (_ & _ & G & _ & P). split; [repeat constructor|]. split; [|split; [exact G|split; [reflexivity|exact P]]].
    intros r v I J. destruct I as [<-|[<-|[]]]; destruct J as [[= <-]|[[= <-]|[]]]; discriminate. }
  specialize (H pair_up ex_phase (fun _ _ => 1) (fun _ p => p) (fun _ => 0) None None (q 1 24) (q 1 2) (q 4 1) 2%nat
    [[Some 0; Some 0]; [Some 0; Some 0]] [[Some 0; Some 0]; [Some 0; Some 0]] [0; 0] [10; 20]%Z 0%nat 20%Z).
  destruct (sus_run pair_up ex_phase (fun _ _ => 1) (fun _ p => p) (fun _ => 0) None None (q 1 24) (q 1 2) (q 4 1)
    [[Some 0; Some 0]; [Some 0; Some 0]] [[Some 0; Some 0]; [Some 0; Some 0]] [0; 0]) as (full, ef) eqn:EF.
  destruct (sus_run pair_up ex_phase (fun _ _ => 1) (fun _ p => p) (fun _ => 0) None None (q 1 24) (q 1 2) (q 4 1)
    (firstn 1 [[Some 0; Some 0]; [Some 0; Some 0]]) (firstn 1 [[Some 0; Some 0]; [Some 0; Some 0]]) [0; 0]) as (l, e) eqn:EL.
  destruct (sus_restart pair_up ex_phase (fun t => (fun _ _ => 1) (1 + t)%nat) (fun t => (fun _ p => p) (1 + t)%nat) (fun t => (fun _ => 0) (1 + t)%nat) None None (q 1 24) (q 1 2) (q 4 1)
    (firstn 1 [10; 20]%Z) (map d_days l) 2 20 (skipn 1 [[Some 0; Some 0]; [Some 0; Some 0]]) (skipn 1 [[Some 0; Some 0]; [Some 0; Some 0]])) as [(next, en)|] eqn:EN;
    [|vm_compute in EL; injection EL as <- <-; vm_compute in EN; discriminate EN].
  specialize (H l e full ef next en IN ex_sized eq_refl ltac:(repeat constructor; cbn; intuition discriminate) eq_refl eq_refl eq_refl EN).
  vm_compute in EL. injection EL as <- <-. vm_compute in EN. injection EN as <- <-. vm_compute in EF. injection EF as <- <-.
  apply (f_equal (map (map this))) in H. vm_compute in H. discriminate H.
Qed.
Print Assumptions C100_goes_on_refuted.
