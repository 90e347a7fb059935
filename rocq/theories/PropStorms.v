(** Properties C10-C15, C56: storms.  Vocabulary: StormsSpec.v; model: StormsModel.v. *)
From Coq Require Import List Arith Bool ZArith QArith Qcanon.
From Verif Require Import Num StormsModel StormsSpec StormsProofs.
Import ListNotations.
Local Open Scope nat_scope.

(** ** C10: the storms of a station table.  [is_storms] says ordered, disjoint, each one a
    storm, and every wet row covered; the second theorem says there is no other such list. *)
Theorem C10_station_storms : forall (thr : Qc) (steps : nat) (rows : list (list num)),
  is_storms (length rows) (wet_station thr rows)
    (station_storm (length rows) steps (wet_station thr rows))
    (map (fun s => (s_start s, s_end s)) (tracking_by_station thr steps rows)).
Proof. exact station_spec. Qed.
Print Assumptions C10_station_storms.

Theorem C10_no_other_storms : forall (n steps : nat) (wet : nat -> Prop) (l l' : list (nat * nat)),
  (forall i, wet i -> i < n) ->
  is_storms n wet (station_storm n steps wet) l ->
  is_storms n wet (station_storm n steps wet) l' -> l = l'.
Proof. intros n steps wet l l' H. exact (station_storms_unique n steps wet H l l'). Qed.
Print Assumptions C10_no_other_storms.

(** wet rows 0, 1, 3 and 6 of 8 rows, two dry rows close a storm *)
Definition rows_ex : list (list num) :=
  [[Some (q 2 1); Some (q 1 1)]; [Some (q 3 1); None]; [Some (q 0 1); Some (q 0 1)];
   [Some (q 0 1); Some (q 5 1)]; [Some (q 0 1); Some (q 0 1)]; [None; None];
   [Some (q 1 1); Some (q 1 1)]; [Some (q 0 1); Some (q 1 4)]].
Example C10_example :
  map (fun s => (s_start s, s_end s)) (tracking_by_station (q 1 2) 2 rows_ex) = [(0, 5); (6, 7)].
Proof. vm_compute. reflexivity. Qed.

(** ** C11: totals of the wet rows of each storm; a missing value in such a row makes the
    station's total missing. *)
Theorem C11_storm_totals : forall (thr : Qc) (steps : nat) (rows : list (list num)) (width : nat),
  Forall (fun r => length r = width) rows ->
  forall (x : storm) (c : nat) (kp : nat -> bool),
  In x (tracking_by_station thr steps rows) -> c < width ->
  (forall i, kp i = true <-> s_start x <= i <= s_end x /\ wet_station thr rows i) ->
  nth c (s_tot x) None = sum_rows kp c 0 rows.
Proof. exact station_totals_spec. Qed.
Print Assumptions C11_storm_totals.

Example C11_example :
  Forall (fun r => length r = 2) rows_ex /\
  map (fun s => map (option_map this) (s_tot s)) (tracking_by_station (q 1 2) 2 rows_ex) =
  [[Some 5%Q; None]; [Some 1%Q; Some 1%Q]].
Proof. split; [repeat constructor|vm_compute; reflexivity]. Qed.

(** ** C12: clipping *)
Theorem C12_clip_and_correct :
  forall (precip : list (list num)) (storms : list (nat * nat)) (stations : list nat) (width : nat),
  Forall (fun r => length r = width) precip ->
  let out := clip_and_correct precip storms stations in
  length out = length precip /\
  (forall i, i < length precip -> length (nth i out []) = width) /\
  forall c, c < width ->
  let orig := total (fun _ => true) c 0 precip in
  let inside := total (in_storms storms) c 0 precip in
  (selected stations c ->
     exists f : Qc,
       (forall i, i < length precip ->
          cell out i c = if in_storms storms i then option_map (fun v => (v * f)%Qc) (cell precip i c)
                         else Some 0%Qc) /\
       (orig = 0%Qc -> f = 1%Qc) /\
       (orig <> 0%Qc -> inside = 0%Qc -> f = 0%Qc) /\
       (orig <> 0%Qc -> inside <> 0%Qc -> f = (orig / inside)%Qc /\ total (fun _ => true) c 0 out = orig)) /\
  (~ selected stations c -> forall i, i < length precip -> cell out i c = None).
Proof.
  intros precip storms stations width Hw out. split; [exact (out_length precip storms stations)|].
  split; [exact (out_shape precip storms stations width Hw)|].
  intros c Hc orig inside. split.
  - exact (clip_spec precip storms stations width Hw c Hc).
  - intros Hs i Hi. exact (clip_missing precip storms stations width Hw c i Hc Hs Hi).
Qed.
Print Assumptions C12_clip_and_correct.

(** Non-negative data: the mass is kept, unless none of it fell inside a storm, in which
    case it is all lost. *)
Theorem C12_mass : 
  forall (precip : list (list num)) (storms : list (nat * nat)) (stations : list nat) (width : nat),
  Forall (fun r => length r = width) precip -> nonneg precip ->
  forall c, c < width -> selected stations c ->
  total (fun _ => true) c 0 (clip_and_correct precip storms stations) =
  if Qceqb (total (in_storms storms) c 0 precip) 0 then 0%Qc else total (fun _ => true) c 0 precip.
Proof.
  intros precip storms stations width Hw Hn c Hc Hs.
  exact (clip_mass precip storms stations width Hw c Hc Hs Hn).
Qed.
Print Assumptions C12_mass.

(** The claim "clipping conserves every station's mass" fails: a station whose rain all
    falls outside the storms loses it. *)
Theorem C12_always_conserved_refuted : exists precip storms,
  Forall (fun r => length r = 1) precip /\ nonneg precip /\
  total (fun _ => true) 0 0 (clip_and_correct precip storms []) <> total (fun _ => true) 0 0 precip.
Proof.
  exists [[Some (q 1 1)]; [Some 0%Qc]], [(1, 1)]. split; [repeat constructor|]. split.
  - intros r v [<-|[<-|[]]] [[= <-]|[]]; vm_compute; discriminate.
  - vm_compute. discriminate.
Qed.
Print Assumptions C12_always_conserved_refuted.

Example C12_example :
  map (map (option_map this))
    (clip_and_correct [[Some (q 1 1); Some (q 2 1)]; [Some (q 3 1); Some (q 4 1)]; [Some (q 6 1); None]] [(1, 1)] [0]) =
  [[Some 0%Q; None]; [Some 10%Q; None]; [Some 0%Q; None]].
Proof. vm_compute. reflexivity. Qed.

(** ** C13: the basin tracker after every prefix of the run *)
Theorem C13_basin_storms : forall (thr : Qc) (steps : nat) (grids : list (list num)),
  Forall (fun g => g <> []) grids ->
  let b := basin_run thr steps basin0 0 grids in
  is_storms (length grids) (wet_basin thr grids)
    (basin_storm (length grids) steps (wet_basin thr grids)) (b_list b) /\
  ForallOrdPairs (fun s t => snd s + steps < fst t) (b_list b) /\
  (b_on b = true <-> exists s, In s (b_list b) /\ length grids - 1 < snd s + steps).
Proof. exact basin_spec. Qed.
Print Assumptions C13_basin_storms.

Theorem C13_no_other_storms : forall (n steps : nat) (wet : nat -> Prop) (l l' : list (nat * nat)),
  (forall i, wet i -> i < n) ->
  is_storms n wet (basin_storm n steps wet) l ->
  is_storms n wet (basin_storm n steps wet) l' -> l = l'.
Proof. intros n steps wet l l' H. exact (basin_storms_unique n steps wet H l l'). Qed.
Print Assumptions C13_no_other_storms.

Example C13_example :
  basin_run (q 1 2) 2 basin0 0
    [[Some (q 1 1); Some (q 0 1)]; [Some (q 0 1); Some (q 1 4)]; [Some (q 0 1); Some (q 2 1)];
     [Some (q 0 1); Some (q 0 1)]; [Some (q 5 1); None]; [Some (q 1 1); Some (q 1 1)]]
  = mkB [(0, 2); (5, 5)] 0 true.
Proof. vm_compute. reflexivity. Qed.

(** ** C14: days since storm per pixel *)
Theorem C14_pixel : forall (storming : bool) (ts mass thr : Qc) (g : list ppx) (j : nat) (dx : ppx),
  j < length g ->
  let x := nth j g dx in
  let R := resets storming mass thr (map p_dpt g) (p_p x) (p_ps x) in
  (R -> nth j (time_since_storm_pixel storming ts mass thr g) 0%Qc = 0%Qc) /\
  (~ R -> nth j (time_since_storm_pixel storming ts mass thr g) 0%Qc = (p_days x + ts)%Qc).
Proof. exact tssp_spec. Qed.
Print Assumptions C14_pixel.

Theorem C14_counter : forall (ts mass : Qc) (k n : nat) (l : list mstep) (rb : mstep -> bool),
  mgrids n l -> k < n -> (forall e, In e l -> (rb e = true <-> step_resets mass k e)) ->
  nth k (marks_run ts mass (repeat 0%Qc n) l) 0%Qc =
  (ts * Qcnat (count_since rb (fun _ => true) l 0))%Qc.
Proof. exact marks_counter. Qed.
Print Assumptions C14_counter.

Example C14_example :
  map this (marks_run (q 1 24) (q 1 2) [q 0 1; q 0 1]
    [MDry; MWet true [(Some (q 1 1), Some (q 1 1), Some (q (-1) 1)); (Some (q 1 1), Some (q 0 1), Some (q 3 1))];
     MDry; MWet false [(Some (q 1 1), Some (q 1 1), Some (q (-1) 1)); (Some (q 1 1), Some (q 1 1), Some (q 0 1))]])
  = [1 # 12; 1 # 6]%Q.
Proof. vm_compute. reflexivity. Qed.

(** ** C15: one call of time_since_storm.  The result does not depend on the time step,
    the counter goes up by one whole day per call, and the storm mass of a snowing pixel
    is the precipitation of this call alone. *)
Theorem C15_pixel : forall (ts mass time thr : Qc) (g : list tpx) (j : nat) (d : Qc * Qc) (dx : tpx),
  j < length g ->
  nth j (time_since_storm ts mass time thr g) d =
  let x := nth j g dx in
  if Qceqb (qsum (map t_ps g)) 0 then ((t_days x + 1)%Qc, 0%Qc)
  else let sp := if Qcleb thr (t_ps x) then t_p x
                 else if Qcleb time (t_days x + 1) then 0%Qc else t_sp x in
       (if Qcleb mass sp then 0%Qc else (t_days x + 1)%Qc, sp).
Proof. exact tss_nth. Qed.
Print Assumptions C15_pixel.

(** However many steps a storm lasts and whatever it delivers in total, the counter is
    not reset while every single step stays below the mass threshold.  The same equation
    is C56: a wet step counts as a whole day, a dry step as [ts] days. *)
Theorem C15_C56_small_steps_never_reset :
  forall (ts mass time : Qc) (k n : nat) (l : list sstep) (st : list (Qc * Qc)),
  (0 < mass)%Qc -> length st = n -> k < n -> sgrids n l ->
  (snd (nth k st (0, 0)) < mass)%Qc ->
  (forall f, In (SWet f) l -> (fst (nth k f (0, 0)) < mass)%Qc) ->
  fst (nth k (susong_run ts mass time st l) (0, 0)%Qc) =
  (fst (nth k st (0, 0)) + Qcnat (length (filter wet_step l)) +
   ts * Qcnat (length (filter (fun e => negb (wet_step e)) l)))%Qc.
Proof. exact susong_counter. Qed.
Print Assumptions C15_C56_small_steps_never_reset.

(** Hourly steps, mass threshold 1: three hours of 0.9 mm snow then two dry hours leave
    the pixel at 3 + 2/24 days although 2.7 mm fell; one hour of 1.2 mm resets it. *)
Example C15_example :
  let f p := SWet [(p, q 1 1); (q 0 1, q 1 1)] in
  let out x := (this (fst x), this (snd x)) in
  out (nth 0 (susong_run (q 1 24) (q 1 1) (q 4 1) [(q 0 1, q 0 1); (q 0 1, q 0 1)]
    [f (q 9 10); f (q 9 10); f (q 9 10); SDry; SDry]) (0, 0)%Qc) = (37 # 12, 9 # 10)%Q /\
  out (nth 0 (susong_run (q 1 24) (q 1 1) (q 4 1) [(q 0 1, q 0 1); (q 0 1, q 0 1)]
    [f (q 9 10); f (q 12 10); SDry]) (0, 0)%Qc) = (1 # 24, 6 # 5)%Q.
Proof. split; vm_compute; reflexivity. Qed.
