(** Model of the precipitation module over a whole run that goes through
    [distribute_for_susong1999]: gridded runs with any density model, and station runs with
    undercatch adjustment and a density model other than marks2017;
    smrf/distribute/precipitation.py, [initialize] 119-133, [distribute] 268-325 and
    [distribute_for_susong1999] 408-456, with [time_since_storm], smrf/envphys/storms.py 5-67,
    for grids that may hold NaN.  (Station runs without undercatch adjustment never get there: C45,
    C66.)

    Parameters as in MarksModel.v: [interp], [phase], [gauge], [drift], [wday].  In a gridded
    run nothing is adjusted: [gauge] is 1 everywhere. *)
From Coq Require Import List Arith Bool ZArith QArith Qcanon.
From Verif Require Import Num StormsModel DataModel MarksModel.
Import ListNotations.
Local Open Scope Qc_scope.

(** The attributes a time step leaves. *)
Record dstate := mkD {
  d_precip : list num; d_psnow : list num; d_dens : list num;
  d_days : list Qc; d_total : list num; d_last : list Qc }.

(** np.sum, which is NaN as soon as one number is *)
Definition np_sum (l : list num) : num := fold_right nadd (Some 0) l.

(** storms.py 36-67 for one cell: precipitation and percent of snow now, days and storm
    precipitation from before; [none]: the percents of snow add up to exactly 0 (45).  Every
    comparison with NaN is false.  The argument time_step is never used. *)
Definition storm_cell (mass time : Qc) (none : bool) (p ps : num) (d : Qc) (sp : num) : Qc * num :=
  let days := d + 1 in                                            (* 44 *)
  if none then (days, Some 0)                                     (* 47-48 *)
  else
    let sp := if Qcleb time days then Some 0 else sp in           (* 55-56 *)
    let sp := if geb ps (q 1 2) then p else sp in                 (* 51, 59 *)
    (if geb sp mass then 0 else days, sp).                        (* 62-67 *)
Definition storm_cells (mass time : Qc) (p ps : list num) (d : list Qc) (sp : list num) : list (Qc * num) :=
  let none := match np_sum ps with Some s => Qceqb s 0 | None => false end in
  map (fun x => storm_cell mass time none (fst (fst (fst x))) (snd (fst (fst x))) (snd (fst x)) (snd x))
    (combine (combine (combine p ps) d) sp).

Section Susong.
Variables (interp : list num -> list num) (phase : list num -> list num -> list num * list num)
          (gauge : nat -> nat -> Qc) (drift : nat -> list num -> list num) (wday : nat -> Qc)
          (lo hi : option Qc) (ts mass time : Qc).

(** [distribute_for_susong1999] of step [t], 408-456 *)
Definition sus_time (t : nat) (row temps : list num) (st : dstate) : mres dstate :=
  let finish days total p ps den :=
    MOk (mkD p ps den days total (map (fun d => wday t - d - q 1 1000) days)) in
  if Qcltb 0 (pd_sum row) then
    mbind (distribute1 interp row) (fun p0 =>
    let p := set_min_max p0 lo hi in
    let '(den, ps) := phase temps p in
    let cells := storm_cells mass time p ps (d_days st) (d_total st) in
    finish (map fst cells) (map snd cells) p ps den)
  else
    let days := map (fun d => d + ts) (d_days st) in
    finish days (d_total st) (zeros_of days) (zeros_of days) (zeros_of days).

(** [distribute] of step [t]: undercatch (295-303), the step (305-308), the wind (311-325) *)
Definition sus_distribute (t : nat) (row temps : list num) (st : dstate) : mres dstate :=
  mbind (sus_time t (scale_row (fun c => Some (gauge t c)) 0 row) temps st) (fun s =>
  MOk (mkD (drift t (d_precip s)) (d_psnow s) (d_dens s) (d_days s) (d_total s) (d_last s))).

(** A run from step [t] on, with or without threads. *)
Fixpoint sus_from (t : nat) (rows temps : list (list num)) (st : dstate) : list dstate * option merr :=
  match rows, temps with
  | row :: rows', tp :: temps' =>
      match sus_distribute t row tp st with
      | MErr e => ([], Some e)
      | MOk s => let '(l, e) := sus_from (S t) rows' temps' s in (s :: l, e)
      end
  | _, _ => ([], None)
  end.

(** [initialize], 125-132, then the run; [days0] as in MarksModel.v *)
Definition sus_run (rows temps : list (list num)) (days0 : list Qc) : list dstate * option merr :=
  sus_from 0 rows temps (mkD [] [] [] days0 (zeros_of days0) []).
End Susong.

(** A run with the option storm_days_restart, 132-163 ([storm_days_restart] of DataModel.v): [times] and [recs] are the
    time axis and the storm_days records of the file, [start] the start date.  Only storm_days is read: the storm
    totals start at 0 (128).  [None] when the record cannot be read. *)
Definition sus_restart interp phase gauge drift wday lo hi ts mass time (times : list Z) (recs : list (list Qc)) (cells : nat) (start : Z)
    (rows temps : list (list num)) : option (list dstate * option merr) :=
  option_map (sus_run interp phase gauge drift wday lo hi ts mass time rows temps)
    (storm_days_restart true times recs (repeat 0 cells) start).
