(** Model of the precipitation module over a whole station run with the density model
    'marks2017': smrf/distribute/precipitation.py, [initialize] 177-206, [distribute]
    268-325 (the branch of stations and marks2017), [distribute_for_marks2017] 327-406 and
    the queues of [distribute_thread] 510-517.

    Time stamps are row positions and numbers exact rationals, as in StormsModel.v.  What
    other models describe comes in as parameters:
    - [interp]: the interpolation method of [_distribute] (C25 to C28, C52, C91);
    - [phase]: [Snow.phase_and_density], which returns density and percent of snow (C17, C18);
    - [gauge t c]: what the undercatch adjustment multiplies station [c] by at step [t]: one
      over its catch ratio, 1 where there is none or the option is off (C35);
    - [drift t]: the redistribution by wind of step [t], or nothing when that is off (C36);
    - [wday t]: the day of the water year (C22). *)
From Coq Require Import List Arith Bool ZArith QArith Qcanon.
From Verif Require Import Num StormsModel DataModel.
Import ListNotations.
Local Open Scope Qc_scope.

(** What ends a run: every station value missing (image_data.py 228-230, an Exception); a
    local variable of 338-360 that was never set (UnboundLocalError); the attribute storm_id
    that was never set (AttributeError). *)
Inductive merr := AllMissing | Unbound | NoStormId.
Inductive mres (A : Type) := MOk (a : A) | MErr (e : merr).
Arguments MOk {A} a.
Arguments MErr {A} e.
Definition mbind {A B} (r : mres A) (f : A -> mres B) : mres B :=
  match r with MOk a => f a | MErr e => MErr e end.

(** The attribute storm_id: not set, NaN (206) or a row of the table of storms. *)
Inductive sid := Unset | NaNId | Id (k : nat).

(** The attributes a time step leaves. *)
Record mstate := mkM {
  m_id : sid; m_on : bool; m_total : list num; m_days : list Qc;
  m_precip : list num; m_psnow : list num; m_dens : list num; m_last : list Qc }.

(** pandas Series.sum, 336: missing values count as nothing *)
Definition pd_sum (row : list num) : Qc :=
  fold_right (fun x a => match x with Some v => v + a | None => a end) 0 row.

(** [np.zeros] of the shape of an array *)
Definition zeros_of {A} (l : list A) : list num := map (fun _ => Some 0) l.

(** precip_temp.min() < 2.0, 365 and 376; a NaN compares false *)
Definition cold (temps : list num) : bool :=
  match np_min temps with Some m => Qcltb m (q 2 1) | None => false end.

(** The loop over the table of storms, 338-350, from row [i] on: the storm found, the
    variable storm_start as the loop leaves it, and the flag storming. *)
Fixpoint look (t i : nat) (storms : list storm) (on : bool)
  : option (nat * storm) * option nat * bool :=
  match storms with
  | [] => (None, None, on)
  | s :: r =>
      if (s_start s <=? t)%nat && (t <=? s_end s)%nat
      then (Some (i, s), Some (s_start s), true)
      else let '(cur, last, on') := look t (S i) r false in
           (cur, match last with None => Some (s_start s) | _ => last end, on')
  end.

Section Marks.
Variables (interp : list num -> list num) (phase : list num -> list num -> list num * list num)
          (gauge : nat -> nat -> Qc) (drift : nat -> list num -> list num) (wday : nat -> Qc)
          (lo hi : option Qc) (ts thr : Qc) (steps width : nat).

(** [_distribute], image_data.py 210-265: refuses a series without any value *)
Definition distribute1 (data : list num) : mres (list num) :=
  if forallb (fun x : num => match x with None => true | Some _ => false end) data
  then MErr AllMissing else MOk (interp data).

(** [distribute_for_marks2017] of step [t], 327-406; [temps] is the grid of precipitation
    temperatures.  The message of 353 reads storm_id, which raises if it was never set. *)
Definition marks_time (storms : list storm) (t : nat) (row temps : list num) (st : mstate)
  : mres mstate :=
  let finish id on total days p ps den :=
    MOk (mkM id on total days p ps den (map (fun d => wday t - d - q 1 1000) days)) in
  if Qcltb 0 (pd_sum row) then
    let '(cur, last, on) := look t 0 storms (m_on st) in
    let id := match cur with Some (i, _) => Id i | None => m_id st end in
    match id with
    | Unset => MErr NoStormId
    | _ =>
      mbind (distribute1 row) (fun p0 =>
      let p := set_min_max p0 lo hi in
      match last with
      | None => MErr Unbound
      | Some start =>
        mbind (if (t =? start)%nat && cold temps then
                 match cur with
                 | None => MErr Unbound
                 | Some (_, s) => mbind (distribute1 (s_tot s)) (fun v => MOk (set_min_max v lo hi))
                 end
               else MOk (m_total st)) (fun total =>
        let '(den, ps) := if on && cold temps then phase temps p else (zeros_of p, zeros_of p) in
        let days := marks_step ts thr (m_days st) (MWet on (combine (combine p ps) temps)) in
        finish id on total days p ps den)
      end)
    end
  else
    let days := marks_step ts thr (m_days st) MDry in
    finish (m_id st) (m_on st) (m_total st) days (zeros_of days) (zeros_of days) (zeros_of days).

(** [distribute] of step [t], 268-325: undercatch on the row of the step, the step itself,
    then the wind.  The adjusted row goes back into the table of corrected precipitation;
    each row is used once, so the model keeps the table as it was. *)
Definition marks_distribute (storms : list storm) (t : nat) (row temps : list num) (st : mstate)
  : mres mstate :=
  mbind (marks_time storms t (scale_row (fun c => Some (gauge t c)) 0 row) temps st) (fun s =>
  MOk (mkM (m_id s) (m_on s) (m_total s) (m_days s) (drift t (m_precip s)) (m_psnow s)
           (m_dens s) (m_last s))).

(** A run from step [t] on: the states of the steps that were completed and what ended it.
    With threads a step ends with the queues, 510-517, and the last of them takes storm_id. *)
Fixpoint marks_from (threaded : bool) (storms : list storm) (t : nat)
    (rows temps : list (list num)) (st : mstate) : list mstate * option merr :=
  match rows, temps with
  | row :: rows', tp :: temps' =>
      match marks_distribute storms t row tp st with
      | MErr e => ([], Some e)
      | MOk s =>
          match threaded, m_id s with
          | true, Unset => ([], Some NoStormId)
          | _, _ => let '(l, e) := marks_from threaded storms (S t) rows' temps' s in (s :: l, e)
          end
      end
  | _, _ => ([], None)
  end.

Definition row_span (s : storm) : nat * nat := (s_start s, s_end s).

(** [initialize], 177-206, then the run.  [days0]: storm_days as read or started (129-163, C46). *)
Definition marks_first (rows : list (list num)) (storms : list storm) (days0 : list Qc) : mstate :=
  let id := if negb (length storms =? 0)%nat then Id 0
            else if existsb (fun c => Qcltb 0 (colsum c rows)) (seq 0 width) then NaNId else Unset in
  mkM id false (zeros_of days0) days0 [] [] [] [].

Definition marks_station_run (threaded : bool) (rows temps : list (list num)) (days0 : list Qc)
  : list mstate * option merr :=
  let storms := tracking_by_station thr steps rows in
  let corrected := clip_and_correct rows (map row_span storms) (seq 0 width) in
  marks_from threaded storms 0 corrected temps (marks_first rows storms days0).
End Marks.
