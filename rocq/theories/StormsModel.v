(** Model of smrf/envphys/storms.py.

    A precipitation table is a list of rows (time steps), a row is a list of station
    values, [None] is NaN.  A time stamp is the position of its row: the index of the
    pandas table is assumed sorted without duplicates, so that label slices
    [.loc[start:end]] are position intervals.  Numbers are exact rationals. *)
From Coq Require Import List Arith Bool ZArith QArith Qcanon.
From Verif Require Import Num.
Import ListNotations.
Local Open Scope Qc_scope.

(** ** tracking_by_station, storms.py 114-210 *)

(** One storm of the returned table: 'start', 'end' and the station totals. *)
Record storm := mkStorm { s_start : nat; s_end : nat; s_tot : list num }.

(** The loop's local variables: is_storming, time_steps_since_precip, new_storm,
    storms (lines 154-160). *)
Record tracker := mkTr { tr_on : bool; tr_cnt : nat; tr_cur : storm; tr_done : list storm }.

Definition zip_add (a b : list num) : list num := map (fun p => nadd (fst p) (snd p)) (combine a b).

(** storms.py 165-196, one pass of the loop body for row [r] at position [i].
    [steps] (steps_thresh) is a natural number: a negative threshold acts like 0. *)
Definition track_row (thr : Qc) (steps : nat) (s : tracker) (i : nat) (r : list num) : tracker :=
  let s1 :=
    if gtb (pd_max r) thr then
      let cur := if tr_on s then tr_cur s else mkStorm i i (map (fun _ => Some 0) r) in
      mkTr true 0 (mkStorm (s_start cur) i (zip_add (s_tot cur) r)) (tr_done s)
    else if tr_on s && (tr_cnt s <? steps)%nat then
      mkTr true (S (tr_cnt s)) (mkStorm (s_start (tr_cur s)) i (s_tot (tr_cur s))) (tr_done s)
    else s in
  if (steps <=? tr_cnt s1)%nat && tr_on s1 then
    mkTr false (tr_cnt s1) (tr_cur s1) (tr_done s1 ++ [tr_cur s1])
  else s1.

Fixpoint track_rows (thr : Qc) (steps : nat) (s : tracker) (i : nat) (rows : list (list num)) : tracker :=
  match rows with
  | [] => s
  | r :: t => track_rows thr steps (track_row thr steps s i r) (S i) t
  end.

(** lines 156-160 and 198-200; the DataFrame packaging (202-210) is not modelled. *)
Definition tracking_by_station (thr : Qc) (steps : nat) (rows : list (list num)) : list storm :=
  let s := track_rows thr steps (mkTr false 0 (mkStorm 0 0 []) []) 0 rows in
  if tr_on s then tr_done s ++ [tr_cur s] else tr_done s.

(** ** tracking_by_basin, storms.py 213-266 *)

(** storm_lst, time_steps_since_precip, is_storming: the caller keeps them between
    calls (precipitation.py 182-184 start such variables at [], 0, False). *)
Record basin := mkB { b_list : list (nat * nat); b_cnt : nat; b_on : bool }.
Definition basin0 : basin := mkB [] 0 false.

Fixpoint set_last_end (l : list (nat * nat)) (t : nat) : list (nat * nat) :=
  match l with
  | [] => []
  | [(a, _)] => [(a, t)]
  | x :: r => x :: set_last_end r t
  end.

(** storms.py 248-266; the 'end': None of line 252 is overwritten at 256 before the
    function returns, the model appends the storm with end = time at once. *)
Definition tracking_by_basin (thr : Qc) (steps : nat) (b : basin) (time : nat) (p : list num) : basin :=
  let b1 :=
    if gtb (np_max p) thr then
      let b' := if (length (b_list b) =? 0)%nat || negb (b_on b)
                then mkB (b_list b ++ [(time, time)]) (b_cnt b) true else b in
      mkB (set_last_end (b_list b') time) 0 (b_on b')
    else if b_on b && (b_cnt b <? steps)%nat then mkB (b_list b) (S (b_cnt b)) (b_on b)
    else b in
  if (steps <=? b_cnt b1)%nat then mkB (b_list b1) (b_cnt b1) false else b1.

Fixpoint basin_run (thr : Qc) (steps : nat) (b : basin) (time : nat) (ps : list (list num)) : basin :=
  match ps with
  | [] => b
  | p :: r => basin_run thr steps (tracking_by_basin thr steps b time p) (S time) r
  end.

(** ** clip_and_correct, storms.py 269-323 *)

Definition nscale (x : num) (f : num) : num :=
  match x, f with Some a, Some b => Some (a * b) | _, _ => None end.

(** [precip_clipped.loc[start:end] = precip.loc[start:end]], lines 297-302: rows of
    [acc] from position [a] to [b] replaced by those of [orig]; [i] is the position of
    the first row. *)
Fixpoint overlay (a b i : nat) (orig acc : list (list num)) : list (list num) :=
  match orig, acc with
  | o :: orig', x :: acc' =>
      (if (a <=? i)%nat && (i <=? b)%nat then o else x) :: overlay a b (S i) orig' acc'
  | _, _ => []
  end.

Definition clip (storms : list (nat * nat)) (precip : list (list num)) : list (list num) :=
  fold_left (fun acc s => overlay (fst s) (snd s) 0 precip acc) storms
            (map (map (fun _ => Some 0)) precip).

(** pandas column sum: NaN counts as nothing. *)
Fixpoint colsum (c : nat) (t : list (list num)) : Qc :=
  match t with
  | [] => 0
  | r :: t' => (match nth c r None with Some v => v | None => 0 end) + colsum c t'
  end.

(** lines 310-321; a station that is not listed has no entry in [correction]. *)
Definition correction (storms : list (nat * nat)) (stations : list nat)
    (precip : list (list num)) (c : nat) : num :=
  if (length stations =? 0)%nat || existsb (Nat.eqb c) stations then
    let original := colsum c precip in
    let clipped := colsum c (clip storms precip) in
    Some (if Qceqb original 0 then 1 else if Qceqb clipped 0 then 0 else original / clipped)
  else None.

Fixpoint scale_row (f : nat -> num) (c : nat) (r : list num) : list num :=
  match r with
  | [] => []
  | x :: t => nscale x (f c) :: scale_row f (S c) t
  end.

(** line 323: multiplication aligned on the column labels *)
Definition clip_and_correct (precip : list (list num)) (storms : list (nat * nat))
    (stations : list nat) : list (list num) :=
  map (scale_row (correction storms stations precip) 0) (clip storms precip).

(** ** time_since_storm, storms.py 5-67 *)

(** One pixel's inputs and state. *)
Record tpx := mkTpx { t_p : Qc; t_ps : Qc; t_days : Qc; t_sp : Qc }.

Definition qsum (l : list Qc) : Qc := fold_right Qcplus 0 l.

(** [time_step] is an argument that is never used (line 5); NaN not modelled. *)
Definition time_since_storm (time_step mass time ps_thresh : Qc) (g : list tpx) : list (Qc * Qc) :=
  if Qceqb (qsum (map t_ps g)) 0 then map (fun x => (t_days x + 1, 0)) g
  else map (fun x =>
         let days := t_days x + 1 in
         let sp := if Qcleb time days then 0 else t_sp x in
         let sp := if Qcleb ps_thresh (t_ps x) then t_p x else sp in
         (if Qcleb mass sp then 0 else days, sp)) g.

(** ** time_since_storm_pixel, storms.py 70-111 *)
Record ppx := mkPpx { p_p : num; p_ps : num; p_dpt : num; p_days : Qc }.

Definition np_min (l : list num) : num :=
  match np_max (map (option_map Qcopp) l) with None => None | Some m => Some (- m) end.

Definition time_since_storm_pixel (storming : bool) (time_step mass ps_thresh : Qc) (g : list ppx)
  : list Qc :=
  let cold := match np_min (map p_dpt g) with Some m => Qcltb m (q 2 1) | None => false end in
  map (fun x =>
    let days := p_days x + time_step in
    if storming && cold then
      if geb (p_p x) mass && geb (p_ps x) ps_thresh then 0 else days
    else days) g.

(** ** The callers' loops *)

(** precipitation.py 408-456 (distribute_for_susong1999) restricted to the storm state:
    per pixel (storm_days, storm_total).  [SDry]: the stations' sum is not positive
    (lines 446-453), [SWet f]: lines 419-444 with the distributed precipitation and
    percent snow [f] of every pixel; [ts] = time_step/60/24. *)
Inductive sstep := SDry | SWet (f : list (Qc * Qc)).
Definition mk_tpx (x : (Qc * Qc) * (Qc * Qc)) : tpx :=
  mkTpx (fst (fst x)) (snd (fst x)) (fst (snd x)) (snd (snd x)).
Definition susong_step (ts mass time : Qc) (st : list (Qc * Qc)) (e : sstep) : list (Qc * Qc) :=
  match e with
  | SDry => map (fun x => (fst x + ts, snd x)) st
  | SWet f => time_since_storm ts mass time (q 1 2) (map mk_tpx (combine f st))
  end.
Definition susong_run (ts mass time : Qc) (st : list (Qc * Qc)) (l : list sstep) : list (Qc * Qc) :=
  fold_left (susong_step ts mass time) l st.

(** precipitation.py 327-406 (distribute_for_marks2017) restricted to storm_days.
    [MDry]: lines 394-398; [MWet storming f]: lines 384-392, [f] gives every pixel's
    precipitation, percent snow and precipitation temperature. *)
Inductive mstep := MDry | MWet (storming : bool) (f : list (num * num * num)).
Definition mk_ppx (x : (num * num * num) * Qc) : ppx :=
  mkPpx (fst (fst (fst x))) (snd (fst (fst x))) (snd (fst x)) (snd x).
Definition marks_step (ts mass : Qc) (st : list Qc) (e : mstep) : list Qc :=
  match e with
  | MDry => map (fun d => d + ts) st
  | MWet storming f => time_since_storm_pixel storming ts mass (q 1 2) (map mk_ppx (combine f st))
  end.
Definition marks_run (ts mass : Qc) (st : list Qc) (l : list mstep) : list Qc :=
  fold_left (marks_step ts mass) l st.
