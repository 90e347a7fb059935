(** Model of smrf/envphys/nasde_model/ and smrf/envphys/snow.py.

    Grids are flattened to lists, [None] is NaN, numbers are exact reals.  Because
    Marks2017 relies on (and is hurt by) arrays that are shared between names, arrays
    live in an explicit memory and names are addresses. *)
From Coq Require Import Reals List Bool.
From Verif Require Import RNum.
Import ListNotations.
Local Open Scope R_scope.

Definition arr := list rnum.

(** ** nasde_model/utils.py 11-42: calc_percent_snow for one pixel, the masks in order;
    comparisons with NaN are false, so a NaN temperature keeps the initial 0. *)
Definition percent_snow (t_max : R) (t : rnum) : rnum :=
  match t with
  | None => Some 0
  | Some t =>
    let p := 0 in
    let p := if rleb t (- (1/2)) then 1 else p in
    let p := if rltb (- (1/2)) t && rleb t 0 then (- t / (1/2)) * (1/4) + 3/4 else p in
    let p := if rltb 0 t && rleb t (t_max + 1) then (- t / (t_max + 1)) * (3/4) + 3/4 else p in
    Some p
  end.
Definition calc_percent_snow (t_max : R) (tpp : arr) : arr := map (percent_snow t_max) tpp.

(** utils.py 45-71: the in-place clamp (line 66) and the snow temperature (68-69). *)
Definition clamp_min (t_min : R) (t : rnum) : rnum :=
  match t with None => None | Some x => Some (if rltb x t_min then t_min else x) end.
Definition snow_temp (t_max : R) (t : rnum) : rnum :=
  match t with None => None | Some x => Some (if rltb t_max x then t_max else x) end.

(** ** piecewise_suosong_1999.py 72-86: density of one pixel; numpy's [base ** ex] is
    [Rpower], faithful for a positive base. *)
Definition new_density (t_max t_min : R) (tpp tsnow : rnum) : rnum :=
  rlift2 (fun t ts =>
    let t_range := t_max - t_min in
    let ex := 1 + ((t_range + (ts - t_max)) / t_range) * (3/4) in
    let ex := if rltb (7/4) ex then 7/4 else ex in
    50 + 17/10 * Rpower ((t - 0) + 15) ex) tpp tsnow.

(** ** Arrays in memory *)
Record heap := mkH { mem : nat -> arr; next : nat }.
Definition alloc (h : heap) (v : arr) : heap * nat :=
  (mkH (fun a => if Nat.eqb a (next h) then v else mem h a) (S (next h)), next h).
Definition write (h : heap) (a : nat) (v : arr) : heap :=
  mkH (fun b => if Nat.eqb b a then v else mem h b) (next h).

(** utils.py 45-71 on arrays: the argument itself is modified. *)
Definition check_temperature (h : heap) (tpp : nat) (t_max t_min : R) : heap * nat :=
  let h := write h tpp (map (clamp_min t_min) (mem h tpp)) in
  alloc h (map (snow_temp t_max) (mem h tpp)).

(** piecewise_suosong_1999.py 44-87 with check_temps=True; with check_temps=False the
    code fails at line 77 because tsnow is not defined. *)
Definition piecewise_run (h : heap) (tpp : nat) (t_max t_min : R) : heap * (nat * nat) :=
  let (h, tsnow) := check_temperature h tpp t_max t_min in
  let (h, pcs) := alloc h (calc_percent_snow t_max (mem h tpp)) in
  let (h, rho) := alloc h (map2 (new_density t_max t_min) (mem h tpp) (mem h tsnow)) in
  (h, (pcs, rho)).

(** ** susong_1999.py *)
(** one row of TABLE (32-75); [None] is an infinite bound (the literal 1e309 overflows) *)
Record row := mkRow { temp_min : option R; temp_max : option R; snow : R; density : R }.
Definition TABLE : list row :=
  [ mkRow None (Some (-5)) 1 75;
    mkRow (Some (-5)) (Some (-3)) 1 100;
    mkRow (Some (-3)) (Some (-(3/2))) 1 150;
    mkRow (Some (-(3/2))) (Some (-(1/2))) 1 175;
    mkRow (Some (-(1/2))) (Some 0) (3/4) 200;
    mkRow (Some 0) (Some (1/2)) (1/4) 250;
    mkRow (Some (1/2)) None 0 0 ].
Definition in_row (r : row) (t : rnum) : bool :=
  match t with
  | None => false
  | Some x =>
    (match temp_min r with None => true | Some m => rleb m x end) &&
    (match temp_max r with None => true | Some m => rltb x m end)
  end.
(** lines 100-109: the loop over the rows, for one pixel; ps and sd start at 0 *)
Definition table_pixel (t : rnum) : R * R :=
  fold_left (fun acc r => if in_row r t then (snow r, density r) else acc) TABLE (0, 0).
(** numpy sum: NaN propagates *)
Definition nsum (l : arr) : rnum := fold_right (rlift2 Rplus) (Some 0) l.
(** lines 92-116; for one pixel lines 113-114 *)
Definition dry (p : rnum) : bool := match p with Some x => reqb x 0 | None => false end.
Definition susong_run (temperature precipitation : arr) : list (R * R) :=
  if dry (nsum precipitation) then map (fun _ => (0, 0)) precipitation
  else map2 (fun t p => if dry p then (0, 0) else table_pixel t) temperature precipitation.

(** ** marks_2017.py 86-207 *)
Record marks := mkM { o_swe : nat; o_pcs : nat; o_rho_ns : nat; o_d_rho_c : nat;
                      o_d_rho_m : nat; o_rho_s : nat; o_rho : nat; o_zs : nat }.

(** lines 143-182, the quantities of one snowing pixel; the code extracts the masked
    pixels, computes, and writes them back through the same mask *)
Definition s_rho_ns (rho_orig : rnum) : rnum := rlift (fun r => r / 1000) rho_orig.
Definition s_d_rho_c (tsnow swe rho_ns : rnum) : rnum :=
  rlift2 Rmult (rlift2 (fun ts w => 26/1000 * exp (- (8/100) * (0 - ts)) * w) tsnow swe)
               (rlift (fun r => exp (- 21 * r)) rho_ns).
Definition s_d_rho_m (tsnow rho_ns : rnum) : rnum :=
  rlift2 (fun ts r =>
    let c11 := if rleb 100 (r * 1000) then exp (- (46/1000) * (r * 1000 - 100)) else 1 in
    1/100 * c11 * exp (- (4/100) * (0 - ts))) tsnow rho_ns.
Definition s_rho_s (rho_ns c m : rnum) : rnum :=
  rlift2 Rplus rho_ns (rlift2 Rmult (rlift2 Rplus c m) rho_ns).
Definition s_zs (swe rho_s : rnum) : rnum := rlift2 Rdiv swe rho_s.
Definition s_rho (swe pp pcs rho_s : rnum) : rnum :=
  let r := if ncmp rltb swe pp && ncmp rltb (Some 0) pcs
           then rlift2 Rplus (rlift2 Rmult pcs rho_s) (rlift (fun x => 1 - x) pcs) else rho_s in
  if ncmp rltb (Some 1) r then Some 1 else r.

Definition positive (x : rnum) : bool := ncmp rltb (Some 0) x.
Definition times1000 (a : arr) : arr := map (rlift (fun x => x * 1000)) a.

Definition marks_run (h : heap) (tpp pp : nat) : heap * marks :=
  let n := length (mem h tpp) in
  (* 118-121: one array, seven names *)
  let (h, z) := alloc h (repeat (Some 0) n) in
  let (h, rho) := alloc h (repeat (Some 1) n) in
  let '(h, pcs, swe) :=
    if existsb positive (mem h pp) then
      let (h, tsnow) := check_temperature h tpp 0 (-10) in
      let '(h, (pcs, rho_orig)) := piecewise_run h tpp 0 (-10) in
      let (h, swe) := alloc h (map2 (rlift2 Rmult) (mem h pp) (mem h pcs)) in
      let ind := map positive (mem h swe) in
      if existsb positive (mem h swe) then
        let v_swe := mem h swe in let v_pp := mem h pp in
        let v_pcs := mem h pcs in let v_ts := mem h tsnow in
        let v_ns := map s_rho_ns (mem h rho_orig) in
        let v_c := map3 s_d_rho_c v_ts v_swe v_ns in
        let v_m := map2 s_d_rho_m v_ts v_ns in
        let v_rs := map3 s_rho_s v_ns v_c v_m in
        let v_zs := map2 s_zs v_swe v_rs in
        let v_r := map2 (fun f x => f x) (map3 s_rho v_swe v_pp v_pcs) v_rs in
        (* 184-191: written through five names of the same array *)
        let h := write h z (masked ind v_ns (mem h z)) in
        let h := write h z (masked ind v_m (mem h z)) in
        let h := write h z (masked ind v_c (mem h z)) in
        let h := write h z (masked ind v_zs (mem h z)) in
        let h := write h z (masked ind v_rs (mem h z)) in
        let h := write h rho (masked ind v_r (mem h rho)) in
        let h := write h pcs (masked ind v_pcs (mem h pcs)) in
        (h, pcs, swe)
      else (h, pcs, swe)
    else (h, z, z) in
  (* 194-196 *)
  let (h, rho_ns) := alloc h (times1000 (mem h z)) in
  let (h, rho_s) := alloc h (times1000 (mem h z)) in
  let (h, rho) := alloc h (times1000 (mem h rho)) in
  (h, mkM swe pcs rho_ns z z rho_s rho z).

(** ** snow.py 36-75: phase_and_density.  The arguments are copied (65-66) before the
    model runs; an unknown model name raises ValueError ([None]).  Returns the
    addresses of snow density and percent snow; precipitation must have the shape of
    temperature. *)
Inductive model_name := Susong | Piecewise | Marks | OtherModel.
Definition phase_and_density (h : heap) (temperature precipitation : nat) (m : model_name)
  : option (heap * (nat * nat)) :=
  let (h, p) := alloc h (mem h precipitation) in
  let (h, t) := alloc h (mem h temperature) in
  match m with
  | Susong =>
      let r := susong_run (mem h t) (mem h p) in
      let (h, ps) := alloc h (map (fun x => Some (fst x)) r) in
      let (h, sd) := alloc h (map (fun x => Some (snd x)) r) in
      Some (h, (sd, ps))
  | Piecewise => let '(h, (pcs, rho)) := piecewise_run h t 0 (-10) in Some (h, (rho, pcs))
  | Marks => let (h, r) := marks_run h t p in Some (h, (o_rho_s r, o_pcs r))
  | OtherModel => None
  end.
