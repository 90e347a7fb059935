(** Model of dew point and wet bulb: smrf/envphys/core/dewpt.c, smrf/envphys/core/iwbt.c and
    smrf/distribute/vapor_pressure.py.  Reals stand for doubles; [None] is NaN.  The cells of a grid are
    independent (OpenMP loops over private variables, with e_pass private to the thread). *)
From Coq Require Import Reals ZArith List Bool.
From Verif Require Import RNum WinsModel SatModel.
Import ListNotations.
Local Open Scope R_scope.

(** ** the zero finder, dewpt.c 97-224 *)
(** envphys_c.h *)
Definition meps : R := 0.00000000000000022204460492503131.
Definition positive (x : rnum) : bool := ncmp rltb (Some 0) x.
Definition not_positive (x : rnum) : bool := ncmp rleb x (Some 0).
Definition nabs (x : rnum) : rnum := rlift Rabs x.
Definition is_zero (x : rnum) : bool := ncmp reqb x (Some 0).
Record brent := mk_brent { z_a : R; z_b : R; z_c : R; z_d : R; z_e : R; z_fa : rnum; z_fb : rnum; z_fc : rnum }.

(** the interpolated step or half of the interval, 167-204: the new d and e.  NaN makes every test false. *)
Definition brent_move (tol m a b c d e : R) (fa fb fc : rnum) : R * R :=
  if rltb (Rabs e) tol || ncmp rleb (nabs fa) (nabs fb) then (m, m)
  else match fa, fb, fc with
  | Some fa, Some fb, Some fc =>
      let s := fb / fa in
      let '(p, q) :=
        if reqb a c then (2 * m * s, 1 - s)
        else let q := fa / fc in let r := fb / fc in
             (s * (2 * m * q * (q - r) - (b - a) * (r - 1)), (q - 1) * ((r - 1) * (s - 1))) in
      let '(p, q) := if rltb 0 p then (p, - q) else (- p, q) in
      if rltb (2 * p) (3 * m * q - Rabs (tol * q)) && rltb p (Rabs (e * q / 2)) then (p / q, d) else (m, m)
  | _, _, _ => (m, m)
  end.
(** lines 145-160: c and the exchange that makes b the better end *)
Definition brent_order (st : brent) : brent :=
  let st := if (positive (z_fb st) && positive (z_fc st)) || (not_positive (z_fb st) && not_positive (z_fc st))
            then mk_brent (z_a st) (z_b st) (z_a st) (z_b st - z_a st) (z_b st - z_a st) (z_fa st) (z_fb st) (z_fa st)
            else st in
  if ncmp rltb (nabs (z_fc st)) (nabs (z_fb st))
  then mk_brent (z_b st) (z_c st) (z_b st) (z_d st) (z_e st) (z_fb st) (z_fc st) (z_fb st)
  else st.
(** one turn of the loop, 143-219: an answer or the next state *)
Definition brent_turn (f : R -> res rnum) (t : R) (st : brent) : res (R + brent) :=
  let st := brent_order st in
  let tol := meps * Rabs (z_b st) + t in
  let m := (z_c st - z_b st) / 2 in
  if rltb (Rabs m) tol || is_zero (z_fb st) then Ok (inl (z_b st))
  else
    let '(d, e) := brent_move tol m (z_a st) (z_b st) (z_c st) (z_d st) (z_e st) (z_fa st) (z_fb st) (z_fc st) in
    let b := if rltb tol (Rabs d) then z_b st + d else if rltb 0 m then z_b st + tol else z_b st - tol in
    bind (f b) (fun fb => Ok (inr (mk_brent (z_b st) b (z_c st) d e (z_fb st) fb (z_fc st)))).
(** the loop; out of turns is "did not converge", 221-224 *)
Fixpoint brent_loop (f : R -> res rnum) (t : R) (turns : nat) (st : brent) : res R :=
  match turns with
  | O => Ok 0
  | S n => bind (brent_turn f t st) (fun r => match r with inl x => Ok x | inr st => brent_loop f t n st end)
  end.
(** 117-128; the conversion to int truncates a number of at least 1 *)
Definition brent_turns (a b t : R) : nat :=
  let fb := if rleb (Rabs a) (Rabs b) then Rabs b else Rabs a in
  let tol := 0.5 * t + 2 * meps * fb in
  let s := ln (Rabs (b - a) / tol) / ln 2 in
  Z.to_nat (Int_part (s * s + 1)).
(** zerobr, 97-224.  errno is left out: the functions called set it only for results outside the range of
    doubles. *)
Definition zerobr (f : R -> res rnum) (a b t : R) : res R :=
  if reqb a b then Ok a
  else
    let mx := if rleb (Rabs a) (Rabs b) then Rabs b else Rabs a in
    let tol := 0.5 * t + 2 * meps * mx in
    bind (f a) (fun fa => bind (f b) (fun fb =>
    if ncmp rleb (nabs fb) (Some tol) then Ok b
    else if ncmp rleb (nabs fa) (Some tol) then Ok a
    else if positive (rlift2 Rmult fb fa) then Ok 0
    else brent_loop f t (brent_turns a b t) (mk_brent a b 0 0 0 fa fb fb))).

(** ** dew point *)
(** satm, 57-61 *)
Definition satm (ea : rnum) (t : R) : res rnum :=
  bind (sati_c (Some t)) (fun s => Ok (rlift2 Rminus ea s)).
(** the two loops of dew_pointp, 79-87, cut off after [fuel] turns: None is still running *)
Fixpoint lower_end (fuel : nat) (ea : rnum) (a : R) : option (res R) :=
  match fuel with
  | O => None
  | S n => match sati_c (Some a) with
           | Err e => Some (Err e)
           | Ok s => if ncmp rltb ea s then lower_end n ea (a * 0.75) else Some (Ok a)
           end
  end.
Fixpoint upper_end (fuel : nat) (ea : rnum) (b : R) : option (res R) :=
  match fuel with
  | O => None
  | S n => match sati_c (Some b) with
           | Err e => Some (Err e)
           | Ok s => if ncmp rltb s ea then upper_end n ea (b * 1.25) else Some (Ok b)
           end
  end.
(** dew_pointp, 65-93; a pressure out of range only prints a message *)
Definition dew_pointp (fuel : nat) (ea : rnum) (tol : R) : option (res R) :=
  match lower_end fuel ea FREEZE with
  | None => None
  | Some (Err e) => Some (Err e)
  | Some (Ok a) =>
      match upper_end fuel ea (FREEZE + 15) with
      | None => None
      | Some (Err e) => Some (Err e)
      | Some (Ok b) => Some (zerobr (satm ea) a b tol)
      end
  end.
(** one cell of dewpt, 31-47: the result passes through single precision twice; [fl32] is that rounding *)
Definition dewpt (fl32 : R -> R) (fuel : nat) (ea : rnum) (tol : R) : option (res R) :=
  option_map (fun r => bind r (fun x => Ok (fl32 (fl32 x - FREEZE)))) (dew_pointp fuel ea tol).

(** ** wet bulb, iwbt.c *)
(** envphys.h 281 and 288; MOL_H2O/MOL_AIR; RH2O; CP_AIR *)
Definition LH_VAP (t : R) : R := 2500000 - 2955.73 * (t - FREEZE).
Definition LH_FUS (t : R) : R := 333600 + 166.67 * (FREEZE - t).
Definition EPS : R := 18.0153 / 28.9644.
Definition RH2O : R := 461.5.
Definition CP_AIR : R := 1005.
(** 38-51 *)
Definition latent (ta dpt : R) : R :=
  if rleb ta FREEZE then LH_VAP ((ta + dpt) / 2) + LH_FUS ((ta + dpt) / 2)
  else if rleb dpt FREEZE then
    LH_VAP ((ta + dpt) / 2) + (FREEZE - dpt) / (ta - dpt) * LH_FUS ((FREEZE + dpt) / 2)
  else LH_VAP ((ta + dpt) / 2).
(** the loop, 60-77, for known numbers; [i] counts up, [left] is 11 - i.  A slope of zero (infinity in C) is
    NaN here. *)
Fixpoint wet_loop (left : nat) (ta ea xlh psyc tol esat ti dti : R) : res rnum :=
  if rltb tol dti then
    match left with
    | O => Err ProcessExit
    | S left' =>
        bind (if reqb ti ta then Ok (Some esat) else sati_c (Some ti)) (fun es =>
        match es with
        | None => Ok None
        | Some esat =>
            let dedt := xlh * (esat / (RH2O * (ti * ti))) in
            let pf := (ti - ta) + psyc * (esat - ea) in
            let dpdt := 1 + psyc * dedt in
            if reqb dpdt 0 then Ok None
            else
              let ti' := ti - pf / dpdt in
              match left' with
              | O => Err ProcessExit
              | S _ => wet_loop left' ta ea xlh psyc tol esat ti' (ti - ti')
              end
        end)
    end
  else Ok (Some ti).
(** wetbulb, 17-79, temperatures in K *)
Definition wetbulb (ta dpt press tol : R) : res rnum :=
  let xlh := latent ta dpt in
  bind (sati_c (Some dpt)) (fun ea => bind (sati_c (Some ta)) (fun esat =>
  match ea, esat with
  | Some ea, Some esat => wet_loop 11 ta ea xlh (EPS * (xlh / (CP_AIR * press))) tol esat ta 1
  | _, _ => Ok None
  end)).
(** 108-114; GRAVITY, MOL_AIR, RGAS, STD_LAPSE, STD_AIRTMP *)
Definition station_pressure (z : R) : R :=
  if reqb z 0 then SEA_LEVEL
  else SEA_LEVEL * Rpower (288 / (288 + -6.5 * (z / 1000))) (9.80665 * 28.9644 / (8314.32 * -6.5 * 0.001)).
(** one cell of iwbt, 82-137, temperatures in C.  With a NaN input the result is NaN, unless a temperature
    ends the process. *)
Definition iwbt (ta td z : rnum) (tol : R) : res rnum :=
  let ta := rlift (fun x => x + FREEZE) ta in
  let td := rlift (fun x => x + FREEZE) td in
  if ncmp rltb ta (Some 0) || ncmp rltb td (Some 0) then Err ProcessExit
  else match ta, td, z with
  | Some ta, Some td, Some z => bind (wetbulb ta td (station_pressure z) tol) (fun w => Ok (rlift (fun x => x - FREEZE) w))
  | _, _, _ => bind (sati_c td) (fun _ => bind (sati_c ta) (fun _ => Ok None))
  end.

(** ** distribute/vapor_pressure.py 104-164, one cell after the interpolation *)
Record vp_cfg := mk_vp_cfg { v_min : option R; v_max : option R; v_tol : R; v_wet_bulb : bool }.
Record vp_cell := mk_vp_cell { vp_pressure : rnum; vp_dew : rnum; vp_precip_temp : rnum }.
Definition limit_dew (dpt : R) (ta : rnum) : rnum :=
  if ncmp rleb ta (Some dpt) then rlift (fun t => t - 0.2) ta else Some dpt.
Definition distribute_vp (fl32 : R -> R) (fuel : nat) (c : vp_cfg) (vp ta z : rnum) : option (res vp_cell) :=
  let vp := set_min_max (v_min c) (v_max c) vp in
  option_map (fun r => bind r (fun d =>
    let dpt := limit_dew d ta in
    if v_wet_bulb c then bind (iwbt ta dpt z (v_tol c)) (fun w => Ok (mk_vp_cell vp dpt w))
    else Ok (mk_vp_cell vp dpt dpt))) (dewpt fl32 fuel vp (v_tol c)).
