(** Model of saturation vapour pressure: satw and sati of smrf/envphys/core/topotherm.c 109-173 and of
    smrf/envphys/vapor_pressure.py 6-65, with rh2vp and satvp (93-126).  Reals stand for floats; [None] is NaN. *)
From Coq Require Import Reals List Bool.
From Verif Require Import RNum WinsModel.
Import ListNotations.
Local Open Scope R_scope.

(** constants.py and envphys.h *)
Definition FREEZE : R := 273.16.
Definition BOIL : R := 373.15.
Definition SEA_LEVEL : R := 101324.6.
(** pow(10, x) and log(x)/log(10) *)
Definition pow10 (x : R) : R := Rpower 10 x.
Definition log10 (x : R) : R := ln x / ln 10.

(** the formula of satw, topotherm.c 127-132 and vapor_pressure.py 24-30 *)
Definition satw (tk : R) : R :=
  pow10 (-7.90298 * (BOIL / tk - 1) + 5.02808 * log10 (BOIL / tk) -
         0.00000013816 * (pow10 (11.344 * (1 - tk / BOIL)) - 1) +
         0.0081328 * (pow10 (-3.49149 * (BOIL / tk - 1)) - 1) + log10 SEA_LEVEL).
(** sati for a temperature above zero, topotherm.c 157-172 and vapor_pressure.py 51-65 *)
Definition sat (tk : R) : R :=
  if rltb FREEZE tk then satw tk
  else pow10 (-9.09718 * (FREEZE / tk - 1) - 3.56654 * log10 (FREEZE / tk) +
              0.876793 * (1 - tk / FREEZE) + log10 6.1071) * 100.

(** sati of topotherm.c 145-173: temperatures not above absolute zero end the process; NaN passes the tests *)
Definition sati_c (tk : rnum) : res rnum :=
  match tk with
  | None => Ok None
  | Some t => if rleb t 0 then Err ProcessExit else Ok (Some (sat t))
  end.
(** sati of vapor_pressure.py 35-65, one element: negative temperatures become NaN; at exactly zero the
    quotients are infinite and the power is 0 *)
Definition sati_py (tk : rnum) : rnum :=
  match tk with
  | None => None
  | Some t => if rltb t 0 then None else if reqb t 0 then Some 0 else Some (sat t)
  end.
(** rh2vp, 93-111: one flag for the whole grid, taken from its first cell; an empty grid is left out *)
Definition rh2vp (cells : list (rnum * rnum)) : list rnum :=
  let percent := match cells with (_, Some r) :: _ => rleb 1 r | _ => false end in
  map (fun c => rlift2 Rmult (sati_py (rlift (fun t => t + 273.15) (fst c))) (if percent then rlift (fun r => r / 100) (snd c) else snd c)) cells.
(** satvp, 114-126 *)
Definition satvp (dpt : rnum) : rnum := sati_py (rlift (fun t => t + 273.15) dpt).
