(** Model of thermal radiation: smrf/distribute/thermal.py, smrf/envphys/thermal/ and smrf/envphys/core/topotherm.c.
    One cell; the cells of a grid do not influence each other.  Reals stand for floats; [None] is NaN, and also
    stands for the infinities of a division by zero. *)
From Coq Require Import Reals List Bool.
From Verif Require Import RNum WinsModel SatModel.
Import ListNotations.
Local Open Scope R_scope.

Definition nadd : rnum -> rnum -> rnum := rlift2 Rplus.
Definition nsub : rnum -> rnum -> rnum := rlift2 Rminus.
Definition nmul : rnum -> rnum -> rnum := rlift2 Rmult.
Definition ndiv (a b : rnum) : rnum :=
  match a, b with Some x, Some y => if reqb y 0 then None else Some (x / y) | _, _ => None end.
(** sqrt and a fractional power, NaN below zero *)
Definition nsqrt (a : rnum) : rnum := match a with Some x => if rltb x 0 then None else Some (sqrt x) | None => None end.
Definition nroot7 (a : rnum) : rnum :=
  match a with
  | Some x => if rltb x 0 then None else if reqb x 0 then Some 0 else Some (Rpower x (1 / 7))
  | None => None
  end.
(** if (x > 1.0) x = 1.0 *)
Definition cap1 (a : rnum) : rnum := if ncmp rltb (Some 1) a then Some 1 else a.

(** constants.py, topotherm.c 14, envphys.h *)
Definition STEF_BOLTZ : R := 0.000000056697.
Definition EMISS_VEG : R := 0.96.
Definition STD_LAPSE_M : R := -0.0065.
Definition STD_LAPSE : R := -6.5.

(** brutsaert, topotherm.c 179-207, with the saturation function as a parameter, and topotherm.py 8-36 *)
Definition brutsaert (s_ta s_tp : rnum) (ta ea z : rnum) (pa : R) : rnum :=
  let t_prime := nsub ta (rlift (fun z => STD_LAPSE_M * z) z) in
  let rh := cap1 (ndiv ea s_ta) in
  let e_prime := rlift (fun e => e / 100) (nmul rh s_tp) in
  cap1 (rlift (fun x => 1.24 * x * pa / SEA_LEVEL) (nroot7 (ndiv e_prime t_prime))).
(** HYSTAT of envphys.h 205-207, lapse rate not zero; hysat of topotherm.py 39-62.  A quotient not above zero has
    no real power. *)
Definition hystat (pb : R) (tb : rnum) (lapse : R) (h : rnum) (g m : R) : rnum :=
  match ndiv tb (nadd tb (rlift (fun h => lapse * h) h)) with
  | Some q => if rleb q 0 then None else Some (pb * Rpower q (g * m / (8314.32 * lapse * 0.001)))
  | None => None
  end.
(** the part after the emissivity, topotherm.c 74-99 and topotherm.py 101-118 *)
Definition emitted (emiss ta z skv : rnum) : rnum :=
  let t0 := nsub ta (rlift (fun z => z * STD_LAPSE_M) z) in
  let press := hystat SEA_LEVEL t0 STD_LAPSE (rlift (fun z => z / 1000) z) 9.80665 28.9644 in
  let emiss := nmul emiss (rlift (fun p => p / SEA_LEVEL) press) in
  let emiss := cap1 (nadd (nmul emiss skv) (rlift (fun s => 1 - s) skv)) in
  nmul emiss (rlift (fun t => STEF_BOLTZ * t * t * t * t) ta).
(** topotherm, topotherm.c 19-103 *)
Definition topotherm_c (ta tw z skv : rnum) : res rnum :=
  let ta := rlift (fun t => t + FREEZE) ta in
  let tw := rlift (fun t => t + FREEZE) tw in
  if ncmp rltb ta (Some 0) || ncmp rltb tw (Some 0) then Err ProcessExit
  else
    let tw := if ncmp rltb ta tw then ta else tw in
    bind (sati_c tw) (fun ea => bind (sati_c ta) (fun s_ta =>
    bind (sati_c (nsub ta (rlift (fun z => STD_LAPSE_M * z) z))) (fun s_tp =>
    Ok (emitted (brutsaert s_ta s_tp ta ea z SEA_LEVEL) ta z skv)))).
(** topotherm, topotherm.py 65-118 *)
Definition topotherm_py (ta tw z skv : rnum) : rnum :=
  let below_nan := fun t : rnum => if ncmp rltb t (Some 0) then None else t in
  let ta := below_nan (rlift (fun t => t + FREEZE) ta) in
  let tw := below_nan (rlift (fun t => t + FREEZE) tw) in
  let tw := if ncmp rltb ta tw then ta else tw in
  let s_tp := sati_py (nsub ta (rlift (fun z => STD_LAPSE_M * z) z)) in
  emitted (brutsaert (sati_py ta) s_tp ta (sati_py tw) z SEA_LEVEL) ta z skv.

(** clear_sky.py 30-41 *)
Definition precipitable_water (ta ea : rnum) : rnum := ndiv (rlift (fun e => 4650 * e) ea) ta.
Definition calc_long_wave (e ta : rnum) : rnum := nmul (rlift (fun e => e * STEF_BOLTZ) e) (rlift (fun t => t ^ 4) ta).
(** clear_sky.py 44-130; [ta] in Celsius, [ea] in kPa *)
Definition Dilly1998 (ta ea : rnum) : rnum :=
  let ta := rlift (fun t => t + FREEZE) ta in
  let w := precipitable_water ta ea in
  nadd (rlift (fun t => 59.38 + 113.7 * (t / 273.16) ^ 6) ta) (rlift (fun s => 96.96 * s) (nsqrt (rlift (fun w => w / 25) w))).
Definition Prata1996 (ta ea : rnum) : rnum :=
  let ta := rlift (fun t => t + FREEZE) ta in
  let w := precipitable_water ta ea in
  let root := nsqrt (rlift (fun w => 1.2 + 3 * w) w) in
  let ec := rlift (fun x => 1 - x) (nmul (rlift (fun w => 1 + w) w) (rlift (fun s => exp (- s)) root)) in
  calc_long_wave ec ta.
Definition Angstrom1918 (ta ea : rnum) : rnum :=
  calc_long_wave (rlift (fun ea => 0.83 - 0.18 * Rpower 10 (-0.067 * ea)) ea) (rlift (fun t => t + FREEZE) ta).

(** cloud.py 7-132 *)
Definition Garen2005 (th cf : rnum) : rnum := nmul th (rlift (fun f => 1.485 - 0.488 * f) cf).
Definition Unsworth1975 (th ta cf : rnum) : rnum :=
  let c := rlift (fun f => 1 - f) cf in
  let ta := rlift (fun t => t + FREEZE) ta in
  let ec := ndiv th (rlift (fun t => STEF_BOLTZ * t ^ 4) ta) in
  let ea := nadd (nmul (rlift (fun c => 1 - 0.84 * c) c) ec) (rlift (fun c => 0.84 * c) c) in
  calc_long_wave ea ta.
Definition Kimball1982 (th ta ea cf : rnum) : rnum :=
  let ta := rlift (fun t => t + FREEZE) ta in
  let tc := rlift (fun t => t - 11) ta in
  let f8 := rlift (fun t => -0.6732 + 0.6240 * 0.01 * t - 0.9140 * 0.00001 * t ^ 2) tc in
  let e8z := nadd (Some 0.24) (nmul (rlift (fun e => 2.98 * 0.000001 * e ^ 2) ea) (rlift exp (ndiv (Some 3000) ta))) in
  let t8 := rlift (fun e => 1 - e * (1.4 - 0.4 * e)) e8z in
  nadd th (calc_long_wave (nmul (nmul f8 e8z) t8) ta).
Definition Crawford1999 (th ta cf : rnum) : rnum :=
  nadd (calc_long_wave (rlift (fun f => 1 - f) cf) (rlift (fun t => t + FREEZE) ta)) (nmul cf th).

(** vegetation.py 6-38 *)
Definition thermal_correct_canopy (th ta tau height : rnum) : rnum :=
  let veg := rlift (fun t => STEF_BOLTZ * EMISS_VEG * (t + FREEZE) ^ 4) ta in
  if ncmp rltb (Some 2) height then nadd (nmul tau th) (nmul (rlift (fun u => 1 - u) tau) veg) else th.

(** distribute/thermal.py: the configuration, 196-252 *)
Inductive sky_method := Marks1979 | Dilley1998 | Prata | Angstrom | OtherSky.
Inductive cloud_method := Garen | Unsworth | Kimball | Crawford | OtherCloud.
Record th_cfg := mk_th_cfg {
  th_sky : sky_method; th_cloud : option cloud_method; th_veg : bool; th_terrain : bool; th_min : option R; th_max : option R }.
(** one cell of the inputs *)
Record th_in := mk_th_in {
  i_ta : rnum; i_vp : rnum; i_dew : rnum; i_cf : rnum; i_dem : rnum; i_skv : rnum; i_tau : rnum; i_height : rnum }.
(** the four outputs; those of corrections that are off are never set *)
Record th_out := mk_th_out { o_clear : rnum; o_cloud : option rnum; o_veg : option rnum; o_thermal : rnum }.
(** 277-294.  Without the terrain correction the sky view factor is None: ctopotherm (envphys_c.pyx 25-70) cannot make a
    two-dimensional buffer of it. *)
Definition clear_sky (c : th_cfg) (i : th_in) : res rnum :=
  let ea := rlift (fun v => v / 1000) (i_vp i) in
  match th_sky c with
  | Marks1979 => if th_terrain c then topotherm_c (i_ta i) (i_dew i) (i_dem i) (i_skv i) else Err ValueError
  | Dilley1998 => Ok (Dilly1998 (i_ta i) ea)
  | Prata => Ok (Prata1996 (i_ta i) ea)
  | Angstrom => Ok (Angstrom1918 (i_ta i) ea)
  | OtherSky => Err UnboundLocalError
  end.
(** 296-301: the air temperature is in Celsius here *)
Definition terrain_factor (c : th_cfg) (i : th_in) (cth : rnum) : rnum :=
  match th_sky c with
  | Marks1979 => cth
  | _ => if th_terrain c
         then nadd (nmul cth (i_skv i)) (nmul (rlift (fun s => (1 - s) * STEF_BOLTZ) (i_skv i)) (rlift (fun t => t ^ 4) (i_ta i)))
         else cth
  end.
(** 308-330 *)
Definition cloud_correction (m : cloud_method) (i : th_in) (cth : rnum) : rnum :=
  match m with
  | Garen => Garen2005 cth (i_cf i)
  | Unsworth => Unsworth1975 cth (i_ta i) (i_cf i)
  | Kimball => Kimball1982 cth (i_ta i) (rlift (fun v => v / 1000) (i_vp i)) (i_cf i)
  | Crawford => Crawford1999 cth (i_ta i) (i_cf i)
  | OtherCloud => cth
  end.
(** distribute, 254-342 *)
Definition distribute_thermal (c : th_cfg) (i : th_in) : res th_out :=
  bind (clear_sky c i) (fun cth =>
  let clear := terrain_factor c i cth in
  let cloudy := match th_cloud c with Some m => cloud_correction m i clear | None => clear end in
  let canopy := if th_veg c then thermal_correct_canopy cloudy (i_ta i) (i_tau i) (i_height i) else cloudy in
  Ok (mk_th_out clear (match th_cloud c with Some _ => Some cloudy | None => None end)
                (if th_veg c then Some canopy else None) (set_min_max (th_min c) (th_max c) canopy))).
