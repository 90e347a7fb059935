(** Model of solar radiation: smrf/envphys/solar (twostream.py, toporad.py, cloud.py, vegetation.py) and
    smrf/distribute/solar.py, cell by cell.  Reals stand for floats; [None] is NaN in a number, and no
    array at all where a whole grid is optional. *)
From Coq Require Import Reals ZArith String List Bool.
From Verif Require Import RNum WinsModel.
Import ListNotations.
Local Open Scope R_scope.

(** ** cloud.py *)
(** cf_cloud, 6-45, one cell: global and diffuse radiation after clouds *)
Definition cf_cloud (beam diffuse cf : rnum) : rnum * rnum :=
  let bf_c := rlift (fun c => 1.38 * (c - 0.15) ^ 2) cf in
  let c_grad := rlift2 Rmult beam cf in
  let c_brad := rlift2 Rmult c_grad bf_c in
  let c_drad := rlift2 Rminus c_grad c_brad in
  let c_drad := if ncmp rleb cf (Some 0.15) then c_grad else c_drad in
  let c_drad := if ncmp rltb (Some 0.99) cf then rlift2 Rmult diffuse cf else c_drad in
  (c_grad, c_drad).

(** ** vegetation.py *)
(** the illumination cosine after the assignment of line 16, which changes the caller's array *)
Definition veg_cosz (cosz : rnum) : rnum := if ncmp rleb cosz (Some 0) then Some 0.01 else cosz.
(** solar_veg_beam, 4-18 *)
Definition solar_veg_beam (data : rnum) (height : rnum) (cosz k : rnum) : rnum :=
  rlift2 Rmult data (rlift exp (rlift2 Rdiv (rlift2 (fun k h => - k * h) k height) (veg_cosz cosz))).
(** solar_veg_diffuse, 21-31 *)
Definition solar_veg_diffuse (data tau : rnum) : rnum := rlift2 Rmult tau data.

(** ** twostream.py *)
(** beta_0, 170-247.  The loop over n = 2 .. 2047; [fuel] counts the values left.  Python floats: a zero
    sum makes the division of line 218 fail. *)
Fixpoint beta_loop (fuel n : nat) (g cosz pnm2 pnm1 fm gn sum : R) : res R :=
  match fuel with
  | O => Ok sum
  | S fuel =>
      let pn := ((2 * INR n - 1) * cosz * pnm1 + (1 - INR n) * pnm2) / INR n in
      if Nat.odd n then
        let last := sum in
        let sum := last + gn * fm * pn in
        if reqb sum 0 then Err ZeroDivisionError
        else if rltb (Rabs ((sum - last) / sum)) 0.000000001 && rleb sum 1 then Ok sum
        else
          let m := (INR n - 1) / 2 in
          beta_loop fuel (S n) g cosz pnm1 pn (fm * (- (2 * m + 1) / (2 * (m + 2))))
            (gn * (g * g * (4 * m + 7) / (4 * m + 3))) sum
      else beta_loop fuel (S n) g cosz pnm1 pn fm gn sum
  end.
(** After the loop n is at most 2047, so the branch for no convergence (line 235) is never taken. *)
Definition beta_0 (cosz g : R) : res R :=
  if negb (rltb 0 cosz && rleb cosz 1 && rleb 0 g && rleb g 1) then Err AssertionError
  else if reqb g 0 then Ok ((1 - 0) / 2)
  else bind (beta_loop (Z.to_nat 2046) 2 g cosz 1 cosz (-1 / 8) (7 * g * g * g) (3 * g * cosz / 2)) (fun s =>
       if rleb 0 s && rleb s 1 then Ok ((1 - s) / 2) else Err AssertionError).

(** mwgamma, 131-167 *)
Definition mwgamma (cosz omega g : R) : res (R * R * R * R) :=
  bind (beta_0 cosz g) (fun b0 =>
  let hd := 4 * (1 - g * g * (1 - cosz)) in
  let '(g1, g2) :=
    if reqb g 1 then let v := (g * ((3 * (g - 1) + 4 * b0) * g - 3) + 3) / hd in (v, v)
    else ((g * (g * ((3 * g + 4 * b0) * omega - 3) - 3 * omega) - 4 * omega + 7) / hd,
          (g * (g * ((3 * g + 4 * (b0 - 1)) * omega + 1) - 3 * omega) + 4 * omega - 1) / hd) in
  Ok (g1, g2, b0, 1 - b0)).

(** what twostream returns per cell: reflectance, transmittance, direct transmittance *)
Record two := mk_two { t_refl : R; t_trans : R; t_btrans : R }.
(** the closed formulas, 67-119, for one optical depth; a zero denominator gives NaN or infinity, for which
    the assertions fail (infinity passes some of them; taken as a failure here). *)
Definition two_cell (cosz omega R0 gam1 gam2 gam3 gam4 tau : R) : res two :=
  let alph1 := gam1 * gam4 + gam2 * gam3 in
  let alph2 := gam2 * gam4 + gam1 * gam3 in
  let gam1 := if reqb gam1 gam2 then gam1 + 0.00000000000000022204460492503131 else gam1 in
  let xi := sqrt ((gam1 - gam2) * (gam2 + gam1)) in
  let em := exp (- tau * xi) in
  let et := exp (- tau / cosz) in
  let ep := exp (tau * xi) in
  let gpx := xi + gam1 in
  let opx := cosz * xi + 1 in
  let omx := 1 - cosz * xi in
  let gmx := gam1 - xi in
  let rm := gam2 - gmx * R0 in
  let rp := gam2 - gpx * R0 in
  let denrt := ep * gpx * rm - em * gmx * rp in
  let refl := (omega * (ep * rm * (gam3 * xi + alph2) / opx - em * rp * (alph2 - gam3 * xi) / omx)
               + 2 * et * gam2 * (R0 - ((alph1 * R0 - alph2) * cosz + gam4 * R0 + gam3) * omega / (omx * opx)) * xi) / denrt in
  let trans := (et * (ep * gpx * (gam2 - omega * (alph2 - gam3 * xi) / omx)
                      - em * gmx * (gam2 - omega * (gam3 * xi + alph2) / opx))
                + 2 * gam2 * (alph1 * cosz + gam4) * omega * xi / (omx * opx)) / denrt in
  let semi := rleb 1000000000000000 ep in
  let refl := if semi then omega * (gam3 * xi + alph2) / (gpx * opx) else refl in
  let btrans := if semi then 0 else et in
  let trans := if semi then 0 else trans in
  if negb semi && (reqb omx 0 || reqb denrt 0) then Err AssertionError
  else if rleb 0 refl && rleb 0 trans && rleb 0 btrans && rleb (btrans * cosz) trans then Ok (mk_two refl trans btrans)
  else Err AssertionError.
(** twostream, 4-128, for one cell *)
Definition twostream (cosz S0 tau omega g R0 : R) : res two :=
  if rleb cosz 0 then Ok (mk_two 0 0 0)
  else if rleb S0 0 then Err ValueError
  else
    let tau := if reqb tau 0 then 1000000000000000 else tau in
    let R0 := if rltb R0 0 then 0 else R0 in
    bind (mwgamma cosz omega g) (fun gs =>
    let '(g1, g2, g3, g4) := gs in
    if rltb g1 g2 then Err ValueError else two_cell cosz omega R0 g1 g2 g3 g4 tau).

(** The same for a grid of ny rows of optical depths, 107-113, as far as the direct transmittance goes: the
    assignments index the grid with the list of (row, column) pairs of the semi-infinite cells, so every
    number in a pair is taken for a row.  A number that is no row fails.  The optical depths of zero have
    been replaced (53-54); [xi] is the number of line 77. *)
Definition semi_infinite (xi tau : R) : bool := rleb 1000000000000000 (exp (tau * xi)).
Definition any_in (n : nat) (p : nat -> bool) : bool := existsb p (seq 0 n).
Definition btrans_grid (ny nx : nat) (cosz xi : R) (tau : nat -> nat -> R) : res (nat -> nat -> R) :=
  let tau := fun y x => if reqb (tau y x) 0 then 1000000000000000 else tau y x in
  let semi := fun y x => semi_infinite xi (tau y x) in
  if any_in ny (fun y => any_in nx (fun x => semi y x && (ny <=? x)%nat)) then Err IndexError
  else Ok (fun y x =>
    if any_in ny (fun y' => any_in nx (fun x' => semi y' x' && ((y' =? y)%nat || (x' =? y)%nat))) then 0
    else exp (- tau y x / cosz)).

(** ** toporad.py *)
(** constants.py *)
Definition SEA_LEVEL : R := 101324.6.
Definition STD_AIRTMP : R := 288.
Definition STD_LAPSE : R := -6.5.
Definition GRAVITY : R := 9.80665.
Definition MOL_AIR : R := 28.9644.
Definition RGAS : R := 8314.32.
(** hysat with a lapse rate that is not zero, thermal/topotherm.py 39-62; a negative base gives NaN *)
Definition hysat (pb tb L h g m : R) : rnum :=
  let base := tb / (tb + L * h) in
  if rltb 0 base then Some (pb * Rpower base (g * m / (RGAS * L * 0.001))) else None.
(** optical depth of a cell, Elevrad.calculate 181-189 *)
Definition tau_domain (tau tau_elevation elevation : R) : rnum :=
  rlift2 (fun p pref => tau * p / pref)
    (hysat SEA_LEVEL STD_AIRTMP STD_LAPSE (elevation / 1000) GRAVITY MOL_AIR)
    (hysat SEA_LEVEL STD_AIRTMP STD_LAPSE (tau_elevation / 1000) GRAVITY MOL_AIR).
(** Elevrad.calculate, 177-205, one cell: beam normal to the sun, and diffuse *)
Definition elevrad (S0 cosz tau tau_elevation omega g R0 elevation : R) : res (R * R) :=
  match tau_domain tau tau_elevation elevation with
  | None => Err AssertionError
  | Some t =>
      bind (twostream cosz S0 t omega g R0) (fun r =>
      Ok (S0 * t_btrans r, S0 * cosz * (t_trans r - t_btrans r)))
  end.
(** toporad, 93-124, one cell: "beam" (in fact global) and diffuse *)
Definition toporad (beam diffuse illum svf tcf cosz albedo : R) : R * R :=
  let drad := diffuse * svf in
  let drad := drad + (diffuse * (1 - svf) + beam * cosz) * tcf * albedo in
  (drad + beam * illum, drad).
(** the mask of stoporad, 58-61, from the horizon angle given by topocalc *)
Definition no_sun (cosz horizon : R) : bool := rltb (tan (PI / 2 - acos cosz)) (tan (Rabs horizon)).
(** the illumination used by stoporad, 63-66: zero where the horizon hides the sun *)
Definition lit (hidden : bool) (illum : R) : R := if hidden then 0 else illum.
(** stoporad, 26-90, one cell; [R0] is the mean albedo of the grid, [S0] the irradiance of the band *)
Definition stoporad_cell (S0 cosz horizon illum svf tcf tau tau_elevation omega g R0 elevation albedo : R) : res (R * R) :=
  if rltb cosz 0 then Ok (0, 0)
  else bind (elevrad S0 cosz tau tau_elevation omega g R0 elevation) (fun r =>
       Ok (toporad (fst r) (snd r) (lit (no_sun cosz horizon) illum) svf tcf cosz albedo)).

(** ** distribute/solar.py *)
(** calc_net, 469-493, one cell *)
Definition calc_net (smin smax : option R) (vis_beam vis_diffuse ir_beam ir_diffuse alb_v alb_ir : rnum) : rnum :=
  let vv := set_min_max smin smax (rlift2 Rmult (rlift2 Rplus vis_beam vis_diffuse) (rlift (fun a => 1 - a) alb_v)) in
  let vi := set_min_max smin smax (rlift2 Rmult (rlift2 Rplus ir_beam ir_diffuse) (rlift (fun a => 1 - a) alb_ir)) in
  set_min_max smin smax (rlift2 Rplus vv vi).

Record solar_cfg := mk_solar_cfg { correct_cloud : bool; correct_veg : bool; s_min : option R; s_max : option R }.
(** Solar.distribute, 254-360, for one cell and a sun above the horizon, from the clear sky radiation of the
    two bands: net radiation, and the illumination left in the caller's array *)
Definition correct_band (c : solar_cfg) (beam diffuse cf height illum k tau : rnum) : rnum * rnum :=
  let '(b, d) := if correct_cloud c then cf_cloud beam diffuse cf else (beam, diffuse) in
  if correct_veg c then (solar_veg_beam b height illum k, solar_veg_diffuse d tau) else (b, d).
Definition net_solar (c : solar_cfg) (vis ir : rnum * rnum) (cf height illum k tau alb_v alb_ir : rnum) : rnum :=
  let v := correct_band c (fst vis) (snd vis) cf height illum k tau in
  let i := correct_band c (fst ir) (snd ir) cf height (if correct_veg c then veg_cosz illum else illum) k tau in
  calc_net (s_min c) (s_max c) (fst v) (snd v) (fst i) (snd i) alb_v alb_ir.
(** the whole step: nothing at all with the sun at or below the horizon, 288-360 *)
Definition distribute_solar (c : solar_cfg) (cosz : R) (clear : nat -> nat -> (rnum * rnum) * (rnum * rnum))
    (cf height illum k tau alb_v alb_ir : grid rnum) : option (grid rnum) :=
  if rltb 0 cosz then
    Some (fun y x => net_solar c (fst (clear y x)) (snd (clear y x)) (cf y x) (height y x) (illum y x) (k y x) (tau y x) (alb_v y x) (alb_ir y x))
  else None.

(** ** HRRR cloud factor, cloud.py 48-88, one column (pixel) over time *)
(** the ratio of one step: [sol] from the weather model, [top] modelled; both zero when the modelled value is
    below 50, which gives NaN *)
Definition hrrr_ratio (sol top : rnum) : rnum :=
  let top0 := if ncmp rltb top (Some 50) then Some 0 else top in
  let sol0 := if ncmp rltb top0 (Some 50) then Some 0 else sol in
  match sol0, top0 with
  | Some s, Some t => if reqb t 0 then None (* 0/0; s is 0 here *) else Some (s / t)
  | _, _ => None
  end.
(** interpolate(method='linear') then ffill: inner gaps linear in the position, the end repeats the last
    value, the start stays NaN. [prev] is the last value seen and its distance. *)
Fixpoint next_known (l : list rnum) (k : nat) : option (nat * R) :=
  match l with [] => None | Some v :: _ => Some (k, v) | None :: l' => next_known l' (S k) end.
Fixpoint interpolate (prev : option (nat * R)) (l : list rnum) : list rnum :=
  match l with
  | [] => []
  | Some v :: l' => Some v :: interpolate (Some (1%nat, v)) l'
  | None :: l' =>
      match prev with
      | None => None :: interpolate None l'
      | Some (k, v) =>
          (match next_known l' 1 with
           | Some (j, w) => Some (v + (w - v) * (INR k / INR (k + j)))
           | None => Some v
           end) :: interpolate (Some (S k, v)) l'
      end
  end.
Definition unit_clip (v : rnum) : rnum :=
  let v := if ncmp rltb (Some 1) v then Some 1 else v in if ncmp rltb v (Some 0) then Some 0 else v.
Definition hrrr_cloud (sol top : list rnum) : list rnum :=
  map unit_clip (interpolate None (map2 hrrr_ratio sol top)).
