(** Model of smrf/envphys/sunang.py (sunang, sunpath, ephemeris, rotate, dsign) and of the irradiance outside
    the atmosphere, smrf/envphys/solar/irradiance.py (direct_solar_irradiance), and on the ground under a clear
    sky, smrf/envphys/solar/model.py (model_solar).

    Numbers are reals: the source's M_PI, numpy's pi and four times the arctangent of one are all the number
    pi, and rounding is not modelled.  At a pole of the tangent, where no machine number lies, Coq's [tan] is
    zero, which stands for nothing in the source: the theorems leave these instants out.  The calendar is the
    one of CalModel.  The grids of latitudes and longitudes are lists of cells; a missing value is [None]. *)
From Coq Require Import Reals ZArith List Bool.
From Verif Require Import RNum RTrig CalModel WinsModel SolarModel.
Import ListNotations.
Local Open Scope R_scope.

(** sunang.py 7-12 *)
Definition JULIAN_CENTURY : R := 36525.
Definition DEGS_IN_CIRCLE : R := 3.6e2.
Definition TOLERANCE : R := 1.1920928955e-07.
Definition M_PI : R := PI.
Definition M_PI_2 : R := 2 * M_PI.
Definition MAX_DECLINATION : R := 23.6.

(** the fields of a datetime the ephemeris reads *)
Record moment := mk_moment { m_year : Z; m_month : Z; m_day : Z; m_hour : Z; m_minute : Z; m_second : Z }.

(** math.fmod for a positive divisor: the quotient is cut toward zero *)
Definition cut (x : R) : Z := if rleb 0 x then Int_part x else (- Int_part (- x))%Z.
Definition fmod (x y : R) : R := x - IZR (cut (x / y)) * y.

(** dsign, 131-138 *)
Definition dsign (a b : R) : R :=
  let x := if rleb 0 a then a else - a in if rleb 0 b then x else - x.

(** ** ephemeris, 144-330, one definition for each numbered quantity *)
(** 166 *)
Definition degrd : R := atan 1 / 45.0.
(** 169, 175 *)
Definition gmts (d : moment) : R := 3600.0 * IZR (m_hour d) + 60.0 * IZR (m_minute d) + IZR (m_second d).
Definition p51 (d : moment) : R := gmts d / 10.0 / 24.0.
(** 176-177; a date that does not exist fails an assertion of yearday *)
Definition p22 (d : moment) : res R :=
  match ephemeris_day (m_year d) (m_month d) (m_day d) with
  | None => Err AssertionError
  | Some n => Ok (IZR n - 0.5)
  end.
(** 178-179 *)
Definition p23 (day gmt : R) : R := (gmt / DEGS_IN_CIRCLE + day) / JULIAN_CENTURY.
Definition p22' (t : R) : R := t * JULIAN_CENTURY.
(** mean longitude, 182-186 *)
Definition p24 (t : R) : R :=
  fmod (279.69668 + fmod (0.9856473354 * p22' t) DEGS_IN_CIRCLE + 3.03e-4 * t * t) DEGS_IN_CIRCLE.
(** mean anomaly, 189-194 *)
Definition p25 (t : R) : R :=
  fmod (358.47583 + fmod (0.985600267 * p22' t) DEGS_IN_CIRCLE + t * t * (-1.5e-4 + -3e-6 * t)) DEGS_IN_CIRCLE.
(** eccentricity, 197-200 *)
Definition p26 (t : R) : R := 0.01675104 + t * (-4.18e-5 + -1.26e-7 * t).
(** 204-208: [p12] is the estimate of the eccentric anomaly.  [None]: still running after [fuel] rounds. *)
Fixpoint kepler (fuel : nat) (p26 p11 p12 : R) : option (res R) :=
  match fuel with
  | O => None
  | S fuel =>
      let p13 := p12 in
      let p12 := p11 + p26 * sin p13 in
      if reqb p12 0 then Some (Err ZeroDivisionError)
      else if rltb (Rabs ((p12 - p13) / p12)) TOLERANCE then Some (Ok p12)
      else kepler fuel p26 p11 p12
  end.
(** true anomaly, 213-218 *)
Definition p27 (e p13 : R) : R :=
  let p27 := 2.0 * atan (sqrt ((1.0 + e) / (1.0 - e)) * tan (p13 / 2.0 * degrd)) / degrd in
  let p27 := if reqb (dsign 1.0 p27) (dsign 1.0 (sin (p13 * degrd))) then p27 else p27 + 1.8e2 in
  if rltb p27 0.0 then p27 + DEGS_IN_CIRCLE else p27.
(** radius vector, 221 *)
Definition radius (e p13 : R) : R := 1.0 - e * cos (p13 * degrd).
(** aberration, 224 *)
Definition p29 (r : R) : R := -20.47 / r / 3600.
(** mean obliquity, 227-231 *)
Definition p43 (t : R) : R := 23.452294 + t * (-0.0130125 + t * (-1.64e-6 + 5.03e-7 * t)).
(** mean right ascension, 234-239; the first value of p13 is overwritten *)
Definition p45 (t : R) : R :=
  fmod (279.6909832 + fmod (0.98564734 * p22' t) DEGS_IN_CIRCLE + 3.8708e-4 * t * t) DEGS_IN_CIRCLE.
(** 242-249 *)
Definition p28 (t : R) : R :=
  fmod (296.104608 + fmod (1325 * DEGS_IN_CIRCLE * t) DEGS_IN_CIRCLE + t * (198.8491083 + t * (0.00919167 + 1.4388e-5 * t)))
    DEGS_IN_CIRCLE.
(** mean elongation of the moon, 252-257 *)
Definition p30 (t : R) : R :=
  fmod (350.737486 + fmod (1236 * DEGS_IN_CIRCLE * t) DEGS_IN_CIRCLE + t * (307.1142167 + 1.436e-3 * t)) DEGS_IN_CIRCLE.
(** the moon's ascending node, 260-265 *)
Definition p31 (t : R) : R :=
  fmod (259.183275 + fmod (-5 * DEGS_IN_CIRCLE * t) DEGS_IN_CIRCLE + t * (-134.142008 + 2.0778e-3 * t)) DEGS_IN_CIRCLE.
(** mean longitude of the moon, 268-273 *)
Definition p32 (t : R) : R :=
  fmod (270.434164 + fmod (1336 * DEGS_IN_CIRCLE * t) DEGS_IN_CIRCLE + t * (307.8831417 + -1.1333e-3 * t)) DEGS_IN_CIRCLE.
(** the moon's perturbation, 276-279 *)
Definition p33 (t : R) : R :=
  (6.454 * sin (p30 t * degrd) + 0.013 * sin (3 * p30 t * degrd) + 0.177 * sin ((p30 t + p28 t) * degrd)
   - 0.424 * sin ((p30 t - p28 t) * degrd)) / 3600.
(** nutation of longitude, 282-286 *)
Definition p34 (t : R) : R :=
  (- (17.234 - 0.017 * t) * sin (p31 t * degrd) + 0.209 * sin (2 * p31 t * degrd) - 0.204 * sin (2 * p32 t * degrd)
   - 1.257 * sin (2 * p24 t * degrd) + 0.127 * sin (p28 t * degrd)) / 3600.
(** nutation in obliquity, 289-291 *)
Definition p35 (t : R) : R :=
  (9.214 * cos (p31 t * degrd) + 0.546 * cos (2 * p24 t * degrd) - 0.09 * cos (2 * p31 t * degrd)
   + 0.088 * cos (2 * p32 t * degrd)) / 3600.
(** inequalities of long period, 294-299 *)
Definition p36 (t : R) : R :=
  (0.266 * sin ((31.8 + 119 * t) * degrd) + ((1.882 - 0.016 * t) * degrd) * sin ((57.24 + 150.27 * t) * degrd)
   + 0.202 * sin ((315.6 + 893.3 * t) * degrd) + 1.089 * t * t + 6.4 * sin ((231.19 + 20.2 * t) * degrd)) / 3600.
(** apparent longitude, 302, and obliquity, 304 *)
Definition p41 (t anomaly r : R) : R := anomaly - p25 t + p24 t + p29 r + p33 t + p36 t + p34 t.
Definition p43' (t : R) : R := p43 t + p35 t.
(** apparent right ascension, 307-311 *)
Definition p44 (lon obl : R) : R :=
  let p44 := atan (tan (lon * degrd) * cos (obl * degrd)) / degrd in
  let p44 := if reqb (dsign 1.0 p44) (dsign 1.0 (sin (lon * degrd))) then p44 else p44 + 1.8e2 in
  if rltb p44 0 then p44 + DEGS_IN_CIRCLE else p44.
(** equation of time, 314-316 *)
Definition p46 (mean_asc asc : R) : R :=
  let p46 := mean_asc - asc in if rltb 1.8e2 p46 then p46 - DEGS_IN_CIRCLE else p46.
(** declination, 319 *)
Definition p47 (lon obl : R) : R := asin (sin (lon * degrd) * sin (obl * degrd)).
(** hour angle, 323-327 *)
Definition p48 (gmt eot : R) : R :=
  let p48 := gmt + eot - 1.8e2 in
  if rltb 180 p48 then p48 - DEGS_IN_CIRCLE else if rltb p48 (-180) then p48 + DEGS_IN_CIRCLE else p48.
(** from the eccentric anomaly (radians) on, 210-330: declination, longitude of the sun, radius vector *)
Definition placed (t gmt p12 : R) : R * R * R :=
  let p13 := p12 / degrd in
  let r := radius (p26 t) p13 in
  let lon := p41 t (p27 (p26 t) p13) r in
  let obl := p43' t in
  (p47 lon obl, - p48 gmt (p46 (p45 t) (p44 lon obl)) * degrd, r).
(** the whole of ephemeris *)
Definition ephemeris (fuel : nat) (d : moment) : option (res (R * R * R)) :=
  match p22 d with
  | Err e => Some (Err e)
  | Ok day =>
      let t := p23 day (p51 d) in
      let p11 := p25 t * degrd in
      match kepler fuel (p26 t) p11 p11 with
      | None => None
      | Some (Err e) => Some (Err e)
      | Some (Ok p12) => Some (Ok (placed t (p51 d) p12))
      end
  end.

(** ** rotate, 333-397: cosine of the zenith angle and azimuth for one cell; the checks are in
    [rotate] *)
Definition turn (mu azm mu_r lam_r : R) : R * R :=
  let omega := lam_r - azm in
  let sinTheta := sqrt ((1 - mu) * (1 + mu)) in
  let sinThr := sqrt ((1 - mu_r) * (1 + mu_r)) in
  let cosOmega := cos omega in
  (sinTheta * sinThr * cosOmega + mu * mu_r,
   - arctan2 (sinTheta * sin omega) (mu_r * sinTheta * cosOmega - mu * sinThr)).
(** a comparison with a missing value is false *)
Definition beyond (l : R) (x : rnum) : bool := ncmp rltb (Some l) (option_map Rabs x).
Definition rotate (mu azm : R) (mu_r lam_r : list rnum) : res (list (rnum * rnum)) :=
  if rltb mu (-1) || rltb 1 mu then Err ValueError
  else if existsb (fun x => ncmp rltb x (Some (-1))) mu_r || existsb (fun x => ncmp rltb (Some 1) x) mu_r then Err ValueError
  else if rltb (2 * PI) (Rabs azm) then Err ValueError
  else if existsb (beyond (2 * PI)) lam_r then Err ValueError
  else Ok (map2 (fun m l => match m, l with
                            | Some m, Some l => let '(z, a) := turn mu azm m l in (Some z, Some a)
                            | _, _ => (None, None)
                            end) mu_r lam_r).
(** sunpath, 82-128; a single position is a list of one cell *)
Definition sunpath (latitude longitude : list rnum) (declination omega : R) : res (list (rnum * rnum)) :=
  if existsb (beyond M_PI_2) latitude then Err ValueError
  else if existsb (beyond M_PI) longitude then Err ValueError
  else if rltb (M_PI * MAX_DECLINATION / 180) (Rabs declination) then Err ValueError
  else if rltb M_PI (Rabs omega) then Err ValueError
  else rotate (sin declination) omega (map (option_map sin) latitude) longitude.

(** ** sunang, 15-51 *)
(** a position: one point, or a grid given by its cells' latitudes and longitudes *)
Inductive position := Point (lat lon : R) | Cells (lat lon : list rnum).
Definition to_radians (x : R) : R := x * M_PI / 180.
(** the text of a number with six decimals, and with five significant digits, read back: [fix6] and [sig5].
    A single point's results are passed through them unless [truncate] is off. *)
Definition sunang (fix6 sig5 : R -> R) (fuel : nat) (d : moment) (where_ : position) (truncate : bool)
  : option (res (list (rnum * rnum) * R)) :=
  match ephemeris fuel d with
  | None => None
  | Some (Err e) => Some (Err e)
  | Some (Ok (declination, omega, rad_vec)) =>
      Some (
      let '(lat, lon) := match where_ with Point a b => ([Some a], [Some b]) | Cells a b => (a, b) end in
      bind (sunpath (map (option_map to_radians) lat) (map (option_map to_radians) lon) declination omega) (fun l =>
      let l := map (fun za => (fst za, option_map (fun a => a * 180 / M_PI) (snd za))) l in
      Ok (match where_ with
          | Point _ _ =>
              if truncate then (map (fun za => (option_map fix6 (fst za), option_map sig5 (snd za))) l, sig5 rad_vec)
              else (l, rad_vec)
          | Cells _ _ => (l, rad_vec)
          end)))
  end.

(** ** direct_solar_irradiance, irradiance.py 12-46; [solint] is the integral of the solar spectrum by scipy *)
Definition at_noon (d : moment) : moment := mk_moment (m_year d) (m_month d) (m_day d) 12 0 0.
Definition direct_solar_irradiance (solint : R -> R -> R) (fuel : nat) (d : moment) (w : list R) : option (res R) :=
  match w with
  | [a; b] => match ephemeris fuel (at_noon d) with
              | None => None
              | Some (Err e) => Some (Err e)
              | Some (Ok (_, _, r)) => Some (Ok (solint a b / (r * r)))
              end
  | _ => Some (Err ValueError)
  end.

(** ** model_solar, solar/model.py 44-69, for a point and an optical depth; the argument [tzone] is not used *)
Definition model_solar (fix6 sig5 : R -> R) (solint : R -> R -> R) (fuel : nat) (d : moment) (lat lon tau : R) : option (res R) :=
  match sunang fix6 sig5 fuel d (Point lat lon) true with
  | None => None
  | Some (Err e) => Some (Err e)
  | Some (Ok (l, _)) =>
      match l with
      | (Some cosz, _) :: _ =>
          match direct_solar_irradiance solint fuel d [0.28; 2.8] with
          | None => None
          | Some (Err e) => Some (Err e)
          | Some (Ok sol) => Some (bind (twostream cosz sol tau 0.85 0.3 0.5) (fun r => Ok (t_trans r * cosz * sol)))
          end
      | _ => Some (Err ValueError)
      end
  end.
