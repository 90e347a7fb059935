(** Thermal radiation, stated from the published formulas.  Temperatures [t] are in K unless said otherwise. *)
From Coq Require Import Reals.
From Verif Require Import SatSpec DewSpec.
Local Open Scope R_scope.

Definition sigma : R := 5.6697e-8.
Definition blackbody (t : R) : R := sigma * t ^ 4.
Definition kelvin (c : R) : R := c + 273.16.

(** Marks and Dozier (1979): Brutsaert's emissivity of the air moved to sea level along the standard lapse rate, at most 1,
    times the pressure at the elevation relative to sea level *)
Definition sea_temperature (t z : R) : R := t + 0.0065 * z.
Definition humidity (t td : R) : R := Rmin 1 (saturation (Rmin t td) / saturation t).
Definition brutsaert_emissivity (t td z : R) : R :=
  let t0 := sea_temperature t z in
  Rmin 1 (1.24 * Rpower (humidity t td * saturation t0 / 100 / t0) (1 / 7)).
Definition pressure_ratio (t z : R) : R :=
  Rpower (t / sea_temperature t z) (9.80665 * 28.9644 / (8314.32 * 6.5 / 1000)).
Definition marks_emissivity (t td z : R) : R := brutsaert_emissivity t td z * pressure_ratio t z.
(** a share [v] of the hemisphere is sky, the rest is terrain at air temperature *)
Definition marks_radiation (t td z v : R) : R := Rmin 1 (v * marks_emissivity t td z + (1 - v)) * blackbody t.

(** precipitable water, vapour pressure in Pa *)
Definition water (t e : R) : R := 4650 * (e / 1000) / t.
Definition dilley (t e : R) : R := 59.38 + 113.7 * (t / 273.16) ^ 6 + 96.96 * sqrt (water t e / 25).
Definition prata_emissivity (t e : R) : R := 1 - (1 + water t e) * exp (- sqrt (1.2 + 3 * water t e)).
Definition angstrom_emissivity (e : R) : R := 0.83 - 0.18 * Rpower 10 (-0.067 * (e / 1000)).

(** [x] lies between [a] and [b], in either order *)
Definition between (a b x : R) : Prop := Rmin a b <= x <= Rmax a b.

(** clear sky radiation by the other methods; [v] is the sky view factor if the terrain correction is on.  As in the code,
    the terrain radiates with the fourth power of its Celsius temperature [c]. *)
Inductive other_sky := ByDilley | ByPrata | ByAngstrom.
Definition other_clear (m : other_sky) (c e : R) : R :=
  match m with
  | ByDilley => dilley (kelvin c) e
  | ByPrata => prata_emissivity (kelvin c) e * blackbody (kelvin c)
  | ByAngstrom => angstrom_emissivity e * blackbody (kelvin c)
  end.
Definition other_terrain (v : option R) (c x : R) : R :=
  match v with Some v => v * x + (1 - v) * (sigma * c ^ 4) | None => x end.

(** clouds: [f] is 1 for a clear sky and 0 for an overcast one *)
Definition garen (f x : R) : R := (1.485 - 0.488 * f) * x.
Definition unsworth (t f x : R) : R := x + 0.84 * (1 - f) * (blackbody t - x).
Definition crawford (t f x : R) : R := x + (1 - f) * (blackbody t - x).
(** Kimball's correction as coded; it does not mention [f] *)
Definition window (t e : R) : R := 0.24 + 2.98e-6 * (e / 1000) ^ 2 * exp (3000 / t).
Definition kimball (t e x : R) : R :=
  let c := t - 11 in let w := window t e in
  x + (-0.6732 + 0.00624 * c - 0.00000914 * c ^ 2) * w * (1 - w * (1.4 - 0.4 * w)) * blackbody t.
(** canopy at air temperature, transmissivity [tau], where the vegetation is higher than 2 m *)
Definition under_canopy (t tau height x : R) : R := if Rlt_dec 2 height then tau * x + (1 - tau) * (0.96 * blackbody t) else x.
