(** What the dew point and the wet bulb temperature mean, written without the model's algorithm.

    [saturation] (SatSpec) is the saturation vapour pressure in Pa over ice or water at a temperature in K. *)
From Coq Require Import Reals.
From Verif Require Import SatSpec.
Local Open Scope R_scope.

(** [r] is the dew point of the pressure [e] within [d] kelvin: everything colder than [r - d] saturates at or below [e],
    everything warmer than [r + d] at or above it *)
Definition dew_within (d e r : R) : Prop :=
  (forall x, 0 < x <= r - d -> saturation x <= e) /\ (forall x, r + d <= x <= 1300 -> e <= saturation x).
(** the pressure a temperature saturates at is [e] to within [p] pascal *)
Definition saturates_within (p e r : R) : Prop := Rabs (saturation r - e) <= p.

(** the latent heat used for air at [ta] with dew point [td], in K: sublimation below freezing, vaporisation above, and the
    share of the interval below freezing when it straddles freezing *)
Definition vaporisation (t : R) : R := 2.5e6 - 2955.73 * (t - 273.16).
Definition fusion (t : R) : R := 3.336e5 + 166.67 * (273.16 - t).
Definition latent_heat_is (ta td l : R) : Prop :=
  let mean := (ta + td) / 2 in
  (ta <= 273.16 -> l = vaporisation mean + fusion mean) /\
  (273.16 < ta -> td <= 273.16 -> l = vaporisation mean + (273.16 - td) / (ta - td) * fusion ((273.16 + td) / 2)) /\
  (273.16 < ta -> 273.16 < td -> l = vaporisation mean).
(** the psychrometer equation: a wet bulb at [x] is the root of this function, with [y] the psychrometric constant *)
Definition psychrometer (y ta td x : R) : R := (x - ta) + y * (saturation x - saturation td).
(** the slope used for it, with the Clausius-Clapeyron estimate of the slope of saturation vapour pressure *)
Definition slope (y l x : R) : R := 1 + y * (l * saturation x / (461.5 * x ^ 2)).
Definition newton (y l ta td x : R) : R := x - psychrometer y ta td x / slope y l x.
(** the psychrometric constant at a pressure *)
Definition psychrometric (l p : R) : R := 18.0153 / 28.9644 * l / (1005 * p).
(** pressure of the standard atmosphere at an elevation in metres *)
Definition standard_pressure (z : R) : R :=
  101324.6 * Rpower ((288 - 6.5 * z / 1000) / 288) (9.80665 * 28.9644 / (8314.32 * 6.5 / 1000)).

(** the point where the interpolation of the last three values is zero: a line where two of the points are one, otherwise the
    parabola for the point as a function of the value *)
Definition interpolated (a b c fa fb fc x : R) : Prop :=
  (a = c -> (x - b) * (fb - fa) = - fb * (b - a)) /\
  (a <> c -> fa <> fc /\ x = a * (fb * fc) / ((fa - fb) * (fa - fc)) + b * (fa * fc) / ((fb - fa) * (fb - fc)) + c * (fa * fb) / ((fc - fa) * (fc - fb))).
