(** Saturation vapour pressure (Pa) over ice and over water: the Goff-Gratch formulas, with the temperature in K. *)
From Coq Require Import Reals.
Local Open Scope R_scope.

Definition over_ice (t : R) : R :=
  610.71 * Rpower (273.16 / t) (-3.56654) * Rpower 10 (-9.09718 * (273.16 / t - 1) + 0.876793 * (1 - t / 273.16)).
Definition over_water (t : R) : R :=
  101324.6 * Rpower (373.15 / t) 5.02808 *
  Rpower 10 (-7.90298 * (373.15 / t - 1) - 1.3816e-7 * (Rpower 10 (11.344 * (1 - t / 373.15)) - 1)
             + 8.1328e-3 * (Rpower 10 (-3.49149 * (373.15 / t - 1)) - 1)).
Definition saturation (t : R) : R := if Rle_dec t 273.16 then over_ice t else over_water t.
