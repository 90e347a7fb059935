(** Wind from the components of a weather model: hrrr_grib.py 182-192 (HRRR.calculate_wind) and
    wrf.py 161-171, one pixel and time; reals stand for floats. *)
From Coq Require Import Reals.
From Verif Require Import RNum RTrig.
Local Open Scope R_scope.

(** u towards the east, v towards the north *)
Definition grid_speed (u v : R) : R := sqrt (u ^ 2 + v ^ 2).
Definition grid_direction (u v : R) : R :=
  let d := arctan2 v u * 180 / PI in if rltb d 0 then d + 360 else d.
