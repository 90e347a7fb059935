(** Model of wind_model.windower and ismember, smrf/utils/wind/model.py 217-276: averaging maxus over a window of
    directions.  Angles are in half degrees, so that half the (integer) window width is exact. *)
From Coq Require Import ZArith List Bool QArith Qcanon.
From Verif Require Import Num.
Import ListNotations.
Local Open Scope Z_scope.

(** np.arange(0, 360, inc), model.py 89, in degrees *)
Definition directions (inc : Z) : list Z := map (fun k => inc * Z.of_nat k) (seq 0 (Z.to_nat ((360 + inc - 1) / inc))).

(** np.arange(window_start, window_end + 1, inc), line 254, in half degrees *)
Definition arange (start stop step : Z) : list Z :=
  map (fun k => start + step * Z.of_nat k) (seq 0 (Z.to_nat ((stop - start + step - 1) / step))).
(** 257-258, one after the other *)
Definition wrap (a : Z) : Z :=
  let a := if a <? 0 then a + 720 else a in
  if 720 <? a then a - 720 else a.
(** 250-258; [inc] of line 243 is the spacing of the directions *)
Definition window (inc width d : Z) : list Z :=
  map wrap (arange (2 * d - width) (2 * d + width + 2) (2 * inc)).
(** ismember(directions, sl), 261 and 271-276 *)
Definition included (inc width d e : Z) : bool := existsb (Z.eqb (2 * e)) (window inc width d).
(** np.mean over the directions included, 264, for one grid cell; NaN when there are none *)
Definition windowed (inc width d : Z) (vals : Z -> Qc) : num :=
  let sel := filter (included inc width d) (directions inc) in
  match sel with
  | [] => None
  | _ => Some (fold_right (fun e s => (vals e + s)%Qc) 0%Qc sel / Q2Qc (inject_Z (Z.of_nat (length sel))))%Qc
  end.
