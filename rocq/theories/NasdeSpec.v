(** What the new snow models should return for one pixel, in closed form. *)
From Coq Require Import Reals List.
From Verif Require Import RNum NasdeModel.
Import ListNotations.
Local Open Scope R_scope.

(** Percent snow: 1 up to -0.5 C, then linear to 3/4 at 0 C, then linear to 0 at t_max + 1. *)
Definition is_percent_snow (t_max : R) (f : R -> R) : Prop :=
  (forall t, t <= - (1/2) -> f t = 1) /\
  (forall t, - (1/2) <= t <= 0 -> f t = 3/4 - t / 2) /\
  (forall t, 0 <= t <= t_max + 1 -> f t = 3/4 * (1 - t / (t_max + 1))) /\
  (forall t, t_max + 1 <= t -> f t = 0).

(** Density of uncompacted snow: 50 + 1.7 (T + 15)^ex with T clamped below at t_min and
    the exponent rising linearly from 1 at t_min to 1.75 at t_max, where it stays. *)
Definition fresh (t_max t_min t : R) : R :=
  let c := Rmax t t_min in
  50 + 17/10 * Rpower (c + 15) (1 + 3/4 * (1 - (t_max - Rmin c t_max) / (t_max - t_min))).

(** Susong 1999: percent snow and density of temperature [t], read off the printed table. *)
Definition susong_at (t ps rho : R) : Prop :=
  (t < -5 /\ ps = 1 /\ rho = 75) \/
  (-5 <= t < -3 /\ ps = 1 /\ rho = 100) \/
  (-3 <= t < - (3/2) /\ ps = 1 /\ rho = 150) \/
  (- (3/2) <= t < - (1/2) /\ ps = 1 /\ rho = 175) \/
  (- (1/2) <= t < 0 /\ ps = 3/4 /\ rho = 200) \/
  (0 <= t < 1/2 /\ ps = 1/4 /\ rho = 250) \/
  (1/2 <= t /\ ps = 0 /\ rho = 0).

(** Marks 2017 compaction of snow of density [r] (fraction of water) under [w] mm of storm
    snow water at snow temperature [ts]: overburden and metamorphism. *)
Definition overburden (ts w r : R) : R := 26/1000 * exp (8/100 * ts) * w * exp (- 21 * r).
Definition metamorphism (ts r : R) : R :=
  1/100 * (if Rle_dec 100 (r * 1000) then exp (- (46/1000) * (r * 1000 - 100)) else 1)
        * exp (4/100 * ts).
Definition compacted (ts w r : R) : R := r * (1 + (overburden ts w r + metamorphism ts r)).

(** Content of the array at address [a] at pixel [i]. *)
Definition at_ (h : heap) (a i : nat) : rnum := nth i (mem h a) None.
(** two different existing arrays of the same shape *)
Definition inputs_ok (h : heap) (t p : nat) : Prop :=
  (t < next h)%nat /\ (p < next h)%nat /\ t <> p /\ length (mem h p) = length (mem h t).

(** snow falls at pixel [i]: precipitation [y] at temperature [x] *)
Definition snows (h : heap) (t p i : nat) (x y : R) : Prop :=
  at_ h t i = Some x /\ at_ h p i = Some y /\ 0 < y /\ x < 1.

(** fraction of snow, snow temperature, uncompacted density (as fraction of water) *)
Definition frac (x : R) : R :=
  if Rle_dec x (- (1/2)) then 1 else if Rle_dec x 0 then 3/4 - x/2 else if Rle_dec x 1 then 3/4 * (1 - x) else 0.
Definition snow_t (x : R) : R := Rmin (Rmax x (-10)) 0.
Definition frac_rho (x : R) : R := fresh 0 (-10) x / 1000.
