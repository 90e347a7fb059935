(** Specification of gauge undercatch and of the redistribution of precipitation by wind. *)
From Coq Require Import Reals ZArith List String.
From Verif Require Import RNum WinsSpec.
Import ListNotations.
Local Open Scope R_scope.

Inductive gauge := Shielded | Unshielded.
Definition gauge_name (g : gauge) : string :=
  match g with Shielded => "us_nws_8_shielded" | Unshielded => "us_nws_8_unshielded" end.

(** Percentage of the precipitation a gauge catches at wind speed w (m/s, not negative). *)
Definition snow_coefficient (g : gauge) : R * R := match g with Shielded => (0.04, 1.75) | Unshielded => (0.16, 1.28) end.
Definition rain_line (g : gauge) : R * R := match g with Shielded => (101.04, 5.62) | Unshielded => (100.77, 8.34) end.
(** w to the power a *)
Definition power (w a r : R) : Prop := (0 < w -> r = Rpower w a) /\ (w = 0 -> r = 0).
Definition snowing (t : rnum) : Prop := exists x, t = Some x /\ x < -0.5.
(** The catch ratio used for a wind speed and a temperature, either of which can be missing. *)
Definition catch_ratio (g : gauge) (t ws : rnum) (r : R) : Prop :=
  match ws with
  | None => r = 1
  | Some w =>
      (snowing t -> (w < 0 -> r = 1) /\
         (0 <= w -> exists p, power (Rmin 6 w) (snd (snow_coefficient g)) p /\
                              100 * r = exp (4.61 - fst (snow_coefficient g) * p))) /\
      (~ snowing t -> 100 * r = fst (rain_line g) - snd (rain_line g) * Rmin 6 w)
  end.
(** wind speed from which a gauge is never taken to catch more than fell *)
Definition calm (g : gauge) (snow : Prop) (w : R) : Prop :=
  match g with
  | Shielded => (snow -> w < 0.3) /\ (~ snow -> w < 1.04 / 5.62)
  | Unshielded => (snow -> w < 0.07) /\ (~ snow -> w < 0.77 / 8.34)
  end.
Definition least_ratio (g : gauge) : R * R := match g with Shielded => (0.4, 0.6732) | Unshielded => (0.205, 0.5073) end.

(** Redistribution in one cell. *)
Record limits := mk_limits { threshold : R; min_scour : R; max_scour : R; min_drift : R; max_drift : R }.
Definition pine (v : Z) : Prop := v = 3055%Z \/ v = 3053%Z \/ v = 42%Z.
(** product of the factors configured for the class *)
Fixpoint veg_product (tbl : list (Z * R)) (v : Z) : R :=
  match tbl with
  | [] => 1
  | (k, r) :: tbl' => (if Z.eq_dec k v then r else 1) * veg_product tbl' v
  end.
Definition redistributed (l : limits) (tbl : list (Z * R)) (precip ptemp tb ws mx : rnum) (v : Z) (out : rnum) : Prop :=
  (forall t, ptemp = Some t -> 0.5 <= t -> out = precip) /\
  (ptemp = None -> out = Some 0) /\
  (forall t, ptemp = Some t -> t < 0.5 ->
     (tb = None -> out = Some 0) /\
     (forall b, tb = Some b ->
        (threshold l < b ->
           (ws = None -> out = None) /\
           (forall w, ws = Some w -> exists k, limited (Some (min_drift l)) (Some (max_drift l)) (1.000761 * exp (-0.0956 * w + 0.0289 * (w * w))) k /\
                                               out = option_map (Rmult k) precip)) /\
        (b <= threshold l ->
           (pine v -> exists k, limited (Some (min_scour l)) (Some (max_scour l)) 1 k /\ out = option_map (Rmult k) precip) /\
           (~ pine v ->
              (mx = None -> out = None) /\
              (forall m, mx = Some m -> exists k,
                 limited (Some (min_scour l)) (Some (max_scour l))
                   ((0.0001737 + 0.03265 * m - 0.002549 * (m * m) + 0.0001737 * (m * m * m)) / veg_product tbl v) k /\
                 out = option_map (Rmult k) precip))))).
