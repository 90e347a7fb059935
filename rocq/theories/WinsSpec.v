(** Specification of the Winstral wind model, without reference to how it is computed. *)
From Coq Require Import Reals ZArith List String.
From Verif Require Import RNum WinsModel.
From Verif Require LoadSpec.
Import ListNotations.
Local Open Scope R_scope.

(** Two directions, in degrees, are within [w] of each other on the circle. *)
Definition within_angle (a b w : R) : Prop := exists k : Z, Rabs (a - b + 360 * IZR k) <= w.

(** A library of n evenly spaced directions starting at north. *)
Definition even_library (n : nat) (dirs : list R) : Prop :=
  dirs = map (fun k => 360 / INR n * INR k) (seq 0 n).

(** [w] is [v] limited to the interval from lo to hi; a missing limit is no limit. *)
Definition at_least (lo : option R) (v : R) : Prop := match lo with Some l => l <= v | None => True end.
Definition at_most (hi : option R) (v : R) : Prop := match hi with Some h => v <= h | None => True end.
Definition limited (lo hi : option R) (v w : R) : Prop :=
  at_least lo w /\ at_most hi w /\
  (at_least lo v -> at_most hi v -> w = v) /\
  (~ at_least lo v -> lo = Some w) /\ (~ at_most hi v -> hi = Some w).
Definition proper (lo hi : option R) : Prop :=
  match lo, hi with Some l, Some h => l <= h | _, _ => True end.

(** The correction added to the maxus of a cell of vegetation class v: everything configured for the
    class, or the default for a class that is not listed. *)
Definition veg_listed (tbl : list (Z * R)) (v : Z) : Prop := exists r, In (v, r) tbl.
Fixpoint veg_total (tbl : list (Z * R)) (v : Z) : R :=
  match tbl with
  | [] => 0
  | (k, r) :: tbl' => (if Z.eq_dec k v then r else 0) + veg_total tbl' v
  end.
Definition veg_correction (tbl : list (Z * R)) (dflt : R) (v : Z) (r : R) : Prop :=
  (veg_listed tbl v -> r = veg_total tbl v) /\ (~ veg_listed tbl v -> r = dflt).

(** Winstral's factor between the wind on flat ground and at a site of upwind slope c (degrees). *)
Definition shelter (c : R) : R :=
  if Rlt_dec c 21.3 then 1 + 0.1031717 * c - 0.008003561 * (c * c) + 0.0003996581 * (c * c * c)
  else if Rlt_dec c 30.1 then 1.756507 - 0.1678945 * c + 0.01927844 * (c * c) - 0.0003651592 * (c * c * c)
  else 4.211.
(** the four values of maxus that no case of the program covers *)
Definition gap (m : R) : Prop := Rabs m = 21.3 \/ Rabs m = 30.1.
(** Wind simulated in a cell before measured values, filling and limits: multiplied by the factor on an
    exposed (negative) cell, divided on a sheltered one, scaled from 3 m to 5 m; zero where maxus is
    missing or in a gap. *)
Definition terrain_wind (factor : R) (flat maxus w : rnum) : Prop :=
  match maxus with
  | None => w = Some 0
  | Some m =>
      (gap m -> w = Some 0) /\
      (~ gap m ->
        match flat with
        | None => w = None
        | Some f => (m < 0 -> w = Some (1.07985 * (factor * f * shelter (- m)))) /\
                    (0 <= m -> w = Some (1.07985 * (f / shelter m)))
        end)
  end.

(** The value assigned to pixel p by a list of positional assignments: the last one for that pixel. *)
Definition assigned (pix : list (nat * nat)) (speeds : list rnum) (p : nat * nat) (v : rnum) : Prop :=
  exists k, nth_error pix k = Some p /\ nth_error speeds k = Some v /\
            forall k', (k < k')%nat -> nth_error pix k' <> Some p.

(** Rows of a grid: the last and the first defined cell. *)
Definition row_empty (g : nat -> nat -> rnum) (nx y : nat) : Prop := forall x, (x < nx)%nat -> g y x = None.
Definition last_in_row (g : nat -> nat -> rnum) (nx y : nat) (w : R) : Prop :=
  exists x, (x < nx)%nat /\ g y x = Some w /\ forall x', (x < x' < nx)%nat -> g y x' = None.
Definition first_in_row (g : nat -> nat -> rnum) (nx y : nat) (w : R) : Prop :=
  exists x, (x < nx)%nat /\ g y x = Some w /\ forall x', (x' < x)%nat -> g y x' = None.

(** The value a missing cell of row y receives: the last defined value of its own row; in a row without
    any, the interpolation in the row number between the last value of the nearest row above that has
    one and the first value of the nearest such row below, or the only one of the two there is. *)
Definition filled (g : nat -> nat -> rnum) (ny nx y : nat) (w : R) : Prop :=
  last_in_row g nx y w \/
  (row_empty g nx y /\
   ((exists a wa b wb, (a < y < b)%nat /\ (b < ny)%nat /\
       last_in_row g nx a wa /\ first_in_row g nx b wb /\
       (forall r, (a < r < b)%nat -> row_empty g nx r) /\
       w = wa + (wb - wa) * (INR (y - a) / INR (b - a))) \/
    (exists a, (a < y)%nat /\ last_in_row g nx a w /\ forall r, (a < r < ny)%nat -> row_empty g nx r) \/
    (exists b, (y < b < ny)%nat /\ first_in_row g nx b w /\ forall r, (r < b)%nat -> row_empty g nx r))).

(** ** Stations *)
(** Factor used to reduce a station to flat ground; it differs from [shelter] at 21.3 and from 30 on. *)
Definition station_shelter (c : R) (k : R) : Prop :=
  (c <= 21.3 -> k = 1 + 0.1031717 * c - 0.008003561 * (c * c) + 0.0003996581 * (c * c * c)) /\
  (21.3 < c < 30 -> k = 1.756507 - 0.1678945 * c + 0.01927844 * (c * c) - 0.0003651592 * (c * c * c)) /\
  (30 <= c -> k = 4.21).
(** wind on flat ground of a station measuring [speed] at a site of maxus [m] *)
Definition flattened (speed m r : rnum) : Prop :=
  match speed, m with
  | Some s, Some m =>
      exists c k, c = Rmin 35 (Rabs m) /\ station_shelter c k /\
                  (0 < m -> r = Some (s * k)) /\ (m <= 0 -> r = Some (s / k))
  | _, _ => r = None
  end.
(** the least of a list of values, missing if one of them is *)
Definition least (l : list rnum) (v : rnum) : Prop :=
  match v with
  | None => In None l
  | Some m => In (Some m) l /\ forall a, In a l -> exists b, a = Some b /\ m <= b
  end.

(** with a peak list: a station counts as a peak when its name in capitals is listed and it has a direction; the station
    whose value is in use at position k is the last such station up to k *)
Definition is_peak (peaks : list string) (direction : series) (s : station) : Prop :=
  In (LoadSpec.capitals (st_name s)) peaks /\ exists d, get direction (st_name s) = Some (Some d).
Definition governs (peaks : list string) (direction : series) (sts : list station) (k : nat) (p : station) : Prop :=
  exists j, (j <= k)%nat /\ nth_error sts j = Some p /\ is_peak peaks direction p /\
            forall i s, (j < i <= k)%nat -> nth_error sts i = Some s -> ~ is_peak peaks direction s.
Definition never_peak (peaks : list string) (direction : series) (sts : list station) (k : nat) : Prop :=
  forall i s, (i <= k)%nat -> nth_error sts i = Some s -> ~ is_peak peaks direction s.
(** within one of the two polynomial bands *)
Definition same_band (a b : R) : Prop := b < 21.3 \/ (21.3 <= a /\ b < 30.1).
