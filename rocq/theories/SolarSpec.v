(** Specification of the solar radiation steps. *)
From Coq Require Import Reals List.
From Verif Require Import RNum.
Import ListNotations.
Local Open Scope R_scope.

(** Global radiation g and its diffuse part e under clouds that let a share c of the clear-sky global
    radiation through (b global, d diffuse without clouds). *)
Definition clouded (b d c g e : R) : Prop :=
  g = b * c /\
  (c <= 0.15 -> e = g) /\
  (0.15 < c <= 0.99 -> e = g * (1 - 1.38 * ((c - 0.15) * (c - 0.15)))) /\
  (0.99 < c -> e = d * c).

(** Beam radiation below a canopy of height h and extinction k, for an illumination cosine mu; hidden cells
    (mu <= 0) count as almost grazing. *)
Definition below_canopy (b h mu k r : R) : Prop :=
  (0 < mu -> r = b * exp (- (k * h) / mu)) /\ (mu <= 0 -> r = b * exp (- (k * h) * 100)).

(** The last value before position i, and the first one after it. *)
Definition value_before (l : list rnum) (i a : nat) (v : R) : Prop :=
  (a < i)%nat /\ nth_error l a = Some (Some v) /\ forall j, (a < j < i)%nat -> nth_error l j = Some None.
Definition value_after (l : list rnum) (i b : nat) (w : R) : Prop :=
  (i < b)%nat /\ nth_error l b = Some (Some w) /\ forall j, (i < j < b)%nat -> nth_error l j = Some None.
Definition none_before (l : list rnum) (i : nat) : Prop := forall j, (j < i)%nat -> nth_error l j = Some None.
Definition none_after (l : list rnum) (i : nat) : Prop := forall j, (i < j < length l)%nat -> nth_error l j = Some None.
(** Gaps filled linearly in time between the values around them; the last value is kept to the end; nothing
    is known before the first value. *)
Definition gap_filled (l out : list rnum) : Prop :=
  length out = length l /\
  forall i, (i < length l)%nat ->
    (forall v, nth_error l i = Some (Some v) -> nth_error out i = Some (Some v)) /\
    (nth_error l i = Some None ->
       (forall a v b w, value_before l i a v -> value_after l i b w ->
          nth_error out i = Some (Some (v + (w - v) * ((INR i - INR a) / (INR b - INR a))))) /\
       (forall a v, value_before l i a v -> none_after l i -> nth_error out i = Some (Some v)) /\
       (none_before l i -> nth_error out i = Some None)).
(** limited to the interval from 0 to 1 *)
Definition unit_limited (x y : R) : Prop :=
  (x < 0 -> y = 0) /\ (1 < x -> y = 1) /\ (0 <= x <= 1 -> y = x).

(** The two-stream equations for the upward and downward diffuse flux at optical depth t below the top of the
    atmosphere (for a unit solar flux normal to the beam), with nothing diffuse coming from above and a
    substrate of reflectance R0 below. *)
Definition two_stream_solution (mu omega R0 g1 g2 g3 g4 tau : R) (Up Down : R -> R) : Prop :=
  (forall t, derivable_pt_lim Up t (g1 * Up t - g2 * Down t - omega * g3 * exp (- t / mu))) /\
  (forall t, derivable_pt_lim Down t (g2 * Up t - g1 * Down t + omega * g4 * exp (- t / mu))) /\
  Down 0 = 0 /\
  Up tau = R0 * (Down tau + mu * exp (- tau / mu)).

(** Legendre polynomials (P_n, P_(n+1)) by Bonnet's recursion, the integral of P_(2m+1) over [0,1], and the
    backscatter series of an asymmetry g: the sum over odd n of (2n+1) g^n P_n(mu) times that integral. *)
Fixpoint legendre2 (n : nat) (x : R) : R * R :=
  match n with
  | O => (1, x)
  | S n' => let '(p, q) := legendre2 n' x in (q, ((2 * INR n' + 3) * x * q - (INR n' + 1) * p) / (INR n' + 2))
  end.
Definition legendre (n : nat) (x : R) : R := fst (legendre2 n x).
Definition half_integral (m : nat) : R := (-1) ^ m * INR (fact (2 * m)) / (2 ^ (2 * m + 1) * INR (fact m) * INR (fact (S m))).
Definition backscatter_term (g x : R) (m : nat) : R := (4 * INR m + 3) * g ^ (2 * m + 1) * legendre (2 * m + 1) x * half_integral m.
Definition backscatter_sum (g x : R) (m : nat) : R := sum_f_R0 (backscatter_term g x) m.
Definition negligible (g x : R) (m : nat) : Prop :=
  Rabs (backscatter_term g x m / backscatter_sum g x m) < 0.000000001 /\ backscatter_sum g x m <= 1.

(** Meador and Weaver 1980, table 1, the hybrid modified Eddington-delta function approximation, multiplied
    out: [x] is the coefficient gamma 1 (2) of a beam of cosine [mu], for a single-scattering albedo [omega],
    an asymmetry [g] and a backscattered share [b]. *)
Definition hybrid_gamma1 (mu omega g b x : R) : Prop :=
  x * (4 * (1 - g ^ 2 * (1 - mu))) = 7 - 3 * g ^ 2 - omega * (4 + 3 * g) + omega * g ^ 2 * (4 * b + 3 * g).
Definition hybrid_gamma2 (mu omega g b x : R) : Prop :=
  x * (4 * (1 - g ^ 2 * (1 - mu))) = - (1 - g ^ 2 - omega * (4 - 3 * g) - omega * g ^ 2 * (4 * b + 3 * g - 4)).
