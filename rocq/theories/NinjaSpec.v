(** Specification vocabulary for C79. *)
From Coq Require Import Reals Arith List.
From Verif Require Import RNum WinsModel.
Local Open Scope R_scope.

(** the straight line through two points *)
Definition through (x1 y1 x2 y2 x : R) : R := y1 + (y2 - y1) * ((x - x1) / (x2 - x1)).

(** coordinates of the columns grow to the east, those of the rows fall to the south *)
Definition eastward (n : nat) (xs : nat -> R) : Prop := forall j k, (j < k < n)%nat -> xs j < xs k.
Definition southward (n : nat) (ys : nat -> R) : Prop := forall j k, (j < k < n)%nat -> ys k < ys j.

(** The cells without data lie in the first [k] columns and the last [r] rows; the first row
    lacks all of the first [k] cells and column [k+1] all of the last [r]; two columns and,
    if there are rows to fill, two rows are left to extrapolate from. *)
Definition fillable (ny nx : nat) (g : grid rnum) (k r : nat) : Prop :=
  (0 < ny)%nat /\ (k + 2 <= nx)%nat /\ (r = 0 \/ r + 2 <= ny)%nat /\
  (forall i j, (i < ny)%nat -> (j < nx)%nat -> g i j = None -> (j < k \/ ny - r <= i)%nat) /\
  (forall j, (j < k)%nat -> g 0%nat j = None) /\
  (forall i, (ny - r <= i < ny)%nat -> g i (k + 1)%nat = None).

(** the gap is exactly a strip of columns at the left and a strip of rows at the bottom *)
Definition edge_gap (ny nx : nat) (g : grid rnum) (k r : nat) : Prop :=
  forall i j, (i < ny)%nat -> (j < nx)%nat -> (g i j = None <-> (j < k \/ ny - r <= i)%nat).

(** the logarithmic wind profile over roughness [z], at height [h] above it, per unit of
    friction velocity (von Karman's constant left out) *)
Definition profile (z h : R) : R := ln ((h + z) / z).

(** the direction of a vector by the compass, in degrees *)
Definition points_to (d u v : R) : Prop :=
  0 <= d < 360 /\ exists r, 0 <= r /\ u = r * sin (d * PI / 180) /\ v = r * cos (d * PI / 180).
