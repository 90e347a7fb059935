(** Vocabulary for the Python forms of the search line and the horizon scan. *)
From Coq Require Import ZArith List Reals.
From Verif Require Import BresSpec HordSpec.
Import ListNotations.
Local Open Scope Z_scope.

(** k * a / n rounded to the nearest integer, halves up *)
Definition rounded_up (k a n : Z) : Z := (2 * k * a + n) / (2 * n).
(** the cell [k] steps along the straight line from [s] to [f], halves up if both coordinates grow or both
    shrink, down otherwise *)
Definition py_cell (s f : Z * Z) (k : Z) : Z * Z :=
  if 0 <? (fst f - fst s) * (snd f - snd s)
  then (fst s + rounded_up k (fst f - fst s) (steps s f), snd s + rounded_up k (snd f - snd s) (steps s f))
  else line_cell s f k.
(** lines that the Python form finds: the first coordinate changes at least as much as the second, or they
    change in the same direction (downwards only if the first does) *)
Definition found (s f : Z * Z) : Prop :=
  Z.abs (snd f - snd s) <= Z.abs (fst f - fst s) \/
  (fst s <= fst f /\ snd s < snd f) \/ (fst f < fst s /\ snd f < snd s).

(** both coordinates change in the same direction and after [k] steps the line is midway between two cells *)
Definition tie (s f : Z * Z) (k : Z) : Prop :=
  0 < (fst f - fst s) * (snd f - snd s) /\
  (exists m, 2 * k * (fst f - fst s) = (2 * m + 1) * steps s f \/ 2 * k * (snd f - snd s) = (2 * m + 1) * steps s f).

(** [h] is the horizon of each of the first [n] places: itself for the last one, otherwise a later place with
    the largest slope *)
Definition horizons (height : R) (n : nat) (p : nat -> place) (h : nat -> nat) : Prop :=
  h (n - 1)%nat = (n - 1)%nat /\
  forall i, (i < n - 1)%nat -> (i < h i < n)%nat /\
    forall k, (i < k < n)%nat -> (view height (p i) (p k) <= view height (p i) (p (h i)))%R.
