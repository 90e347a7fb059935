(** Vocabulary for the search line. *)
From Coq Require Import ZArith List.
Import ListNotations.
Local Open Scope Z_scope.

(** number of steps from one cell to another when both coordinates may change in a step *)
Definition steps (s f : Z * Z) : Z := Z.max (Z.abs (fst f - fst s)) (Z.abs (snd f - snd s)).
(** k * a / n rounded to the nearest integer, halves down *)
Definition rounded (k a n : Z) : Z := - ((n - 2 * k * a) / (2 * n)).
(** the cell [k] steps along the straight line from [s] to [f] *)
Definition line_cell (s f : Z * Z) (k : Z) : Z * Z :=
  (fst s + rounded k (fst f - fst s) (steps s f), snd s + rounded k (snd f - snd s) (steps s f)).
(** coordinates a C short can hold, and differences whose multiples it can hold *)
Definition fits (s f : Z * Z) : Prop :=
  -32768 <= fst s <= 32767 /\ -32768 <= snd s <= 32767 /\ -32768 <= fst f <= 32767 /\ -32768 <= snd f <= 32767 /\
  Z.abs (fst f - fst s) + Z.abs (snd f - snd s) <= 16383.
Definition inside (nx ny : Z) (c : Z * Z) : Prop := 0 <= fst c < nx /\ 0 <= snd c < ny.
(** neighbouring cells, diagonals included *)
Definition adjacent (a b : Z * Z) : Prop := Z.max (Z.abs (fst a - fst b)) (Z.abs (snd a - snd b)) = 1.
