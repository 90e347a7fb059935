(** Vocabulary for the maximum upwind slope. *)
From Coq Require Import Reals List ZArith.
Local Open Scope R_scope.

Record place := mkPlace { at_x : R; at_y : R; at_z : R }.
Definition ground_distance (a b : place) : R :=
  sqrt ((at_x b - at_x a) * (at_x b - at_x a) + (at_y b - at_y a) * (at_y b - at_y a)).
(** slope from a viewer [h] above the ground at [a] to the ground at [b] *)
Definition view (h : R) (a b : place) : R := (at_z b - (h + at_z a)) / ground_distance a b.
(** the first [n] places are distinct *)
Definition distinct (n : nat) (p : nat -> place) : Prop :=
  forall i j, (i < j < n)%nat -> 0 < ground_distance (p i) (p j).
(** ... and lie one behind the other on a ray *)
Definition on_ray (n : nat) (p : nat -> place) : Prop :=
  forall i j k, (i < j < k)%nat -> (k < n)%nat ->
    ground_distance (p i) (p k) = ground_distance (p i) (p j) + ground_distance (p j) (p k).
(** [s] is the largest of the slopes from the first place to the others *)
Definition steepest (h : R) (n : nat) (p : nat -> place) (s : R) : Prop :=
  (exists k, (0 < k < n)%nat /\ s = view h (p 0%nat) (p k)) /\
  forall k, (0 < k < n)%nat -> view h (p 0%nat) (p k) <= s.
