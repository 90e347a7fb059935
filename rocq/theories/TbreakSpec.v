(** Vocabulary for the files of upwind slopes. *)
From Coq Require Import Reals ZArith String List.
From Verif Require Import SpatModel TbreakModel.
Local Open Scope R_scope.

(** what a file written for the first [k] of the directions 0, inc, 2 inc ... holds *)
Definition holds (f : file) (kd : kind) (attrs : list (string * R)) (inc : Z) (k : nat) (value : Z -> Z * Z -> option fl) : Prop :=
  f_kind f = kd /\ f_attrs f = attrs /\
  (let n := Z.of_nat (length (f_dirs f)) in (n - 1) * inc < 360 <= n * inc)%Z /\
  (forall i, (i < length (f_dirs f))%nat -> nth_error (f_dirs f) i = Some (if Nat.eqb k 0 then None else Some (inc * Z.of_nat i)%Z)) /\
  (forall i c, (i < k)%nat -> (i < length (f_dirs f))%nat -> f_vals f i c = Stored (value (inc * Z.of_nat i)%Z c)) /\
  (forall i c, (k <= i)%nat -> f_vals f i c = Fill).
(** the distance of the first two columns, or rows *)
Definition spacing (x : Z -> R) : R := Rabs (x 1%Z - x 0%Z).
(** a whole number of grid spacings *)
Definition whole (d dx : R) : Prop := exists n : Z, d = IZR n * dx.
(** the four directions along rows and columns: from the east 90, from the north 0 ... *)
Definition cardinal (angle : Z) : Prop := (angle = 0 \/ angle = 90 \/ angle = 180 \/ angle = 270)%Z.
