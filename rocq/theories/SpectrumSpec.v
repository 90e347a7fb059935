(** The solar spectrum, seen from outside. *)
From Coq Require Import List QArith Qreals Reals Qabs.
Import ListNotations.

(** A table with at least three rows and increasing first column *)
Fixpoint increasing (tbl : list (Q * Q)) : Prop :=
  match tbl with
  | (x, _) :: (((x', _) :: _) as r) => (x < x')%Q /\ increasing r
  | _ => True
  end.
Definition usable (tbl : list (Q * Q)) : Prop := (3 <= length tbl)%nat /\ increasing tbl.

(** The slope between two rows *)
Definition secant (p q : Q * Q) : Q := ((snd q - snd p) / (fst q - fst p))%Q.
(** The slopes between the rows of a table, from number 2 on, and two more on either side that go on evenly *)
Definition extends (tbl : list (Q * Q)) (s : nat -> Q) : Prop :=
  let n := length tbl in
  (forall i p q, nth_error tbl i = Some p -> nth_error tbl (S i) = Some q -> s (2 + i)%nat == secant p q)%Q /\
  (s 1%nat == 2 * s 2%nat - s 3%nat)%Q /\ (s 0%nat == 2 * s 1%nat - s 2%nat)%Q /\
  (s (n + 1)%nat == 2 * s n - s (n - 1)%nat)%Q /\ (s (n + 2)%nat == 2 * s (n + 1)%nat - s n)%Q.
(** Akima's slope at row [i], between the slopes [s (i + 1)] and [s (i + 2)]: their mean weighted by how much the slopes change
    on the other side; where they hardly change compared to the largest change [big] of the table, the mean of the outer two *)
Definition spread (s : nat -> Q) (i : nat) : Q := (Qabs (s (i + 3)%nat - s (i + 2)%nat) + Qabs (s (i + 1)%nat - s i))%Q.
Definition akima_slope (s : nat -> Q) (big : Q) (i : nat) : Q :=
  (if Qlt_le_dec (1e-9 * big) (spread s i)
   then (Qabs (s (i + 3)%nat - s (i + 2)%nat) * s (i + 1)%nat + Qabs (s (i + 1)%nat - s i) * s (i + 2)%nat) / spread s i
   else (s i + s (i + 3)%nat) / 2)%Q.
Definition largest (tbl : list (Q * Q)) (s : nat -> Q) (big : Q) : Prop :=
  (forall i, (i < length tbl)%nat -> spread s i <= big)%Q /\ exists i, (i < length tbl)%nat /\ (spread s i == big)%Q.
