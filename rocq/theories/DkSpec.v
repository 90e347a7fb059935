(** Vocabulary for the detrended kriging properties. *)
From Coq Require Import List Arith Bool QArith Qcanon.
From Verif Require Import Num.
Import ListNotations.
Local Open Scope Qc_scope.

(** sum of squared misfits of the line [slope * z + intercept] *)
Fixpoint misfit (slope intercept : Qc) (pts : list (Qc * Qc)) : Qc :=
  match pts with
  | [] => 0
  | (z, y) :: t => (y - (slope * z + intercept)) * (y - (slope * z + intercept)) + misfit slope intercept t
  end.
Definition least_squares (pts : list (Qc * Qc)) (line : Qc * Qc) : Prop :=
  forall a b, misfit (fst line) (snd line) pts <= misfit a b pts.
(** two of the points have different elevations *)
Definition two_heights (pts : list (Qc * Qc)) : Prop :=
  exists p p', In p pts /\ In p' pts /\ fst p <> fst p'.
(** the (elevation, value) pairs of the stations that report *)
Fixpoint reports (mz : list Qc) (data : list num) : list (Qc * Qc) :=
  match mz, data with
  | z :: mz', Some y :: data' => (z, y) :: reports mz' data'
  | _ :: mz', None :: data' => reports mz' data'
  | _, _ => []
  end.
Definition allowed (flag : Z) (slope : Qc) : Prop :=
  (flag = 1%Z -> 0 <= slope) /\ (flag = (-1)%Z -> slope <= 0).

(** the indices of the stations that report, in order *)
Definition reporting (data : list num) : list nat :=
  filter (fun i => match nth i data None with Some _ => true | None => false end) (seq 0 (length data)).
(** the i-th of them *)
Definition station_at (data : list num) (i : nat) : nat := nth i (reporting data) 0%nat.
(** distances between the reporting stations, from a symmetric table with zero diagonal *)
Definition between (dist : nat -> nat -> Qc) (data : list num) (i j : nat) : Qc := dist (station_at data i) (station_at data j).
(** a distance table of stations: symmetric, non-negative and zero from a station to itself *)
Definition distance_table (dist : nat -> nat -> Qc) : Prop :=
  (forall a b, dist a b = dist b a) /\ (forall a, dist a a = 0) /\ (forall a b, 0 <= dist a b).
