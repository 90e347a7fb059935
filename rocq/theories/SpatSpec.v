(** Vocabulary for the interpolation properties. *)
From Coq Require Import Reals List.
From Verif Require Import RNum.
Import ListNotations.
Local Open Scope R_scope.

Definition rsum (l : list R) : R := fold_right Rplus 0 l.
(** distance in the plane *)
Definition dist (a b : R * R) : R := sqrt ((fst a - fst b) * (fst a - fst b) + (snd a - snd b) * (snd a - snd b)).
(** the stations that report, with their readings *)
Fixpoint readings (sta : list (R * R)) (data : list rnum) : list ((R * R) * R) :=
  match sta, data with
  | s :: sta', Some x :: data' => (s, x) :: readings sta' data'
  | _ :: sta', None :: data' => readings sta' data'
  | _, _ => []
  end.
(** inverse distance weighting of the readings at a point away from all of them *)
Definition inverse_distance (p : R) (r : list ((R * R) * R)) (c : R * R) : R :=
  rsum (map (fun x => snd x / Rpower (dist c (fst x)) p) r) / rsum (map (fun x => / Rpower (dist c (fst x)) p) r).

(** the readings that are not taken at the point itself *)
Definition away (c : R * R) (r : list ((R * R) * R)) : list ((R * R) * R) :=
  filter (fun x => if Rlt_dec 0 (dist c (fst x)) then true else false) r.

(** straight lines in elevation, as (slope, intercept) *)
Definition on_line (line : R * R) (z : R) : R := fst line * z + snd line.
Definition misfit (line : R * R) (pts : list (R * R)) : R :=
  rsum (map (fun p => (snd p - on_line line (fst p)) * (snd p - on_line line (fst p))) pts).
Definition least_squares (pts : list (R * R)) (line : R * R) : Prop :=
  forall line', misfit line pts <= misfit line' pts.
Definition two_heights (pts : list (R * R)) : Prop := exists p p', In p pts /\ In p' pts /\ fst p <> fst p'.
(** elevation and reading of the stations that report *)
Fixpoint profile (mz : list R) (data : list rnum) : list (R * R) :=
  match mz, data with
  | z :: mz', Some x :: data' => (z, x) :: profile mz' data'
  | _ :: mz', None :: data' => profile mz' data'
  | _, _ => []
  end.
(** [v] is an entry of [l] at position [i], none is nearer to [x] and no earlier one is as near *)
Definition first_nearest (x : R) (l : list R) (i : nat) : Prop :=
  (i < length l)%nat /\
  (forall j, (j < length l)%nat -> Rabs (nth i l 0 - x) <= Rabs (nth j l 0 - x)) /\
  (forall j, (j < i)%nat -> Rabs (nth i l 0 - x) < Rabs (nth j l 0 - x)).
