(** The images, spacing and centre of a model domain, said directly *)
From Coq Require Import List ZArith Bool Arith QArith Qcanon.
From Verif Require Import Num TopoModel.
Import ListNotations.
Local Open Scope Qc_scope.

(** The image before in the list of images *)
Definition before (n : name) : option name :=
  match n with Dem => None | Mask => Some Dem | VegType => Some Mask | VegHeight => Some VegType | VegK => Some VegHeight | VegTau => Some VegK end.
(** The whole number a number is cut to *)
Definition cut_to (x : Qc) (n : Z) : Prop :=
  (0 <= x /\ Q2Qc (inject_Z n) <= x /\ x < Q2Qc (inject_Z (n + 1))) \/ (x < 0 /\ Q2Qc (inject_Z (n - 1)) < x /\ x <= Q2Qc (inject_Z n)).

(** Sum over the columns 0 .. n - 1 of one row, and over the rows 0 .. n - 1 *)
Fixpoint over (f : nat -> Qc) (n : nat) : Qc := match n with O => 0 | S k => over f k + f k end.
Definition over_cells (f : nat -> nat -> Qc) (ny nx : nat) : Qc := over (fun i => over (f i) nx) ny.
(** 1 in the basin, 0 elsewhere *)
Definition inside (m : image) (i j : nat) : Qc := match m i j with Some x => if Qc_eq_dec x 1 then 1 else 0 | None => 0 end.
(** [c] is the mean of the coordinates over the cells of the basin *)
Definition balance (m : image) (coord : nat -> nat -> Qc) (ny nx : nat) (c : num) : Prop :=
  match c with
  | None => forall i j, (i < ny)%nat -> (j < nx)%nat -> m i j <> Some 1
  | Some v => (exists i j, (i < ny)%nat /\ (j < nx)%nat /\ m i j = Some 1) /\
              over_cells (fun i j => inside m i j * (coord i j - v)) ny nx = 0
  end.
