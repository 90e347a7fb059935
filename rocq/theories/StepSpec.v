(** What the documentation of check_cloud_factor (hrrr_grib.py 197-204) says of the cloud factor:
    a value that is missing is copied from the hour before, and if the first hour has missing values
    the sky is taken to be clear everywhere. *)
From Coq Require Import List ZArith Bool Qcanon.
From Verif Require Import Num StepModel.
Import ListNotations.

Definition complete (raw : list num) : Prop := ~ In None raw.
Definition missing (x : num) : bool := match x with None => true | Some _ => false end.
Definition fill (before : option (list num)) (raw : list num) : list num :=
  match before with
  | None => if existsb missing raw then map (fun _ => Some 1%Qc) raw else raw
  | Some b => map (fun p => match snd p with Some _ => snd p | None => fst p end) (combine b raw)
  end.
Fixpoint fill_all (before : option (list num)) (raws : list (list num)) : list (list num) :=
  match raws with
  | [] => []
  | r :: t => fill before r :: fill_all (Some (fill before r)) t
  end.

(** The archive has exactly one row for every date of the run, at that date *)
Definition one_row_per_date {V} (archive : Z -> Z -> list (row V)) (ncell : nat) (dates : list Z)
    (datas : list V) (raws : list (list num)) : Prop :=
  length datas = length dates /\ length raws = length dates /\
  (forall raw, In raw raws -> length raw = ncell) /\
  forall i t v raw, nth_error dates i = Some t -> nth_error datas i = Some v -> nth_error raws i = Some raw ->
    archive t (t + 20)%Z = [mkRow t v raw].
