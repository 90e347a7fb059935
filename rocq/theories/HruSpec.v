(** Means over hydrologic response units, in the units asked for *)
From Coq Require Import List ZArith Bool Arith QArith Qcanon.
From Verif Require Import Num HruModel.
Import ListNotations.
Local Open Scope Qc_scope.

(** [total n f s]: the sum of the numbers f 0 .. f (n - 1), and how many there are *)
Inductive total (f : nat -> num) : nat -> Qc -> nat -> Prop :=
| t_none : total f 0 0 0
| t_number n s k x : total f n s k -> f n = Some x -> total f (S n) (s + x) (S k)
| t_missing n s k : total f n s k -> f n = None -> total f (S n) s k.
(** The values of the cells of one HRU *)
Definition only (hru : nat -> Z) (id : Z) (data : nat -> num) (c : nat) : num :=
  if Z.eqb (hru c) id then data c else None.
Definition is_mean (ncell : nat) (hru : nat -> Z) (id : Z) (data : nat -> num) (m : num) : Prop :=
  exists s k, total (only hru id data) ncell s k /\
    match m with
    | None => k = 0%nat
    | Some x => k <> 0%nat /\ x * Q2Qc (inject_Z (Z.of_nat k)) = s
    end.
Definition in_units (f : func) (m m' : num) : Prop :=
  match m, m' with
  | None, None => True
  | Some x, Some y => match f with FNone => y = x | FMm2in => q 254 10 * y = x | FC2F => q 5 9 * (y - q 32 1) = x end
  | _, _ => False
  end.
(** The values of one row *)
Definition is_row (ncell : nat) (hru : nat -> Z) (top : Z) (f : func) (data : nat -> num) (values : list num) : Prop :=
  length values = Z.to_nat top /\
  forall h y, nth_error values h = Some y -> exists m, is_mean ncell hru (Z.of_nat h + 1) data m /\ in_units f m y.

(** The lines the calls, the first of which is call number [k] of the run, leave in the file of variable [v].  [right data values]:
    the values belong to the data.  Each row has the date at the position of its call among *all* calls. *)
Inductive written {A} (right : A -> list num -> Prop) (dates : list Z) (csv : bool) (v : nat) : nat -> list (OutputModel.call A) -> list line -> Prop :=
| w_none k : written right dates csv v k [] []
| w_other k c r ls : OutputModel.c_var c <> v -> written right dates csv v (S k) r ls -> written right dates csv v k (c :: r) ls
| w_this k c r ls values : OutputModel.c_var c = v -> right (OutputModel.c_data c) values ->
    written right dates csv v (S k) r ls ->
    written right dates csv v k (c :: r)
      ((if csv && Nat.eqb k 0 then [LHeader] else []) ++ LRow (nth_error dates k) values :: ls).
