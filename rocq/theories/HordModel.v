(** Model of the horizon scan and of maxus: hord, slope, calc_maxus in smrf/utils/wind/calc_wind.c and
    maxus_angle in smrf/utils/wind/model.py.  Numbers are reals with the infinities and NaN of a
    division by zero; rounding is not modelled. *)
From Coq Require Import Reals List Bool ZArith.
From Verif Require Import RNum SpatModel BresModel.
Import ListNotations.
Local Open Scope R_scope.

(** comparison of C doubles: false when a NaN is involved *)
Definition flt (a b : fl) : bool :=
  match a, b with
  | F x, F y => rltb x y
  | MInf, F _ | MInf, PInf | F _, PInf => true
  | _, _ => false
  end.

Record point := mkPoint { px : R; py : R; pz : R }.

(** slope, calc_wind.c 248-263 *)
Definition run (a b : point) : R := sqrt ((px b - px a) * (px b - px a) + (py b - py a) * (py b - py a)).
Definition slope (height : R) (a b : point) : fl := fdiv (F (pz b - (height + pz a))) (F (run a b)).

(** hord, 188-246.  [H]: the horizon of each point; inner loop 207-237, [None] if it does not end
    within [fuel] rounds *)
Fixpoint search (fuel : nat) (height : R) (n : nat) (p : nat -> point) (H : nat -> nat) (i j : nat) : option nat :=
  match fuel with
  | O => None
  | S f =>
      let ij := slope height (p i) (p j) in
      let hj := slope height (p j) (p (H j)) in
      if flt ij hj then
        if Nat.eqb j (n - 1) then Some j else search f height n p H i (H j)
      else if flt hj ij then Some j else Some (H j)
  end.
Definition store (H : nat -> nat) (i h : nat) : nat -> nat := fun k => if Nat.eqb k i then h else H k.
(** the outer loop from i - 1 down to 0 *)
Fixpoint scan (height : R) (n : nat) (p : nat -> point) (i : nat) (H : nat -> nat) : option (nat -> nat) :=
  match i with
  | O => Some H
  | S i' => match search n height n p H i' i with
            | None => None
            | Some h => scan height n p i' (store H i' h)
            end
  end.
(** 203-242: the slope from the first point to its horizon; H[n-1] = n-1 *)
Definition hord_slope (height : R) (n : nat) (p : nat -> point) : option fl :=
  option_map (fun H => slope height (p 0%nat) (p (H 0%nat))) (scan height n p (n - 1) (store (fun _ => 0%nat) (n - 1) (n - 1))).

(** atan(slope) / PI * 180 with #define PI 3.141592654, line 241 *)
Definition c_pi : R := 3141592654 / 1000000000.
Definition fatan (a : fl) : fl :=
  match a with F x => F (atan x) | PInf => F (PI / 2) | MInf => F (- (PI / 2)) | Nan => Nan end.
Definition degrees (a : fl) : fl := match fatan a with F x => F (x / c_pi * 180) | v => v end.

(** model.py 213: values of at most -89 become 0 (comparison with NaN is false) *)
Definition correct (a : fl) : fl :=
  match a with F x => if rleb x (-89) then F 0 else a | MInf => F 0 | _ => a end.

(** maxus_angle, model.py 188-192: the end cell of the search from a cell; [Int_part] is floor *)
Definition end_cell (dx dy dmax angle : R) (c : Z * Z) : Z * Z :=
  (Int_part ((IZR (fst c) * dx + dmax * cos (angle * (PI / 180) - PI / 2)) / dx + 1 / 2),
   Int_part ((IZR (snd c) * dy + dmax * sin (angle * (PI / 180) - PI / 2)) / dy + 1 / 2)).

(** calc_maxus, 81-117, for one cell, with the correction of model.py 213; [None] if uninitialised memory is
    used or the scan does not end.  [elev c]: elevation of the cell in column [fst c], row [snd c]. *)
Fixpoint all_some {A} (l : list (option A)) : option (list A) :=
  match l with
  | [] => Some []
  | Some a :: t => option_map (cons a) (all_some t)
  | None :: _ => None
  end.
Definition maxus_cell (height : R) (nx ny : Z) (xs ys : Z -> R) (elev : Z * Z -> R) (start fin : Z * Z) : option fl :=
  match all_some (samples nx ny (find_line nx ny start fin)) with
  | None => None
  | Some cells =>
      let p k := let c := nth k cells (0, 0)%Z in mkPoint (xs (fst c)) (ys (snd c)) (elev c) in
      option_map (fun s => correct (degrees s)) (hord_slope height (length cells) p)
  end.
