(** Model of the Python forms of the search line and of the horizon scan: wind_model.bresenham and
    wind_model.hord, smrf/utils/wind/model.py 317-440, the methods that the compiled code of BresModel.v and
    HordModel.v stands in for.  (find_maxus, 278-315, calls bresenham with an end point of floating point
    numbers, which range refuses; it is left out.) *)
From Coq Require Import ZArith List Bool Reals.
From Verif Require Import RNum SpatModel BresModel HordModel.
Import ListNotations.
Local Open Scope Z_scope.

(** the loop 357-367: [m] rounds of [for x in range(x0, x1+1)].  [e] is twice the error: error starts as
    dx / 2 and changes by whole numbers *)
Fixpoint rounds (m : nat) (steep : bool) (dx dy ystep x y e : Z) : list (Z * Z) :=
  match m with
  | O => []
  | S m' =>
      (if steep then (y, x) else (x, y)) ::
      (let e := e - 2 * dy in
       if e <=? 0 then rounds m' steep dx dy ystep (x + 1) (y + ystep) (e + 2 * dx)
       else rounds m' steep dx dy ystep (x + 1) y e)
  end.
(** bresenham, 317-373, for whole numbers *)
Definition bresenham (start fin : Z * Z) : list (Z * Z) :=
  let x0 := fst start in let y0 := snd start in let x1 := fst fin in let y1 := snd fin in
  let steep := Z.abs (x1 - x0) <? Z.abs (y1 - y0) in
  let backward := x1 <? x0 in
  let '(x0, y0, x1, y1) := if steep then (y0, x0, y1, x1) else (x0, y0, x1, y1) in
  let '(x0, y0, x1, y1) := if backward then (x1, y1, x0, y0) else (x0, y0, x1, y1) in
  let dx := x1 - x0 in
  let dy := Z.abs (y1 - y0) in
  let ystep := if y0 <? y1 then 1 else -1 in
  let path := rounds (Z.to_nat (x1 + 1 - x0)) steep dx dy ystep x0 y0 dx in
  if backward then rev path else path.

Local Open Scope R_scope.
(** hord, 375-433.  The slopes (435-440) are those of HordModel.v: both distances are from the point [i]
    (409-415), and so both slopes; inner loop 407-429, [None] if it does not end within [fuel] rounds *)
Fixpoint py_search (fuel : nat) (height : R) (n : nat) (p : nat -> point) (H : nat -> nat) (i j : nat) : option nat :=
  match fuel with
  | O => None
  | S f =>
      let ij := slope height (p i) (p j) in
      let ih := slope height (p i) (p (H j)) in
      if flt ij ih then
        if Nat.eqb j (n - 1) then Some j else py_search f height n p H i (H j)
      else if flt ih ij then Some j else Some (H j)
  end.
(** the outer loop 402-431 *)
Fixpoint py_scan (height : R) (n : nat) (p : nat -> point) (i : nat) (H : nat -> nat) : option (nat -> nat) :=
  match i with
  | O => Some H
  | S i' => match py_search n height n p H i' i with
            | None => None
            | Some h => py_scan height n p i' (store H i' h)
            end
  end.
(** the array h for n > 0 points, 396-433 *)
Definition py_hord (height : R) (n : nat) (p : nat -> point) : option (nat -> nat) :=
  py_scan height n p (n - 1) (store (fun _ => 0%nat) (n - 1) (n - 1)).
