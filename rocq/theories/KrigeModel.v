(** Model of the kriging solver: smrf/spatial/dk/lusolv.c, smrf/spatial/dk/krige.c and
    the cached use of the weights in smrf/spatial/dk/dk.py.

    Doubles are exact rationals.  A matrix is a function of row and column; C reads outside
    the allocated part do not occur (every index below stays within n rows and n+1 columns). *)
From Coq Require Import List Arith Bool QArith Qcanon.
From Verif Require Import Num.
Import ListNotations.
Local Open Scope Qc_scope.

Definition matrix := nat -> nat -> Qc.
Definition upd (a : matrix) (i j : nat) (v : Qc) : matrix :=
  fun r c => if (Nat.eqb r i && Nat.eqb c j)%bool then v else a r c.
Definition updv {A} (f : nat -> A) (i : nat) (v : A) : nat -> A :=
  fun k => if Nat.eqb k i then v else f k.
Definition fabs (x : Qc) : Qc := if Qcltb x 0 then - x else x.

(** [for (i = lo; i < lo + cnt; i++) s = f(i, s)] *)
Fixpoint loop {S : Type} (lo cnt : nat) (f : nat -> S -> S) (s : S) : S :=
  match cnt with
  | O => s
  | S c => loop (Datatypes.S lo) c f (f lo s)
  end.
(** the same with an early return *)
Fixpoint oloop {S : Type} (lo cnt : nat) (f : nat -> S -> option S) (s : S) : option S :=
  match cnt with
  | O => Some s
  | S c => match f lo s with None => None | Some s' => oloop (Datatypes.S lo) c f s' end
  end.

(** ** ludcmp, lusolv.c 57-157 *)
Record lu := mkLu { lu_a : matrix; lu_vv : nat -> Qc; lu_indx : nat -> nat; lu_imax : nat }.

(** 79-93: the scaling of row i; a zero row is an error *)
Definition row_big (n : nat) (a : matrix) (i : nat) : Qc :=
  loop 0 n (fun j big => if Qcltb big (fabs (a i j)) then fabs (a i j) else big) 0.
Definition scaling (n : nat) (a : matrix) : option (nat -> Qc) :=
  oloop 0 n (fun i vv => let big := row_big n a i in
                         if Qceqb big 0 then None else Some (updv vv i (1 / big)))
        (fun _ => 0).

(** [sum = a[i][j]; for (k = 0; k < m; k++) sum -= a[i][k] * a[k][j];] *)
Definition dot_sub (a : matrix) (i j m : nat) : Qc :=
  loop 0 m (fun k sum => sum - a i k * a k j) (a i j).

(** 98-103 *)
Definition upper (j : nat) (a : matrix) : matrix :=
  loop 0 j (fun i a => upd a i j (dot_sub a i j i)) a.
(** 107-117; [imax] keeps its value from the previous column if no row is chosen *)
Definition pivot_search (n j : nat) (vv : nat -> Qc) (a : matrix) (imax : nat) : matrix * (Qc * nat) :=
  loop j (n - j) (fun i s =>
    let '(a, (big, imax)) := s in
    let sum := dot_sub a i j j in
    let a := upd a i j sum in
    let dum := vv i * fabs sum in
    if Qcleb big dum then (a, (dum, i)) else (a, (big, imax))) (a, (0, imax)).
(** 121-129: columns 0..n-1 only, the right-hand side (column n) is not touched *)
Definition interchange (n imax j : nat) (a : matrix) : matrix :=
  loop 0 n (fun k a => let dum := a imax k in
                       let a := upd a imax k (a j k) in
                       upd a j k dum) a.
(** 149-153 *)
Definition divide (n j : nat) (a : matrix) : matrix :=
  if Nat.eqb j (n - 1) then a
  else let dum := 1 / a j j in
       loop (S j) (n - S j) (fun i a => upd a i j (a i j * dum)) a.

(** one column, 97-154; the sign [*d] is not used and not modelled *)
Definition column (n j : nat) (s : lu) : option lu :=
  let a := upper j (lu_a s) in
  let '(a, (_, imax)) := pivot_search n j (lu_vv s) a (lu_imax s) in
  let '(a, vv) := if Nat.eqb j imax then (a, lu_vv s)
                  else (interchange n imax j a, updv (lu_vv s) imax (lu_vv s j)) in
  let indx := updv (lu_indx s) j imax in
  if Qceqb (a j j) 0 then None
  else Some (mkLu (divide n j a) vv indx imax).

Definition ludcmp (n : nat) (a : matrix) : option lu :=
  match scaling n a with
  | None => None
  | Some vv => oloop 0 n (column n) (mkLu a vv (fun _ => 0%nat) 0)
  end.

(** ** lubksb, lusolv.c 168-202.  The right-hand side is column n. *)
Definition forward (n : nat) (indx : nat -> nat) (a : matrix) : matrix * option nat :=
  loop 0 n (fun i s =>
    let '(a, ii) := s in
    let ip := indx i in
    let sum := a ip n in
    let a := upd a ip n (a i n) in
    let '(sum, ii) :=
      match ii with
      | Some m => (loop m (i - m) (fun j sum => sum - a i j * a j n) sum, ii)
      | None => (sum, if Qcltb 0 sum then Some i else None)
      end in
    (upd a i n sum, ii)) (a, None).
Definition backward (n : nat) (a : matrix) : matrix :=
  loop 0 n (fun k a =>
    let i := (n - 1 - k)%nat in
    let sum := loop (S i) (n - S i) (fun j sum => sum - a i j * a j n) (a i n) in
    upd a i n (sum / a i i)) a.
Definition lubksb (n : nat) (indx : nat -> nat) (a : matrix) : matrix :=
  backward n (fst (forward n indx a)).

(** lusolv, 26-48: [None] is the return value 1 *)
Definition lusolv (n : nat) (a : matrix) : option (nat -> Qc) :=
  match ludcmp n a with
  | None => None
  | Some s => let a' := lubksb n (lu_indx s) (lu_a s) in Some (fun i => a' i n)
  end.

(** ** krige, krige.c 66-216.  [act]: the stations whose use flag is 1, in increasing order.
    The sort of 95-119 only serves to set every flag (its index array is a permutation). *)
Definition nth_act (act : list nat) (i : nat) : nat := nth i act 0%nat.
(** 137-156 *)
Definition krige_matrix (ad : matrix) (dgrid : nat -> Qc) (act : list nat) : matrix :=
  let ns := length act in
  fun r c =>
    if Nat.ltb r ns then
      if Nat.ltb c ns then ad (nth_act act r) (nth_act act c)
      else if Nat.eqb c ns then 1 else dgrid (nth_act act r)
    else if Nat.ltb c ns then 1 else if Nat.eqb c ns then 0 else 1.
(** 169-181: the highest station with a negative weight; [mm] counts the used stations *)
Fixpoint select (wcalc elev : nat -> Qc) (mm : nat) (act : list nat) (msave : option nat) (elevsave : Qc) : option nat :=
  match act with
  | [] => msave
  | m :: t =>
      if Qcltb (wcalc mm) 0 then
        if Qcltb elevsave (elev m) then select wcalc elev (S mm) t (Some m) (elev m)
        else select wcalc elev (S mm) t msave elevsave
      else select wcalc elev (S mm) t msave elevsave
  end.
(** 187-195 *)
Fixpoint weight_of (wcalc : nat -> Qc) (mm : nat) (act : list nat) (m : nat) : Qc :=
  match act with
  | [] => 0
  | a :: t => if Nat.eqb a m then wcalc mm else weight_of wcalc (S mm) t m
  end.
(** [Exit]: the call [exit(0)] of line 163.  [Fuel] is only reached if the while loop makes
    more rounds than there are stations (it does not). *)
Inductive kriged := Weights (w : nat -> Qc) | Exit | Fuel.
Fixpoint krige_loop (fuel : nat) (ad : matrix) (dgrid elev : nat -> Qc) (act : list nat) : kriged :=
  match fuel with
  | O => Fuel
  | S fuel' =>
      match lusolv (length act + 1) (krige_matrix ad dgrid act) with
      | None => Exit
      | Some wcalc =>
          match select wcalc elev 0 act None 0 with
          | Some m => krige_loop fuel' ad dgrid elev (filter (fun x => negb (Nat.eqb x m)) act)
          | None => Weights (weight_of wcalc 0 act)
          end
      end
  end.
Definition krige (nsta : nat) (ad : matrix) (dgrid elev : nat -> Qc) : kriged :=
  krige_loop (S nsta) ad dgrid elev (seq 0 nsta).

(** krige_grid, 28-62: the cells one by one (the OpenMP loop gives each cell its own [w]);
    [None]: the process has exited *)
Fixpoint krige_grid (nsta : nat) (ad : matrix) (cells : list (nat -> Qc)) (elev : nat -> Qc)
  : option (list (list Qc)) :=
  match cells with
  | [] => Some []
  | d :: t =>
      match krige nsta ad d elev with
      | Weights w => option_map (cons (map w (seq 0 nsta))) (krige_grid nsta ad t elev)
      | _ => None
      end
  end.
