(** Model of the upwind search line: smrf/utils/wind/breshen.c and find_line, calc_maxus in
    smrf/utils/wind/calc_wind.c. *)
From Coq Require Import ZArith List Bool.
Import ListNotations.
Local Open Scope Z_scope.

(** conversion of an int to a C short (16 bits, wrap around as with gcc) *)
Definition short (z : Z) : Z := (z + 32768) mod 65536 - 32768.

(** breshen.h 17-20.  [l_steep]: SlopeType = 1 *)
Record line := mkLine { l_dx : Z; l_inc1 : Z; l_inc2 : Z; l_inc3 : Z; l_inc4 : Z; l_inc5 : Z; l_d : Z;
  l_octent : Z; l_steep : bool }.

Definition swap_if (b : bool) (p : Z * Z) : Z * Z := if b then (snd p, fst p) else p.

(** InitializeLineData, breshen.c 285-357; coordinates are pairs (X, Y).  [dy] is set to the
    distance along the major axis again in 311 and 335 with the same value. *)
Definition initialize (start fin : Z * Z) : line :=
  let dx := short (Z.abs (fst start - fst fin)) in
  let dy := short (Z.abs (snd start - snd fin)) in
  let steep := dy <? dx in
  let dx := if steep then dy else dx in
  let '(sx, sy) := swap_if steep start in
  let '(ex, ey) := swap_if steep fin in
  let dy := if ey <? sy then short (sy - ey) else short (ey - sy) in
  let inc4 := if ey <? sy then -1 else 1 in
  if ex <=? sx then
    mkLine dx (short (-2 * dx)) (short (-2 * (dx - dy))) (short (-2 * (dx + dy))) inc4 (-1)
      (short (-1 * (2 * dx - dy))) (if ey <? sy then 5 else 8) steep
  else
    mkLine dx (short (2 * dx)) (short (2 * (dx + dy))) (short (2 * (dx - dy))) inc4 1
      (short (1 * (2 * dx - dy))) (if ey <? sy then 4 else 1) steep.

Definition set_d (L : line) (d : Z) : line :=
  mkLine (l_dx L) (l_inc1 L) (l_inc2 L) (l_inc3 L) (l_inc4 L) (l_inc5 L) d (l_octent L) (l_steep L).

(** GetNextCellCoordinate, 123-194, once LineData is initialised *)
Definition next (start fin : Z * Z) (L : line) (p : Z * Z) : (Z * Z) * line :=
  let '(sx, _) := swap_if (l_steep L) start in
  let '(ex, _) := swap_if (l_steep L) fin in
  let '(x, y) := swap_if (l_steep L) p in
  let d := l_d L in let dx := l_dx L in
  let '(x, y, d) :=
    if (l_octent L =? 5) || (l_octent L =? 8) then
      let y := short (y + l_inc4 L) in
      if ((sx <=? ex) && (0 <=? d)) || ((ex <? sx) && (d <=? 0)) then
        if ((ex <=? sx) && (dx <=? 0)) || ((sx <? ex) && (0 <=? dx)) then (x, y, short (d - l_inc1 L))
        else (short (x + l_inc5 L), y, short (d + l_inc2 L))
      else
        if ((ex <=? sx) && (0 <=? dx)) || ((sx <? ex) && (dx <=? 0)) then (x, y, short (d + l_inc1 L))
        else (short (x + l_inc5 L), y, short (d - l_inc3 L))
    else if (l_octent L =? 1) || (l_octent L =? 4) then
      let y := short (y + l_inc4 L) in
      if ((sx <=? ex) && (d <=? 0)) || ((ex <? sx) && (0 <=? d)) then
        if ((ex <=? sx) && (dx <=? 0)) || ((sx <? ex) && (0 <=? dx)) then (x, y, short (d + l_inc1 L))
        else (short (x + l_inc5 L), y, short (d - l_inc2 L))
      else
        if ((ex <=? sx) && (0 <=? dx)) || ((sx <? ex) && (dx <=? 0)) then (x, y, short (d + l_inc1 L))
        else (short (x + l_inc5 L), y, short (d + l_inc3 L))
    else (x, y, d) in
  (swap_if (l_steep L) (x, y), set_d L d).

(** find_line, calc_wind.c 134-178: the cells after the first, [room] of them at most.  The line
    data are initialised by the first call of GetNextCellCoordinate (125-126). *)
Fixpoint walk (room : nat) (nx ny : Z) (start fin : Z * Z) (L : option line) (p : Z * Z) : list (Z * Z) :=
  match room with
  | O => []
  | S room' =>
      if (fst p =? fst fin) && (snd p =? snd fin) then []
      else if (nx <? fst p) || (fst p <? 0) || (ny <? snd p) || (snd p <? 0) then []
      else
        let L := match L with Some L => L | None => initialize start fin end in
        let '(p', L') := next start fin L p in
        p' :: walk room' nx ny start fin (Some L') p'
  end.
(** MAX_SIZE = 500, one entry taken by the start cell *)
Definition find_line (nx ny : Z) (start fin : Z * Z) : list (Z * Z) :=
  start :: walk (Z.to_nat 499) nx ny start fin None (short (fst start), short (snd start)).

(** calc_maxus, 98-115: the arrays xl, yl, elev hold a cell where it lies in the domain and
    uninitialised memory ([None]) elsewhere; hord gets the first [n] entries, [n] being the number of
    cells in the domain *)
Definition in_domain (nx ny : Z) (c : Z * Z) : bool :=
  (0 <=? fst c) && (fst c <=? nx - 1) && (0 <=? snd c) && (snd c <=? ny - 1).
Definition samples (nx ny : Z) (cells : list (Z * Z)) : list (option (Z * Z)) :=
  firstn (length (filter (in_domain nx ny) cells))
    (map (fun c => if in_domain nx ny c then Some c else None) cells).
