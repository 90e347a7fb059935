(** Time zones and input files, seen from outside. *)
From Coq Require Import List ZArith Bool QArith Qcanon String.
From Verif Require Import Num WinsModel LoadModel.
Import ListNotations.
Local Open Scope Z_scope.

(** The list of a zone's offsets is complete, without repetition *)
Definition zone_ok (z : zone) : Prop := (forall u, In (z_offset z u) (z_offsets z)) /\ NoDup (z_offsets z).
(** The clocks show [w] at exactly one instant, [u] *)
Definition shown_once (z : zone) (w u : Z) : Prop := wall z u = w /\ forall u', wall z u' = w -> u' = u.

(** Capital letters: the n-th small letter becomes the n-th capital, any other character stays. *)
Fixpoint capital_in (small large : string) (c : Ascii.ascii) : Ascii.ascii :=
  match small, large with
  | String a s, String b l => if Ascii.eqb c a then b else capital_in s l c
  | _, _ => c
  end.
Fixpoint capitals (s : string) : string :=
  match s with
  | EmptyString => EmptyString
  | String c r => String (capital_in "abcdefghijklmnopqrstuvwxyz"%string "ABCDEFGHIJKLMNOPQRSTUVWXYZ"%string c) (capitals r)
  end.

(** A file: every line has as many values as the header has names; no two lines have the same time, no two
    columns names that differ only by case *)
Definition file_ok (f : table string) : Prop :=
  (forall w row, In (w, row) (t_rows f) -> List.length row = List.length (t_cols f)) /\
  NoDup (map fst (t_rows f)) /\ NoDup (map capitals (t_cols f)).
(** In the line for wall time [w] the file has [x] below the name [c] *)
Definition file_says (f : table string) (w : Z) (c : string) (x : num) : Prop :=
  exists row, In (w, row) (t_rows f) /\ In (c, x) (combine (t_cols f) row).
Definition allowed (stations : option (list string)) (s : string) : Prop :=
  match stations with None => True | Some l => In s l end.

(** A cell lies in a box *)
Definition inside (b : bbox) (lat lon : num) : Prop :=
  exists la lo, lat = Some la /\ lon = Some lo /\ (latmin b <= la)%Qc /\ (la <= latmax b)%Qc /\ (lonmin b <= lo)%Qc /\ (lo <= lonmax b)%Qc.
(** The coordinates of a cell in the file *)
Definition coords_of (c : coords) (i j : nat) (lat lon : num) : Prop :=
  match c with
  | Lines la lo => nth_error la i = Some lat /\ nth_error lo j = Some lon
  | Cells ny nx la lo => (i < ny)%nat /\ (j < nx)%nat /\ lat = la i j /\ lon = lo i j
  end.
Definition rows_of (c : coords) : nat := match c with Lines la _ => List.length la | Cells ny _ _ _ => ny end.
Definition cols_of (c : coords) : nat := match c with Lines _ lo => List.length lo | Cells _ nx _ _ => nx end.
