(** Vocabulary for the grids of the WindNinja files. *)
From Coq Require Import Reals ZArith Ascii String List.
From Verif Require Import RNum WinsModel.
Import ListNotations.
Local Open Scope R_scope.

(** space, tab, line feed, vertical tab, form feed, return, and the four separators of ASCII *)
Definition white (c : ascii) : Prop := In (nat_of_ascii c) [9; 10; 11; 12; 13; 28; 29; 30; 31; 32]%nat.
Fixpoint all_of (P : ascii -> Prop) (s : string) : Prop := match s with EmptyString => True | String c r => P c /\ all_of P r end.
Definition gap (s : string) : Prop := all_of white s.
Definition word (s : string) : Prop := s <> EmptyString /\ all_of (fun c => ~ white c) s.
(** a line with a key and a value, and perhaps more after them *)
Definition says (line key value : string) : Prop :=
  exists before between after, line = append before (append key (append between (append value after))) /\
    gap before /\ word key /\ gap between /\ between <> EmptyString /\ word value /\
    (after = EmptyString \/ exists c r, after = String c r /\ white c).
(** the value of a key in the first six lines: that of the last of them with that key *)
Definition header_value (lines : list string) (key value : string) : Prop :=
  exists i line, (i < 6)%nat /\ nth_error lines i = Some line /\ says line key value /\
    forall j line' value', (i < j < 6)%nat -> nth_error lines j = Some line' -> ~ says line' key value'.
(** the first six lines all have a key and a value *)
Definition proper_header (lines : list string) : Prop :=
  forall i line, (i < 6)%nat -> nth_error lines i = Some line -> exists key value, says line key value.
(** the points of a grid of square cells whose lower left corner is given, row by row from the north, each in the
    middle of its cell *)
Definition cell_centres (x0 y0 size : R) (rows cols : nat) (pts : list (R * R)) : Prop :=
  length pts = (rows * cols)%nat /\
  forall i j, (i < rows)%nat -> (j < cols)%nat ->
    nth_error pts (i * cols + j) = Some (x0 + size * (INR j + 1 / 2), y0 + size * (INR (rows - 1 - i) + 1 / 2)).
(** the weights of a place: the points they belong to, weighted, give the place *)
Definition barycentric (pts : list (R * R)) (place : R * R) (tri : list (nat * R)) : Prop :=
  (forall k w, In (k, w) tri -> (k < length pts)%nat) /\
  fold_right (fun vw s => snd vw + s) 0 tri = 1 /\
  fold_right (fun vw s => snd vw * fst (nth (fst vw) pts (0, 0)) + s) 0 tri = fst place /\
  fold_right (fun vw s => snd vw * snd (nth (fst vw) pts (0, 0)) + s) 0 tri = snd place.
