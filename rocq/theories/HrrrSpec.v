(** What the property about the tables of HRRR data talks about. *)
From Coq Require Import Reals List ZArith.
From Verif Require Import RNum SatSpec HrrrModel.
Import ListNotations.
Local Open Scope R_scope.

(** a table's value for a time and a pixel *)
Definition reads {A} (f : frame A) (t : Z) (c : nat) (x : A) : Prop :=
  exists i j, nth_error (f_index f) i = Some t /\ nth_error (f_cols f) j = Some c /\ f_cell f i j = x.
(** no label twice *)
Definition distinct {A} (f : frame A) : Prop := NoDup (f_index f) /\ NoDup (f_cols f).
Definition labels_of {A B} (f : frame A) (g : frame B) : Prop := f_index f = f_index g /\ f_cols f = f_cols g.

(** The table of numbers [g] for the library's table [f]: the same pixels, the times put into the zone, the entries
    read as numbers. *)
Definition read_as {E} (numeric : E -> option rnum) (zone : Z -> option Z) (f : frame E) (g : frame rnum) : Prop :=
  f_cols g = f_cols f /\
  Forall2 (fun w t => zone w = Some t) (f_index f) (f_index g) /\
  forall i j, (i < length (f_index f))%nat -> (j < length (f_cols f))%nat -> numeric (f_cell f i j) = Some (f_cell g i j).

(** the table [f] seen at the times and pixels of [g]: NaN where it has none *)
Definition seen_at (f : frame rnum) (t : Z) (c : nat) (x : rnum) : Prop :=
  reads f t c x \/ ((~ In t (f_index f) \/ ~ In c (f_cols f)) /\ x = None).

(** vapour pressure of air at [t] degrees with the fraction [r] of saturation *)
Definition vapor_of (t r : rnum) (v : rnum) : Prop :=
  (forall t' r', t = Some t' -> r = Some r' -> -273.15 < t' -> v = Some (saturation (t' + 273.15) * r')) /\
  (t = None \/ r = None -> v = None).
Definition percent (r : rnum) : rnum := rlift (fun x => x / 100) r.
(** humidities are in percent if the first one of the table is at least 1, and fractions otherwise *)
Definition in_unit_of (first r : rnum) : rnum :=
  match first with Some f => if Rle_dec 1 f then percent r else r | None => r end.

(** A table of the library that can be read. *)
Definition readable {E} (numeric : E -> option rnum) (zone : Z -> option Z) (f : frame E) : Prop :=
  (forall w, In w (f_index f) -> zone w <> None) /\
  forall i j, (i < length (f_index f))%nat -> (j < length (f_cols f))%nat -> numeric (f_cell f i j) <> None.
(** A table that can be brought to the labels of another: it has them, or no label of its own twice. *)
Definition can_follow {A B} (f : frame A) (g : frame B) : Prop :=
  (f_cols f = f_cols g \/ NoDup (f_cols f)) /\ (f_index f = f_index g \/ NoDup (f_index f)).
