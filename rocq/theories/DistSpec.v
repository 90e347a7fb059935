(** Vocabulary for the way from readings to a grid. *)
From Coq Require Import Ascii String Reals List Bool Arith Permutation.
From Verif Require Import RNum SpatModel WinsSpec.
Import ListNotations.
Local Open Scope R_scope.

(** A row of readings has one entry per station. *)
Definition one_each (row : list (nat * rnum)) : Prop := NoDup (map fst row).
(** the entry of the station is a number *)
Definition reports (row : list (nat * rnum)) (s : nat) : bool :=
  existsb (fun e => Nat.eqb (fst e) s && match snd e with Some _ => true | None => false end) row.
(** [r]: the places (or elevations) and readings of those of the stations [ss] that report, in their order *)
Inductive listed {A : Type} (xy : nat -> A) (row : list (nat * rnum)) : list nat -> list (A * R) -> Prop :=
| listed_nil : listed xy row [] []
| listed_number s x ss r : In (s, Some x) row -> listed xy row ss r -> listed xy row (s :: ss) ((xy s, x) :: r)
| listed_missing s ss r : In (s, None) row -> listed xy row ss r -> listed xy row (s :: ss) r.
(** a number of a grid within limits: NaN, or a real between them; infinite only without a limit on that side *)
Definition within (lo hi : option R) (x : fl) : Prop :=
  match x with
  | F a => at_least lo a /\ at_most hi a
  | PInf => hi = None
  | MInf => lo = None
  | Nan => True
  end.
(** what becomes of a number when limits are imposed *)
Definition cut (lo hi : option R) (x y : fl) : Prop :=
  match x with
  | F a => exists b, y = F b /\ limited lo hi a b
  | PInf => y = match hi with Some h => F h | None => PInf end
  | MInf => y = match lo with Some l => F l | None => MInf end
  | Nan => y = Nan
  end.
