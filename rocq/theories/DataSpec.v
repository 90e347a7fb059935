(** Small specifications for the data-handling properties. *)
From Coq Require Import List Arith QArith Qcanon.
From Verif Require Import Num DataModel.
Import ListNotations.
Local Open Scope Qc_scope.

(** ** bounds, [None] is no bound *)
Definition at_least (lo : option Qc) (x : Qc) : Prop := forall l, lo = Some l -> l <= x.
Definition at_most (hi : option Qc) (x : Qc) : Prop := forall h, hi = Some h -> x <= h.
Definition consistent (lo hi : option Qc) : Prop := forall l h, lo = Some l -> hi = Some h -> l <= h.

(** ** distance along one axis *)
Definition dist1 (a b d : Qc) : Prop := (b <= a /\ d = a - b) \/ (a <= b /\ d = b - a).

(** ** stations of a pixel, in table order *)
Inductive on_pixel {A} (x y : nat) : list (A * (nat * nat)) -> list A -> Prop :=
| op_nil : on_pixel x y [] []
| op_here s m l : on_pixel x y m l -> on_pixel x y ((s, (x, y)) :: m) (s :: l)
| op_skip s p m l : p <> (x, y) -> on_pixel x y m l -> on_pixel x y ((s, p) :: m) l.

(** ** topo images in the order they are read *)
Definition pos (v : image) : nat :=
  match v with Dem => 0 | Mask => 1 | VegType => 2 | VegHeight => 3 | VegK => 4 | VegTau => 5 end.
(** [w] is the last image at or before [v] that the file has *)
Definition last_present {A} (file : image -> option A) (v w : image) : Prop :=
  file w <> None /\ (pos w <= pos v)%nat /\
  forall u, (pos w < pos u)%nat -> (pos u <= pos v)%nat -> file u = None.

(** ** columns of a table that are in a list *)
Definition keep {A} (st : list nat) (t : table A) : table A :=
  filter (fun c => if in_dec Nat.eq_dec (fst c) st then true else false) t.
Definition columns {A} (t : option (table A)) : list nat :=
  match t with Some t => map fst t | None => [] end.

(** ** the last number of a series with gaps *)
Inductive last_number : list num -> Qc -> Prop :=
| ln_here l v : (forall x, In x l -> x = None) -> last_number (Some v :: l) v
| ln_later l x v : last_number l v -> last_number (x :: l) v.

(** running total of the first [n] entries *)
Fixpoint total (n : nat) (f : nat -> num) : num :=
  match n with O => Some 0 | S n' => nadd (total n' f) (f n') end.

(** affine function of a point *)
Definition affine (a b c : Qc) (p : pt) : Qc := a * fst p + b * snd p + c.

(** the simplex' affine map: [T] is the inverse of the matrix of the edge vectors v0 - r, v1 - r *)
Definition inverse_edges (s : simplex) (v0 v1 : pt) : Prop :=
  let e0 := (fst v0 - fst (sx_r s), snd v0 - snd (sx_r s)) in
  let e1 := (fst v1 - fst (sx_r s), snd v1 - snd (sx_r s)) in
  fst e0 * fst (sx_t0 s) + fst e1 * fst (sx_t1 s) = 1 /\
  fst e0 * snd (sx_t0 s) + fst e1 * snd (sx_t1 s) = 0 /\
  snd e0 * fst (sx_t0 s) + snd e1 * fst (sx_t1 s) = 0 /\
  snd e0 * snd (sx_t0 s) + snd e1 * snd (sx_t1 s) = 1.


(** images are converted to float, the vegetation type to integer *)
Definition conv {A} (to_int to_float : A -> A) (w : image) (a : A) : A :=
  match w with VegType => to_int a | _ => to_float a end.

(** what one variable's table becomes under a station list *)
Definition filtered {A} (st : option (list nat)) (t : option (table A)) : option (table A) :=
  match st with
  | None => t
  | Some st => Some (keep st (match t with Some t => t | None => [] end))
  end.

