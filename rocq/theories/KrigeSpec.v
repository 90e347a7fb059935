(** Vocabulary for the kriging properties. *)
From Coq Require Import List Arith QArith Qcanon.
Import ListNotations.
Local Open Scope Qc_scope.

(** sum of f lo, ..., f (lo + cnt - 1) *)
Fixpoint sumr (lo cnt : nat) (f : nat -> Qc) : Qc :=
  match cnt with
  | O => 0
  | S c => f lo + sumr (S lo) c f
  end.
Definition sum (n : nat) (f : nat -> Qc) : Qc := sumr 0 n f.
(** sum over a list of indices *)
Definition sum_over (l : list nat) (f : nat -> Qc) : Qc := fold_right (fun i s => f i + s) 0 l.

(** x solves the n equations M x = b *)
Definition solves (n : nat) (M : nat -> nat -> Qc) (b x : nat -> Qc) : Prop :=
  forall i, (i < n)%nat -> sum n (fun c => M i c * x c) = b i.

(** every right-hand side has exactly one solution *)
Definition nonsingular (n : nat) (M : nat -> nat -> Qc) : Prop :=
  forall b, (exists x, solves n M b x) /\
            (forall x y, solves n M b x -> solves n M b y -> forall i, (i < n)%nat -> x i = y i).

(** w is a set of ordinary kriging weights for the stations K and a cell at distances d:
    the weights sum to one and, with some multiplier mu, satisfy the kriging equations *)
Definition kriging_weights (ad : nat -> nat -> Qc) (d : nat -> Qc) (K : list nat) (w : nat -> Qc) : Prop :=
  sum_over K w = 1 /\
  exists mu, forall m, In m K -> sum_over K (fun n => ad m n * w n) + mu = d m.

(** the kriging equations of the stations K with the multiplier as last unknown *)
Definition kriging_system (ad : nat -> nat -> Qc) (K : list nat) : nat -> nat -> Qc :=
  fun r c => if Nat.ltb r (length K)
             then if Nat.ltb c (length K) then ad (nth r K 0%nat) (nth c K 0%nat) else 1
             else if Nat.ltb c (length K) then 1 else 0.

(** m is the station to give up: negative weight, above elevation zero, and no station with a
    negative weight is higher (of equally high ones, the first) *)
Definition worst (elev : nat -> Qc) (K : list nat) (w : nat -> Qc) (m : nat) : Prop :=
  In m K /\ w m < 0 /\ 0 < elev m /\
  forall p, In p K -> w p < 0 -> elev p < elev m \/ (elev p = elev m /\ (m <= p)%nat).

(** the station sets reached by giving up stations one at a time *)
Inductive gives_up (ad : nat -> nat -> Qc) (d elev : nat -> Qc) : list nat -> list nat -> Prop :=
| keep_all K : gives_up ad d elev K K
| give_up_one K w m K' :
    nonsingular (S (length K)) (kriging_system ad K) ->
    kriging_weights ad d K w -> worst elev K w m ->
    gives_up ad d elev (remove Nat.eq_dec m K) K' -> gives_up ad d elev K K'.

Definition colocated (nsta : nat) (ad : nat -> nat -> Qc) (i j : nat) : Prop :=
  (i < nsta)%nat /\ (j < nsta)%nat /\ i <> j /\ forall n, (n < nsta)%nat -> ad i n = ad j n.
