(** Real-number helpers shared by the physics models: boolean comparisons, missing
    values, masked array updates.  Numbers are the standard library's reals. *)
From Coq Require Import Reals List Bool Lra Lia.
Import ListNotations.
Local Open Scope R_scope.

Definition rltb (x y : R) : bool := if Rlt_dec x y then true else false.
Definition rleb (x y : R) : bool := if Rle_dec x y then true else false.
Definition reqb (x y : R) : bool := if Req_EM_T x y then true else false.
Lemma rltb_spec x y : reflect (x < y) (rltb x y).
Proof. unfold rltb. destruct (Rlt_dec x y); constructor; assumption. Qed.
Lemma rleb_spec x y : reflect (x <= y) (rleb x y).
Proof. unfold rleb. destruct (Rle_dec x y); constructor; assumption. Qed.
Lemma reqb_spec x y : reflect (x = y) (reqb x y).
Proof. unfold reqb. destruct (Req_EM_T x y); constructor; assumption. Qed.

(** split every boolean comparison in the goal *)
Ltac rcase :=
  repeat match goal with
  | |- context [rltb ?x ?y] => destruct (rltb_spec x y)
  | |- context [rleb ?x ?y] => destruct (rleb_spec x y)
  | |- context [reqb ?x ?y] => destruct (reqb_spec x y)
  end; cbn [andb orb negb].

(** the same, dropping impossible cases at once *)
Ltac rcasep :=
  repeat match goal with
  | |- context [rltb ?x ?y] => destruct (rltb_spec x y); try (exfalso; lra)
  | |- context [rleb ?x ?y] => destruct (rleb_spec x y); try (exfalso; lra)
  | |- context [reqb ?x ?y] => destruct (reqb_spec x y); try (exfalso; lra)
  end; cbn [andb orb negb].

(** A grid value, [None] is NaN; arithmetic propagates NaN, comparisons with NaN are false. *)
Notation rnum := (option R).
Definition rlift (f : R -> R) (a : rnum) : rnum := option_map f a.
Definition rlift2 (f : R -> R -> R) (a b : rnum) : rnum :=
  match a, b with Some x, Some y => Some (f x y) | _, _ => None end.
Definition ncmp (c : R -> R -> bool) (a b : rnum) : bool :=
  match a, b with Some x, Some y => c x y | _, _ => false end.

Fixpoint map2 {A B C} (f : A -> B -> C) (a : list A) (b : list B) : list C :=
  match a, b with x :: a', y :: b' => f x y :: map2 f a' b' | _, _ => [] end.
Fixpoint map3 {A B C D} (f : A -> B -> C -> D) (a : list A) (b : list B) (c : list C) : list D :=
  match a, b, c with
  | x :: a', y :: b', z :: c' => f x y z :: map3 f a' b' c'
  | _, _, _ => []
  end.

(** numpy [a[mask] = v[mask]] *)
Definition masked {A} (mask : list bool) (v a : list A) : list A :=
  map3 (fun m x y => if m : bool then x else y) mask v a.

Lemma map2_length {A B C} (f : A -> B -> C) a b : length (map2 f a b) = Nat.min (length a) (length b).
Proof. revert b; induction a as [|x a IH]; intros [|y b]; simpl; auto. Qed.
Lemma map3_length {A B C D} (f : A -> B -> C -> D) a b c :
  length (map3 f a b c) = Nat.min (length a) (Nat.min (length b) (length c)).
Proof. revert b c; induction a as [|x a IH]; intros [|y b] [|z c]; simpl; auto. Qed.
Lemma map2_nth {A B C} (f : A -> B -> C) a b i da db dc :
  (i < length a)%nat -> (i < length b)%nat -> nth i (map2 f a b) dc = f (nth i a da) (nth i b db).
Proof.
  revert b i; induction a as [|x a IH]; intros [|y b] [|i]; simpl; intros; try lia; auto.
  apply IH; lia.
Qed.
Lemma map3_nth {A B C D} (f : A -> B -> C -> D) a b c i da db dc dd :
  (i < length a)%nat -> (i < length b)%nat -> (i < length c)%nat ->
  nth i (map3 f a b c) dd = f (nth i a da) (nth i b db) (nth i c dc).
Proof.
  revert b c i; induction a as [|x a IH]; intros [|y b] [|z c] [|i]; simpl; intros; try lia; auto.
  apply IH; lia.
Qed.
Lemma masked_length {A} m (v a : list A) :
  length v = length m -> length a = length m -> length (masked m v a) = length m.
Proof. intros. unfold masked. rewrite map3_length. lia. Qed.
Lemma masked_nth {A} m (v a : list A) i d :
  (i < length m)%nat -> (i < length v)%nat -> (i < length a)%nat ->
  nth i (masked m v a) d = if nth i m false then nth i v d else nth i a d.
Proof. intros. unfold masked. rewrite (map3_nth _ _ _ _ _ false d d d) by assumption. reflexivity. Qed.
