(** What the property about options for vegetation classes and stations talks about. *)
From Coq Require Import Ascii String Reals List ZArith.
From Verif Require Import RNum PptModel OptModel.
Import ListNotations.
Local Open Scope string_scope.

(** the text [s] has [sub] in it *)
Definition mentions (sub s : string) : Prop := exists a b, s = a ++ sub ++ b.
(** a text without underscore *)
Fixpoint word (s : string) : Prop :=
  match s with EmptyString => True | String a s' => a <> "_"%char /\ word s' end.
(** [k] is what follows the last underscore of [s] *)
Definition ends_in (s k : string) : Prop := word k /\ exists a, s = a ++ "_" ++ k.
(** options of a section: no name twice *)
Definition section {A} (opts : list (string * A)) : Prop := NoDup (map fst opts).
(** a table says [x] for [k] *)
Definition says (t : list (string * R)) (k : string) (x : R) : Prop := In (k, x) t /\ NoDup (map fst t).

(** the entry of an option that counts: the only one or the first one *)
Definition entry {E} (v : value E) (e : E) : Prop := v = One e \/ exists r, v = Many (e :: r).
(** [t] is [s] in lower case *)
Fixpoint lowered (s t : string) : Prop :=
  match s, t with
  | EmptyString, EmptyString => True
  | String a s', String b t' =>
      let n := nat_of_ascii a in
      (65 <= n <= 90 -> nat_of_ascii b = n + 32) /\ (~ 65 <= n <= 90 -> b = a) /\ lowered s' t'
  | _, _ => False
  end.
