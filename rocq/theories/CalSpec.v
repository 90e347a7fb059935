(** The Gregorian calendar, stated without reference to the model: which years are leap,
    how long months are, what the day after a date is, and counting by whole days. *)
From Coq Require Import ZArith.
Local Open Scope Z_scope.

Definition leap (y : Z) : Prop := ((4 | y) /\ ~ (100 | y)) \/ (400 | y).

(** Lengths of the months ("thirty days hath September ..."). *)
Inductive month_has : Z -> Z -> Z -> Prop :=
| mh31 y m : m = 1 \/ m = 3 \/ m = 5 \/ m = 7 \/ m = 8 \/ m = 10 \/ m = 12 -> month_has y m 31
| mh30 y m : m = 4 \/ m = 6 \/ m = 9 \/ m = 11 -> month_has y m 30
| mh28 y : ~ leap y -> month_has y 2 28
| mh29 y : leap y -> month_has y 2 29.

Record date := mkD { yr : Z; mo : Z; dy : Z }.

Definition real_date (a : date) : Prop :=
  exists n, month_has (yr a) (mo a) n /\ 1 <= dy a <= n.

(** the day after *)
Inductive tomorrow : date -> date -> Prop :=
| tm_day y m d n : month_has y m n -> 1 <= d < n -> tomorrow (mkD y m d) (mkD y m (d + 1))
| tm_month y m n : month_has y m n -> 1 <= m < 12 -> tomorrow (mkD y m n) (mkD y (m + 1) 1)
| tm_year y : tomorrow (mkD y 12 31) (mkD (y + 1) 1 1).

(** [days_later a n b]: b is n days after a *)
Inductive days_later (a : date) : Z -> date -> Prop :=
| dl_same : days_later a 0 a
| dl_next n b c : days_later a n b -> tomorrow b c -> days_later a (n + 1) c.
