(** Calendar properties C21, C22, C58. *)
From Coq Require Import ZArith QArith.
From Verif Require Import CalModel CalSpec CalProofs.
Local Open Scope Z_scope.

(** C21: both leap-year helpers are the Gregorian rule (sunang's one rejects negative years). *)
Theorem C21_leap_year y :
  (is_leap_year y = true <-> leap y) /\
  (0 <= y -> leapyear y = Some (is_leap_year y)) /\ (y < 0 -> leapyear y = None).
Proof. exact (leap_helpers y). Qed.
Print Assumptions C21_leap_year.

Theorem C21_numdays y m n : numdays y m = Some n <-> 0 <= y /\ month_has y m n.
Proof. exact (numdays_month y m n). Qed.
Print Assumptions C21_numdays.

(** yearday is defined exactly on real dates and counts days from January 1 (day 1). *)
Theorem C21_yearday_defined y m d :
  (exists n, yearday y m d = Some n) <-> 0 <= y /\ real_date (mkD y m d).
Proof. exact (yearday_defined y m d). Qed.
Print Assumptions C21_yearday_defined.

Theorem C21_yearday_counts y m d n : 0 <= y -> real_date (mkD y m d) ->
  (yearday y m d = Some n <-> days_later (mkD y 1 1) (n - 1) (mkD y m d)).
Proof. exact (yearday_counts y m d n). Qed.
Print Assumptions C21_yearday_counts.

Theorem C21_yearday_next y m d m' d' n : yearday y m d = Some n ->
  tomorrow (mkD y m d) (mkD y m' d') -> yearday y m' d' = Some (n + 1).
Proof. exact (yearday_next y m d m' d' n). Qed.
Print Assumptions C21_yearday_next.

Theorem C21_yearday_ends y : 0 <= y ->
  yearday y 1 1 = Some 1 /\ (leap y -> yearday y 12 31 = Some 366) /\
  (~ leap y -> yearday y 12 31 = Some 365).
Proof. exact (yearday_ends y). Qed.
Print Assumptions C21_yearday_ends.

Theorem C21_yearday_range y m d n : yearday y m d = Some n ->
  (leap y -> 1 <= n <= 366) /\ (~ leap y -> 1 <= n <= 365).
Proof. exact (yearday_span y m d n). Qed.
Print Assumptions C21_yearday_range.

Theorem C21_yearday_onto y n : 0 <= y -> (1 <= n <= 365 \/ leap y /\ n = 366) ->
  exists m d, yearday y m d = Some n.
Proof. exact (yearday_onto y n). Qed.
Print Assumptions C21_yearday_onto.

Example C21_ex : yearday 2000 3 1 = Some 61 /\ yearday 1900 3 1 = Some 60 /\ yearday 2019 2 29 = None.
Proof. repeat split. Qed.
Example C21_ex_date : real_date (mkD 2000 2 29) /\ tomorrow (mkD 2000 2 29) (mkD 2000 3 1).
Proof.
  split.
  - apply real_date_len. vm_compute. repeat split; discriminate.
  - apply (tm_month 2000 2 29); [apply mh29; right; exists 5; reflexivity|]. split; [discriminate|reflexivity].
Qed.

(** C22: the decimal day is the number of whole days since the preceding October 1, plus
    the fraction of the day; microseconds are dropped. *)
Theorem C22_water_day t : real_date (mkD (d_year t) (d_month t) (d_day t)) ->
  0 <= d_sec t < 86400 -> 0 <= d_us t < 1000000 ->
  (1 < d_year t <= 9999 \/ d_year t = 1 /\ 10 <= d_month t) ->
  exists n wy, water_day t = Some ((inject_Z n + (d_sec t # 86400))%Q, wy) /\
    days_later (mkD (wy - 1) 10 1) n (mkD (d_year t) (d_month t) (d_day t)) /\
    0 <= n < 366 /\ (~ leap wy -> n < 365) /\
    (d_month t < 10 -> wy = d_year t) /\ (10 <= d_month t -> wy = d_year t + 1).
Proof. exact (water_day_correct t). Qed.
Print Assumptions C22_water_day.

(** One day later the decimal day is one more, except that October 1 restarts at 0 in the
    next water year. *)
Theorem C22_next_day t t' dd wy : water_day t = Some (dd, wy) ->
  0 <= d_sec t < 86400 -> 0 <= d_us t < 1000000 -> 1 <= d_year t -> d_year t' <= 9999 ->
  d_sec t' = d_sec t -> 0 <= d_us t' < 1000000 ->
  tomorrow (mkD (d_year t) (d_month t) (d_day t)) (mkD (d_year t') (d_month t') (d_day t')) ->
  (d_month t' = 10 /\ d_day t' = 1 /\ water_day t' = Some ((0 + (d_sec t # 86400))%Q, wy + 1)) \/
  (~ (d_month t' = 10 /\ d_day t' = 1) /\
   exists dd', water_day t' = Some (dd', wy) /\ (dd' == dd + 1)%Q).
Proof. exact (water_day_next t t' dd wy). Qed.
Print Assumptions C22_next_day.

(** The nine months before the first water year start that [datetime] can represent are rejected. *)
Theorem C22_first_year t : real_date (mkD (d_year t) (d_month t) (d_day t)) ->
  0 <= d_sec t < 86400 -> 0 <= d_us t < 1000000 -> d_year t = 1 -> d_month t < 10 ->
  water_day t = None.
Proof. exact (water_day_first_year t). Qed.
Print Assumptions C22_first_year.

Example C22_ex : option_map (fun p => (Qred (fst p), snd p)) (water_day (mkDt 2019 9 30 43200 7))
                 = Some ((729 # 2)%Q, 2019).
Proof. vm_compute. reflexivity. Qed.
Example C22_ex_restart : option_map (fun p => (Qred (fst p), snd p)) (water_day (mkDt 2019 10 1 0 0))
                 = Some (0%Q, 2020).
Proof. vm_compute. reflexivity. Qed.

(** C58: the day number used by the solar ephemeris counts real days (1900-01-01 is day 1)
    for every date from 1900 to 2100, and is one too large from 2101 to 2200. *)
Theorem C58_ephemeris_day y m d n : 1900 <= y <= 2100 -> real_date (mkD y m d) ->
  days_later (mkD 1900 1 1) n (mkD y m d) -> ephemeris_day y m d = Some (n + 1).
Proof. exact (ephemeris_day_ok y m d n). Qed.
Print Assumptions C58_ephemeris_day.

Theorem C58_ephemeris_day_after_2100 y m d n : 2101 <= y <= 2200 -> real_date (mkD y m d) ->
  days_later (mkD 1900 1 1) n (mkD y m d) -> ephemeris_day y m d = Some (n + 2).
Proof. exact (ephemeris_day_late y m d n). Qed.
Print Assumptions C58_ephemeris_day_after_2100.

(** hence the count is not the calendar's for every date *)
Theorem C58_every_date_refuted :
  exists y m d n, real_date (mkD y m d) /\ days_later (mkD 1900 1 1) n (mkD y m d) /\
    ephemeris_day y m d <> Some (n + 1).
Proof. exact ephemeris_day_wrong. Qed.
Print Assumptions C58_every_date_refuted.

Example C58_ex : ephemeris_day 2000 3 1 = Some 36585 /\ ephemeris_day 2100 12 31 = Some 73414 /\
  ephemeris_day 2101 1 1 = Some 73416.
Proof. repeat split; reflexivity. Qed.
