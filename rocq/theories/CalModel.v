(** Model of the calendar helpers: smrf/envphys/sunang.py 400-473 (yearday, numdays,
    leapyear), smrf/utils/utils.py 164-202 (water_day, is_leap_year) and the day number
    used by the solar ephemeris, sunang.py 176-177.

    Years, months and days are integers.  [None] is a failed assertion or a ValueError
    raised by [datetime]. *)
From Coq Require Import ZArith List Bool QArith.
Import ListNotations.
Local Open Scope Z_scope.

(** utils.py 201-202; python's [%] on integers is Coq's [mod] (floor). *)
Definition is_leap_year (year : Z) : bool :=
  ((year mod 4 =? 0) && negb (year mod 100 =? 0)) || (year mod 400 =? 0).

(** sunang.py 455-473 *)
Definition leapyear (year : Z) : option bool :=
  if 0 <=? year then
    Some (if ((year mod 4 =? 0) && negb (year mod 100 =? 0)) || (year mod 400 =? 0)
          then true else false)
  else None.

(** sunang.py 441 *)
Definition NDAYS : list Z := [31; 28; 31; 30; 31; 30; 31; 31; 30; 31; 30; 31].

(** sunang.py 428-452 *)
Definition numdays (year month : Z) : option Z :=
  if (0 <=? year) && ((1 <=? month) && (month <=? 12)) then
    let ndays := nth (Z.to_nat (month - 1)) NDAYS 0 in
    if month =? 2 then
      match leapyear year with
      | None => None
      | Some true => Some (ndays + 1)
      | Some false => Some ndays
      end
    else Some ndays
  else None.

(** sunang.py 422-423: [for mon in range(month-1, 0, -1): yday += numdays(year, mon)];
    [k] is the current value of [mon]. *)
Fixpoint add_months (year : Z) (k : nat) (yday : Z) : option Z :=
  match k with
  | O => Some yday
  | S k' => match numdays year (Z.of_nat k) with
            | None => None
            | Some n => add_months year k' (yday + n)
            end
  end.

(** sunang.py 400-425 *)
Definition yearday (year month day : Z) : option Z :=
  if (0 <=? year) && ((1 <=? month) && (month <=? 12)) then
    match numdays year month with
    | None => None
    | Some n => if (1 <=? day) && (day <=? n)
                then add_months year (Z.to_nat (month - 1)) day else None
    end
  else None.

(** sunang.py 176-177 without the final [- 0.5]: python's [int] truncates toward zero.
    The division by 100 is a float division in the source; its argument is below 2^53 and
    the truncated quotient is exact for every year the calendar supports. *)
Definition ephemeris_day (year month day : Z) : option Z :=
  match yearday year month day with
  | None => None
  | Some n => Some (Z.quot ((year - 1900) * 36525 - 25) 100 + n)
  end.

(** ** python's datetime (standard library, modelled from its documentation) *)

(** A UTC datetime.  [d_us] is the microsecond field. *)
Record dtime := mkDt { d_year : Z; d_month : Z; d_day : Z; d_sec : Z; d_us : Z }.

(** [datetime(y, m, d, 0, 0, 0)]: ValueError outside years 1..9999 *)
Definition midnight (y m d : Z) : option dtime :=
  if (1 <=? y) && (y <=? 9999) then Some (mkDt y m d 0 0) else None.

(** Proleptic Gregorian ordinal of a date ([date.toordinal]). *)
Definition days_before_year (y : Z) : Z :=
  (y - 1) * 365 + (y - 1) / 4 - (y - 1) / 100 + (y - 1) / 400.
Definition before_month (leap : bool) (m : Z) : Z :=
  nth (Z.to_nat (m - 1)) [0; 31; 59; 90; 120; 151; 181; 212; 243; 273; 304; 334] 0
  + (if leap && (2 <? m) then 1 else 0).
Definition ordinal (y m d : Z) : Z := days_before_year y + before_month (is_leap_year y) m + d.

Definition usecs (t : dtime) : Z :=
  (ordinal (d_year t) (d_month t) (d_day t) * 86400 + d_sec t) * 1000000 + d_us t.

(** A timedelta normalises to days and seconds in [0, 86400). *)
Definition td_days (d : Z) : Z := d / (86400 * 1000000).
Definition td_seconds (d : Z) : Z := (d mod (86400 * 1000000)) / 1000000.

(** ** water_day, utils.py 164-198, for a UTC date (both datetimes carry the same zone, so
    comparison and difference are those of the naive values). *)
Definition water_day (indate : dtime) : option (Q * Z) :=
  match midnight (d_year indate) 10 1 with
  | None => None
  | Some test_date =>
      let wy := if usecs indate <? usecs test_date then d_year indate else d_year indate + 1 in
      match midnight (wy - 1) 10 1 with
      | None => None
      | Some wy_start =>
          let d := usecs indate - usecs wy_start in
          Some ((inject_Z (td_days d) + (td_seconds d # 86400))%Q, wy)
      end
  end.
