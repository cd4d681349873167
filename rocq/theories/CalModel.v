(** The proleptic Gregorian calendar and the operations of package [time] that
    /repo/sttp/data/ExpressionTree.go uses on dates.  A [time.Time] is the
    number of nanoseconds since 1970-01-01T00:00:00Z, an unbounded integer;
    the location of a time is not modelled (every time is in UTC).  These are
    standard-library functions; no function of /repo is modelled in this file. *)
From Verif Require Import Base.

Definition ns_per_second : Z := 1000000000.
Definition ns_per_day : Z := 86400 * ns_per_second.

(** The zero time.Time, 0001-01-01T00:00:00Z. *)
Definition zero_time : Z := -62135596800 * ns_per_second.

(** Days from 1970-01-01 to the given day; [m] in 1..12, [d] any integer. *)
Definition days_of_date (y m d : Z) : Z :=
  let y' := if m <=? 2 then y - 1 else y in
  let yoe := y' mod 400 in
  let doy := (153 * ((m + 9) mod 12) + 2) / 5 + d - 1 in
  (y' / 400) * 146097 + (yoe * 365 + yoe / 4 - yoe / 100 + doy) - 719468.

(** Year, month and day of a day number. *)
Definition date_of_days (n : Z) : Z * Z * Z :=
  let z := n + 719468 in
  let era := z / 146097 in
  let doe := z mod 146097 in
  let yoe := (doe - doe / 1460 + doe / 36524 - doe / 146096) / 365 in
  let doy := doe - (365 * yoe + yoe / 4 - yoe / 100) in
  let mp := (5 * doy + 2) / 153 in
  let d := doy - (153 * mp + 2) / 5 + 1 in
  let m := if mp <? 10 then mp + 3 else mp - 9 in
  (yoe + era * 400 + (if m <=? 2 then 1 else 0), m, d).

Definition day_number (t : Z) : Z := t / ns_per_day.
Definition ns_of_day (t : Z) : Z := t mod ns_per_day.

Definition Year (t : Z) : Z := let '(y, _, _) := date_of_days (day_number t) in y.
Definition Month (t : Z) : Z := let '(_, m, _) := date_of_days (day_number t) in m.
Definition Day (t : Z) : Z := let '(_, _, d) := date_of_days (day_number t) in d.
Definition YearDay (t : Z) : Z := day_number t - days_of_date (Year t) 1 1 + 1.
(** time.Weekday: Sunday is 0. *)
Definition Weekday (t : Z) : Z := (day_number t + 4) mod 7.
(** Week number of Time.ISOWeek: the week of the Thursday of the same Monday-based week. *)
Definition ISOWeek (t : Z) : Z :=
  let thursday := day_number t + 3 - (Weekday t + 6) mod 7 in
  let '(y, _, _) := date_of_days thursday in
  (thursday - days_of_date y 1 1) / 7 + 1.
Definition Hour (t : Z) : Z := ns_of_day t / (3600 * ns_per_second).
Definition Minute (t : Z) : Z := (ns_of_day t / (60 * ns_per_second)) mod 60.
Definition Second (t : Z) : Z := (ns_of_day t / ns_per_second) mod 60.
Definition Nanosecond (t : Z) : Z := ns_of_day t mod ns_per_second.

(** Time.Unix *)
Definition Unix (t : Z) : Z := t / ns_per_second.

(** Time.AddDate: the month is normalised to 1..12, then the day is added as a
    count of days. *)
Definition AddDate (t years months days : Z) : Z :=
  let '(y, m, d) := date_of_days (day_number t) in
  let m0 := m - 1 + months in
  days_of_date (y + years + m0 / 12) (m0 mod 12 + 1) (d + days) * ns_per_day + ns_of_day t.

(** Time.Sub: the difference, saturated to an int64 duration. *)
Definition time_Sub (t u : Z) : Z :=
  let d := t - u in
  if d <? - 2 ^ 63 then - 2 ^ 63 else if 2 ^ 63 - 1 <? d then 2 ^ 63 - 1 else d.
