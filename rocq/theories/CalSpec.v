(** The civil calendar, as a specification of the dates of filter expressions
    (C92): leap years, the lengths of the months, and the day that follows a
    day. *)
From Verif Require Import Base.

Definition leap (y : Z) : bool := (y mod 4 =? 0) && (negb (y mod 100 =? 0) || (y mod 400 =? 0)).
(** 30 days hath September ... *)
Definition month_days (y m : Z) : Z :=
  if m =? 2 then (if leap y then 29 else 28)
  else if (m =? 4) || (m =? 6) || (m =? 9) || (m =? 11) then 30 else 31.

(** Year, month and day of the month. *)
Definition date : Type := Z * Z * Z.
Definition valid_date (x : date) : Prop :=
  let '(y, m, d) := x in 1 <= m <= 12 /\ 1 <= d <= month_days y m.
Definition next_day (x : date) : date :=
  let '(y, m, d) := x in
  if d <? month_days y m then (y, m, d + 1)
  else if m <? 12 then (y, m + 1, 1)
  else (y + 1, 1, 1).

(** [on_day n x]: the day [n] days after 1970-01-01 is dated [x]. *)
Inductive on_day : Z -> date -> Prop :=
| epoch : on_day 0 (1970, 1, 1)
| tomorrow n x : on_day n x -> on_day (n + 1) (next_day x)
| yesterday n x : valid_date x -> on_day (n + 1) (next_day x) -> on_day n x.

(** The days of the week, Sunday 1 to Saturday 7: 1970-01-01 was a Thursday. *)
Definition day_of_week (n w : Z) : Prop := 1 <= w <= 7 /\ (n + 5 - w) mod 7 = 0.
(** [week_of_year n w]: of the weeks from Monday to Sunday, the one of day [n]
    is the [w]-th of its year, where a week belongs to the year of its Thursday. *)
Definition week_of_year (n w : Z) : Prop :=
  exists thursday y m d jan1,
    day_of_week thursday 5 /\ thursday - 3 <= n <= thursday + 3 /\
    on_day thursday (y, m, d) /\ on_day jan1 (y, 1, 1) /\
    7 * (w - 1) <= thursday - jan1 < 7 * w.
