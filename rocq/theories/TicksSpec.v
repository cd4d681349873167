(** Specification vocabulary for Ticks, independent of the model's helpers.

    A time is 62 bits of 100-nanosecond intervals since year 1; two more bits
    mark a leap second and its direction. *)
From Verif Require Import Base TicksModel.

(** What a caller believes about the leap-second marks after a sequence of
    operations, starting from marks [(leap, negative)]. *)
Definition marks_step (m : bool * bool) (o : leap_op) : bool * bool :=
  match o with
  | OpSetLeapSecond => (true, snd m)
  | OpSetNegativeLeapSecond => (true, true)
  | OpSetDirection d => (fst m, d)
  end.

(** 100-ns intervals between 0001-01-01 and 1970-01-01: 719162 days. *)
Definition epoch_ticks : Z := 719162 * 24 * 60 * 60 * 10000000.

(** The number of whole 100-ns intervals since year 1 of an instant given in
    nanoseconds since 1970 (rounding toward the past). *)
Definition intervals_since_year1 (unix_ns : Z) : Z := (unix_ns + epoch_ticks * 100) / 100.
