(** Model of sttp/ticks/Ticks.go.  A Ticks value is a uint64, i.e. a [Z] with
    [is_u64].  time.Time is represented by its UnixNano (int64 nanoseconds since
    the Unix epoch); formatting is in StampModel. *)
From Verif Require Import Base.

(** Ticks.go:64 *)
Definition LeapSecondFlag : Z := 2 ^ 63.
(** Ticks.go:67 *)
Definition LeapSecondDirection : Z := 2 ^ 62.
(** Ticks.go:70  ^LeapSecondFlag & ^LeapSecondDirection on 64 bits *)
Definition ValueMask : Z :=
  Z.land (Z.lxor (2 ^ 64 - 1) LeapSecondFlag) (Z.lxor (2 ^ 64 - 1) LeapSecondDirection).
(** Ticks.go:73 *)
Definition UnixBaseOffset : Z := 621355968000000000.

(** Ticks.go:83-85; int64 of a 62-bit value is the value itself, written as the
    conversion. *)
Definition TimestampValue (t : Z) : Z := i64 (Z.land t ValueMask).

(** Ticks.go:88-90 and the method 143-145.  The argument of time.Unix(0, n) is
    the UnixNano of the resulting time.  int64 multiplication wraps. *)
Definition ToTime (t : Z) : Z :=
  i64 (i64 (Z.land (u64 (t - UnixBaseOffset)) ValueMask) * 100).

(** Ticks.go:93-95 *)
Definition FromUnixNano (ns : Z) : Z := u64 (ns / 100 + UnixBaseOffset).

(** Ticks.go:98-100; [ns] is the int64 returned by time.UnixNano. *)
Definition FromTime (ns : Z) : Z := FromUnixNano (u64 ns).

(** Ticks.go:148-150 *)
Definition ToUnixNano (t : Z) : Z :=
  u64 (u64 (Z.land t ValueMask - UnixBaseOffset) * 100).

(** Ticks.go:103-105 (function, "> 0" on an unsigned word) *)
Definition IsLeapSecond_fn (t : Z) : bool := 0 <? Z.land t LeapSecondFlag.
(** Ticks.go:162-164 (method, "!= 0") *)
Definition IsLeapSecond (t : Z) : bool := negb (Z.land t LeapSecondFlag =? 0).
(** Ticks.go:118-120 (function) *)
Definition IsNegativeLeapSecond_fn (t : Z) : bool :=
  IsLeapSecond_fn t && (0 <? Z.land t LeapSecondDirection).
(** Ticks.go:178-180 (method) *)
Definition IsNegativeLeapSecond (t : Z) : bool :=
  IsLeapSecond t && negb (Z.land t LeapSecondDirection =? 0).
(** Ticks.go:108-110, 113-115, 166-168 *)
Definition SetLeapSecond (t : Z) : Z := Z.lor t LeapSecondFlag.
(** Ticks.go:123-125, 128-130 *)
Definition SetNegativeLeapSecond (t : Z) : Z :=
  Z.lor (Z.lor t LeapSecondFlag) LeapSecondDirection.
(** Ticks.go:170-176; [&= ^LeapSecondDirection] on 64 bits *)
Definition SetLeapSecondDirection (negative : bool) (t : Z) : Z :=
  if negative then Z.lor t LeapSecondDirection
  else Z.land t (Z.lxor (2 ^ 64 - 1) LeapSecondDirection).

(** The leap-second operations a caller can apply to a Ticks variable. *)
Inductive leap_op : Type :=
| OpSetLeapSecond
| OpSetNegativeLeapSecond
| OpSetDirection (negative : bool).

Definition leap_step (t : Z) (o : leap_op) : Z :=
  match o with
  | OpSetLeapSecond => SetLeapSecond t
  | OpSetNegativeLeapSecond => SetNegativeLeapSecond t
  | OpSetDirection n => SetLeapSecondDirection n t
  end.
