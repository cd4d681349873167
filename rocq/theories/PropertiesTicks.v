(** Property theorems for sttp/ticks (C01, C02, C03). *)
From Coq Require Import Lia.
From Verif Require Import Base BaseProofs TicksModel TicksSpec TicksProofs.
From Verif Require Import TicksProofs2.

(** C01 *)
Theorem C01_leap_ops_preserve_time : forall (t : Z) (ops : list leap_op),
  is_u64 t ->
  is_u64 (fold_left leap_step ops t) /\
  TimestampValue (fold_left leap_step ops t) = t mod 2 ^ 62.
Proof. exact leap_ops_preserve_time. Qed.
Print Assumptions C01_leap_ops_preserve_time.

(** Reading the marks (methods and package functions) after any history gives
    what the history says: bit 63 "leap", bit 62 "negative". *)
Theorem C01_leap_marks_read_back : forall (t : Z) (ops : list leap_op),
  is_u64 t ->
  let m := fold_left marks_step ops (Z.testbit t 63, Z.testbit t 62) in
  let t' := fold_left leap_step ops t in
  IsLeapSecond t' = fst m /\ IsLeapSecond_fn t' = fst m /\
  IsNegativeLeapSecond t' = (fst m && snd m) /\
  IsNegativeLeapSecond_fn t' = (fst m && snd m).
Proof. exact leap_marks_read_back. Qed.
Print Assumptions C01_leap_marks_read_back.

Example C01_nonvacuous :
  is_u64 637500000000000000 /\
  IsNegativeLeapSecond
    (fold_left leap_step [OpSetNegativeLeapSecond; OpSetDirection false; OpSetDirection true]
               637500000000000000) = true /\
  IsNegativeLeapSecond
    (fold_left leap_step [OpSetNegativeLeapSecond; OpSetDirection false]
               637500000000000000) = false.
Proof. vm_compute. repeat split; discriminate. Qed.

(** C02 *)
Theorem C02_unix_round_trip : forall ns : Z,
  is_u64 ns -> ToUnixNano (FromUnixNano ns) = ns - ns mod 100.
Proof. exact ToUnixNano_FromUnixNano. Qed.
Print Assumptions C02_unix_round_trip.

Theorem C02_count_since_year1 : forall ns : Z,
  is_u64 ns -> FromUnixNano ns = intervals_since_year1 ns.
Proof. exact FromUnixNano_count. Qed.
Print Assumptions C02_count_since_year1.

Theorem C02_order_preserved : forall ns1 ns2 : Z,
  is_u64 ns1 -> is_u64 ns2 -> ns1 <= ns2 -> FromUnixNano ns1 <= FromUnixNano ns2.
Proof. exact FromUnixNano_mono. Qed.
Print Assumptions C02_order_preserved.

(** From Ticks to time and back, whatever the flag bits (bits 62, 63 of [t]). *)
Theorem C02_ticks_round_trip : forall t : Z,
  is_u64 t ->
  epoch_ticks <= t mod 2 ^ 62 ->
  (t mod 2 ^ 62 - epoch_ticks) * 100 < 2 ^ 63 ->
  ToUnixNano t = (t mod 2 ^ 62 - epoch_ticks) * 100 /\
  ToTime t = (t mod 2 ^ 62 - epoch_ticks) * 100 /\
  FromUnixNano (ToUnixNano t) = TimestampValue t /\
  FromTime (ToTime t) = TimestampValue t.
Proof. exact ticks_round_trip. Qed.
Print Assumptions C02_ticks_round_trip.

Example C02_nonvacuous :
  let t := SetNegativeLeapSecond 637500000000000001 in
  is_u64 t /\ epoch_ticks <= t mod 2 ^ 62 /\ (t mod 2 ^ 62 - epoch_ticks) * 100 < 2 ^ 63.
Proof. vm_compute. repeat split; discriminate. Qed.

(** C03: FromTime is correct exactly for instants from 1970 on. *)
Theorem C03_FromTime_correct_iff_not_before_epoch : forall ns : Z,
  is_i64 ns -> (FromTime ns = intervals_since_year1 ns <-> 0 <= ns).
Proof. exact FromTime_iff. Qed.
Print Assumptions C03_FromTime_correct_iff_not_before_epoch.

Theorem C03_FromTime_ToTime_partial : forall ns : Z,
  is_i64 ns -> 0 <= ns -> ToTime (FromTime ns) = ns - ns mod 100.
Proof. exact FromTime_ToTime_nonneg. Qed.
Print Assumptions C03_FromTime_ToTime_partial.

(** Refutation of the full property: one second before 1970 maps to a tick
    value later than 1970 and does not convert back. *)
Theorem C03_FromTime_refuted : exists ns : Z,
  is_i64 ns /\ FromTime ns <> intervals_since_year1 ns /\
  FromTime ns > FromTime 0 /\ ns < 0 /\ ToTime (FromTime ns) <> ns - ns mod 100.
Proof. exact FromTime_refuted. Qed.
Print Assumptions C03_FromTime_refuted.
