(** Specification of the compact measurement wire format, written from the
    protocol: flags byte, 4-byte runtime id, 4-byte value, then a time field. *)
From Verif Require Import Base TicksModel GuidModel CompactModel.

(** The protocol's flag table: (compact bit position, full flag positions). *)
Definition flag_table : list (Z * list Z) :=
  [ (0, [2;3;4;5;6;7]);                                   (* range: over/under, alarms, warnings *)
    (1, [0;1;8;9;10;11;13;14;15]);                        (* data quality *)
    (2, [16;17;18;19;20;21;23]);                          (* time quality *)
    (3, [29;30;31]);                                      (* system issue *)
    (4, [12]);                                            (* calculated value *)
    (5, [22]) ].                                          (* discarded value *)

Definition has_any (w : Z) (positions : list Z) : Prop :=
  exists i, In i positions /\ Z.testbit w i = true.

(** [g] is what remains of the full flags [f] after the compact form: every flag
    of a category is set exactly when [f] had some flag of that category. *)
Definition category_closure (f g : Z) : Prop :=
  forall i, 0 <= i ->
    (Z.testbit g i = true <->
     exists b ps, In (b, ps) flag_table /\ In i ps /\ has_any f ps).

(** Bytes of one measurement. *)
Definition wire (flags runtimeID value : Z) (time : bytes) : bytes :=
  flags :: be_put 4 (u32 runtimeID) ++ be_put 4 value ++ time.

(** Number of time bytes announced by the settings and the flags byte. *)
Definition time_size (incl ms : bool) (flags : Z) : nat :=
  if incl then if Z.testbit flags 6 then (if ms then 2%nat else 4%nat) else 8%nat else 0%nat.

(** Which base offset the flags byte selects. *)
Definition selected_base (bases : Z * Z) (flags : Z) : Z :=
  if Z.testbit flags 7 then snd bases else fst bases.

(** The timestamp a time field denotes. *)
Definition time_of (incl ms : bool) (bases : Z * Z) (flags : Z) (time : bytes) : Z :=
  if incl then
    if Z.testbit flags 6 then
      if 0 <? selected_base bases flags
      then u64 (selected_base bases flags + be_val time * (if ms then 10000 else 1))
      else 0
    else be_val time
  else 0.

(** The publisher: encode a measurement with the layout GetBinaryLength selects. *)
Definition publisher_encode (cfg : cm_config) (runtimeID value timestamp flags timeIndex : Z) : bytes :=
  let '(n, offs) := GetBinaryLength cfg timestamp timeIndex false in
  wire (GetCompactStateFlags flags timeIndex offs) runtimeID value
    (if n =? 11 then be_put 2 (GetTimestampC2 cfg timestamp timeIndex)
     else if n =? 13 then be_put 4 (GetTimestampC4 cfg timestamp timeIndex)
     else if n =? 17 then be_put 8 timestamp
     else []).

(** One measurement handed to the publisher. *)
Record sample : Type := mkSample {
  s_id : Z; s_value : Z; s_flags : Z; s_time : Z; s_timeIndex : Z }.
Definition sample_ok (s : sample) : Prop :=
  is_i32 (s_id s) /\ is_u32 (s_value s) /\ is_u32 (s_flags s) /\ is_u64 (s_time s) /\
  (s_timeIndex s = 0 \/ s_timeIndex s = 1).
Definition encode_sample (cfg : cm_config) (s : sample) : bytes :=
  publisher_encode cfg (s_id s) (s_value s) (s_time s) (s_flags s) (s_timeIndex s).

(** What the subscriber must see for a sample: same signal, value and flag
    categories; the exact time, except that an offset-encoded time carries no
    leap second marks and, in millisecond mode, drops the sub-millisecond part. *)
Definition received_time (cfg : cm_config) (s : sample) (t : Z) : Prop :=
  if includeTime cfg then
    t = s_time s \/
    (0 < base_at cfg (s_timeIndex s) < TimestampValue (s_time s) /\
     (if useMillisecondResolution cfg
      then 0 <= TimestampValue (s_time s) - t < 10000 /\
           (t - base_at cfg (s_timeIndex s)) mod 10000 = 0
      else t = TimestampValue (s_time s)))
  else t = 0.
Definition received (cfg : cm_config) (s : sample) (m : measurement) : Prop :=
  m_SignalID m = lookup cfg (s_id s) /\ m_Value m = s_value s /\
  category_closure (s_flags s) (m_Flags m) /\
  received_time cfg s (m_Timestamp m).
