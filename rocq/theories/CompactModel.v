(** Model of sttp/transport/CompactMeasurement.go and of
    DataSubscriber.parseCompactMeasurements.  A measurement value is kept as its
    32-bit IEEE pattern: widening it to float64 (CompactMeasurement.go:271) is not
    modelled.  Timestamps are uint64 ticks. *)
From Verif Require Import Base TicksModel GuidModel.

(** CompactMeasurement.go:47-54 *)
Definition cf_DataRange : Z := 0x01.
Definition cf_DataQuality : Z := 0x02.
Definition cf_TimeQuality : Z := 0x04.
Definition cf_SystemIssue : Z := 0x08.
Definition cf_CalculatedValue : Z := 0x10.
Definition cf_DiscardedValue : Z := 0x20.
Definition cf_BaseTimeOffset : Z := 0x40.
Definition cf_TimeIndex : Z := 0x80.
(** CompactMeasurement.go:59-64 *)
Definition dataRangeMask : Z := 0x000000FC.
Definition dataQualityMask : Z := 0x0000EF03.
Definition timeQualityMask : Z := 0x00BF0000.
Definition systemIssueMask : Z := 0xE0000000.
Definition calculatedValueMask : Z := 0x00001000.
Definition discardedValueMask : Z := 0x00400000.
(** CompactMeasurement.go:66 *)
Definition fixedLength : Z := 9.

Definition or_if (c : bool) (acc m : Z) : Z := if c then Z.lor acc m else acc.

(** CompactMeasurement.go:69-97 *)
Definition mapToFullFlags (c : Z) : Z :=
  let f := 0 in
  let f := or_if (0 <? Z.land c cf_DataRange) f dataRangeMask in
  let f := or_if (0 <? Z.land c cf_DataQuality) f dataQualityMask in
  let f := or_if (0 <? Z.land c cf_TimeQuality) f timeQualityMask in
  let f := or_if (0 <? Z.land c cf_SystemIssue) f systemIssueMask in
  let f := or_if (0 <? Z.land c cf_CalculatedValue) f calculatedValueMask in
  or_if (0 <? Z.land c cf_DiscardedValue) f discardedValueMask.

(** CompactMeasurement.go:99-127 *)
Definition mapToCompactFlags (full : Z) : Z :=
  let c := 0 in
  let c := or_if (0 <? Z.land full dataRangeMask) c cf_DataRange in
  let c := or_if (0 <? Z.land full dataQualityMask) c cf_DataQuality in
  let c := or_if (0 <? Z.land full timeQualityMask) c cf_TimeQuality in
  let c := or_if (0 <? Z.land full systemIssueMask) c cf_SystemIssue in
  let c := or_if (0 <? Z.land full calculatedValueMask) c cf_CalculatedValue in
  or_if (0 <? Z.land full discardedValueMask) c cf_DiscardedValue.

(** Measurement.go:36-48 *)
Record measurement : Type := mkMeas {
  m_SignalID : guid; m_Value : Z; m_Timestamp : Z; m_Flags : Z }.
(** The zero Measurement{}; also what make([]Measurement, n) holds. *)
Definition zeroMeas : measurement := mkMeas Empty 0 0 0.

(** Subscription settings a compact measurement is created with,
    CompactMeasurement.go:130-151.  [lookup] is SignalIndexCache.SignalID. *)
Record cm_config : Type := mkCfg {
  lookup : Z -> guid; includeTime : bool; useMillisecondResolution : bool;
  baseTimeOffsets : Z * Z }.
Definition base_at (cfg : cm_config) (timeIndex : Z) : Z :=
  if timeIndex =? 0 then fst (baseTimeOffsets cfg) else snd (baseTimeOffsets cfg).

(** ticks.go: PerMillisecond *)
Definition PerMillisecond : Z := 10000.

(** CompactMeasurement.go:154-193.  Result: (length, usingBaseTimeOffset after
    the call); [using0] is the value before it. *)
Definition GetBinaryLength (cfg : cm_config) (timestamp timeIndex : Z) (using0 : bool) : Z * bool :=
  if negb (includeTime cfg) then (fixedLength, using0)
  else
    let b := base_at cfg timeIndex in
    if 0 <? b then
      let difference := i64 (TimestampValue timestamp - b) in
      let offs :=
        if 0 <? difference then
          if useMillisecondResolution cfg
          then Z.quot difference PerMillisecond <? 65535
          else difference <? 4294967295
        else false in
      if offs then
        if useMillisecondResolution cfg then (fixedLength + 2, offs) else (fixedLength + 4, offs)
      else (fixedLength + 8, offs)
    else (fixedLength + 8, using0).

(** CompactMeasurement.go:196-198 *)
Definition GetTimestampC2 (cfg : cm_config) (timestamp timeIndex : Z) : Z :=
  u16 (Z.quot (i64 (TimestampValue timestamp - base_at cfg timeIndex)) PerMillisecond).
(** CompactMeasurement.go:201-203 *)
Definition GetTimestampC4 (cfg : cm_config) (timestamp timeIndex : Z) : Z :=
  u32 (i64 (TimestampValue timestamp - base_at cfg timeIndex)).
(** CompactMeasurement.go:206-219 *)
Definition GetCompactStateFlags (flags timeIndex : Z) (offs : bool) : Z :=
  let f := mapToCompactFlags flags in
  let f := or_if (negb (timeIndex =? 0)) f cf_TimeIndex in
  or_if offs f cf_BaseTimeOffset.
(** CompactMeasurement.go:222-235: (Flags, timeIndex, usingBaseTimeOffset) *)
Definition SetCompactStateFlags (value : Z) : Z * Z * bool :=
  (mapToFullFlags value,
   if 0 <? Z.land value cf_TimeIndex then 1 else 0,
   0 <? Z.land value cf_BaseTimeOffset).

(** CompactMeasurement.go:248-302 on a fresh CompactMeasurement: the measurement
    and the number of bytes consumed. *)
Definition Decode (cfg : cm_config) (buffer : bytes) : res (measurement * Z) :=
  if len buffer <? fixedLength then Err
  else
    let* b0 := idx buffer 0 in
    let '(flags, timeIndex, offs) := SetCompactStateFlags b0 in
    let index := 1 in
    let* t := slice_from buffer index in
    let* rid := be_u32 t in
    let signalID := lookup cfg (i32 rid) in
    let index := index + 4 in
    let* t := slice_from buffer index in
    let* v := be_u32 t in
    let index := index + 4 in
    if negb (includeTime cfg) then Ok (mkMeas signalID v 0 flags, index)
    else if offs then
      let b := base_at cfg timeIndex in
      if useMillisecondResolution cfg then
        let* ts := if 0 <? b then
                     let* t := slice_from buffer index in
                     let* w := be_u16 t in
                     Ok (u64 (i64 (b + w * PerMillisecond)))
                   else Ok 0 in
        Ok (mkMeas signalID v ts flags, index + 2)
      else
        let* ts := if 0 <? b then
                     let* t := slice_from buffer index in
                     let* w := be_u32 t in
                     Ok (u64 (i64 (b + w)))
                   else Ok 0 in
        Ok (mkMeas signalID v ts flags, index + 4)
    else
      let* t := slice_from buffer index in
      let* ts := be_u64 t in
      Ok (mkMeas signalID v ts flags, index + 8).

(** How a parsing loop ended. *)
Inductive parse_end : Type := PDone | PErr | PPanic.

(** DataSubscriber.go:1373-1388: the loop over [n] remaining measurements, reading
    [data] from [index].  Result: the measurements stored so far (they overwrite
    the first elements of the destination slice) and how the loop ended. *)
Fixpoint parseCompact_loop (cfg : cm_config) (data : bytes) (n : nat) (index : Z)
  : list measurement * parse_end :=
  match n with
  | O => ([], PDone)
  | S n' =>
      match slice_from data index with
      | Ok t =>
          match Decode cfg t with
          | Ok (m, used) =>
              let '(ms, e) := parseCompact_loop cfg data n' (index + used) in (m :: ms, e)
          | Err => ([], PErr)
          | Panic => ([], PPanic)
          end
      | _ => ([], PPanic)
      end
  end.
Definition parseCompact (cfg : cm_config) (data : bytes) (n : nat) :=
  parseCompact_loop cfg data n 0.
