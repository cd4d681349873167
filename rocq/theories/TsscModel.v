(** Model of sttp/transport/tssc: PointMetadata.go and Decoder.go.
    The Go struct pointMetadata is split in two records: the adaptive coding fields
    ([coder]) and the rest ([pm]); nothing else differs.  The three function fields
    (writeBits, readBit, readBits5) become explicit: WriteCode returns the bits it
    writes, ReadCode takes the bit reader.  float32 values are 32-bit patterns. *)
From stdpp Require Import gmap.
From Verif Require Import Base FormatModel.
Open Scope Z_scope.

(** PointMetadata.go:67-98 *)
Definition EndOfStream : Z := 0.
Definition PointIDXor4 : Z := 1.
Definition PointIDXor8 : Z := 2.
Definition PointIDXor12 : Z := 3.
Definition PointIDXor16 : Z := 4.
Definition PointIDXor20 : Z := 5.
Definition PointIDXor24 : Z := 6.
Definition PointIDXor32 : Z := 7.
Definition TimeDelta1Forward : Z := 8.
Definition TimeDelta2Forward : Z := 9.
Definition TimeDelta3Forward : Z := 10.
Definition TimeDelta4Forward : Z := 11.
Definition TimeDelta1Reverse : Z := 12.
Definition TimeDelta2Reverse : Z := 13.
Definition TimeDelta3Reverse : Z := 14.
Definition TimeDelta4Reverse : Z := 15.
Definition Timestamp2 : Z := 16.
Definition TimeXor7Bit : Z := 17.
Definition StateFlags2 : Z := 18.
Definition StateFlags7Bit32 : Z := 19.
Definition Value1 : Z := 20.
Definition Value2 : Z := 21.
Definition Value3 : Z := 22.
Definition ValueZero : Z := 23.
Definition ValueXor4 : Z := 24.
Definition ValueXor8 : Z := 25.
Definition ValueXor12 : Z := 26.
Definition ValueXor16 : Z := 27.
Definition ValueXor20 : Z := 28.
Definition ValueXor24 : Z := 29.
Definition ValueXor28 : Z := 30.
Definition ValueXor32 : Z := 31.

(** PointMetadata.go:109-122 *)
Record coder : Type := mkCoder {
  commandStats : list Z;                 (* [32]byte *)
  commandsSentSinceLastChange : Z;       (* int32 *)
  mode : Z; mode21 : Z; mode31 : Z; mode301 : Z; mode41 : Z; mode401 : Z; mode4001 : Z;
  startupMode : Z }.

(** PointMetadata.go:129-139, coding fields *)
Definition newCoder : coder := mkCoder (repeat 0 32) 0 4 0 0 0 Value1 Value2 Value3 0.

(** PointMetadata.go:232-241, the locals of adaptCommands *)
Record adapt_acc : Type := mkAcc {
  code1 : Z; count1 : Z; code2 : Z; count2 : Z; code3 : Z; count3 : Z; total : Z }.
(** PointMetadata.go:243-270, one iteration *)
Definition adapt_step (a : adapt_acc) (i count : Z) : adapt_acc :=
  let t := i32 (total a + count) in
  if count3 a <? count then
    if count1 a <? count then
      mkAcc (u8 i) count (code1 a) (count1 a) (code2 a) (count2 a) t
    else if count2 a <? count then
      mkAcc (code1 a) (count1 a) (u8 i) count (code2 a) (count2 a) t
    else mkAcc (code1 a) (count1 a) (code2 a) (count2 a) (u8 i) count t
  else mkAcc (code1 a) (count1 a) (code2 a) (count2 a) (code3 a) (count3 a) t.
Fixpoint adapt_loop (stats : list Z) (i : Z) (a : adapt_acc) : adapt_acc :=
  match stats with
  | [] => a
  | c :: r => adapt_loop r (i + 1) (adapt_step a i c)
  end.
Definition acc0 : adapt_acc := mkAcc 0 0 1 0 2 0 0.

(** PointMetadata.go:310-320 *)
Definition min32 (lv rv : Z) : Z := if lv <? rv then lv else if rv <? lv then rv else lv.

(** PointMetadata.go:231-308; Err is the "coding error" outcome. *)
Definition adaptCommands (c : coder) : res coder :=
  let a := adapt_loop (commandStats c) 0 acc0 in
  let zeroed := map (fun _ => 0) (commandStats c) in
  let mode1Size := i32 (total a * 5) in
  let mode2Size := i32 (count1 a + i32 (i32 (total a - count1 a) * 6)) in
  let mode3Size := i32 (i32 (count1 a + i32 (count2 a * 2)) + i32 (i32 (i32 (total a - count1 a) - count2 a) * 7)) in
  let mode4Size := i32 (i32 (i32 (count1 a + i32 (count2 a * 2)) + i32 (count3 a * 3))
                        + i32 (i32 (i32 (i32 (total a - count1 a) - count2 a) - count3 a) * 8)) in
  let minSize := 2147483647 in
  let minSize := min32 minSize mode1Size in
  let minSize := min32 minSize mode2Size in
  let minSize := min32 minSize mode3Size in
  let minSize := min32 minSize mode4Size in
  if minSize =? mode1Size then
    Ok (mkCoder zeroed 0 1 (mode21 c) (mode31 c) (mode301 c) (mode41 c) (mode401 c) (mode4001 c) (startupMode c))
  else if minSize =? mode2Size then
    Ok (mkCoder zeroed 0 2 (code1 a) (mode31 c) (mode301 c) (mode41 c) (mode401 c) (mode4001 c) (startupMode c))
  else if minSize =? mode3Size then
    Ok (mkCoder zeroed 0 3 (mode21 c) (code1 a) (code2 a) (mode41 c) (mode401 c) (mode4001 c) (startupMode c))
  else if minSize =? mode4Size then
    Ok (mkCoder zeroed 0 4 (mode21 c) (mode31 c) (mode301 c) (code1 a) (code2 a) (code3 a) (startupMode c))
  else Err.

Definition set_startup (c : coder) (s : Z) : coder :=
  mkCoder (commandStats c) (commandsSentSinceLastChange c) (mode c) (mode21 c) (mode31 c) (mode301 c)
    (mode41 c) (mode401 c) (mode4001 c) s.

(** PointMetadata.go:214-229 *)
Definition updatedCodeStatistics (c : coder) (code : Z) : res coder :=
  let sent := i32 (commandsSentSinceLastChange c + 1) in
  let* n := idx (commandStats c) code in
  let* stats := upd (commandStats c) code (u8 (n + 1)) in
  let c1 := mkCoder stats sent (mode c) (mode21 c) (mode31 c) (mode301 c) (mode41 c) (mode401 c) (mode4001 c) (startupMode c) in
  if (startupMode c1 =? 0) && (5 <? sent) then adaptCommands (set_startup c1 (i32 (startupMode c1 + 1)))
  else if (startupMode c1 =? 1) && (20 <? sent) then adaptCommands (set_startup c1 (i32 (startupMode c1 + 1)))
  else if (startupMode c1 =? 2) && (100 <? sent) then adaptCommands c1
  else Ok c1.

(** The bits writeBits(code, n) sends: the n low bits, most significant first.  The
    repository holds no implementation of writeBits; this is its meaning in every
    TSSC encoder. *)
Fixpoint writeBits (code : Z) (n : nat) : list bool :=
  match n with
  | O => []
  | S n' => Z.testbit code (Z.of_nat n') :: writeBits code n'
  end.

(** PointMetadata.go:141-174 *)
Definition WriteCode (c : coder) (code : Z) : res (list bool * coder) :=
  let* bits :=
    (if mode c =? 1 then Ok (writeBits code 5)
     else if mode c =? 2 then
       if code =? mode21 c then Ok (writeBits 1 1) else Ok (writeBits code 6)
     else if mode c =? 3 then
       if code =? mode31 c then Ok (writeBits 1 1)
       else if code =? mode301 c then Ok (writeBits 1 2)
       else Ok (writeBits code 7)
     else if mode c =? 4 then
       if code =? mode41 c then Ok (writeBits 1 1)
       else if code =? mode401 c then Ok (writeBits 1 2)
       else if code =? mode4001 c then Ok (writeBits 1 3)
       else Ok (writeBits code 8)
     else Err) in
  let* c' := updatedCodeStatistics c code in
  Ok (bits, c').

(** PointMetadata.go:101-107 with the coding fields *)
Record pm : Type := mkPm {
  PrevNextPointID1 : Z; PrevStateFlags1 : Z; PrevStateFlags2 : Z;
  PrevValue1 : Z; PrevValue2 : Z; PrevValue3 : Z; pm_coder : coder }.
(** PointMetadata.go:129-139 *)
Definition newPointMetadata : pm := mkPm 0 0 0 0 0 0 newCoder.

(** Decoder.go:34-58.  lastPoint is a pointer either to the point metadata made by
    NewDecoder ([lastPoint] = None, stored in [point0]) or to points[id]
    ([lastPoint] = Some id). *)
Record td : Type := mkTd {
  data : bytes; position : Z; lastPosition : Z;
  prevTimestamp1 : Z; prevTimestamp2 : Z;
  prevTimeDelta1 : Z; prevTimeDelta2 : Z; prevTimeDelta3 : Z; prevTimeDelta4 : Z;
  point0 : pm; lastPoint : option Z; points : gmap Z pm;
  bitStreamCount : Z; bitStreamCache : Z;
  SequenceNumber : Z }.

Definition MaxInt64 : Z := 2 ^ 63 - 1.

(** Decoder.go:61-73 *)
Definition NewDecoder : td :=
  mkTd [] 0 0 0 0 MaxInt64 MaxInt64 MaxInt64 MaxInt64 newPointMetadata None ∅ 0 0 0.

(** Field updates. *)
Definition set_buf (t : td) (pos count cache : Z) : td :=
  mkTd (data t) pos (lastPosition t) (prevTimestamp1 t) (prevTimestamp2 t) (prevTimeDelta1 t) (prevTimeDelta2 t)
    (prevTimeDelta3 t) (prevTimeDelta4 t) (point0 t) (lastPoint t) (points t) count cache (SequenceNumber t).
Definition set_position (t : td) (pos : Z) : td := set_buf t pos (bitStreamCount t) (bitStreamCache t).
Definition set_times (t : td) (t1 t2 d1 d2 d3 d4 : Z) : td :=
  mkTd (data t) (position t) (lastPosition t) t1 t2 d1 d2 d3 d4 (point0 t) (lastPoint t) (points t)
    (bitStreamCount t) (bitStreamCache t) (SequenceNumber t).
Definition set_points (t : td) (p0 : pm) (last : option Z) (ps : gmap Z pm) : td :=
  mkTd (data t) (position t) (lastPosition t) (prevTimestamp1 t) (prevTimestamp2 t) (prevTimeDelta1 t) (prevTimeDelta2 t)
    (prevTimeDelta3 t) (prevTimeDelta4 t) p0 last ps (bitStreamCount t) (bitStreamCache t) (SequenceNumber t).
Definition set_seq (t : td) (n : Z) : td :=
  mkTd (data t) (position t) (lastPosition t) (prevTimestamp1 t) (prevTimestamp2 t) (prevTimeDelta1 t) (prevTimeDelta2 t)
    (prevTimeDelta3 t) (prevTimeDelta4 t) (point0 t) (lastPoint t) (points t) (bitStreamCount t) (bitStreamCache t) n.

(** Dereferencing and assigning through td.lastPoint and through points[id]. *)
Definition get_point (t : td) (k : option Z) : pm :=
  match k with
  | None => point0 t
  | Some i => match points t !! i with Some p => p | None => newPointMetadata end
  end.
Definition set_point (t : td) (k : option Z) (p : pm) : td :=
  match k with
  | None => set_points t p (lastPoint t) (points t)
  | Some i => set_points t (point0 t) (lastPoint t) (<[i := p]> (points t))
  end.

(** Outcome of a decoder call: state changes made before an error remain. *)
Inductive dres (A : Type) : Type :=
| DOk (a : A) (t : td)
| DErr (t : td)
| DPanic.
Arguments DOk {A}. Arguments DErr {A}. Arguments DPanic {A}.
Definition dbind {A B} (x : dres A) (k : A -> td -> dres B) : dres B :=
  match x with DOk a t => k a t | DErr t => DErr t | DPanic => DPanic end.
Notation "'do' ( x , t ) <- e ; k" := (dbind e (fun x t => k)) (at level 200, x name, t name, e at level 100, k at level 200, right associativity).

(** Decoder.go:79-81 *)
Definition bitStreamIsEmpty (t : td) : bool := bitStreamCount t =? 0.
(** Decoder.go:83-86 *)
Definition clearBitStream (t : td) : td := set_buf t (position t) 0 0.
(** Decoder.go:89-94 *)
Definition SetBuffer (t : td) (d : bytes) : td :=
  let t := clearBitStream t in
  mkTd d 0 (len d) (prevTimestamp1 t) (prevTimestamp2 t) (prevTimeDelta1 t) (prevTimeDelta2 t)
    (prevTimeDelta3 t) (prevTimeDelta4 t) (point0 t) (lastPoint t) (points t)
    (bitStreamCount t) (bitStreamCache t) (SequenceNumber t).

(** td.data[i] *)
Definition data_at {A} (t : td) (i : Z) (k : Z -> dres A) : dres A :=
  match idx (data t) i with Ok b => k b | _ => DPanic end.

(** Decoder.go:356-366 *)
Definition readBit (t : td) : dres Z :=
  let finish (t : td) :=
    let count := i32 (bitStreamCount t - 1) in
    DOk (Z.land (Z.shiftr (bitStreamCache t) count) 1) (set_buf t (position t) count (bitStreamCache t)) in
  if bitStreamCount t =? 0 then
    data_at t (position t) (fun b => finish (set_buf t (position t + 1) 8 b))
  else finish t.

(** Decoder.go:368-370 (method calls are evaluated left to right) *)
Definition readBits4 (t : td) : dres Z :=
  do (a, t) <- readBit t; do (b, t) <- readBit t; do (c, t) <- readBit t; do (d, t) <- readBit t;
  DOk (Z.lor (Z.lor (Z.lor (Z.shiftl a 3) (Z.shiftl b 2)) (Z.shiftl c 1)) d) t.
(** Decoder.go:372-374 *)
Definition readBits5 (t : td) : dres Z :=
  do (a, t) <- readBit t; do (b, t) <- readBit t; do (c, t) <- readBit t; do (d, t) <- readBit t; do (e, t) <- readBit t;
  DOk (Z.lor (Z.lor (Z.lor (Z.lor (Z.shiftl a 4) (Z.shiftl b 3)) (Z.shiftl c 2)) (Z.shiftl d 1)) e) t.

(** PointMetadata.go:180-208: the code read according to the coder's mode. *)
Definition readCodeBits (c : coder) (t : td) : dres Z :=
  if mode c =? 1 then readBits5 t
  else if mode c =? 2 then
    do (b, t) <- readBit t;
    if b =? 1 then DOk (mode21 c) t else readBits5 t
  else if mode c =? 3 then
    do (b, t) <- readBit t;
    if b =? 1 then DOk (mode31 c) t
    else do (b2, t) <- readBit t;
         if b2 =? 1 then DOk (mode301 c) t else readBits5 t
  else if mode c =? 4 then
    do (b, t) <- readBit t;
    if b =? 1 then DOk (mode41 c) t
    else do (b2, t) <- readBit t;
         if b2 =? 1 then DOk (mode401 c) t
         else do (b3, t) <- readBit t;
              if b3 =? 1 then DOk (mode4001 c) t else readBits5 t
  else DErr t.

Definition set_coder (p : pm) (c : coder) : pm :=
  mkPm (PrevNextPointID1 p) (PrevStateFlags1 p) (PrevStateFlags2 p) (PrevValue1 p) (PrevValue2 p) (PrevValue3 p) c.
Definition set_next (p : pm) (n : Z) : pm :=
  mkPm n (PrevStateFlags1 p) (PrevStateFlags2 p) (PrevValue1 p) (PrevValue2 p) (PrevValue3 p) (pm_coder p).
Definition set_flags (p : pm) (f1 f2 : Z) : pm :=
  mkPm (PrevNextPointID1 p) f1 f2 (PrevValue1 p) (PrevValue2 p) (PrevValue3 p) (pm_coder p).
Definition set_values (p : pm) (v1 v2 v3 : Z) : pm :=
  mkPm (PrevNextPointID1 p) (PrevStateFlags1 p) (PrevStateFlags2 p) v1 v2 v3 (pm_coder p).

(** PointMetadata.go:176-212, called on td.lastPoint.  An error of adaptCommands
    leaves a half-adapted coder in the program; that it cannot happen is proved
    (C22), so the state kept here is irrelevant. *)
Definition ReadCode (t : td) : dres Z :=
  do (code, t) <- readCodeBits (pm_coder (get_point t (lastPoint t))) t;
  let p := get_point t (lastPoint t) in
  match updatedCodeStatistics (pm_coder p) code with
  | Ok c => DOk code (set_point t (lastPoint t) (set_coder p c))
  | Err => DErr t
  | Panic => DPanic
  end.

(** Decoder.go:376-410.  Returns the value and the number of bytes consumed. *)
Definition decode7BitUInt32 (stream : bytes) (position : Z) : res (Z * Z) :=
  let* stream := slice_from stream position in
  let* b0 := idx stream 0 in
  let value := b0 in
  if value <? 128 then Ok (value, position + 1) else
  let* b1 := idx stream 1 in
  let value := Z.lxor value (u32 (Z.shiftl b1 7)) in
  if value <? 16384 then Ok (Z.lxor value 0x80, position + 2) else
  let* b2 := idx stream 2 in
  let value := Z.lxor value (u32 (Z.shiftl b2 14)) in
  if value <? 2097152 then Ok (Z.lxor value 0x4080, position + 3) else
  let* b3 := idx stream 3 in
  let value := Z.lxor value (u32 (Z.shiftl b3 21)) in
  if value <? 268435456 then Ok (Z.lxor value 0x204080, position + 4) else
  let* b4 := idx stream 4 in
  let value := Z.lxor value (u32 (Z.shiftl b4 28)) in
  Ok (Z.lxor value 0x10204080, position + 5).

(** Decoder.go:412-475 *)
Definition decode7BitUInt64 (stream : bytes) (position : Z) : res (Z * Z) :=
  let* stream := slice_from stream position in
  let* b0 := idx stream 0 in
  let value := b0 in
  if value <? 128 then Ok (value, position + 1) else
  let* b1 := idx stream 1 in
  let value := Z.lxor value (u64 (Z.shiftl b1 7)) in
  if value <? 16384 then Ok (Z.lxor value 0x80, position + 2) else
  let* b2 := idx stream 2 in
  let value := Z.lxor value (u64 (Z.shiftl b2 14)) in
  if value <? 2097152 then Ok (Z.lxor value 0x4080, position + 3) else
  let* b3 := idx stream 3 in
  let value := Z.lxor value (u64 (Z.shiftl b3 21)) in
  if value <? 268435456 then Ok (Z.lxor value 0x204080, position + 4) else
  let* b4 := idx stream 4 in
  let value := Z.lxor value (u64 (Z.shiftl b4 28)) in
  if value <? 34359738368 then Ok (Z.lxor value 0x10204080, position + 5) else
  let* b5 := idx stream 5 in
  let value := Z.lxor value (u64 (Z.shiftl b5 35)) in
  if value <? 4398046511104 then Ok (Z.lxor value 0x810204080, position + 6) else
  let* b6 := idx stream 6 in
  let value := Z.lxor value (u64 (Z.shiftl b6 42)) in
  if value <? 562949953421312 then Ok (Z.lxor value 0x40810204080, position + 7) else
  let* b7 := idx stream 7 in
  let value := Z.lxor value (u64 (Z.shiftl b7 49)) in
  if value <? 72057594037927936 then Ok (Z.lxor value 0x2040810204080, position + 8) else
  let* b8 := idx stream 8 in
  let value := Z.lxor value (u64 (Z.shiftl b8 56)) in
  Ok (Z.lxor value 0x102040810204080, position + 9).

Definition lift7 (t : td) (r : res (Z * Z)) : dres Z :=
  match r with Ok (v, pos) => DOk v (set_position t pos) | Err => DErr t | Panic => DPanic end.

(** The xor payloads of Decoder.go:219-241 and 260-279: [nib] tells whether four
    bits are read first, [k] is the number of bytes that follow; the result is the
    xor mask before it is wrapped to the target width.  Go leaves the order between
    the call readBits4() and the reads of td.position in one expression
    unspecified; as in the gc compiler, calls come first. *)
Definition xorPayload (nib : bool) (k : nat) (t : td) : dres Z :=
  do (b, t) <- (if nib then readBits4 t else DOk 0 t);
  let s := if nib then 4 else 0 in
  match k with
  | O => DOk b t
  | S O =>
      data_at t (position t) (fun x0 =>
      DOk (Z.lxor b (Z.shiftl x0 s)) (set_position t (position t + 1)))
  | S (S O) =>
      data_at t (position t) (fun x0 => data_at t (position t + 1) (fun x1 =>
      DOk (Z.lxor (Z.lxor b (Z.shiftl x0 s)) (Z.shiftl x1 (s + 8))) (set_position t (position t + 2))))
  | S (S (S O)) =>
      data_at t (position t) (fun x0 => data_at t (position t + 1) (fun x1 => data_at t (position t + 2) (fun x2 =>
      DOk (Z.lxor (Z.lxor (Z.lxor b (Z.shiftl x0 s)) (Z.shiftl x1 (s + 8))) (Z.shiftl x2 (s + 16)))
        (set_position t (position t + 3)))))
  | _ =>
      data_at t (position t) (fun x0 => data_at t (position t + 1) (fun x1 => data_at t (position t + 2) (fun x2 => data_at t (position t + 3) (fun x3 =>
      DOk (Z.lxor (Z.lxor (Z.lxor (Z.lxor b (Z.shiftl x0 s)) (Z.shiftl x1 (s + 8))) (Z.shiftl x2 (s + 16))) (Z.shiftl x3 (s + 24)))
        (set_position t (position t + 4))))))
  end.

(** Decoder.go:258-285 *)
Definition decodePointID (code : Z) (t : td) : dres unit :=
  let assign (x : dres Z) : dres unit :=
    do (m, t) <- x;
    let p := get_point t (lastPoint t) in
    DOk tt (set_point t (lastPoint t) (set_next p (Z.lxor (i32 m) (PrevNextPointID1 p)))) in
  if code =? PointIDXor4 then assign (xorPayload true 0 t)
  else if code =? PointIDXor8 then assign (xorPayload false 1 t)
  else if code =? PointIDXor12 then assign (xorPayload true 1 t)
  else if code =? PointIDXor16 then assign (xorPayload false 2 t)
  else if code =? PointIDXor20 then assign (xorPayload true 2 t)
  else if code =? PointIDXor24 then assign (xorPayload false 3 t)
  else if code =? PointIDXor32 then assign (xorPayload false 4 t)
  else DErr t.

(** Decoder.go:477-483 *)
Definition abs64 (v : Z) : Z := if v <? 0 then i64 (v * -1) else v.

(** Decoder.go:314-336 *)
Definition saveTimestamp (t : td) (timestamp : Z) : td :=
  let minDelta := abs64 (i64 (prevTimestamp1 t - timestamp)) in
  let d1 := prevTimeDelta1 t in let d2 := prevTimeDelta2 t in
  let d3 := prevTimeDelta3 t in let d4 := prevTimeDelta4 t in
  if (minDelta <? d4) && negb (minDelta =? d1) && negb (minDelta =? d2) && negb (minDelta =? d3) then
    if minDelta <? d1 then set_times t timestamp (prevTimestamp1 t) minDelta d1 d2 d3
    else if minDelta <? d2 then set_times t timestamp (prevTimestamp1 t) d1 minDelta d2 d3
    else if minDelta <? d3 then set_times t timestamp (prevTimestamp1 t) d1 d2 minDelta d3
    else set_times t timestamp (prevTimestamp1 t) d1 d2 d3 minDelta
  else set_times t timestamp (prevTimestamp1 t) d1 d2 d3 d4.

(** Decoder.go:288-339 *)
Definition decodeTimestamp (code : Z) (t : td) : dres Z :=
  let save (x : dres Z) : dres Z := do (ts, t) <- x; DOk ts (saveTimestamp t ts) in
  let t1 := prevTimestamp1 t in
  if code =? TimeDelta1Forward then save (DOk (i64 (t1 + prevTimeDelta1 t)) t)
  else if code =? TimeDelta2Forward then save (DOk (i64 (t1 + prevTimeDelta2 t)) t)
  else if code =? TimeDelta3Forward then save (DOk (i64 (t1 + prevTimeDelta3 t)) t)
  else if code =? TimeDelta4Forward then save (DOk (i64 (t1 + prevTimeDelta4 t)) t)
  else if code =? TimeDelta1Reverse then save (DOk (i64 (t1 - prevTimeDelta1 t)) t)
  else if code =? TimeDelta2Reverse then save (DOk (i64 (t1 - prevTimeDelta2 t)) t)
  else if code =? TimeDelta3Reverse then save (DOk (i64 (t1 - prevTimeDelta3 t)) t)
  else if code =? TimeDelta4Reverse then save (DOk (i64 (t1 - prevTimeDelta4 t)) t)
  else if code =? Timestamp2 then save (DOk (prevTimestamp2 t) t)
  else save (do (x, t) <- lift7 t (decode7BitUInt64 (data t) (position t)); DOk (Z.lxor t1 (i64 x)) t).

(** Decoder.go:341-354 with nextPoint = points[id] *)
Definition decodeStateFlags (code : Z) (id : Z) (t : td) : dres Z :=
  do (f, t) <- (if code =? StateFlags2 then DOk (PrevStateFlags2 (get_point t (Some id))) t
                else lift7 t (decode7BitUInt32 (data t) (position t)));
  let p := get_point t (Some id) in
  DOk f (set_point t (Some id) (set_flags p f (PrevStateFlags1 p))).

(** Decoder.go:200-249 *)
Definition decodeValue (code : Z) (id : Z) (t : td) : dres Z :=
  let p := get_point t (Some id) in
  let shift (v : Z) (t : td) : dres Z :=
    let p := get_point t (Some id) in
    DOk v (set_point t (Some id) (set_values p v (PrevValue1 p) (PrevValue2 p))) in
  let xored (x : dres Z) : dres Z :=
    do (m, t) <- x; shift (Z.lxor (u32 m) (PrevValue1 (get_point t (Some id)))) t in
  if code =? Value1 then DOk (PrevValue1 p) t
  else if code =? Value2 then
    DOk (PrevValue2 p) (set_point t (Some id) (set_values p (PrevValue2 p) (PrevValue1 p) (PrevValue3 p)))
  else if code =? Value3 then
    DOk (PrevValue3 p) (set_point t (Some id) (set_values p (PrevValue3 p) (PrevValue1 p) (PrevValue2 p)))
  else if code =? ValueZero then shift 0 t
  else if code =? ValueXor4 then xored (xorPayload true 0 t)
  else if code =? ValueXor8 then xored (xorPayload false 1 t)
  else if code =? ValueXor12 then xored (xorPayload true 1 t)
  else if code =? ValueXor16 then xored (xorPayload false 2 t)
  else if code =? ValueXor20 then xored (xorPayload true 2 t)
  else if code =? ValueXor24 then xored (xorPayload false 3 t)
  else if code =? ValueXor28 then xored (xorPayload true 3 t)
  else if code =? ValueXor32 then xored (xorPayload false 4 t)
  else DErr t.

(** One decoded measurement: id, timestamp (int64), state flags, value bits. *)
Record tmeas : Type := mkTm { tm_id : Z; tm_time : Z; tm_flags : Z; tm_value : Z }.

(** Decoder.go:98-256.  None: end of data (the Go call returns false, nil). *)
Definition TryGetMeasurement (t : td) : dres (option tmeas) :=
  if (position t =? lastPosition t) && bitStreamIsEmpty t then DOk None (clearBitStream t)
  else
  do (code, t) <- ReadCode t;
  if code =? EndOfStream then DOk None (clearBitStream t)
  else
  do (code, t) <- (if code <=? PointIDXor32 then
                     do (u, t) <- decodePointID (u8 code) t;
                     do (code, t) <- ReadCode t;
                     if code <? TimeDelta1Forward then DErr t else DOk code t
                   else DOk code t);
  let id := PrevNextPointID1 (get_point t (lastPoint t)) in
  let t := match points t !! id with
           | Some _ => t
           | None => set_point t (Some id) (set_next newPointMetadata (i32 (id + 1)))
           end in
  do (tc, t) <- (if code <=? TimeXor7Bit then
                   do (ts, t) <- decodeTimestamp (u8 code) t;
                   do (code, t) <- ReadCode t;
                   if code <? StateFlags2 then DErr t else DOk (ts, code) t
                 else DOk (prevTimestamp1 t, code) t);
  let '(timestamp, code) := tc in
  do (fc, t) <- (if code <=? StateFlags7Bit32 then
                   do (f, t) <- decodeStateFlags (u8 code) id t;
                   do (code, t) <- ReadCode t;
                   if code <? Value1 then DErr t else DOk (f, code) t
                 else DOk (PrevStateFlags1 (get_point t (Some id)), code) t);
  let '(stateFlags, code) := fc in
  do (valueRaw, t) <- decodeValue code id t;
  DOk (Some (mkTm id timestamp stateFlags valueRaw)) (set_points t (point0 t) (Some id) (points t)).

(** The loop of DataSubscriber.go:1330-1341 without the assignment into the
    measurement slice: everything decoded from the buffer.  [fuel] bounds the number
    of calls. *)
Fixpoint decode_all (fuel : nat) (t : td) : dres (list tmeas) :=
  match fuel with
  | O => DErr t
  | S f =>
      do (m, t) <- TryGetMeasurement t;
      match m with
      | None => DOk [] t
      | Some x => do (r, t) <- decode_all f t; DOk (x :: r) t
      end
  end.
