(** Model of Measurement.String and StateFlags.String (transport/Measurement.go,
    Constants.go), and of the metadata records of measurements with concurrent
    callers (transport/DataSubscriber.go). *)
From Coq Require Import String Ascii.
From Verif Require Import Base GuidModel FormatModel NumModel CompactModel StampModel GoTextModel.
Open Scope list_scope.
Open Scope Z_scope.

(** ** Constants.go:153-205 String *)

(** Constants.go:118-150 the values, in the order of the calls of addFlag, 170-201 *)
Definition flag_table : list (Z * bytes) :=
  [(0x1, byte_text "BadData"); (0x2, byte_text "SuspectData"); (0x4, byte_text "OverRangeError"); (0x8, byte_text "UnderRangeError");
   (0x10, byte_text "AlarmHigh"); (0x20, byte_text "AlarmLow"); (0x40, byte_text "WarningHigh"); (0x80, byte_text "WarningLow");
   (0x100, byte_text "FlatlineAlarm"); (0x200, byte_text "ComparisonAlarm"); (0x400, byte_text "ROCAlarm"); (0x800, byte_text "ReceivedAsBad");
   (0x1000, byte_text "CalculatedValue"); (0x2000, byte_text "CalculationError"); (0x4000, byte_text "CalculationWarning"); (0x8000, byte_text "ReservedQualityFlag");
   (0x10000, byte_text "BadTime"); (0x20000, byte_text "SuspectTime"); (0x40000, byte_text "LateTimeAlarm"); (0x80000, byte_text "FutureTimeAlarm");
   (0x100000, byte_text "UpSampled"); (0x200000, byte_text "DownSampled"); (0x400000, byte_text "DiscardedValue"); (0x800000, byte_text "ReservedTimeFlag");
   (0x1000000, byte_text "UserDefinedFlag1"); (0x2000000, byte_text "UserDefinedFlag2"); (0x4000000, byte_text "UserDefinedFlag3"); (0x8000000, byte_text "UserDefinedFlag4");
   (0x10000000, byte_text "UserDefinedFlag5"); (0x20000000, byte_text "SystemError"); (0x40000000, byte_text "SystemWarning"); (0x80000000, byte_text "MeasurementError")].
(** Constants.go:160-168 addFlag *)
Definition addFlag (sfe : Z) (image : bytes) (f : Z * bytes) : bytes :=
  if 0 <? Z.land (fst f) sfe then (if 0 <? len image then image ++ [44] else image) ++ snd f else image.
Definition StateFlags_String (sfe : Z) : bytes :=
  if sfe =? 0 then byte_text "Normal" else fold_left (addFlag sfe) flag_table [].

(** ** Measurement.go:62-68 String *)

(** math.Float32frombits: the values of measurements received are float32 data
    (CompactModel keeps their bits). *)
Definition Float32frombits (b : Z) : spec_float :=
  let s := Z.testbit b 31 in
  let e := b / 2 ^ 23 mod 2 ^ 8 in
  let m := b mod 2 ^ 23 in
  if e =? 255 then if m =? 0 then S754_infinity s else S754_nan
  else if e =? 0 then match m with Zpos p => S754_finite s p (-149) | _ => S754_zero s end
  else match m + 2 ^ 23 with Zpos p => S754_finite s p (e - 150) | _ => S754_nan end.
Definition measurement_text (id : guid) (value : double) (timestamp flags : Z) : bytes :=
  guid_String id ++ byte_text " @ " ++ Ticks_ShortTime timestamp ++ byte_text " = " ++ FormatFloat value 3 ++ byte_text " (" ++ StateFlags_String flags ++ byte_text ")".
Definition Measurement_String (m : measurement) : bytes :=
  measurement_text (m_SignalID m) (d_of_single (Float32frombits (m_Value m))) (m_Timestamp m) (m_Flags m).

(** ** Metadata records *)

(** MeasurementMetadata.go:36-64; the texts other than the source are left out. *)
Record mrecord := MRecord { mm_SignalID : guid; mm_Adder : double; mm_Multiplier : double; mm_ID : Z; mm_Source : bytes }.
Definition one : double := d_of_Z 1.
(** DataSubscriber.go:291-294 *)
Definition new_record (id : guid) : mrecord := MRecord id d_zero one 0 [].
(** A goroutine in LookupMetadata, DataSubscriber.go:284-299, between Load (289) and
    LoadOrStore (296), holding its new record *)
Inductive lookup_pc := Outside | Missed (id : guid) (r : nat).
(** The records there are, by number; the registry, a sync.Map; the goroutines *)
Record mstate := MState { ms_records : list mrecord; ms_registry : list (guid * nat); ms_pc : nat -> lookup_pc }.
Definition mstart : mstate := MState [] [] (fun _ => Outside).
Fixpoint load (reg : list (guid * nat)) (id : guid) : option nat :=
  match reg with [] => None | (g, r) :: l => if bytes_eqb g id then Some r else load l id end.
Definition set_pc (s : mstate) (t : nat) (p : lookup_pc) : nat -> lookup_pc := fun u => if (u =? t)%nat then p else ms_pc s u.
Fixpoint update_nth {A} (l : list A) (n : nat) (f : A -> A) : list A :=
  match l, n with [] , _ => [] | a :: r, O => f a :: r | a :: r, S m => a :: update_nth r m f end.
Inductive maction :=
| MLookup (t : nat) (id : guid)                    (* goroutine t calls LookupMetadata (or Metadata) *)
| MStore (t : nat)                                 (* it goes on after having found nothing *)
| MWrite (r : nat) (change : mrecord -> mrecord)   (* somebody writes the fields of a record *)
| MConnect.                                        (* DataSubscriber.go:380: a connection is set up *)
Inductive mevent := MReturned (t : nat) (id : guid) (r : nat).
(** [None] when the action is not possible. *)
Definition mstep (s : mstate) (a : maction) : option (mstate * list mevent) :=
  match a with
  | MLookup t id =>
    match ms_pc s t with
    | Outside =>
      match load (ms_registry s) id with
      | Some r => Some (s, [MReturned t id r])
      | None => let r := List.length (ms_records s) in
                Some (MState (ms_records s ++ [new_record id]) (ms_registry s) (set_pc s t (Missed id r)), [])
      end
    | Missed _ _ => None
    end
  | MStore t =>
    match ms_pc s t with
    | Missed id r =>
      let reg := match load (ms_registry s) id with Some _ => ms_registry s | None => (id, r) :: ms_registry s end in
      (* the value LoadOrStore returns is not used *)
      Some (MState (ms_records s) reg (set_pc s t Outside), [MReturned t id r])
    | Outside => None
    end
  | MWrite r change => if (r <? List.length (ms_records s))%nat then Some (MState (update_nth (ms_records s) r change) (ms_registry s) (ms_pc s), []) else None
  | MConnect => Some (MState (ms_records s) [] (ms_pc s), [])
  end.
Fixpoint mrun (s : mstate) (acts : list maction) : option (mstate * list mevent) :=
  match acts with
  | [] => Some (s, [])
  | a :: r => match mstep s a with
              | None => None
              | Some (s1, e1) => match mrun s1 r with None => None | Some (s2, e2) => Some (s2, e1 ++ e2) end
              end
  end.
(** DataSubscriber.go:309-318 AdjustedValue.  On some processors Go fuses the two
    operations into one rounding; they are two here, as on amd64. *)
Definition AdjustedValue (s : mstate) (id : guid) (value : double) : double :=
  match load (ms_registry s) id with
  | Some r => match nth_error (ms_records s) r with
              | Some m => d_add (d_mul value (mm_Multiplier m)) (mm_Adder m)
              | None => value
              end
  | None => value
  end.
