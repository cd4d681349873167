(** Specification vocabulary for the texts of measurements (C119, C120). *)
From Coq Require Import String Ascii.
From Verif Require Import Base.
Open Scope list_scope.
Open Scope Z_scope.

(** The names of the 32 state flags, from the least significant bit. *)
Definition flag_names : list string :=
  ["BadData"; "SuspectData"; "OverRangeError"; "UnderRangeError"; "AlarmHigh"; "AlarmLow"; "WarningHigh"; "WarningLow";
   "FlatlineAlarm"; "ComparisonAlarm"; "ROCAlarm"; "ReceivedAsBad"; "CalculatedValue"; "CalculationError"; "CalculationWarning"; "ReservedQualityFlag";
   "BadTime"; "SuspectTime"; "LateTimeAlarm"; "FutureTimeAlarm"; "UpSampled"; "DownSampled"; "DiscardedValue"; "ReservedTimeFlag";
   "UserDefinedFlag1"; "UserDefinedFlag2"; "UserDefinedFlag3"; "UserDefinedFlag4"; "UserDefinedFlag5"; "SystemError"; "SystemWarning"; "MeasurementError"]%string.
Definition ascii_bytes (s : string) : bytes := map (fun a => Z.of_N (N_of_ascii a)) (list_ascii_of_string s).
Fixpoint comma_separated (l : list bytes) : bytes :=
  match l with
  | [] => []
  | [a] => a
  | a :: r => a ++ 44 :: comma_separated r
  end.
(** The names of the flags that are set, in order *)
Definition names_of (flags : Z) : list bytes :=
  map (fun i => ascii_bytes (nth i flag_names EmptyString)) (filter (fun i => Z.testbit flags (Z.of_nat i)) (seq 0 32)).
Definition flags_text (flags : Z) : bytes := if flags =? 0 then ascii_bytes "Normal" else comma_separated (names_of flags).
