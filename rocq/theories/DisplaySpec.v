(** What shown texts should say, apart from the functions that make them. *)
From Coq Require Import String.
From Verif Require Import Base FormatModel ExprModel TableModel.
Open Scope list_scope.
Open Scope Z_scope.

(** Items with a comma and a space between them *)
Inductive listed : list bytes -> bytes -> Prop :=
| listed_none : listed [] []
| listed_one x : listed [x] x
| listed_more x y l s : listed (y :: l) s -> listed (x :: y :: l) (x ++ lit ", " ++ s).

(** How a value of a column shows in its row *)
Inductive value_shown (D : dlib) : option cell -> bytes -> Prop :=
| shown_null : value_shown D None (lit "<NULL>")
| shown_string s : value_shown D (Some (CStr s)) s
| shown_true : value_shown D (Some (CBool true)) (lit "true")
| shown_false : value_shown D (Some (CBool false)) (lit "false")
| shown_time t : value_shown D (Some (CTime t)) (format_date t)
| shown_single f : value_shown D (Some (CSingle f)) (format_single f)
| shown_double f : value_shown D (Some (CDouble f)) (format_float f)
| shown_decimal d : value_shown D (Some (CDec d)) (format_decimal d)
| shown_guid g : value_shown D (Some (CGuid g)) (format_guid g)
| shown_int8 n : value_shown D (Some (CInt8 n)) (FormatInt n)
| shown_int16 n : value_shown D (Some (CInt16 n)) (FormatInt n)
| shown_int32 n : value_shown D (Some (CInt32 n)) (FormatInt n)
| shown_int64 n : value_shown D (Some (CInt64 n)) (FormatInt n)
| shown_uint8 n : value_shown D (Some (CUInt8 n)) (FormatInt n)
| shown_uint16 n : value_shown D (Some (CUInt16 n)) (FormatInt n)
| shown_uint32 n : value_shown D (Some (CUInt32 n)) (FormatInt n)
| shown_uint64 n : value_shown D (Some (CUInt64 n)) (FormatInt n).
(** The value of the column as the getter for its type gives it; nothing where the
    getter fails.  Columns of strings have quotes around everything. *)
Inductive column_shown (depth : nat) (D : dlib) (t : dtable) (vals : list (option slot)) (c : dcol) : bytes -> Prop :=
| cs_value v s : TypedValue depth D t vals (dc_index c) (dc_type c) = Ok v -> value_shown D v s -> dc_type c <> DString -> column_shown depth D t vals c s
| cs_string v s : TypedValue depth D t vals (dc_index c) (dc_type c) = Ok v -> value_shown D v s -> dc_type c = DString -> column_shown depth D t vals c (lit """" ++ s ++ lit """")
| cs_failed : TypedValue depth D t vals (dc_index c) (dc_type c) = Err -> dc_type c <> DString -> column_shown depth D t vals c []
| cs_string_failed : TypedValue depth D t vals (dc_index c) (dc_type c) = Err -> dc_type c = DString -> column_shown depth D t vals c (lit """""").

(** The codes of the protocol and their names *)
Definition command_names : list (Z * string) :=
  [(0, "Connect"); (1, "MetadataRefresh"); (2, "Subscribe"); (3, "Unsubscribe"); (4, "RotateCipherKeys"); (5, "UpdateProcessingInterval");
   (6, "DefineOperationalModes"); (7, "ConfirmNotification"); (8, "ConfirmBufferBlock"); (9, "ConfirmUpdateBaseTimes"); (10, "ConfirmUpdateSignalIndexCache");
   (11, "ConfirmUpdateCipherKeys"); (12, "GetPrimaryMetadataSchema"); (13, "GetSignalSelectionSchema");
   (208, "UserCommand00"); (209, "UserCommand01"); (210, "UserCommand02"); (211, "UserCommand03"); (212, "UserCommand04"); (213, "UserCommand05");
   (214, "UserCommand06"); (215, "UserCommand07"); (216, "UserCommand08"); (217, "UserCommand09"); (218, "UserCommand10"); (219, "UserCommand11");
   (220, "UserCommand12"); (221, "UserCommand13"); (222, "UserCommand14"); (223, "UserCommand15")]%string.
Definition response_names : list (Z * string) :=
  [(128, "Succeeded"); (129, "Failed"); (130, "DataPacket"); (131, "UpdateSignalIndexCache"); (132, "UpdateBaseTimes"); (133, "UpdateCipherKeys");
   (134, "DataStartTime"); (135, "ProcessingComplete"); (136, "BufferBlock"); (137, "Notify"); (138, "ConfigurationChanged");
   (224, "UserResponse00"); (225, "UserResponse01"); (226, "UserResponse02"); (227, "UserResponse03"); (228, "UserResponse04"); (229, "UserResponse05");
   (230, "UserResponse06"); (231, "UserResponse07"); (232, "UserResponse08"); (233, "UserResponse09"); (234, "UserResponse10"); (235, "UserResponse11");
   (236, "UserResponse12"); (237, "UserResponse13"); (238, "UserResponse14"); (239, "UserResponse15"); (255, "NoOP")]%string.
Definition kind_names : list (Z * string) :=
  [(0, "Angle"); (1, "Magnitude"); (2, "Frequency"); (3, "DfDt"); (4, "Status"); (5, "Digital"); (6, "Analog"); (7, "Calculation");
   (8, "Statistic"); (9, "Alarm"); (10, "Quality"); (11, "Unknown")]%string.

(** The number that digits 0-9 and a-f stand for *)
Definition hex_value (l : bytes) : Z := fold_left (fun a c => 16 * a + (if c <=? 57 then c - 48 else c - 87)) l 0.
