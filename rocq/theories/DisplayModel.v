(** The texts that String() shows: DataColumn.go:75-85, DataRow.go:1441-1470,
    DataTable.go:224-246, DataSet.go:130-152, DataType.go:84-120,
    Constants.go:58-78, 124-150, 199-212, 345-435 and 522-583 (all in
    /repo/sttp/data), Constants.go:347-413 and 524-590 and SignalKind.go:75-107
    (in /repo/sttp/transport).

    Strings are byte lists.  Kinds of expressions, values, functions, operators and
    columns are those the library makes: the text of a number outside the
    enumeration, which only an application can make, is modelled for commands,
    responses and kinds of signals. *)
From Coq Require Import String.
From Verif Require Import Base FormatModel ExprModel TableModel.
Open Scope list_scope.
Open Scope Z_scope.

(** ** Names *)

(** DataType.go:84-120 *)
Definition dtype_name (t : dtype) : bytes :=
  lit match t with
      | DString => "String" | DBoolean => "Boolean" | DDateTime => "DateTime" | DSingle => "Single" | DDouble => "Double"
      | DDecimal => "Decimal" | DGuid => "Guid" | DInt8 => "Int8" | DInt16 => "Int16" | DInt32 => "Int32" | DInt64 => "Int64"
      | DUInt8 => "UInt8" | DUInt16 => "UInt16" | DUInt32 => "UInt32" | DUInt64 => "UInt64"
      end.
(** Constants.go:124-150 (data) *)
Definition vtype_name (t : vtype) : bytes :=
  lit match t with
      | VBoolean => "Boolean" | VInt32 => "Int32" | VInt64 => "Int64" | VDecimal => "Decimal" | VDouble => "Double"
      | VString => "String" | VGuid => "Guid" | VDateTime => "DateTime" | VUndefined => "Undefined"
      end.
(** Constants.go:199-212 (data) *)
Definition unary_name (u : unary) : bytes := lit match u with UPlus => "+" | UMinus => "-" | UNot => "~" end.
(** Constants.go:345-435 (data) *)
Definition func_name (f : func) : bytes :=
  lit match f with
      | FAbs => "Abs" | FCeiling => "Ceiling" | FCoalesce => "Coalesce" | FConvert => "Convert" | FContains => "Contains"
      | FDateAdd => "DateAdd" | FDateDiff => "DateDiff" | FDatePart => "DatePart" | FEndsWith => "EndsWith" | FFloor => "Floor"
      | FIIf => "IIf" | FIndexOf => "IndexOf" | FIsDate => "IsDate" | FIsInteger => "IsInteger" | FIsGuid => "IsGuid"
      | FIsNull => "IsNull" | FIsNumeric => "IsNumeric" | FLastIndexOf => "LastIndexOf" | FLen => "Len" | FLower => "Lower"
      | FMaxOf => "MaxOf" | FMinOf => "MinOf" | FNow => "Now" | FNthIndexOf => "NthIndexOf" | FPower => "Power"
      | FRegExMatch => "RegExMatch" | FRegExVal => "RegExVal" | FReplace => "Replace" | FReverse => "Reverse" | FRound => "Round"
      | FSplit => "Split" | FSqrt => "Sqrt" | FStartsWith => "StartsWith" | FStrCount => "StrCount" | FStrCmp => "StrCmp"
      | FSubStr => "SubStr" | FTrim => "Trim" | FTrimLeft => "TrimLeft" | FTrimRight => "TrimRight" | FUpper => "Upper"
      | FUtcNow => "UtcNow"
      end.
(** Constants.go:522-583 (data) *)
Definition oper_name (o : oper) : bytes :=
  lit match o with
      | OMultiply => "*" | ODivide => "/" | OModulus => "%" | OAdd => "+" | OSubtract => "-" | OBitShiftLeft => "<<" | OBitShiftRight => ">>"
      | OBitwiseAnd => "&" | OBitwiseOr => "|" | OBitwiseXor => "^" | OLessThan => "<" | OLessThanOrEqual => "<=" | OGreaterThan => ">"
      | OGreaterThanOrEqual => ">=" | OEqual => "=" | OEqualExactMatch => "===" | ONotEqual => "<>" | ONotEqualExactMatch => "!=="
      | OIsNull => "IS NULL" | OIsNotNull => "IS NOT NULL" | OLike => "LIKE" | OLikeExactMatch => "LIKE BINARY" | ONotLike => "NOT LIKE"
      | ONotLikeExactMatch => "NOT LIKE BINARY" | OAnd => "AND" | OOr => "OR"
      end.

(** strconv.FormatInt(x, 16), standard library, for x of at most 16 bits *)
Definition hex_digit (x : Z) : Z := if x <? 10 then 48 + x else 87 + x.
Fixpoint hex_digits (fuel : nat) (x : Z) (acc : bytes) : bytes :=
  match fuel with
  | O => acc
  | S f => if x <? 16 then hex_digit x :: acc else hex_digits f (x / 16) (hex_digit (x mod 16) :: acc)
  end.
Definition FormatHex (x : Z) : bytes := hex_digits 4 x [].
(** A switch with [return "0x" + strconv.FormatInt(int64(x), 16)] as default *)
Fixpoint named (table : list (Z * string)) (x : Z) : bytes :=
  match table with
  | [] => lit "0x" ++ FormatHex x
  | (c, n) :: table => if x =? c then lit n else named table x
  end.

(** Constants.go:314-345, 347-413 (transport): ServerCommandEnum is a byte;
    ConfirmUpdateBaseTimes (0x09) has no case. *)
Definition command_cases : list (Z * string) :=
  [(0, "Connect"); (1, "MetadataRefresh"); (2, "Subscribe"); (3, "Unsubscribe"); (4, "RotateCipherKeys"); (5, "UpdateProcessingInterval");
   (6, "DefineOperationalModes"); (7, "ConfirmNotification"); (8, "ConfirmBufferBlock"); (10, "ConfirmUpdateSignalIndexCache");
   (11, "ConfirmUpdateCipherKeys"); (12, "GetPrimaryMetadataSchema"); (13, "GetSignalSelectionSchema");
   (208, "UserCommand00"); (209, "UserCommand01"); (210, "UserCommand02"); (211, "UserCommand03"); (212, "UserCommand04"); (213, "UserCommand05");
   (214, "UserCommand06"); (215, "UserCommand07"); (216, "UserCommand08"); (217, "UserCommand09"); (218, "UserCommand10"); (219, "UserCommand11");
   (220, "UserCommand12"); (221, "UserCommand13"); (222, "UserCommand14"); (223, "UserCommand15")]%string.
Definition ServerCommandString (c : Z) : bytes := named command_cases c.
(** Constants.go:493-522, 524-590 (transport): ServerResponseEnum is a byte. *)
Definition response_cases : list (Z * string) :=
  [(128, "Succeeded"); (129, "Failed"); (130, "DataPacket"); (131, "UpdateSignalIndexCache"); (132, "UpdateBaseTimes"); (133, "UpdateCipherKeys");
   (134, "DataStartTime"); (135, "ProcessingComplete"); (136, "BufferBlock"); (137, "Notify"); (138, "ConfigurationChanged");
   (224, "UserResponse00"); (225, "UserResponse01"); (226, "UserResponse02"); (227, "UserResponse03"); (228, "UserResponse04"); (229, "UserResponse05");
   (230, "UserResponse06"); (231, "UserResponse07"); (232, "UserResponse08"); (233, "UserResponse09"); (234, "UserResponse10"); (235, "UserResponse11");
   (236, "UserResponse12"); (237, "UserResponse13"); (238, "UserResponse14"); (239, "UserResponse15"); (255, "NoOP")]%string.
Definition ServerResponseString (c : Z) : bytes := named response_cases c.
(** SignalKind.go:60-73, 75-107 (transport): SignalKindEnum has 16 bits. *)
Definition kind_cases : list (Z * string) :=
  [(0, "Angle"); (1, "Magnitude"); (2, "Frequency"); (3, "DfDt"); (4, "Status"); (5, "Digital"); (6, "Analog"); (7, "Calculation");
   (8, "Statistic"); (9, "Alarm"); (10, "Quality"); (11, "Unknown")]%string.
Definition SignalKindString (k : Z) : bytes := named kind_cases k.

(** ** Columns, rows, tables and data sets *)

(** The loops that write [", "] before every item but the first:
    DataTable.go:232-238, DataSet.go:138-145 *)
Fixpoint listing (first : bool) (items : list bytes) : bytes :=
  match items with
  | [] => []
  | x :: items => (if first then [] else lit ", ") ++ x ++ listing false items
  end.

(** DataColumn.go:75-85; computed is set exactly when the column has an expression
    (NewDataColumn, 40-48). *)
Definition ColumnString (c : dcol) : bytes :=
  let dataType := match dc_tree c with Some _ => lit "Computed " ++ dtype_name (dc_type c) | None => dtype_name (dc_type c) end in
  dc_name c ++ lit " (" ++ dataType ++ lit ")".

(** DataRow.go:1441-1470: the loop from column i on, then the rest *)
Fixpoint row_loop (depth : nat) (D : dlib) (t : dtable) (vals : list (option slot)) (n : nat) (i : Z) (image : bytes) : res bytes :=
  match n with
  | O => Ok image
  | S n =>
    let image := if 0 <? i then image ++ lit ", " else image in
    match Column t i with
    | None => Panic
    | Some c =>
      let stringColumn := dtype_eqb (dc_type c) DString in
      let image := if stringColumn then image ++ [34] else image in
      let* text := ValueAsString depth D t vals i in
      let image := image ++ text in
      let image := if stringColumn then image ++ [34] else image in
      row_loop depth D t vals n (i + 1) image
    end
  end.
Definition RowString (depth : nat) (D : dlib) (t : dtable) (vals : list (option slot)) : res bytes :=
  let* image := row_loop depth D t vals (length (dt_columns t)) 0 [91] in Ok (image ++ [93]).

(** DataTable.go:224-246 *)
Definition TableString (t : dtable) : res bytes :=
  let* rows := Int64With (len (dt_rows t)) 44 in
  Ok (dt_name t ++ lit " [" ++ listing true (map ColumnString (dt_columns t)) ++ lit "] x " ++ rows ++ lit " rows").

(** DataSet.go:130-152; [visited] are the entries of the map in the order of this
    iteration, which the language leaves open. *)
Definition DataSetString (name : bytes) (visited : dset) : bytes :=
  name ++ lit " [" ++ listing true (TableNames visited) ++ [93].
