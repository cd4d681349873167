(** Specification vocabulary for the values of computed columns (C131). *)
From Coq Require Import String QArith.
From Verif Require Import Base FormatSpec StrModel NumModel ExprModel ExprSpec FuncSpec TableModel.
Close Scope Q_scope.
Open Scope Z_scope.

(** Column [i] of table [t] is computed and of type [ty], and its expression comes to
    [v] for the row with the values [vals]. *)
Definition computed (D : dlib) (depth : nat) (t : dtable) (vals : list (option slot)) (i : Z) (ty : dtype) (v : ve) : Prop :=
  exists c e, Column t i = Some c /\ dc_type c = ty /\ dc_tree c = Some (Ok e) /\ idx vals i = Ok None /\
    Evaluate D (Some (TypedValue depth D t vals)) e = Ok v.

(** The number that a value counts as in a column of numbers: a date counts as the whole
    seconds since 1970. *)
Inductive counts_as : ve -> Q -> Prop :=
| counts_number v q : stands_for v q -> counts_as v q
| counts_date t n q : n * 1000000000 <= t < (n + 1) * 1000000000 -> is_i64 n -> (q == inject_Z n)%Q -> counts_as (vTime t) q.
(** ... where that is always a whole number *)
Inductive counts_whole : ve -> Z -> Prop :=
| counts_integer v n : whole v n -> counts_whole v n
| counts_seconds t n : n * 1000000000 <= t < (n + 1) * 1000000000 -> is_i64 n -> counts_whole (vTime t) n.

(** The integer types of columns: what they hold is from [lo] to below [hi]. *)
Inductive whole_type : dtype -> Z -> Z -> Prop :=
| type_i8 : whole_type DInt8 (-128) 128
| type_i16 : whole_type DInt16 (-32768) 32768
| type_i32 : whole_type DInt32 (-2147483648) 2147483648
| type_i64 : whole_type DInt64 (-9223372036854775808) 9223372036854775808
| type_u8 : whole_type DUInt8 0 256
| type_u16 : whole_type DUInt16 0 65536
| type_u32 : whole_type DUInt32 0 4294967296
| type_u64 : whole_type DUInt64 0 18446744073709551616.
Inductive holds_whole (n : Z) : dtype -> cell -> Prop :=
| hold_i8 : holds_whole n DInt8 (CInt8 n) | hold_i16 : holds_whole n DInt16 (CInt16 n)
| hold_i32 : holds_whole n DInt32 (CInt32 n) | hold_i64 : holds_whole n DInt64 (CInt64 n)
| hold_u8 : holds_whole n DUInt8 (CUInt8 n) | hold_u16 : holds_whole n DUInt16 (CUInt16 n)
| hold_u32 : holds_whole n DUInt32 (CUInt32 n) | hold_u64 : holds_whole n DUInt64 (CUInt64 n).

(** The value in a column of its own type *)
Inductive own_cell : ve -> cell -> Prop :=
| own_bool b : own_cell (vBool b) (CBool b)
| own_int32 n : own_cell (vInt32 n) (CInt32 n)
| own_int64 n : own_cell (vInt64 n) (CInt64 n)
| own_decimal d : own_cell (vDec d) (CDec d)
| own_double f : own_cell (vDouble f) (CDouble f)
| own_text s : own_cell (vStr s) (CStr s)
| own_guid g : own_cell (vGuid g) (CGuid g)
| own_date t : own_cell (vTime t) (CTime t).

(** The types of columns that a value of each type can be read in *)
Definition readable (v : vtype) (t : dtype) : Prop :=
  match v with
  | VString => True
  | VGuid => t = DGuid \/ t = DString
  | VDateTime => t <> DGuid
  | VUndefined => False
  | _ => t <> DGuid /\ t <> DDateTime
  end.

(** Texts: [s] writes the whole number [n] in decimal, with a sign or none and no
    superfluous zero. *)
Definition whole_text (n : Z) (s : bytes) : Prop :=
  exists d, is_decimal_of (Z.abs n) d /\ ((0 <= n /\ (s = d \/ s = 43 :: d)) \/ (n <= 0 /\ s = 45 :: d)).
Definition true_texts : list string := ["1"; "t"; "T"; "true"; "TRUE"; "True"]%string.
Definition false_texts : list string := ["0"; "f"; "F"; "false"; "FALSE"; "False"]%string.
