(** Data sets, tables, columns, rows and filter statements:
    /repo/sttp/data/DataSet.go, DataTable.go, DataColumn.go, DataRow.go, the
    selection of ExpressionTree.go and the evaluation of
    FilterExpressionParser.go.

    Statements are given as syntax trees; the generated ANTLR parser that reads
    them from text is not modelled.  A table is a value: two variables holding
    one table are not modelled.  A row is read through the table that holds it
    (in Go through its parent, the table that created it).  A row is identified
    by [row_id], its address. *)
From Coq Require Import String.
From Verif Require Import Base GuidModel FormatModel StrModel CalModel NumModel ExprModel.
Open Scope Z_scope.

(** ** Columns and rows *)

(** DataColumn.go:31-38.  [dc_tree] is None for a column without expression;
    otherwise what GenerateExpressionTree (FilterExpressionParser.go:1306-1318)
    makes of the expression text. *)
Record dcol := DCol { dc_name : bytes; dc_type : dtype; dc_tree : option (res expr); dc_index : Z }.

(** What an [interface{}] of DataRow.values holds besides nil: one of the
    supported column types, the expression tree cached for a computed column,
    or a value of any other type. *)
Inductive slot := SCell (c : cell) | STree | SOther.

(** DataRow.go:40-43 *)
Record drow := Row { row_id : Z; row_values : list (option slot) }.

(** DataTable.go:39-45; [columnIndexes] is a map, latest assignment first, one
    entry per key; a nil row is None. *)
Record dtable := Table {
  dt_name : bytes;
  dt_indexes : list (bytes * Z);
  dt_columns : list dcol;
  dt_rows : list (option drow)
}.

(** Functions of other packages used beside those of [lib]. *)
Record dlib := {
  base :> lib;
  float_to_int_any : dtype -> double -> Z;       (* int8(f) .. uint64(f) out of range *)
  go_sort : (drow -> drow -> bool) -> list drow -> list drow   (* sort.Slice *)
}.

(** Go maps with string keys: one entry per key. *)
Fixpoint map_get {A} (m : list (bytes * A)) (k : bytes) : option A :=
  match m with
  | [] => None
  | (k', v) :: m' => if str_eqb k' k then Some v else map_get m' k
  end.
Definition map_delete {A} (m : list (bytes * A)) (k : bytes) : list (bytes * A) :=
  filter (fun e => negb (str_eqb (fst e) k)) m.
Definition map_put {A} (m : list (bytes * A)) (k : bytes) (v : A) : list (bytes * A) :=
  (k, v) :: map_delete m k.

Definition dtype_eqb (a b : dtype) : bool :=
  match a, b with
  | DString, DString | DBoolean, DBoolean | DDateTime, DDateTime | DSingle, DSingle | DDouble, DDouble
  | DDecimal, DDecimal | DGuid, DGuid | DInt8, DInt8 | DInt16, DInt16 | DInt32, DInt32 | DInt64, DInt64
  | DUInt8, DUInt8 | DUInt16, DUInt16 | DUInt32, DUInt32 | DUInt64, DUInt64 => true
  | _, _ => false
  end.

(** The column type whose Go type a cell has. *)
Definition cell_type (c : cell) : dtype :=
  match c with
  | CStr _ => DString | CBool _ => DBoolean | CTime _ => DDateTime | CSingle _ => DSingle | CDouble _ => DDouble
  | CDec _ => DDecimal | CGuid _ => DGuid | CInt8 _ => DInt8 | CInt16 _ => DInt16 | CInt32 _ => DInt32
  | CInt64 _ => DInt64 | CUInt8 _ => DUInt8 | CUInt16 _ => DUInt16 | CUInt32 _ => DUInt32 | CUInt64 _ => DUInt64
  end.

(** DataTable.go:47-53 newDataTable *)
Definition newDataTable (name : bytes) : dtable := Table name [] [] [].
(** DataTable.go:67-70 InitColumns *)
Definition InitColumns (t : dtable) : dtable := Table (dt_name t) [] [] (dt_rows t).
(** DataColumn.go:40-49 newDataColumn *)
Definition newDataColumn (name : bytes) (ty : dtype) (tree : option (res expr)) : dcol := DCol name ty tree (-1).
(** DataTable.go:73-77 AddColumn.  A column is added as a new value: adding one
    column twice, which renumbers it in both places, is not modelled. *)
Definition AddColumn (L : lib) (t : dtable) (c : dcol) : dtable :=
  let i := len (dt_columns t) in
  Table (dt_name t) (map_put (dt_indexes t) (ToUpper L (dc_name c)) i)
        (dt_columns t ++ [DCol (dc_name c) (dc_type c) (dc_tree c) i]) (dt_rows t).
(** DataTable.go:81-87 Column *)
Definition Column (t : dtable) (i : Z) : option dcol :=
  if (i <? 0) || (len (dt_columns t) <=? i) then None else nth_error (dt_columns t) (Z.to_nat i).
(** DataTable.go:91-97 ColumnByName *)
Definition ColumnByName (L : lib) (t : dtable) (name : bytes) : option dcol :=
  match map_get (dt_indexes t) (ToUpper L name) with Some i => Column t i | None => None end.
(** DataTable.go:101-109 ColumnIndex *)
Definition ColumnIndex (L : lib) (t : dtable) (name : bytes) : Z :=
  match ColumnByName L t name with Some c => dc_index c | None => -1 end.
(** DataTable.go:123-125 ColumnCount, 197-199 RowCount *)
Definition ColumnCount (t : dtable) : Z := len (dt_columns t).
Definition RowCount (t : dtable) : Z := len (dt_rows t).
(** DataTable.go:138-140 AddRow; None adds a nil row. *)
Definition AddRow (t : dtable) (r : option drow) : dtable :=
  Table (dt_name t) (dt_indexes t) (dt_columns t) (dt_rows t ++ [r]).
(** DataTable.go:144-150 Row *)
Definition TableRow (t : dtable) (i : Z) : option drow :=
  if (i <? 0) || (len (dt_rows t) <=? i) then None else match nth_error (dt_rows t) (Z.to_nat i) with Some r => r | None => None end.
(** DataRow.go:45-50 newDataRow, DataTable.go:180-182 CreateRow *)
Definition CreateRow (t : dtable) (id : Z) : drow := Row id (repeat None (length (dt_columns t))).

(** ** Reading and writing rows *)

(** DataRow.go:67-94 validateColumnType; targetType -1 is None. *)
Definition validateColumnType (t : dtable) (i : Z) (target : option dtype) (read : bool) : res dcol :=
  match Column t i with
  | None => Err
  | Some c =>
    if match target with Some ty => negb (dtype_eqb (dc_type c) ty) | None => false end then Err
    else if negb read && match dc_tree c with Some _ => true | None => false end then Err
    else Ok c
  end.

(** float32(n) and float32(f) *)
Definition s_of_Z (n : Z) : spec_float := binary_normalize 24 128 n 0 false.
Definition s_of_double (x : double) : spec_float :=
  match x with
  | S754_finite s m e => binary_normalize 24 128 (cond_Zopp s (Zpos m)) e s
  | _ => x
  end.

(** The integer conversions int8(n) .. uint64(n) to a column's type; None for
    the types that are not integers. *)
Definition int_cell (t : dtype) (n : Z) : option cell :=
  match t with
  | DInt8 => Some (CInt8 (i8 n)) | DInt16 => Some (CInt16 (i16 n)) | DInt32 => Some (CInt32 (i32 n)) | DInt64 => Some (CInt64 (i64 n))
  | DUInt8 => Some (CUInt8 (u8 n)) | DUInt16 => Some (CUInt16 (u16 n)) | DUInt32 => Some (CUInt32 (u32 n)) | DUInt64 => Some (CUInt64 (u64 n))
  | _ => None
  end.
Definition int_range (t : dtype) : Z * Z :=
  match t with
  | DInt8 => (- 2 ^ 7, 2 ^ 7) | DInt16 => (- 2 ^ 15, 2 ^ 15) | DInt32 => (- 2 ^ 31, 2 ^ 31) | DInt64 => (- 2 ^ 63, 2 ^ 63)
  | DUInt8 => (0, 2 ^ 8) | DUInt16 => (0, 2 ^ 16) | DUInt32 => (0, 2 ^ 32) | DUInt64 => (0, 2 ^ 64)
  | _ => (0, 0)
  end.
(** The Go conversions of a float64 to an integer type: truncation when the
    result is representable, otherwise whatever the implementation gives. *)
Definition float_to_int (D : dlib) (t : dtype) (f : double) : Z :=
  match d_trunc f with
  | Some n => if (fst (int_range t) <=? n) && (n <? snd (int_range t)) then n else float_to_int_any D t f
  | None => float_to_int_any D t f
  end.

(** An integer result, or an error for the remaining types. *)
Definition int_or_err (t : dtype) (n : Z) : res cell :=
  match int_cell t n with Some c => Ok c | None => Err end.
Definition some_or_err {A} (o : option A) : res A := match o with Some x => Ok x | None => Err end.

(** DataRow.go:152-192 convertFromBoolean *)
Definition row_convertFromBoolean (b : bool) (t : dtype) : res cell :=
  let n := if b then 1 else 0 in
  match t with
  | DString => Ok (CStr (if b then lit "true" else lit "false"))
  | DBoolean => Ok (CBool b)
  | DSingle => Ok (CSingle (s_of_Z n)) | DDouble => Ok (CDouble (d_of_Z n)) | DDecimal => Ok (CDec (dec_of_Z n))
  | _ => int_or_err t n
  end.
(** DataRow.go:196-231 convertFromInt32, 234-269 convertFromInt64 *)
Definition row_convertFromInt (n : Z) (t : dtype) : res cell :=
  match t with
  | DString => Ok (CStr (FormatInt n))
  | DBoolean => Ok (CBool (negb (n =? 0)))
  | DSingle => Ok (CSingle (s_of_Z n)) | DDouble => Ok (CDouble (d_of_Z n)) | DDecimal => Ok (CDec (dec_of_Z n))
  | _ => int_or_err t n
  end.
(** DataRow.go:272-309 convertFromDecimal *)
Definition row_convertFromDecimal (L : lib) (d : dec) (t : dtype) : res cell :=
  match t with
  | DString => Ok (CStr (format_decimal d))
  | DBoolean => Ok (CBool (negb (dec_equal d dec_zero)))
  | DSingle => Ok (CSingle (s_of_double (decimal_to_double d)))
  | DDouble => Ok (CDouble (decimal_to_double d))
  | DDecimal => Ok (CDec d)
  | _ => int_or_err t (dec_intpart d)
  end.
(** DataRow.go:312-347 convertFromDouble *)
Definition row_convertFromDouble (D : dlib) (f : double) (t : dtype) : res cell :=
  match t with
  | DString => Ok (CStr (format_float f))
  | DBoolean => Ok (CBool (negb (d_eqb f d_zero)))
  | DSingle => Ok (CSingle (s_of_double f))
  | DDouble => Ok (CDouble f)
  | DDecimal => let* d := NewFromFloat D f in Ok (CDec d)
  | _ => int_or_err t (float_to_int D t f)
  end.
(** DataRow.go:350-395 convertFromString *)
Definition row_convertFromString (D : dlib) (s : bytes) (t : dtype) : res cell :=
  match t with
  | DString => Ok (CStr s)
  | DBoolean => let* b := some_or_err (parse_bool s) in Ok (CBool b)
  | DDateTime => let* d := some_or_err (parse_date D s) in Ok (CTime d)
  | DSingle => let* f := some_or_err (parse_float s) in Ok (CSingle (s_of_double f))
  | DDouble => let* f := some_or_err (parse_float s) in Ok (CDouble f)
  | DDecimal => let* d := some_or_err (parse_decimal s) in Ok (CDec d)
  | DGuid => let* g := some_or_err (parse_guid s) in Ok (CGuid g)
  | DInt8 => let* n := some_or_err (parse_int 8 s) in int_or_err t n
  | DInt16 => let* n := some_or_err (parse_int 16 s) in int_or_err t n
  | DInt32 => let* n := some_or_err (parse_int 32 s) in int_or_err t n
  | DInt64 => let* n := some_or_err (parse_int 64 s) in int_or_err t n
  | DUInt8 => let* n := some_or_err (parse_uint 8 s) in int_or_err t n
  | DUInt16 => let* n := some_or_err (parse_uint 16 s) in int_or_err t n
  | DUInt32 => let* n := some_or_err (parse_uint 32 s) in int_or_err t n
  | DUInt64 => let* n := some_or_err (parse_uint 64 s) in int_or_err t n
  end.
(** DataRow.go:398-433 convertFromGuid *)
Definition row_convertFromGuid (L : lib) (g : guid) (t : dtype) : res cell :=
  match t with
  | DString => Ok (CStr (format_guid g))
  | DGuid => Ok (CGuid g)
  | _ => Err
  end.
(** DataRow.go:436-473 convertFromDateTime *)
Definition row_convertFromDateTime (L : lib) (d : Z) (t : dtype) : res cell :=
  let n := i64 (Unix d) in
  match t with
  | DString => Ok (CStr (format_date d))
  | DBoolean => Ok (CBool (n =? 0))
  | DDateTime => Ok (CTime d)
  | DSingle => Ok (CSingle (s_of_Z n)) | DDouble => Ok (CDouble (d_of_Z n)) | DDecimal => Ok (CDec (dec_of_Z n))
  | DGuid => Err
  | _ => int_or_err t n
  end.

(** DataRow.go:127-149: the conversion of an evaluated expression to the type
    of the column; a Null reads as the zero value of its type. *)
Definition computed_cell (D : dlib) (v : ve) (t : dtype) : res cell :=
  match ve_type v with
  | VBoolean => let* x := booleanValue v in row_convertFromBoolean x t
  | VInt32 => let* x := int32Value v in row_convertFromInt x t
  | VInt64 => let* x := int64Value v in row_convertFromInt x t
  | VDecimal => let* x := decimalValue v in row_convertFromDecimal D x t
  | VDouble => let* x := doubleValue v in row_convertFromDouble D x t
  | VString => let* x := stringValue v in row_convertFromString D x t
  | VGuid => let* x := guidValue v in row_convertFromGuid D x t
  | VDateTime => let* x := dateTimeValue v in row_convertFromDateTime D x t
  | VUndefined => Err
  end.

(** The type assertion value.(T) of the typed getters; nil is Null. *)
Definition assert_type (t : dtype) (v : option slot) : res (option cell) :=
  match v with
  | None => Ok None
  | Some (SCell c) => if dtype_eqb (cell_type c) t then Ok (Some c) else Panic
  | Some _ => Panic
  end.

(** DataRow.go:96-112 expressionTree: the slot of a computed column holds nil
    or the tree parsed at the first read.  The write to the slot is not
    modelled: the tree is the column's. *)
Definition cached_tree (vals : list (option slot)) (i : Z) (tree : res expr) : res expr :=
  let* v := idx vals i in
  match v with None | Some STree => tree | Some _ => Panic end.

(** DataRow.go:114-149 getComputedValue, reading other columns with [get]. *)
Definition getComputedValue (D : dlib) (get : row_reader) (vals : list (option slot)) (i : Z) (tree : res expr) (t : dtype) : res cell :=
  let* e := cached_tree vals i tree in
  let* v := Evaluate D (Some get) e in
  computed_cell D v t.

(** DataRow.go:755-1440: the fifteen typed getters StringValue .. UInt64Value,
    which differ in the type only.  [depth] bounds how many computed columns
    are being evaluated inside each other: the Go program has no bound and ends
    with a stack overflow, a panic here, if none suffices. *)
Fixpoint TypedValue (depth : nat) (D : dlib) (t : dtable) (vals : list (option slot)) (i : Z) (ty : dtype) : res (option cell) :=
  match depth with
  | O => Panic
  | S depth' =>
    let* c := validateColumnType t i (Some ty) true in
    match dc_tree c with
    | Some tree =>
      let* x := getComputedValue D (TypedValue depth' D t vals) vals i tree (dc_type c) in
      assert_type ty (Some (SCell x))
    | None => let* v := idx vals i in assert_type ty v
    end
  end.

(** DataRow.go:484-496 Value *)
Definition Value (depth : nat) (D : dlib) (t : dtable) (vals : list (option slot)) (i : Z) : res (option slot) :=
  let* c := validateColumnType t i None true in
  match dc_tree c with
  | Some tree => let* x := getComputedValue D (TypedValue depth D t vals) vals i tree (dc_type c) in Ok (Some (SCell x))
  | None => idx vals i
  end.
(** DataRow.go:57-65 getColumnIndex *)
Definition getColumnIndex (L : lib) (t : dtable) (name : bytes) : res Z :=
  match ColumnByName L t name with Some c => Ok (dc_index c) | None => Err end.
(** DataRow.go:499-507 ValueByName *)
Definition ValueByName (L : lib) (t : dtable) (vals : list (option slot)) (name : bytes) : res (option slot) :=
  let* i := getColumnIndex L t name in idx vals i.
(** DataRow.go:792-1440: the fifteen typed getters by name. *)
Definition TypedValueByName (depth : nat) (D : dlib) (t : dtable) (vals : list (option slot)) (name : bytes) (ty : dtype) : res (option cell) :=
  let* i := getColumnIndex D t name in TypedValue depth D t vals i ty.

(** Assignment to a slice element. *)
Definition slice_set {A} (l : list A) (i : Z) (v : A) : res (list A) :=
  if (i <? 0) || (len l <=? i) then Panic else Ok (firstn (Z.to_nat i) l ++ v :: skipn (S (Z.to_nat i)) l).
(** DataRow.go:510-519 SetValue *)
Definition SetValue (t : dtable) (vals : list (option slot)) (i : Z) (v : option slot) : res (list (option slot)) :=
  let* _ := validateColumnType t i None false in slice_set vals i v.
(** DataRow.go:522-530 SetValueByName *)
Definition SetValueByName (L : lib) (t : dtable) (vals : list (option slot)) (name : bytes) (v : option slot) : res (list (option slot)) :=
  let* i := getColumnIndex L t name in SetValue t vals i v.

(** DataRow.go:578-588 checkState and 590-737: the text of a value read with
    its own type's getter. *)
Definition cell_text (D : dlib) (c : cell) : bytes :=
  match c with
  | CStr s => s
  | CBool b => if b then lit "true" else lit "false"
  | CTime d => format_date d
  | CSingle f => format_single f
  | CDouble f => format_float f
  | CDec d => format_decimal d
  | CGuid g => format_guid g
  | CInt8 n | CInt16 n | CInt32 n | CInt64 n | CUInt8 n | CUInt16 n | CUInt32 n | CUInt64 n => FormatInt n
  end.
(** DataRow.go:535-576 ColumnValueAsString *)
Definition ColumnValueAsString (depth : nat) (D : dlib) (t : dtable) (vals : list (option slot)) (c : option dcol) : res bytes :=
  match c with
  | None => Ok []
  | Some c =>
    match TypedValue depth D t vals (dc_index c) (dc_type c) with
    | Ok (Some x) => Ok (cell_text D x)
    | Ok None => Ok (lit "<NULL>")
    | Err => Ok []
    | Panic => Panic
    end
  end.
(** DataRow.go:739-749 ValueAsString, ValueAsStringByName *)
Definition ValueAsString (depth : nat) (D : dlib) (t : dtable) (vals : list (option slot)) (i : Z) : res bytes :=
  ColumnValueAsString depth D t vals (Column t i).
Definition ValueAsStringByName (depth : nat) (D : dlib) (t : dtable) (vals : list (option slot)) (name : bytes) : res bytes :=
  ColumnValueAsString depth D t vals (ColumnByName D t name).

(** DataTable.go:185-194 CloneRow: the loop over the columns i, i+1, ..;
    errors are dropped and leave nil. *)
Fixpoint clone_loop (depth : nat) (D : dlib) (t : dtable) (source : list (option slot)) (n : nat) (i : Z) (vals : list (option slot)) : res (list (option slot)) :=
  match n with
  | O => Ok vals
  | S n' =>
    let* v := match Value depth D t source i with Ok v => Ok v | Err => Ok None | Panic => Panic end in
    let* vals := match SetValue t vals i v with Ok vals' => Ok vals' | Err => Ok vals | Panic => Panic end in
    clone_loop depth D t source n' (i + 1) vals
  end.
Definition CloneRow (depth : nat) (D : dlib) (t : dtable) (source : drow) (id : Z) : res drow :=
  let* vals := clone_loop depth D t (row_values source) (length (dt_columns t)) 0 (row_values (CreateRow t id)) in
  Ok (Row id vals).

(** DataTable.go:154-176 RowsWhere: the loop *)
Fixpoint rows_where (p : drow -> bool) (limit : Z) (rows : list (option drow)) (matching : list drow) (count : Z) : list drow :=
  match rows with
  | [] => matching
  | None :: rest => rows_where p limit rest matching count
  | Some r :: rest =>
    if p r then
      let matching := matching ++ [r] in
      let count := count + 1 in
      if (-1 <? limit) && (limit <=? count) then matching else rows_where p limit rest matching count
    else rows_where p limit rest matching count
  end.
Definition RowsWhere (t : dtable) (p : drow -> bool) (limit : Z) : list drow := rows_where p limit (dt_rows t) [] 0.

(** ** Ordering rows *)

(** DataRow.go:1777-1787 nullCompare *)
Definition nullCompare (left right : bool) : Z :=
  if negb left && negb right then 0 else if left then 1 else -1.

(** -1, 0, 1 from a less-than test. *)
Definition three_way {A} (lt : A -> A -> bool) (a b : A) : Z := if lt a b then -1 else if lt b a then 1 else 0.

(** DataRow.go:1491-1771: the comparison of two values of one column type.
    Values of two different types do not occur. *)
Definition compare_cells (L : lib) (exact : bool) (a b : cell) : Z :=
  match a, b with
  | CStr x, CStr y => if exact then str_compare x y else str_compare (ToUpper L x) (ToUpper L y)
  | CBool x, CBool y => if x && negb y then -1 else if negb x && y then 1 else 0
  | CTime x, CTime y => three_way Z.ltb x y
  | CSingle x, CSingle y => three_way SFltb x y
  | CDouble x, CDouble y => three_way d_ltb x y
  | CDec x, CDec y => if dec_cmp x y <? 0 then -1 else if 0 <? dec_cmp x y then 1 else 0
  | CGuid x, CGuid y => if Compare x y <? 0 then -1 else if 0 <? Compare x y then 1 else 0
  | CInt8 x, CInt8 y | CInt16 x, CInt16 y | CInt32 x, CInt32 y | CInt64 x, CInt64 y
  | CUInt8 x, CUInt8 y | CUInt16 x, CUInt16 y | CUInt32 x, CUInt32 y | CUInt64 x, CUInt64 y => three_way Z.ltb x y
  | _, _ => 0
  end.

(** The value of a read whose error counts as no value. *)
Definition value_or_none (r : res (option cell)) : res (option cell) :=
  match r with Ok v => Ok v | Err => Ok None | Panic => Panic end.

(** DataRow.go:1475-1775 CompareDataRowColumns for two rows of one table *)
Definition CompareDataRowColumns (depth : nat) (D : dlib) (t : dtable) (l r : drow) (i : Z) (exact : bool) : res Z :=
  match Column t i with
  | None => Err
  | Some c =>
    let* x := value_or_none (TypedValue depth D t (row_values l) i (dc_type c)) in
    let* y := value_or_none (TypedValue depth D t (row_values r) i (dc_type c)) in
    match x, y with
    | Some a, Some b => Ok (compare_cells D exact a b)
    | _, _ => Ok (nullCompare (match x with Some _ => true | None => false end) (match y with Some _ => true | None => false end))
    end
  end.

(** OrderByTerm.go:27-36 *)
Record order_term := OrderBy { ob_column : Z; ob_ascending : bool; ob_exact : bool }.

(** ExpressionTree.go:129-155: the less function of the sort; an error of the
    comparison counts as equality. *)
Fixpoint row_less (depth : nat) (D : dlib) (t : dtable) (terms : list order_term) (l r : drow) : res bool :=
  match terms with
  | [] => Ok false
  | o :: rest =>
    match (if ob_ascending o then CompareDataRowColumns depth D t l r (ob_column o) (ob_exact o)
           else CompareDataRowColumns depth D t r l (ob_column o) (ob_exact o)) with
    | Panic => Panic
    | Err => row_less depth D t rest l r
    | Ok c => if c <? 0 then Ok true else if 0 <? c then Ok false else row_less depth D t rest l r
    end
  end.

(** sort.Slice with a less function that may panic.  Simplified: it panics as
    soon as two of the rows cannot be compared, although sort.Slice might not
    compare these two. *)
Definition sort_rows (D : dlib) (less : drow -> drow -> res bool) (rows : list drow) : res (list drow) :=
  if (2 <=? len rows) && existsb (fun a => existsb (fun b => is_panic (less a b)) rows) rows then Panic
  else Ok (go_sort D (fun a b => match less a b with Ok x => x | _ => false end) rows).

(** ** Selecting rows *)

(** ExpressionTree.go:42-60 *)
Record etree := Tree { et_table : bytes; et_top : Z; et_order : list order_term; et_root : expr }.

(** ExpressionTree.go:103-125: the loop of SelectWhere *)
Fixpoint select_loop (eval : drow -> res ve) (pred : ve -> res bool) (limited : bool) (top : Z) (rows : list (option drow)) (matched : list drow) : res (list drow) :=
  match rows with
  | [] => Ok matched
  | r :: rest =>
    if limited && (-1 <? top) && (top <=? len matched) then Ok matched
    else match r with
         | None => select_loop eval pred limited top rest matched
         | Some row =>
           let* v := eval row in
           let* b := pred v in
           select_loop eval pred limited top rest (if b : bool then matched ++ [row] else matched)
         end
  end.

(** ExpressionTree.go:91-160 SelectWhere *)
Definition SelectWhere (depth : nat) (D : dlib) (et : etree) (t : option dtable) (pred : ve -> res bool) (applyLimit applySort : bool) : res (list drow) :=
  match t with
  | None => Err
  | Some t =>
    let* matched := select_loop (fun r => Evaluate D (Some (TypedValue depth D t (row_values r))) (et_root et)) pred applyLimit (et_top et) (dt_rows t) [] in
    if applySort && (0 <? len matched) && (0 <? len (et_order et)) then sort_rows D (row_less depth D t (et_order et)) matched
    else Ok matched
  end.

(** ExpressionTree.go:76-84: the predicate of Select *)
Definition select_predicate (v : ve) : res bool :=
  if negb (vtype_eqb (ve_type v) VBoolean) then Err else booleanValue v.
(** ExpressionTree.go:75-85 Select *)
Definition Select (depth : nat) (D : dlib) (et : etree) (t : option dtable) : res (list drow) :=
  SelectWhere depth D et t select_predicate true true.

(** DataTable.go:253-275 DataTable.Select, on the parsed condition and order:
    the statement text it composes is in TextModel. *)
Definition TableSelect (depth : nat) (D : dlib) (t : dtable) (condition : expr) (order : list order_term) (limit : Z) : res (list drow) :=
  Select depth D (Tree (dt_name t) (if 0 <? limit then limit else -1) order condition) (Some t).

(** ** Data sets *)

(** DataSet.go:54-59; [tables] is a map. *)
Definition dset := list (bytes * dtable).
(** DataSet.go:62-67 NewDataSet *)
Definition NewDataSet : dset := [].
(** DataSet.go:70-72 AddTable *)
Definition AddTable (L : lib) (ds : dset) (t : dtable) : dset := map_put ds (ToUpper L (dt_name t)) t.
(** DataSet.go:76-82 Table *)
Definition DataSetTable (L : lib) (ds : dset) (name : bytes) : option dtable := map_get ds (ToUpper L name).
(** DataSet.go:85-104 TableNames, Tables, in the order of the map *)
Definition TableNames (ds : dset) : list bytes := map (fun e => dt_name (snd e)) ds.
Definition Tables (ds : dset) : list dtable := map snd ds.
(** DataSet.go:113-115 TableCount *)
Definition TableCount (ds : dset) : Z := len ds.
(** DataSet.go:120-129 RemoveTable *)
Definition RemoveTable (L : lib) (ds : dset) (name : bytes) : dset * bool :=
  let k := ToUpper L name in
  match map_get ds k with Some _ => (map_delete ds k, true) | None => (ds, false) end.

(** ** Filter statements *)

(** The syntax of one ordering term: FilterExpressionParser.go:431-433 *)
Record order_clause := OrderClause { oc_exact : bool; oc_column : bytes; oc_desc : bool }.

(** One filterExpressionStatement: FilterExpressionParser.go:398-404, 422-434,
    481-487.  Conditions are given with their columns resolved. *)
Inductive statement :=
| SGuidLiteral (g : guid)
| SMeasurementKey (text : bytes)
| SPointTag (text : bytes)
| SFilter (top : option bytes) (table : bytes) (condition : expr) (order : list order_clause)
| SExpression (condition : expr).

(** TableIDFields.go:27-36 *)
Record id_fields := IDFields { f_signal_id : bytes; f_key : bytes; f_tag : bytes }.

(** FilterExpressionParser.go:42-82: the settings of the parser ... *)
Record fparser := Parser {
  p_dataset : option dset;
  p_primary : bytes;
  p_fields : list (bytes * option id_fields);
  p_track_rows : bool;
  p_track_ids : bool
}.
(** ... and its results; a nil set is None. *)
Record fstate := FState {
  fs_count : Z;
  fs_rows : list drow;
  fs_rowset : option (list Z);
  fs_ids : list guid;
  fs_idset : option (list guid);
  fs_trees : list etree
}.

(** FilterExpressionParser.go:181-193 Table *)
Definition parser_table (L : lib) (p : fparser) (name : bytes) : res dtable :=
  match p_dataset p with None => Err | Some ds => some_or_err (DataSetTable L ds name) end.

(** /repo/sttp/hashset/HashSet.go:46-53 Add on sets of rows and of signal IDs; a nil map panics. *)
Definition set_add {A} (eqb : A -> A -> bool) (s : option (list A)) (x : A) : res (option (list A) * bool) :=
  match s with
  | None => Panic
  | Some l => if existsb (eqb x) l then Ok (s, false) else Ok (Some (x :: l), true)
  end.

(** A set made by adding the elements one by one. *)
Definition set_of {A} (eqb : A -> A -> bool) (l : list A) : list A :=
  fold_left (fun s x => if existsb (eqb x) s then s else x :: s) l [].

(** FilterExpressionParser.go:306-327 initializeSetOperations *)
Definition initializeSetOperations (p : fparser) (s : fstate) : fstate :=
  let rowset := match fs_rowset s with
                | None => if p_track_rows p then Some (set_of Z.eqb (map row_id (fs_rows s))) else None
                | x => x end in
  let idset := match fs_idset s with
               | None => if p_track_ids p then Some (set_of Equal (fs_ids s)) else None
               | x => x end in
  FState (fs_count s) (fs_rows s) rowset (fs_ids s) idset (fs_trees s).

(** FilterExpressionParser.go:331-334, 346-348 and 555-561: one more row *)
Definition add_row (p : fparser) (s : fstate) (r : drow) : res fstate :=
  if negb (p_track_rows p) then Ok s
  else if 1 <? fs_count s then
    let* (set, added) := set_add Z.eqb (fs_rowset s) (row_id r) in
    Ok (FState (fs_count s) (if added : bool then fs_rows s ++ [r] else fs_rows s) set (fs_ids s) (fs_idset s) (fs_trees s))
  else Ok (FState (fs_count s) (fs_rows s ++ [r]) (fs_rowset s) (fs_ids s) (fs_idset s) (fs_trees s)).
(** FilterExpressionParser.go:336-342, 350-356 and 508-516: one more signal ID,
    unless zero *)
Definition add_id (s : fstate) (g : guid) : res fstate :=
  if IsZero g then Ok s
  else if 1 <? fs_count s then
    let* (set, added) := set_add Equal (fs_idset s) g in
    Ok (FState (fs_count s) (fs_rows s) (fs_rowset s) (if added : bool then fs_ids s ++ [g] else fs_ids s) set (fs_trees s))
  else Ok (FState (fs_count s) (fs_rows s) (fs_rowset s) (fs_ids s ++ [g]) (fs_idset s) (fs_trees s)).

(** GuidValue as used for signal IDs: Null, an error and another type of
    column give no ID. *)
Definition signal_id (depth : nat) (D : dlib) (t : dtable) (r : drow) (i : Z) : res (option guid) :=
  let* v := value_or_none (TypedValue depth D t (row_values r) i DGuid) in
  Ok (match v with Some (CGuid g) => Some g | _ => None end).

(** FilterExpressionParser.go:329-357 addMatchedRow *)
Definition addMatchedRow (depth : nat) (D : dlib) (p : fparser) (t : dtable) (s : fstate) (r : drow) (i : Z) : res fstate :=
  let* s := add_row p s r in
  if p_track_ids p then
    let* g := signal_id depth D t r i in
    match g with Some g => add_id s g | None => Ok s end
  else Ok s.

(** FilterExpressionParser.go:359-383 mapMatchedFieldRow *)
Fixpoint map_field_loop (depth : nat) (D : dlib) (t : dtable) (i : Z) (text : bytes) (rows : list (option drow)) : res (option drow) :=
  match rows with
  | [] => Ok None
  | None :: rest => map_field_loop depth D t i text rest
  | Some r :: rest =>
    let* v := value_or_none (TypedValue depth D t (row_values r) i DString) in
    match v with
    | Some (CStr x) => if str_eqb text (ToUpper D x) then Ok (Some r) else map_field_loop depth D t i text rest
    | _ => map_field_loop depth D t i text rest
    end
  end.
Definition mapMatchedFieldRow (depth : nat) (D : dlib) (p : fparser) (t : dtable) (s : fstate) (column text : bytes) (i : Z) : res fstate :=
  match ColumnByName D t column with
  | None => Ok s
  | Some c =>
    let* r := map_field_loop depth D t (dc_index c) (ToUpper D text) (dt_rows t) in
    match r with Some r => addMatchedRow depth D p t s r i | None => Ok s end
  end.

(** FilterExpressionParser.go:543-570: the first row with the signal ID *)
Fixpoint map_guid_loop (depth : nat) (D : dlib) (t : dtable) (i : Z) (g : guid) (rows : list (option drow)) : res (option drow) :=
  match rows with
  | [] => Ok None
  | None :: rest => map_guid_loop depth D t i g rest
  | Some r :: rest =>
    let* v := signal_id depth D t r i in
    match v with
    | Some x => if Equal x g then Ok (Some r) else map_guid_loop depth D t i g rest
    | None => map_guid_loop depth D t i g rest
    end
  end.

(** FilterExpressionParser.go:491-580 ExitIdentifierStatement, when rows or
    signal IDs are tracked *)
Definition identifier (depth : nat) (D : dlib) (p : fparser) (s : fstate) (x : statement) : res fstate :=
  let* s := match x with
            | SGuidLiteral g => if p_track_ids p then add_id s g else Ok s
            | _ => Ok s
            end in
  if match x with SGuidLiteral _ => negb (p_track_rows p) | _ => false end then Ok s
  else match p_dataset p with
  | None => Ok s
  | Some ds =>
    match DataSetTable D ds (p_primary p) with
    | None => Ok s
    | Some t =>
      match map_get (p_fields p) (p_primary p) with
      | Some (Some f) =>
        match ColumnByName D t (f_signal_id f) with
        | None => Ok s
        | Some c =>
          match x with
          | SGuidLiteral g =>
            if IsZero g then Ok s
            else let* r := map_guid_loop depth D t (dc_index c) g (dt_rows t) in
                 match r with Some r => add_row p s r | None => Ok s end
          | SMeasurementKey text => mapMatchedFieldRow depth D p t s (f_key f) text (dc_index c)
          | SPointTag text => mapMatchedFieldRow depth D p t s (f_tag f) text (dc_index c)
          | _ => Ok s
          end
        end
      | _ => Ok s
      end
    end
  end.

(** strconv.Atoi: a value out of the range of int is an error. *)
Definition digit_byte (b : Z) : bool := (48 <=? b) && (b <=? 57).
Fixpoint digits_val (acc : Z) (l : bytes) : Z :=
  match l with [] => acc | b :: t => digits_val (10 * acc + (b - 48)) t end.
Definition Atoi (s : bytes) : option Z :=
  let '(neg, d) := match s with
                   | b :: t => if b =? 45 then (true, t) else if b =? 43 then (false, t) else (false, s)
                   | [] => (false, s)
                   end in
  match d with
  | [] => None
  | _ => if forallb digit_byte d then
           let v := if neg then - digits_val 0 d else digits_val 0 d in
           if (- 2 ^ 63 <=? v) && (v <? 2 ^ 63) then Some v else None
         else None
  end.

(** FilterExpressionParser.go:459-478: the order by terms *)
Fixpoint order_terms (L : lib) (t : dtable) (l : list order_clause) : res (list order_term) :=
  match l with
  | [] => Ok []
  | o :: rest =>
    let* c := some_or_err (ColumnByName L t (oc_column o)) in
    let* terms := order_terms L t rest in
    Ok (OrderBy (dc_index c) (negb (oc_desc o)) (negb (oc_exact o)) :: terms)
  end.

(** FilterExpressionParser.go:437-479 EnterFilterStatement: the tree of a
    filter statement *)
Definition filter_tree (L : lib) (p : fparser) (top : option bytes) (table : bytes) (condition : expr) (order : list order_clause) : res etree :=
  let* t := parser_table L p table in
  let* terms := order_terms L t order in
  Ok (Tree table (match top with Some x => match Atoi x with Some n => n | None => -1 end | None => -1 end) terms condition).

Definition add_tree (s : fstate) (e : etree) : fstate :=
  FState (fs_count s) (fs_rows s) (fs_rowset s) (fs_ids s) (fs_idset s) (fs_trees s ++ [e]).

(** FilterExpressionParser.go:408-420 EnterFilterExpressionStatement and the
    visit of the statement *)
Definition visit (depth : nat) (D : dlib) (p : fparser) (s : fstate) (x : statement) : res fstate :=
  let s := FState (fs_count s + 1) (fs_rows s) (fs_rowset s) (fs_ids s) (fs_idset s) (fs_trees s) in
  let s := if fs_count s =? 2 then initializeSetOperations p s else s in
  match x with
  | SFilter top table condition order => let* e := filter_tree D p top table condition order in Ok (add_tree s e)
  | SExpression condition => Ok (add_tree s (Tree [] (-1) [] condition))
  | _ => identifier depth D p s x
  end.
Fixpoint visit_all (depth : nat) (D : dlib) (p : fparser) (s : fstate) (l : list statement) : res fstate :=
  match l with [] => Ok s | x :: rest => let* s := visit depth D p s x in visit_all depth D p s rest end.

(** FilterExpressionParser.go:248-257: the predicate of Evaluate *)
Definition evaluate_predicate (v : ve) : res bool :=
  if vtype_eqb (ve_type v) VBoolean then booleanValue v else Ok false.

Fixpoint add_matched (depth : nat) (D : dlib) (p : fparser) (t : dtable) (i : Z) (s : fstate) (rows : list drow) : res fstate :=
  match rows with
  | [] => Ok s
  | r :: rest => let* s := addMatchedRow depth D p t s r i in add_matched depth D p t i s rest
  end.

(** FilterExpressionParser.go:229-279: one expression tree *)
Definition evaluate_tree (depth : nat) (D : dlib) (p : fparser) (limit sort : bool) (s : fstate) (e : etree) : res fstate :=
  let* name := (if len (et_table e) =? 0 then (if len (p_primary p) =? 0 then Err else Ok (p_primary p)) else Ok (et_table e)) in
  let* t := parser_table D p name in
  let* matched := SelectWhere depth D e (Some t) evaluate_predicate limit sort in
  let* i := (if p_track_ids p then
               match map_get (p_fields p) (dt_name t) with
               | Some (Some f) => let* c := some_or_err (ColumnByName D t (f_signal_id f)) in Ok (dc_index c)
               | _ => Err
               end
             else Ok (-1)) in
  add_matched depth D p t i s matched.
Fixpoint evaluate_trees (depth : nat) (D : dlib) (p : fparser) (limit sort : bool) (s : fstate) (l : list etree) : res fstate :=
  match l with
  | [] => Ok s
  | e :: rest => let* s := evaluate_tree depth D p limit sort s e in evaluate_trees depth D p limit sort s rest
  end.

(** FilterExpressionParser.go:284-304: a panic while visiting is an error. *)
Definition recovered {A} (x : res A) : res A := match x with Panic => Err | _ => x end.

(** FilterExpressionParser.go:202-282 Evaluate *)
Definition EvaluateStatements (depth : nat) (D : dlib) (p : fparser) (l : list statement) (limit sort : bool) : res fstate :=
  match p_dataset p with
  | None => Err
  | Some _ =>
    if negb (p_track_rows p) && negb (p_track_ids p) then Err
    else let* s := recovered (visit_all depth D p (FState 0 [] None [] None []) l) in
         evaluate_trees depth D p limit sort s (fs_trees s)
  end.

(** FilterExpressionParser.go:109-132 NewFilterExpressionParserForDataSet, for
    an expression that is not empty; DefaultTableIDFields is
    TableIDFields.go:40-46. *)
Definition DefaultTableIDFields : id_fields := IDFields (lit "SignalID") (lit "ID") (lit "PointTag").
Definition new_parser (ds : dset) (primary : bytes) (fields : option id_fields) (rows ids : bool) : fparser :=
  Parser (Some ds) primary
    (if 0 <? len primary then [(primary, Some (match fields with None => DefaultTableIDFields | Some f => f end))] else [])
    rows ids.

(** FilterExpressionParser.go:1375-1387 SelectDataRows *)
Definition SelectDataRows (depth : nat) (D : dlib) (ds : dset) (l : list statement) (primary : bytes) (fields : option id_fields) : res (list drow) :=
  let* s := EvaluateStatements depth D (new_parser ds primary fields true false) l true true in Ok (fs_rows s).
(** FilterExpressionParser.go:1412-1424 SelectDataRowSet: the row identities *)
Definition SelectDataRowSet (depth : nat) (D : dlib) (ds : dset) (l : list statement) (primary : bytes) (fields : option id_fields) : res (list Z) :=
  let p := new_parser ds primary fields true false in
  let* s := EvaluateStatements depth D p l true false in
  match fs_rowset (initializeSetOperations p s) with Some x => Ok x | None => Ok [] end.
(** FilterExpressionParser.go:1448-1463 SelectSignalIDSet *)
Definition SelectSignalIDSet (depth : nat) (D : dlib) (ds : dset) (l : list statement) (primary : bytes) (fields : option id_fields) : res (list guid) :=
  let p := new_parser ds primary fields false true in
  let* s := EvaluateStatements depth D p l true false in
  match fs_idset (initializeSetOperations p s) with Some x => Ok x | None => Ok [] end.
