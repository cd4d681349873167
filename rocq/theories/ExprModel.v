(** The filter-expression evaluator: /repo/sttp/data/ExpressionTree.go,
    ValueExpression.go, UnaryExpression.go and the operation value types of
    Constants.go.

    An expression tree is given as data; the generated ANTLR parser that builds
    it from text is not modelled.  Error texts are not modelled: a returned
    [error] is [Err].  Every time is in UTC.  The functions of other packages
    that are not written out (Unicode case tables, parsing of fractional numbers
    and dates, formatting of decimals, math.Pow, regular
    expressions, the clock, float-to-integer conversions that Go leaves to the
    implementation) are the fields of [lib]; every theorem is about all of
    them unless it says otherwise. *)
From Coq Require Import String Ascii.
From Verif Require StampModel.
From Verif Require Export GoTextModel NumTextModel PowModel.
From Verif Require Import Base GuidModel FormatModel StrModel ReplaceModel CalModel NumModel.
Open Scope Z_scope.

(** A Go string literal. *)
Definition lit (s : string) : bytes :=
  map (fun a => Z.of_N (N_of_ascii a)) (list_ascii_of_string s).

(** Results of other packages' functions. *)
Record lib := {
  rune_upper : Z -> Z;                     (* unicode.ToUpper *)
  rune_lower : Z -> Z;                     (* unicode.ToLower *)
  rune_fold : Z -> Z -> bool;              (* equal under simple case folding *)
  decimal_of_double : double -> dec;       (* decimal.NewFromFloat, finite argument *)
  parse_date : bytes -> option Z;          (* dateparse.ParseAny *)
  math_pow : double -> double -> double;   (* math.Pow *)
  math_mod : double -> double -> double;   (* math.Mod *)
  float_to_int_wide : double -> Z;         (* int32(f), int64(f) out of range *)
  regex_find : bytes -> option (bytes -> option (Z * Z));  (* regexp.Compile, FindStringIndex *)
  regex_replace_fold : bytes -> bytes -> bytes -> bytes;   (* case-insensitive ReplaceAllString beyond ASCII *)
  clock : Z                                (* time.Now, one reading per evaluation *)
}.

(** DataSet.go:46 DateTimeFormat, for a time in UTC *)
Definition format_date (t : Z) : bytes := StampModel.DateTime_String (t, 0).

(** strings.ToUpper, strings.ToLower, strings.EqualFold over the rune tables. *)
Definition ToUpper (L : lib) (s : bytes) : bytes := encode_runes (map (rune_upper L) (runes_of s)).
Definition ToLower (L : lib) (s : bytes) : bytes := encode_runes (map (rune_lower L) (runes_of s)).
Fixpoint fold_all (f : Z -> Z -> bool) (a b : list Z) : bool :=
  match a, b with
  | [], [] => true
  | x :: a', y :: b' => f x y && fold_all f a' b'
  | _, _ => false
  end.
Definition EqualFold (L : lib) (s t : bytes) : bool := fold_all (rune_fold L) (runes_of s) (runes_of t).

(** ** Values *)

(** Constants.go:77-124 ExpressionValueType *)
Inductive vtype := VBoolean | VInt32 | VInt64 | VDecimal | VDouble | VString | VGuid | VDateTime | VUndefined.

Definition vtype_eqb (a b : vtype) : bool :=
  match a, b with
  | VBoolean, VBoolean | VInt32, VInt32 | VInt64, VInt64 | VDecimal, VDecimal | VDouble, VDouble
  | VString, VString | VGuid, VGuid | VDateTime, VDateTime | VUndefined, VUndefined => true
  | _, _ => false
  end.

(** Constants.go:152-164 IsIntegerType *)
Definition IsIntegerType (t : vtype) : bool :=
  match t with VBoolean | VInt32 | VInt64 => true | _ => false end.
(** Constants.go:166-180 IsNumericType *)
Definition IsNumericType (t : vtype) : bool :=
  match t with VBoolean | VInt32 | VInt64 | VDecimal | VDouble => true | _ => false end.

(** The dynamic values an [interface{}] of the evaluator holds.  [GInt] is a Go
    [int]. *)
Inductive gval :=
| GBool (b : bool) | GInt (n : Z) | GInt32 (n : Z) | GInt64 (n : Z) | GDec (d : dec)
| GDouble (f : double) | GStr (s : bytes) | GGuid (g : guid) | GTime (t : Z).

(** ValueExpression.go:37-41 ValueExpression; None is a nil value. *)
Record ve := VE { ve_type : vtype; ve_value : option gval }.

(** ValueExpression.go:47-107 NewValueExpression / newValueExpression: panics
    when the dynamic type is not the declared one ([debug] is true). *)
Definition NewValueExpression (t : vtype) (v : gval) : res ve :=
  match t, v with
  | VBoolean, GBool _ | VInt32, GInt32 _ | VInt64, GInt64 _ | VDecimal, GDec _ | VDouble, GDouble _
  | VString, GStr _ | VGuid, GGuid _ | VDateTime, GTime _ => Ok (VE t (Some v))
  | _, _ => Panic
  end.

(** ValueExpression.go:148-150 IsNull *)
Definition IsNull (v : ve) : bool := match ve_value v with None => true | Some _ => false end.
(** ValueExpression.go:162-183 NullValue *)
Definition NullValue (t : vtype) : ve := VE t None.
(** ValueExpression.go:153-159 True, False, EmptyString *)
Definition vTrue : ve := VE VBoolean (Some (GBool true)).
Definition vFalse : ve := VE VBoolean (Some (GBool false)).
Definition vEmptyString : ve := VE VString (Some (GStr [])).

(** ValueExpression.go:218-373: unchecked accessors; nil reads as the zero
    value, another dynamic type panics. *)
Definition booleanValue (v : ve) : res bool :=
  match ve_value v with None => Ok false | Some (GBool b) => Ok b | _ => Panic end.
Definition booleanValueAsInt (v : ve) : res Z :=
  let* b := booleanValue v in Ok (if b : bool then 1 else 0).
Definition int32Value (v : ve) : res Z :=
  match ve_value v with None => Ok 0 | Some (GInt32 n) => Ok n | _ => Panic end.
Definition int64Value (v : ve) : res Z :=
  match ve_value v with None => Ok 0 | Some (GInt64 n) => Ok n | _ => Panic end.
Definition decimalValue (v : ve) : res dec :=
  match ve_value v with None => Ok dec_zero | Some (GDec d) => Ok d | _ => Panic end.
Definition doubleValue (v : ve) : res double :=
  match ve_value v with None => Ok d_zero | Some (GDouble f) => Ok f | _ => Panic end.
Definition stringValue (v : ve) : res bytes :=
  match ve_value v with None => Ok [] | Some (GStr s) => Ok s | _ => Panic end.
Definition guidValue (v : ve) : res guid :=
  match ve_value v with None => Ok Empty | Some (GGuid g) => Ok g | _ => Panic end.
Definition dateTimeValue (v : ve) : res Z :=
  match ve_value v with None => Ok zero_time | Some (GTime t) => Ok t | _ => Panic end.

(** ValueExpression.go:185-196 integerValue *)
Definition integerValue (v : ve) (default : Z) : res Z :=
  match ve_type v with
  | VBoolean => booleanValueAsInt v
  | VInt32 => int32Value v
  | VInt64 => int64Value v
  | _ => Ok default
  end.

(** ValueExpression.go:124-146 String *)
Definition ve_String (L : lib) (v : ve) : res bytes :=
  match ve_type v with
  | VBoolean => let* b := booleanValue v in Ok (if b : bool then lit "true" else lit "false")
  | VInt32 => let* n := int32Value v in Ok (FormatInt n)
  | VInt64 => let* n := int64Value v in Ok (FormatInt n)
  | VDecimal => let* d := decimalValue v in Ok (format_decimal d)
  | VDouble => let* f := doubleValue v in Ok (format_float f)
  | VString => stringValue v
  | VGuid => let* g := guidValue v in Ok (format_guid g)
  | VDateTime => let* t := dateTimeValue v in Ok (format_date t)
  | VUndefined => Ok []
  end.

(** The Go conversions int32(f) and int64(f): truncation when the result is
    representable, otherwise whatever the implementation gives. *)
Definition float_to_i32 (L : lib) (f : double) : Z :=
  match d_trunc f with
  | Some n => if (- 2 ^ 31 <=? n) && (n <? 2 ^ 31) then n else i32 (float_to_int_wide L f)
  | None => i32 (float_to_int_wide L f)
  end.
Definition float_to_i64 (L : lib) (f : double) : Z :=
  match d_trunc f with
  | Some n => if (- 2 ^ 63 <=? n) && (n <? 2 ^ 63) then n else i64 (float_to_int_wide L f)
  | None => i64 (float_to_int_wide L f)
  end.

(** decimal.NewFromFloat: panics on a NaN or an infinity. *)
Definition NewFromFloat (L : lib) (f : double) : res dec :=
  if d_is_finite f then Ok (decimal_of_double L f) else Panic.

(** strconv.ParseBool; the error is dropped by the caller and the value false. *)
Definition ParseBool (s : bytes) : bool :=
  existsb (str_eqb s) [lit "1"; lit "t"; lit "T"; lit "TRUE"; lit "true"; lit "True"].

Definition decimal_of_string (L : lib) (s : bytes) : dec :=
  match parse_decimal s with Some d => d | None => dec_zero end.
Definition float_of_string (L : lib) (s : bytes) : double :=
  match parse_float s with Some f => f | None => parse_float_value s end.
Definition guid_of_string (s : bytes) : guid :=
  fst (guid_Parse s).
Definition date_of_string (L : lib) (s : bytes) : Z :=
  match parse_date L s with Some t => t | None => zero_time end.

(** ValueExpression.go:406-429 convertFromBoolean: the Int32 case passes a Go
    [int]. *)
Definition convertFromBoolean (L : lib) (v : ve) (t : vtype) : res ve :=
  let* n := booleanValueAsInt v in
  match t with
  | VBoolean => NewValueExpression t (GBool (negb (n =? 0)))
  | VInt32 => NewValueExpression t (GInt n)
  | VInt64 => NewValueExpression t (GInt64 n)
  | VDecimal => NewValueExpression t (GDec (dec_of_Z n))
  | VDouble => NewValueExpression t (GDouble (d_of_Z n))
  | VString => let* s := ve_String L v in NewValueExpression t (GStr s)
  | VGuid | VDateTime | VUndefined => Err
  end.
(** ValueExpression.go:431-454 convertFromInt32 *)
Definition convertFromInt32 (L : lib) (v : ve) (t : vtype) : res ve :=
  let* n := int32Value v in
  match t with
  | VBoolean => NewValueExpression t (GBool (negb (n =? 0)))
  | VInt32 => NewValueExpression t (GInt32 n)
  | VInt64 => NewValueExpression t (GInt64 n)
  | VDecimal => NewValueExpression t (GDec (dec_of_Z n))
  | VDouble => NewValueExpression t (GDouble (d_of_Z n))
  | VString => let* s := ve_String L v in NewValueExpression t (GStr s)
  | VGuid | VDateTime | VUndefined => Err
  end.
(** ValueExpression.go:456-479 convertFromInt64 *)
Definition convertFromInt64 (L : lib) (v : ve) (t : vtype) : res ve :=
  let* n := int64Value v in
  match t with
  | VBoolean => NewValueExpression t (GBool (negb (n =? 0)))
  | VInt32 => NewValueExpression t (GInt32 (i32 n))
  | VInt64 => NewValueExpression t (GInt64 n)
  | VDecimal => NewValueExpression t (GDec (dec_of_Z n))
  | VDouble => NewValueExpression t (GDouble (d_of_Z n))
  | VString => let* s := ve_String L v in NewValueExpression t (GStr s)
  | VGuid | VDateTime | VUndefined => Err
  end.
(** ValueExpression.go:481-505 convertFromDecimal *)
Definition convertFromDecimal (L : lib) (v : ve) (t : vtype) : res ve :=
  let* d := decimalValue v in
  match t with
  | VBoolean => NewValueExpression t (GBool (negb (dec_equal d dec_zero)))
  | VInt32 => NewValueExpression t (GInt32 (i32 (dec_intpart d)))
  | VInt64 => NewValueExpression t (GInt64 (dec_intpart d))
  | VDecimal => NewValueExpression t (GDec d)
  | VDouble => NewValueExpression t (GDouble (decimal_to_double d))
  | VString => let* s := ve_String L v in NewValueExpression t (GStr s)
  | VGuid | VDateTime | VUndefined => Err
  end.
(** ValueExpression.go:507-530 convertFromDouble *)
Definition convertFromDouble (L : lib) (v : ve) (t : vtype) : res ve :=
  let* f := doubleValue v in
  match t with
  | VBoolean => NewValueExpression t (GBool (negb (d_eqb f d_zero)))
  | VInt32 => NewValueExpression t (GInt32 (float_to_i32 L f))
  | VInt64 => NewValueExpression t (GInt64 (float_to_i64 L f))
  | VDecimal => let* d := NewFromFloat L f in NewValueExpression t (GDec d)
  | VDouble => NewValueExpression t (GDouble f)
  | VString => let* s := ve_String L v in NewValueExpression t (GStr s)
  | VGuid | VDateTime | VUndefined => Err
  end.
(** ValueExpression.go:532-565 convertFromString: parse errors are dropped. *)
Definition convertFromString (L : lib) (v : ve) (t : vtype) : res ve :=
  let* s := stringValue v in
  match t with
  | VBoolean => NewValueExpression t (GBool (ParseBool s))
  | VInt32 => NewValueExpression t (GInt32 (i32 (dec_intpart (decimal_of_string L s))))
  | VInt64 => NewValueExpression t (GInt64 (dec_intpart (decimal_of_string L s)))
  | VDecimal => NewValueExpression t (GDec (decimal_of_string L s))
  | VDouble => NewValueExpression t (GDouble (float_of_string L s))
  | VString => NewValueExpression t (GStr s)
  | VGuid => NewValueExpression t (GGuid (guid_of_string s))
  | VDateTime => NewValueExpression t (GTime (date_of_string L s))
  | VUndefined => Err
  end.
(** ValueExpression.go:567-588 convertFromGuid *)
Definition convertFromGuid (L : lib) (v : ve) (t : vtype) : res ve :=
  match t with
  | VString => let* s := ve_String L v in NewValueExpression t (GStr s)
  | VGuid => let* g := guidValue v in NewValueExpression t (GGuid g)
  | _ => Err
  end.
(** ValueExpression.go:590-614 convertFromDateTime *)
Definition convertFromDateTime (L : lib) (v : ve) (t : vtype) : res ve :=
  let* d := dateTimeValue v in
  let n := Unix d in
  match t with
  | VBoolean => NewValueExpression t (GBool (negb (n =? 0)))
  | VInt32 => NewValueExpression t (GInt32 (i32 n))
  | VInt64 => NewValueExpression t (GInt64 (i64 n))
  | VDecimal => NewValueExpression t (GDec (dec_of_Z (i64 n)))
  | VDouble => NewValueExpression t (GDouble (d_of_Z (i64 n)))
  | VString => let* s := ve_String L v in NewValueExpression t (GStr s)
  | VDateTime => NewValueExpression t (GTime d)
  | VGuid | VUndefined => Err
  end.

(** ValueExpression.go:375-404 Convert *)
Definition Convert (L : lib) (v : ve) (t : vtype) : res ve :=
  if IsNull v then Ok (NullValue t)
  else match ve_type v with
       | VBoolean => convertFromBoolean L v t
       | VInt32 => convertFromInt32 L v t
       | VInt64 => convertFromInt64 L v t
       | VDecimal => convertFromDecimal L v t
       | VDouble => convertFromDouble L v t
       | VString => convertFromString L v t
       | VGuid => convertFromGuid L v t
       | VDateTime => convertFromDateTime L v t
       | VUndefined => Ok (NullValue t)
       end.

(** ** Operators *)

(** Constants.go:447-522 ExpressionOperatorType *)
Inductive oper :=
| OMultiply | ODivide | OModulus | OAdd | OSubtract | OBitShiftLeft | OBitShiftRight
| OBitwiseAnd | OBitwiseOr | OBitwiseXor
| OLessThan | OLessThanOrEqual | OGreaterThan | OGreaterThanOrEqual
| OEqual | OEqualExactMatch | ONotEqual | ONotEqualExactMatch
| OIsNull | OIsNotNull | OLike | OLikeExactMatch | ONotLike | ONotLikeExactMatch | OAnd | OOr.

Definition is_add (o : oper) : bool := match o with OAdd => true | _ => false end.

(** Constants.go:739-867 deriveArithmeticOperationValueTypeFromX: the numeric
    cases of the five functions, then String for [+] only. *)
Definition deriveArithmeticFrom (o : oper) (l r : vtype) : res vtype :=
  match r with
  | VString => if is_add o then Ok VString else Err
  | VGuid | VDateTime | VUndefined => Err
  | _ =>
    match l with
    | VBoolean => Ok r
    | VInt32 => match r with VBoolean | VInt32 => Ok VInt32 | _ => Ok r end
    | VInt64 => match r with VBoolean | VInt32 | VInt64 => Ok VInt64 | _ => Ok r end
    | VDecimal => match r with VDouble => Ok VDouble | _ => Ok VDecimal end
    | _ => Ok VDouble
    end
  end.
(** Constants.go:713-737 deriveArithmeticOperationValueType *)
Definition deriveArithmetic (o : oper) (l r : vtype) : res vtype :=
  match l with
  | VBoolean | VInt32 | VInt64 | VDecimal | VDouble => deriveArithmeticFrom o l r
  | VString => if is_add o then Ok VString else Err
  | VGuid | VDateTime | VUndefined => Err
  end.
(** Constants.go:869-959 deriveIntegerOperationValueType and its FromX functions *)
Definition deriveInteger (l r : vtype) : res vtype :=
  match l, r with
  | VBoolean, VBoolean => Ok VBoolean
  | VBoolean, VInt32 => Ok VInt32
  | VBoolean, VInt64 => Ok VInt64
  | VInt32, (VBoolean | VInt32) => Ok VInt32
  | VInt32, VInt64 => Ok VInt64
  | VInt64, (VBoolean | VInt32 | VInt64) => Ok VInt64
  | _, _ => Err
  end.
(** Constants.go:961-1143 deriveComparisonOperationValueType and its FromX functions *)
Definition deriveComparison (l r : vtype) : res vtype :=
  match l with
  | VString => Ok VString
  | VBoolean =>
    match r with
    | VBoolean | VString => Ok VBoolean
    | VInt32 => Ok VInt32 | VInt64 => Ok VInt64 | VDecimal => Ok VDecimal | VDouble => Ok VDouble
    | _ => Err
    end
  | VInt32 =>
    match r with
    | VBoolean | VInt32 => Ok VInt32
    | VInt64 => Ok VInt64 | VString | VDecimal => Ok VDecimal | VDouble => Ok VDouble
    | _ => Err
    end
  | VInt64 =>
    match r with
    | VBoolean | VInt32 | VInt64 => Ok VInt64
    | VString | VDecimal => Ok VDecimal | VDouble => Ok VDouble
    | _ => Err
    end
  | VDecimal =>
    match r with
    | VBoolean | VInt32 | VInt64 | VDecimal | VString => Ok VDecimal
    | VDouble => Ok VDouble
    | _ => Err
    end
  | VDouble =>
    match r with
    | VBoolean | VInt32 | VInt64 | VDecimal | VDouble | VString => Ok VDouble
    | _ => Err
    end
  | VGuid => match r with VGuid | VString => Ok VGuid | _ => Err end
  | VDateTime => match r with VDateTime | VString => Ok VDateTime | _ => Err end
  | VUndefined => Err
  end.
(** Constants.go:1145-1151 deriveBooleanOperationValueType *)
Definition deriveBoolean (l r : vtype) : res vtype :=
  match l, r with VBoolean, VBoolean => Ok VBoolean | _, _ => Err end.

(** Constants.go:653-711 deriveOperationValueType *)
Definition deriveOperation (o : oper) (l r : vtype) : res vtype :=
  match o with
  | OMultiply | ODivide | OAdd | OSubtract => deriveArithmetic o l r
  | OModulus | OBitwiseAnd | OBitwiseOr | OBitwiseXor => deriveInteger l r
  | OLessThan | OLessThanOrEqual | OGreaterThan | OGreaterThanOrEqual
  | OEqual | OEqualExactMatch | ONotEqual | ONotEqualExactMatch => deriveComparison l r
  | OAnd | OOr => deriveBoolean l r
  | OBitShiftLeft | OBitShiftRight | OIsNull | OIsNotNull
  | OLike | OLikeExactMatch | ONotLike | ONotLikeExactMatch => Ok l
  end.

(** ExpressionTree.go:2590-2602 convertOperands, after the Null test every
    caller makes: (ExpressionTree.go:2604-2607 and the same lines of each
    operator) a Null operand gives a Null of the operation's type. *)
Definition withOperands (L : lib) (l r : ve) (t : vtype) (k : ve -> ve -> res ve) : res ve :=
  if IsNull l || IsNull r then Ok (NullValue t)
  else let* l' := Convert L l t in
       let* r' := Convert L r t in
       k l' r'.

(** Both operands through one accessor, and the result as a value. *)
Definition on2 {A} (get : ve -> res A) (mk : A -> A -> gval) (t : vtype) (l r : ve) : res ve :=
  let* a := get l in let* b := get r in NewValueExpression t (mk a b).
Definition on2r {A} (get : ve -> res A) (mk : A -> A -> res gval) (t : vtype) (l r : ve) : res ve :=
  let* a := get l in let* b := get r in let* g := mk a b in NewValueExpression t g.

(** ExpressionTree.go:2604-2636 multiplyOp *)
Definition multiplyOp (L : lib) (l r : ve) (t : vtype) : res ve :=
  withOperands L l r t (fun l r =>
    match t with
    | VInt32 => on2 int32Value (fun a b => GInt32 (i32 (a * b))) VInt32 l r
    | VInt64 => on2 int64Value (fun a b => GInt64 (i64 (a * b))) VInt64 l r
    | VDecimal => on2 decimalValue (fun a b => GDec (dec_mul a b)) VDecimal l r
    | VDouble => on2 doubleValue (fun a b => GDouble (d_mul a b)) VDouble l r
    | _ => Err
    end).

(** Go integer division and remainder: truncated, a zero divisor panics. *)
Definition go_div (wrap : Z -> Z) (a b : Z) : res Z :=
  if b =? 0 then Panic else Ok (wrap (Z.quot a b)).
Definition go_rem (wrap : Z -> Z) (a b : Z) : res Z :=
  if b =? 0 then Panic else Ok (wrap (Z.rem a b)).
(** Decimal.Div and Decimal.Mod panic on a zero divisor. *)
Definition go_decimal_div (L : lib) (a b : dec) : res dec :=
  if coef b =? 0 then Panic else Ok (decimal_div a b).

(** ExpressionTree.go:2638-2670 divideOp *)
Definition divideOp (L : lib) (l r : ve) (t : vtype) : res ve :=
  withOperands L l r t (fun l r =>
    match t with
    | VInt32 => on2r int32Value (fun a b => let* q := go_div i32 a b in Ok (GInt32 q)) VInt32 l r
    | VInt64 => on2r int64Value (fun a b => let* q := go_div i64 a b in Ok (GInt64 q)) VInt64 l r
    | VDecimal => on2r decimalValue (fun a b => let* q := go_decimal_div L a b in Ok (GDec q)) VDecimal l r
    | VDouble => on2 doubleValue (fun a b => GDouble (d_div a b)) VDouble l r
    | _ => Err
    end).

(** ExpressionTree.go:2672-2704 modulusOp.  The Decimal and Double cases are
    unreachable (the operation's type is an integer type). *)
Definition modulusOp (L : lib) (l r : ve) (t : vtype) : res ve :=
  withOperands L l r t (fun l r =>
    match t with
    | VInt32 => on2r int32Value (fun a b => let* q := go_rem i32 a b in Ok (GInt32 q)) VInt32 l r
    | VInt64 => on2r int64Value (fun a b => let* q := go_rem i64 a b in Ok (GInt64 q)) VInt64 l r
    | VDecimal => on2r decimalValue
        (fun a b => if coef b =? 0 then Panic
                    else Ok (GDec (dec_sub a (dec_mul b (dec_truncate (decimal_div a b)))))) VDecimal l r
    | VDouble => on2 doubleValue (fun a b => GDouble (math_mod L a b)) VDouble l r
    | _ => Err
    end).

(** ExpressionTree.go:2706-2738 addOp *)
Definition addOp (L : lib) (l r : ve) (t : vtype) : res ve :=
  withOperands L l r t (fun l r =>
    match t with
    | VBoolean => on2 booleanValueAsInt (fun a b => GBool (negb (a + b =? 0))) VBoolean l r
    | VInt32 => on2 int32Value (fun a b => GInt32 (i32 (a + b))) VInt32 l r
    | VInt64 => on2 int64Value (fun a b => GInt64 (i64 (a + b))) VInt64 l r
    | VDecimal => on2 decimalValue (fun a b => GDec (dec_add a b)) VDecimal l r
    | VDouble => on2 doubleValue (fun a b => GDouble (d_add a b)) VDouble l r
    | VString => on2 stringValue (fun a b => GStr (a ++ b)%list) VString l r
    | _ => Err
    end).

(** ExpressionTree.go:2740-2772 subtractOp *)
Definition subtractOp (L : lib) (l r : ve) (t : vtype) : res ve :=
  withOperands L l r t (fun l r =>
    match t with
    | VBoolean => on2 booleanValueAsInt (fun a b => GBool (negb (a - b =? 0))) VBoolean l r
    | VInt32 => on2 int32Value (fun a b => GInt32 (i32 (a - b))) VInt32 l r
    | VInt64 => on2 int64Value (fun a b => GInt64 (i64 (a - b))) VInt64 l r
    | VDecimal => on2 decimalValue (fun a b => GDec (dec_sub a b)) VDecimal l r
    | VDouble => on2 doubleValue (fun a b => GDouble (d_sub a b)) VDouble l r
    | _ => Err
    end).

(** Go shifts by a signed count: a negative count panics; a count of the width
    or more shifts every bit out. *)
Definition go_shl (wrap : Z -> Z) (a s : Z) : res Z :=
  if s <? 0 then Panic else Ok (if 64 <=? s then 0 else wrap (a * 2 ^ s)).
Definition go_shr (a s : Z) : res Z :=
  if s <? 0 then Panic else Ok (if 64 <=? s then (if a <? 0 then -1 else 0) else a / 2 ^ s).

(** ExpressionTree.go:1373-1378 abs *)
Definition abs_int (n : Z) : Z := if n <? 0 then i64 (- n) else n.
(** The adjustment of a negative shift amount, ExpressionTree.go:2793-2806 and
    2843-2856; [%] is Go's remainder. *)
Definition shift_amount (width s : Z) : Z :=
  if s <? 0 then width - Z.rem (abs_int s) width else s.

(** ExpressionTree.go:2774-2822 bitShiftLeftOp; intSize is 64 *)
Definition bitShiftLeftOp (l r : ve) : res ve :=
  if IsNull l then Ok l
  else if negb (IsIntegerType (ve_type r)) then Err
  else if IsNull r then Err
  else
    let* s := integerValue r 0 in
    match ve_type l with
    | VBoolean =>
      let* n := booleanValueAsInt l in
      let* x := go_shl i64 n (shift_amount 64 s) in NewValueExpression VBoolean (GBool (negb (x =? 0)))
    | VInt32 =>
      let* n := int32Value l in
      let* x := go_shl i64 n (shift_amount 32 s) in NewValueExpression VInt32 (GInt32 (i32 x))
    | VInt64 =>
      let* n := int64Value l in
      let* x := go_shl u64 (u64 n) (shift_amount 64 s) in NewValueExpression VInt64 (GInt64 (i64 x))
    | _ => Err
    end.
(** ExpressionTree.go:2824-2872 bitShiftRightOp *)
Definition bitShiftRightOp (l r : ve) : res ve :=
  if IsNull l then Ok l
  else if negb (IsIntegerType (ve_type r)) then Err
  else if IsNull r then Err
  else
    let* s := integerValue r 0 in
    match ve_type l with
    | VBoolean =>
      let* n := booleanValueAsInt l in
      let* x := go_shr n (shift_amount 64 s) in NewValueExpression VBoolean (GBool (negb (x =? 0)))
    | VInt32 =>
      let* n := int32Value l in
      let* x := go_shr n (shift_amount 32 s) in NewValueExpression VInt32 (GInt32 (i32 x))
    | VInt64 =>
      let* n := int64Value l in
      let* x := go_shr (u64 n) (shift_amount 64 s) in NewValueExpression VInt64 (GInt64 (i64 x))
    | _ => Err
    end.

(** ExpressionTree.go:2874-2974 bitwiseAndOp, bitwiseOrOp, bitwiseXorOp *)
Definition bitwiseOp (f : Z -> Z -> Z) (L : lib) (l r : ve) (t : vtype) : res ve :=
  withOperands L l r t (fun l r =>
    match t with
    | VBoolean => on2 booleanValueAsInt (fun a b => GBool (negb (f a b =? 0))) VBoolean l r
    | VInt32 => on2 int32Value (fun a b => GInt32 (f a b)) VInt32 l r
    | VInt64 => on2 int64Value (fun a b => GInt64 (f a b)) VInt64 l r
    | _ => Err
    end).
Definition bitwiseAndOp := bitwiseOp Z.land.
Definition bitwiseOrOp := bitwiseOp Z.lor.
Definition bitwiseXorOp := bitwiseOp Z.lxor.

(** ExpressionTree.go:2976-3008 lessThanOp *)
Definition lessThanOp (L : lib) (l r : ve) (t : vtype) : res ve :=
  withOperands L l r t (fun l r =>
    match t with
    | VBoolean => on2 booleanValueAsInt (fun a b => GBool (a <? b)) VBoolean l r
    | VInt32 => on2 int32Value (fun a b => GBool (a <? b)) VBoolean l r
    | VInt64 => on2 int64Value (fun a b => GBool (a <? b)) VBoolean l r
    | VDecimal => on2 decimalValue (fun a b => GBool (dec_cmp a b <? 0)) VBoolean l r
    | VDouble => on2 doubleValue (fun a b => GBool (d_ltb a b)) VBoolean l r
    | VString => on2 stringValue (fun a b => GBool (str_ltb (ToUpper L a) (ToUpper L b))) VBoolean l r
    | VGuid => on2 guidValue (fun a b => GBool (Compare a b <? 0)) VBoolean l r
    | VDateTime => on2 dateTimeValue (fun a b => GBool (a <? b)) VBoolean l r
    | VUndefined => Err
    end).
(** ExpressionTree.go:3010-3044 lessThanOrEqualOp *)
Definition lessThanOrEqualOp (L : lib) (l r : ve) (t : vtype) : res ve :=
  withOperands L l r t (fun l r =>
    match t with
    | VBoolean => on2 booleanValueAsInt (fun a b => GBool (a <=? b)) VBoolean l r
    | VInt32 => on2 int32Value (fun a b => GBool (a <=? b)) VBoolean l r
    | VInt64 => on2 int64Value (fun a b => GBool (a <=? b)) VBoolean l r
    | VDecimal => on2 decimalValue (fun a b => GBool (dec_cmp a b <=? 0)) VBoolean l r
    | VDouble => on2 doubleValue (fun a b => GBool (d_leb a b)) VBoolean l r
    | VString => on2 stringValue (fun a b => GBool (negb (str_ltb (ToUpper L b) (ToUpper L a)))) VBoolean l r
    | VGuid => on2 guidValue (fun a b => GBool (Compare a b <=? 0)) VBoolean l r
    | VDateTime => on2 dateTimeValue (fun a b => GBool ((a <? b) || (a =? b))) VBoolean l r
    | VUndefined => Err
    end).
(** ExpressionTree.go:3046-3078 greaterThanOp *)
Definition greaterThanOp (L : lib) (l r : ve) (t : vtype) : res ve :=
  withOperands L l r t (fun l r =>
    match t with
    | VBoolean => on2 booleanValueAsInt (fun a b => GBool (b <? a)) VBoolean l r
    | VInt32 => on2 int32Value (fun a b => GBool (b <? a)) VBoolean l r
    | VInt64 => on2 int64Value (fun a b => GBool (b <? a)) VBoolean l r
    | VDecimal => on2 decimalValue (fun a b => GBool (0 <? dec_cmp a b)) VBoolean l r
    | VDouble => on2 doubleValue (fun a b => GBool (d_ltb b a)) VBoolean l r
    | VString => on2 stringValue (fun a b => GBool (str_ltb (ToUpper L b) (ToUpper L a))) VBoolean l r
    | VGuid => on2 guidValue (fun a b => GBool (0 <? Compare a b)) VBoolean l r
    | VDateTime => on2 dateTimeValue (fun a b => GBool (b <? a)) VBoolean l r
    | VUndefined => Err
    end).
(** ExpressionTree.go:3080-3114 greaterThanOrEqualOp *)
Definition greaterThanOrEqualOp (L : lib) (l r : ve) (t : vtype) : res ve :=
  withOperands L l r t (fun l r =>
    match t with
    | VBoolean => on2 booleanValueAsInt (fun a b => GBool (b <=? a)) VBoolean l r
    | VInt32 => on2 int32Value (fun a b => GBool (b <=? a)) VBoolean l r
    | VInt64 => on2 int64Value (fun a b => GBool (b <=? a)) VBoolean l r
    | VDecimal => on2 decimalValue (fun a b => GBool (0 <=? dec_cmp a b)) VBoolean l r
    | VDouble => on2 doubleValue (fun a b => GBool (d_leb b a)) VBoolean l r
    | VString => on2 stringValue (fun a b => GBool (negb (str_ltb (ToUpper L a) (ToUpper L b)))) VBoolean l r
    | VGuid => on2 guidValue (fun a b => GBool (0 <=? Compare a b)) VBoolean l r
    | VDateTime => on2 dateTimeValue (fun a b => GBool ((b <? a) || (a =? b))) VBoolean l r
    | VUndefined => Err
    end).
(** ExpressionTree.go:3116-3151 equalOp *)
Definition equalOp (L : lib) (l r : ve) (t : vtype) (exact : bool) : res ve :=
  withOperands L l r t (fun l r =>
    match t with
    | VBoolean => on2 booleanValueAsInt (fun a b => GBool (a =? b)) VBoolean l r
    | VInt32 => on2 int32Value (fun a b => GBool (a =? b)) VBoolean l r
    | VInt64 => on2 int64Value (fun a b => GBool (a =? b)) VBoolean l r
    | VDecimal => on2 decimalValue (fun a b => GBool (dec_equal a b)) VBoolean l r
    | VDouble => on2 doubleValue (fun a b => GBool (d_eqb a b)) VBoolean l r
    | VString => on2 stringValue (fun a b => GBool (if exact then str_eqb a b else EqualFold L a b)) VBoolean l r
    | VGuid => on2 guidValue (fun a b => GBool (Equal a b)) VBoolean l r
    | VDateTime => on2 dateTimeValue (fun a b => GBool (a =? b)) VBoolean l r
    | VUndefined => Err
    end).
(** ExpressionTree.go:3153-3188 notEqualOp *)
Definition notEqualOp (L : lib) (l r : ve) (t : vtype) (exact : bool) : res ve :=
  withOperands L l r t (fun l r =>
    match t with
    | VBoolean => on2 booleanValueAsInt (fun a b => GBool (negb (a =? b))) VBoolean l r
    | VInt32 => on2 int32Value (fun a b => GBool (negb (a =? b))) VBoolean l r
    | VInt64 => on2 int64Value (fun a b => GBool (negb (a =? b))) VBoolean l r
    | VDecimal => on2 decimalValue (fun a b => GBool (negb (dec_equal a b))) VBoolean l r
    | VDouble => on2 doubleValue (fun a b => GBool (negb (d_eqb a b))) VBoolean l r
    | VString => on2 stringValue (fun a b => GBool (negb (if exact then str_eqb a b else EqualFold L a b))) VBoolean l r
    | VGuid => on2 guidValue (fun a b => GBool (negb (Equal a b))) VBoolean l r
    | VDateTime => on2 dateTimeValue (fun a b => GBool (negb (a =? b))) VBoolean l r
    | VUndefined => Err
    end).

(** ExpressionTree.go:3190-3196 isNullOp, isNotNullOp *)
Definition isNullOp (l : ve) : res ve := NewValueExpression VBoolean (GBool (IsNull l)).
Definition isNotNullOp (l : ve) : res ve := NewValueExpression VBoolean (GBool (negb (IsNull l))).

Definition star : Z := 42.
(** ExpressionTree.go:3198-3274 likeOp *)
Definition likeOp (L : lib) (l r : ve) (exact : bool) : res ve :=
  if IsNull l then Ok (NullValue VBoolean)
  else if negb (vtype_eqb (ve_type l) VString) || negb (vtype_eqb (ve_type r) VString) then Err
  else if IsNull r then Err
  else
    let* lv := stringValue l in
    let* rv := stringValue r in
    let test := ReplaceAll rv (lit "%") (lit "*") in
    let starts := HasPrefix test [star] in
    let ends := HasSuffix test [star] in
    let test := if starts then skipn 1 test else test in
    let test := if ends && (0 <? len test) then firstn (length test - 1) test else test in
    if len test =? 0 then Ok vTrue
    else if Contains test [star] then Err
    else
      let fold s := if exact then s else ToUpper L s in
      if starts && HasSuffix (fold lv) (fold test) then Ok vTrue
      else if ends && HasPrefix (fold lv) (fold test) then Ok vTrue
      else if starts && ends && Contains (fold lv) (fold test) then Ok vTrue
      else Ok vFalse.
(** ExpressionTree.go:3276-3293 notLikeOp *)
Definition notLikeOp (L : lib) (l r : ve) (exact : bool) : res ve :=
  if IsNull l then Ok (NullValue VBoolean)
  else let* v := likeOp L l r exact in
       let* b := booleanValue v in
       Ok (if b : bool then vFalse else vTrue).

(** ExpressionTree.go:3295-3319 andOp, orOp *)
Definition logicOp (f : bool -> bool -> bool) (l r : ve) : res ve :=
  if IsNull l || IsNull r then Ok (NullValue VBoolean)
  else if negb (vtype_eqb (ve_type l) VBoolean) || negb (vtype_eqb (ve_type r) VBoolean) then Err
  else let* a := booleanValue l in
       let* b := booleanValue r in
       NewValueExpression VBoolean (GBool (f a b)).
Definition andOp := logicOp andb.
Definition orOp := logicOp orb.

(** ExpressionTree.go:1277-1356 evaluateOperator, after both operands are
    evaluated. *)
Definition applyOperator (L : lib) (o : oper) (l r : ve) : res ve :=
  let* t := deriveOperation o (ve_type l) (ve_type r) in
  match o with
  | OMultiply => multiplyOp L l r t
  | ODivide => divideOp L l r t
  | OModulus => modulusOp L l r t
  | OAdd => addOp L l r t
  | OSubtract => subtractOp L l r t
  | OBitShiftLeft => bitShiftLeftOp l r
  | OBitShiftRight => bitShiftRightOp l r
  | OBitwiseAnd => bitwiseAndOp L l r t
  | OBitwiseOr => bitwiseOrOp L l r t
  | OBitwiseXor => bitwiseXorOp L l r t
  | OLessThan => lessThanOp L l r t
  | OLessThanOrEqual => lessThanOrEqualOp L l r t
  | OGreaterThan => greaterThanOp L l r t
  | OGreaterThanOrEqual => greaterThanOrEqualOp L l r t
  | OEqual => equalOp L l r t false
  | OEqualExactMatch => equalOp L l r t true
  | ONotEqual => notEqualOp L l r t false
  | ONotEqualExactMatch => notEqualOp L l r t true
  | OIsNull => isNullOp l
  | OIsNotNull => isNotNullOp l
  | OLike => likeOp L l r false
  | OLikeExactMatch => likeOp L l r true
  | ONotLike => notLikeOp L l r false
  | ONotLikeExactMatch => notLikeOp L l r true
  | OAnd => andOp l r
  | OOr => orOp l r
  end.

(** Constants.go:182-199 ExpressionUnaryType *)
Inductive unary := UPlus | UMinus | UNot.

(** UnaryExpression.go:61-137 unaryBoolean .. unaryDouble and
    ExpressionTree.go:205-244 evaluateUnary after its operand is evaluated. *)
Definition applyUnary (u : unary) (v : ve) : res ve :=
  if IsNull v then Ok (NullValue (ve_type v))
  else match ve_type v with
       | VBoolean =>
         let* b := booleanValue v in
         match u with UNot => NewValueExpression VBoolean (GBool (negb b)) | _ => Err end
       | VInt32 =>
         let* n := int32Value v in
         NewValueExpression VInt32 (GInt32 (match u with UPlus => n | UMinus => i32 (- n) | UNot => Z.lnot n end))
       | VInt64 =>
         let* n := int64Value v in
         NewValueExpression VInt64 (GInt64 (match u with UPlus => n | UMinus => i64 (- n) | UNot => Z.lnot n end))
       | VDecimal =>
         let* d := decimalValue v in
         match u with
         | UPlus => NewValueExpression VDecimal (GDec d)
         | UMinus => NewValueExpression VDecimal (GDec (dec_mul d (dec_of_Z (-1))))
         | UNot => Err
         end
       | VDouble =>
         let* f := doubleValue v in
         match u with
         | UPlus => NewValueExpression VDouble (GDouble f)
         | UMinus => NewValueExpression VDouble (GDouble (d_opp f))
         | UNot => Err
         end
       | _ => Err
       end.

(** ** Functions *)

(** Constants.go:217-345 ExpressionFunctionType *)
Inductive func :=
| FAbs | FCeiling | FCoalesce | FConvert | FContains | FDateAdd | FDateDiff | FDatePart | FEndsWith
| FFloor | FIIf | FIndexOf | FIsDate | FIsInteger | FIsGuid | FIsNull | FIsNumeric | FLastIndexOf
| FLen | FLower | FMaxOf | FMinOf | FNthIndexOf | FNow | FPower | FRegExMatch | FRegExVal | FReplace
| FReverse | FRound | FSplit | FSqrt | FStartsWith | FStrCount | FStrCmp | FSubStr | FTrim
| FTrimLeft | FTrimRight | FUpper | FUtcNow.

Definition is_str (v : ve) : bool := vtype_eqb (ve_type v) VString.

(** ExpressionTree.go:1359-1371 abs32, abs64 *)
Definition abs32 (n : Z) : Z := if n <? 0 then i32 (- n) else n.
Definition abs64 (n : Z) : Z := if n <? 0 then i64 (- n) else n.

(** ExpressionTree.go:1380-1404 abs *)
Definition fn_abs (v : ve) : res ve :=
  if negb (IsNumericType (ve_type v)) then Err
  else if IsNull v then Ok (NullValue (ve_type v))
  else match ve_type v with
       | VBoolean => let* b := booleanValue v in NewValueExpression VBoolean (GBool b)
       | VInt32 => let* n := int32Value v in NewValueExpression VInt32 (GInt32 (abs32 n))
       | VInt64 => let* n := int64Value v in NewValueExpression VInt64 (GInt64 (abs64 n))
       | VDecimal => let* d := decimalValue v in NewValueExpression VDecimal (GDec (dec_abs d))
       | VDouble => let* f := doubleValue v in NewValueExpression VDouble (GDouble (d_abs f))
       | _ => Err
       end.

(** ExpressionTree.go:1406-1428 ceiling, 1783-1805 floor, 2289-2311 round *)
Definition fn_integral (fd : dec -> dec) (ff : double -> double) (v : ve) : res ve :=
  if negb (IsNumericType (ve_type v)) then Err
  else if IsNull v then Ok (NullValue (ve_type v))
  else if IsIntegerType (ve_type v) then Ok v
  else match ve_type v with
       | VDecimal => let* d := decimalValue v in NewValueExpression VDecimal (GDec (fd d))
       | VDouble => let* f := doubleValue v in NewValueExpression VDouble (GDouble (ff f))
       | _ => Err
       end.
Definition fn_ceiling := fn_integral dec_ceil d_ceil.
Definition fn_floor := fn_integral dec_floor d_floor.
Definition fn_round := fn_integral dec_round d_round.

(** A function argument: the evaluation of an expression for a target type. *)
Definition arg := vtype -> res ve.

(** ExpressionTree.go:1442-1453 the loop of coalesce *)
Fixpoint coalesce_rest (test : ve) (rest : list arg) : res ve :=
  match rest with
  | [] => Ok test
  | a :: rest' =>
    let* v := a VBoolean in
    if negb (IsNull v) then Ok v else coalesce_rest test rest'
  end.
(** ExpressionTree.go:1430-1454 coalesce *)
Definition fn_coalesce (args : list arg) : res ve :=
  match args with
  | [] => Panic
  | a :: rest =>
    let* v := a VBoolean in
    if negb (IsNull v) then Ok v else coalesce_rest v rest
  end.

(** Constants.go:126-149 String of the value types, in enumeration order. *)
Definition vtype_names : list (bytes * vtype) :=
  [(lit "BOOLEAN", VBoolean); (lit "INT32", VInt32); (lit "INT64", VInt64); (lit "DECIMAL", VDecimal);
   (lit "DOUBLE", VDouble); (lit "STRING", VString); (lit "GUID", VGuid); (lit "DATETIME", VDateTime);
   (lit "UNDEFINED", VUndefined)].

(** ExpressionTree.go:1465-1505 the type name of convert.  The upper-cased
    enumeration names are written out. *)
Definition convert_type (name : bytes) : option vtype :=
  let name := if HasPrefix name (lit "SYSTEM.") && (7 <? len name) then skipn 7 name else name in
  match find (fun p => str_eqb name (fst p)) vtype_names with
  | Some (_, VUndefined) => None
  | Some (_, t) => Some t
  | None =>
    if str_eqb name (lit "SINGLE") || HasPrefix name (lit "FLOAT") then Some VDouble
    else if str_eqb name (lit "BOOL") then Some VBoolean
    else if HasPrefix name (lit "INT") || HasPrefix name (lit "UINT") then Some VInt64
    else if str_eqb name (lit "DATE") || str_eqb name (lit "TIME") then Some VDateTime
    else if str_eqb name (lit "UUID") then Some VGuid
    else None
  end.
(** ExpressionTree.go:1457-1512 convert *)
Definition fn_convert (L : lib) (v target : ve) : res ve :=
  if negb (is_str target) then Err
  else if IsNull target then Err
  else let* s := stringValue target in
       match convert_type (ToUpper L s) with
       | Some t => Convert L v t
       | None => Err
       end.

(** The optional ignore-case argument, converted and read as a Boolean; the
    same lines of contains, startsWith and the other string functions. *)
Definition ignore_case (L : lib) (v : ve) : res bool :=
  let* b := Convert L v VBoolean in booleanValue b.

(** The string operands, upper-cased when case is ignored. *)
Definition fold_if (L : lib) (ic : bool) (s : bytes) : bytes := if ic then ToUpper L s else s.

(** ExpressionTree.go:1514-1543 contains, 1752-1781 endsWith, 2388-2417
    startsWith: [f] is the test of package strings. *)
Definition fn_string_test (f : bytes -> bytes -> bool) (L : lib) (src test ic : ve) : res ve :=
  if negb (is_str src) then Err
  else if negb (is_str test) then Err
  else if IsNull src then Ok (NullValue VBoolean)
  else if IsNull test then Ok vFalse
  else let* b := ignore_case L ic in
       let* s := stringValue src in
       let* t := stringValue test in
       NewValueExpression VBoolean (GBool (f (fold_if L b s) (fold_if L b t))).
Definition fn_contains := fn_string_test Contains.
Definition fn_endsWith := fn_string_test HasSuffix.
Definition fn_startsWith := fn_string_test HasPrefix.

(** Constants.go:564-587 TimeInterval *)
Inductive interval := TYear | TMonth | TDayOfYear | TDay | TWeek | TWeekDay | THour | TMinute | TSecond | TMillisecond.

Definition interval_names : list (bytes * interval) :=
  [(lit "YEAR", TYear); (lit "MONTH", TMonth); (lit "DAYOFYEAR", TDayOfYear); (lit "DAY", TDay);
   (lit "WEEK", TWeek); (lit "WEEKDAY", TWeekDay); (lit "HOUR", THour); (lit "MINUTE", TMinute);
   (lit "SECOND", TSecond); (lit "MILLISECOND", TMillisecond)].

(** Constants.go:622-649 ParseTimeInterval *)
Definition ParseTimeInterval (L : lib) (name : bytes) : res interval :=
  match find (fun p => str_eqb (ToUpper L (str_TrimSpace name)) (fst p)) interval_names with
  | Some (_, i) => Ok i
  | None => Err
  end.

Definition date_or_string (v : ve) : bool :=
  vtype_eqb (ve_type v) VDateTime || vtype_eqb (ve_type v) VString.

(** ExpressionTree.go:1546-1611 dateAdd *)
Definition fn_dateAdd (L : lib) (src add ivl : ve) : res ve :=
  if negb (date_or_string src) then Err
  else if negb (IsIntegerType (ve_type add)) then Err
  else if negb (is_str ivl) then Err
  else if IsNull add then Err
  else if IsNull ivl then Err
  else if IsNull src then Ok src
  else
    let* d := Convert L src VDateTime in
    let* name := stringValue ivl in
    let* i := ParseTimeInterval L name in
    let* n := integerValue add 0 in
    let* t := dateTimeValue d in
    NewValueExpression VDateTime (GTime
      match i with
      | TYear => AddDate t n 0 0
      | TMonth => AddDate t 0 n 0
      | TDayOfYear | TDay | TWeekDay => AddDate t 0 0 n
      | TWeek => AddDate t 0 0 (i64 (n * 7))
      | THour => t + i64 (3600 * ns_per_second * n)
      | TMinute => t + i64 (60 * ns_per_second * n)
      | TSecond => t + i64 (ns_per_second * n)
      | TMillisecond => t + i64 (1000000 * n)
      end).

(** Duration.Hours, Minutes, Seconds: whole units plus the fraction, in floating point. *)
Definition duration_in (unit d : Z) : double :=
  d_add (d_of_Z (Z.quot d unit)) (d_div (d_of_Z (Z.rem d unit)) (d_of_Z unit)).

(** ExpressionTree.go:1614-1691 dateDiff *)
Definition fn_dateDiff (L : lib) (lv rv ivl : ve) : res ve :=
  if negb (date_or_string lv) then Err
  else if negb (date_or_string rv) then Err
  else if negb (is_str ivl) then Err
  else if IsNull ivl then Err
  else if IsNull lv || IsNull rv then Ok (NullValue VInt32)
  else
    let* l := Convert L lv VDateTime in
    let* r := Convert L rv VDateTime in
    let* name := stringValue ivl in
    let* i := ParseTimeInterval L name in
    let* rd := dateTimeValue r in
    let* ld := dateTimeValue l in
    let delta := time_Sub rd ld in
    let hours := duration_in (3600 * ns_per_second) delta in
    NewValueExpression VInt32 (GInt32
      match i with
      | TYear => i32 (Year rd - Year ld)
      | TMonth => i32 ((Year rd - Year ld) * 12 + (Month rd - Month ld))
      | TDayOfYear | TDay | TWeekDay => float_to_i32 L (d_div hours (d_of_Z 24))
      | TWeek => float_to_i32 L (d_div (d_div hours (d_of_Z 24)) (d_of_Z 7))
      | THour => float_to_i32 L hours
      | TMinute => float_to_i32 L (duration_in (60 * ns_per_second) delta)
      | TSecond => float_to_i32 L (duration_in ns_per_second delta)
      | TMillisecond => i32 (Z.quot delta 1000000)
      end).

(** ExpressionTree.go:1694-1750 datePart *)
Definition fn_datePart (L : lib) (src ivl : ve) : res ve :=
  if negb (date_or_string src) then Err
  else if negb (is_str ivl) then Err
  else if IsNull ivl then Err
  else if IsNull src then Ok (NullValue VInt32)
  else
    let* d := Convert L src VDateTime in
    let* name := stringValue ivl in
    let* i := ParseTimeInterval L name in
    let* t := dateTimeValue d in
    NewValueExpression VInt32 (GInt32 (i32
      match i with
      | TYear => Year t
      | TMonth => Month t
      | TDayOfYear => YearDay t
      | TDay => Day t
      | TWeekDay => Weekday t + 1
      | TWeek => ISOWeek t
      | THour => Hour t
      | TMinute => Minute t
      | TSecond => Second t
      | TMillisecond => Nanosecond t / 1000000
      end)).

(** ExpressionTree.go:1807-1833 iif *)
Definition fn_iif (test : ve) (lv rv : arg) : res ve :=
  if negb (vtype_eqb (ve_type test) VBoolean) then Err
  else let* b := booleanValue test in
       if b : bool then lv VBoolean else rv VBoolean.

(** ExpressionTree.go:1835-1864 indexOf, 1955-1984 lastIndexOf *)
Definition fn_string_find (f : bytes -> bytes -> Z) (L : lib) (src test ic : ve) : res ve :=
  if negb (is_str src) then Err
  else if negb (is_str test) then Err
  else if IsNull test then Err
  else if IsNull src then Ok (NullValue VInt32)
  else let* b := ignore_case L ic in
       let* s := stringValue src in
       let* t := stringValue test in
       NewValueExpression VInt32 (GInt32 (i32 (f (fold_if L b s) (fold_if L b t)))).
Definition fn_indexOf := fn_string_find Index.
Definition fn_lastIndexOf := fn_string_find LastIndex.

(** ExpressionTree.go:1866-1918 isDate, isInteger, isGuid; 1932-1953 isNumeric *)
Definition fn_isDate (L : lib) (v : ve) : res ve :=
  if IsNull v then Ok vFalse
  else if vtype_eqb (ve_type v) VDateTime then Ok vTrue
  else if is_str v then
    let* s := stringValue v in
    Ok (match parse_date L s with Some _ => vTrue | None => vFalse end)
  else Ok vFalse.
Definition fn_isInteger (L : lib) (v : ve) : res ve :=
  if IsNull v then Ok vFalse
  else if IsIntegerType (ve_type v) then Ok vTrue
  else if is_str v then
    let* s := stringValue v in Ok (if parse_int0 s then vTrue else vFalse)
  else Ok vFalse.
Definition fn_isGuid (L : lib) (v : ve) : res ve :=
  if IsNull v then Ok vFalse
  else if vtype_eqb (ve_type v) VGuid then Ok vTrue
  else if is_str v then
    let* s := stringValue v in
    Ok (match parse_guid s with Some _ => vTrue | None => vFalse end)
  else Ok vFalse.
Definition fn_isNumeric (L : lib) (v : ve) : res ve :=
  if IsNull v then Ok vFalse
  else if IsNumericType (ve_type v) then Ok vTrue
  else if is_str v then
    let* s := stringValue v in
    Ok (match parse_float s, parse_decimal s with None, None => vFalse | _, _ => vTrue end)
  else Ok vFalse.

(** ExpressionTree.go:1920-1930 isNull *)
Definition fn_isNull (test default : ve) : res ve :=
  if IsNull default then Err else Ok (if IsNull test then default else test).

(** ExpressionTree.go:1986-1997 len *)
Definition fn_len (v : ve) : res ve :=
  if negb (is_str v) then Err
  else if IsNull v then Ok (NullValue VInt32)
  else let* s := stringValue v in NewValueExpression VInt32 (GInt32 (i32 (len s))).

(** ExpressionTree.go:1999-2010 lower, 2270-2287 reverse, 2532-2582 trim,
    trimLeft, trimRight, upper: [f] is the string function. *)
Definition fn_string_map (f : bytes -> bytes) (v : ve) : res ve :=
  if negb (is_str v) then Err
  else if IsNull v then Ok (NullValue VString)
  else let* s := stringValue v in NewValueExpression VString (GStr (f s)).
(** ExpressionTree.go:41 whitespace *)
Definition whitespace : bytes := [32; 9; 10; 11; 12; 13; 133; 160].
Definition fn_lower (L : lib) := fn_string_map (ToLower L).
Definition fn_upper (L : lib) := fn_string_map (ToUpper L).
Definition fn_trim := fn_string_map str_TrimSpace.
Definition fn_trimLeft := fn_string_map (fun s => str_TrimLeft s whitespace).
Definition fn_trimRight := fn_string_map (fun s => str_TrimRight s whitespace).
(** ExpressionTree.go:2280-2286: the swapping loop reverses the runes. *)
Definition fn_reverse := fn_string_map (fun s => encode_runes (rev (runes_of s))).

(** ExpressionTree.go:2019-2042 the loop of maxOf (2053-2076 minOf): [op] is
    greaterThanOp (lessThanOp). *)
Fixpoint extreme_rest (op : ve -> ve -> vtype -> res ve) (test : ve) (rest : list arg) : res ve :=
  match rest with
  | [] => Ok test
  | a :: rest' =>
    let* next := a VBoolean in
    let* t := deriveComparison (ve_type test) (ve_type next) in
    let* r := op next test t in
    let* b := booleanValue r in
    extreme_rest op (if (b : bool) || (IsNull test && negb (IsNull next)) then next else test) rest'
  end.
(** ExpressionTree.go:2012-2078 maxOf, minOf *)
Definition fn_extreme (op : ve -> ve -> vtype -> res ve) (args : list arg) : res ve :=
  match args with
  | [] => Panic
  | a :: rest => let* v := a VBoolean in extreme_rest op v rest
  end.

(** ExpressionTree.go:3325-3336 the loop of findNthIndex; [n] iterations remain. *)
Fixpoint nth_index_loop (n : nat) (source test : bytes) (result : Z) : res Z :=
  match n with
  | O => Ok result
  | S n' =>
    let location := Index source test in
    if location =? -1 then Ok 0
    else let* rest := slice_from source (location + 1) in
         nth_index_loop n' rest test (result + (location + 1))
  end.
(** ExpressionTree.go:3322-3339 findNthIndex; [index+1] wraps. *)
Definition findNthIndex (source test : bytes) (index : Z) : res Z :=
  let* r := nth_index_loop (Z.to_nat (i64 (index + 1))) source test 0 in Ok (r - 1).

(** ExpressionTree.go:2084-2127 nthIndexOf *)
Definition fn_nthIndexOf (L : lib) (src test index ic : ve) : res ve :=
  if negb (is_str src) then Err
  else if negb (is_str test) then Err
  else if negb (IsIntegerType (ve_type index)) then Err
  else if IsNull test then Err
  else if IsNull index then Err
  else if IsNull src then Ok (NullValue VInt32)
  else let* b := ignore_case L ic in
       let* s := stringValue src in
       let* t := stringValue test in
       let* i := integerValue index (-1) in
       let* n := findNthIndex (fold_if L b s) (fold_if L b t) i in
       NewValueExpression VInt32 (GInt32 (i32 n)).

(** ExpressionTree.go:2129-2171 power: the exponent is converted from the
    source value. *)
Definition fn_power (L : lib) (src exponent : ve) : res ve :=
  if negb (IsNumericType (ve_type src)) then Err
  else if negb (IsNumericType (ve_type exponent)) then Err
  else if IsNull src || IsNull exponent then Ok (NullValue (ve_type src))
  else
    let* t := deriveArithmetic OMultiply (ve_type src) (ve_type exponent) in
    let* s := Convert L src t in
    let* e := Convert L s t in
    match ve_type s with
    | VBoolean =>
      on2 booleanValueAsInt (fun a b => GBool (negb (d_eqb (math_pow L (d_of_Z a) (d_of_Z b)) d_zero))) VBoolean s e
    | VInt32 => on2 int32Value (fun a b => GInt32 (float_to_i32 L (math_pow L (d_of_Z a) (d_of_Z b)))) VInt32 s e
    | VInt64 => on2 int64Value (fun a b => GInt64 (float_to_i64 L (math_pow L (d_of_Z a) (d_of_Z b)))) VInt64 s e
    | VDecimal => on2r decimalValue (fun a b => let* p := decimal_pow a b in Ok (GDec p)) VDecimal s e
    | VDouble => on2 doubleValue (fun a b => GDouble (math_pow L a b)) VDouble s e
    | _ => Err
    end.

(** ExpressionTree.go:2173-2223 regExMatch, regExVal, evaluateRegEx *)
Definition fn_regEx (L : lib) (rx test : ve) (value : bool) : res ve :=
  if negb (is_str rx) then Err
  else if negb (is_str test) then Err
  else if IsNull rx || IsNull test then Ok (NullValue (if value then VString else VBoolean))
  else
    let* p := stringValue rx in
    match regex_find L p with
    | None => Err
    | Some find =>
      let* text := stringValue test in
      match find text with
      | None => Ok (if value then vEmptyString else vFalse)
      | Some (lo, hi) =>
        if value then let* s := slice text lo hi in NewValueExpression VString (GStr s)
        else Ok vTrue
      end
    end.

(** ExpressionTree.go:2257-2264: the regular expression for texts in ASCII, else a
    parameter *)
Definition replace_fold (L : lib) (s t r : bytes) : bytes :=
  if all_ascii s && all_ascii t && all_ascii r then ReplaceFold s t r else regex_replace_fold L s t r.
(** ExpressionTree.go:2225-2268 replace; compiling the quoted pattern does not fail. *)
Definition fn_replace (L : lib) (src test rep ic : ve) : res ve :=
  if negb (is_str src) then Err
  else if negb (is_str test) then Err
  else if negb (is_str rep) then Err
  else if IsNull test then Err
  else if IsNull rep then Err
  else if IsNull src then Ok src
  else let* b := ignore_case L ic in
       let* s := stringValue src in
       let* t := stringValue test in
       let* r := stringValue rep in
       NewValueExpression VString (GStr (if b : bool then replace_fold L s t r else ReplaceAll s t r)).

(** ExpressionTree.go:3342-3359 splitNthIndex; None is nil *)
Definition splitNthIndex (source test : bytes) (index : Z) : res (option (Z * Z)) :=
  let* first := findNthIndex source test (i64 (index - 1)) in
  let* second := findNthIndex source test index in
  Ok (if (first <=? 0) && (second <=? 0) then None
      else if first <=? 0 then Some (0, second)
      else if second <=? 0 then Some (first + len test, len source)
      else Some (first + len test, second)).

(** ExpressionTree.go:2313-2359 split *)
Definition fn_split (L : lib) (src delim index ic : ve) : res ve :=
  if negb (is_str src) then Err
  else if negb (is_str delim) then Err
  else if negb (IsIntegerType (ve_type index)) then Err
  else if IsNull delim then Err
  else if IsNull index then Err
  else if IsNull src then Ok src
  else let* b := ignore_case L ic in
       let* i := integerValue index (-1) in
       let* s := stringValue src in
       let* d := stringValue delim in
       let* range := splitNthIndex (fold_if L b s) (fold_if L b d) i in
       match range with
       | None => Ok vEmptyString
       | Some (lo, hi) => let* piece := slice s lo hi in NewValueExpression VString (GStr piece)
       end.

(** ExpressionTree.go:2361-2386 sqrt *)
Definition fn_sqrt (L : lib) (v : ve) : res ve :=
  if negb (IsNumericType (ve_type v)) then Err
  else if IsNull v then Ok (NullValue (ve_type v))
  else
    let* f := match ve_type v with
              | VBoolean => let* n := booleanValueAsInt v in Ok (d_of_Z n)
              | VInt32 => let* n := int32Value v in Ok (d_of_Z n)
              | VInt64 => let* n := int64Value v in Ok (d_of_Z n)
              | VDecimal => let* d := decimalValue v in Ok (decimal_to_double d)
              | VDouble => doubleValue v
              | _ => Err
              end in
    NewValueExpression VDouble (GDouble (d_sqrt f)).

(** ExpressionTree.go:2419-2449 strCount *)
Definition fn_strCount (L : lib) (src test ic : ve) : res ve :=
  if negb (is_str src) then Err
  else if negb (is_str test) then Err
  else if IsNull src || IsNull test then NewValueExpression VInt32 (GInt32 0)
  else
    let* t := stringValue test in
    if len t =? 0 then NewValueExpression VInt32 (GInt32 0)
    else let* b := ignore_case L ic in
         let* s := stringValue src in
         NewValueExpression VInt32 (GInt32 (i32 (Count (fold_if L b s) (fold_if L b t)))).

(** ExpressionTree.go:2451-2486 strCmp *)
Definition fn_strCmp (L : lib) (lv rv ic : ve) : res ve :=
  if negb (is_str lv) then Err
  else if negb (is_str rv) then Err
  else if IsNull lv && IsNull rv then NewValueExpression VInt32 (GInt32 0)
  else if IsNull lv then NewValueExpression VInt32 (GInt32 1)
  else if IsNull rv then NewValueExpression VInt32 (GInt32 (-1))
  else let* b := ignore_case L ic in
       let* s := stringValue lv in
       let* t := stringValue rv in
       NewValueExpression VInt32 (GInt32 (i32 (str_compare (fold_if L b s) (fold_if L b t)))).

(** ExpressionTree.go:2488-2530 subStr; [index+length] wraps. *)
Definition fn_subStr (src index length : ve) : res ve :=
  if negb (is_str src) then Err
  else if negb (IsIntegerType (ve_type index)) then Err
  else if negb (IsIntegerType (ve_type length)) then Err
  else if IsNull index then Err
  else if IsNull src then Ok src
  else
    let* s := stringValue src in
    let* i := integerValue index 0 in
    if (i <? 0) || (len s <=? i) then Ok vEmptyString
    else
      let rest := let* r := slice_from s i in NewValueExpression VString (GStr r) in
      if IsNull length then rest
      else
        let* n := integerValue length 0 in
        if n <=? 0 then Ok vEmptyString
        else if i64 (i + n) <? len s
             then let* r := slice s i (i64 (i + n)) in NewValueExpression VString (GStr r)
             else rest.

(** ExpressionTree.go:2080-2082 now, 2584-2586 utcNow *)
Definition fn_now (L : lib) : res ve := NewValueExpression VDateTime (GTime (clock L)).

(** An optional last argument. *)
Definition opt_arg (a : option arg) (t : vtype) : res ve :=
  match a with None => Ok (NullValue t) | Some f => f t end.

(** ExpressionTree.go:398-486 evaluateFunction with the argument counts and
    target types of evaluateAbs .. evaluateUtcNow, 490-1274.  evaluateIIf (697)
    evaluates its second argument as the test. *)
Definition evaluateFunction (L : lib) (f : func) (args : list arg) : res ve :=
  let one (t : vtype) (k : ve -> res ve) :=
    match args with [a] => let* v := a t in k v | _ => Err end in
  let two (t u : vtype) (k : ve -> ve -> res ve) :=
    match args with [a; b] => let* v := a t in let* w := b u in k v w | _ => Err end in
  let two_opt (t u o : vtype) (k : ve -> ve -> ve -> res ve) :=
    match args with
    | [a; b] => let* v := a t in let* w := b u in k v w (NullValue o)
    | [a; b; c] => let* v := a t in let* w := b u in let* x := c o in k v w x
    | _ => Err
    end in
  let three (t u w : vtype) (k : ve -> ve -> ve -> res ve) :=
    match args with
    | [a; b; c] => let* x := a t in let* y := b u in let* z := c w in k x y z
    | _ => Err
    end in
  let three_opt (t u w o : vtype) (k : ve -> ve -> ve -> ve -> res ve) :=
    match args with
    | [a; b; c] => let* x := a t in let* y := b u in let* z := c w in k x y z (NullValue o)
    | [a; b; c; d] => let* x := a t in let* y := b u in let* z := c w in let* v := d o in k x y z v
    | _ => Err
    end in
  match f with
  | FAbs => one VDouble fn_abs
  | FCeiling => one VDouble fn_ceiling
  | FCoalesce => if (length args <? 2)%nat then Err else fn_coalesce args
  | FConvert => two VBoolean VString (fn_convert L)
  | FContains => two_opt VString VString VBoolean (fn_contains L)
  | FDateAdd => three VDateTime VInt32 VString (fn_dateAdd L)
  | FDateDiff => three VDateTime VDateTime VString (fn_dateDiff L)
  | FDatePart => two VDateTime VString (fn_datePart L)
  | FEndsWith => two_opt VString VString VBoolean (fn_endsWith L)
  | FFloor => one VDouble fn_floor
  | FIIf => match args with
            | [a; b; c] => let* t := b VBoolean in fn_iif t b c
            | _ => Err
            end
  | FIndexOf => two_opt VString VString VBoolean (fn_indexOf L)
  | FIsDate => one VBoolean (fn_isDate L)
  | FIsInteger => one VBoolean (fn_isInteger L)
  | FIsGuid => one VBoolean (fn_isGuid L)
  | FIsNull => two VString VString fn_isNull
  | FIsNumeric => one VBoolean (fn_isNumeric L)
  | FLastIndexOf => two_opt VString VString VBoolean (fn_lastIndexOf L)
  | FLen => one VString fn_len
  | FLower => one VString (fn_lower L)
  | FMaxOf => if (length args <? 2)%nat then Err else fn_extreme (greaterThanOp L) args
  | FMinOf => if (length args <? 2)%nat then Err else fn_extreme (lessThanOp L) args
  | FNthIndexOf => three_opt VString VString VInt32 VBoolean (fn_nthIndexOf L)
  | FNow => match args with [] => fn_now L | _ => Err end
  | FPower => two VDouble VInt32 (fn_power L)
  | FRegExMatch => two VString VString (fun a b => fn_regEx L a b false)
  | FRegExVal => two VString VString (fun a b => fn_regEx L a b true)
  | FReplace => three_opt VString VString VString VBoolean (fn_replace L)
  | FReverse => one VString fn_reverse
  | FRound => one VDouble fn_round
  | FSplit => three_opt VString VString VInt32 VBoolean (fn_split L)
  | FSqrt => one VDouble (fn_sqrt L)
  | FStartsWith => two_opt VString VString VBoolean (fn_startsWith L)
  | FStrCount => two_opt VString VString VBoolean (fn_strCount L)
  | FStrCmp => two_opt VString VString VBoolean (fn_strCmp L)
  | FSubStr => two_opt VString VInt32 VInt32 fn_subStr
  | FTrim => one VString fn_trim
  | FTrimLeft => one VString fn_trimLeft
  | FTrimRight => one VString fn_trimRight
  | FUpper => one VString (fn_upper L)
  | FUtcNow => match args with [] => fn_now L | _ => Err end
  end.

(** ** Columns *)

(** DataType.go:32-81 DataType *)
Inductive dtype :=
| DString | DBoolean | DDateTime | DSingle | DDouble | DDecimal | DGuid
| DInt8 | DInt16 | DInt32 | DInt64 | DUInt8 | DUInt16 | DUInt32 | DUInt64.

(** The dynamic values a DataRow holds. *)
Inductive cell :=
| CStr (s : bytes) | CBool (b : bool) | CTime (t : Z) | CSingle (f : spec_float) | CDouble (f : double)
| CDec (d : dec) | CGuid (g : guid)
| CInt8 (n : Z) | CInt16 (n : Z) | CInt32 (n : Z) | CInt64 (n : Z)
| CUInt8 (n : Z) | CUInt16 (n : Z) | CUInt32 (n : Z) | CUInt64 (n : Z).

(** DataColumn.go: the parts of a column an expression uses. *)
Record column := Col { col_index : Z; col_type : dtype }.

(** The typed getters of the current row (DataRow.go:755-1440), modelled in
    RowModel.v: index and type to a value or nil. *)
Definition row_reader := Z -> dtype -> res (option cell).

(** ExpressionTree.go:264-337: the value type and value a cell becomes. *)
Definition cell_value (c : cell) : vtype * gval :=
  match c with
  | CStr s => (VString, GStr s)
  | CBool b => (VBoolean, GBool b)
  | CTime t => (VDateTime, GTime t)
  | CSingle f => (VDouble, GDouble (d_of_single f))
  | CDouble f => (VDouble, GDouble f)
  | CDec d => (VDecimal, GDec d)
  | CGuid g => (VGuid, GGuid g)
  | CInt8 n | CInt16 n | CInt32 n | CUInt8 n | CUInt16 n => (VInt32, GInt32 n)
  | CInt64 n | CUInt32 n => (VInt64, GInt64 n)
  | CUInt64 n => if 2 ^ 63 - 1 <? n then (VDouble, GDouble (d_of_Z n)) else (VInt64, GInt64 n)
  end.
(** The value type of a nil cell of a column of the given type. *)
Definition null_type (t : dtype) : vtype :=
  match t with
  | DString => VString | DBoolean => VBoolean | DDateTime => VDateTime
  | DSingle | DDouble => VDouble | DDecimal => VDecimal | DGuid => VGuid
  | DInt8 | DInt16 | DInt32 | DUInt8 | DUInt16 => VInt32
  | DInt64 | DUInt32 | DUInt64 => VInt64
  end.

(** ExpressionTree.go:247-345 evaluateColumn *)
Definition evaluateColumn (row : option row_reader) (c : option column) : res ve :=
  match row with
  | None => Err
  | Some get =>
    match c with
    | None => Err
    | Some c =>
      let* v := get (col_index c) (col_type c) in
      match v with
      | None => Ok (NullValue (null_type (col_type c)))
      | Some x => let '(t, g) := cell_value x in NewValueExpression t g
      end
    end
  end.

(** ** Expressions *)

(** Expression.go and the expression types; [ENil] is a nil Expression. *)
Inductive expr :=
| ENil
| EValue (v : ve)
| EUnary (u : unary) (e : expr)
| EColumn (c : option column)
| EInList (e : expr) (args : list expr) (has_not exact : bool)
| EFunction (f : func) (args : list expr)
| EOperator (o : oper) (l r : expr).

(** ExpressionTree.go:371-388 the loop of evaluateInList *)
Fixpoint in_list (L : lib) (v : ve) (args : list arg) (has_not exact : bool) : res ve :=
  match args with
  | [] => Ok (if has_not then vTrue else vFalse)
  | a :: rest =>
    let* w := a VBoolean in
    let* t := deriveComparison (ve_type v) (ve_type w) in
    let* r := equalOp L v w t exact in
    let* b := booleanValue r in
    if b : bool then Ok (if has_not then vFalse else vTrue)
    else in_list L v rest has_not exact
  end.

(** ExpressionTree.go:175-203 evaluateAs with evaluateUnary, evaluateInList
    (347-395) and evaluateOperator; [evaluate] is the case of target Boolean. *)
Fixpoint evaluateAs (L : lib) (row : option row_reader) (e : expr) (target : vtype) : res ve :=
  match e with
  | ENil => Ok (NullValue target)
  | EValue v => Ok (if vtype_eqb (ve_type v) VUndefined then NullValue target else v)
  | EUnary u x =>
    let* v := evaluateAs L row x VBoolean in applyUnary u v
  | EColumn c => evaluateColumn row c
  | EInList x args has_not exact =>
    let* v := evaluateAs L row x VBoolean in
    if IsNull v then Ok (NullValue (ve_type v))
    else in_list L v (map (fun a t => evaluateAs L row a t) args) has_not exact
  | EFunction f args => evaluateFunction L f (map (fun a t => evaluateAs L row a t) args)
  | EOperator o l r =>
    let* a := evaluateAs L row l VBoolean in
    let* b := evaluateAs L row r VBoolean in
    applyOperator L o a b
  end.

(** ExpressionTree.go:166-169 Evaluate *)
Definition Evaluate (L : lib) (row : option row_reader) (root : expr) : res ve :=
  evaluateAs L row root VBoolean.
