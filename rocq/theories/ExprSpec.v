(** Specification vocabulary for filter expressions (C46-C59). *)
From Coq Require Import String Ascii QArith.
From Verif Require Import Base GuidModel GuidSpec StrModel NumModel ExprModel.
Close Scope Q_scope.
Open Scope Z_scope.

(** ** Values *)
Definition vBool (b : bool) : ve := VE VBoolean (Some (GBool b)).
Definition vInt32 (n : Z) : ve := VE VInt32 (Some (GInt32 n)).
Definition vInt64 (n : Z) : ve := VE VInt64 (Some (GInt64 n)).
Definition vDec (d : dec) : ve := VE VDecimal (Some (GDec d)).
Definition vDouble (f : double) : ve := VE VDouble (Some (GDouble f)).
Definition vStr (s : bytes) : ve := VE VString (Some (GStr s)).
Definition vGuid (g : guid) : ve := VE VGuid (Some (GGuid g)).
Definition vTime (t : Z) : ve := VE VDateTime (Some (GTime t)).
Definition vNull (t : vtype) : ve := VE t None.

Definition null (v : ve) : Prop := ve_value v = None.

(** A dynamic value of the declared type, integers within their width. *)
Definition has_type (t : vtype) (g : gval) : Prop :=
  match t, g with
  | VBoolean, GBool _ => True
  | VInt32, GInt32 n => is_i32 n
  | VInt64, GInt64 n => is_i64 n
  | VDecimal, GDec _ => True
  | VDouble, GDouble _ => True
  | VString, GStr _ => True
  | VGuid, GGuid _ => True
  | VDateTime, GTime _ => True
  | _, _ => False
  end.
Definition well_typed (v : ve) : Prop :=
  ve_type v <> VUndefined /\ forall g, ve_value v = Some g -> has_type (ve_type v) g.

(** ** Expressions *)

(** [subexpr x e]: x occurs in e. *)
Inductive subexpr (x : expr) : expr -> Prop :=
| sub_here : subexpr x x
| sub_unary u e : subexpr x e -> subexpr x (EUnary u e)
| sub_in_value e args n m : subexpr x e -> subexpr x (EInList e args n m)
| sub_in_arg e args n m a : In a args -> subexpr x a -> subexpr x (EInList e args n m)
| sub_arg f args a : In a args -> subexpr x a -> subexpr x (EFunction f args)
| sub_left o l r : subexpr x l -> subexpr x (EOperator o l r)
| sub_right o l r : subexpr x r -> subexpr x (EOperator o l r).

(** Literals are well typed, or the untyped NULL. *)
Definition literals_ok (e : expr) : Prop :=
  forall v, subexpr (EValue v) e -> well_typed v \/ v = vNull VUndefined.

(** A cell of a column of the given type. *)
Definition cell_ok (t : dtype) (c : cell) : Prop :=
  match t, c with
  | DString, CStr _ | DBoolean, CBool _ | DDateTime, CTime _ | DSingle, CSingle _
  | DDouble, CDouble _ | DDecimal, CDec _ | DGuid, CGuid _ => True
  | DInt8, CInt8 n => - 2 ^ 7 <= n < 2 ^ 7
  | DInt16, CInt16 n => - 2 ^ 15 <= n < 2 ^ 15
  | DInt32, CInt32 n => is_i32 n
  | DInt64, CInt64 n => is_i64 n
  | DUInt8, CUInt8 n => 0 <= n < 2 ^ 8
  | DUInt16, CUInt16 n => 0 <= n < 2 ^ 16
  | DUInt32, CUInt32 n => 0 <= n < 2 ^ 32
  | DUInt64, CUInt64 n => 0 <= n < 2 ^ 64
  | _, _ => False
  end.
(** A well-typed row: what it returns for a column is nil or a cell of the
    column's type, and reading it does not panic. *)
Definition row_ok (row : option row_reader) : Prop :=
  forall get, row = Some get ->
  forall i t, get i t <> Panic /\ forall c, get i t = Ok (Some c) -> cell_ok t c.

(** ** Types *)

(** Numeric types from narrow to wide. *)
Definition width (t : vtype) : Z :=
  match t with
  | VBoolean => 0 | VInt32 => 1 | VInt64 => 2 | VDecimal => 3 | VDouble => 4 | _ => -1
  end.
Definition numeric (t : vtype) : Prop := 0 <= width t.
Definition integer (t : vtype) : Prop := 0 <= width t <= 2.
(** [w] is the wider of two numeric types. *)
Definition wider (a b w : vtype) : Prop := (w = a \/ w = b) /\ width a <= width w /\ width b <= width w.

Definition arithmetic (o : oper) : Prop := o = OMultiply \/ o = ODivide \/ o = OAdd \/ o = OSubtract.
Definition bitwise (o : oper) : Prop := o = OModulus \/ o = OBitwiseAnd \/ o = OBitwiseOr \/ o = OBitwiseXor.
Definition relational (o : oper) : Prop :=
  o = OLessThan \/ o = OLessThanOrEqual \/ o = OGreaterThan \/ o = OGreaterThanOrEqual \/
  o = OEqual \/ o = OEqualExactMatch \/ o = ONotEqual \/ o = ONotEqualExactMatch.
Definition null_test (o : oper) : Prop := o = OIsNull \/ o = OIsNotNull.

(** ** Order *)

Definition is_ascii (s : bytes) : Prop := Forall (fun c => 0 <= c < 128) s.
(** Unicode's tables on ASCII: letters map to capitals, and two letters fold
    together exactly when their capitals are the same. *)
Definition ascii_tables (L : lib) : Prop :=
  forall r, 0 <= r < 128 ->
    rune_upper L r = ascii_upper r /\
    forall q, 0 <= q < 128 -> rune_fold L r q = (ascii_upper r =? ascii_upper q).

(** The integer a value of an integer type holds. *)
Inductive int_of : ve -> Z -> Prop :=
| int_of_32 n : is_i32 n -> int_of (vInt32 n) n
| int_of_64 n : is_i64 n -> int_of (vInt64 n) n.

(** The number a decimal stands for. *)
Definition dec_number (d : dec) : Q := Qmult (inject_Z (coef d)) (Qpower (inject_Z 10) (dexp d)).
(** The number an integer or decimal value stands for. *)
Inductive number_of : ve -> Q -> Prop :=
| number_int v n : int_of v n -> number_of v (inject_Z n)
| number_dec d : number_of (vDec d) (dec_number d).

(** How two comparable values relate: integers and decimals as numbers whatever
    their types, Booleans with FALSE first, times by their position, GUIDs by
    their bytes, ASCII strings by their bytes without regard to case. *)
Inductive compares : ve -> ve -> comparison -> Prop :=
| compares_number a b x y : number_of a x -> number_of b y -> compares a b (Qcompare x y)
| compares_bool b c : compares (vBool b) (vBool c) (Bool.compare b c)
| compares_time t u : compares (vTime t) (vTime u) (Z.compare t u)
| compares_guid g h : guid_ok g -> guid_ok h -> compares (vGuid g) (vGuid h) (lex g h)
| compares_str s t : is_ascii s -> is_ascii t ->
    compares (vStr s) (vStr t) (lex (map ascii_upper s) (map ascii_upper t)).
(** For the exact-match operators any two strings compare by their bytes. *)
Inductive compares_exactly : ve -> ve -> comparison -> Prop :=
| exactly_other a b c : compares a b c -> ve_type a <> VString -> compares_exactly a b c
| exactly_str s t : compares_exactly (vStr s) (vStr t) (lex s t).

(** What a comparison operator says about values that relate so. *)
Definition holds (o : oper) (c : comparison) : bool :=
  match o, c with
  | OLessThan, Lt | OLessThanOrEqual, (Lt | Eq) | OGreaterThan, Gt | OGreaterThanOrEqual, (Gt | Eq)
  | (OEqual | OEqualExactMatch), Eq | (ONotEqual | ONotEqualExactMatch), (Lt | Gt) => true
  | _, _ => false
  end.
Definition exact_match (o : oper) : Prop := o = OEqualExactMatch \/ o = ONotEqualExactMatch.

(** ** Arithmetic *)

(** The value an integer result is delivered as: at the wider width of the two
    operands, wrapped around. *)
Definition int_value (a b : ve) (n : Z) : ve :=
  match ve_type a, ve_type b with
  | VInt32, VInt32 => vInt32 (i32 n)
  | _, _ => vInt64 (i64 n)
  end.
(** The integer operation an operator stands for; division truncates. *)
Definition int_operation (o : oper) (x y : Z) : option Z :=
  match o with
  | OMultiply => Some (x * y)
  | OAdd => Some (x + y)
  | OSubtract => Some (x - y)
  | ODivide => if y =? 0 then None else Some (Z.quot x y)
  | OModulus => if y =? 0 then None else Some (Z.rem x y)
  | OBitwiseAnd => Some (Z.land x y)
  | OBitwiseOr => Some (Z.lor x y)
  | OBitwiseXor => Some (Z.lxor x y)
  | _ => None
  end.
Definition number_operation (o : oper) (x y : Q) : option Q :=
  match o with
  | OMultiply => Some (Qmult x y)
  | OAdd => Some (Qplus x y)
  | OSubtract => Some (Qminus x y)
  | _ => None
  end.

(** e = a1 OR e = a2 OR ... *)
Definition any_equal (o : oper) (e : expr) (args : list expr) : expr :=
  fold_right (fun a rest => EOperator OOr (EOperator o e a) rest) (EValue (vBool false)) args.

(** ** LIKE *)

Definition wildcard (c : Z) : Prop := c = 37 \/ c = 42.     (* % or * *)
(** [pattern p lead core trail]: p is core with an optional wildcard before and
    after it; core itself has no wildcard. *)
Inductive pattern : bytes -> bool -> bytes -> bool -> Prop :=
| pattern_intro p1 core p2 :
    Forall wildcard p1 -> Forall wildcard p2 -> (length p1 <= 1)%nat -> (length p2 <= 1)%nat ->
    Forall (fun c => ~ wildcard c) core ->
    pattern (p1 ++ core ++ p2) (0 <? len p1) core (0 <? len p2).
(** Text matches: what a wildcard stands for may be any text. *)
Definition like (x : bytes) (lead : bool) (core : bytes) (trail : bool) : Prop :=
  exists u v, x = u ++ core ++ v /\ (lead = false -> u = []) /\ (trail = false -> v = []).

(** ** Strings *)

(** [t] occurs in [s] at byte position [i]. *)
Definition occurs_at (s t : bytes) (i : Z) : Prop := exists u v, s = u ++ t ++ v /\ len u = i.
(** [ps] lists all positions at which [t] occurs in [s], in increasing order. *)
Definition occurrences (s t : bytes) (ps : list Z) : Prop :=
  (forall i, In i ps <-> occurs_at s t i) /\
  forall j k, (j < k)%nat -> (k < length ps)%nat -> nth j ps 0 < nth k ps 0.

(** The pieces with the delimiter between them. *)
Fixpoint joined (d : bytes) (pieces : list bytes) : bytes :=
  match pieces with
  | [] => []
  | [p] => p
  | p :: rest => p ++ d ++ joined d rest
  end.
(** [k] occurrences of [t] in [s] that do not overlap. *)
Definition disjoint_occurrences (s t : bytes) (k : Z) : Prop :=
  exists pieces, s = joined t pieces /\ len pieces = k + 1.

(** Well-formed UTF-8: the encoding of some valid runes. *)
Definition utf8 (s : bytes) : Prop :=
  exists rs, Forall (fun r => valid_rune r = true) rs /\ s = encode_runes rs.

(** The two texts a string function of [args] works on: the values of its first
    two arguments; when a third one is given and TRUE, in capitals (ASCII only). *)
Inductive texts (L : lib) (row : option row_reader) : list expr -> bytes -> bytes -> Prop :=
| texts_2 x y s t : Evaluate L row x = Ok (vStr s) -> Evaluate L row y = Ok (vStr t) -> texts L row [x; y] s t
| texts_cased x y z s t :
    Evaluate L row x = Ok (vStr s) -> Evaluate L row y = Ok (vStr t) -> Evaluate L row z = Ok (vBool false) ->
    texts L row [x; y; z] s t
| texts_caseless x y z s t :
    Evaluate L row x = Ok (vStr s) -> Evaluate L row y = Ok (vStr t) -> Evaluate L row z = Ok (vBool true) ->
    is_ascii s -> is_ascii t ->
    texts L row [x; y; z] (map ascii_upper s) (map ascii_upper t).

(** ** Crashes (C48, C51) *)

(** One operand is a Boolean and the other an Int32, neither NULL. *)
Definition bool_int32 (a b : ve) : Prop :=
  ~ null a /\ ~ null b /\
  ((ve_type a = VBoolean /\ ve_type b = VInt32) \/ (ve_type a = VInt32 /\ ve_type b = VBoolean)).
Definition is_zero (v : ve) : Prop :=
  v = vInt32 0 \/ v = vInt64 0 \/ v = vBool false \/ exists d, v = vDec d /\ coef d = 0.
(** A division or remainder by zero that is not done in floating point. *)
Definition division_by_zero (o : oper) (a b : ve) : Prop :=
  ~ null a /\ is_zero b /\ numeric (ve_type a) /\
  exists w, wider (ve_type a) (ve_type b) w /\
    (o = ODivide /\ (w = VInt32 \/ w = VInt64 \/ w = VDecimal) \/
     o = OModulus /\ (w = VInt32 \/ w = VInt64)).

(** The integer a value of an integer type stands for; FALSE is 0 and TRUE 1. *)
Inductive whole : ve -> Z -> Prop :=
| whole_bool (b : bool) : whole (vBool b) (if b then 1 else 0)
| whole_int v n : int_of v n -> whole v n.

(** [crashes L row e]: the outermost operation of e is one of those that can
    panic on the values of its operands. *)
Inductive crashes (L : lib) (row : option row_reader) : expr -> Prop :=
| crash_mixed o l r a b :
    arithmetic o \/ bitwise o \/ relational o ->
    Evaluate L row l = Ok a -> Evaluate L row r = Ok b -> bool_int32 a b ->
    crashes L row (EOperator o l r)
| crash_zero o l r a b :
    Evaluate L row l = Ok a -> Evaluate L row r = Ok b -> division_by_zero o a b ->
    crashes L row (EOperator o l r)
| crash_in e args n m x a b :
    Evaluate L row e = Ok a -> In x args -> Evaluate L row x = Ok b -> bool_int32 a b ->
    crashes L row (EInList e args n m)
| crash_extreme f args x y a b :
    f = FMaxOf \/ f = FMinOf -> In x args -> In y args ->
    Evaluate L row x = Ok a -> Evaluate L row y = Ok b -> bool_int32 a b ->
    crashes L row (EFunction f args)
| crash_convert_bool x y b : Evaluate L row x = Ok (vBool b) -> crashes L row (EFunction FConvert [x; y])
| crash_convert_double x y f :
    Evaluate L row x = Ok (vDouble f) -> d_is_finite f = false -> crashes L row (EFunction FConvert [x; y])
| crash_power_mixed x y a b :
    Evaluate L row x = Ok a -> Evaluate L row y = Ok b -> bool_int32 a b ->
    crashes L row (EFunction FPower [x; y])
| crash_nth_index x y args : Evaluate L row y = Ok (vStr []) -> crashes L row (EFunction FNthIndexOf (x :: y :: args))
| crash_split x y z d : Evaluate L row y = Ok (vStr d) -> len d <> 1 -> crashes L row (EFunction FSplit [x; y; z])
| crash_split_case x y z w : crashes L row (EFunction FSplit [x; y; z; w])
| crash_substr x y z s a b i n :
    Evaluate L row x = Ok (vStr s) -> Evaluate L row y = Ok a -> Evaluate L row z = Ok b ->
    whole a i -> whole b n -> 0 <= i < len s -> 2 ^ 63 <= i + n ->
    crashes L row (EFunction FSubStr [x; y; z])
| crash_regex x y p f s lo hi :
    regex_find L p = Some f -> f s = Some (lo, hi) -> ~ (0 <= lo <= hi /\ hi <= len s) ->
    crashes L row (EFunction FRegExVal [x; y]).
