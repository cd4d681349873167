(** What a filter expression means: the value of a literal, the operator a token
    stands for, the expression a tree stands for, the statement a parsed statement
    stands for.  Also a way to write every tree with parentheses, and how an
    expression of two operators groups. *)
From Coq Require Import String.
From Verif Require Import Base GuidModel FormatSpec NumModel NumTextSpec StrModel ExprModel TableModel ParseModel ParseSpec LexSpec.
Open Scope list_scope.
Open Scope Z_scope.

(** ** Literals *)

(** The number that hexadecimal digits spell *)
Definition hex_digit (c : Z) : Z := if c <=? 57 then c - 48 else if c <=? 70 then c - 55 else c - 87.
Definition hexadecimal (x : bytes) : Z := fold_left (fun n c => n * 16 + hex_digit c) x 0.
(** The narrowest integer type *)
Definition integer (n : Z) : ve := if n <? 2 ^ 31 then VE VInt32 (Some (GInt32 n)) else VE VInt64 (Some (GInt64 n)).

Inductive literal_denotes (L : lib) : token -> ve -> Prop :=
| ld_decimal n x : is_decimal_of n x -> n < 2 ^ 63 -> literal_denotes L (TInt x) (integer n)
| ld_large n x : is_decimal_of n x -> 2 ^ 63 <= n -> literal_denotes L (TInt x) (VE VDecimal (Some (GDec (Dec n 0))))
| ld_hexadecimal m x : m = 88 \/ m = 120 -> x <> [] -> Forall hex x -> hexadecimal x < 2 ^ 63 -> literal_denotes L (TInt (48 :: m :: x)) (integer (hexadecimal x))
| ld_number m k x : point_text m k x -> k <= 2 ^ 31 -> literal_denotes L (TNum x) (VE VDecimal (Some (GDec (Dec m (- k)))))
| ld_exponent x f : In 69 x \/ In 101 x -> parse_float x = Some f -> literal_denotes L (TNum x) (VE VDouble (Some (GDouble f)))
| ld_string x : ~ In 39 x -> literal_denotes L (TStr (39 :: x ++ [39])) (VE VString (Some (GStr x)))
| ld_date x t : parse_date L x = Some t -> literal_denotes L (TDate (35 :: x ++ [35])) (VE VDateTime (Some (GTime t)))
| ld_guid x g : hd 0 x <> 39 -> parse_guid x = Some g -> literal_denotes L (TGuid x) (VE VGuid (Some (GGuid g)))
| ld_guid_quoted x g : parse_guid x = Some g -> literal_denotes L (TGuid (39 :: x ++ [39])) (VE VGuid (Some (GGuid g)))
| ld_true x : any_case "TRUE" x -> literal_denotes L (TBool x) (VE VBoolean (Some (GBool true)))
| ld_false x : any_case "FALSE" x -> literal_denotes L (TBool x) (VE VBoolean (Some (GBool false)))
| ld_null : literal_denotes L (TKey KNull) (VE VUndefined None).

(** ** Operators *)

Definition logical_meaning : list (token * oper) := [(TKey KAnd, OAnd); (TSym And2, OAnd); (TKey KOr, OOr); (TSym Or2, OOr)].
Definition comparison_meaning : list (token * oper) :=
  [(TSym Less, OLessThan); (TSym LessEq, OLessThanOrEqual); (TSym Greater, OGreaterThan); (TSym GreaterEq, OGreaterThanOrEqual);
   (TSym Eq1, OEqual); (TSym Eq2, OEqual); (TSym Eq3, OEqualExactMatch); (TSym BangEq, ONotEqual); (TSym LessGreater, ONotEqual); (TSym BangEq2, ONotEqualExactMatch)].
Definition math_meaning : list (token * oper) :=
  [(TSym Star, OMultiply); (TSym Slash, ODivide); (TSym Percent, OModulus); (TSym Plus, OAdd); (TSym Minus, OSubtract)].
Definition bitwise_meaning : list (token * oper) :=
  [(TSym Shl, OBitShiftLeft); (TSym Shr, OBitShiftRight); (TSym Amp, OBitwiseAnd); (TSym Bar, OBitwiseOr); (TSym Caret, OBitwiseXor); (TKey KXor, OBitwiseXor)].
Definition unary_meaning : list (token * unary) := [(TSym Plus, UPlus); (TSym Minus, UMinus); (TSym Tilde, UNot); (TSym Bang, UNot); (TKey KNot, UNot)].
(** NOT, BINARY or === *)
Definition like_meaning : list (bool * bool * oper) := [(false, false, OLike); (true, false, ONotLike); (false, true, OLikeExactMatch); (true, true, ONotLikeExactMatch)].

(** ** Expressions *)

Inductive denotes (L : lib) (column : bytes -> expr -> Prop) : ptree -> expr -> Prop :=
| d_literal t v : literal_denotes L t v -> denotes L column (PLiteral t) (EValue v)
| d_column n x : column n x -> denotes L column (PColumn n) x
| d_call f args xs : denote_all L column args xs -> denotes L column (PCall f args) (EFunction f xs)
| d_not a x : denotes L column a x -> denotes L column (PNot a) (EUnary UNot x)
| d_unary o u a x : In (o, u) unary_meaning -> denotes L column a x -> denotes L column (PUnary o a) (EUnary u x)
| d_math o op a b x y : In (o, op) math_meaning -> denotes L column a x -> denotes L column b y -> denotes L column (PMath o a b) (EOperator op x y)
| d_bitwise o op a b x y : In (o, op) bitwise_meaning -> denotes L column a x -> denotes L column b y -> denotes L column (PBitwise o a b) (EOperator op x y)
| d_comparison o op a b x y : In (o, op) comparison_meaning -> denotes L column a x -> denotes L column b y -> denotes L column (PCompare o a b) (EOperator op x y)
| d_logical o op a b x y : In (o, op) logical_meaning -> denotes L column a x -> denotes L column b y -> denotes L column (PLogical o a b) (EOperator op x y)
| d_like has_not exact op a b x y : In (has_not, exact, op) like_meaning -> denotes L column a x -> denotes L column b y -> denotes L column (PLike has_not exact a b) (EOperator op x y)
| d_is_null a x : denotes L column a x -> denotes L column (PIsNull false a) (EOperator OIsNull x ENil)
| d_is_not_null a x : denotes L column a x -> denotes L column (PIsNull true a) (EOperator OIsNotNull x ENil)
| d_in has_not exact a args x xs : denotes L column a x -> denote_all L column args xs -> denotes L column (PIn has_not exact a args) (EInList x xs has_not exact)
with denote_all (L : lib) (column : bytes -> expr -> Prop) : list ptree -> list expr -> Prop :=
| da_nil : denote_all L column [] []
| da_cons a l x xs : denotes L column a x -> denote_all L column l xs -> denote_all L column (a :: l) (x :: xs).

(** A column of the named table, or of the primary table for the empty name *)
Definition column_of (L : lib) (ds : dset) (primary table name : bytes) (x : expr) : Prop :=
  exists t c, DataSetTable L ds (match table with [] => primary | _ => table end) = Some t /\ ColumnByName L t name = Some c /\
    x = EColumn (Some (Col (dc_index c) (dc_type c))) /\ (table = [] -> primary <> []).
Definition no_column (name : bytes) (x : expr) : Prop := False.

(** ** Statements *)

Inductive statement_denotes (L : lib) (column : bytes -> bytes -> expr -> Prop) : pstatement -> statement -> Prop :=
| sd_guid x g : literal_denotes L (TGuid x) (VE VGuid (Some (GGuid g))) -> statement_denotes L column (QGuid x) (SGuidLiteral g)
| sd_measurement x : statement_denotes L column (QMeasurement x) (SMeasurementKey x)
| sd_tag x : ~ In 34 x -> statement_denotes L column (QTag (34 :: x ++ [34])) (SPointTag x)
| sd_filter top table e x order :
    denotes L (column table) e x ->
    statement_denotes L column (QFilter top table e order) (SFilter top table x (map (fun o => OrderClause (o_exact o) (o_column o) (o_desc o)) order))
| sd_expression e x : denotes L (column []) e x -> statement_denotes L column (QExpression e) (SExpression x).

(** ** Writing a tree out *)

(** The trees that parentheses can write.  NOT and ! before an expression in
    parentheses give [PNot], which stands for the same as a unary NOT or !. *)
Inductive tree : ptree -> Prop :=
| t_literal t : literal t -> tree (PLiteral t)
| t_column n : tree (PColumn n)
| t_call f args : trees args -> tree (PCall f args)
| t_not a : tree a -> tree (PNot a)
| t_unary o a : In o [TSym Minus; TSym Plus; TSym Tilde] -> tree a -> tree (PUnary o a)
| t_math o a b : In o math_tokens -> tree a -> tree b -> tree (PMath o a b)
| t_bitwise o a b : In o bitwise_tokens -> tree a -> tree b -> tree (PBitwise o a b)
| t_comparison o a b : In o comparison_tokens -> tree a -> tree b -> tree (PCompare o a b)
| t_logical o a b : In o logical_tokens -> tree a -> tree b -> tree (PLogical o a b)
| t_like n x a b : tree a -> tree b -> tree (PLike n x a b)
| t_is_null n a : tree a -> tree (PIsNull n a)
| t_in n x a args : tree a -> trees args -> args <> [] -> tree (PIn n x a args)
with trees : list ptree -> Prop :=
| t_nil : trees []
| t_cons a l : tree a -> trees l -> trees (a :: l).

(** With parentheses around everything but literals, columns and calls *)
Definition parens (ts : list token) : list token := TSym LeftParen :: ts ++ [TSym RightParen].
Definition flag (b : bool) (t : token) : list token := if b then [t] else [].
Fixpoint render (e : ptree) : list token :=
  let list := (fix list l := match l with [] => [] | [a] => render a | a :: l => render a ++ TSym Comma :: list l end) in
  match e with
  | PLiteral t => [t]
  | PColumn n => [TIdent n]
  | PCall f args => TFunc f :: parens (list args)
  | PNot a => parens (TKey KNot :: render a)
  | PUnary o a => parens (o :: render a)
  | PMath o a b | PBitwise o a b | PCompare o a b | PLogical o a b => parens (render a ++ o :: render b)
  | PLike n x a b => parens (render a ++ flag n (TKey KNot) ++ TKey KLike :: flag x (TKey KBinary) ++ render b)
  | PIsNull n a => parens (render a ++ TKey KIs :: flag n (TKey KNot) ++ [TKey KNull])
  | PIn n x a args => parens (render a ++ flag n (TKey KNot) ++ TKey KIn :: flag x (TKey KBinary) ++ parens (list args))
  end.

(** ** Two operators in a row *)

(** Groups of binary operators from the tightest: arithmetic, bitwise, comparison,
    logical.  Within a group all operators bind alike. *)
Inductive group : token -> nat -> (ptree -> ptree -> ptree) -> Prop :=
| g_math o : In o math_tokens -> group o 1 (PMath o)
| g_bitwise o : In o bitwise_tokens -> group o 2 (PBitwise o)
| g_comparison o : In o comparison_tokens -> group o 3 (PCompare o)
| g_logical o : In o logical_tokens -> group o 4 (PLogical o).
(** An operand: a literal, a column, a call, something in parentheses, or one of
    these after - + ~; an operand that begins with NOT or ! is left out, because NOT
    before an operand of AND, a comparison and so on takes the whole of it. *)
Definition operand (ts : list token) (e : ptree) : Prop := says LUnary ts e /\ forall t, In t not_tokens -> hd_error ts <> Some t.

(** The order of binding that the comment in the grammar documents
    (FilterExpressionSyntax.g4:69-81), for operators with two operands *)
Inductive documented : token -> nat -> Prop :=
| doc_multiply o : In o [TSym Star; TSym Slash; TSym Percent] -> documented o 1
| doc_add o : In o [TSym Plus; TSym Minus] -> documented o 2
| doc_bitwise o : In o [TSym Shl; TSym Shr; TSym Amp; TSym Bar] -> documented o 3
| doc_order o : In o [TSym Less; TSym LessEq; TSym Greater; TSym GreaterEq] -> documented o 4
| doc_equal o : In o [TSym Eq1; TSym Eq2; TSym Eq3; TSym BangEq; TSym BangEq2; TSym LessGreater] -> documented o 5
| doc_and o : In o [TKey KAnd; TSym And2] -> documented o 7
| doc_or o : In o [TKey KOr; TSym Or2] -> documented o 8.

(** ** Whole texts *)

(** A text in UTF-8 with these tokens *)
Definition written (ts : list token) (s : bytes) : Prop :=
  exists rs, s = encode_runes rs /\ Forall (fun r => valid_rune r = true) rs /\ layout ts rs.

(** The limit that TOP gives; -1 stands for none *)
Inductive top_means : option bytes -> Z -> Prop :=
| top_absent : top_means None (-1)
| top_number x : digits x -> dec_value x < 2 ^ 63 -> top_means (Some x) (dec_value x)
| top_positive x : digits x -> dec_value x < 2 ^ 63 -> top_means (Some (43 :: x)) (dec_value x)
| top_negative x : digits x -> dec_value x < 2 ^ 63 -> top_means (Some (45 :: x)) (- dec_value x).
(** The columns to sort by, which are found in the table *)
Definition order_means (L : lib) (t : dtable) (o : order_clause) (r : order_term) : Prop :=
  exists c, ColumnByName L t (oc_column o) = Some c /\ r = OrderBy (dc_index c) (negb (oc_desc o)) (negb (oc_exact o)).
(** The expression tree of a statement.  A GUID is a value where no rows and no
    signals are asked for. *)
Inductive tree_means (L : lib) (ds : dset) : statement -> etree -> Prop :=
| tm_filter top limit table t x order terms :
    DataSetTable L ds table = Some t -> top_means top limit -> Forall2 (order_means L t) order terms ->
    tree_means L ds (SFilter top table x order) (Tree table limit terms x)
| tm_expression x : tree_means L ds (SExpression x) (Tree [] (-1) [] x)
| tm_guid g : tree_means L ds (SGuidLiteral g) (Tree [] (-1) [] (EValue (VE VGuid (Some (GGuid g))))).

(** The expressions among statements without a data set: measurement keys and tags
    are none. *)
Inductive expressions : list statement -> list expr -> Prop :=
| ex_nil : expressions [] []
| ex_expression x l xs : expressions l xs -> expressions (SExpression x :: l) (x :: xs)
| ex_guid g l xs : expressions l xs -> expressions (SGuidLiteral g :: l) (EValue (VE VGuid (Some (GGuid g))) :: xs)
| ex_key k l xs : expressions l xs -> expressions (SMeasurementKey k :: l) xs
| ex_tag k l xs : expressions l xs -> expressions (SPointTag k :: l) xs.

(** The name of a table or column that needs no brackets *)
Definition plain_name (s : bytes) : Prop :=
  exists c x, s = c :: x /\ name_start c /\ Forall name_char x /\ ~ reserved s.

(** DataTable.Select: an empty condition holds of every row; an empty order leaves the
    rows as they are. *)
Inductive selects_where (L : lib) (ds : dset) (t : dtable) : bytes -> expr -> Prop :=
| select_all : selects_where L ds t [] (EValue (VE VBoolean (Some (GBool true))))
| select_condition s ts e x : written ts s -> says LLogical ts e -> denotes L (column_of L ds (dt_name t) (dt_name t)) e x -> selects_where L ds t s x.
Inductive sorts_by (L : lib) (t : dtable) : bytes -> list order_term -> Prop :=
| sort_none : sorts_by L t [] []
| sort_order s ts os terms :
    written ts s -> orders ts os -> Forall2 (order_means L t) (map (fun o => OrderClause (o_exact o) (o_column o) (o_desc o)) os) terms -> sorts_by L t s terms.

(** The expression mentions a column. *)
Inductive mentions (n : bytes) : ptree -> Prop :=
| mn_column : mentions n (PColumn n)
| mn_call f args : mentions_any n args -> mentions n (PCall f args)
| mn_not a : mentions n a -> mentions n (PNot a)
| mn_unary o a : mentions n a -> mentions n (PUnary o a)
| mn_math_left o a b : mentions n a -> mentions n (PMath o a b)
| mn_math_right o a b : mentions n b -> mentions n (PMath o a b)
| mn_bitwise_left o a b : mentions n a -> mentions n (PBitwise o a b)
| mn_bitwise_right o a b : mentions n b -> mentions n (PBitwise o a b)
| mn_comparison_left o a b : mentions n a -> mentions n (PCompare o a b)
| mn_comparison_right o a b : mentions n b -> mentions n (PCompare o a b)
| mn_logical_left o a b : mentions n a -> mentions n (PLogical o a b)
| mn_logical_right o a b : mentions n b -> mentions n (PLogical o a b)
| mn_like_left x y a b : mentions n a -> mentions n (PLike x y a b)
| mn_like_right x y a b : mentions n b -> mentions n (PLike x y a b)
| mn_is_null x a : mentions n a -> mentions n (PIsNull x a)
| mn_in x y a args : mentions n a -> mentions n (PIn x y a args)
| mn_in_list x y a args : mentions_any n args -> mentions n (PIn x y a args)
with mentions_any (n : bytes) : list ptree -> Prop :=
| mn_here a l : mentions n a -> mentions_any n (a :: l)
| mn_there a l : mentions_any n l -> mentions_any n (a :: l).
(** The columns an expression or a condition looks up, with their table *)
Definition looks_up (q : pstatement) (table n : bytes) : Prop :=
  match q with QFilter _ t e _ => t = table /\ mentions n e | QExpression e => table = [] /\ mentions n e | _ => False end.
