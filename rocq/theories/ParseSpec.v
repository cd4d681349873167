(** What a filter expression says: an unambiguous grammar on tokens.  The levels, from
    the tightest: operands and unary operators; arithmetic; bitwise operators; IN and
    IS NULL; comparisons; LIKE; NOT; AND and OR.  Binary operators of one level group
    from the left.  Parentheses may enclose any expression.

    The grammar names no function of the parser; it shares with it the types of
    tokens and of trees only. *)
From Verif Require Import Base ExprModel ParseModel.
Open Scope list_scope.
Open Scope Z_scope.

Definition not_tokens : list token := [TKey KNot; TSym Bang].
Definition unary_tokens : list token := [TSym Minus; TSym Plus; TSym Tilde; TSym Bang; TKey KNot].
Definition exact_tokens : list token := [TKey KBinary; TSym Eq3].
Definition comparison_tokens : list token :=
  [TSym Less; TSym LessEq; TSym Greater; TSym GreaterEq; TSym Eq1; TSym Eq2; TSym Eq3; TSym BangEq; TSym BangEq2; TSym LessGreater].
Definition logical_tokens : list token := [TKey KAnd; TSym And2; TKey KOr; TSym Or2].
Definition bitwise_tokens : list token := [TSym Shl; TSym Shr; TSym Amp; TSym Bar; TKey KXor; TSym Caret].
Definition math_tokens : list token := [TSym Star; TSym Slash; TSym Percent; TSym Plus; TSym Minus].

(** A literal: a number, a string, a date, a GUID, a truth value or NULL *)
Inductive literal : token -> Prop :=
| literal_int s : literal (TInt s)
| literal_num s : literal (TNum s)
| literal_str s : literal (TStr s)
| literal_date s : literal (TDate s)
| literal_guid s : literal (TGuid s)
| literal_bool s : literal (TBool s)
| literal_null : literal (TKey KNull).

(** An optional word: present or not *)
Inductive maybe (words : list token) : bool -> list token -> Prop :=
| maybe_no : maybe words false []
| maybe_yes t : In t words -> maybe words true [t].

Inductive level := LUnary | LMath | LBitwise | LSuffix | LComparison | LLike | LNot | LLogical.

Inductive says : level -> list token -> ptree -> Prop :=
(* an operand *)
| says_literal t : literal t -> says LUnary [t] (PLiteral t)
| says_column name : says LUnary [TIdent name] (PColumn name)
| says_call_empty f : says LUnary [TFunc f; TSym LeftParen; TSym RightParen] (PCall f [])
| says_call f ts args : says_list ts args -> says LUnary (TFunc f :: TSym LeftParen :: ts ++ [TSym RightParen]) (PCall f args)
| says_parentheses ts e : says LLogical ts e -> says LUnary (TSym LeftParen :: ts ++ [TSym RightParen]) e
| says_unary o ts e : In o unary_tokens -> says LUnary ts e -> says LUnary (o :: ts) (PUnary o e)
(* each level includes the one above *)
| says_math_up ts e : says LUnary ts e -> says LMath ts e
| says_bitwise_up ts e : says LMath ts e -> says LBitwise ts e
| says_suffix_up ts e : says LBitwise ts e -> says LSuffix ts e
| says_comparison_up ts e : says LSuffix ts e -> says LComparison ts e
| says_like_up ts e : says LComparison ts e -> says LLike ts e
| says_not_up t ts e : says LLike (t :: ts) e -> ~ In t not_tokens -> says LNot (t :: ts) e
| says_logical_up ts e : says LNot ts e -> says LLogical ts e
(* the operators *)
| says_math a o b l r : says LMath a l -> In o math_tokens -> says LUnary b r -> says LMath (a ++ o :: b) (PMath o l r)
| says_bitwise a o b l r : says LBitwise a l -> In o bitwise_tokens -> says LMath b r -> says LBitwise (a ++ o :: b) (PBitwise o l r)
| says_in a l has_not nts exact xts ts args :
    says LSuffix a l -> maybe not_tokens has_not nts -> maybe exact_tokens exact xts -> says_list ts args ->
    says LSuffix (a ++ nts ++ TKey KIn :: xts ++ TSym LeftParen :: ts ++ [TSym RightParen]) (PIn has_not exact l args)
| says_is_null a l has_not nts :
    says LSuffix a l -> maybe not_tokens has_not nts ->
    says LSuffix (a ++ TKey KIs :: nts ++ [TKey KNull]) (PIsNull has_not l)
| says_comparison a o b l r : says LComparison a l -> In o comparison_tokens -> says LSuffix b r -> says LComparison (a ++ o :: b) (PCompare o l r)
| says_like a l has_not nts exact xts b r :
    says LLike a l -> maybe not_tokens has_not nts -> maybe exact_tokens exact xts -> says LComparison b r ->
    says LLike (a ++ nts ++ TKey KLike :: xts ++ b) (PLike has_not exact l r)
| says_not t ts e : In t not_tokens -> says LNot ts e -> says LNot (t :: ts) (PNot e)
| says_logical a o b l r : says LLogical a l -> In o logical_tokens -> says LNot b r -> says LLogical (a ++ o :: b) (PLogical o l r)
with says_list : list token -> list ptree -> Prop :=
| says_one ts e : says LLogical ts e -> says_list ts [e]
| says_more ts e us l : says LLogical ts e -> says_list us l -> says_list (ts ++ TSym Comma :: us) (e :: l).

(** One ordering term, and a list of them *)
Inductive orders : list token -> list ordering -> Prop :=
| orders_one ts o : one_order ts o -> orders ts [o]
| orders_more ts o us l : one_order ts o -> orders us l -> orders (ts ++ TSym Comma :: us) (o :: l)
with one_order : list token -> ordering -> Prop :=
| order_desc exact xts c : maybe exact_tokens exact xts -> one_order (xts ++ [TIdent c; TKey KDesc]) (Ordering exact c true)
| order_asc exact xts c : maybe exact_tokens exact xts -> one_order (xts ++ [TIdent c; TKey KAsc]) (Ordering exact c false)
| order_plain exact xts c : maybe exact_tokens exact xts -> one_order (xts ++ [TIdent c]) (Ordering exact c false).

(** TOP with an integer, which may have a sign *)
Inductive top_clause : list token -> option bytes -> Prop :=
| top_none : top_clause [] None
| top_plain n : top_clause [TKey KTop; TInt n] (Some n)
| top_minus n : top_clause [TKey KTop; TSym Minus; TInt n] (Some (45 :: n))
| top_plus n : top_clause [TKey KTop; TSym Plus; TInt n] (Some (43 :: n)).
Inductive order_by : list token -> list ordering -> Prop :=
| order_by_none : order_by [] []
| order_by_some ts l : orders ts l -> order_by (TKey KOrder :: TKey KBy :: ts) l.

(** One statement.  A literal GUID on its own stands for the signal. *)
Inductive statement_says : list token -> pstatement -> Prop :=
| st_guid g : statement_says [TGuid g] (QGuid g)
| st_measurement k : statement_says [TMeasurement k] (QMeasurement k)
| st_tag n : statement_says [TTag n] (QTag n)
| st_filter tts top table ts e ots order :
    top_clause tts top -> says LLogical ts e -> order_by ots order ->
    statement_says (TKey KFilter :: tts ++ TIdent table :: TKey KWhere :: ts ++ ots) (QFilter top table e order)
| st_expression ts e : says LLogical ts e -> (forall g, ts <> [TGuid g]) -> statement_says ts (QExpression e).

(** Statements with semicolons between them; further ones do not matter. *)
Definition semis (n : nat) : list token := repeat (TSym Semicolon) n.
Inductive statements_say : list token -> list pstatement -> Prop :=
| sts_one ts s n : statement_says ts s -> statements_say (ts ++ semis n) [s]
| sts_more ts s n us l : statement_says ts s -> statements_say us l -> statements_say (ts ++ semis (S n) ++ us) (s :: l).
Inductive text_says : list token -> list pstatement -> Prop :=
| text_is n ts l : statements_say ts l -> text_says (semis n ++ ts) l.
