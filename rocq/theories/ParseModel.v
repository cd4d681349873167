(** Filter expressions as tokens: the grammar of
    /repo/sttp/data/FilterExpressionSyntax.g4 as the functions generated for it in
    /repo/sttp/data/parser/filterexpressionsyntax_parser.go parse it, and the
    listener in /repo/sttp/data/FilterExpressionParser.go (FEP) that turns the parse
    tree into expressions and statements.

    Simplifications.  The choice among alternatives, which the ANTLR runtime makes by
    simulating the grammar (AdaptivePredict), is written out: it takes the alternative
    the following tokens allow and, if several do, the one listed first; a binary
    operator is taken if its precedence predicate holds.  What ANTLR's error recovery
    makes of a text outside the grammar is not modelled: [None] stands for it. *)
From Coq Require Import String Lia ZifyBool.
From Verif Require Import Base GuidModel StrModel NumModel ExprModel TableModel XmlModel.
Open Scope list_scope.
Open Scope Z_scope.

(** ** Tokens *)

(** FilterExpressionSyntax.g4:206-262, the keywords that are no function names *)
Inductive keyword := KAnd | KAsc | KBinary | KBy | KDesc | KFilter | KIn | KIs | KLike | KNot | KNull | KOr | KOrder | KTop | KWhere | KXor.
(** The quoted symbols of the grammar (T__0 .. T__27) *)
Inductive symbol :=
| Semicolon | Minus | Plus | Comma | LeftParen | RightParen | Bang | Tilde | Eq3 | Less | LessEq | Greater | GreaterEq | Eq1 | Eq2
| BangEq | BangEq2 | LessGreater | And2 | Or2 | Shl | Shr | Amp | Bar | Caret | Star | Slash | Percent.
(** One token of the default channel; texts are UTF-8. *)
Inductive token :=
| TSym (s : symbol)
| TKey (k : keyword)
| TFunc (f : func)
| TBool (text : bytes)
| TIdent (text : bytes)
| TInt (text : bytes)
| TNum (text : bytes)
| TGuid (text : bytes)
| TMeasurement (text : bytes)
| TTag (text : bytes)
| TStr (text : bytes)
| TDate (text : bytes)
| TUnexpected (text : bytes).

(** FilterExpressionSyntax.g4:103-138: notOperator, unaryOperator, exactMatchModifier,
    comparisonOperator, logicalOperator, bitwiseOperator, mathOperator *)
Definition notOperator (t : token) : bool := match t with TKey KNot | TSym Bang => true | _ => false end.
Definition unaryOperator (t : token) : bool :=
  match t with TSym Minus | TSym Plus | TSym Tilde | TSym Bang | TKey KNot => true | _ => false end.
Definition exactMatchModifier (t : token) : bool := match t with TKey KBinary | TSym Eq3 => true | _ => false end.
Definition comparisonOperator (t : token) : bool :=
  match t with
  | TSym (Less | LessEq | Greater | GreaterEq | Eq1 | Eq2 | Eq3 | BangEq | BangEq2 | LessGreater) => true
  | _ => false
  end.
Definition logicalOperator (t : token) : bool := match t with TKey KAnd | TSym And2 | TKey KOr | TSym Or2 => true | _ => false end.
Definition bitwiseOperator (t : token) : bool := match t with TSym (Shl | Shr | Amp | Bar | Caret) | TKey KXor => true | _ => false end.
Definition mathOperator (t : token) : bool := match t with TSym (Star | Slash | Percent | Plus | Minus) => true | _ => false end.
(** FilterExpressionSyntax.g4:187-195 literalValue *)
Definition literalValue (t : token) : bool :=
  match t with TInt _ | TNum _ | TStr _ | TDate _ | TGuid _ | TBool _ | TKey KNull => true | _ => false end.

(** ** Parse trees *)

(** One constructor per production of expression, predicateExpression and
    valueExpression (g4:79-101); productions that only wrap another one, and
    parentheses, leave no trace: the listener hands their value on (FEP 614-624,
    697-708, 867-902, 945-956). *)
Inductive ptree :=
| PNot (e : ptree)
| PLogical (o : token) (l r : ptree)
| PIn (has_not exact : bool) (e : ptree) (args : list ptree)
| PIsNull (has_not : bool) (e : ptree)
| PCompare (o : token) (l r : ptree)
| PLike (has_not exact : bool) (l r : ptree)
| PLiteral (t : token)
| PColumn (name : bytes)
| PCall (f : func) (args : list ptree)
| PUnary (o : token) (e : ptree)
| PMath (o : token) (l r : ptree)
| PBitwise (o : token) (l r : ptree).

(** ** The parser *)

Notation "'let?' x := m 'in' k" := (match m with Some x => k | None => None end) (at level 200, x pattern, m at level 100, k at level 200).

(** An optional modifier. *)
Definition optional (p : token -> bool) (ts : list token) : bool * list token :=
  match ts with t :: r => if p t then (true, r) else (false, ts) | [] => (false, ts) end.
(** What can follow a predicateExpression: the alternatives of
    filterexpressionsyntax_parser.go:1987-2121. *)
Inductive suffix :=
| AfterIn (has_not exact : bool) (rest : list token)    (* notOperator? K_IN exactMatchModifier? '(' *)
| AfterIs (has_not : bool) (rest : list token)          (* K_IS notOperator? K_NULL *)
| AfterComparison (o : token) (rest : list token)       (* comparisonOperator *)
| AfterLike (has_not exact : bool) (rest : list token)  (* notOperator? K_LIKE exactMatchModifier? *)
| Malformed
| Nothing.
Definition suffix_of (ts : list token) : suffix :=
  let '(n, r) := optional notOperator ts in
  match r with
  | TKey KIn :: r => let '(x, r) := optional exactMatchModifier r in
                     match r with TSym LeftParen :: r => AfterIn n x r | _ => Malformed end
  | TKey KLike :: r => let '(x, r) := optional exactMatchModifier r in AfterLike n x r
  | _ => match ts with
         | TKey KIs :: r => let '(n, r) := optional notOperator r in
                            match r with TKey KNull :: r => AfterIs n r | _ => Malformed end
         | t :: r => if comparisonOperator t then AfterComparison t r else Nothing
         | [] => Nothing
         end
  end.

(** filterexpressionsyntax_parser.go:1704-1786 expression, 1940-2128
    predicateExpression, 2286-2420 valueExpression, 1541-1590 expressionList,
    3446-3500 functionExpression.  [p] is the precedence handed to the function; the
    loops are the second half of each.  [fuel] bounds the depth of calls. *)
Fixpoint expression (fuel : nat) (p : Z) (ts : list token) : option (ptree * list token) :=
  match fuel with
  | O => None
  | S n =>
    match ts with
    | [] => None
    | t :: r =>
      let? (e, r) := (if notOperator t then let? (e, r) := expression n 3 r in Some (PNot e, r)
                      else predicateExpression n 0 ts) in
      expression_loop n p e r
    end
  end
with expression_loop (fuel : nat) (p : Z) (l : ptree) (ts : list token) : option (ptree * list token) :=
  match fuel with
  | O => None
  | S n =>
    match ts with
    | t :: r => if logicalOperator t && (p <=? 2) then let? (e, r) := expression n 3 r in expression_loop n p (PLogical t l e) r
                else Some (l, ts)
    | [] => Some (l, ts)
    end
  end
with predicateExpression (fuel : nat) (p : Z) (ts : list token) : option (ptree * list token) :=
  match fuel with
  | O => None
  | S n => let? (e, r) := valueExpression n 0 ts in predicate_loop n p e r
  end
with predicate_loop (fuel : nat) (p : Z) (l : ptree) (ts : list token) : option (ptree * list token) :=
  match fuel with
  | O => None
  | S n =>
    match suffix_of ts with
    | AfterIn nt x r =>
      if p <=? 5 then let? (args, r) := expressionList n r in
                      match r with TSym RightParen :: r => predicate_loop n p (PIn nt x l args) r | _ => None end
      else Some (l, ts)
    | AfterIs nt r => if p <=? 4 then predicate_loop n p (PIsNull nt l) r else Some (l, ts)
    | AfterComparison o r => if p <=? 3 then let? (e, r) := predicateExpression n 4 r in predicate_loop n p (PCompare o l e) r else Some (l, ts)
    | AfterLike nt x r => if p <=? 2 then let? (e, r) := predicateExpression n 3 r in predicate_loop n p (PLike nt x l e) r else Some (l, ts)
    | Malformed => None
    | Nothing => Some (l, ts)
    end
  end
with valueExpression (fuel : nat) (p : Z) (ts : list token) : option (ptree * list token) :=
  match fuel with
  | O => None
  | S n =>
    let? (e, r) :=
      match ts with
      | TIdent name :: r => Some (PColumn name, r)
      | TFunc f :: TSym LeftParen :: TSym RightParen :: r => Some (PCall f [], r)
      | TFunc f :: TSym LeftParen :: r =>
        let? (args, r) := expressionList n r in
        match r with TSym RightParen :: r => Some (PCall f args, r) | _ => None end
      | TSym LeftParen :: r =>
        let? (e, r) := expression n 0 r in
        match r with TSym RightParen :: r => Some (e, r) | _ => None end
      | t :: r =>
        if literalValue t then Some (PLiteral t, r)
        else if unaryOperator t then let? (e, r) := valueExpression n 4 r in Some (PUnary t e, r)
        else None
      | [] => None
      end in
    value_loop n p e r
  end
with value_loop (fuel : nat) (p : Z) (l : ptree) (ts : list token) : option (ptree * list token) :=
  match fuel with
  | O => None
  | S n =>
    match ts with
    | t :: r => if mathOperator t && (p <=? 2) then let? (e, r) := valueExpression n 3 r in value_loop n p (PMath t l e) r
                else if bitwiseOperator t && (p <=? 1) then let? (e, r) := valueExpression n 2 r in value_loop n p (PBitwise t l e) r
                else Some (l, ts)
    | [] => Some (l, ts)
    end
  end
with expressionList (fuel : nat) (ts : list token) : option (list ptree * list token) :=
  match fuel with
  | O => None
  | S n =>
    let? (e, r) := expression n 0 ts in
    match r with
    | TSym Comma :: r => let? (l, r) := expressionList n r in Some (e :: l, r)
    | _ => Some ([e], r)
    end
  end.

(** Depth enough for every token list: each call of a chain of three consumes a
    token before it recurs. *)
Definition enough (ts : list token) : nat := 8 * S (length ts).

(** One filterExpressionStatement, with the texts of its literals. *)
Record ordering := Ordering { o_exact : bool; o_column : bytes; o_desc : bool }.
Inductive pstatement :=
| QGuid (text : bytes)
| QMeasurement (text : bytes)
| QTag (text : bytes)
| QFilter (top : option bytes) (table : bytes) (condition : ptree) (order : list ordering)
| QExpression (condition : ptree).

(** filterexpressionsyntax_parser.go:1401-1470 orderingTerm, and the list of them *)
Definition orderingTerm (ts : list token) : option (ordering * list token) :=
  let '(x, r) := optional exactMatchModifier ts in
  match r with
  | TIdent c :: TKey KDesc :: r => Some (Ordering x c true, r)
  | TIdent c :: TKey KAsc :: r => Some (Ordering x c false, r)
  | TIdent c :: r => Some (Ordering x c false, r)
  | _ => None
  end.
Fixpoint orderingTerms (fuel : nat) (ts : list token) : option (list ordering * list token) :=
  match fuel with
  | O => None
  | S n =>
    let? (o, r) := orderingTerm ts in
    match r with
    | TSym Comma :: r => let? (l, r) := orderingTerms n r in Some (o :: l, r)
    | _ => Some ([o], r)
    end
  end.
(** 1267-1300 topLimit: the text of its tokens *)
Definition topLimit (ts : list token) : option (bytes * list token) :=
  match ts with
  | TSym Minus :: TInt n :: r => Some (45 :: n, r)
  | TSym Plus :: TInt n :: r => Some (43 :: n, r)
  | TInt n :: r => Some (n, r)
  | _ => None
  end.
(** 1111-1200 filterStatement, after K_FILTER *)
Definition filterStatement (ts : list token) : option (pstatement * list token) :=
  let? (top, r) := match ts with
                   | TKey KTop :: r => let? (n, r) := topLimit r in Some (Some n, r)
                   | _ => Some (None, ts)
                   end in
  match r with
  | TIdent table :: TKey KWhere :: r =>
    let? (e, r) := expression (enough r) 0 r in
    match r with
    | TKey KOrder :: TKey KBy :: r => let? (o, r) := orderingTerms (S (length r)) r in Some (QFilter top table e o, r)
    | _ => Some (QFilter top table e [], r)
    end
  | _ => None
  end.
(** 824-868 filterExpressionStatement: a literal GUID is an identifierStatement if
    nothing but the end of the statement follows. *)
Definition ends (ts : list token) : bool := match ts with [] | TSym Semicolon :: _ => true | _ => false end.
Definition filterExpressionStatement (ts : list token) : option (pstatement * list token) :=
  let other := let? (e, r) := expression (enough ts) 0 ts in Some (QExpression e, r) in
  match ts with
  | TGuid text :: r => if ends r then Some (QGuid text, r) else other
  | TMeasurement text :: r => Some (QMeasurement text, r)
  | TTag text :: r => Some (QTag text, r)
  | TKey KFilter :: r => filterStatement r
  | _ => other
  end.
(** 646-735 filterExpressionStatementList and 404-450 parse, up to the end of the
    text: semicolons around and between statements *)
Fixpoint semicolons (ts : list token) : list token := match ts with TSym Semicolon :: r => semicolons r | _ => ts end.
Fixpoint statementList (fuel : nat) (ts : list token) : option (list pstatement) :=
  match fuel with
  | O => None
  | S n =>
    let? (s, r) := filterExpressionStatement ts in
    match r with
    | [] => Some [s]
    | TSym Semicolon :: _ =>
      match semicolons r with
      | [] => Some [s]
      | r => let? l := statementList n r in Some (s :: l)
      end
    | _ => None
    end
  end.
Definition Parse (ts : list token) : option (list pstatement) := statementList (S (length ts)) (semicolons ts).

(** ** The listener *)

(** FEP 1480-1488 parseStringLiteral and the like: the text without its first and
    last character if it begins with the quote *)
Definition unquote (q : Z) (s : bytes) : bytes :=
  match s with b :: r => if b =? q then removelast r else s | [] => [] end.

(** strconv.ParseInt(s, 0, 64) and ParseUint(s, 0, 64) on texts without sign *)
Definition parse_int64 (s : bytes) : option Z :=
  match parse_unsigned 64 s with PValue n => if n <? 2 ^ 63 then Some n else None | _ => None end.
Definition parse_uint64 (s : bytes) : option Z := match parse_unsigned 64 s with PValue n => Some n | _ => None end.
(** FEP 1106-1116 parseNumericLiteral *)
Definition parseNumericLiteral (L : lib) (s : bytes) : ve :=
  match parse_decimal s with
  | Some d => VE VDecimal (Some (GDec d))
  | None => match parse_float s with Some f => VE VDouble (Some (GDouble f)) | None => VE VString (Some (GStr s)) end
  end.
(** FEP 1046-1104 ExitLiteralValue; a text that is no GUID or date panics. *)
Definition literal_value (L : lib) (t : token) : res ve :=
  match t with
  | TInt s =>
    Ok match parse_int64 s with
       | Some n => if 2 ^ 31 - 1 <? n then VE VInt64 (Some (GInt64 n)) else VE VInt32 (Some (GInt32 n))
       | None =>
         match parse_uint64 s with
         | Some n => if 2 ^ 63 - 1 <? n then parseNumericLiteral L s else if 2 ^ 31 - 1 <? n then VE VInt64 (Some (GInt64 n)) else VE VInt32 (Some (GInt32 n))
         | None => match parse_decimal s with Some d => VE VDecimal (Some (GDec d)) | None => VE VString (Some (GStr s)) end
         end
       end
  | TNum s =>
    Ok (if existsb (fun c => (c =? 69) || (c =? 101)) s
        then match parse_float s with Some f => VE VDouble (Some (GDouble f)) | None => parseNumericLiteral L s end
        else parseNumericLiteral L s)
  | TStr s => Ok (VE VString (Some (GStr (unquote 39 s))))
  | TDate s => match parse_date L (unquote 35 s) with Some t => Ok (VE VDateTime (Some (GTime t))) | None => Panic end
  | TGuid s => match parse_guid (unquote 39 s) with Some g => Ok (VE VGuid (Some (GGuid g))) | None => Panic end
  | TBool s => Ok (if str_eqb (ToUpper L s) (lit "TRUE") then vTrue else vFalse)
  | TKey KNull => Ok (NullValue VUndefined)
  | _ => Panic
  end.

(** FEP 664-673: the logical operators *)
Definition logical_type (o : token) : option oper :=
  match o with TKey KAnd | TSym And2 => Some OAnd | TKey KOr | TSym Or2 => Some OOr | _ => None end.
(** FEP 799-819: the comparison operators *)
Definition comparison_type (o : token) : option oper :=
  match o with
  | TSym Less => Some OLessThan | TSym LessEq => Some OLessThanOrEqual | TSym Greater => Some OGreaterThan | TSym GreaterEq => Some OGreaterThanOrEqual
  | TSym Eq1 | TSym Eq2 => Some OEqual | TSym Eq3 => Some OEqualExactMatch
  | TSym LessGreater | TSym BangEq => Some ONotEqual | TSym BangEq2 => Some ONotEqualExactMatch
  | _ => None
  end.
(** FEP 828-845: LIKE *)
Definition like_type (has_not exact : bool) : oper :=
  if exact then (if has_not then ONotLikeExactMatch else OLikeExactMatch) else if has_not then ONotLike else OLike.
(** FEP 977-992: the arithmetic operators *)
Definition math_type (o : token) : option oper :=
  match o with
  | TSym Star => Some OMultiply | TSym Slash => Some ODivide | TSym Percent => Some OModulus | TSym Plus => Some OAdd | TSym Minus => Some OSubtract
  | _ => None
  end.
(** FEP 1003-1023: the bitwise operators *)
Definition bitwise_type (o : token) : option oper :=
  match o with
  | TSym Shl => Some OBitShiftLeft | TSym Shr => Some OBitShiftRight | TSym Amp => Some OBitwiseAnd | TSym Bar => Some OBitwiseOr
  | TSym Caret | TKey KXor => Some OBitwiseXor
  | _ => None
  end.
(** FEP 921-938: the unary operators *)
Definition unary_type (o : token) : option unary :=
  match o with TSym Plus => Some UPlus | TSym Minus => Some UMinus | TSym Tilde | TSym Bang | TKey KNot => Some UNot | _ => None end.
Definition or_panic {A} (x : option A) : res A := match x with Some a => Ok a | None => Panic end.

(** FEP 592-1272 ExitExpression, ExitPredicateExpression, ExitValueExpression,
    ExitColumnName and ExitFunctionExpression: the expression of a context from those
    of its parts, which were stored when they were left.  [column] is the lookup of
    ExitColumnName (1125-1151). *)
Section Build.
Variables (L : lib) (column : bytes -> res expr).
Fixpoint build (e : ptree) : res expr :=
  match e with
  | PNot a => let* a := build a in Ok (EUnary UNot a)
  | PLogical o l r => let* l := build l in let* r := build r in let* o := or_panic (logical_type o) in Ok (EOperator o l r)
  | PIn nt x a args =>
    let* a := build a in
    let* args := (fix all l := match l with [] => Ok [] | x :: l => let* x := build x in let* l := all l in Ok (x :: l) end) args in
    Ok (EInList a args nt x)
  | PIsNull nt a => let* a := build a in Ok (EOperator (if nt then OIsNotNull else OIsNull) a ENil)
  | PCompare o l r => let* l := build l in let* r := build r in let* o := or_panic (comparison_type o) in Ok (EOperator o l r)
  | PLike nt x l r => let* l := build l in let* r := build r in Ok (EOperator (like_type nt x) l r)
  | PLiteral t => let* v := literal_value L t in Ok (EValue v)
  | PColumn name => column name
  | PCall f args =>
    let* args := (fix all l := match l with [] => Ok [] | x :: l => let* x := build x in let* l := all l in Ok (x :: l) end) args in
    Ok (EFunction f args)
  | PUnary o a => let* a := build a in let* o := or_panic (unary_type o) in Ok (EUnary o a)
  | PMath o l r => let* l := build l in let* r := build r in let* o := or_panic (math_type o) in Ok (EOperator o l r)
  | PBitwise o l r => let* l := build l in let* r := build r in let* o := or_panic (bitwise_type o) in Ok (EOperator o l r)
  end.
Fixpoint build_all (l : list ptree) : res (list expr) :=
  match l with [] => Ok [] | x :: l => let* x := build x in let* l := build_all l in Ok (x :: l) end.
End Build.

(** FEP 1125-1151 ExitColumnName, with the table of the active expression tree *)
Definition find_column (L : lib) (p : fparser) (table name : bytes) : res expr :=
  let table := if len table =? 0 then p_primary p else table in
  if len table =? 0 then Panic
  else match parser_table L p table with
       | Ok t => match ColumnByName L t name with
                 | Some c => Ok (EColumn (Some (Col (dc_index c) (dc_type c))))
                 | None => Panic
                 end
       | _ => Panic
       end.
(** The statements with their expressions, as the walk over the parse tree meets
    them; a panic anywhere ends the walk. *)
Definition listen_statement (L : lib) (p : fparser) (s : pstatement) : res statement :=
  match s with
  | QGuid text => match parse_guid (unquote 39 text) with Some g => Ok (SGuidLiteral g) | None => Panic end
  | QMeasurement text => Ok (SMeasurementKey text)
  | QTag text => Ok (SPointTag (unquote 34 text))
  | QFilter top table condition order =>
    let* e := build L (find_column L p table) condition in
    Ok (SFilter top table e (map (fun o => OrderClause (o_exact o) (o_column o) (o_desc o)) order))
  | QExpression condition => let* e := build L (find_column L p []) condition in Ok (SExpression e)
  end.
Fixpoint listen (L : lib) (p : fparser) (l : list pstatement) : res (list statement) :=
  match l with
  | [] => Ok []
  | s :: l => let* s := listen_statement L p s in let* l := listen L p l in Ok (s :: l)
  end.
