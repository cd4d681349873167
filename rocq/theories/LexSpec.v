(** What the lexer does, in two ways: the tokens of every text by the token rules and
    the longest-match principle, and the spellings and layouts of tokens, which name
    no rule of the lexer. *)
From Coq Require Import String.
From Verif Require Import Base StrModel ExprModel ParseModel LexModel.
Open Scope list_scope.
Open Scope Z_scope.

(** ** The longest match *)

Inductive matches : rx -> list Z -> Prop :=
| m_eps : matches REps []
| m_set p c : p c = true -> matches (RSet p) [c]
| m_cat a b u v : matches a u -> matches b v -> matches (RCat a b) (u ++ v)
| m_left a b u : matches a u -> matches (RAlt a b) u
| m_right a b u : matches b u -> matches (RAlt a b) u
| m_done a : matches (RStar a) []
| m_again a u v : matches a u -> matches (RStar a) v -> matches (RStar a) (u ++ v).

(** The rule with action [a] matches the first [k] characters; no rule matches more,
    and none listed before matches as many. *)
Definition chosen (s : list Z) (k : nat) (a : action) : Prop :=
  exists before r after, rules = before ++ (r, a) :: after /\ (k <= length s)%nat /\ matches r (firstn k s) /\
    (forall r' a' n, In (r', a') rules -> (n <= length s)%nat -> matches r' (firstn n s) -> (n <= k)%nat) /\
    (forall r' a', In (r', a') before -> ~ matches r' (firstn k s)).

(** "*/" occurs in the text *)
Definition closes (s : list Z) : Prop := exists u v, s = u ++ 42 :: 47 :: v.

Inductive lexes : list Z -> list token -> Prop :=
| lexes_end : lexes [] []
| lexes_comment b r ts : ~ closes b -> lexes r ts -> lexes (47 :: 42 :: b ++ 42 :: 47 :: r) ts
| lexes_open_comment b : ~ closes b -> lexes (47 :: 42 :: b) []
| lexes_token s k a t ts : (forall r, s <> 47 :: 42 :: r) -> chosen s k a -> a (firstn k s) = Some t -> lexes (skipn k s) ts -> lexes s (t :: ts)
| lexes_hidden s k a ts : (forall r, s <> 47 :: 42 :: r) -> chosen s k a -> a (firstn k s) = None -> lexes (skipn k s) ts -> lexes s ts.

(** ** Spellings *)

Definition digit (c : Z) : Prop := 48 <= c <= 57.
Definition hex (c : Z) : Prop := digit c \/ 97 <= c <= 102 \/ 65 <= c <= 70.
Definition latin (c : Z) : Prop := 97 <= c <= 122 \/ 65 <= c <= 90.
Definition name_start (c : Z) : Prop := latin c \/ c = 95.
Definition name_char (c : Z) : Prop := name_start c \/ digit c.
(** a letter, a digit or one of - ! _ . @ # $ *)
Definition acronym (c : Z) : Prop := latin c \/ digit c \/ In c [45; 33; 95; 46; 64; 35; 36].

Definition symbol_text (s : symbol) : string :=
  match s with
  | Semicolon => ";" | Minus => "-" | Plus => "+" | Comma => "," | LeftParen => "(" | RightParen => ")" | Bang => "!" | Tilde => "~"
  | Eq3 => "===" | Less => "<" | LessEq => "<=" | Greater => ">" | GreaterEq => ">=" | Eq1 => "=" | Eq2 => "==" | BangEq => "!=" | BangEq2 => "!=="
  | LessGreater => "<>" | And2 => "&&" | Or2 => "||" | Shl => "<<" | Shr => ">>" | Amp => "&" | Bar => "|" | Caret => "^" | Star => "*"
  | Slash => "/" | Percent => "%"
  end.
Definition keyword_text (k : keyword) : string :=
  match k with
  | KAnd => "AND" | KAsc => "ASC" | KBinary => "BINARY" | KBy => "BY" | KDesc => "DESC" | KFilter => "FILTER" | KIn => "IN" | KIs => "IS" | KLike => "LIKE"
  | KNot => "NOT" | KNull => "NULL" | KOr => "OR" | KOrder => "ORDER" | KTop => "TOP" | KWhere => "WHERE" | KXor => "XOR"
  end.
Definition function_text (f : func) : string :=
  match f with
  | FAbs => "ABS" | FCeiling => "CEILING" | FCoalesce => "COALESCE" | FConvert => "CONVERT" | FContains => "CONTAINS" | FDateAdd => "DATEADD"
  | FDateDiff => "DATEDIFF" | FDatePart => "DATEPART" | FEndsWith => "ENDSWITH" | FFloor => "FLOOR" | FIIf => "IIF" | FIndexOf => "INDEXOF"
  | FIsDate => "ISDATE" | FIsInteger => "ISINTEGER" | FIsGuid => "ISGUID" | FIsNull => "ISNULL" | FIsNumeric => "ISNUMERIC" | FLastIndexOf => "LASTINDEXOF"
  | FLen => "LEN" | FLower => "LOWER" | FMaxOf => "MAXOF" | FMinOf => "MINOF" | FNthIndexOf => "NTHINDEXOF" | FNow => "NOW" | FPower => "POWER"
  | FRegExMatch => "REGEXMATCH" | FRegExVal => "REGEXVAL" | FReplace => "REPLACE" | FReverse => "REVERSE" | FRound => "ROUND" | FSplit => "SPLIT"
  | FSqrt => "SQRT" | FStartsWith => "STARTSWITH" | FStrCount => "STRCOUNT" | FStrCmp => "STRCMP" | FSubStr => "SUBSTR" | FTrim => "TRIM"
  | FTrimLeft => "TRIMLEFT" | FTrimRight => "TRIMRIGHT" | FUpper => "UPPER" | FUtcNow => "UTCNOW"
  end.
(** The word, each letter in either case; [w] is in upper case *)
Definition any_case (w : string) (x : list Z) : Prop := Forall2 (fun c y => y = c \/ y = c + 32) (lit w) x.
Definition reserved (x : list Z) : Prop :=
  (exists k, any_case (keyword_text k) x) \/ (exists f, any_case (function_text f) x) \/ any_case "TRUE" x \/ any_case "FALSE" x.

Definition digits (x : list Z) : Prop := x <> [] /\ Forall digit x.
Definition exponent (x : list Z) : Prop :=
  exists e sign d, x = e :: sign ++ d /\ (e = 69 \/ e = 101) /\ (sign = [] \/ sign = [45] \/ sign = [43]) /\ digits d.
(** Groups of 8, 4, 4, 4 and 12 hexadecimal digits *)
Definition hexes (n : nat) (x : list Z) : Prop := length x = n /\ Forall hex x.
Definition guid_text (x : list Z) : Prop :=
  exists a b c d e, x = a ++ 45 :: b ++ 45 :: c ++ 45 :: d ++ 45 :: e /\ hexes 8 a /\ hexes 4 b /\ hexes 4 c /\ hexes 4 d /\ hexes 12 e.
Definition dash (x : list Z) : Prop := x = [] \/ x = [45].
Definition guid_shape (x : list Z) : Prop :=
  exists a p b q c r d s e, x = a ++ p ++ b ++ q ++ c ++ r ++ d ++ s ++ e /\ hexes 8 a /\ hexes 4 b /\ hexes 4 c /\ hexes 4 d /\ hexes 12 e /\
    dash p /\ dash q /\ dash r /\ dash s.
(** Text between single quotes: a quote inside is doubled *)
Inductive quoted : list Z -> Prop :=
| q_nil : quoted []
| q_char c x : c <> 39 -> quoted x -> quoted (c :: x)
| q_quote x : quoted x -> quoted (39 :: 39 :: x).

Inductive spelled : token -> list Z -> Prop :=
| sp_symbol s : spelled (TSym s) (lit (symbol_text s))
| sp_keyword k x : any_case (keyword_text k) x -> spelled (TKey k) x
| sp_function f x : any_case (function_text f) x -> spelled (TFunc f) x
| sp_bool x : any_case "TRUE" x \/ any_case "FALSE" x -> spelled (TBool (encode_runes x)) x
| sp_name c x : name_start c -> Forall name_char x -> ~ reserved (c :: x) -> spelled (TIdent (encode_runes (c :: x))) (c :: x)
| sp_backtick x : x <> [] -> ~ In 96 x -> spelled (TIdent (encode_runes (96 :: x ++ [96]))) (96 :: x ++ [96])
| sp_bracket x : x <> [] -> ~ In 93 x -> spelled (TIdent (encode_runes (91 :: x ++ [93]))) (91 :: x ++ [93])
| sp_integer x : digits x -> spelled (TInt (encode_runes x)) x
| sp_hexadecimal m x : m = 88 \/ m = 120 -> x <> [] -> Forall hex x -> spelled (TInt (encode_runes (48 :: m :: x))) (48 :: m :: x)
| sp_fraction i f e : digits i -> Forall digit f -> e = [] \/ exponent e -> spelled (TNum (encode_runes (i ++ 46 :: f ++ e))) (i ++ 46 :: f ++ e)
| sp_exponent i e : digits i -> exponent e -> spelled (TNum (encode_runes (i ++ e))) (i ++ e)
| sp_point f e : digits f -> e = [] \/ exponent e -> spelled (TNum (encode_runes (46 :: f ++ e))) (46 :: f ++ e)
| sp_guid x : guid_text x -> spelled (TGuid (encode_runes x)) x
| sp_guid_braces x : guid_shape x -> spelled (TGuid (encode_runes (123 :: x ++ [125]))) (123 :: x ++ [125])
| sp_guid_quotes x : guid_shape x -> spelled (TGuid (encode_runes (39 :: x ++ [39]))) (39 :: x ++ [39])
| sp_measurement c x d : acronym c -> c <> 35 -> Forall acronym x -> (c = 45 -> hd 0 x <> 45) -> digits d ->
    spelled (TMeasurement (encode_runes (c :: x ++ 58 :: d))) (c :: x ++ 58 :: d)
| sp_tag x : x <> [] -> Forall acronym x -> spelled (TTag (encode_runes (34 :: x ++ [34]))) (34 :: x ++ [34])
| sp_string x : quoted x -> ~ guid_shape x -> spelled (TStr (encode_runes (39 :: x ++ [39]))) (39 :: x ++ [39])
| sp_date x : x <> [] -> ~ In 35 x -> spelled (TDate (encode_runes (35 :: x ++ [35]))) (35 :: x ++ [35]).

(** ** Layouts *)

Definition space (c : Z) : Prop := In c [32; 9; 10; 11; 13].
(** A space; a comment "-- ..." to the end of the line; a comment between "/*" and "*/" *)
Inductive gap : list Z -> Prop :=
| gap_space c : space c -> gap [c]
| gap_line b c : ~ In 10 b -> ~ In 13 b -> c = 10 \/ c = 13 -> gap (45 :: 45 :: 32 :: b ++ [c])
| gap_block b : ~ closes b -> gap (47 :: 42 :: b ++ [42; 47]).
Definition punctuation (t : token) : Prop := In t [TSym LeftParen; TSym RightParen; TSym Comma; TSym Semicolon].
(** The text after a token begins with a space or one of ( ) , ; or is empty, or the
    token is itself one of those. *)
Definition separated (t : token) (s : list Z) : Prop :=
  punctuation t \/ s = [] \/ exists c r, s = c :: r /\ (space c \/ In c [40; 41; 44; 59]).
Inductive layout : list token -> list Z -> Prop :=
| layout_end : layout [] []
| layout_gap g ts s : gap g -> layout ts s -> layout ts (g ++ s)
| layout_token t x ts s : spelled t x -> separated t s -> layout ts s -> layout (t :: ts) (x ++ s).
