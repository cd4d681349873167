(** The lexer of filter expressions: the token rules of
    /repo/sttp/data/FilterExpressionSyntax.g4 (g4), which
    /repo/sttp/data/parser/filterexpressionsyntax_lexer.go encodes as tables.

    Simplification.  The ANTLR runtime interprets those tables; here its rule is
    written down: of all token rules the one that matches the longest text wins and,
    among equals, the one listed first.  The only rule with a non-greedy loop,
    MULTILINE_COMMENT, is a function of its own. *)
From Coq Require Import String Ascii.
From Verif Require Import Base StrModel ExprModel ParseModel.
Open Scope list_scope.
Open Scope Z_scope.

(** ** Patterns *)

Inductive rx :=
| RVoid
| REps
| RSet (p : Z -> bool)
| RCat (a b : rx)
| RAlt (a b : rx)
| RStar (a : rx).
Definition cat (a b : rx) : rx := match a, b with RVoid, _ => RVoid | _, RVoid => RVoid | REps, _ => b | _, REps => a | _, _ => RCat a b end.
Definition alt (a b : rx) : rx := match a, b with RVoid, _ => b | _, RVoid => a | _, _ => RAlt a b end.
Fixpoint nullable (r : rx) : bool :=
  match r with
  | RVoid | RSet _ => false
  | REps | RStar _ => true
  | RCat a b => nullable a && nullable b
  | RAlt a b => nullable a || nullable b
  end.
(** The pattern of what may follow the character [c]. *)
Fixpoint deriv (c : Z) (r : rx) : rx :=
  match r with
  | RVoid | REps => RVoid
  | RSet p => if p c then REps else RVoid
  | RCat a b => if nullable a then alt (cat (deriv c a) b) (deriv c b) else cat (deriv c a) b
  | RAlt a b => alt (deriv c a) (deriv c b)
  | RStar a => cat (deriv c a) r
  end.
(** The length of the longest prefix of the text that the pattern matches. *)
Fixpoint longest_from (r : rx) (s : list Z) (n : nat) (best : option nat) : option nat :=
  let best := if nullable r then Some n else best in
  match r, s with
  | RVoid, _ | _, [] => best
  | _, c :: s => longest_from (deriv c r) s (S n) best
  end.
Definition longest (r : rx) (s : list Z) : option nat := longest_from r s 0 None.

(** Notation of the grammar *)
Definition one (c : Z) : rx := RSet (Z.eqb c).
Definition but (c : Z) : rx := RSet (fun x => negb (x =? c)).
Definition plus (r : rx) : rx := RCat r (RStar r).
Definition opt (r : rx) : rx := RAlt REps r.
Fixpoint seq (l : list rx) : rx := match l with [] => REps | [r] => r | r :: l => RCat r (seq l) end.
Fixpoint times (n : nat) (r : rx) : rx := match n with O => REps | S O => r | S n => RCat r (times n r) end.
Definition between (a b c : Z) : bool := (a <=? c) && (c <=? b).
Definition text (s : string) : rx := seq (map one (lit s)).
(** g4:346-371 fragments A .. Z: a letter in either case.  [s] is in upper case. *)
Definition letter (c : Z) : rx := RSet (fun x => (x =? c) || (x =? c + 32)).
Definition word (s : string) : rx := seq (map letter (lit s)).

(** g4:334-344 fragments DIGIT, HEX_DIGIT, ACRONYM_DIGIT, GUID_VALUE *)
Definition is_digit (c : Z) : bool := between 48 57 c.
Definition is_hex (c : Z) : bool := is_digit c || between 97 102 c || between 65 70 c.
Definition is_acronym (c : Z) : bool :=
  between 97 122 c || between 65 90 c || is_digit c || (c =? 45) || (c =? 33) || (c =? 95) || (c =? 46) || (c =? 64) || (c =? 35) || (c =? 36).
Definition DIGIT : rx := RSet is_digit.
Definition HEX_DIGIT : rx := RSet is_hex.
Definition ACRONYM_DIGIT : rx := RSet is_acronym.
Definition GUID_VALUE : rx :=
  seq [times 8 HEX_DIGIT; opt (one 45); times 4 HEX_DIGIT; opt (one 45); times 4 HEX_DIGIT; opt (one 45); times 4 HEX_DIGIT; opt (one 45); times 12 HEX_DIGIT].

(** g4:280-284 IDENTIFIER *)
Definition is_name_start (c : Z) : bool := between 97 122 c || between 65 90 c || (c =? 95).
Definition is_name (c : Z) : bool := is_name_start c || is_digit c.
Definition IDENTIFIER : rx :=
  RAlt (seq [one 96; plus (but 96); one 96])
       (RAlt (seq [one 91; plus (but 93); one 93])
             (seq [RSet is_name_start; RStar (RSet is_name)])).
(** g4:286-289 INTEGER_LITERAL *)
Definition INTEGER_LITERAL : rx := RAlt (plus DIGIT) (seq [one 48; letter 88; plus HEX_DIGIT]).
(** g4:291-294 NUMERIC_LITERAL *)
Definition EXPONENT : rx := seq [letter 69; opt (RSet (fun c => (c =? 45) || (c =? 43))); plus DIGIT].
Definition NUMERIC_LITERAL : rx :=
  RAlt (seq [plus DIGIT; opt (seq [one 46; RStar DIGIT]); opt EXPONENT])
       (seq [one 46; plus DIGIT; opt EXPONENT]).
(** g4:296-300 GUID_LITERAL *)
Definition GUID_LITERAL : rx :=
  RAlt (seq [one 39; GUID_VALUE; one 39]) (RAlt (seq [one 123; GUID_VALUE; one 125]) GUID_VALUE).
(** g4:302-304 MEASUREMENT_KEY_LITERAL *)
Definition MEASUREMENT_KEY_LITERAL : rx := seq [plus ACRONYM_DIGIT; one 58; plus DIGIT].
(** g4:306-308 POINT_TAG_LITERAL *)
Definition POINT_TAG_LITERAL : rx := seq [one 34; plus ACRONYM_DIGIT; one 34].
(** g4:310-312 STRING_LITERAL *)
Definition STRING_LITERAL : rx := seq [one 39; RStar (RAlt (but 39) (seq [one 39; one 39])); one 39].
(** g4:314-316 DATETIME_LITERAL *)
Definition DATETIME_LITERAL : rx := seq [one 35; plus (but 35); one 35].
(** g4:318-320 SINGLE_LINE_COMMENT *)
Definition SINGLE_LINE_COMMENT : rx := seq [one 45; one 45; RStar (RSet (fun c => negb ((c =? 13) || (c =? 10))))].
(** g4:326-328 SPACES *)
Definition is_space (c : Z) : bool := (c =? 32) || (c =? 11) || (c =? 9) || (c =? 13) || (c =? 10).
Definition SPACES : rx := RSet is_space.
(** g4:330-332 UNEXPECTED_CHAR *)
Definition UNEXPECTED_CHAR : rx := RSet (fun _ => true).

(** ** The rules *)

(** g4:26-142, the symbols in the order they occur: T__0 .. T__27 *)
Definition symbols : list (string * symbol) :=
  [(";", Semicolon); ("-", Minus); ("+", Plus); (",", Comma); ("(", LeftParen); (")", RightParen); ("!", Bang); ("~", Tilde); ("===", Eq3);
   ("<", Less); ("<=", LessEq); (">", Greater); (">=", GreaterEq); ("=", Eq1); ("==", Eq2); ("!=", BangEq); ("!==", BangEq2); ("<>", LessGreater);
   ("&&", And2); ("||", Or2); ("<<", Shl); (">>", Shr); ("&", Amp); ("|", Bar); ("^", Caret); ("*", Star); ("/", Slash); ("%", Percent)]%string.
(** g4:217-273, the keywords; those of functionName (g4:144-186) are functions as
    ExitFunctionExpression (FilterExpressionParser.go:1164-1250) names them. *)
Definition keywords : list (string * token) :=
  [("ABS", TFunc FAbs); ("AND", TKey KAnd); ("ASC", TKey KAsc); ("BINARY", TKey KBinary); ("BY", TKey KBy); ("CEILING", TFunc FCeiling);
   ("COALESCE", TFunc FCoalesce); ("CONVERT", TFunc FConvert); ("CONTAINS", TFunc FContains); ("DATEADD", TFunc FDateAdd); ("DATEDIFF", TFunc FDateDiff);
   ("DATEPART", TFunc FDatePart); ("DESC", TKey KDesc); ("ENDSWITH", TFunc FEndsWith); ("FILTER", TKey KFilter); ("FLOOR", TFunc FFloor);
   ("IIF", TFunc FIIf); ("IN", TKey KIn); ("INDEXOF", TFunc FIndexOf); ("IS", TKey KIs); ("ISDATE", TFunc FIsDate); ("ISINTEGER", TFunc FIsInteger);
   ("ISGUID", TFunc FIsGuid); ("ISNULL", TFunc FIsNull); ("ISNUMERIC", TFunc FIsNumeric); ("LASTINDEXOF", TFunc FLastIndexOf); ("LEN", TFunc FLen);
   ("LIKE", TKey KLike); ("LOWER", TFunc FLower); ("MAXOF", TFunc FMaxOf); ("MINOF", TFunc FMinOf); ("NOT", TKey KNot); ("NOW", TFunc FNow);
   ("NTHINDEXOF", TFunc FNthIndexOf); ("NULL", TKey KNull); ("OR", TKey KOr); ("ORDER", TKey KOrder); ("POWER", TFunc FPower); ("REGEXMATCH", TFunc FRegExMatch);
   ("REGEXVAL", TFunc FRegExVal); ("REPLACE", TFunc FReplace); ("REVERSE", TFunc FReverse); ("ROUND", TFunc FRound); ("SQRT", TFunc FSqrt);
   ("SPLIT", TFunc FSplit); ("STARTSWITH", TFunc FStartsWith); ("STRCOUNT", TFunc FStrCount); ("STRCMP", TFunc FStrCmp); ("SUBSTR", TFunc FSubStr);
   ("TOP", TKey KTop); ("TRIM", TFunc FTrim); ("TRIMLEFT", TFunc FTrimLeft); ("TRIMRIGHT", TFunc FTrimRight); ("UPPER", TFunc FUpper); ("UTCNOW", TFunc FUtcNow);
   ("WHERE", TKey KWhere); ("XOR", TKey KXor)]%string.

(** What a rule makes of the text it matched: nothing for the hidden channel. *)
Definition action := list Z -> option token.
Definition utf8 (f : bytes -> token) : action := fun s => Some (f (encode_runes s)).
Definition rules : list (rx * action) :=
  map (fun e => (text (fst e), fun _ => Some (TSym (snd e)))) symbols ++
  map (fun e => (word (fst e), fun _ => Some (snd e))) keywords ++
  [(RAlt (word "TRUE") (word "FALSE"), utf8 TBool);
   (IDENTIFIER, utf8 TIdent);
   (INTEGER_LITERAL, utf8 TInt);
   (NUMERIC_LITERAL, utf8 TNum);
   (GUID_LITERAL, utf8 TGuid);
   (MEASUREMENT_KEY_LITERAL, utf8 TMeasurement);
   (POINT_TAG_LITERAL, utf8 TTag);
   (STRING_LITERAL, utf8 TStr);
   (DATETIME_LITERAL, utf8 TDate);
   (SINGLE_LINE_COMMENT, fun _ => None);
   (SPACES, fun _ => None);
   (UNEXPECTED_CHAR, utf8 TUnexpected)].

(** The rule that wins and the length of its text *)
Fixpoint best_rule (l : list (rx * action)) (s : list Z) : option (nat * action) :=
  match l with
  | [] => None
  | (r, a) :: l =>
    match longest r s, best_rule l s with
    | Some n, Some (m, b) => if Nat.ltb n m then Some (m, b) else Some (n, a)
    | Some n, None => Some (n, a)
    | None, x => x
    end
  end.

(** g4:322-324 MULTILINE_COMMENT, after its first two characters: up to the first
    "*/" or the end of the text.  No other rule matches more than the first
    character of such a text. *)
Fixpoint comment_rest (s : list Z) : list Z :=
  match s with
  | 42 :: (47 :: r) => r
  | _ :: s => comment_rest s
  | [] => []
  end.

(** The tokens of a text, the hidden ones left out; every step takes a character. *)
Fixpoint tokens_fuel (fuel : nat) (s : list Z) : list token :=
  match fuel, s with
  | O, _ | _, [] => []
  | S n, 47 :: (42 :: r) => tokens_fuel n (comment_rest r)
  | S n, _ =>
    match best_rule rules s with
    | Some (k, a) =>
      let rest := tokens_fuel n (skipn k s) in
      match a (firstn k s) with Some t => t :: rest | None => rest end
    | None => []
    end
  end.
Definition tokens (s : list Z) : list token := tokens_fuel (length s) s.
(** NewInputStream of the ANTLR runtime: the runes of the text *)
Definition Tokens (s : bytes) : list token := tokens (runes_of s).
