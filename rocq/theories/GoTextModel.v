(** Texts of numbers and identifiers as the packages that sttp/goapi calls write and
    read them: strconv (Go 1.22) and github.com/google/uuid v1.3.0.  The functions
    of /repo modelled here are Guid.go:109-117; the others have no code of their own
    in /repo. *)
From Coq Require Import SpecFloat String Ascii.
From Verif Require Import Base GuidModel FormatModel NumModel.
Open Scope list_scope.
Open Scope Z_scope.

(** ** strconv.ParseInt and ParseUint with base 0 (Go's strconv/atoi.go), with
    the value returned beside an error: 0, or the nearest limit out of range *)

Definition lower (c : Z) : Z := Z.lor c 32.
(** atoi.go:36-60: base prefix. *)
Definition int_base (s : bytes) : Z * bytes :=
  match s with
  | 48 :: r =>
    match r with
    | c :: ((_ :: _) as r') => if lower c =? 98 then (2, r') else if lower c =? 111 then (8, r') else if lower c =? 120 then (16, r') else (8, r)
    | _ => (8, r)
    end
  | _ => (10, s)
  end.
(** The value of one digit: None for a byte that is none in any base. *)
Definition digit_of (c : Z) : option Z :=
  if (48 <=? c) && (c <=? 57) then Some (c - 48)
  else if (97 <=? lower c) && (lower c <=? 122) then Some (lower c - 97 + 10) else None.
Inductive parsed := PSyntax | PRange (limit : Z) | PValue (n : Z).
(** atoi.go:82-130: the digits, for values up to [max]. *)
Fixpoint int_digits (base max : Z) (s : bytes) (n : Z) : parsed :=
  match s with
  | [] => PValue n
  | c :: r =>
    if c =? 95 then int_digits base max r n
    else match digit_of c with
         | None => PSyntax
         | Some d => if base <=? d then PSyntax
                     else let n1 := n * base + d in
                          if max <? n1 then PRange max else int_digits base max r n1
         end
  end.
(** atoi.go:276-320 underscoreOK, after sign and prefix: [saw] is 0 at the
    beginning, 1 after a digit, 2 after an underscore, 3 after anything else. *)
Fixpoint underscores_ok (hex : bool) (s : bytes) (saw : Z) : bool :=
  match s with
  | [] => negb (saw =? 2)
  | c :: r =>
    if ((48 <=? c) && (c <=? 57)) || (hex && (97 <=? lower c) && (lower c <=? 102)) then underscores_ok hex r 1
    else if c =? 95 then if saw =? 1 then underscores_ok hex r 2 else false
    else if saw =? 2 then false else underscores_ok hex r 3
  end.
Definition underscoreOK (s : bytes) : bool :=
  match s with
  | 48 :: c :: r => if (lower c =? 98) || (lower c =? 111) || (lower c =? 120) then underscores_ok (lower c =? 120) r 1 else underscores_ok false s 0
  | _ => underscores_ok false s 0
  end.
(** atoi.go:63-140 ParseUint(s, 0, bits) *)
Definition parse_unsigned (bits : Z) (s : bytes) : parsed :=
  match s with
  | [] => PSyntax
  | _ => let '(base, r) := int_base s in
         match int_digits base (2 ^ bits - 1) r 0 with
         | PValue n => if existsb (Z.eqb 95) r && negb (underscoreOK s) then PSyntax else PValue n
         | p => p
         end
  end.
Definition ParseUint (bits : Z) (s : bytes) : Z :=
  match parse_unsigned bits s with PSyntax => 0 | PRange m => m | PValue n => n end.
(** atoi.go:186-193: the sign. *)
Definition split_sign (s : bytes) : bool * bytes := match s with 43 :: r => (false, r) | 45 :: r => (true, r) | _ => (false, s) end.
(** atoi.go:175-225 ParseInt(s, 0, bits) *)
Definition ParseInt (bits : Z) (s : bytes) : Z :=
  let '(neg, r) := split_sign s in
  match s, parse_unsigned bits r with
  | [], _ | _, PSyntax => 0
  | _, PRange n | _, PValue n =>
    let cutoff := 2 ^ (bits - 1) in
    if negb neg && (cutoff <=? n) then cutoff - 1
    else if neg && (cutoff <? n) then - cutoff
    else if neg then - n else n
  end.

(** The same without a value beside an error. *)
Definition parse_uint (bits : Z) (s : bytes) : option Z :=
  match parse_unsigned bits s with PValue n => Some n | _ => None end.
Definition parse_int (bits : Z) (s : bytes) : option Z :=
  let '(neg, r) := split_sign s in
  match parse_unsigned bits r with
  | PValue n => if (if neg then 2 ^ (bits - 1) <? n else 2 ^ (bits - 1) <=? n) then None
                else Some (if neg then - n else n)
  | _ => None
  end.
(** strconv.ParseInt(s, 0, 64) succeeds *)
Definition parse_int0 (s : bytes) : bool := match parse_int 64 s with Some _ => true | None => false end.

(** ** strconv.ParseBool *)
Definition byte_text (s : string) : bytes := map (fun a => Z.of_N (N_of_ascii a)) (list_ascii_of_string s).
Definition parse_bool (s : bytes) : option bool :=
  if existsb (bytes_eqb s) (map byte_text ["1"; "t"; "T"; "TRUE"; "true"; "True"]%string) then Some true
  else if existsb (bytes_eqb s) (map byte_text ["0"; "f"; "F"; "FALSE"; "false"; "False"]%string) then Some false
  else None.

(** ** strconv.FormatFloat(f, 'f', prec, _) for prec >= 0: the exact decimal
    expansion rounded half to even (ftoa.go, bigFtoa and decimal.Round). *)

(** n/d rounded to the nearest integer, a tie to the even one; 0 <= n, 0 < d. *)
Definition round_div (n d : Z) : Z :=
  let q := n / d in
  match 2 * (n mod d) ?= d with Lt => q | Gt => q + 1 | Eq => if Z.even q then q else q + 1 end.
(** The digits of m * 2^e * 10^prec, rounded. *)
Definition scaled (m e prec : Z) : Z :=
  if 0 <=? e then m * 2 ^ e * 10 ^ prec else round_div (m * 10 ^ prec) (2 ^ (- e)).
(** Decimal digits of any number. *)
Definition decimal_text (n : Z) : bytes := dec_digits (S (Z.to_nat (Z.log2 n))) n [].
(** ftoa.go fmtF *)
Definition with_point (n : Z) (prec : nat) : bytes :=
  let d := decimal_text n in
  let d := repeat 48 (S prec - List.length d) ++ d in
  let i := (List.length d - prec)%nat in
  firstn i d ++ match prec with O => [] | _ => 46 :: skipn i d end.
Definition minus (s : bool) : bytes := if s then [45] else [].
Definition FormatFloat (f : spec_float) (prec : nat) : bytes :=
  match f with
  | S754_nan => byte_text "NaN"
  | S754_infinity s => (if s then [45] else [43]) ++ byte_text "Inf"
  | S754_zero s => minus s ++ with_point 0 prec
  | S754_finite s m e => minus s ++ with_point (scaled (Zpos m) e (Z.of_nat prec)) prec
  end.
(** ValueExpression.go:135, DataRow.go:315 and 637 *)
Definition format_float (f : double) : bytes := FormatFloat f 6.
(** DataRow.go:627: bitSize 32 makes no difference for a value that is a float32. *)
Definition format_single (f : spec_float) : bytes := FormatFloat f 6.
(** Float.go:40-70 FloatWith on a number; FormatModel has the part after line 41. *)
Definition format_FloatWith (f : double) (prec : nat) (decimalSymbol groupSymbol : Z) : res bytes :=
  FloatWith (d_ltb f d_zero) (FormatFloat f prec) decimalSymbol groupSymbol.
(** Float.go:34-36 Float *)
Definition format_Float (f : double) (prec : nat) : res bytes := format_FloatWith f prec 46 44.

(** ** google/uuid *)

(** uuid.go encodeHex: lower-case digits *)
Definition hex_digit (n : Z) : Z := if n <? 10 then 48 + n else 87 + n.
Definition hex_text (l : bytes) : bytes := flat_map (fun b => [hex_digit (b / 16); hex_digit (b mod 16)]) l.
Definition uuid_String (g : guid) : bytes :=
  hex_text (firstn 4 g) ++ 45 :: hex_text (firstn 2 (skipn 4 g)) ++ 45 :: hex_text (firstn 2 (skipn 6 g)) ++
  45 :: hex_text (firstn 2 (skipn 8 g)) ++ 45 :: hex_text (firstn 6 (skipn 10 g)).
(** util.go xvalues and xtob: 255 is no digit *)
Definition xvalue (c : Z) : Z :=
  if (48 <=? c) && (c <=? 57) then c - 48
  else if (97 <=? c) && (c <=? 102) then c - 87
  else if (65 <=? c) && (c <=? 70) then c - 55
  else 255.
Definition xtob (x1 x2 : Z) : Z * bool :=
  let b1 := xvalue x1 in let b2 := xvalue x2 in
  (Z.lor (u8 (b1 * 16)) b2, negb (b1 =? 255) && negb (b2 =? 255)).
(** The bytes whose digits stand at the given places.  At the first that is none the
    function returns with the later bytes still zero; [keep] tells whether the value
    of xtob is stored before it is tested. *)
Fixpoint xtob_at (keep : bool) (s : bytes) (places : list nat) : bytes * bool :=
  match places with
  | [] => ([], true)
  | i :: r =>
    let '(v, ok) := xtob (nth i s 0) (nth (S i) s 0) in
    if ok then let '(g, k) := xtob_at keep s r in (v :: g, k)
    else ((if keep then v else 0) :: repeat 0 (List.length r), false)
  end.
Definition dashed_places : list nat := [0; 2; 4; 6; 9; 11; 14; 16; 19; 21; 24; 26; 28; 30; 32; 34]%nat.
Definition raw_places : list nat := [0; 2; 4; 6; 8; 10; 12; 14; 16; 18; 20; 22; 24; 26; 28; 30]%nat.
Definition parse_dashed (s : bytes) : guid * bool :=
  if (nth 8 s 0 =? 45) && (nth 13 s 0 =? 45) && (nth 18 s 0 =? 45) && (nth 23 s 0 =? 45)
  then xtob_at false s dashed_places else (Empty, false).
(** strings.ToLower on ASCII; a text of nine bytes with others among them does not
    become "urn:uuid:". *)
Definition uuid_lower (c : Z) : Z := if (65 <=? c) && (c <=? 90) then c + 32 else c.
Definition urn_uuid : bytes := byte_text "urn:uuid:".
Definition uuid_Parse (s : bytes) : guid * bool :=
  let n := len s in
  if n =? 36 then parse_dashed s
  else if n =? 45 then
    if bytes_eqb (map uuid_lower (firstn 9 s)) urn_uuid then parse_dashed (skipn 9 s) else (Empty, false)
  else if n =? 38 then parse_dashed (skipn 1 s)
  else if n =? 32 then xtob_at true s raw_places
  else (Empty, false).

(** Guid.go:109-112 Parse: the value, and whether the error is nil *)
Definition guid_Parse (s : bytes) : guid * bool := uuid_Parse s.
(** Guid.go:115-117 String *)
Definition guid_String (g : guid) : bytes := 123 :: uuid_String g ++ [125].
Definition parse_guid (s : bytes) : option guid := let '(g, ok) := guid_Parse s in if ok then Some g else None.
Definition format_guid (g : guid) : bytes := guid_String g.
