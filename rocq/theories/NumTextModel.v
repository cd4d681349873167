(** Texts of floating-point numbers and decimals: strconv.ParseFloat (Go 1.22) and
    github.com/shopspring/decimal v1.3.1, as the functions of /repo/sttp/data call
    them.  No function of /repo is modelled in this file. *)
From Coq Require Import SpecFloat String.
From Verif Require Import Base GuidModel FormatModel NumModel GoTextModel.
Open Scope list_scope.
Open Scope Z_scope.

(** ** Rounding a quotient to a binary format with [prec] bits *)

(** strconv's decimal.go and eisel_lemire.go, big.Rat.Float64 (math/big/rat.go): the
    nearest number, ties to even, an infinity beyond the greatest.  [s] is the sign.
    Here by long division, as SpecFloat divides. *)
Definition round_ratio (prec emax : Z) (s : bool) (n d : positive) : spec_float :=
  let '(mz, ez, lz) := SFdiv_core_binary prec emax (Zpos n) 0 (Zpos d) 0 in
  binary_round_aux prec emax s mz ez lz.
(** m * b^k, for m >= 0 *)
Definition round_scaled (prec emax : Z) (s : bool) (m b k : Z) : spec_float :=
  match m with
  | Zpos p => if 0 <=? k then round_ratio prec emax s (Z.to_pos (m * b ^ k)) 1 else round_ratio prec emax s p (Z.to_pos (b ^ (- k)))
  | _ => S754_zero s
  end.

(** ** strconv.ParseFloat (atof.go) *)

Inductive parsed_float := FSyntax | FRange (f : spec_float) | FValue (f : spec_float).
(** atof.go:26-60 special, for a whole text; ToLower on ASCII *)
Definition special (s : bytes) : option spec_float :=
  let '(neg, r) := split_sign s in
  let r := map uuid_lower r in
  if bytes_eqb r (byte_text "inf") || bytes_eqb r (byte_text "infinity") then Some (S754_infinity neg)
  else if bytes_eqb (map uuid_lower s) (byte_text "nan") then Some S754_nan
  else None.
(** atof.go readFloat: digits and point.  The result: the digits as a number, how many of
    them follow the point, whether there are any, and the rest. *)
Fixpoint scan_mantissa (hex : bool) (s : bytes) (m fraction : Z) (dot digits : bool) : Z * Z * bool * bytes :=
  match s with
  | [] => (m, fraction, digits, s)
  | c :: r =>
    if c =? 95 then scan_mantissa hex r m fraction dot digits
    else if c =? 46 then if dot then (m, fraction, digits, s) else scan_mantissa hex r m fraction true digits
    else if ((48 <=? c) && (c <=? 57)) || (hex && (97 <=? lower c) && (lower c <=? 102))
    then scan_mantissa hex r (m * (if hex then 16 else 10) + xvalue c) (fraction + if dot then 1 else 0) dot true
    else (m, fraction, digits, s)
  end.
(** The digits of the exponent, which grows no more when it has five *)
Fixpoint scan_exponent (s : bytes) (e : Z) : Z * bytes :=
  match s with
  | [] => (e, s)
  | c :: r =>
    if c =? 95 then scan_exponent r e
    else if (48 <=? c) && (c <=? 57) then scan_exponent r (if e <? 10000 then e * 10 + (c - 48) else e)
    else (e, s)
  end.
(** None: no exponent where one must be, or something after the number *)
Definition read_exponent (hex : bool) (s : bytes) : option Z :=
  match s with
  | [] => if hex then None else Some 0
  | c :: r =>
    if lower c =? (if hex then 112 else 101) then
      let '(neg, d) := split_sign r in
      match d with
      | c :: _ => if (48 <=? c) && (c <=? 57)
                  then let '(e, rest) := scan_exponent d 0 in match rest with [] => Some (if neg then - e else e) | _ => None end
                  else None
      | [] => None
      end
    else None
  end.
(** atof.go readFloat: 0x, with something after it *)
Definition hex_prefix (r : bytes) : bool * bytes :=
  match r with 48 :: c :: ((_ :: _) as r') => if lower c =? 120 then (true, r') else (false, r) | _ => (false, r) end.
(** atof.go ParseFloat *)
Definition ParseFloat (prec emax : Z) (s : bytes) : parsed_float :=
  match special s with
  | Some f => FValue f
  | None =>
    let '(neg, r) := split_sign s in
    let '(hex, r') := hex_prefix r in
    let '(m, fraction, digits, rest) := scan_mantissa hex r' 0 0 false false in
    if negb digits || (existsb (Z.eqb 95) r && negb (underscoreOK r)) then FSyntax
    else match read_exponent hex rest with
         | None => FSyntax
         | Some e =>
           let f := if hex then round_scaled prec emax neg m 2 (e - 4 * fraction) else round_scaled prec emax neg m 10 (e - fraction) in
           match f with S754_infinity _ => FRange f | _ => FValue f end
         end
  end.
(** strconv.ParseFloat(s, 64): the value if there is no error, and the value in any case *)
Definition parse_float (s : bytes) : option double := match ParseFloat 53 1024 s with FValue f => Some f | _ => None end.
Definition float_or_error (p : parsed_float) : spec_float := match p with FSyntax => S754_zero false | FRange f | FValue f => f end.
Definition parse_float_value (s : bytes) : double := float_or_error (ParseFloat 53 1024 s).
(** The value strconv.ParseFloat(s, 32) returns, as a float32 *)
Definition parse_single_value (s : bytes) : spec_float := float_or_error (ParseFloat 24 128 s).

(** ** shopspring/decimal *)

(** strconv.ParseInt(s, 10, _) and big.Int.SetString(s, 10) without bounds *)
Definition read_integer (s : bytes) : option Z :=
  let '(neg, r) := split_sign s in
  match r with
  | [] => None
  | _ => if forallb (fun c => (48 <=? c) && (c <=? 57)) r
         then let n := fold_left (fun a c => a * 10 + (c - 48)) r 0 in Some (if neg then - n else n)
         else None
  end.
Definition is_E (c : Z) : bool := (c =? 69) || (c =? 101).
Fixpoint split_at (p : Z -> bool) (s : bytes) : bytes * option bytes :=
  match s with
  | [] => ([], None)
  | c :: r => if p c then ([], Some r) else let '(a, b) := split_at p r in (c :: a, b)
  end.
Definition in_int32 (n : Z) : bool := (- 2 ^ 31 <=? n) && (n <? 2 ^ 31).
(** decimal.go NewFromString *)
Definition parse_decimal (s : bytes) : option dec :=
  let '(v, ex) := split_at is_E s in
  match match ex with None => Some 0 | Some t => read_integer t end with
  | None => None
  | Some e =>
    if negb (in_int32 e) then None
    else let '(whole, point) := split_at (Z.eqb 46) v in
         let fraction := match point with Some f => f | None => [] end in
         if existsb (Z.eqb 46) fraction then None
         else match read_integer (whole ++ fraction) with
              | None => None
              | Some n => let e := e - len fraction in if in_int32 e then Some (Dec n e) else None
              end
  end.
(** decimal.go Decimal.String *)
Fixpoint trim_zeros (s : bytes) : bytes :=
  match s with
  | [] => []
  | c :: r => match trim_zeros r with [] => if c =? 48 then [] else [c] | t => c :: t end
  end.
Definition format_decimal (d : dec) : bytes :=
  if 0 <=? dexp d then minus (coef d * 10 ^ dexp d <? 0) ++ decimal_text (Z.abs (coef d * 10 ^ dexp d))
  else
    let t := decimal_text (Z.abs (coef d)) in
    let k := Z.to_nat (- dexp d) in
    let t := repeat 48 (S k - List.length t) ++ t in
    let i := (List.length t - k)%nat in
    minus (coef d <? 0) ++ firstn i t ++ match trim_zeros (skipn i t) with [] => [] | f => 46 :: f end.
(** decimal.go Decimal.Float64, by way of big.Rat *)
Definition decimal_to_double (d : dec) : double := round_scaled 53 1024 (coef d <? 0) (Z.abs (coef d)) 10 (dexp d).
(** decimal.go DivRound and QuoRem with DivisionPrecision 16, for a divisor that is not
    zero *)
Definition decimal_div (a b : dec) : dec :=
  let e := dexp a - dexp b + 16 in
  let '(aa, bb, rest) := if e <? 0 then (coef a, coef b * 10 ^ (- e), dexp a) else (coef a * 10 ^ e, coef b, - 16 + dexp b) in
  let q := Dec (Z.quot aa bb) (- 16) in
  let r2 := Dec (2 * Z.abs (Z.rem aa bb)) (rest + 16) in
  if dec_cmp r2 (dec_abs b) <? 0 then q
  else if Z.sgn (coef a) * Z.sgn (coef b) <? 0 then dec_sub q (Dec 1 (- 16)) else dec_add q (Dec 1 (- 16)).
