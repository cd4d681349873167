(** Decimals (github.com/shopspring/decimal) and IEEE doubles as used by
    /repo/sttp/data/ExpressionTree.go and ValueExpression.go.  Third-party and
    language operations; no function of /repo is modelled in this file. *)
From Coq Require Export SpecFloat.
From Verif Require Import Base.

(** decimal.Decimal: coef * 10^dexp.  The bounds of the int32 exponent are not
    modelled. *)
Record dec := Dec { coef : Z; dexp : Z }.

Definition dec_zero : dec := Dec 0 0.
(** decimal.NewFromInt *)
Definition dec_of_Z (n : Z) : dec := Dec n 0.

(** Coefficient of a at the exponent e <= dexp a (RescalePair). *)
Definition coef_at (a : dec) (e : Z) : Z := coef a * 10 ^ (dexp a - e).

Definition dec_add (a b : dec) : dec :=
  let e := Z.min (dexp a) (dexp b) in Dec (coef_at a e + coef_at b e) e.
Definition dec_sub (a b : dec) : dec :=
  let e := Z.min (dexp a) (dexp b) in Dec (coef_at a e - coef_at b e) e.
Definition dec_mul (a b : dec) : dec := Dec (coef a * coef b) (dexp a + dexp b).
Definition dec_abs (a : dec) : dec := Dec (Z.abs (coef a)) (dexp a).
(** Decimal.Cmp *)
Definition dec_cmp (a b : dec) : Z :=
  let e := Z.min (dexp a) (dexp b) in
  match coef_at a e ?= coef_at b e with Lt => -1 | Eq => 0 | Gt => 1 end.
Definition dec_equal (a b : dec) : bool := dec_cmp a b =? 0.
(** Decimal.IntPart: truncated towards zero, then the low 64 bits. *)
Definition dec_intpart (a : dec) : Z :=
  i64 (if 0 <=? dexp a then coef a * 10 ^ dexp a else Z.quot (coef a) (10 ^ (- dexp a))).
(** Decimal.Truncate(0) *)
Definition dec_truncate (a : dec) : dec :=
  if 0 <=? dexp a then a else Dec (Z.quot (coef a) (10 ^ (- dexp a))) 0.
Definition dec_floor (a : dec) : dec :=
  if 0 <=? dexp a then a else Dec (coef a / 10 ^ (- dexp a)) 0.
Definition dec_ceil (a : dec) : dec :=
  if 0 <=? dexp a then a else Dec (- (- coef a / 10 ^ (- dexp a))) 0.
(** Decimal.Round(0): halves away from zero. *)
Definition dec_round (a : dec) : dec :=
  if 0 <=? dexp a then a
  else let p := 10 ^ (- dexp a) in
       Dec (Z.sgn (coef a) * ((2 * Z.abs (coef a) + p) / (2 * p))) 0.

(** float64 as IEEE binary64 data. *)
Definition double := spec_float.
Definition d_zero : double := S754_zero false.
Definition d_add : double -> double -> double := SFadd 53 1024.
Definition d_sub : double -> double -> double := SFsub 53 1024.
Definition d_mul : double -> double -> double := SFmul 53 1024.
Definition d_div : double -> double -> double := SFdiv 53 1024.
Definition d_sqrt : double -> double := SFsqrt 53 1024.
Definition d_opp : double -> double := SFopp.
Definition d_abs : double -> double := SFabs.
Definition d_ltb (a b : double) : bool := SFltb a b.
Definition d_leb (a b : double) : bool := SFleb a b.
Definition d_eqb (a b : double) : bool := SFeqb a b.
(** float64(n) *)
Definition d_of_Z (n : Z) : double := binary_normalize 53 1024 n 0 false.
(** float64(x) for a float32 x. *)
Definition d_of_single (x : spec_float) : double :=
  match x with
  | S754_finite s m e => binary_normalize 53 1024 (cond_Zopp s (Zpos m)) e s
  | _ => x
  end.

(** The integer a finite double truncates to; None for an infinity or NaN. *)
Definition d_trunc (x : double) : option Z :=
  match x with
  | S754_zero _ => Some 0
  | S754_finite s m e =>
    Some (cond_Zopp s (if 0 <=? e then Zpos m * 2 ^ e else Zpos m / 2 ^ (- e)))
  | _ => None
  end.

Definition d_is_finite (x : double) : bool :=
  match x with S754_zero _ | S754_finite _ _ _ => true | _ => false end.

(** An integer as a double, a zero keeping the sign s. *)
Definition d_integral (s : bool) (n : Z) : double :=
  if n =? 0 then S754_zero s else binary_normalize 53 1024 n 0 s.

(** math.Floor, math.Ceil, math.Round *)
Definition d_floor (x : double) : double :=
  match x with
  | S754_finite s m e =>
    if 0 <=? e then x else d_integral s (cond_Zopp s (Zpos m) / 2 ^ (- e))
  | _ => x
  end.
Definition d_ceil (x : double) : double :=
  match x with
  | S754_finite s m e =>
    if 0 <=? e then x else d_integral s (- (- cond_Zopp s (Zpos m) / 2 ^ (- e)))
  | _ => x
  end.
Definition d_round (x : double) : double :=
  match x with
  | S754_finite s m e =>
    if 0 <=? e then x
    else let p := 2 ^ (- e) in d_integral s (cond_Zopp s ((2 * Zpos m + p) / (2 * p)))
  | _ => x
  end.
