(** Decimal.Pow of github.com/shopspring/decimal v1.3.1, as called by
    /repo/sttp/data/ExpressionTree.go:2164-2165.  No function of /repo is
    modelled in this file. *)
From Verif Require Import Base GuidModel NumModel NumTextModel.
Open Scope Z_scope.

(** decimal.go Pow: 1 when the whole part of the exponent is 0; otherwise the
    square of the power with half the exponent, times the base (divided by it)
    when the whole part is odd and positive (negative).  The halved exponent
    keeps 16 decimal places.  [fuel] counts the calls; [decimal_pow] gives
    enough (PowProofs.v, decimal_pow_eq). *)
Fixpoint pow_loop (fuel : nat) (d e : dec) : res dec :=
  match fuel with
  | O => Ok (dec_of_Z 1)
  | S fuel' =>
    let n := dec_intpart e in
    if n =? 0 then Ok (dec_of_Z 1)
    else
      let* t := pow_loop fuel' d (decimal_div e (dec_of_Z 2)) in
      if Z.rem n 2 =? 0 then Ok (dec_mul t t)
      else if 0 <? n then Ok (dec_mul (dec_mul t t) d)
      else if coef d =? 0 then Panic else Ok (decimal_div (dec_mul t t) d)
  end.
Definition decimal_pow (d e : dec) : res dec :=
  pow_loop (Z.to_nat (Z.log2 (Z.abs (coef e) * 10 ^ Z.max 0 (dexp e)) + 4)) d e.
