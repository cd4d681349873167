(** Specification vocabulary for arithmetic on doubles (C92, C95): the real
    number of a double and rounding to the nearest double, ties to even, from
    the Flocq library. *)
From Coq Require Import Reals.
From Flocq Require Import Core.Core IEEE754.BinarySingleNaN.
From Verif Require Import Base NumModel ExprModel ExprSpec.
Open Scope R_scope.

(** The real number of a double (0 for an infinity or NaN). *)
Definition real (x : double) : R := SF2R radix2 x.
(** [x] is a number, neither an infinity nor NaN, in IEEE binary64. *)
Definition is_number (x : double) : Prop := d_is_finite x = true /\ valid_binary 53 1024 x = true.
(** The double nearest to a real number: 53 bits, least exponent -1074, the even
    one in a tie. *)
Definition nearest (r : R) : R := round radix2 (FLT_exp (-1074) 53) ZnearestE r.
(** The result of an operation whose exact result is r: the nearest double, or an
    infinity of the same sign when that is beyond the greatest double. *)
Definition rounds_to (x : double) (r : R) : Prop :=
  (Rabs (nearest r) < bpow radix2 1024 -> is_number x /\ real x = nearest r) /\
  (bpow radix2 1024 <= Rabs (nearest r) -> exists s, x = S754_infinity s /\ (s = true -> r < 0) /\ (s = false -> 0 < r)).

(** The real number a numeric operand takes part with in an operation on doubles:
    an integer is first rounded to a double. *)
Inductive as_real : ve -> R -> Prop :=
| real_double f : is_number f -> as_real (vDouble f) (real f)
| real_whole v n : whole v n -> as_real v (nearest (IZR n)).
(** The exact results of arithmetic. *)
Definition real_operation (o : oper) (p q : R) : option R :=
  match o with
  | OAdd => Some (p + q)
  | OSubtract => Some (p - q)
  | OMultiply => Some (p * q)
  | ODivide => Some (p / q)
  | _ => None
  end.
