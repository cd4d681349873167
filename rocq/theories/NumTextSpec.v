(** Specification vocabulary for the texts of numbers (C123, C124, C125). *)
From Coq Require Import Reals.
From Flocq Require Import Core.Core IEEE754.BinarySingleNaN.
From Verif Require Import Base FormatSpec NumModel.

(** '-', or '+' or nothing *)
Definition sign_text (neg : bool) (l : bytes) : Prop := if neg then l = [45] else l = [] \/ l = [43].
(** Nothing, or E or e and a whole number with or without a sign *)
Definition exponent_text (e : Z) (l : bytes) : Prop :=
  (e = 0 /\ l = []) \/
  exists c neg sg d, (c = 69 \/ c = 101) /\ sign_text neg sg /\ d <> [] /\ Forall is_digit d /\ l = c :: sg ++ d /\
    e = if neg then - dec_value d else dec_value d.
(** Digits with a point before, between or after them, or with none: as a number, and
    how many stand after the point *)
Definition point_text (m k : Z) (l : bytes) : Prop :=
  exists w f, Forall is_digit w /\ Forall is_digit f /\ w ++ f <> [] /\ (l = w ++ 46 :: f \/ f = [] /\ l = w) /\
    m = dec_value (w ++ f) /\ k = len f.
(** [s] writes m * 10^(e - k), negated if [neg]. *)
Definition number_text (neg : bool) (m k e : Z) (s : bytes) : Prop :=
  exists sg p x, sign_text neg sg /\ point_text m k p /\ exponent_text e x /\ s = sg ++ p ++ x.
Definition signed (neg : bool) (r : R) : R := if neg then (- r)%R else r.
(** The real number it writes *)
Definition number_value (neg : bool) (m k e : Z) : R := signed neg (IZR m * powerRZ 10 (e - k)).

(** [f] is the number of a binary format with [prec] bits and exponents below [emax] that
    is nearest to [r], the even one in a tie, with the sign [neg] also if it is zero. *)
Definition nearest_in (prec emax : Z) (r : R) : R := round radix2 (FLT_exp (3 - emax - prec) prec) ZnearestE r.
Definition is_nearest (prec emax : Z) (neg : bool) (r : R) (f : spec_float) : Prop :=
  SpecFloat.valid_binary prec emax f = true /\ SF2R radix2 f = nearest_in prec emax r /\
  match f with S754_zero s | S754_finite s _ _ => s = neg | _ => False end.

(** A text in any mixture of upper and lower case of ASCII *)
Definition same_letters (a b : bytes) : Prop :=
  Forall2 (fun x y => x = y \/ (97 <= y <= 122 /\ x = y - 32)) a b.
(** inf or infinity, with or without a sign; nan *)
Definition infinity_text (neg : bool) (s : bytes) : Prop :=
  exists sg r, sign_text neg sg /\ s = sg ++ r /\ (same_letters r [105; 110; 102] \/ same_letters r [105; 110; 102; 105; 110; 105; 116; 121]).
Definition nan_text (s : bytes) : Prop := same_letters s [110; 97; 110].

(** ** Decimals *)

(** The text of a decimal number without superfluous zeros: '-' if it is negative, the
    whole part, and, if there is one, a point and a fraction that does not end with 0 *)
Definition canonical_text (neg : bool) (m k : Z) (s : bytes) : Prop :=
  exists w f, is_decimal_of (dec_value w) w /\ Forall is_digit f /\ m = dec_value (w ++ f) /\ k = len f /\ last f 1 <> 48 /\
    s = (if neg then [45] else []) ++ w ++ (if k =? 0 then [] else 46 :: f).
