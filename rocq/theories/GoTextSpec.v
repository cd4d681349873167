(** Specification vocabulary for the texts of identifiers and of numbers. *)
From Coq Require Import QArith Qabs SpecFloat.
From Verif Require Import Base FormatSpec.
Open Scope list_scope.
Open Scope Z_scope.

(** ** Identifiers *)

(** The character is a hexadecimal digit, in either case, of the value. *)
Definition hex_value (c v : Z) : Prop :=
  48 <= c <= 57 /\ v = c - 48 \/ 97 <= c <= 102 /\ v = c - 97 + 10 \/ 65 <= c <= 70 /\ v = c - 65 + 10.
(** The text writes the bytes with two digits each. *)
Inductive hex_pairs : bytes -> bytes -> Prop :=
| hp_nil : hex_pairs [] []
| hp_cons c1 c2 v1 v2 s l : hex_value c1 v1 -> hex_value c2 v2 -> hex_pairs s l -> hex_pairs (c1 :: c2 :: s) (16 * v1 + v2 :: l).
(** The sixteen bytes in groups of 4, 2, 2, 2 and 6 with dashes between *)
Definition dashed (g s : bytes) : Prop :=
  exists g1 g2 g3 g4 g5 s1 s2 s3 s4 s5,
    g = g1 ++ g2 ++ g3 ++ g4 ++ g5 /\ s = s1 ++ 45 :: s2 ++ 45 :: s3 ++ 45 :: s4 ++ 45 :: s5 /\
    length g1 = 4%nat /\ length g2 = 2%nat /\ length g3 = 2%nat /\ length g4 = 2%nat /\ length g5 = 6%nat /\
    hex_pairs s1 g1 /\ hex_pairs s2 g2 /\ hex_pairs s3 g3 /\ hex_pairs s4 g4 /\ hex_pairs s5 g5.
(** "urn:uuid:" in any case *)
Definition urn_prefix (p : bytes) : Prop :=
  Forall2 (fun c d => c = d \/ 97 <= d <= 122 /\ c = d - 32) p [117; 114; 110; 58; 117; 117; 105; 100; 58].
(** The texts of an identifier; a text of 38 bytes has any two around the dashed
    form, not only braces. *)
Inductive id_text (g : bytes) : bytes -> Prop :=
| it_dashed s : dashed g s -> id_text g s
| it_enclosed a s b : dashed g s -> id_text g (a :: s ++ [b])
| it_urn p s : urn_prefix p -> dashed g s -> id_text g (p ++ s)
| it_digits s : length g = 16%nat -> hex_pairs s g -> id_text g s.

(** ** Floating-point numbers *)

(** The number a finite float is, without its sign *)
Definition magnitude (f : spec_float) : Q :=
  match f with S754_finite _ m e => inject_Z (Zpos m) * 2 ^ e | _ => 0 end%Q.
Definition negative (f : spec_float) : bool :=
  match f with S754_finite s _ _ | S754_zero s | S754_infinity s => s | S754_nan => false end.
Definition finite (f : spec_float) : Prop := match f with S754_finite _ _ _ | S754_zero _ => True | _ => False end.
(** n is a nearest integer to q, the even one when two are equally near. *)
Definition nearest_even (q : Q) (n : Z) : Prop :=
  (Qabs (inject_Z n - q) <= 1 # 2)%Q /\ ((Qabs (inject_Z n - q) == 1 # 2)%Q -> Z.even n = true).
(** The text writes n / 10^prec with prec digits after the point, and no point when
    there are none; the digits before it have no superfluous zero. *)
Definition fixed_text (n : Z) (prec : nat) (t : bytes) : Prop :=
  exists whole fraction,
    is_decimal_of (n / 10 ^ Z.of_nat prec) whole /\ length fraction = prec /\ Forall is_digit fraction /\
    dec_value (whole ++ fraction) = n /\ t = whole ++ (if (prec =? 0)%nat then [] else 46 :: fraction).
