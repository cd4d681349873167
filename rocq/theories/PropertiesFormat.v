(** Property theorems for sttp/format (C09, C69). *)
From Verif Require Import Base FormatModel FormatSpec FormatProofs.

(** C09: unsigned and signed integers. *)
Theorem C09_unsigned_faithful : forall x s, is_u64 x -> ~ is_digit s -> exists out,
  UInt64With x s = Ok out /\ is_decimal_of x (without s out) /\ grouped_by_three s out.
Proof. exact UInt64With_ok. Qed.
Print Assumptions C09_unsigned_faithful.

Theorem C09_signed_faithful : forall x s, is_i64 x -> ~ is_digit s -> s <> 45 -> exists out,
  Int64With x s = Ok ((if x <? 0 then [45] else []) ++ out) /\
  is_decimal_of (Z.abs x) (without s out) /\ grouped_by_three s out.
Proof. exact Int64With_ok. Qed.
Print Assumptions C09_signed_faithful.

Example C09_nonvacuous :
  Int64With (-1234567) 44 = Ok [45;49;44;50;51;52;44;53;54;55] /\
  Int64With (- 2 ^ 63) 44 = Ok [45;57;44;50;50;51;44;51;55;50;44;48;51;54;44;56;53;52;44;55;55;53;44;56;48;56] /\
  UInt64With 999 44 = Ok [57;57;57].
Proof. vm_compute. auto. Qed.

(** C69: floating point texts of the form [-]digits[.digits]. *)
Theorem C69_float_grouping : forall neg digits frac dec s,
  Forall is_digit digits -> digits <> [] -> Forall is_digit frac ->
  ~ is_digit dec -> dec <> 45 -> ~ is_digit s -> s <> 45 ->
  exists g, without s g = digits /\ grouped_by_three s g /\
    FloatWith neg (sign neg ++ digits ++ 46 :: frac) dec s = Ok (sign neg ++ g ++ dec :: frac) /\
    FloatWith neg (sign neg ++ digits) dec s = Ok (sign neg ++ g).
Proof. exact FloatWith_ok. Qed.
Print Assumptions C69_float_grouping.

Example C69_nonvacuous :
  FloatWith true [45;49;50;51;52;46;53] 46 44 = Ok [45;49;44;50;51;52;46;53].
Proof. reflexivity. Qed.

(** +Inf (text "+Inf", not negative) is printed as "+,Inf". *)
Theorem C69_positive_infinity_refuted :
  FloatWith false [43;73;110;102] 46 44 = Ok [43;44;73;110;102].
Proof. exact eq_refl. Qed.
Print Assumptions C69_positive_infinity_refuted.
