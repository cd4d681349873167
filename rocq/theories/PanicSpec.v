(** When a function of a filter expression crashes, given the values of its
    arguments (C48). *)
From Coq Require Import String.
From Verif Require Import Base FormatModel StrModel NumModel ExprModel ExprSpec.
Open Scope list_scope.
Open Scope Z_scope.

(** The optional last argument of a text function: TRUE asks to ignore case. *)
Inductive caseless (L : lib) : list ve -> bool -> Prop :=
| caseless_absent : caseless L [] false
| caseless_null v : null v -> caseless L [v] false
| caseless_given v b : ~ null v -> Convert L v VBoolean = Ok (vBool b) -> caseless L [v] b.
Definition cased (L : lib) (ignore : bool) (s : bytes) : bytes := if ignore then ToUpper L s else s.

(** A type name of Convert, with or without the prefix "System.", in any case. *)
Definition names (L : lib) (s n : bytes) : Prop :=
  ToUpper L s = n \/ ToUpper L s = lit "SYSTEM." ++ n.

(** [x] is where occurrence number [k] is, and 0 when there is none. *)
Definition position (ps : list Z) (k x : Z) : Prop :=
  (0 <= k < len ps /\ x = nth (Z.to_nat k) ps 0) \/ (~ 0 <= k < len ps /\ x = 0).

(** Cutting piece number [i] out of [s], when the delimiter [D] is looked for in
    [U] (the same text, or its upper-case form).  Delimiters may overlap: then
    the piece would start after its end.  And when case is ignored, the places
    are those in the upper-case text, which can be longer. *)
Definition bad_cut (s U D : bytes) (i : Z) : Prop :=
  (D = [] /\ (len U <= i \/ len s < i)) \/
  (D <> [] /\ exists ps x y, occurrences U D ps /\ position ps (i - 1) x /\ position ps i y /\
    ((y <> 0 /\ len s < y) \/ (x <> 0 /\ y <> 0 /\ y < x + len D) \/ (x <> 0 /\ y = 0 /\ len s < len U))).

(** The greatest (least) of some values, as the same function finds it. *)
Definition extreme_so_far (L : lib) (f : func) (vals : list ve) (t : ve) : Prop :=
  vals = [t] \/ (2 <= len vals /\ Evaluate L None (EFunction f (map EValue vals)) = Ok t).

Inductive function_crash (L : lib) : func -> list ve -> Prop :=
| fc_convert_bool b s : names L s (lit "INT32") -> function_crash L FConvert [vBool b; vStr s]
| fc_convert_double g s : d_is_finite g = false -> names L s (lit "DECIMAL") ->
    function_crash L FConvert [vDouble g; vStr s]
| fc_power_mixed b n : function_crash L FPower [vBool b; vInt32 n]
| fc_nth_index s v i o ignore : whole v i -> caseless L o ignore ->
    len (cased L ignore s) <= i < 2 ^ 63 - 1 -> function_crash L FNthIndexOf (vStr s :: vStr [] :: v :: o)
| fc_split s d v i o ignore : whole v i -> caseless L o ignore ->
    bad_cut s (cased L ignore s) (cased L ignore d) i ->
    function_crash L FSplit (vStr s :: vStr d :: v :: o)
| fc_substr s v w i n : whole v i -> whole w n -> 0 <= i < len s -> 2 ^ 63 <= i + n ->
    function_crash L FSubStr [vStr s; v; w]
| fc_regex p s find lo hi : regex_find L p = Some find -> find s = Some (lo, hi) ->
    ~ (0 <= lo <= hi /\ hi <= len s) -> function_crash L FRegExVal [vStr p; vStr s]
| fc_extreme f before next after t : f = FMaxOf \/ f = FMinOf ->
    extreme_so_far L f before t -> bool_int32 next t -> function_crash L f (before ++ next :: after).

(** Texts shorter than the integers can count, also in upper case. *)
Definition short_text (L : lib) (v : ve) : Prop :=
  forall s, v = vStr s -> len s < 2 ^ 60 /\ len (ToUpper L s) < 2 ^ 60.
