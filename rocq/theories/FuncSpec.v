(** Specification vocabulary for the scalar functions of filter expressions
    (C91-C94). *)
From Coq Require Import String Ascii QArith Qabs.
From Verif Require Import Base GuidModel StrModel NumModel CalSpec ExprModel ExprSpec.
Close Scope Q_scope.
Open Scope Z_scope.

(** ** Numbers *)

(** The number a finite double stands for; the mantissa has at most 53 bits. *)
Inductive double_number : double -> Q -> Prop :=
| double_zero s q : (q == 0)%Q -> double_number (S754_zero s) q
| double_finite (s : bool) m e q : bounded 53 1024 m e = true ->
    (q == inject_Z (if s then Z.neg m else Z.pos m) * Qpower (inject_Z 2) e)%Q ->
    double_number (S754_finite s m e) q.
(** The number a numeric value stands for; FALSE is 0 and TRUE is 1. *)
Inductive stands_for : ve -> Q -> Prop :=
| stands_whole v n q : whole v n -> (q == inject_Z n)%Q -> stands_for v q
| stands_decimal d q : (q == dec_number d)%Q -> stands_for (vDec d) q
| stands_double f q : double_number f q -> stands_for (vDouble f) q.

(** [n] is the greatest integer not above q, the least not below q. *)
Definition is_floor (q : Q) (n : Z) : Prop := (inject_Z n <= q /\ q < inject_Z (n + 1))%Q.
Definition is_ceiling (q : Q) (n : Z) : Prop := (inject_Z (n - 1) < q /\ q <= inject_Z n)%Q.
(** [n] is what remains of q without its fraction. *)
Definition is_truncated (q : Q) (n : Z) : Prop := ((0 <= q)%Q -> is_floor q n) /\ ((q <= 0)%Q -> is_ceiling q n).
(** [n] is the integer nearest to q, the one further from zero in a tie. *)
Definition is_rounded (q : Q) (n : Z) : Prop :=
  ((0 <= q)%Q -> is_floor (q + (1 # 2)) n) /\ ((q <= 0)%Q -> is_ceiling (q - (1 # 2)) n).

(** ** Dates *)

(** The moment a date argument stands for: a date, or text that another package
    reads as a date. *)
Inductive moment (L : lib) : ve -> Z -> Prop :=
| moment_date t : moment L (vTime t) t
| moment_text s t : parse_date L s = Some t -> moment L (vStr s) t.

Definition day_ns : Z := 86400000000000.
(** [clock t day h mi s ns]: t is that time of that day, counted from 1970-01-01. *)
Definition at_time (t day h mi s ns : Z) : Prop :=
  t = day * day_ns + ((h * 60 + mi) * 60 + s) * 1000000000 + ns /\
  0 <= h < 24 /\ 0 <= mi < 60 /\ 0 <= s < 60 /\ 0 <= ns < 1000000000.

(** ASCII white space. *)
Definition blank (c : Z) : Prop := 9 <= c <= 13 \/ c = 32.
(** [s] spells [name] in any letter case, possibly between blanks. *)
Definition spells (s : bytes) (name : string) : Prop :=
  exists u w v, s = u ++ w ++ v /\ Forall blank u /\ Forall blank v /\ is_ascii w /\ map ascii_upper w = lit name.

(** [part t name n]: the part of the date t of that name is n. *)
Inductive part (t : Z) : string -> Z -> Prop :=
| part_year day h mi s ns y m d : at_time t day h mi s ns -> on_day day (y, m, d) -> part t "YEAR" y
| part_month day h mi s ns y m d : at_time t day h mi s ns -> on_day day (y, m, d) -> part t "MONTH" m
| part_day day h mi s ns y m d : at_time t day h mi s ns -> on_day day (y, m, d) -> part t "DAY" d
| part_day_of_year day h mi s ns y m d jan1 :
    at_time t day h mi s ns -> on_day day (y, m, d) -> on_day jan1 (y, 1, 1) -> part t "DAYOFYEAR" (day - jan1 + 1)
| part_week day h mi s ns w : at_time t day h mi s ns -> week_of_year day w -> part t "WEEK" w
| part_weekday day h mi s ns w : at_time t day h mi s ns -> day_of_week day w -> part t "WEEKDAY" w
| part_hour day h mi s ns : at_time t day h mi s ns -> part t "HOUR" h
| part_minute day h mi s ns : at_time t day h mi s ns -> part t "MINUTE" mi
| part_second day h mi s ns : at_time t day h mi s ns -> part t "SECOND" s
| part_millisecond day h mi s ns ms us :
    at_time t day h mi s ns -> ns = ms * 1000000 + us -> 0 <= us < 1000000 -> part t "MILLISECOND" ms.

Definition interval_list : list string :=
  ["YEAR"; "MONTH"; "DAYOFYEAR"; "DAY"; "WEEK"; "WEEKDAY"; "HOUR"; "MINUTE"; "SECOND"; "MILLISECOND"]%string.

(** Nanoseconds of the intervals of fixed length. *)
Inductive fixed_length : string -> Z -> Prop :=
| length_day : fixed_length "DAY" day_ns
| length_day_of_year : fixed_length "DAYOFYEAR" day_ns
| length_weekday : fixed_length "WEEKDAY" day_ns
| length_week : fixed_length "WEEK" (7 * day_ns)
| length_hour : fixed_length "HOUR" 3600000000000
| length_minute : fixed_length "MINUTE" 60000000000
| length_second : fixed_length "SECOND" 1000000000
| length_millisecond : fixed_length "MILLISECOND" 1000000.
(** Months of the others. *)
Inductive month_length : string -> Z -> Prop :=
| length_month : month_length "MONTH" 1
| length_year : month_length "YEAR" 12.

(** [k] intervals after t.  Months and years later is the same day of the month
    and time of day; a day the month lacks is counted on from its first. *)
Inductive later (t k : Z) : string -> Z -> Prop :=
| later_fixed name unit : fixed_length name unit -> later t k name (t + k * unit)
| later_months name n day y m d first y' m' :
    month_length name n -> day * day_ns <= t < (day + 1) * day_ns -> on_day day (y, m, d) ->
    12 * y' + m' = 12 * y + m + k * n -> 1 <= m' <= 12 -> on_day first (y', m', 1) ->
    later t k name (t + (first + (d - 1) - day) * day_ns).

(** The year and month of a moment. *)
Definition in_month (t y m : Z) : Prop :=
  exists day d, day * day_ns <= t < (day + 1) * day_ns /\ on_day day (y, m, d).

(** [n] whole units fit in the difference d, which may be negative. *)
Definition whole_units (d unit n : Z) : Prop :=
  0 <= n * d /\ Z.abs n * unit <= Z.abs d < (Z.abs n + 1) * unit.

(** ** Strings *)

(** The characters of Unicode's White_Space property. *)
Definition white (r : Z) : Prop :=
  9 <= r <= 13 \/ r = 32 \/ r = 133 \/ r = 160 \/ r = 5760 \/ 8192 <= r <= 8202 \/
  r = 8232 \/ r = 8233 \/ r = 8239 \/ r = 8287 \/ r = 12288.
(** [w] does not begin, does not end, with a character that satisfies p. *)
Definition no_first (p : Z -> Prop) (w : list Z) : Prop := forall r w', w = r :: w' -> ~ p r.
Definition no_last (p : Z -> Prop) (w : list Z) : Prop := forall r w', w = w' ++ [r] -> ~ p r.
(** UTF-8 text of the given characters. *)
Definition text_of (s : bytes) (rs : list Z) : Prop :=
  Forall (fun r => valid_rune r = true) rs /\ s = encode_runes rs.

(** [replaced s t r z]: z is s with each occurrence of t, from left to right and
    not overlapping, replaced by r. *)
Inductive replaced (t r : bytes) : bytes -> bytes -> Prop :=
| replaced_none s : (forall i, ~ occurs_at s t i) -> replaced t r s s
| replaced_first u s z : (forall i, occurs_at (u ++ t ++ s) t i -> len u <= i) ->
    replaced t r s z -> replaced t r (u ++ t ++ s) (u ++ r ++ z).

(** ** Types *)

(** The names of types, without regard to case. *)
Inductive type_name : string -> vtype -> Prop :=
| name_boolean : type_name "BOOLEAN" VBoolean
| name_bool : type_name "BOOL" VBoolean
| name_int32 : type_name "INT32" VInt32
| name_int64 : type_name "INT64" VInt64
| name_int : type_name "INT" VInt64
| name_int16 : type_name "INT16" VInt64
| name_uint : type_name "UINT" VInt64
| name_uint32 : type_name "UINT32" VInt64
| name_decimal : type_name "DECIMAL" VDecimal
| name_double : type_name "DOUBLE" VDouble
| name_single : type_name "SINGLE" VDouble
| name_float : type_name "FLOAT" VDouble
| name_string : type_name "STRING" VString
| name_guid : type_name "GUID" VGuid
| name_uuid : type_name "UUID" VGuid
| name_date_time : type_name "DATETIME" VDateTime
| name_date : type_name "DATE" VDateTime
| name_time : type_name "TIME" VDateTime.
(** [denotes s t]: the text names the type t, alone or after "System.". *)
Definition denotes (s : bytes) (t : vtype) : Prop :=
  is_ascii s /\ exists name, type_name name t /\
    (map ascii_upper s = lit name \/ map ascii_upper s = lit "SYSTEM." ++ lit name).
(** The text that may follow "System." in capitals. *)
Definition base_name (s : bytes) (b : bytes) : Prop :=
  map ascii_upper s = lit "SYSTEM." ++ b \/ ((forall c, map ascii_upper s <> lit "SYSTEM." ++ c) /\ map ascii_upper s = b).
Definition begins (b : bytes) (name : string) : Prop := exists c, b = lit name ++ c.

(** The conversion of ASCII letters to small ones. *)
Definition lower_table (L : lib) : Prop := forall r, 0 <= r < 128 -> rune_lower L r = ascii_lower r.

(** A NULL argument where text is expected: the literal NULL or a NULL string. *)
Definition null_text (L : lib) (row : option row_reader) (e : expr) : Prop :=
  e = EValue (vNull VUndefined) \/ Evaluate L row e = Ok (vNull VString).

(** The types a number, a GUID and a date can be converted to. *)
Definition convertible (v t : vtype) : Prop :=
  t <> VUndefined /\
  match v with
  | VString => True
  | VGuid => t = VGuid \/ t = VString
  | VDateTime => t <> VGuid
  | VUndefined => False
  | _ => t <> VGuid /\ t <> VDateTime
  end.
