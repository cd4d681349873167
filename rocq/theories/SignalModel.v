(** Model of signal kinds and signal references
    (sttp/transport/SignalKind.go, sttp/transport/MeasurementMetadata.go). *)
From Verif Require Import Base FormatModel.

(** ** Strings as sequences of runes *)

(** unicode.ToUpper on one rune, as far as comparisons with ASCII text can tell:
    U+0131 and U+017F are the only non-ASCII runes with an ASCII upper case; the
    other non-ASCII runes are left unchanged here (simplification: their upper
    case is another non-ASCII rune). *)
Definition upper_rune (r : Z) : Z :=
  if (97 <=? r) && (r <=? 122) then r - 32
  else if r =? 0x131 then 73
  else if r =? 0x17F then 83
  else r.

(** unicode.IsSpace *)
Definition is_space (r : Z) : bool :=
  ((9 <=? r) && (r <=? 13)) || (r =? 32) || (r =? 0x85) || (r =? 0xA0) || (r =? 0x1680) ||
  ((0x2000 <=? r) && (r <=? 0x200A)) || (r =? 0x2028) || (r =? 0x2029) || (r =? 0x202F) ||
  (r =? 0x205F) || (r =? 0x3000).

Fixpoint trim_left (s : list Z) : list Z :=
  match s with
  | [] => []
  | r :: t => if is_space r then trim_left t else s
  end.
(** strings.TrimSpace *)
Definition TrimSpace (s : list Z) : list Z := rev (trim_left (rev (trim_left s))).

(** ** SignalKind.go *)

(** SignalKind.go:61-74: the enumeration, as numbers 0 (Angle) to 11 (Unknown). *)
Definition kAngle := 0. Definition kMagnitude := 1. Definition kFrequency := 2.
Definition kDfDt := 3. Definition kStatus := 4. Definition kDigital := 5.
Definition kAnalog := 6. Definition kCalculation := 7. Definition kStatistic := 8.
Definition kAlarm := 9. Definition kQuality := 10. Definition kUnknown := 11.

(** SignalKind.go:108-135 *)
Definition Acronym (k : Z) : list Z :=
  if k =? kAngle then [80; 65]            (* PA *)
  else if k =? kMagnitude then [80; 77]   (* PM *)
  else if k =? kFrequency then [70; 81]   (* FQ *)
  else if k =? kDfDt then [68; 70]        (* DF *)
  else if k =? kStatus then [83; 70]      (* SF *)
  else if k =? kDigital then [68; 86]     (* DV *)
  else if k =? kAnalog then [65; 86]      (* AV *)
  else if k =? kCalculation then [67; 86] (* CV *)
  else if k =? kStatistic then [83; 84]   (* ST *)
  else if k =? kAlarm then [65; 76]       (* AL *)
  else if k =? kQuality then [81; 70]     (* QF *)
  else [63; 63].                          (* ?? *)

Fixpoint runes_eqb (a b : list Z) : bool :=
  match a, b with
  | [], [] => true
  | x :: a', y :: b' => (x =? y) && runes_eqb a' b'
  | _, _ => false
  end.

(** SignalKind.go:178-226 *)
Definition ParseSignalKindAcronym (acronym : list Z) : Z :=
  let a := TrimSpace (map upper_rune acronym) in
  if runes_eqb a [80; 65] then kAngle
  else if runes_eqb a [80; 77] then kMagnitude
  else if runes_eqb a [70; 81] then kFrequency
  else if runes_eqb a [68; 70] then kDfDt
  else if runes_eqb a [83; 70] then kStatus
  else if runes_eqb a [68; 86] then kDigital
  else if runes_eqb a [65; 86] then kAnalog
  else if runes_eqb a [67; 86] then kCalculation
  else if runes_eqb a [83; 84] then kStatistic
  else if runes_eqb a [65; 76] then kAlarm
  else if runes_eqb a [81; 70] then kQuality
  else kUnknown.

(** ** MeasurementMetadata.go *)

(** Runes of a string of two bytes (Go's UTF-8 decoding: an invalid byte is the
    rune U+FFFD). *)
Definition runes2 (b1 b2 : Z) : list Z :=
  if (0xC2 <=? b1) && (b1 <=? 0xDF) && (0x80 <=? b2) && (b2 <=? 0xBF)
  then [(b1 - 0xC0) * 64 + (b2 - 0x80)]
  else [if b1 <? 128 then b1 else 0xFFFD; if b2 <? 128 then b2 else 0xFFFD].

Definition digit_byte (b : Z) : bool := (48 <=? b) && (b <=? 57).
Definition digits_value (s : bytes) : Z := fold_left (fun v b => v * 10 + (b - 48)) s 0.

(** strconv.Atoi with its error dropped: the value is 0 for a syntax error and
    the nearest int64 when out of range. *)
Definition Atoi (s : bytes) : Z :=
  let '(neg, d) := match s with
                   | b :: t => if b =? 45 then (true, t) else if b =? 43 then (false, t) else (false, s)
                   | [] => (false, s)
                   end in
  match d with
  | [] => 0
  | _ => if forallb digit_byte d then
           let v := digits_value d in
           if neg then Z.max (- 2 ^ 63) (- v) else Z.min (2 ^ 63 - 1) v
         else 0
  end.

(** strings.Join *)
Fixpoint join (parts : list bytes) (sep : Z) : bytes :=
  match parts with
  | [] => []
  | [p] => p
  | p :: rest => p ++ sep :: join rest sep
  end.

(** MeasurementMetadata.go:70-83.  Result: source, kind, position; the zero
    values are returned when there is no '-'. *)
Definition ParseSignalReference (signalReference : bytes) : res (bytes * Z * Z) :=
  let parts := split_on signalReference 45 [] in
  if 1 <? len parts then
    let lastIndex := len parts - 1 in
    let* typeInfo := idx parts lastIndex in
    let* kk := slice typeInfo 0 2 in
    let* num := slice_from typeInfo 2 in
    match kk with
    | [b1; b2] =>
        Ok (join (firstn (Z.to_nat lastIndex) parts) 45,
            ParseSignalKindAcronym (runes2 b1 b2), Atoi num)
    | _ => Panic
    end
  else Ok ([], kAngle, 0).
