(** The texts of times: Time.Format and time.Parse of the standard library
    (time/format.go, Go 1.22) for the three layouts that sttp/goapi uses, and the
    functions of /repo that call them.  A [time.Time] is the number of
    nanoseconds since 1970-01-01T00:00:00Z with the offset, in seconds east of
    Greenwich, of its location. *)
From Verif Require Import Base CalModel FormatModel TicksModel.


Definition stamp : Type := Z * Z.

(** The elements of a layout (time/format.go:98-180, nextStdChunk): a literal
    byte, the standard chunks "2006", "01", "02", "15", "04", "05", a fraction
    written with nines and "-07:00". *)
Inductive chunk :=
| CByte (b : Z) | CYear | CMonth | CDay | CHour | CMinute | CSecond | CFrac (places : nat) | CZone.

(** Ticks.go:76 TimeFormat "2006-01-02 15:04:05.999999999" *)
Definition TimeFormat : list chunk :=
  [CYear; CByte 45; CMonth; CByte 45; CDay; CByte 32; CHour; CByte 58; CMinute; CByte 58; CSecond; CFrac 9].
(** Ticks.go:79 ShortTimeFormat "15:04:05.999" *)
Definition ShortTimeFormat : list chunk := [CHour; CByte 58; CMinute; CByte 58; CSecond; CFrac 3].
(** DataSet.go:46 DateTimeFormat "2006-01-02T15:04:05.99-07:00" *)
Definition DateTimeFormat : list chunk :=
  [CYear; CByte 45; CMonth; CByte 45; CDay; CByte 84; CHour; CByte 58; CMinute; CByte 58; CSecond; CFrac 2; CZone].

(** ** Time.Format *)

(** time/format.go appendInt: decimal, filled up with zeros to a width. *)
Definition appendInt (x : Z) (width : nat) : bytes :=
  let u := FormatUint (Z.abs x) in
  (if x <? 0 then [45] else []) ++ repeat 48 (width - length u) ++ u.
(** The trailing zeros of a fraction are cut off. *)
Fixpoint trim_zeros (l : bytes) : bytes :=
  match l with
  | [] => []
  | c :: r => match trim_zeros r with
              | [] => if c =? 48 then [] else [c]
              | r' => c :: r'
              end
  end.
(** time/format.go appendNano for a fraction of nines: the point goes when no
    digit is left. *)
Definition appendNano (ns : Z) (places : nat) : bytes :=
  match trim_zeros (firstn places (appendInt ns 9)) with [] => [] | l => 46 :: l end.
(** time/format.go AppendFormat, "-07:00": Go's integer division truncates. *)
Definition appendZone (off : Z) : bytes :=
  let zone := Z.quot off 60 in
  (if zone <? 0 then 45 else 43) :: appendInt (Z.abs zone / 60) 2 ++ 58 :: appendInt (Z.abs zone mod 60) 2.
(** time/format.go AppendFormat: one element; the fields are those of the time
    in its location. *)
Definition format_chunk (x : stamp) (c : chunk) : bytes :=
  let local := fst x + snd x * ns_per_second in
  match c with
  | CByte b => [b]
  | CYear => appendInt (Year local) 4
  | CMonth => appendInt (Month local) 2
  | CDay => appendInt (Day local) 2
  | CHour => appendInt (Hour local) 2
  | CMinute => appendInt (Minute local) 2
  | CSecond => appendInt (Second local) 2
  | CFrac n => appendNano (Nanosecond local) n
  | CZone => appendZone (snd x)
  end.
(** Time.Format *)
Definition Format (layout : list chunk) (x : stamp) : bytes := flat_map (format_chunk x) layout.

(** Ticks.go:153-155 String; ToTime ends in UTC(). *)
Definition Ticks_String (t : Z) : bytes := Format TimeFormat (ToTime t, 0).
(** Ticks.go:158-160 ShortTime *)
Definition Ticks_ShortTime (t : Z) : bytes := Format ShortTimeFormat (ToTime t, 0).
(** DataRow.go:441 and 617, ValueExpression.go:141 *)
Definition DateTime_String (x : stamp) : bytes := Format DateTimeFormat x.

(** ** time.Parse *)

Definition isDigit (c : Z) : bool := (48 <=? c) && (c <=? 57).
(** time/format.go getnum: one or two digits, two when [fixed]. *)
Definition getnum (s : bytes) (fixed : bool) : option (Z * bytes) :=
  match s with
  | a :: b :: r =>
      if negb (isDigit a) then None
      else if negb (isDigit b) then if fixed then None else Some (a - 48, b :: r)
      else Some ((a - 48) * 10 + (b - 48), r)
  | [a] => if negb (isDigit a) then None else if fixed then None else Some (a - 48, [])
  | [] => None
  end.
(** The value of digits; time/format.go atoi after its checks. *)
Definition digits_value (l : bytes) : Z := fold_left (fun a c => a * 10 + (c - 48)) l 0.
(** The digits a text begins with, and the rest. *)
Fixpoint span_digits (l : bytes) : bytes * bytes :=
  match l with
  | c :: r => if isDigit c then let '(d, s) := span_digits r in (c :: d, s) else ([], l)
  | [] => ([], [])
  end.
(** time/format.go parseNanoseconds: digits after the ninth are dropped. *)
Definition parseNanoseconds (digits : bytes) : Z :=
  let d := firstn 9 digits in digits_value d * 10 ^ (9 - len d).

(** The variables that time.Parse collects. *)
Record fields := Fields {
  f_year : Z; f_month : Z; f_day : Z; f_hour : Z; f_min : Z; f_sec : Z; f_nsec : Z; f_zone : Z }.

(** time/format.go parse: one element of the layout; [None] is an error. *)
Definition parse_chunk (c : chunk) (f : fields) (s : bytes) : option (fields * bytes) :=
  let 'Fields y mo d h mi se ns z := f in
  match c with
  | CByte b => match s with a :: r => if a =? b then Some (f, r) else None | [] => None end
  | CYear =>
      match s with
      | a :: b :: c :: e :: r =>
          if forallb isDigit [a; b; c; e] then Some (Fields (digits_value [a; b; c; e]) mo d h mi se ns z, r) else None
      | _ => None
      end
  | CMonth => match getnum s true with
              | Some (n, r) => if (n <=? 0) || (12 <? n) then None else Some (Fields y n d h mi se ns z, r)
              | None => None
              end
  | CDay => match getnum s true with Some (n, r) => Some (Fields y mo n h mi se ns z, r) | None => None end
  | CHour => match getnum s false with
             | Some (n, r) => if 24 <=? n then None else Some (Fields y mo d n mi se ns z, r)
             | None => None
             end
  | CMinute => match getnum s true with
               | Some (n, r) => if 60 <=? n then None else Some (Fields y mo d h n se ns z, r)
               | None => None
               end
  | CSecond => match getnum s true with
               | Some (n, r) => if 60 <=? n then None else Some (Fields y mo d h mi n ns z, r)
               | None => None
               end
  | CFrac _ =>
      match s with
      | p :: r =>
          if (p =? 46) || (p =? 44) then
            match span_digits r with
            | ([], _) => Some (f, s)
            | (ds, r') => Some (Fields y mo d h mi se (parseNanoseconds ds) z, r')
            end
          else Some (f, s)
      | [] => Some (f, s)
      end
  | CZone =>
      match s with
      | g :: h1 :: h2 :: c :: m1 :: m2 :: r =>
          if negb (c =? 58) then None else
          match getnum [h1; h2] true, getnum [m1; m2] true with
          | Some (hr, _), Some (mm, _) =>
              if (24 <? hr) || (60 <? mm) then None else
              let off := (hr * 60 + mm) * 60 in
              if g =? 43 then Some (Fields y mo d h mi se ns off, r)
              else if g =? 45 then Some (Fields y mo d h mi se ns (- off), r)
              else None
          | _, _ => None
          end
      | _ => None
      end
  end.
Fixpoint parse_chunks (layout : list chunk) (f : fields) (s : bytes) : option (fields * bytes) :=
  match layout with
  | [] => Some (f, s)
  | c :: l => match parse_chunk c f s with Some (f', s') => parse_chunks l f' s' | None => None end
  end.
(** time/time.go daysIn *)
Definition daysIn (m y : Z) : Z :=
  if m =? 2 then if (y mod 4 =? 0) && (negb (y mod 100 =? 0) || (y mod 400 =? 0)) then 29 else 28
  else if existsb (Z.eqb m) [4; 6; 9; 11] then 30 else 31.
(** time.Parse: the whole text must be used, and the day must exist.  Which
    named location the result gets is not modelled, only its offset. *)
Definition Parse (layout : list chunk) (s : bytes) : option stamp :=
  match parse_chunks layout (Fields 0 1 1 0 0 0 0 0) s with
  | Some (Fields y mo d h mi se ns z, []) =>
      if (d <? 1) || (daysIn mo y <? d) then None
      else Some ((days_of_date y mo d * 86400 + h * 3600 + mi * 60 + se - z) * ns_per_second + ns, z)
  | _ => None
  end.

(** DataSet.go:298: the error is dropped, and the zero time comes with it. *)
Definition read_DateTime (s : bytes) : stamp :=
  match Parse DateTimeFormat s with Some x => x | None => (zero_time, 0) end.
