(** Model of sttp/format (Common.go, Int.go, UInt.go, Float.go).  Strings are
    byte lists. *)
From Verif Require Import Base.

(** [s[i] = c] : panics when out of range. *)
Definition upd {A} (l : list A) (i : Z) (c : A) : res (list A) :=
  if (i <? 0) || (len l <=? i) then Panic
  else Ok (firstn (Z.to_nat i) l ++ c :: skipn (S (Z.to_nat i)) l).

(** strconv.FormatUint(x, 10), standard library: decimal digits, most
    significant first.  [fuel] bounds the number of digits. *)
Fixpoint dec_digits (fuel : nat) (x : Z) (acc : bytes) : bytes :=
  match fuel with
  | O => acc
  | S f => if x <? 10 then (48 + x) :: acc
           else dec_digits f (x / 10) ((48 + x mod 10) :: acc)
  end.
(** 20 digits suffice for 64-bit values (proved: [FormatUint_value]). *)
Definition FormatUint (x : Z) : bytes := dec_digits 20 x [].
(** strconv.FormatInt(x, 10), standard library. *)
Definition FormatInt (x : Z) : bytes := if x <? 0 then 45 :: FormatUint (- x) else FormatUint x.

(** Common.go:27-40, the loop; [i] is the loop variable i (structurally
    decreasing), [j] and [k] as in the source. *)
Fixpoint fmt_loop (inp out : bytes) (s : Z) (i : nat) (j k : Z) : res bytes :=
  let* c := idx inp (Z.of_nat i) in
  let* out1 := upd out j c in
  match i with
  | O => Ok out1
  | S i' =>
      let k1 := k + 1 in
      if k1 =? 3 then
        let* out2 := upd out1 (j - 1) s in
        fmt_loop inp out2 s i' (j - 1 - 1) 0
      else fmt_loop inp out1 s i' (j - 1) k1
  end.
(** Common.go:27-40; an empty input makes in[-1] panic. *)
Definition formatNumber (inp out : bytes) (s : Z) : res bytes :=
  match length inp with
  | O => Panic
  | S n => fmt_loop inp out s n (len out - 1) 0
  end.

(** make([]byte, n) *)
Definition make_bytes (n : Z) : res bytes :=
  if n <? 0 then Panic else Ok (repeat 0 (Z.to_nat n)).

(** The tail shared by Int.go:49-62 and Float.go:56-69; [neg] is i < 0 (f < 0).
    Go integer division truncates: Z.quot. *)
Definition group_signed (neg : bool) (inp : bytes) (s : Z) : res bytes :=
  let digits := if neg then len inp - 1 else len inp in
  let commas := Z.quot (digits - 1) 3 in
  let* out := make_bytes (len inp + commas) in
  if neg then
    let* in1 := slice_from inp 1 in
    let* out1 := upd out 0 45 in
    formatNumber in1 out1 s
  else formatNumber inp out s.

(** Int.go:47-63 *)
Definition Int64With (i : Z) (s : Z) : res bytes := group_signed (i <? 0) (FormatInt i) s.
(** UInt.go:47-54 *)
Definition UInt64With (i : Z) (s : Z) : res bytes :=
  let inp := FormatUint i in
  let commas := Z.quot (len inp - 1) 3 in
  let* out := make_bytes (len inp + commas) in
  formatNumber inp out s.

(** strings.Replace(s, ".", sym, 1) for one-byte strings *)
Fixpoint replace_first (l : bytes) (a b : Z) : bytes :=
  match l with
  | [] => []
  | c :: r => if c =? a then b :: r else c :: replace_first r a b
  end.
(** strings.Split(s, sep) for a one-byte separator *)
Fixpoint split_on (l : bytes) (sep : Z) (cur : bytes) : list bytes :=
  match l with
  | [] => [rev cur]
  | c :: r => if c =? sep then rev cur :: split_on r sep [] else split_on r sep (c :: cur)
  end.
(** Float.go:40-70 from line 42 on: [txt] is the text strconv.FormatFloat(f, 'f',
    prec, 64) returns and [neg] is f < 0; see format_FloatWith in GoTextModel. *)
Definition FloatWith (neg : bool) (txt : bytes) (dec s : Z) : res bytes :=
  let txt := if negb (dec =? 46) then replace_first txt 46 dec else txt in
  match split_on txt dec [] with
  | p0 :: p1 :: _ =>
      let* g := group_signed neg p0 s in Ok (g ++ dec :: p1)
  | _ => let* g := group_signed neg txt s in Ok (g ++ [])
  end.
