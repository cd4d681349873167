(** What a TSSC stream is, written from the encoder's side and independently of the
    decoder.  An encoder state is a set of total functions; the wire layout is given
    as a list of items (single bits and whole bytes) laid out by [ser]. *)
From Verif Require Import Base TsscModel.
Open Scope Z_scope.

(** ** Prefix codes (C21, C22) *)

(** Length of the code of [code] when the codes [short] have the one, two, three bit
    codes and every other command follows as five bits after as many zeros. *)
Fixpoint code_len (short : list Z) (code : Z) : Z :=
  match short with
  | [] => 5
  | s :: r => if code =? s then 1 else 1 + code_len r code
  end.
Definition total_bits (short : list Z) (codes : list Z) : Z :=
  fold_right (fun c a => code_len short c + a) 0 codes.
(** The short codes in use in a coder state. *)
Definition shorts (c : coder) : list Z :=
  if mode c =? 1 then []
  else if mode c =? 2 then [mode21 c]
  else if mode c =? 3 then [mode31 c; mode301 c]
  else [mode41 c; mode401 c; mode4001 c].

Definition is_code (x : Z) : Prop := 0 <= x < 32.

(** The coder state after a sequence of commands. *)
Fixpoint code_history (c : coder) (codes : list Z) : res coder :=
  match codes with
  | [] => Ok c
  | x :: r => let* c' := updatedCodeStatistics c x in code_history c' r
  end.
(** A writer's output for a command sequence. *)
Fixpoint write_codes (c : coder) (codes : list Z) : res (list bool * coder) :=
  match codes with
  | [] => Ok ([], c)
  | x :: r => let* (b, c') := WriteCode c x in
              let* (bs, c'') := write_codes c' r in Ok (b ++ bs, c'')
  end.
(** Number of commands after which the coding adapts: 6, then 21 more, then every 101. *)
Definition segment (n : nat) : nat := match n with O => 6 | S O => 21 | _ => 101 end%nat.
Fixpoint boundary (n : nat) : nat :=
  match n with O => 0 | S m => boundary m + segment m end%nat.

(** ** Variable-length integers (C23): seven bits a byte, least significant first,
    the top bit set on every byte but the last; after [fuel] such bytes the rest is
    stored in one byte. *)
Fixpoint enc7 (fuel : nat) (v : Z) : bytes :=
  match fuel with
  | O => [v]
  | S f => if v <? 128 then [v] else (v mod 128 + 128) :: enc7 f (v / 128)
  end.
Definition enc7_32 (v : Z) : bytes := enc7 4 v.
Definition enc7_64 (v : Z) : bytes := enc7 8 v.

(** ** The wire (C24) *)
Inductive item : Type := Bit (b : bool) | Byte (x : Z).
Fixpoint bits_of (l : list item) : list bool :=
  match l with [] => [] | Bit b :: r => b :: bits_of r | Byte _ :: r => bits_of r end.
(** The byte that holds the first eight of the given bits, zero padded. *)
Definition byte_of_bits (l : list bool) : Z :=
  let b i := Z.b2z (nth i l false) in
  128 * b 0%nat + 64 * b 1%nat + 32 * b 2%nat + 16 * b 3%nat + 8 * b 4%nat + 4 * b 5%nat + 2 * b 6%nat + b 7%nat.
(** A byte is reserved for bits when the first of eight bits is written; the other
    seven are put there as they come, bytes being appended meanwhile.  [left] is the
    number of bits still free in the reserved byte. *)
Fixpoint ser (l : list item) (left : nat) : bytes :=
  match l with
  | [] => []
  | Byte x :: r => x :: ser r left
  | Bit b :: r => match left with
                  | O => byte_of_bits (b :: bits_of r) :: ser r 7
                  | S k => ser r k
                  end
  end.

Definition bits (code : Z) (n : nat) : list item := map Bit (writeBits code n).
(** Little-endian bytes. *)
Fixpoint le_bytes (n : nat) (x : Z) : list item :=
  match n with O => [] | S k => Byte (x mod 256) :: le_bytes k (x / 256) end.
(** The payload of an xor code of width [w] (a multiple of 4): the low four bits when
    [w] is not a multiple of eight, then bytes. *)
Definition payload (w : Z) (m : Z) : list item :=
  if w mod 8 =? 4 then bits (m mod 16) 4 ++ le_bytes (Z.to_nat (w / 8)) (m / 16)
  else le_bytes (Z.to_nat (w / 8)) m.

(** Widths of the xor codes. *)
Definition id_width (code : Z) : option Z :=
  match code with
  | 1 => Some 4 | 2 => Some 8 | 3 => Some 12 | 4 => Some 16 | 5 => Some 20 | 6 => Some 24 | 7 => Some 32
  | _ => None end.
Definition value_width (code : Z) : option Z :=
  match code with
  | 24 => Some 4 | 25 => Some 8 | 26 => Some 12 | 27 => Some 16 | 28 => Some 20 | 29 => Some 24 | 30 => Some 28
  | 31 => Some 32 | _ => None end.

(** ** Time deltas (C25) *)

(** The distance of two timestamps in 64-bit arithmetic. *)
Definition gap (t1 t2 : Z) : Z := i64 (Z.abs (i64 (t1 - t2))).
(** Insertion into a strictly increasing list. *)
Fixpoint ins (x : Z) (l : list Z) : list Z :=
  match l with
  | [] => [x]
  | y :: r => if x <? y then x :: l else if x =? y then l else y :: ins x r
  end.
(** The distinct gaps seen, smallest first; slot [i] is MaxInt64 when there are fewer. *)
Definition sorted_gaps (gaps : list Z) : list Z := fold_right ins [] gaps.
Definition slot (i : nat) (gaps : list Z) : Z := nth i (sorted_gaps gaps) MaxInt64.

(** ** An encoder *)

(** Memory of the encoder.  [e_point None] is the record used before the first
    measurement; [e_point (Some id)] belongs to measurement [id].  [e_gaps]: all gaps
    between consecutive timestamps written so far. *)
Record enc : Type := mkEnc {
  e_point : option Z -> pm; e_last : option Z; e_t1 : Z; e_t2 : Z; e_gaps : list Z }.

Definition fresh_point (id : Z) : pm := mkPm (i32 (id + 1)) 0 0 0 0 0 newCoder.
Definition enc0 : enc :=
  mkEnc (fun k => match k with None => newPointMetadata | Some id => fresh_point id end) None 0 0 [].

Definition key_eqb (a b : option Z) : bool :=
  match a, b with None, None => true | Some x, Some y => x =? y | _, _ => false end.
Definition e_set (e : enc) (k : option Z) (p : pm) : enc :=
  mkEnc (fun k' => if key_eqb k k' then p else e_point e k') (e_last e) (e_t1 e) (e_t2 e) (e_gaps e).

(** Write a code word with the coder of the previous measurement. *)
Definition e_code (e : enc) (code : Z) : option (list item * enc) :=
  match WriteCode (pm_coder (e_point e (e_last e))) code with
  | Ok (bs, c) => Some (map Bit bs, e_set e (e_last e) (set_coder (e_point e (e_last e)) c))
  | _ => None
  end.

Notation "'try' ( a , b ) <- x ; k" := (match x with Some (a, b) => k | None => None end)
  (at level 200, a name, b name, x at level 100, k at level 200, right associativity).

(** The codes an encoder chooses for one measurement; None means that the field is
    not written because it is predicted. *)
Record choice : Type := mkChoice { ch_id : option Z; ch_time : option Z; ch_flags : option Z; ch_value : Z }.

(** [None] results: the choice does not fit the measurement. *)
Definition e_id (e : enc) (ch : option Z) (id : Z) : option (list item * enc) :=
  let predicted := PrevNextPointID1 (e_point e (e_last e)) in
  match ch with
  | None => if id =? predicted then Some ([], e) else None
  | Some code =>
      match id_width code with
      | None => None
      | Some w =>
          let m := u32 (Z.lxor id predicted) in
          if m <? 2 ^ w then
            try (i, e) <- e_code e code;
            Some (i ++ payload w m, e_set e (e_last e) (set_next (e_point e (e_last e)) id))
          else None
      end
  end.

Definition e_time (e : enc) (ch : option Z) (ts : Z) : option (list item * enc) :=
  let note (e : enc) := mkEnc (e_point e) (e_last e) ts (e_t1 e) (gap (e_t1 e) ts :: e_gaps e) in
  let plain (ok : bool) (code : Z) :=
    if ok then try (i, e) <- e_code e code; Some (i, note e) else None in
  let forward n code := plain (ts =? i64 (e_t1 e + slot n (e_gaps e))) code in
  let reverse n code := plain (ts =? i64 (e_t1 e - slot n (e_gaps e))) code in
  match ch with
  | None => if ts =? e_t1 e then Some ([], e) else None
  | Some code =>
      match code with
      | 8 => forward 0%nat 8 | 9 => forward 1%nat 9 | 10 => forward 2%nat 10 | 11 => forward 3%nat 11
      | 12 => reverse 0%nat 12 | 13 => reverse 1%nat 13 | 14 => reverse 2%nat 14 | 15 => reverse 3%nat 15
      | 16 => plain (ts =? e_t2 e) 16
      | 17 => try (i, e) <- e_code e 17;
              Some (i ++ map Byte (enc7_64 (u64 (Z.lxor (e_t1 e) ts))), note e)
      | _ => None
      end
  end.

Definition e_flags (e : enc) (ch : option Z) (id f : Z) : option (list item * enc) :=
  let note (e : enc) := let p := e_point e (Some id) in e_set e (Some id) (set_flags p f (PrevStateFlags1 p)) in
  match ch with
  | None => if f =? PrevStateFlags1 (e_point e (Some id)) then Some ([], e) else None
  | Some code =>
      match code with
      | 18 => if f =? PrevStateFlags2 (e_point e (Some id)) then
                try (i, e) <- e_code e 18; Some (i, note e) else None
      | 19 => try (i, e) <- e_code e 19; Some (i ++ map Byte (enc7_32 f), note e)
      | _ => None
      end
  end.

Definition e_value (e : enc) (code : Z) (id v : Z) : option (list item * enc) :=
  let p := e_point e (Some id) in
  let v1 := PrevValue1 p in let v2 := PrevValue2 p in let v3 := PrevValue3 p in
  let note (e : enc) (a b c : Z) := e_set e (Some id) (set_values (e_point e (Some id)) a b c) in
  match code with
  | 20 => if v =? v1 then try (i, e) <- e_code e 20; Some (i, e) else None
  | 21 => if v =? v2 then try (i, e) <- e_code e 21; Some (i, note e v v1 v3) else None
  | 22 => if v =? v3 then try (i, e) <- e_code e 22; Some (i, note e v v1 v2) else None
  | 23 => if v =? 0 then try (i, e) <- e_code e 23; Some (i, note e v v1 v2) else None
  | _ =>
      match value_width code with
      | None => None
      | Some w =>
          let m := Z.lxor v v1 in
          if m <? 2 ^ w then try (i, e) <- e_code e code; Some (i ++ payload w m, note e v v1 v2) else None
      end
  end.

(** One measurement. *)
Definition e_meas (e : enc) (ch : choice) (m : tmeas) : option (list item * enc) :=
  try (i1, e) <- e_id e (ch_id ch) (tm_id m);
  try (i2, e) <- e_time e (ch_time ch) (tm_time m);
  try (i3, e) <- e_flags e (ch_flags ch) (tm_id m) (tm_flags m);
  try (i4, e) <- e_value e (ch_value ch) (tm_id m) (tm_value m);
  Some (i1 ++ i2 ++ i3 ++ i4, mkEnc (e_point e) (Some (tm_id m)) (e_t1 e) (e_t2 e) (e_gaps e)).

Fixpoint e_items (e : enc) (l : list (choice * tmeas)) : option (list item * enc) :=
  match l with
  | [] => Some ([], e)
  | (ch, m) :: r =>
      try (i, e) <- e_meas e ch m;
      try (is, e) <- e_items e r;
      Some (i ++ is, e)
  end.

(** A packet: the measurements, then an end-of-stream code when bits are left open. *)
Definition e_packet (e : enc) (l : list (choice * tmeas)) : option (bytes * enc) :=
  try (i, e) <- e_items e l;
  if (length (bits_of i) mod 8 =? 0)%nat then Some (ser i 0, e)
  else try (z, e) <- e_code e EndOfStream; Some (ser (i ++ z) 0, e).
Fixpoint e_packets (e : enc) (l : list (list (choice * tmeas))) : option (list bytes) :=
  match l with
  | [] => Some []
  | p :: r => match e_packet e p with
              | None => None
              | Some (b, e) => match e_packets e r with Some bs => Some (b :: bs) | None => None end
              end
  end.

(** The measurements that have a TSSC representation. *)
Definition tmeas_ok (m : tmeas) : Prop :=
  is_i32 (tm_id m) /\ is_i64 (tm_time m) /\ is_u32 (tm_flags m) /\ is_u32 (tm_value m).

(** Decoding a sequence of packets with one decoder. *)
Fixpoint d_packets (fuel : nat) (t : td) (l : list bytes) : dres (list (list tmeas)) :=
  match l with
  | [] => DOk [] t
  | b :: r => do (ms, t) <- decode_all fuel (SetBuffer t b);
              do (mss, t) <- d_packets fuel t r; DOk (ms :: mss) t
  end.

(** A choice that always fits: shortest predicted form is not sought, the widest codes
    are used when a field is not predicted. *)
Definition wide_choice (e : enc) (m : tmeas) : choice :=
  mkChoice (Some 7) (Some 17) (Some 19) 31.

(** Reading [n] commands (C21). *)
Fixpoint read_codes (n : nat) (t : td) : dres (list Z) :=
  match n with
  | O => DOk [] t
  | S k => do (c, t) <- ReadCode t; do (r, t) <- read_codes k t; DOk (c :: r) t
  end.
(** The coder the decoder will use next. *)
Definition current_coder (t : td) : coder := pm_coder (get_point t (lastPoint t)).
(** Bits of the buffer the decoder has not consumed. *)
Definition bits_left (t : td) : Z := 8 * (len (data t) - position t) + bitStreamCount t.

(** The gaps between consecutive timestamps of a history, most recent first (C25). *)
Fixpoint gaps_of (h : list Z) : list Z :=
  match h with
  | a :: ((b :: _) as r) => gap b a :: gaps_of r
  | _ => []
  end.
(** The four time deltas the decoder remembers. *)
Definition deltas (t : td) : list Z := [prevTimeDelta1 t; prevTimeDelta2 t; prevTimeDelta3 t; prevTimeDelta4 t].
(** Decoder states reached from a new decoder by any calls, with any packets; the
    list holds the timestamps it has decoded, most recent first. *)
Inductive decoded : td -> list Z -> Prop :=
| dec_new : decoded NewDecoder []
| dec_buffer t h b : decoded t h -> decoded (SetBuffer t b) h
| dec_some t h m t' : decoded t h -> TryGetMeasurement t = DOk (Some m) t' -> decoded t' (tm_time m :: h)
| dec_none t h t' : decoded t h -> TryGetMeasurement t = DOk None t' -> decoded t' h.
