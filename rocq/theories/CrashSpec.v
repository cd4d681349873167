(** Which packets end the process (C13), in terms of their bytes alone: walks over a
    compact measurement list, a signal index table and the cipher key message that
    only count bytes. *)
From Verif Require Import Base GuidModel CompactModel CompactSpec CacheModel TsscModel SubscriberModel.
Open Scope Z_scope.

(** The big-endian number in the [n] bytes at position [at_]. *)
Definition number_at (n at_ : nat) (b : bytes) : Z := be_val (firstn n (skipn at_ b)).

(** [n] compact measurements are expected in [b].  A measurement is nine bytes and
    the time field its flags announce.  Fewer than nine bytes are reported as an
    error.  A measurement whose time field is incomplete crashes, unless the field is
    an offset from a base time that is not known: then it is not read, and only a
    further measurement crashes. *)
Fixpoint measurements_crash (incl ms : bool) (bases : Z * Z) (n : nat) (b : bytes) : bool :=
  match n with
  | O => false
  | S n =>
      if len b <? 9 then false
      else
        let f := hd 0 b in
        let t := time_size incl ms f in
        if len b <? 9 + Z.of_nat t then
          if Z.testbit f 6 && (selected_base bases f <=? 0) then (match n with O => false | _ => true end) else true
        else measurements_crash incl ms bases n (skipn (9 + t) b)
  end.

(** Whether the table in a slot names any signal; while it does not, measurements
    are skipped. *)
Definition known (c : sic) : bool := negb (Count c =? 0).

(** What a subscriber keeps per slot. *)
Definition slot (s : sub) (i : Z) : bool * option td := (known (sc_sic (cache_at s i)), sc_decoder (cache_at s i)).

(** A data packet after decryption: the count and the measurements. *)
Definition compact_body_crashes (known : bool) (incl ms : bool) (bases : Z * Z) (b : bytes) : bool :=
  (len b <? 4) ||
  (known && measurements_crash incl ms bases (Z.to_nat (number_at 4 0 b)) (skipn 4 b)).

(** A compressed packet holds up to [n] measurements, decoded one by one: it crashes
    if decoding one does, and if there are more than announced.  [fuel]: more than the
    number of bits. *)
Fixpoint stream_crashes (fuel n : nat) (t : td) : bool :=
  match fuel with
  | O => false
  | S fuel =>
      match TryGetMeasurement t with
      | DOk None _ | DErr _ => false
      | DOk (Some _) t' => match n with O => true | S n => stream_crashes fuel n t' end
      | DPanic => true
      end
  end.
(** A compressed data packet after decryption: the count, a version byte, a sequence
    number, the stream.  Number zero starts a new decoder.  Another version is
    reported, another sequence number is skipped. *)
Definition compressed_body_crashes (decoder : option td) (b : bytes) : bool :=
  if len b <? 5 then true
  else if negb (number_at 1 4 b =? 85) then false
  else if len b <? 7 then true
  else
    let seq := number_at 2 5 b in
    let t := if seq =? 0 then NewDecoder else match decoder with Some t => t | None => NewDecoder end in
    (SequenceNumber t =? seq) &&
    stream_crashes (S (8 * (length b - 7))) (Z.to_nat (number_at 4 0 b)) (SetBuffer t (skipn 7 b)).

(** Decryption of [b] under the key and initialization vector [k]: a key of the wrong
    size is reported; a wrong vector or a partial block crashes. *)
Definition aes_key (k : bytes) : bool := (len k =? 16) || (len k =? 24) || (len k =? 32).
(** A data packet: flags and an encrypted body.  [slot0], [slot1]: the tables and
    decoders the flags choose from. *)
Definition data_packet_crashes (e : env) (keys : option ((bytes * bytes) * (bytes * bytes)))
    (slot0 slot1 : bool * option td) (incl ms : bool) (bases : Z * Z) (d : bytes) : bool :=
  match d with
  | [] => true
  | f :: b =>
      let chosen := if Z.testbit f 4 then slot1 else slot0 in
      let body := if Z.testbit f 3 then compressed_body_crashes (snd chosen)
                  else compact_body_crashes (fst chosen) incl ms bases in
      if negb (Z.testbit f 3) && negb (Z.testbit f 1) then false
      else
        match keys with
        | None => body b
        | Some (even, odd) =>
            let k := if Z.testbit f 2 then odd else even in
            if negb (aes_key (fst k)) then false
            else if negb (len (snd k) =? 16) || negb (len b mod 16 =? 0) then true
            else body (cbc e (fst k) (snd k) b)
        end
  end.

(** [n] rows of a signal index table are expected in [b]: four bytes, a sixteen byte
    Guid, the size of a text, the text, eight bytes.  A row cut inside its Guid is
    reported as an error; cut anywhere else it crashes. *)
Fixpoint rows_crash (n : nat) (b : bytes) : bool :=
  match n with
  | O => false
  | S n =>
      if len b <? 4 then true
      else if len b <? 20 then false
      else if len b <? 24 then true
      else
        let size := number_at 4 20 b in
        if len b <? 32 + size then true else rows_crash n (skipn (Z.to_nat (32 + size)) b)
  end.
(** The whole table: its declared size, the subscriber's Guid, the number of rows. *)
Definition table_crashes (b : bytes) : bool :=
  if (len b <? 4) || (len b <? number_at 4 0 b) || (len b <? 20) then false
  else if len b <? 24 then true
  else rows_crash (Z.to_nat (number_at 4 20 b)) (skipn 24 b).
Definition cache_update_crashes (e : env) (v : Z) (compressed : bool) (d : bytes) : bool :=
  if (1 <? v) && (len d <? 1) then true
  else
    match (let d := if 1 <? v then skipn 1 d else d in if compressed then gunzip e d else Some d) with
    | None => false
    | Some b => table_crashes b
    end.

(** [n] length-prefixed buffers are expected from position [at_]; positions are
    32-bit and wrap around.  Only the length must be there: missing key bytes are
    taken to be zero. *)
Fixpoint keys_crash (n : nat) (at_ : Z) (d : bytes) : bool :=
  match n with
  | O => false
  | S n =>
      if len d <? at_ + 4 then true
      else keys_crash n ((at_ + 4 + number_at 4 (Z.to_nat at_) d) mod 2 ^ 32) d
  end.
