(** Model of sttp/guid/Guid.go.  A Guid ([16]byte) is a list of 16 bytes; slices
    passed by callers are byte lists of any length.  Parse and String go through
    github.com/google/uuid: see GoTextModel. *)
From Verif Require Import Base.

(** Guid.go:35 *)
Definition guid := bytes.
Definition guid_ok (g : guid) : Prop := length g = 16%nat /\ bytes_ok g.

(** Guid.go:38 *)
Definition Empty : guid := repeat 0 16.

(** Go's == on [16]byte arrays: Guid.go:46-58 *)
Fixpoint bytes_eqb (a b : bytes) : bool :=
  match a, b with
  | [], [] => true
  | x :: a', y :: b' => (x =? y) && bytes_eqb a' b'
  | _, _ => false
  end.
Definition IsZero (g : guid) : bool := bytes_eqb g Empty.
Definition Equal (a b : guid) : bool := bytes_eqb a b.

(** Guid.go:100-106 *)
Definition Components (g : guid) : Z * Z * Z * bytes :=
  (be_val (firstn 4 g), be_val (firstn 2 (skipn 4 g)), be_val (firstn 2 (skipn 6 g)),
   firstn 8 (skipn 8 g)).

(** Guid.go:91-97 *)
Definition cmp_result (left right : Z) : Z := if left <? right then -1 else 1.

(** Guid.go:82-86, the loop over the trailing 8 bytes *)
Fixpoint cmp_bytes (d1 d2 : bytes) : Z :=
  match d1, d2 with
  | x :: d1', y :: d2' => if x =? y then cmp_bytes d1' d2' else cmp_result x y
  | _, _ => 0
  end.

(** Guid.go:66-89 (and the method 61-63) *)
Definition Compare (a b : guid) : Z :=
  let '(a1, b1, c1, d1) := Components a in
  let '(a2, b2, c2, d2) := Components b in
  if negb (a1 =? a2) then cmp_result a1 a2
  else if negb (b1 =? b2) then cmp_result b1 b2
  else if negb (c1 =? c2) then cmp_result c1 c2
  else cmp_bytes d1 d2.

(** Guid.go:147-172.  The function replaces the slice header by a fresh 16-byte
    slice; it does not write through the old one.  Reading byte i for i<16
    panics on shorter slices; both callers have at least 16 bytes. *)
Definition swapGuidEndianness (data : bytes) : bytes :=
  let b := fun i => nth i data 0 in
  [b 3%nat; b 2%nat; b 1%nat; b 0%nat; b 5%nat; b 4%nat; b 7%nat; b 6%nat;
   b 8%nat; b 9%nat; b 10%nat; b 11%nat; b 12%nat; b 13%nat; b 14%nat; b 15%nat].

(** Guid.go:124-134.  Guid(data) copies the first 16 bytes (slice to array
    conversion).  What becomes of the caller's slice: GuidMemModel. *)
Definition FromBytes (data : bytes) (swapEndianness : bool) : res guid :=
  if len data <? 16 then Err
  else let data' := if swapEndianness then swapGuidEndianness data else data in
       Ok (firstn 16 data').

(** Guid.go:137-145 *)
Definition ToBytes (g : guid) (swapEndianness : bool) : bytes :=
  if swapEndianness then swapGuidEndianness g else g.
