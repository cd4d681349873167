(** Model of sttp/transport/SignalIndexCache.go.  Go maps are finite maps
    ([gmap]); strings are byte lists.  The tsscDecoder field is kept with the
    subscriber (SubscriberModel), and the measurement registry entries are reduced
    to the two fields addRecord touches (Source, ID). *)
From stdpp Require Import gmap.
From Verif Require Import Base GuidModel.
Open Scope Z_scope.

(** SignalIndexCache.go:38-46 *)
Record sic : Type := mkSic {
  reference : gmap Z Z;
  signalIDList : list guid;
  sourceList : list bytes;
  idList : list Z;
  signalIDCache : gmap (list Z) Z;
  binaryLength : Z }.

(** SignalIndexCache.go:49-54 *)
Definition NewSignalIndexCache : sic := mkSic ∅ [] [] [] ∅ 0.

(** DataSubscriber.measurementRegistry (sync.Map), restricted to Source and ID. *)
Definition registry : Type := gmap (list Z) (bytes * Z).

(** DataSubscriber.go:284-299 called from one goroutine: the entry, created with
    empty Source and zero ID when missing. *)
Definition LookupMetadata (reg : registry) (g : guid) : registry * (bytes * Z) :=
  match reg !! g with
  | Some e => (reg, e)
  | None => (<[g := ([], 0)]> reg, ([], 0))
  end.

(** SignalIndexCache.go:57-76, charSizeEstimate = 1 (its only caller's value). *)
Definition addRecord (st : registry * sic) (signalIndex : Z) (signalID : guid) (source : bytes) (id : Z)
  : registry * sic :=
  let '(reg, c) := st in
  let index := u32 (len (signalIDList c)) in
  let '(reg1, e) := LookupMetadata reg signalID in
  let reg2 := if len (fst e) =? 0 then <[signalID := (source, id)]> reg1 else reg1 in
  (reg2,
   mkSic (<[signalIndex := index]> (reference c))
         (signalIDList c ++ [signalID])
         (sourceList c ++ [source])
         (idList c ++ [id])
         (<[signalID := signalIndex]> (signalIDCache c))
         (u32 (binaryLength c + (32 + u32 (u32 (len source) * 1))))).

(** SignalIndexCache.go:89-92 *)
Definition Contains (c : sic) (signalIndex : Z) : bool :=
  match reference c !! signalIndex with Some _ => true | None => false end.
(** SignalIndexCache.go:95-101 *)
Definition SignalID (c : sic) (signalIndex : Z) : res guid :=
  match reference c !! signalIndex with
  | Some index => idx (signalIDList c) index
  | None => Ok Empty
  end.
(** SignalIndexCache.go:104-106, hashset.NewHashSet of the list *)
Definition SignalIDs (c : sic) : gset (list Z) := list_to_set (signalIDList c).
(** SignalIndexCache.go:150-153 *)
Definition BinaryLength (c : sic) : Z := binaryLength c.
(** SignalIndexCache.go:109-115 *)
Definition Source (c : sic) (signalIndex : Z) : res bytes :=
  match reference c !! signalIndex with
  | Some index => idx (sourceList c) index
  | None => Ok []
  end.
(** SignalIndexCache.go:118-124 *)
Definition ID (c : sic) (signalIndex : Z) : res Z :=
  match reference c !! signalIndex with
  | Some index => idx (idList c) index
  | None => Ok (2 ^ 64 - 1)
  end.
(** SignalIndexCache.go:128-134 *)
Definition RecordOf (c : sic) (signalIndex : Z) : res (guid * bytes * Z * bool) :=
  match reference c !! signalIndex with
  | Some index =>
      let* g := idx (signalIDList c) index in
      let* s := idx (sourceList c) index in
      let* i := idx (idList c) index in
      Ok (g, s, i, true)
  | None => Ok (Empty, [], 0, false)
  end.
(** SignalIndexCache.go:137-143 *)
Definition SignalIndex (c : sic) (g : guid) : Z :=
  match signalIDCache c !! g with Some i => i | None => -1 end.
(** SignalIndexCache.go:146-148 *)
Definition Count (c : sic) : Z := u32 (Z.of_nat (size (signalIDCache c))).

(** The outcome of decode: the mutated registry, subscriber ID and cache are
    visible to the caller even when it fails. *)
Record decode_state : Type := mkDec { d_reg : registry; d_sub : guid; d_sic : sic }.

(** SignalIndexCache.go:202-228, [n] iterations left.  [swap] is
    ds.SwapGuidEndianness; ds.DecodeString is the identity on bytes for the only
    supported encoding (DataSubscriber.go:273-280).  The slice's capacity is taken
    to be its length. *)
Fixpoint decode_loop (buffer : bytes) (swap : bool) (n : nat) (offset : Z) (st : registry * sic)
  : (registry * sic) * res unit :=
  match n with
  | O => (st, Ok tt)
  | S n' =>
      match (let* t := slice_from buffer offset in be_u32 t) with
      | Ok raw =>
          let signalIndex := i32 raw in
          let offset := u32 (offset + 4) in
          match (let* t := slice_from buffer offset in FromBytes t swap) with
          | Ok signalID =>
              let offset := u32 (offset + 16) in
              match (let* t := slice_from buffer offset in be_u32 t) with
              | Ok sourceSize =>
                  let offset := u32 (offset + 4) in
                  match slice buffer offset (u32 (offset + sourceSize)) with
                  | Ok source =>
                      let offset := u32 (offset + sourceSize) in
                      match (let* t := slice_from buffer offset in be_u64 t) with
                      | Ok id =>
                          let offset := u32 (offset + 8) in
                          decode_loop buffer swap n' offset (addRecord st signalIndex signalID source id)
                      | _ => (st, Panic)
                      end
                  | _ => (st, Panic)
                  end
              | _ => (st, Panic)
              end
          | Err => (st, Err)
          | Panic => (st, Panic)
          end
      | _ => (st, Panic)
      end
  end.

(** SignalIndexCache.go:168-234 *)
Definition decode (ds : decode_state) (buffer : bytes) (swap : bool) : decode_state * res unit :=
  let length := u32 (len buffer) in
  if length <? 4 then (ds, Err)
  else
    match be_u32 buffer with
    | Ok binLen =>
        if length <? binLen then (ds, Err)
        else
          match (let* t := slice_from buffer 4 in FromBytes t swap) with
          | Err => (mkDec (d_reg ds) Empty (d_sic ds), Err)
          | Panic => (ds, Panic)
          | Ok sub =>
              let ds1 := mkDec (d_reg ds) sub (d_sic ds) in
              match (let* t := slice_from buffer 20 in be_u32 t) with
              | Ok referenceCount =>
                  let '((reg, c), r) :=
                    decode_loop buffer swap (Z.to_nat referenceCount) 24 (d_reg ds1, d_sic ds1) in
                  (mkDec reg sub c, r)
              | _ => (ds1, Panic)
              end
          end
    | _ => (ds, Panic)
    end.
