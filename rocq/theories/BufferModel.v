(** The read buffer of the command channel and the goroutines that read metadata
    documents (C144). *)
From Coq Require Import List Bool ZArith.
From Verif Require Import ConcModel.
Import ListNotations.
Open Scope list_scope.

(** io.ReadFull into the start of a buffer that is long enough *)
Definition write (buffer l : list Z) : list Z := l ++ skipn (length l) buffer.
(** The four bytes of the payload header (DataSubscriber.go:805, 823) *)
Definition size_bytes (n : nat) : list Z := let z := Z.of_nat n in map (fun k => Z.modulo (Z.div z (2 ^ k)) 256) [24; 16; 8; 0]%Z.
(** What a goroutine started for a document was given: a part of a buffer, or bytes of
    its own *)
Inductive given : Type := Part (buffer from n : nat) | Bytes (d : list Z).
(** [heap]: the buffers made so far; [current]: which of them is readBuffer; [waiting]:
    the goroutines that have not read their document yet, with its number; [got]: the
    documents that were received; [seen]: the documents that were read. *)
Record bstate : Type := BState { heap : list (list Z); current : nat; waiting : list (nat * given); got : list (list Z); seen : list (nat * list Z) }.
Definition contents (s : bstate) (g : given) : list Z :=
  match g with Part b from n => firstn n (skipn from (nth b (heap s) [])) | Bytes d => d end.
(** ServerResponse.Succeeded and ServerCommand.MetadataRefresh (Constants.go:315, 493;
    DataSubscriber.go:947-950) *)
Definition is_metadata (body : list Z) : bool := match body with 128%Z :: 1%Z :: _ => true | _ => false end.
(** A packet is received, whatever it is; or a waiting goroutine reads its document. *)
Inductive bmove : Type := Packet (body : list Z) | Reads (k : nat).
(** [unzip]: what decompressGZip (Common.go:51-66) gives, if metadata is compressed.
    Packet: DataSubscriber.go:805 (the header goes to the start of the buffer), 849-851 (a
    longer buffer is made if need be), 856 (the body goes to the start of the buffer),
    901 (what follows the first six bytes is the data) and 1005-1029.  The connection is
    validated and a receiver is registered; other responses keep nothing of the buffer
    but copies.  Reads: Subscriber.go:520; the document is read at one moment, though
    parsing takes time. *)
Definition bstep (unzip : option (list Z -> option (list Z))) (s : bstate) (m : bmove) : bstate :=
  match m with
  | Packet body =>
    let h := set_nth (heap s) (current s) (write (nth (current s) (heap s) []) (size_bytes (length body))) in
    let grows := Nat.ltb (length (nth (current s) h [])) (length body) in
    let c := if grows then length h else current s in
    let h := if grows then h ++ [repeat 0%Z (length body)] else h in
    let h := set_nth h c (write (nth c h []) body) in
    let data := skipn 6 body in
    if is_metadata body then
      match unzip with
      | None => BState h c (waiting s ++ [(length (got s), Part c 6 (length body - 6))]) (got s ++ [data]) (seen s)
      | Some z => match z data with
                  | Some d => BState h c (waiting s ++ [(length (got s), Bytes d)]) (got s ++ [d]) (seen s)
                  | None => BState h c (waiting s) (got s) (seen s)
                  end
      end
    else BState h c (waiting s) (got s) (seen s)
  | Reads k =>
    match nth_error (waiting s) k with
    | Some (n, g) => BState (heap s) (current s) (firstn k (waiting s) ++ skipn (S k) (waiting s)) (got s) (seen s ++ [(n, contents s g)])
    | None => s
    end
  end.
(** A new subscriber has a buffer of [size] bytes (DataSubscriber.go:182, where it is 32768). *)
Definition brun (unzip : option (list Z -> option (list Z))) (size : nat) (ms : list bmove) : bstate :=
  fold_left (bstep unzip) ms (BState [repeat 0%Z size] 0 [] [] []).
