(** The slices of sttp/guid/Guid.go in memory: FromBytes, ToBytes and
    swapGuidEndianness (124-172) statement by statement over numbered arrays, to see
    what they do to the slices of others. *)
From Verif Require Import Base GuidModel.
Open Scope Z_scope.

(** Arrays are numbered in the order of their allocation; a slice names an array, where
    it begins there and its length (capacities play no part here). *)
Definition heap := list bytes.
Record gslice := GSlice { g_array : nat; g_start : nat; g_len : nat }.
Definition contents (h : heap) (s : gslice) : bytes := firstn (g_len s) (skipn (g_start s) (nth (g_array s) h [])).
Definition in_heap (h : heap) (s : gslice) : Prop := (g_start s + g_len s <= length (nth (g_array s) h []))%nat.

Fixpoint put_at {A} (l : list A) (n : nat) (x : A) : list A :=
  match l, n with
  | [], _ => []
  | _ :: r, O => x :: r
  | a :: r, S m => a :: put_at r m x
  end.
(** s[i] and s[i] = v, which panic outside the slice; make([]byte, n) *)
Definition load (h : heap) (s : gslice) (i : nat) : res Z :=
  if (i <? g_len s)%nat then Ok (nth (g_start s + i) (nth (g_array s) h []) 0) else Panic.
Definition save (h : heap) (s : gslice) (i : nat) (v : Z) : res heap :=
  if (i <? g_len s)%nat
  then Ok (put_at h (g_array s) (put_at (nth (g_array s) h []) (g_start s + i) v))
  else Panic.
Definition make (h : heap) (n : nat) : heap * gslice := (h ++ [repeat 0 n], GSlice (length h) 0 n).

(** Guid.go:151-157: the loop, from index [i], [left] rounds to go; [c] is the array copy *)
Fixpoint swap_loop (left i : nat) (h : heap) (data swapped : gslice) (c : bytes) : res (heap * bytes) :=
  match left with
  | O => Ok (h, c)
  | S left' =>
    let* v := load h data i in
    let* h1 := save h swapped i v in
    let* w := load h1 swapped i in
    swap_loop left' (S i) h1 data swapped (if (i <? 8)%nat then put_at c i w else c)
  end.
(** Guid.go:160-169: the assignments, as pairs of indices of swappedBytes and copy *)
Definition swap_moves : list (nat * nat) :=
  [(3, 0); (2, 1); (1, 2); (0, 3); (4, 5); (5, 4); (6, 7); (7, 6)]%nat.
Fixpoint swap_assign (moves : list (nat * nat)) (h : heap) (swapped : gslice) (c : bytes) : res heap :=
  match moves with
  | [] => Ok h
  | (to, from) :: rest =>
    let* h1 := save h swapped to (nth from c 0) in swap_assign rest h1 swapped c
  end.
(** Guid.go:147-172; the slice variable that [data] points to is returned *)
Definition swapMem (h : heap) (data : gslice) : res (heap * gslice) :=
  let '(h0, swapped) := make h 16 in
  let* r := swap_loop 16 0 h0 data swapped (repeat 0 8) in
  let* h2 := swap_assign swap_moves (fst r) swapped (snd r) in
  Ok (h2, swapped).

(** Guid.go:124-134; the conversion Guid(data) copies the first 16 bytes *)
Definition FromBytesMem (h : heap) (data : gslice) (swapEndianness : bool) : res (heap * res guid) :=
  if (g_len data <? 16)%nat then Ok (h, Err)
  else
    let* r := if swapEndianness then swapMem h data else Ok (h, data) in
    Ok (fst r, Ok (firstn 16 (contents (fst r) (snd r)))).
(** Guid.go:137-145; the receiver g is a copy of its own *)
Definition ToBytesMem (h : heap) (g : guid) (swapEndianness : bool) : res (heap * gslice) :=
  let h0 := h ++ [g] in
  let data := GSlice (length h) 0 16 in
  if swapEndianness then swapMem h0 data else Ok (h0, data).
