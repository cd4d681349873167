(** Shared vocabulary of the model: results of Go calls, fixed-width integers
    and big-endian byte access.  No Go function is modelled here; these are the
    Go language features (and encoding/binary) that the models are written in. *)
From Coq Require Export ZArith List Bool.
Export ListNotations.
Open Scope Z_scope.

(** Outcome of a Go call: a normal result, a returned [error], or a run-time
    panic (index out of range, slice bounds, failed type assertion, integer
    division by zero). *)
Inductive res (A : Type) : Type :=
| Ok (a : A)
| Err
| Panic.
Arguments Ok {A} a.
Arguments Err {A}.
Arguments Panic {A}.

Definition bind {A B} (x : res A) (f : A -> res B) : res B :=
  match x with Ok a => f a | Err => Err | Panic => Panic end.
Notation "'let*' x ':=' e 'in' k" := (bind e (fun x => k))
  (at level 200, x pattern, e at level 100, k at level 200, right associativity).

Definition is_ok {A} (x : res A) : bool := match x with Ok _ => true | _ => false end.
Definition is_panic {A} (x : res A) : bool := match x with Panic => true | _ => false end.

(** Fixed-width integers: the value a Go conversion or arithmetic result of the
    given type has. *)
Definition u8 (x : Z) : Z := x mod 2 ^ 8.
Definition u16 (x : Z) : Z := x mod 2 ^ 16.
Definition u32 (x : Z) : Z := x mod 2 ^ 32.
Definition u64 (x : Z) : Z := x mod 2 ^ 64.
Definition i8 (x : Z) : Z := (x + 2 ^ 7) mod 2 ^ 8 - 2 ^ 7.
Definition i16 (x : Z) : Z := (x + 2 ^ 15) mod 2 ^ 16 - 2 ^ 15.
Definition i32 (x : Z) : Z := (x + 2 ^ 31) mod 2 ^ 32 - 2 ^ 31.
Definition i64 (x : Z) : Z := (x + 2 ^ 63) mod 2 ^ 64 - 2 ^ 63.

(** Range predicates. *)
Definition is_u8 (x : Z) : Prop := 0 <= x < 2 ^ 8.
Definition is_u16 (x : Z) : Prop := 0 <= x < 2 ^ 16.
Definition is_u32 (x : Z) : Prop := 0 <= x < 2 ^ 32.
Definition is_u64 (x : Z) : Prop := 0 <= x < 2 ^ 64.
Definition is_i32 (x : Z) : Prop := - 2 ^ 31 <= x < 2 ^ 31.
Definition is_i64 (x : Z) : Prop := - 2 ^ 63 <= x < 2 ^ 63.

(** Byte slices. *)
Definition byte := Z.
Definition bytes := list Z.
Definition bytes_ok (l : bytes) : Prop := Forall is_u8 l.

(** Length of a slice as a Go int. *)
Definition len {A} (l : list A) : Z := Z.of_nat (length l).

(** [s[i]] : panics when out of range. *)
Definition idx {A} (l : list A) (i : Z) : res A :=
  if (i <? 0) then Panic
  else match nth_error l (Z.to_nat i) with Some a => Ok a | None => Panic end.

(** [s[lo:]] : panics when lo > len(s). *)
Definition slice_from {A} (l : list A) (lo : Z) : res (list A) :=
  if (lo <? 0) || (len l <? lo) then Panic else Ok (skipn (Z.to_nat lo) l).

(** [s[lo:hi]] for a slice whose capacity is its length. *)
Definition slice {A} (l : list A) (lo hi : Z) : res (list A) :=
  if (lo <? 0) || (hi <? lo) || (len l <? hi) then Panic
  else Ok (firstn (Z.to_nat (hi - lo)) (skipn (Z.to_nat lo) l)).

(** encoding/binary BigEndian: value of a list of bytes, most significant first. *)
Fixpoint be_val (l : bytes) : Z :=
  match l with
  | [] => 0
  | b :: r => b * 2 ^ (8 * len r) + be_val r
  end.

(** BigEndian.Uint16/32/64(s): panics when the slice is too short. *)
Definition be_get (n : nat) (l : bytes) : res Z :=
  if (length l <? n)%nat then Panic else Ok (be_val (firstn n l)).
Definition be_u16 (l : bytes) : res Z := be_get 2 l.
Definition be_u32 (l : bytes) : res Z := be_get 4 l.
Definition be_u64 (l : bytes) : res Z := be_get 8 l.

(** BigEndian.PutUintN : the n-byte big-endian representation of x. *)
Fixpoint be_put (n : nat) (x : Z) : bytes :=
  match n with
  | O => []
  | S k => (x / 2 ^ (8 * Z.of_nat k)) mod 2 ^ 8 :: be_put k x
  end.
