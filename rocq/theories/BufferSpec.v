(** Documents in the read buffer: what is asked (C144). *)
From Coq Require Import List ZArith.
From Verif Require Import BufferModel.
Import ListNotations.
Open Scope list_scope.

(** Every document that was read is the one that was received. *)
Definition faithful (s : bstate) : Prop := forall n d, In (n, d) (seen s) -> nth_error (got s) n = Some d.
(** While a document waits to be read, only packets without data (six bytes at most) are
    received. *)
Inductive calm (unzip : option (list Z -> option (list Z))) (size : nat) : list bmove -> Prop :=
| calm_none : calm unzip size []
| calm_packet : forall ms body, calm unzip size ms -> waiting (brun unzip size ms) = [] \/ length body <= 6 -> calm unzip size (ms ++ [Packet body])
| calm_reads : forall ms k, calm unzip size ms -> calm unzip size (ms ++ [Reads k]).
