(** The order of receivers: what is asked (C142). *)
From Coq Require Import List Bool Arith.
From Verif Require Import RegisterModel HeardModel.
Import ListNotations.
Open Scope list_scope.

(** What was heard of source [i], in order *)
Fixpoint heard_of (i : nat) (h : list (nat * event)) : list event :=
  match h with [] => [] | (j, e) :: r => if j =? i then e :: heard_of i r else heard_of i r end.
(** Everything that is to happen, with the source it happens in *)
Fixpoint happenings (i : nat) (progs : list (list event)) : list (nat * event) :=
  match progs with [] => [] | p :: r => map (pair i) p ++ happenings (S i) r end.
(** Measurements, buffer blocks, start times, and connections made and ended *)
Definition sequenced (e : event) : bool :=
  match fst e with KMeasurements | KBlocks | KStart | KEstablished | KTerminated => true | _ => false end.
