(** What C147 says: which measurements are meant for which reader. *)
From Coq Require Import List Arith.
From Verif Require Import ReadersModel.
Import ListNotations.

(** What reader [r] returned. *)
Definition returned {A} (r : nat) (l : list (nat * A)) : list A := map snd (filter (fun x => fst x =? r) l).
(** The measurements received while [r] was the last reader made; [k] have been made. *)
Fixpoint received {A} (r k : nat) (l : list (ract A)) : list A :=
  match l with
  | [] => []
  | Make :: l => received r (S k) l
  | Batch b :: l => (if k =? S r then b else []) ++ received r k l
  | _ :: l => received r k l
  end.
(** The measurements received since reader [r] was made. *)
Fixpoint since {A} (r k : nat) (l : list (ract A)) : list A :=
  match l with
  | [] => []
  | Make :: l => since r (S k) l
  | Batch b :: l => (if r <? k then b else []) ++ since r k l
  | _ :: l => since r k l
  end.
