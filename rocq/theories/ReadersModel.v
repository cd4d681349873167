(** Several MeasurementReaders, made one after the other (C147).  One goroutine delivers
    (C42 has several, and Close). *)
From Coq Require Import List Arith.
Import ListNotations.

Section readers.
Context {A : Type}.
(** MeasurementReader.go:32-50, Subscriber.go:784-790.  The readers are numbered as they are
    made; the callback registered is the one of the last.  [sending]: the delivering
    goroutine is in that callback, which sends what is left of a batch to its reader. *)
Record rstate : Type := RState {
  made : nat;
  sending : option (nat * list A);
  got : list (nat * A);      (* what NextMeasurement returned, by which reader *)
  shut : bool                (* a Disconnect has been completed *)
}.
Definition no_readers : rstate := RState 0 None [] false.
Inductive ract : Type :=
| Make                       (* Subscriber.go:438-441 ReadMeasurements *)
| Batch (b : list A)         (* a data packet with these measurements is handled *)
| Next (r : nat)             (* NextMeasurement of reader [r] returns *)
| Shut.                      (* a Disconnect is completed *)
(** None: the call, or the goroutine, waits. *)
Definition rstep (s : rstate) (a : ract) : option rstate :=
  match a with
  | Make =>
    (* Subscriber.go:784-790: the callback is assigned under the lock that
       DataSubscriber.go:1253-1261 holds for reading while the callback runs *)
    match sending s with
    | None => Some (RState (S (made s)) None (got s) (shut s))
    | Some _ => None
    end
  | Batch b =>
    (* DataSubscriber.go:1253-1261: the callback, if there is one *)
    if shut s then None
    else match sending s with
         | Some _ => None
         | None => match made s, b with
                   | S r, _ :: _ => Some (RState (made s) (Some (r, b)) (got s) false)
                   | _, _ => Some s
                   end
         end
  | Next r =>
    (* MeasurementReader.go:42-46, 55-66: the unbuffered channel of reader [r] *)
    match sending s with
    | Some (r', m :: rest) =>
      if r' =? r then Some (RState (made s) (match rest with [] => None | _ => Some (r', rest) end) (got s ++ [(r, m)]) (shut s)) else None
    | _ => None
    end
  | Shut =>
    (* DataSubscriber.go:685-694: the delivering goroutine is waited for *)
    match sending s with None => Some (RState (made s) None (got s) true) | Some _ => None end
  end.
Fixpoint rrun (s : rstate) (l : list ract) : option rstate :=
  match l with
  | [] => Some s
  | a :: l => match rstep s a with Some s => rrun s l | None => None end
  end.
End readers.
Arguments rstate : clear implicits. Arguments ract : clear implicits.
