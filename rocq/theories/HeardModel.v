(** In which order receivers are called (C142). *)
From Coq Require Import List Bool.
From Verif Require Import ConcModel RegisterModel.
Import ListNotations.
Open Scope list_scope.

(** Something the application is to be told: for which receiver, and which of them. *)
Definition event : Type := (kind * nat)%type.
(** Which receivers the goroutine in which the event happens calls itself
    (DataSubscriber.go:416, 698, 1037, 1258, 1452; Subscriber.go:492-494); the others are
    called by a goroutine that is started for the one call: DataSubscriber.go:736 (status
    messages), 746 and SubscriberConnector.go:275 (error messages), DataSubscriber.go:1027
    (metadata), 1047 (processing complete), 1099 (subscription updated), 1186
    (configuration changed) and 1479 (notification).  Messages that handlers of the
    Subscriber give through StatusMessage and ErrorMessage are left out: the goroutine
    that gives them calls the logger itself (C140). *)
Definition direct_call (k : kind) : bool :=
  match k with KEstablished | KTerminated | KStart | KMeasurements | KBlocks => true | _ => false end.
(** [sources]: the goroutines in which things happen (the one that reads the command
    channel, the one that reads the data channel, the one that disconnects, the
    application's), each with what will happen in it, in order; [started]: the
    goroutines started for one call each that have not called yet; [heard]: the
    receivers that have been called, in the order in which they were entered.  An
    event comes with the number of its source. *)
Record hstate : Type := HState { sources : list (list event); started : list (nat * event); heard : list (nat * event) }.
(** The next thing happens in a source, or a goroutine that was started calls its receiver. *)
Inductive move : Type := Happens (i : nat) | Calls (k : nat).
Definition remove_at {A} (l : list A) (k : nat) : list A := firstn k l ++ skipn (S k) l.
(** A receiver that is not registered hears nothing, which is left out here (C140), and
    so is the time a receiver takes: its source does nothing else meanwhile. *)
Definition hstep (s : hstate) (m : move) : hstate :=
  match m with
  | Happens i =>
    match nth_error (sources s) i with
    | Some (e :: r) =>
      let srcs := set_nth (sources s) i r in
      if direct_call (fst e) then HState srcs (started s) (heard s ++ [(i, e)]) else HState srcs (started s ++ [(i, e)]) (heard s)
    | _ => s
    end
  | Calls k =>
    match nth_error (started s) k with
    | Some e => HState (sources s) (remove_at (started s) k) (heard s ++ [e])
    | None => s
    end
  end.
Definition hrun (progs : list (list event)) (ms : list move) : hstate := fold_left hstep ms (HState progs [] []).
