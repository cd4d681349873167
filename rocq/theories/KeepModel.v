(** A subscriber that listens although it dialled before: the callback the connector
    registered and its reconnect thread go on (C146). *)
From Coq Require Import List Arith Bool.
Import ListNotations.

(** SubscriberConnector.go:96-124, 198-242: where the reconnect thread is.  [Passed]:
    DataSubscriber.go:327-333 has found the subscriber neither connected nor listening. *)
Inductive rthread : Type := NoThread | Waits | Tests | Passed.
Inductive kevent : Type :=
| KDialled            (* DataSubscriber.go:361 net.Dial *)
| KRefused            (* connect returned "already connected" or "is listening" *)
| KAccepted           (* DataSubscriber.go:784-794 a publisher that connected to the listener *)
| KTerminated         (* ConnectionTerminatedCallback *)
| KStarted            (* Subscriber.go:489 handleConnect by the reconnect thread *)
| KGaveUp.            (* Subscriber.go:512 Disconnect by the reconnect thread *)
(** DataSubscriber.go:55-140, SubscriberConnector.go:66-76.  [callback]:
    AutoReconnectCallback is registered; [joining]: disconnect threads that wait for the
    reconnect thread in autoReconnect (SubscriberConnector.go:86-94). *)
Record kstate : Type := KState {
  listening : bool; connected : bool; callback : bool; cancel : bool;
  thread : rthread; attempt : nat; joining : nat
}.
Definition new_state : kstate := KState false false false false NoThread 0 0.

Inductive kact : Type :=
| ADial (auto ok : bool)   (* Subscriber.Dial, AutoReconnect as configured; it connects or all attempts fail *)
| AListen (ok : bool)
| AAccept                  (* a publisher connects to the listening socket *)
| ALost                    (* the connection is lost *)
| AReconnect (ok : bool)   (* the reconnect thread goes on; [ok]: net.Dial succeeds, if it is called *)
| ADisconnect.

(** SubscriberConnector.go:96-105: the reconnect thread begins.  Not modelled: that the
    publisher refused the last connection, which keeps the count (C82). *)
Definition begin (max : option nat) (s : kstate) : kstate :=
  match max with
  | Some O => KState (listening s) (connected s) (callback s) false NoThread 0 0
  | _ => KState (listening s) (connected s) (callback s) false Waits 0 (joining s)
  end.
(** The reconnect thread ends: one that waits for it begins its own *)
Definition ends (max : option nat) (s : kstate) : kstate :=
  let s := KState (listening s) (connected s) (callback s) (cancel s) NoThread (attempt s) (joining s) in
  match joining s with
  | O => s
  | S n => begin max (KState (listening s) (connected s) (callback s) (cancel s) NoThread (attempt s) n)
  end.
(** DataSubscriber.go:608-722 with the listener, and SubscriberConnector.go:245-262 Cancel.
    Simplified: it is one step, and it ends the threads that wait (see C38, C108). *)
Definition stop (s : kstate) : kstate := KState false false (callback s) true NoThread (attempt s) 0.
(** Subscriber.go:508-515 handleReconnect; simplified: one step *)
Definition handleReconnect (max : option nat) (s : kstate) : kstate * list kevent :=
  if connected s then (ends max s, [KStarted]) else (stop s, [KGaveUp]).

Definition at_thread (s : kstate) (t : rthread) (n : nat) : kstate :=
  KState (listening s) (connected s) (callback s) (cancel s) t n (joining s).
Definition kstep (max : option nat) (s : kstate) (a : kact) : kstate * list kevent :=
  match a with
  | ADial auto ok =>
    (* Subscriber.go:178-277; not modelled: Dial while the reconnect thread runs *)
    if connected s || listening s then (s, [])
    else match thread s with
         | NoThread => (KState (listening s) ok (callback s || auto) false NoThread 0 (joining s), [KDialled])
         | _ => (s, [])
         end
  | AListen ok =>
    (* Subscriber.go:284-354, DataSubscriber.go:423-455 *)
    if connected s || listening s then (s, [])
    else (KState ok false (callback s) (cancel s) (thread s) (attempt s) (joining s), [])
  | AAccept =>
    (* DataSubscriber.go:752-797 *)
    if listening s && negb (connected s)
    then (KState true true (callback s) (cancel s) (thread s) (attempt s) (joining s), [KAccepted]) else (s, [])
  | ALost =>
    (* DataSubscriber.go:617-722 without the listener; SubscriberConnector.go:79-94 autoReconnect *)
    if connected s then
      let s := KState (listening s) false (callback s) (cancel s) (thread s) (attempt s) (joining s) in
      if callback s && negb (cancel s) then
        match thread s with
        | NoThread => (begin max s, [KTerminated])
        | _ => (KState (listening s) false (callback s) (cancel s) (thread s) (attempt s) (S (joining s)), [KTerminated])
        end
      else (s, [KTerminated])
    else (s, [])
  | AReconnect ok =>
    match thread s with
    | NoThread => (s, [])
    | Waits => if cancel s then (ends max s, []) else (at_thread s Tests (attempt s), [])   (* SC 107-111, 223-230 *)
    | Tests =>                                                                              (* SC 208-219 *)
      if match max with Some m => m <=? attempt s | None => false end then handleReconnect max s
      else if connected s || listening s then (at_thread s Waits (S (attempt s)), [KRefused])
      else (at_thread s Passed (S (attempt s)), [])
    | Passed =>                                                                             (* DS 335-367 *)
      if ok then let '(s, ev) := handleReconnect max (KState (listening s) true (callback s) (cancel s) (thread s) (attempt s) (joining s)) in (s, KDialled :: ev)
      else (at_thread s Waits (attempt s), [KDialled])
    end
  | ADisconnect => (stop s, [])
  end.
Fixpoint krun (max : option nat) (s : kstate) (l : list kact) : kstate * list kevent :=
  match l with
  | [] => (s, [])
  | a :: r => let '(s1, e1) := kstep max s a in let '(s2, e2) := krun max s1 r in (s2, e1 ++ e2)
  end.
