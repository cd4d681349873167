(** Several goroutines that connect one DataSubscriber at the same time (C141). *)
From Coq Require Import List Bool.
From Verif Require Import ConcModel.
Import ListNotations.
Open Scope list_scope.

(** What a goroutine is at in DataSubscriber.connect (DataSubscriber.go:326-367); the
    calls it has still to make say whether the publisher will accept. *)
Inductive dpc : Type :=
| Idle                       (* about to look at the connected flag (327) *)
| AtLock (accepts : bool)    (* at connectActionMutex.Lock (346) *)
| AtDial (accepts : bool)    (* inside; at net.Dial (361) *)
| AtSet                      (* dialed; at establishConnection (364) *)
| AtUnlock (ok : bool).      (* at the deferred Unlock (347) *)
Record dgor : Type := DGor { at_ : dpc; calls : list bool }.
(** A call begins; a call returns nil or an error. *)
Inductive dev : Type := Begins (i : nat) | Returns (i : nat) (ok : bool).
Record dstate : Type := DState {
  flag : bool;               (* connected *)
  locked : bool;             (* connectActionMutex *)
  socket : option nat;       (* commandChannelSocket *)
  opened : list nat;         (* the connections that are open, numbered as made *)
  trace : list dev;
  dgors : list dgor
}.
(** A call begins where it looks at the flag.  The subscriber has never been
    connected or listening before, so there is no disconnect to wait for
    (DataSubscriber.go:335-342), and nobody disconnects.  Dial
    (Subscriber.go:187-276) comes to this with the same test in front of it, and
    SubscriberConnector.connect (SubscriberConnector.go:198-260) with one attempt. *)
Definition dstep (s : dstate) (i : nat) : option dstate :=
  match nth_error (dgors s) i with
  | None => None
  | Some (DGor pc cs) =>
    let go pc cs s := DState (flag s) (locked s) (socket s) (opened s) (trace s) (set_nth (dgors s) i (DGor pc cs)) in
    let say es s := DState (flag s) (locked s) (socket s) (opened s) (trace s ++ es) (dgors s) in
    match pc with
    | Idle =>
      match cs with
      | [] => None
      | a :: r => Some (if flag s then go Idle r (say [Begins i; Returns i false] s) else go (AtLock a) r (say [Begins i] s))
      end
    | AtLock a => if locked s then None else Some (go (AtDial a) cs (DState (flag s) true (socket s) (opened s) (trace s) (dgors s)))
    | AtDial a => Some (go (if a then AtSet else AtUnlock false) cs s)
    | AtSet =>                                                        (* 401-406 *)
      let n := length (opened s) in
      Some (go (AtUnlock true) cs (DState true (locked s) (Some n) (opened s ++ [n]) (trace s) (dgors s)))
    | AtUnlock ok => Some (go Idle cs (say [Returns i ok] (DState (flag s) false (socket s) (opened s) (trace s) (dgors s))))
    end
  end.
Definition dinit (progs : list (list bool)) : dstate := DState false false None [] [] (map (DGor Idle) progs).
