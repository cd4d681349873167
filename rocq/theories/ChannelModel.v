(** Model of the UDP data channel's life: DataSubscriber.Subscribe opens a socket and
    starts a goroutine reading it, Unsubscribe and the disconnect thread close the
    socket and join the goroutine.

    A transition system; each step is one access to what goroutines share.  One API
    call is under way at a time (calls from several goroutines, and the time a
    Disconnect overlaps with other calls, are left out; how Disconnect itself
    proceeds is ShutdownModel.v).  What the reading goroutine does with a datagram
    is [TBusy]; a callback may call the API from there.  [disconnecting], which
    Unsubscribe sets for its duration (DataSubscriber.go:579, 592), is not read by
    the data channel. *)
From Coq Require Import List ZArith Bool.
Import ListNotations.
From Verif Require Import Base.
Open Scope Z_scope.

(** A UDP socket: open or not, and the local port it was bound to. *)
Record sock : Type := mkSock { s_open : bool; s_port : Z }.
(** A net.Conn value: a socket, or the nil *net.UDPConn that net.ListenUDP returns
    with an error (an interface value that is not nil). *)
Inductive conn : Type := Nil | Real (k : nat).
(** runDataChannelResponseThread, DataSubscriber.go:879-898: not scheduled yet;
    blocked in reader.Read; processing a datagram; returned. *)
Inductive thread : Type := TNew | TRead (c : conn) | TBusy (c : conn) | TDone.
(** The rest of the call after closing and joining: Subscribe's listening, nothing,
    or the end of the disconnect thread. *)
Inductive after : Type := ThenListen (port : Z) | ThenReturn | ThenDown.
Inductive pc : Type := PClose (a : after) | PJoin (a : after) | PListen (port : Z).

(** DataSubscriber.go:66-67 are [field] and [reader].  [call]: the API call under way
    and the data goroutine whose callback made it, if any. *)
Record chan : Type := mkChan {
  socks : list sock; field : option conn; threads : list thread; reader : option nat;
  connected : bool; subscribed : bool; call : option (pc * option nat) }.

Inductive api : Type := CSubscribe (port : Z) | CUnsubscribe | CDisconnect.
Inductive event : Type :=
| EConnect                              (* a connection is made *)
| ECall (c : api) (by_ : option nat)    (* an API call begins *)
| EStep                                 (* the call under way goes on *)
| EListen (ok : bool)                   (* the call under way opens the socket *)
| EThread (k : nat)                     (* data goroutine k goes on *)
| EDatagram (k : nat)                   (* a datagram reaches data goroutine k *)
| EAnswer (subscribed : bool).          (* the publisher answers Subscribe, Unsubscribe *)

(** DataSubscriber.go:171-196 *)
Definition NewChannel : chan := mkChan [] None [] None false false None.

Fixpoint set_nth {A} (l : list A) (k : nat) (x : A) : list A :=
  match l, k with
  | [], _ => []
  | _ :: r, O => x :: r
  | y :: r, S k => y :: set_nth r k x
  end.
Definition set_call (s : chan) (c : option (pc * option nat)) : chan :=
  mkChan (socks s) (field s) (threads s) (reader s) (connected s) (subscribed s) c.
Definition set_thread (s : chan) (k : nat) (t : thread) : chan :=
  mkChan (socks s) (field s) (set_nth (threads s) k t) (reader s) (connected s) (subscribed s) (call s).

(** The call of Close on the socket in the field; on a nil *UDPConn, and on a closed
    socket, an error that is only reported. *)
Definition close_field (s : chan) : list sock :=
  match field s with
  | Some (Real k) => match nth_error (socks s) k with
                     | Some x => set_nth (socks s) k (mkSock false (s_port x))
                     | None => socks s
                     end
  | _ => socks s
  end.
(** Thread.go:75-83: Join returns at once unless the goroutine has been scheduled and
    has not returned. *)
Definition join_returns (s : chan) : bool :=
  match reader s with
  | Some m => match nth_error (threads s) m with Some (TRead _) | Some (TBusy _) => false | _ => true end
  | None => true
  end.
(** net.ListenUDP can succeed for port 0 (any free port) or if no open socket of this
    process has the port; it can always fail. *)
Definition port_free (s : chan) (p : Z) : bool :=
  (p =? 0) || negb (existsb (fun x => s_open x && (s_port x =? p)) (socks s)).
(** Whether reader.Read on a connection returns without a datagram: it fails at once
    on a closed socket and on a nil *UDPConn. *)
Definition read_fails (s : chan) (c : conn) : bool :=
  match c with
  | Nil => true
  | Real k => match nth_error (socks s) k with Some x => negb (s_open x) | None => true end
  end.
(** The goroutine whose callback makes the call under way cannot go on. *)
Definition calling (s : chan) (k : nat) : bool :=
  match call s with Some (_, Some m) => Nat.eqb m k | _ => false end.

Definition cstep (s : chan) (e : event) : option chan :=
  match e with
  | EConnect =>
      (* setupConnection and establishConnection, DataSubscriber.go:370-381, 383-427 *)
      match call s with
      | None => if connected s then None
                else Some (mkChan (socks s) (field s) (threads s) (reader s) true false None)
      | Some _ => None
      end
  | ECall c by_ =>
      match call s with
      | Some _ => None
      | None =>
          let legal := match by_ with
                       | None => true
                       | Some k => match nth_error (threads s) k with Some (TBusy _) => true | _ => false end
                       end in
          if negb legal then None
          else match c with
               | CSubscribe p =>
                   (* DataSubscriber.go:458-471, 511-513; UdpDataChannel set *)
                   if negb (connected s) then Some s
                   else if subscribed s then Some (set_call s (Some (PClose (ThenListen p), by_)))
                   else Some (set_call s (Some (PListen p, by_)))
               | CUnsubscribe =>
                   (* DataSubscriber.go:572-577; validated taken to be set *)
                   if negb (connected s) then Some s
                   else Some (set_call s (Some (PClose ThenReturn, by_)))
               | CDisconnect =>
                   (* DataSubscriber.go:608-649; the disconnect thread is the call *)
                   Some (mkChan (socks s) (field s) (threads s) (reader s) false false (Some (PClose ThenDown, None)))
               end
      end
  | EStep =>
      match call s with
      | Some (PClose a, b) =>
          (* DataSubscriber.go:582-586, 672-676 *)
          Some (mkChan (close_field s) (field s) (threads s) (reader s) (connected s) (subscribed s) (Some (PJoin a, b)))
      | Some (PJoin a, b) =>
          (* DataSubscriber.go:588-590, 689-692 *)
          if join_returns s then
            Some (match a with
                  | ThenListen p => set_call s (Some (PListen p, b))
                  | ThenReturn => set_call s None
                  | ThenDown => mkChan (socks s) (field s) (threads s) None (connected s) (subscribed s) None
                  end)
          else None
      | _ => None
      end
  | EListen ok =>
      match call s with
      | Some (PListen p, _) =>
          (* DataSubscriber.go:519-526 *)
          if ok then
            if port_free s p then
              Some (mkChan (socks s ++ [mkSock true p]) (Some (Real (length (socks s)))) (threads s ++ [TNew])
                           (Some (length (threads s))) (connected s) (subscribed s) None)
            else None
          else Some (mkChan (socks s) (Some Nil) (threads s) (reader s) (connected s) (subscribed s) None)
      | _ => None
      end
  | EThread k =>
      match nth_error (threads s) k with
      | Some TNew =>
          (* DataSubscriber.go:880-883: the socket is read from the field now *)
          Some (set_thread s k (if connected s then match field s with Some c => TRead c | None => TDone end else TDone))
      | Some (TRead c) => if read_fails s c then Some (set_thread s k TDone) else None   (* 886-889 *)
      | Some (TBusy c) => if calling s k then None else Some (set_thread s k (if connected s then TRead c else TDone))  (* 883 *)
      | _ => None
      end
  | EDatagram k =>
      match nth_error (threads s) k with
      | Some (TRead c) => if read_fails s c then None else Some (set_thread s k (TBusy c))   (* 884-896 *)
      | _ => None
      end
  | EAnswer b =>
      (* DataSubscriber.go:951-956; answers reach a connected subscriber *)
      if connected s then Some (mkChan (socks s) (field s) (threads s) (reader s) true b (call s)) else None
  end.

Fixpoint crun (s : chan) (l : list event) : option chan :=
  match l with
  | [] => Some s
  | e :: r => match cstep s e with Some s' => crun s' r | None => None end
  end.
