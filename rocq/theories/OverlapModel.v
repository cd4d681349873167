(** Calls of Subscribe, Unsubscribe and Disconnect that overlap, with a UDP data channel:
    DataSubscriber.Subscribe, Unsubscribe, Disconnect, disconnect and runDisconnectThread
    (/repo/sttp/transport/DataSubscriber.go:458-570, 573-593, 596-722, DS).

    As ChannelModel, whose sockets and data goroutines are used here, but any number of
    goroutines make calls at the same time, and Disconnect runs in its own goroutine
    with the flag [disconnecting] and the lock connectActionMutex.  Each step is one
    access to what goroutines share.  Calls come from goroutines of the application
    (calls in callbacks are in ChannelModel).  [validated] is taken to equal
    [connected]; the TCP connection, its goroutine and lost connections are left out
    (see ShutdownModel and UnsubModel). *)
From Coq Require Import List ZArith Bool.
Import ListNotations.
From Verif Require Import Base ChannelModel.
Open Scope Z_scope.

(** What follows an Unsubscribe: the rest of Subscribe with a port, or the return *)
Inductive rest : Type := RListen (port : Z) | RReturn.
(** Control points of a goroutine of the application *)
Inductive upc : Type :=
| UIdle
| USub (port : Z)      (* in Subscribe after the test of connected (459), before that of subscribed (469) *)
| UTest (r : rest)     (* in Unsubscribe, before the test of connected (574) *)
| USet (r : rest)      (* before disconnecting.Set (580) *)
| UClose (r : rest)    (* before the socket is closed (582-586) *)
| UNil (r : rest)      (* before the test of the thread against nil (588) *)
| UJoin (r : rest)     (* after it, before the thread is read again (589) *)
| UWait (m : nat) (r : rest)   (* in Join of data goroutine m *)
| UBack (r : rest)     (* before disconnecting.UnSet (592) *)
| UListen (port : Z)   (* before net.ListenUDP (519) *)
| UStart               (* the socket is open, before the thread is made and started (525-526) *)
| UDisc                (* in Disconnect after the test of disconnecting (597), before that in disconnect (610) *)
| UFlags               (* before the flags are set (627-635) *)
| USpawn.              (* before the disconnect thread is started (637-644) *)
(** Control points of a disconnect thread (651-722) *)
Inductive dpc : Type := DLock | DClose | DNil | DJoin | DWait (m : nat) | DForget | DUnSet | DUnlock | DEnd.

Record user : Type := User { u_pc : upc; u_todo : list api }.
Record ost : Type := OState {
  o_socks : list sock; o_field : option conn; o_threads : list thread; o_reader : option nat;
  o_connected : bool; o_subscribed : bool; o_disconnecting : bool; o_lock : option nat;
  o_users : list user; o_discs : list dpc; o_crashed : bool }.

(** The part that ChannelModel knows *)
Definition chan_of (s : ost) : chan :=
  mkChan (o_socks s) (o_field s) (o_threads s) (o_reader s) (o_connected s) (o_subscribed s) None.
Definition with_users (s : ost) (us : list user) : ost :=
  OState (o_socks s) (o_field s) (o_threads s) (o_reader s) (o_connected s) (o_subscribed s) (o_disconnecting s) (o_lock s) us (o_discs s) (o_crashed s).
Definition with_flag (s : ost) (b : bool) : ost :=
  OState (o_socks s) (o_field s) (o_threads s) (o_reader s) (o_connected s) (o_subscribed s) b (o_lock s) (o_users s) (o_discs s) (o_crashed s).
Definition with_chan (s : ost) (so : list sock) (f : option conn) (th : list thread) (r : option nat) : ost :=
  OState so f th r (o_connected s) (o_subscribed s) (o_disconnecting s) (o_lock s) (o_users s) (o_discs s) (o_crashed s).
Definition with_discs (s : ost) (l : option nat) (ds : list dpc) : ost :=
  OState (o_socks s) (o_field s) (o_threads s) (o_reader s) (o_connected s) (o_subscribed s) (o_disconnecting s) l (o_users s) ds (o_crashed s).
(** A nil pointer is used: the process ends. *)
Definition crash (s : ost) : ost :=
  OState (o_socks s) (o_field s) (o_threads s) (o_reader s) (o_connected s) (o_subscribed s) (o_disconnecting s) (o_lock s) (o_users s) (o_discs s) true.

(** Thread.go:75-83: Join of data goroutine [m] returns at once, or later *)
Definition joined (s : ost) (m : nat) : bool :=
  match nth_error (o_threads s) m with Some (TRead _) | Some (TBusy _) => false | _ => true end.
Definition after_unsubscribe (r : rest) : upc := match r with RListen p => UListen p | RReturn => UIdle end.

(** The next step of user [k]; [ok]: whether net.ListenUDP succeeds, where it is called *)
Definition user_step (s : ost) (k : nat) (ok : bool) : option ost :=
  match nth_error (o_users s) k with
  | None => None
  | Some (User pc todo) =>
    let go s p := Some (with_users s (ChannelModel.set_nth (o_users s) k (User p todo))) in
    match pc with
    | UIdle => match todo with
               | [] => None
               | c :: todo =>
                 let go p := Some (with_users s (ChannelModel.set_nth (o_users s) k (User p todo))) in
                 match c with
                 | CSubscribe p => go (if o_connected s then USub p else UIdle)       (* 459 *)
                 | CUnsubscribe => go (UTest RReturn)
                 | CDisconnect => go (if o_disconnecting s then UIdle else UDisc)      (* 597 *)
                 end
               end
    | USub p => go s (if o_subscribed s then UTest (RListen p) else UListen p)         (* 469-471 *)
    | UTest r => go s (if o_connected s then USet r else after_unsubscribe r)          (* 574-576 *)
    | USet r => go (with_flag s true) (UClose r)                                       (* 580 *)
    | UClose r => go (with_chan s (close_field (chan_of s)) (o_field s) (o_threads s) (o_reader s)) (UNil r)   (* 582-586 *)
    | UNil r => go s (match o_reader s with Some _ => UJoin r | None => UBack r end)   (* 588 *)
    | UJoin r => match o_reader s with
                 | Some m => go s (if joined s m then UBack r else UWait m r)          (* 589 *)
                 | None => Some (crash s)
                 end
    | UWait m r => if joined s m then go s (UBack r) else None
    | UBack r => go (with_flag s false) (after_unsubscribe r)                          (* 592 *)
    | UListen p =>                                                                     (* 519-523 *)
        if ok then
          if port_free (chan_of s) p then
            go (with_chan s (o_socks s ++ [mkSock true p]) (Some (Real (length (o_socks s)))) (o_threads s) (o_reader s)) UStart
          else None
        else go (with_chan s (o_socks s) (Some Nil) (o_threads s) (o_reader s)) UIdle
    | UStart => go (with_chan s (o_socks s) (o_field s) (o_threads s ++ [TNew]) (Some (length (o_threads s)))) UIdle  (* 525-526 *)
    | UDisc => go s (if o_disconnecting s then UIdle else UFlags)                      (* 610-624 *)
    | UFlags =>                                                                        (* 627-635 *)
        go (OState (o_socks s) (o_field s) (o_threads s) (o_reader s) false false true (o_lock s) (o_users s) (o_discs s) (o_crashed s)) USpawn
    | USpawn => go (with_discs s (o_lock s) (o_discs s ++ [DLock])) UIdle              (* 637-644 *)
    end
  end.

(** The next step of disconnect thread [k] *)
Definition disc_step (s : ost) (k : nat) : option ost :=
  match nth_error (o_discs s) k with
  | None => None
  | Some pc =>
    let go s p := Some (with_discs s (o_lock s) (ChannelModel.set_nth (o_discs s) k p)) in
    match pc with
    | DLock => match o_lock s with                                                     (* 656 *)
               | None => Some (with_discs s (Some k) (ChannelModel.set_nth (o_discs s) k DClose))
               | Some _ => None
               end
    | DClose => go (with_chan s (close_field (chan_of s)) (o_field s) (o_threads s) (o_reader s)) DNil   (* 672-676 *)
    | DNil => go s (match o_reader s with Some _ => DJoin | None => DUnSet end)        (* 689 *)
    | DJoin => match o_reader s with                                                   (* 690 *)
               | Some m => go s (if joined s m then DForget else DWait m)
               | None => Some (crash s)
               end
    | DWait m => if joined s m then go s DForget else None
    | DForget => go (with_chan s (o_socks s) (o_field s) (o_threads s) None) DUnSet    (* 691 *)
    | DUnSet => go (with_flag s false) DUnlock                                         (* 705 *)
    | DUnlock => Some (with_discs s None (ChannelModel.set_nth (o_discs s) k DEnd))    (* 720 *)
    | DEnd => None
    end
  end.

(** The next step of data goroutine [k] (879-898), as in ChannelModel *)
Definition data_step (s : ost) (k : nat) : option ost :=
  let go t := Some (with_chan s (o_socks s) (o_field s) (ChannelModel.set_nth (o_threads s) k t) (o_reader s)) in
  match nth_error (o_threads s) k with
  | Some TNew => go (if o_connected s then match o_field s with Some c => TRead c | None => TDone end else TDone)
  | Some (TRead c) => if read_fails (chan_of s) c then go TDone else None
  | Some (TBusy c) => go (if o_connected s then TRead c else TDone)
  | _ => None
  end.

(** A schedule *)
Inductive oact : Type :=
| OUser (k : nat) (ok : bool)   (* a goroutine of the application goes on *)
| ODisc (k : nat)               (* a disconnect thread goes on *)
| OData (k : nat)               (* a data goroutine goes on *)
| ODatagram (k : nat)           (* a datagram reaches data goroutine k *)
| OAnswer (b : bool)            (* the publisher answers Subscribe or Unsubscribe (DS 951-956) *)
| OConnect.                     (* a connection is made (DS 383-427), with no disconnection under way *)
Definition oact_step (s : ost) (a : oact) : option ost :=
  if o_crashed s then None else
  match a with
  | OUser k ok => user_step s k ok
  | ODisc k => disc_step s k
  | OData k => data_step s k
  | ODatagram k =>
      match nth_error (o_threads s) k with
      | Some (TRead c) => if read_fails (chan_of s) c then None
                          else Some (with_chan s (o_socks s) (o_field s) (ChannelModel.set_nth (o_threads s) k (TBusy c)) (o_reader s))
      | _ => None
      end
  | OAnswer b =>
      if o_connected s then
        Some (OState (o_socks s) (o_field s) (o_threads s) (o_reader s) true b (o_disconnecting s) (o_lock s) (o_users s) (o_discs s) (o_crashed s))
      else None
  | OConnect =>
      if o_connected s || o_disconnecting s then None else
      match o_lock s with
      | Some _ => None
      | None => Some (OState (o_socks s) (o_field s) (o_threads s) (o_reader s) true false false None (o_users s) (o_discs s) (o_crashed s))
      end
  end.
Fixpoint orun (s : ost) (l : list oact) : option ost :=
  match l with [] => Some s | a :: r => match oact_step s a with Some s' => orun s' r | None => None end end.

(** A connected and subscribed subscriber whose data channel on [port] is open and read,
    and goroutines that will make the [calls] *)
Definition subscribed_on (port : Z) (calls : list (list api)) : ost :=
  OState [mkSock true port] (Some (Real 0)) [TNew] (Some 0%nat) true true false None (map (User UIdle) calls) [] false.
(** A connected subscriber without data channel *)
Definition connected_with (calls : list (list api)) : ost :=
  OState [] None [] None true false false None (map (User UIdle) calls) [] false.
