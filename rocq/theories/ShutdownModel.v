(** How connections end: a small-step model of the goroutines around
    DataSubscriber.connect, Disconnect, disconnect, runDisconnectThread,
    runCommandChannelResponseThread and the connection termination thread of
    /repo/sttp/transport/DataSubscriber.go (DS), with the Thread methods they use
    (/repo/sttp/thread/Thread.go, T).

    As in ConcModel a schedule chooses who takes the next step, and a step is one
    access to shared state, or a few of which no other goroutine can tell the order.

    Simplifications.  Connections are dialled, not accepted, and there is no data
    channel.  AutoReconnect is off, so Cancel (SubscriberConnector.go:245-262) does
    not block and the reconnect callback is empty.  Messages of the publisher are
    left out: reading blocks until the socket is closed at either side.  Reporting
    messages and callbacks do not block (see C41). *)
From Coq Require Import Arith.
From Verif Require Import Base ConcModel.

(** What the goroutines of the user call *)
Inductive uop : Type := OConnect | ODisconnect.

(** Control points of disconnect (DS 608-649), for whoever calls it *)
Inductive dpc : Type :=
| DTest           (* before the test of disconnecting (610) *)
| DSet            (* before disconnecting.Set (627) *)
| DUnSet          (* before connected.UnSet (628) *)
| DStart.         (* before the disconnect thread is started and recorded (641-644) *)
(** Control points of a goroutine of the user *)
Inductive upc : Type :=
| UIdle           (* between calls *)
| UDisc (p : dpc) (* in Disconnect, which passed its own test (597) *)
| UJoin           (* in connect, after the tests of 327-333, before Join (336-342) *)
| UWait (i : nat) (* Join saw thread [i] running, before mutex.Lock (T 80) *)
| ULock           (* before connectActionMutex.Lock (346) *)
| USetup          (* before setupConnection (352), Dial and the new socket (361-403) *)
| UConn           (* before connected.Set and the start of the reader (404-409) *)
| UNotify.        (* before the callback (416) and connectActionMutex.Unlock (347) *)
(** Control points of the command channel response thread (DS 801-818, T 45-96) *)
Inductive rdpc : Type :=
| RdNew           (* before running.Set (T 94) *)
| RdLoop          (* before the test of connected (804) *)
| RdRead          (* in io.ReadFull (805) *)
| RdErr           (* the read failed; before the test of disconnecting (810) *)
| RdTry           (* before the test of running in TryStart (T 66, DS 816) *)
| RdStart         (* before the test of running in Start (T 50) *)
| RdLock          (* before mutex.Lock in Start (T 54) *)
| RdSpawn         (* before go run (T 55) *)
| RdUnlock        (* the function returned; before mutex.Unlock (T 92) *)
| RdUnSet         (* before running.UnSet (T 91) *)
| RdEnd.
(** Control points of a run of the connection termination thread (DS 197-199) *)
Inductive tmpc : Type :=
| TmNew           (* before running.Set *)
| TmDisc (p : dpc)
| TmUnlock        (* before mutex.Unlock *)
| TmUnSet         (* before running.UnSet *)
| TmEnd.
(** Control points of a disconnect thread (DS 651-722) *)
Inductive xpc : Type :=
| XNew            (* before running.Set *)
| XTerm           (* before the test of running in Join (655) *)
| XTermWait       (* before mutex.Lock in Join *)
| XLock           (* before connectActionMutex.Lock (656) *)
| XClose          (* before commandChannelSocket.Close (667) *)
| XTest           (* before the test of the reader's thread for nil (684) *)
| XJoin           (* before the field is read again for Join (685) *)
| XWait (i : nat) (* before mutex.Lock in Join *)
| XNil            (* before the field is set to nil (686) *)
| XNotify         (* before the callback (698) *)
| XDone           (* before disconnected.Set and disconnecting.UnSet (704-705) *)
| XRelease        (* before connectActionMutex.Unlock (720) *)
| XUnlock         (* before mutex.Unlock (T 92) *)
| XUnSet          (* before running.UnSet (T 91) *)
| XEnd.

Inductive sgor : Type :=
| User (pc : upc) (todo : list uop)
| Reader (conn : nat) (pc : rdpc)
| Term (pc : tmpc)
| Disc (auto : bool) (pc : xpc).

(** Observable: a connection was established; the terminated callback was called *)
Inductive sev : Type := EEstablished (conn : nat) | ETerminated.

Record sst : Type := SState {
  connected : bool;
  disconnecting : bool;
  disconnected : bool;
  trunning : bool;          (* running of the termination thread *)
  theld : bool;             (* its mutex *)
  action : bool;            (* connectActionMutex *)
  conns : nat;              (* connections so far; the socket is the latest *)
  cmd : option nat;         (* commandChannelResponseThread: the goroutine *)
  dthread : option nat;     (* disconnectThread: the goroutine *)
  closed : list nat;        (* connections closed by the subscriber *)
  gone : list nat;          (* connections closed by the publisher *)
  crashed : bool;           (* a nil pointer was used *)
  sgors : list sgor;
  slog : list sev           (* newest first *)
}.
Definition has (n : nat) (l : list nat) : bool := existsb (Nat.eqb n) l.

(** T 33-37: running and mutex of the thread that goroutine [i] runs *)
Definition is_running (s : sst) (i : nat) : bool :=
  match nth_error (sgors s) i with
  | Some (Reader _ (RdNew | RdEnd)) | Some (Disc _ (XNew | XEnd)) => false
  | Some (Reader _ _) | Some (Disc _ _) => true
  | _ => false
  end.
Definition is_held (s : sst) (i : nat) : bool :=
  match nth_error (sgors s) i with
  | Some (Reader _ (RdUnSet | RdEnd)) | Some (Disc _ (XUnSet | XEnd)) => false
  | Some (Reader _ _) | Some (Disc _ _) => true
  | _ => false
  end.

Definition with_gors (s : sst) (l : list sgor) : sst :=
  let '(SState a b c d e f g h i j k x _ m) := s in SState a b c d e f g h i j k x l m.
Definition goes (s : sst) (i : nat) (g : sgor) : sst := with_gors s (set_nth (sgors s) i g).
Definition with_flags (s : sst) (cn dg dd : bool) : sst :=
  let '(SState _ _ _ d e f g h i j k x l m) := s in SState cn dg dd d e f g h i j k x l m.
Definition with_term (s : sst) (r h : bool) : sst :=
  let '(SState a b c _ _ f g h' i j k x l m) := s in SState a b c r h f g h' i j k x l m.
Definition with_action (s : sst) (b : bool) : sst :=
  let '(SState a b' c d e _ g h i j k x l m) := s in SState a b' c d e b g h i j k x l m.
Definition with_conns (s : sst) (n : nat) : sst :=
  let '(SState a b c d e f _ h i j k x l m) := s in SState a b c d e f n h i j k x l m.
Definition with_cmd (s : sst) (t : option nat) : sst :=
  let '(SState a b c d e f g _ i j k x l m) := s in SState a b c d e f g t i j k x l m.
Definition with_dthread (s : sst) (t : option nat) : sst :=
  let '(SState a b c d e f g h _ j k x l m) := s in SState a b c d e f g h t j k x l m.
Definition with_closed (s : sst) (n : nat) : sst :=
  let '(SState a b c d e f g h i j k x l m) := s in SState a b c d e f g h i (n :: j) k x l m.
Definition with_gone (s : sst) (n : nat) : sst :=
  let '(SState a b c d e f g h i j k x l m) := s in SState a b c d e f g h i j (n :: k) x l m.
Definition with_crash (s : sst) : sst :=
  let '(SState a b c d e f g h i j k _ l m) := s in SState a b c d e f g h i j k true l m.
Definition says (s : sst) (e : sev) : sst :=
  let '(SState a b c d e' f g h i j k x l m) := s in SState a b c d e' f g h i j k x l (e :: m).
Definition spawn (s : sst) (g : sgor) : sst := with_gors s (sgors s ++ [g]).

(** DS 608-649 disconnect without joining, on behalf of goroutine [i]; [k p] is that
    goroutine at control point [p] of it and [ret] when it has returned. *)
Definition disconnect_step (s : sst) (i : nat) (auto : bool) (k : dpc -> sgor) (ret : sgor) (p : dpc) : sst :=
  match p with
  | DTest => goes s i (if disconnecting s then ret else k DSet)
  | DSet => goes (with_flags s (connected s) true (disconnected s)) i (k DUnSet)
  | DUnSet => goes (with_flags s false (disconnecting s) (disconnected s)) i (k DStart)
  | DStart => let s := spawn (goes s i ret) (Disc auto XNew) in with_dthread s (Some (pred (length (sgors s))))
  end.

(** The next step of goroutine [i] *)
Definition sstep (s : sst) (i : nat) : option sst :=
  if crashed s then None else
  match nth_error (sgors s) i with
  | None => None
  | Some (User pc todo) =>
    let at_ p := Some (goes s i (User p todo)) in
    match pc with
    | UIdle =>
      match todo with
      | [] => None
      | ODisconnect :: r => (* DS 596-605 *) Some (goes s i (User (if disconnecting s then UIdle else UDisc DTest) r))
      | OConnect :: r => (* DS 326-333 *) Some (goes s i (User (if connected s then UIdle else UJoin) r))
      end
    | UDisc p => Some (disconnect_step s i false (fun p => User (UDisc p) todo) (User UIdle todo) p)
    | UJoin => match dthread s with Some t => at_ (if is_running s t then UWait t else ULock) | None => at_ ULock end
    | UWait t => if is_held s t then None else at_ ULock
    | ULock => if action s then None else Some (goes (with_action s true) i (User USetup todo))
    | USetup => Some (goes (with_conns (with_flags s (connected s) (disconnecting s) false) (S (conns s))) i (User UConn todo))
    | UConn =>
      let s := spawn (goes (with_flags s true (disconnecting s) (disconnected s)) i (User UNotify todo)) (Reader (conns s) RdNew) in
      Some (with_cmd s (Some (pred (length (sgors s)))))
    | UNotify => Some (goes (says (with_action s false) (EEstablished (conns s))) i (User UIdle todo))
    end
  | Some (Reader c pc) =>
    let at_ p := Some (goes s i (Reader c p)) in
    match pc with
    | RdNew => at_ RdLoop
    | RdLoop => at_ (if connected s then RdRead else RdUnlock)
    | RdRead => if has c (closed s) || has c (gone s) then at_ RdErr else None
    | RdErr => at_ (if disconnecting s then RdLoop else RdTry)
    | RdTry => at_ (if trunning s then RdLoop else RdStart)
    | RdStart => at_ (if trunning s then RdLoop else RdLock)   (* TryStart recovers from the panic of Start *)
    | RdLock => if theld s then None else Some (goes (with_term s (trunning s) true) i (Reader c RdSpawn))
    | RdSpawn => Some (spawn (goes s i (Reader c RdLoop)) (Term TmNew))
    | RdUnlock => at_ RdUnSet
    | RdUnSet => at_ RdEnd
    | RdEnd => None
    end
  | Some (Term pc) =>
    match pc with
    | TmNew => Some (goes (with_term s true (theld s)) i (Term (TmDisc DTest)))
    | TmDisc p => Some (disconnect_step s i true (fun p => Term (TmDisc p)) (Term TmUnlock) p)
    | TmUnlock => Some (goes (with_term s (trunning s) false) i (Term TmUnSet))
    | TmUnSet => Some (goes (with_term s false (theld s)) i (Term TmEnd))
    | TmEnd => None
    end
  | Some (Disc auto pc) =>
    let at_ p := Some (goes s i (Disc auto p)) in
    match pc with
    | XNew => at_ (if auto then XClose else XTerm)
    | XTerm => at_ (if trunning s then XTermWait else XLock)
    | XTermWait => if theld s then None else at_ XLock
    | XLock => if action s then None else Some (goes (with_action s true) i (Disc auto XClose))
    | XClose => Some (goes (with_closed s (conns s)) i (Disc auto XTest))
    | XTest => at_ (match cmd s with Some _ => XJoin | None => XNotify end)
    | XJoin => match cmd s with Some t => at_ (if is_running s t then XWait t else XNil) | None => Some (with_crash s) end
    | XWait t => if is_held s t then None else at_ XNil
    | XNil => Some (goes (with_cmd s None) i (Disc auto XNotify))
    | XNotify => Some (goes (says s ETerminated) i (Disc auto XDone))
    | XDone => Some (goes (with_flags s (connected s) false true) i (Disc auto (if auto then XUnlock else XRelease)))
    | XRelease => Some (goes (with_action s false) i (Disc auto XUnlock))
    | XUnlock => at_ XUnSet
    | XUnSet => at_ XEnd
    | XEnd => None
    end
  end.

(** A schedule: steps of goroutines, and the publisher closing a connection *)
Inductive sact : Type := Go (i : nat) | Closes (conn : nat).
Definition sact_step (s : sst) (a : sact) : option sst :=
  match a with
  | Go i => sstep s i
  | Closes c => if (1 <=? c)%nat && (c <=? conns s)%nat && negb (has c (gone s)) then Some (with_gone s c) else None
  end.
Fixpoint srun (s : sst) (sched : list sact) : sst :=
  match sched with [] => s | a :: r => srun (match sact_step s a with Some s' => s' | None => s end) r end.

(** A new subscriber, with goroutines that make these calls *)
Definition sinit (calls : list (list uop)) : sst :=
  SState false false false false false false 0 None None [] [] false (map (User UIdle) calls) [].
(** A connected subscriber: goroutine 0 is the reader of connection 1. *)
Definition sconnected (calls : list (list uop)) : sst :=
  SState true false false false false false 1 (Some 0%nat) None [] [] false (Reader 1 RdNew :: map (User UIdle) calls) [EEstablished 1].
