(** Automatic reconnection: a small-step model of the goroutines around
    DataSubscriber.autoReconnect, waitForRetry, SubscriberConnector.connect and Cancel
    (/repo/sttp/transport/SubscriberConnector.go, SC), the ends of connections
    (/repo/sttp/transport/DataSubscriber.go, DS), the Thread methods they use
    (/repo/sttp/thread/Thread.go, T) and Subscriber.handleReconnect
    (/repo/sttp/Subscriber.go, SB).

    As in ConcModel and ShutdownModel a schedule chooses who takes the next step, and a
    step is one access to shared state, or a few of which no other goroutine can tell
    the order.  AutoReconnect is on, retries are not limited (MaxRetries -1) and wait
    (RetryInterval above 0).

    Simplifications.  Connections are dialled, there is no data channel, the publisher
    sends nothing and refuses no operational modes (connectionRefused stays unset), and
    writing does not fail: a lost connection is noticed by reading.  The callbacks of
    the application return.  Time is left out: a timer may fire at any moment until it
    is stopped.  Goroutines that have ended make room for new ones, and references to
    their threads become [Ended]: joining them returns at once. *)
From Coq Require Import Arith ZArith.
From Verif Require Import Base.
#[local] Open Scope nat_scope.

(** A thread that was started: running in a slot of the list of goroutines, or ended *)
Inductive tref : Type := Ended | Slot (i : nat).
(** The connection that a goroutine reads, or that the field reader is made for: the one
    in the field commandChannelSocket, or an older one, which is open or not *)
Inductive conn : Type := Cur | Old | Down.

(** Control points of Cancel (SC 245-262) *)
Inductive cpc : Type :=
| CSet             (* before cancel.Set (246) *)
| CStop            (* before the timer is read and stopped (248-254) *)
| CJoin            (* before the test of running in Join (256-261) *)
| CWait (t : tref). (* before mutex.Lock in Join *)
(** Control points of disconnect (DS 608-649), for whoever calls it *)
Inductive dpc : Type :=
| DTest            (* before the test of disconnecting (610) *)
| DSet             (* before disconnecting.Set (627) *)
| DUnSet           (* before connected.UnSet (628) *)
| DStart           (* before the disconnect thread is started and recorded (641-644) *)
| DCancel (p : cpc). (* in Cancel (612) *)
(** Control points of the command channel response thread (DS 801-818, T 45-96) *)
Inductive rdpc : Type :=
| RdNew            (* before running.Set and the new reader (802) *)
| RdLoop           (* before the test of connected (804) *)
| RdRead (c : conn) (* in io.ReadFull (805) *)
| RdErr            (* the read failed; before the test of disconnecting (810) *)
| RdTry            (* before the test of running in TryStart (T 66, DS 816) *)
| RdStart          (* before the test of running in Start (T 50) *)
| RdLock           (* before mutex.Lock in Start (T 54) *)
| RdSpawn          (* before go run (T 55) *)
| RdEnd.           (* the function returned *)
(** Control points of a run of the connection termination thread (DS 197-199) *)
Inductive tmpc : Type :=
| TmNew            (* before running.Set *)
| TmDisc (p : dpc)
| TmUnlock         (* before mutex.Unlock *)
| TmUnSet.         (* before running.UnSet *)
(** Control points of a disconnect thread (DS 651-722) *)
Inductive xpc : Type :=
| XNew             (* before running.Set *)
| XCancel (p : cpc) (* in Cancel (654) *)
| XTerm            (* before the test of running in Join (655) *)
| XTermWait        (* before mutex.Lock in Join *)
| XLock            (* before connectActionMutex.Lock (656) *)
| XClose           (* before commandChannelSocket.Close (667) *)
| XTest            (* before the test of the reader's thread for nil (684) *)
| XJoin            (* before the field is read again for Join (685) *)
| XWait (t : tref) (* before mutex.Lock in Join *)
| XNil             (* before the field is set to nil (686) *)
| XNotify          (* before the callback (695-701) *)
| XDone            (* before disconnected.Set and disconnecting.UnSet (704-705) *)
| XSync            (* before BeginCallbackSync (711) *)
| XCalled          (* in autoReconnect, before the test of cancel (SC 82) *)
| XAgain           (* before the test of running in Join (SC 86-93) *)
| XAgainWait (t : tref) (* before mutex.Lock in Join *)
| XStart           (* before the reconnect thread is recorded and started (SC 126-130) *)
| XReturn          (* before EndCallbackSync (717) *)
| XRelease         (* before connectActionMutex.Unlock (720) *)
| XEnd.            (* the function returned *)
(** Control points of a reconnect thread (SC 95-124, connect 198-241, DS 326-420) *)
Inductive rcpc : Type :=
| RcNew            (* before running.Set *)
| RcReset          (* before ResetConnection (SC 98) *)
| RcTimer          (* before the timer is made and recorded (SC 180-184) *)
| RcSleep          (* waiting for it (SC 186) *)
| RcStuck          (* waiting for it, stopped *)
| RcTest           (* before the test of cancel (SC 108) *)
| RcAssign         (* before BeginCallbackAssignment (SC 200) *)
| RcAssigning      (* waiting in it *)
| RcUnCancel       (* before cancel.UnSet (SC 205) *)
| RcConnect        (* before the test of connected (DS 327) *)
| RcJoin           (* before Join of the disconnect thread (DS 336-342) *)
| RcWait (t : tref) (* before mutex.Lock in Join *)
| RcLock           (* before connectActionMutex.Lock (DS 346) *)
| RcDial           (* before setupConnection (DS 352), Dial and the new socket (361-401) *)
| RcUp             (* before the reader's thread is made (404) *)
| RcSet            (* before connected.Set (406) *)
| RcStart          (* before the field is read again to start the thread (409) *)
| RcNotify         (* before the callback (413-419) and connectActionMutex.Unlock (347) *)
| RcRetry          (* Dial failed; before the timer is made and recorded (SC 227) *)
| RcRetrySleep     (* waiting for it *)
| RcRetryTest      (* before the test of cancel (SC 229) *)
| RcCallback       (* before the test of cancel and the callback (SC 119-121) *)
| RcDisc (p : dpc) (* in Disconnect, called by handleReconnect (SB 512) *)
| RcEnd.           (* the function returned *)
(** A goroutine of the application: between calls, or in Disconnect *)
Inductive upc : Type := UIdle | UDisc (p : dpc).

Inductive gor : Type :=
| Free
| User (pc : upc)
| Reader (pc : rdpc)
| Term (pc : tmpc)
| Disc (auto : bool) (pc : xpc)
| Recon (pc : rcpc).

(** Observable: a connection was established; the terminated callback was called; an
    open connection was dropped for a new one *)
Inductive ev : Type := EEstablished | ETerminated | EDropped.
(** The connection in use, as seen from here *)
Inductive sock : Type := Open | Gone | Closed.

Record st : Type := St {
  handler : bool;           (* the callback after reconnecting is handleReconnect *)
  connected : bool;
  disconnecting : bool;
  disconnected : bool;
  cancel : bool;
  trunning : bool;          (* running of the termination thread *)
  theld : bool;             (* its mutex *)
  action : bool;            (* connectActionMutex *)
  assigning : bool;         (* a goroutine waits for the callback mutex in order to assign *)
  socket : sock;
  reader : conn;            (* the connection of the field reader *)
  cmd : option tref;        (* commandChannelResponseThread *)
  dthread : option tref;    (* disconnectThread *)
  rthread : option tref;    (* reconnectThread *)
  timer : option tref;      (* waitTimer: the goroutine that waits for it *)
  crashed : bool;           (* a nil pointer was used *)
  gors : list gor
}.

(** T 33-37: running and mutex of a thread *)
Definition is_running (s : st) (t : tref) : bool :=
  match t with
  | Ended => false
  | Slot i => match nth_error (gors s) i with
              | Some (Reader RdNew) | Some (Disc _ XNew) | Some (Recon RcNew) => false
              | Some (Reader _) | Some (Disc _ _) | Some (Recon _) => true
              | _ => false
              end
  end.
Definition is_held (s : st) (t : tref) : bool :=
  match t with
  | Ended => false
  | Slot i => match nth_error (gors s) i with Some (Reader _) | Some (Disc _ _) | Some (Recon _) => true | _ => false end
  end.
Definition runs (s : st) (t : option tref) : option tref :=
  match t with Some t => if is_running s t then Some t else None | None => None end.
(** The callback mutex is held for reading while autoReconnect is called (DS 711-717). *)
Definition calling (g : gor) : bool :=
  match g with Disc _ (XCalled | XAgain | XAgainWait _ | XStart | XReturn) => true | _ => false end.
Definition callbacks (s : st) : bool := existsb calling (gors s).

Definition with_gors (s : st) (l : list gor) : st :=
  let '(St a b c d e f g h i j k m n o p q _) := s in St a b c d e f g h i j k m n o p q l.
Definition put (l : list gor) (i : nat) (g : gor) : list gor := firstn i l ++ g :: skipn (S i) l.
Definition goes (s : st) (i : nat) (g : gor) : st := with_gors s (put (gors s) i g).
Definition with_flags (s : st) (cn dg dd : bool) : st :=
  let '(St a _ _ _ e f g h i j k m n o p q r) := s in St a cn dg dd e f g h i j k m n o p q r.
Definition with_cancel (s : st) (x : bool) : st :=
  let '(St a b c d _ f g h i j k m n o p q r) := s in St a b c d x f g h i j k m n o p q r.
Definition with_term (s : st) (x y : bool) : st :=
  let '(St a b c d e _ _ h i j k m n o p q r) := s in St a b c d e x y h i j k m n o p q r.
Definition with_action (s : st) (x : bool) : st :=
  let '(St a b c d e f g _ i j k m n o p q r) := s in St a b c d e f g x i j k m n o p q r.
Definition with_assigning (s : st) (x : bool) : st :=
  let '(St a b c d e f g h _ j k m n o p q r) := s in St a b c d e f g h x j k m n o p q r.
Definition with_socket (s : st) (x : sock) : st :=
  let '(St a b c d e f g h i _ k m n o p q r) := s in St a b c d e f g h i x k m n o p q r.
Definition with_reader (s : st) (x : conn) : st :=
  let '(St a b c d e f g h i j _ m n o p q r) := s in St a b c d e f g h i j x m n o p q r.
Definition with_cmd (s : st) (x : option tref) : st :=
  let '(St a b c d e f g h i j k _ n o p q r) := s in St a b c d e f g h i j k x n o p q r.
Definition with_dthread (s : st) (x : option tref) : st :=
  let '(St a b c d e f g h i j k m _ o p q r) := s in St a b c d e f g h i j k m x o p q r.
Definition with_rthread (s : st) (x : option tref) : st :=
  let '(St a b c d e f g h i j k m n _ p q r) := s in St a b c d e f g h i j k m n x p q r.
Definition with_timer (s : st) (x : option tref) : st :=
  let '(St a b c d e f g h i j k m n o _ q r) := s in St a b c d e f g h i j k m n o x q r.
Definition with_crash (s : st) : st :=
  let '(St a b c d e f g h i j k m n o p _ r) := s in St a b c d e f g h i j k m n o p true r.

(** A new goroutine takes the first free slot; which one that is *)
Fixpoint free_slot (l : list gor) : nat := match l with Free :: _ | [] => 0 | _ :: r => S (free_slot r) end.
Definition spawn (s : st) (g : gor) : st * tref := let i := free_slot (gors s) in (goes s i g, Slot i).
(** Goroutine [i] has ended. *)
Definition forget (i : nat) (t : tref) : tref := match t with Slot j => if j =? i then Ended else t | Ended => Ended end.
Definition forget_cpc (i : nat) (p : cpc) : cpc := match p with CWait t => CWait (forget i t) | _ => p end.
Definition forget_dpc (i : nat) (p : dpc) : dpc := match p with DCancel p => DCancel (forget_cpc i p) | _ => p end.
Definition forget_gor (i : nat) (g : gor) : gor :=
  match g with
  | User (UDisc p) => User (UDisc (forget_dpc i p))
  | Term (TmDisc p) => Term (TmDisc (forget_dpc i p))
  | Disc a (XCancel p) => Disc a (XCancel (forget_cpc i p))
  | Disc a (XWait t) => Disc a (XWait (forget i t))
  | Disc a (XAgainWait t) => Disc a (XAgainWait (forget i t))
  | Recon (RcWait t) => Recon (RcWait (forget i t))
  | Recon (RcDisc p) => Recon (RcDisc (forget_dpc i p))
  | _ => g
  end.
Fixpoint trim (l : list gor) : list gor :=
  match l with [] => [] | g :: r => match g, trim r with Free, [] => [] | _, r => g :: r end end.
Definition ends (s : st) (i : nat) : st :=
  let s := goes s i Free in
  let s := with_gors s (trim (map (forget_gor i) (gors s))) in
  let f := option_map (forget i) in
  with_timer (with_rthread (with_dthread (with_cmd s (f (cmd s))) (f (dthread s))) (f (rthread s))) (f (timer s)).

(** SC 245-262 Cancel on behalf of goroutine [i]; [k p] is that goroutine at control
    point [p] of it and [ret] when it has returned. *)
Definition stop_timer (s : st) : st :=
  match timer s with
  | Some (Slot t) => match nth_error (gors s) t with
                     | Some (Recon (RcSleep | RcRetrySleep)) => goes s t (Recon RcStuck)
                     | _ => s
                     end
  | _ => s
  end.
Definition cancel_step (s : st) (i : nat) (k : cpc -> gor) (ret : gor) (p : cpc) : option st :=
  match p with
  | CSet => Some (goes (with_cancel s true) i (k CStop))
  | CStop => Some (goes (stop_timer s) i (k CJoin))
  | CJoin => Some (goes s i (match runs s (rthread s) with Some t => k (CWait t) | None => ret end))
  | CWait t => if is_held s t then None else Some (goes s i ret)
  end.
(** DS 608-649 disconnect without joining *)
Definition disconnect_step (s : st) (i : nat) (auto : bool) (k : dpc -> gor) (ret : gor) (p : dpc) : option st :=
  match p with
  | DTest => Some (goes s i (if disconnecting s then if negb auto && negb (disconnected s) then k (DCancel CSet) else ret else k DSet))
  | DSet => Some (goes (with_flags s (connected s) true (disconnected s)) i (k DUnSet))
  | DUnSet => Some (goes (with_flags s false (disconnecting s) (disconnected s)) i (k DStart))
  | DStart => let '(s, t) := spawn (goes s i ret) (Disc auto XNew) in Some (with_dthread s (Some t))
  | DCancel p => cancel_step s i (fun p => k (DCancel p)) ret p
  end.
(** DS 361-401: the socket of a new connection takes the place of the old one. *)
Definition older (s : sock) (c : conn) : conn := match c with Cur => match s with Open => Old | _ => Down end | _ => c end.
Definition new_socket (s : st) : st :=
  let f g := match g with Reader (RdRead c) => Reader (RdRead (older (socket s) c)) | _ => g end in
  with_socket (with_reader (with_gors s (map f (gors s))) (older (socket s) (reader s))) Open.

(** The next step of goroutine [i]; [dial]: whether the publisher accepts if it dials *)
Definition step (s : st) (i : nat) (dial : bool) : option (st * option ev) :=
  if crashed s then None else
  let quiet o := match o with Some s => Some (s, None) | None => None end in
  match nth_error (gors s) i with
  | None | Some Free | Some (User UIdle) => None
  | Some (User (UDisc p)) => quiet (disconnect_step s i false (fun p => User (UDisc p)) (User UIdle) p)
  | Some (Reader pc) =>
    let at_ p := Some (goes s i (Reader p), None) in
    match pc with
    | RdNew => Some (goes (with_reader s Cur) i (Reader RdLoop), None)
    | RdLoop => at_ (if connected s then RdRead (reader s) else RdEnd)
    | RdRead Cur => match socket s with Open => None | _ => at_ RdErr end
    | RdRead Old => None
    | RdRead Down => at_ RdErr
    | RdErr => at_ (if disconnecting s then RdLoop else RdTry)
    | RdTry => at_ (if trunning s then RdLoop else RdStart)
    | RdStart => at_ (if trunning s then RdLoop else RdLock)   (* TryStart recovers from the panic of Start *)
    | RdLock => if theld s then None else Some (goes (with_term s (trunning s) true) i (Reader RdSpawn), None)
    | RdSpawn => Some (fst (spawn (goes s i (Reader RdLoop)) (Term TmNew)), None)
    | RdEnd => Some (ends s i, None)
    end
  | Some (Term pc) =>
    match pc with
    | TmNew => Some (goes (with_term s true (theld s)) i (Term (TmDisc DTest)), None)
    | TmDisc p => quiet (disconnect_step s i true (fun p => Term (TmDisc p)) (Term TmUnlock) p)
    | TmUnlock => Some (goes (with_term s (trunning s) false) i (Term TmUnSet), None)
    | TmUnSet => Some (ends (with_term s false (theld s)) i, None)
    end
  | Some (Disc auto pc) =>
    let at_ p := Some (goes s i (Disc auto p), None) in
    match pc with
    | XNew => at_ (if auto then XClose else XCancel CSet)
    | XCancel p => quiet (cancel_step s i (fun p => Disc auto (XCancel p)) (Disc auto XTerm) p)
    | XTerm => at_ (if trunning s then XTermWait else XLock)
    | XTermWait => if theld s then None else at_ XLock
    | XLock => if action s then None else Some (goes (with_action s true) i (Disc auto XClose), None)
    | XClose => (* closing again is reported, which needs the callback mutex *)
      match socket s with
      | Closed => if assigning s then None else at_ XTest
      | _ => Some (goes (with_socket s Closed) i (Disc auto XTest), None)
      end
    | XTest => at_ (match cmd s with Some _ => XJoin | None => XNotify end)
    | XJoin => match cmd s with Some t => at_ (if is_running s t then XWait t else XNil) | None => Some (with_crash s, None) end
    | XWait t => if is_held s t then None else at_ XNil
    | XNil => Some (goes (with_cmd s None) i (Disc auto XNotify), None)
    | XNotify => if assigning s then None else Some (goes s i (Disc auto XDone), Some ETerminated)
    | XDone => Some (goes (with_flags s (connected s) false true) i (Disc auto (if auto then XSync else XRelease)), None)
    | XSync => if assigning s then None else at_ XCalled
    | XCalled => at_ (if cancel s then XReturn else XAgain)
    | XAgain => at_ (match runs s (rthread s) with Some t => XAgainWait t | None => XStart end)
    | XAgainWait t => if is_held s t then None else at_ XStart
    | XStart => let '(s, t) := spawn (goes s i (Disc auto XReturn)) (Recon RcNew) in Some (with_rthread s (Some t), None)
    | XReturn => at_ XEnd
    | XRelease => Some (goes (with_action s false) i (Disc auto XEnd), None)
    | XEnd => Some (ends s i, None)
    end
  | Some (Recon pc) =>
    let at_ p := Some (goes s i (Recon p), None) in
    match pc with
    | RcNew => at_ RcReset
    | RcReset => Some (goes (with_cancel s false) i (Recon RcTimer), None)
    | RcTimer => Some (goes (with_timer s (Some (Slot i))) i (Recon RcSleep), None)
    | RcSleep => at_ RcTest
    | RcStuck => None
    | RcTest => at_ (if cancel s then RcEnd else RcAssign)
    | RcAssign => if assigning s then None else if callbacks s then Some (goes (with_assigning s true) i (Recon RcAssigning), None) else at_ RcUnCancel
    | RcAssigning => if callbacks s then None else Some (goes (with_assigning s false) i (Recon RcUnCancel), None)
    | RcUnCancel => Some (goes (with_cancel s false) i (Recon RcConnect), None)
    | RcConnect => at_ (if connected s then RcRetry else RcJoin)
    | RcJoin => at_ (match runs s (dthread s) with Some t => RcWait t | None => RcLock end)
    | RcWait t => if is_held s t then None else at_ RcLock
    | RcLock => if action s then None else Some (goes (with_action s true) i (Recon RcDial), None)
    | RcDial => let s' := with_flags s (connected s) (disconnecting s) false in
                if dial then Some (goes (new_socket s') i (Recon RcUp), match socket s with Open => Some EDropped | _ => None end)
                else Some (goes (with_action s' false) i (Recon RcRetry), None)
    | RcUp => (* a thread that was not started: joining it returns at once *)
              Some (goes (with_cmd s (Some Ended)) i (Recon RcSet), None)
    | RcSet => Some (goes (with_flags s true (disconnecting s) (disconnected s)) i (Recon RcStart), None)
    | RcStart => match cmd s with
                 | Some _ => let '(s, t) := spawn (goes s i (Recon RcNotify)) (Reader RdNew) in Some (with_cmd s (Some t), None)
                 | None => Some (with_crash s, None)
                 end
    | RcNotify => if assigning s then None else Some (goes (with_action s false) i (Recon RcCallback), Some EEstablished)
    | RcRetry => Some (goes (with_timer s (Some (Slot i))) i (Recon RcRetrySleep), None)
    | RcRetrySleep => at_ RcRetryTest
    | RcRetryTest => at_ (if cancel s then RcEnd else RcConnect)
    | RcCallback => at_ (if cancel s || negb (handler s) || connected s || disconnecting s then RcEnd else RcDisc DTest)
    | RcDisc p => quiet (disconnect_step s i false (fun p => Recon (RcDisc p)) (Recon RcEnd) p)
    | RcEnd => Some (ends s i, None)
    end
  end.

(** A schedule: steps of goroutines (if they dial, the publisher accepts or does not);
    the publisher closing the connection in use, or the older ones; a goroutine of the
    application calling Disconnect (DS 596-605) *)
Inductive act : Type := Go (i : nat) | Refused (i : nat) | Closes | ClosesOld | Calls (i : nat).
Definition dials (s : st) (i : nat) : bool := match nth_error (gors s) i with Some (Recon RcDial) => true | _ => false end.
Definition closed_old (s : st) : st :=
  let c x := match x with Old => Down | _ => x end in
  let f g := match g with Reader (RdRead x) => Reader (RdRead (c x)) | _ => g end in
  with_reader (with_gors s (map f (gors s))) (c (reader s)).
Definition act_step (s : st) (a : act) : option (st * option ev) :=
  match a with
  | Go i => step s i true
  | Refused i => if dials s i then step s i false else None
  | Closes => match socket s with Open => Some (with_socket s Gone, None) | _ => None end
  | ClosesOld => Some (closed_old s, None)
  | Calls i => match nth_error (gors s) i with
               | Some (User UIdle) => if disconnecting s then None else Some (goes s i (User (UDisc DTest)), None)
               | _ => None
               end
  end.
Definition logged (o : option ev) (log : list ev) : list ev := match o with Some e => e :: log | None => log end.
(** The log has the newest event first. *)
Fixpoint run (s : st) (log : list ev) (sched : list act) : st * list ev :=
  match sched with
  | [] => (s, log)
  | a :: r => match act_step s a with Some (s', o) => run s' (logged o log) r | None => run s log r end
  end.

(** A connected subscriber with [users] goroutines of the application, whose reader is
    about to start *)
Definition start (handler : bool) (users : nat) : st :=
  St handler true false false false false false false false Open Cur (Some (Slot 0)) None None None false (Reader RdNew :: repeat (User UIdle) users).
