(** Listening for publishers: a small-step model of the goroutines around
    DataSubscriber.Listen, its accept thread, the reader of the connection, the
    connection termination thread and the disconnect threads
    (/repo/sttp/transport/DataSubscriber.go, DS; /repo/sttp/thread/Thread.go, T).

    As in ReconnectModel a schedule chooses who takes the next step, and a step is one
    access to shared state, or a few of which no other goroutine can tell the order.

    Simplifications.  The subscriber has never dialled (connector.Cancel does nothing,
    AutoReconnectCallback is nil), there is no data channel, the publisher sends nothing
    and writing does not fail: a lost connection is noticed by reading.  Listen always
    uses the same port, which can be listened on unless it is already.  Callbacks return
    and nobody registers any, so the callback mutex is left out, and with it the error
    messages.  At most one publisher waits to be accepted.  Goroutines that have ended
    make room for new ones, and references to their threads become [Ended]: joining them
    returns at once. *)
From Coq Require Import Arith ZArith.
From Verif Require Import Base.
#[local] Open Scope nat_scope.

(** A thread that was made: running in a slot of the list of goroutines, or not *)
Inductive tref : Type := Ended | Slot (i : nat).
(** What a goroutine reads from or accepts on: the socket that is in the field, or an
    older one, which is open or not *)
Inductive held : Type := Cur | Old | Down.

(** Control points of disconnect (DS 608-649), for whoever calls it *)
Inductive dpc : Type :=
| DTest            (* before the test of disconnecting (610) *)
| DSet             (* before disconnecting.Set (627) *)
| DUnSet           (* before connected.UnSet (628) *)
| DListen          (* before listening.UnSet (631-633) *)
| DStart.          (* before the disconnect thread is started and recorded (641-644) *)
(** Control points of the command channel response thread (DS 801-818, T 45-96) *)
Inductive rdpc : Type :=
| RdNew            (* before running.Set and the new reader (802) *)
| RdLoop           (* before the test of connected (804) *)
| RdRead (c : held) (* in io.ReadFull (805) *)
| RdErr            (* the read failed; before the test of disconnecting (810) *)
| RdTry            (* before the test of running in TryStart (T 66, DS 816) *)
| RdStart          (* before the test of running in Start (T 50) *)
| RdLock           (* before mutex.Lock in Start (T 54) *)
| RdSpawn          (* before go run (T 55) *)
| RdEnd.           (* the function returned *)
(** Control points of a run of the connection termination thread (DS 197-199) *)
Inductive tmpc : Type :=
| TmNew            (* before running.Set *)
| TmDisc (p : dpc)
| TmUnlock         (* before mutex.Unlock *)
| TmUnSet.         (* before running.UnSet *)
(** Control points of a disconnect thread (DS 651-722) *)
Inductive xpc : Type :=
| XNew             (* before running.Set *)
| XTerm            (* before the test of running in Join (655) *)
| XTermWait        (* before mutex.Lock in Join *)
| XLock            (* before connectActionMutex.Lock (656) *)
| XListener        (* before listeningSocket.Close (660-664) *)
| XClose           (* before commandChannelSocket.Close (666-670) *)
| XATest           (* before the test of the accept thread for nil (679) *)
| XAJoin           (* before the field is read again for Join (680) *)
| XAWait (t : tref) (* before mutex.Lock in Join *)
| XANil            (* before the field is set to nil (681) *)
| XTest            (* before the test of the reader's thread for nil (684) *)
| XJoin            (* before the field is read again for Join (685) *)
| XWait (t : tref) (* before mutex.Lock in Join *)
| XNil             (* before the field is set to nil (686) *)
| XNotify          (* before the callback (695-701) *)
| XDone            (* before disconnected.Set and disconnecting.UnSet (704-705) *)
| XRelease         (* before connectActionMutex.Unlock (720) *)
| XEnd.            (* the function returned *)
(** Control points of an accept thread (DS 752-799, 369-420) *)
Inductive apc : Type :=
| ANew             (* before running.Set *)
| ALoop            (* before the test of listening (753) *)
| ASock            (* before the listening socket is read from its field (754) *)
| AAccept (c : held) (* in Accept *)
| ATest            (* a publisher was accepted; before the test of connected (766) *)
| ALock            (* before connectActionMutex.Lock (789) *)
| AUse             (* before setupConnection (792) and the new socket (403) *)
| AUp              (* before the reader's thread is made (404) *)
| ASet             (* before connected.Set (406) *)
| AStart           (* before the field is read again to start the thread (409) *)
| ANotify          (* before the callback (413-419) and connectActionMutex.Unlock (797) *)
| AEnd.            (* the function returned *)
(** Control points of Listen (DS 423-455) *)
Inductive lpc : Type :=
| LTest            (* before the tests of listening and connected (424-430) *)
| LJoin            (* before Join of the disconnect thread (433-439) *)
| LWait (t : tref) (* before mutex.Lock in Join *)
| LOpen            (* before net.Listen and the assignment of its result (444) *)
| LThread          (* before the accept thread is made (450) *)
| LSet             (* before listening.Set (451) *)
| LStart.          (* before the field is read again to start the thread (452) *)
(** A goroutine of the application: between calls, in Disconnect or in Listen *)
Inductive upc : Type := UIdle | UDisc (p : dpc) | UListen (p : lpc).

Inductive gor : Type :=
| Free
| User (pc : upc)
| Reader (pc : rdpc)
| Term (pc : tmpc)
| Disc (auto : bool) (pc : xpc)   (* auto: autoReconnecting; the listener is included iff not auto *)
| Accept (pc : apc).

(** Observable: the callbacks; a second publisher was turned away; an open connection was
    dropped for a new one; the application's calls, with what it sees when it calls *)
Inductive ev : Type := EEstablished | ETerminated | ERefused | EDropped | EListen | EDisconnect (connected : bool).
(** The connection in use, as seen from here *)
Inductive sock : Type := NoSock | Open | Gone | Closed.
(** The listening socket *)
Inductive lsock : Type := LNil | LOn | LOff.

Record st : Type := St {
  listening : bool;
  connected : bool;
  disconnecting : bool;
  disconnected : bool;
  trunning : bool;          (* running of the termination thread *)
  theld : bool;             (* its mutex *)
  action : bool;            (* connectActionMutex *)
  listener : lsock;         (* listeningSocket *)
  orphan : bool;            (* an open listening socket that is not in the field *)
  waiting : bool;           (* a publisher connected and is not accepted yet *)
  socket : sock;            (* commandChannelSocket *)
  reader : held;            (* the connection of the field reader *)
  cmd : option tref;        (* commandChannelResponseThread *)
  dthread : option tref;    (* disconnectThread *)
  athread : option tref;    (* listeningSocketAcceptThread *)
  crashed : bool;           (* a nil pointer was used *)
  gors : list gor
}.

(** T 33-37: running and mutex of a thread *)
Definition is_running (s : st) (t : tref) : bool :=
  match t with
  | Ended => false
  | Slot i => match nth_error (gors s) i with
              | Some (Reader RdNew) | Some (Disc _ XNew) | Some (Accept ANew) => false
              | Some (Reader _) | Some (Disc _ _) | Some (Accept _) => true
              | _ => false
              end
  end.
Definition is_held (s : st) (t : tref) : bool :=
  match t with
  | Ended => false
  | Slot i => match nth_error (gors s) i with Some (Reader _) | Some (Disc _ _) | Some (Accept _) => true | _ => false end
  end.
Definition runs (s : st) (t : option tref) : option tref :=
  match t with Some t => if is_running s t then Some t else None | None => None end.

Definition with_gors (s : st) (l : list gor) : st :=
  let '(St a b c d e f g h i j k m n o p q _) := s in St a b c d e f g h i j k m n o p q l.
Definition put (l : list gor) (i : nat) (g : gor) : list gor := firstn i l ++ g :: skipn (S i) l.
Definition goes (s : st) (i : nat) (g : gor) : st := with_gors s (put (gors s) i g).
Definition with_listening (s : st) (x : bool) : st :=
  let '(St _ b c d e f g h i j k m n o p q r) := s in St x b c d e f g h i j k m n o p q r.
Definition with_flags (s : st) (cn dg dd : bool) : st :=
  let '(St a _ _ _ e f g h i j k m n o p q r) := s in St a cn dg dd e f g h i j k m n o p q r.
Definition with_term (s : st) (x y : bool) : st :=
  let '(St a b c d _ _ g h i j k m n o p q r) := s in St a b c d x y g h i j k m n o p q r.
Definition with_action (s : st) (x : bool) : st :=
  let '(St a b c d e f _ h i j k m n o p q r) := s in St a b c d e f x h i j k m n o p q r.
Definition with_listener (s : st) (x : lsock) (o w : bool) : st :=
  let '(St a b c d e f g _ _ _ k m n u p q r) := s in St a b c d e f g x o w k m n u p q r.
Definition with_socket (s : st) (x : sock) : st :=
  let '(St a b c d e f g h i j _ m n o p q r) := s in St a b c d e f g h i j x m n o p q r.
Definition with_reader (s : st) (x : held) : st :=
  let '(St a b c d e f g h i j k _ n o p q r) := s in St a b c d e f g h i j k x n o p q r.
Definition with_cmd (s : st) (x : option tref) : st :=
  let '(St a b c d e f g h i j k m _ o p q r) := s in St a b c d e f g h i j k m x o p q r.
Definition with_dthread (s : st) (x : option tref) : st :=
  let '(St a b c d e f g h i j k m n _ p q r) := s in St a b c d e f g h i j k m n x p q r.
Definition with_athread (s : st) (x : option tref) : st :=
  let '(St a b c d e f g h i j k m n o _ q r) := s in St a b c d e f g h i j k m n o x q r.
Definition with_crash (s : st) : st :=
  let '(St a b c d e f g h i j k m n o p _ r) := s in St a b c d e f g h i j k m n o p true r.

(** A new goroutine takes the first free slot; which one that is *)
Fixpoint free_slot (l : list gor) : nat := match l with Free :: _ | [] => 0 | _ :: r => S (free_slot r) end.
Definition spawn (s : st) (g : gor) : st * tref := let i := free_slot (gors s) in (goes s i g, Slot i).
(** Goroutine [i] has ended. *)
Definition forget (i : nat) (t : tref) : tref := match t with Slot j => if j =? i then Ended else t | Ended => Ended end.
Definition forget_gor (i : nat) (g : gor) : gor :=
  match g with
  | User (UListen (LWait t)) => User (UListen (LWait (forget i t)))
  | Disc a (XWait t) => Disc a (XWait (forget i t))
  | Disc a (XAWait t) => Disc a (XAWait (forget i t))
  | _ => g
  end.
Fixpoint trim (l : list gor) : list gor :=
  match l with [] => [] | g :: r => match g, trim r with Free, [] => [] | _, r => g :: r end end.
Definition ends (s : st) (i : nat) : st :=
  let s := goes s i Free in
  let s := with_gors s (trim (map (forget_gor i) (gors s))) in
  let f := option_map (forget i) in
  with_athread (with_dthread (with_cmd s (f (cmd s))) (f (dthread s))) (f (athread s)).

(** DS 608-649 disconnect without joining, on behalf of goroutine [i]; [k p] is that
    goroutine at control point [p] of it and [ret] when it has returned.  Called again
    (610-623) it does nothing. *)
Definition disconnect_step (s : st) (i : nat) (auto : bool) (k : dpc -> gor) (ret : gor) (p : dpc) : st :=
  match p with
  | DTest => goes s i (if disconnecting s then ret else k DSet)
  | DSet => goes (with_flags s (connected s) true (disconnected s)) i (k DUnSet)
  | DUnSet => goes (with_flags s false (disconnecting s) (disconnected s)) i (k (if auto then DStart else DListen))
  | DListen => goes (with_listening s false) i (k DStart)
  | DStart => let '(s, t) := spawn (goes s i ret) (Disc auto XNew) in with_dthread s (Some t)
  end.
(** DS 403: the socket of a new connection takes the place of the old one. *)
Definition older (s : sock) (c : held) : held := match c with Cur => match s with Open => Old | _ => Down end | _ => c end.
Definition new_socket (s : st) : st :=
  let f g := match g with Reader (RdRead c) => Reader (RdRead (older (socket s) c)) | _ => g end in
  with_socket (with_reader (with_gors s (map f (gors s))) (older (socket s) (reader s))) Open.
(** DS 444: listening succeeds unless somebody listens already; the result is assigned in
    any case. *)
Definition port_taken (s : st) : bool := orphan s || match listener s with LOn => true | _ => false end.
Definition new_listener (s : st) : st :=
  let older c := match c with Cur => match listener s with LOn => Old | _ => Down end | _ => c end in
  let f g := match g with Accept (AAccept c) => Accept (AAccept (older c)) | _ => g end in
  let s' := with_gors s (map f (gors s)) in
  if port_taken s then with_listener s' LNil true (waiting s) else with_listener s' LOn false false.

(** The next step of goroutine [i] *)
Definition step (s : st) (i : nat) : option (st * option ev) :=
  if crashed s then None else
  match nth_error (gors s) i with
  | None | Some Free | Some (User UIdle) => None
  | Some (User (UDisc p)) => Some (disconnect_step s i false (fun p => User (UDisc p)) (User UIdle) p, None)
  | Some (User (UListen p)) =>
    let at_ p := Some (goes s i (User (UListen p)), None) in
    match p with
    | LTest => if listening s || connected s then Some (goes s i (User UIdle), None) else at_ LJoin
    | LJoin => at_ (match runs s (dthread s) with Some t => LWait t | None => LOpen end)
    | LWait t => if is_held s t then None else at_ LOpen
    | LOpen => Some (goes (new_listener s) i (if port_taken s then User UIdle else User (UListen LThread)), None)
    | LThread => (* a thread that was not started: joining it returns at once *)
                 Some (goes (with_athread s (Some Ended)) i (User (UListen LSet)), None)
    | LSet => Some (goes (with_listening s true) i (User (UListen LStart)), None)
    | LStart => match athread s with
                | Some _ => let '(s, t) := spawn (goes s i (User UIdle)) (Accept ANew) in Some (with_athread s (Some t), None)
                | None => Some (with_crash s, None)
                end
    end
  | Some (Reader pc) =>
    let at_ p := Some (goes s i (Reader p), None) in
    match pc with
    | RdNew => Some (goes (with_reader s Cur) i (Reader RdLoop), None)
    | RdLoop => at_ (if connected s then RdRead (reader s) else RdEnd)
    | RdRead Cur => match socket s with Open => None | _ => at_ RdErr end
    | RdRead Old => None
    | RdRead Down => at_ RdErr
    | RdErr => at_ (if disconnecting s then RdLoop else RdTry)
    | RdTry => at_ (if trunning s then RdLoop else RdStart)
    | RdStart => at_ (if trunning s then RdLoop else RdLock)   (* TryStart recovers from the panic of Start *)
    | RdLock => if theld s then None else Some (goes (with_term s (trunning s) true) i (Reader RdSpawn), None)
    | RdSpawn => Some (fst (spawn (goes s i (Reader RdLoop)) (Term TmNew)), None)
    | RdEnd => Some (ends s i, None)
    end
  | Some (Term pc) =>
    match pc with
    | TmNew => Some (goes (with_term s true (theld s)) i (Term (TmDisc DTest)), None)
    | TmDisc p => Some (disconnect_step s i true (fun p => Term (TmDisc p)) (Term TmUnlock) p, None)
    | TmUnlock => Some (goes (with_term s (trunning s) false) i (Term TmUnSet), None)
    | TmUnSet => Some (ends (with_term s false (theld s)) i, None)
    end
  | Some (Disc auto pc) =>
    let at_ p := Some (goes s i (Disc auto p), None) in
    match pc with
    | XNew => at_ (if auto then XClose else XTerm)
    | XTerm => at_ (if trunning s then XTermWait else XLock)
    | XTermWait => if theld s then None else at_ XLock
    | XLock => if action s then None else Some (goes (with_action s true) i (Disc auto XListener), None)
    | XListener => let s' := match listener s with LOn => with_listener s LOff (orphan s) false | _ => s end in
                   Some (goes s' i (Disc auto XClose), None)
    | XClose => let s' := match socket s with NoSock => s | _ => with_socket s Closed end in
                Some (goes s' i (Disc auto (if auto then XTest else XATest)), None)
    | XATest => at_ (match athread s with Some _ => XAJoin | None => XTest end)
    | XAJoin => match athread s with Some t => at_ (if is_running s t then XAWait t else XANil) | None => Some (with_crash s, None) end
    | XAWait t => if is_held s t then None else at_ XANil
    | XANil => Some (goes (with_athread s None) i (Disc auto XTest), None)
    | XTest => at_ (match cmd s with Some _ => XJoin | None => XNotify end)
    | XJoin => match cmd s with Some t => at_ (if is_running s t then XWait t else XNil) | None => Some (with_crash s, None) end
    | XWait t => if is_held s t then None else at_ XNil
    | XNil => Some (goes (with_cmd s None) i (Disc auto XNotify), None)
    | XNotify => Some (goes s i (Disc auto XDone), Some ETerminated)
    | XDone => Some (goes (with_flags s (connected s) false true) i (Disc auto (if auto then XEnd else XRelease)), None)
    | XRelease => Some (goes (with_action s false) i (Disc auto XEnd), None)
    | XEnd => Some (ends s i, None)
    end
  | Some (Accept pc) =>
    let at_ p := Some (goes s i (Accept p), None) in
    match pc with
    | ANew => at_ ALoop
    | ALoop => at_ (if listening s then ASock else AEnd)
    | ASock => match listener s with LOn => at_ (AAccept Cur) | LOff => at_ (AAccept Down) | LNil => Some (with_crash s, None) end
    | AAccept c =>
      match match c with Cur => listener s | Old => LOn | Down => LOff end with
      | LOn => if waiting s then Some (goes (with_listener s (listener s) (orphan s) false) i (Accept ATest), None) else None
      | _ => at_ ALoop
      end
    | ATest => if connected s then Some (goes s i (Accept ALoop), Some ERefused) else at_ ALock
    | ALock => if action s then None else Some (goes (with_action s true) i (Accept AUse), None)
    | AUse => Some (goes (new_socket (with_flags s (connected s) (disconnecting s) false)) i (Accept AUp), match socket s with Open => Some EDropped | _ => None end)
    | AUp => (* a thread that was not started: joining it returns at once *)
             Some (goes (with_cmd s (Some Ended)) i (Accept ASet), None)
    | ASet => Some (goes (with_flags s true (disconnecting s) (disconnected s)) i (Accept AStart), None)
    | AStart => match cmd s with
                | Some _ => let '(s, t) := spawn (goes s i (Accept ANotify)) (Reader RdNew) in Some (with_cmd s (Some t), None)
                | None => Some (with_crash s, None)
                end
    | ANotify => Some (goes (with_action s false) i (Accept ALoop), Some EEstablished)
    | AEnd => Some (ends s i, None)
    end
  end.

(** A schedule: steps of goroutines; a publisher connecting; the publisher closing the
    connection in use, or older ones; a goroutine of the application calling Listen
    (DS 423) or Disconnect (DS 596-605), which does nothing while disconnecting *)
Inductive act : Type := Go (i : nat) | Dials | Closes | ClosesOld | CallsListen (i : nat) | CallsDisconnect (i : nat).
Definition closed_old (s : st) : st :=
  let c x := match x with Old => Down | _ => x end in
  let f g := match g with Reader (RdRead x) => Reader (RdRead (c x)) | _ => g end in
  with_reader (with_gors s (map f (gors s))) (c (reader s)).
Definition act_step (s : st) (a : act) : option (st * option ev) :=
  match a with
  | Go i => step s i
  | Dials => if port_taken s && negb (waiting s) then Some (with_listener s (listener s) (orphan s) true, None) else None
  | Closes => match socket s with Open => Some (with_socket s Gone, None) | _ => None end
  | ClosesOld => Some (closed_old s, None)
  | CallsListen i => match nth_error (gors s) i with
                     | Some (User UIdle) => Some (goes s i (User (UListen LTest)), Some EListen)
                     | _ => None
                     end
  | CallsDisconnect i => match nth_error (gors s) i with
                         | Some (User UIdle) => Some (if disconnecting s then s else goes s i (User (UDisc DTest)), Some (EDisconnect (connected s)))
                         | _ => None
                         end
  end.

(** A new subscriber with [users] goroutines of the application *)
Definition start (users : nat) : st :=
  St false false false false false false false LNil false false NoSock Cur None None None false (repeat (User UIdle) users).
