(** Small-step models of the goroutine interactions of the library: the Thread
    type, the callback lock, the measurement reader, metadata lookup and the
    shared command buffer.

    In every model the goroutines are a list; a schedule is the list of the
    numbers of the goroutines chosen to take their next step.  A chosen goroutine
    that is blocked or has ended does not move.  Each step is one access to shared
    state; Go's memory model makes these sequentially consistent because they are
    all atomic variables, mutex, channel or sync.Map operations (the command
    buffer is the exception: it is accessed without any synchronisation, and its
    byte writes are taken in program order). *)
From Verif Require Import Base.

Fixpoint set_nth {A} (l : list A) (i : nat) (x : A) : list A :=
  match l, i with
  | [], _ => []
  | _ :: r, O => x :: r
  | y :: r, S k => y :: set_nth r k x
  end.

(** Runs a schedule: [step s i] is None when goroutine [i] cannot move. *)
Fixpoint run {S} (step : S -> nat -> option S) (s : S) (sched : list nat) : S :=
  match sched with
  | [] => s
  | i :: rest => run step (match step s i with Some s' => s' | None => s end) rest
  end.

(** ** sttp/thread/Thread.go *)

(** What goroutines using a Thread call. *)
Inductive top : Type := Start | TryStart | Join.

(** Control points of a calling goroutine. *)
Inductive tpc : Type :=
| CIdle            (* between calls *)
| CTry             (* TryStart saw running unset (line 66), Start not yet entered *)
| CLock            (* Start passed the check of line 50, before mutex.Lock (54) *)
| CSpawn           (* holds the mutex, before go run (55) *)
| CJoinLock        (* Join passed the check of line 76, before mutex.Lock (80) *)
| CJoinUnlock      (* Join holds the mutex, before Unlock (82) *)
| CPanicked.       (* Start panicked at line 51: thread is already running *)

(** Control points of the goroutine running the thread function (run, 90-96). *)
Inductive rpc : Type :=
| R0               (* before running.Set (94) *)
| R1               (* in exec (95) *)
| R2               (* exec returned, before the deferred Unlock (92) *)
| R3               (* before the deferred running.UnSet (91) *)
| R4.              (* ended *)

Inductive tgor : Type :=
| Caller (pc : tpc) (todo : list top)
| Runner (pc : rpc).

(** Observable events: Start (or TryStart returning true) returned, the thread
    function began, ended, and Join returned. *)
Inductive tev : Type := EStarted | EBegan | EEnded | EJoined (caller : nat).

Record tstate : Type := TState {
  running : bool;           (* thread.running *)
  held : bool;              (* thread.mutex *)
  gors : list tgor;
  log : list tev            (* newest first *)
}.

(** Thread.go:45-56 Start, 60-72 TryStart, 75-83 Join, 90-96 run.  exec is not
    nil; a thread function that panics ends the program and is left out. *)
Definition tstep (s : tstate) (i : nat) : option tstate :=
  let '(TState rn hd gs lg) := s in
  match nth_error gs i with
  | None => None
  | Some (Caller pc todo) =>
      match pc with
      | CIdle =>
          match todo with
          | [] => None
          | Start :: r =>
              Some (TState rn hd (set_nth gs i (Caller (if rn then CPanicked else CLock) r)) lg)
          | TryStart :: r =>
              Some (TState rn hd (set_nth gs i (Caller (if rn then CIdle else CTry) r)) lg)
          | Join :: r =>
              if rn then Some (TState rn hd (set_nth gs i (Caller CJoinLock r)) lg)
              else Some (TState rn hd (set_nth gs i (Caller CIdle r)) (EJoined i :: lg))
          end
      | CTry => (* the panic of Start is recovered by TryStart (74-77) *)
          Some (TState rn hd (set_nth gs i (Caller (if rn then CIdle else CLock) todo)) lg)
      | CLock =>
          if hd then None
          else Some (TState rn true (set_nth gs i (Caller CSpawn todo)) lg)
      | CSpawn =>
          Some (TState rn hd (set_nth gs i (Caller CIdle todo) ++ [Runner R0]) (EStarted :: lg))
      | CJoinLock =>
          if hd then None
          else Some (TState rn true (set_nth gs i (Caller CJoinUnlock todo)) lg)
      | CJoinUnlock =>
          Some (TState rn false (set_nth gs i (Caller CIdle todo)) (EJoined i :: lg))
      | CPanicked => None
      end
  | Some (Runner pc) =>
      match pc with
      | R0 => Some (TState true hd (set_nth gs i (Runner R1)) (EBegan :: lg))
      | R1 => Some (TState rn hd (set_nth gs i (Runner R2)) (EEnded :: lg))
      | R2 => Some (TState rn false (set_nth gs i (Runner R3)) lg)
      | R3 => Some (TState false hd (set_nth gs i (Runner R4)) lg)
      | R4 => None
      end
  end.

(** A new Thread (NewThread, 40-42) and goroutines about to make the given calls. *)
Definition tinit (calls : list (list top)) : tstate :=
  TState false false (map (Caller CIdle) calls) [].

(** ** The callback lock (sync.RWMutex)

    Subscriber.go:443-462 beginCallbackAssignment (Lock), beginCallbackSync
    (RLock), endCallbackSync (RUnlock), endCallbackAssignment (Unlock); the same
    four exist on DataSubscriber and SubscriberConnector. *)
Inductive instr : Type := RLock | RUnlock | Lock | Unlock.

(** The operations one goroutine still has to perform; [waiting] is true when the
    first one is a Lock that has announced itself to later readers. *)
Record lgor : Type := LGor { waiting : bool; ops : list instr }.

Record lstate : Type := LState {
  readers : nat;           (* read locks held *)
  writer : bool;           (* a writer holds the lock or has announced itself *)
  lgors : list lgor
}.

(** sync.RWMutex: a writer first excludes other writers and announces itself,
    then waits for the readers that are inside; a reader blocks as soon as a
    writer has announced itself ("a blocked Lock call excludes new readers from
    acquiring the lock", sync documentation). *)
Definition lstep (s : lstate) (i : nat) : option lstate :=
  let '(LState rd wr gs) := s in
  match nth_error gs i with
  | None => None
  | Some (LGor wt is) =>
      match is with
      | [] => None
      | RLock :: r => if wr then None else Some (LState (S rd) wr (set_nth gs i (LGor false r)))
      | RUnlock :: r => Some (LState (pred rd) wr (set_nth gs i (LGor false r)))
      | Lock :: r =>
          if wt then match rd with
                     | O => Some (LState rd wr (set_nth gs i (LGor false r)))
                     | S _ => None
                     end
          else if wr then None
          else Some (LState rd true (set_nth gs i (LGor true is)))
      | Unlock :: r => Some (LState rd false (set_nth gs i (LGor false r)))
      end
  end.

Definition linit (progs : list (list instr)) : lstate :=
  LState 0 false (map (LGor false) progs).

(** StatusMessage / ErrorMessage (Subscriber.go:466-485). *)
Definition report : list instr := [RLock; RUnlock].
(** SetStatusMessageLogger and the other setters (Subscriber.go:728-840). *)
Definition setter : list instr := [Lock; Unlock].
(** handleConnect (Subscriber.go:489-496) with a callback that performs [inner]
    on the same lock; the default ConnectionEstablished callback (708-719) calls
    StatusMessage. The same shape: handleMetadataReceived 530-536,
    handleDataStartTime 654-661, handleConfigurationChanged 664-672,
    handleProcessingComplete 678-687. *)
Definition callback (inner : list instr) : list instr := RLock :: inner ++ [RUnlock].

(** ** sttp/MeasurementReader.go *)

(** The goroutines delivering measurements (the command channel reader and, when
    used, the UDP data channel reader) call the registered callback
    (MeasurementReader.go:42-46) for each received batch; it sends the
    measurements of the batch one by one on an unbuffered channel. *)
(** What NextMeasurement returns (54-66): a measurement of delivering goroutine [i], a
    nil measurement with completed = false, or nil with completed = true. *)
Inductive reply (A : Type) : Type := Got (i : nat) (m : A) | Nil | Completed.
Arguments Got {A}. Arguments Nil {A}. Arguments Completed {A}.
Record mstate (A : Type) : Type := MState {
  batches : list (list (list A));    (* per delivering goroutine: what is not yet sent *)
  results : list (nat * reply A);    (* what calls returned, oldest first, with the number
                                        of the context they were given *)
  over  : list nat;                  (* the contexts that are done *)
  closed : bool;
  crashed : bool
}.
Arguments MState {A}. Arguments batches {A}. Arguments results {A}. Arguments over {A}.
Arguments closed {A}. Arguments crashed {A}.

(** Next c i: a goroutine calls NextMeasurement with context [c] (54-66) and, if the
    channel is open, meets goroutine [i]; End c: the context [c] is cancelled or its
    time is over; Expire c: a call with context [c] returns because of that; Close
    (69-71); Deliver i: goroutine [i] reaches a send while nobody receives (it blocks,
    or panics when the channel is closed). A call without a context has one that is
    never done (55-57). *)
Inductive mact : Type := Next (c i : nat) | End (c : nat) | Expire (c : nat) | Close | Deliver (i : nat).

Fixpoint next_item {A} (bs : list (list A)) : option (A * list (list A)) :=
  match bs with
  | [] => None
  | [] :: r => next_item r
  | (a :: b) :: r => Some (a, b :: r)
  end.

Definition mstep {A} (s : mstate A) (a : mact) : option (mstate A) :=
  let '(MState bs rs en cl cr) := s in
  if cr then None
  else match a with
  | Next c i =>
      if cl then Some (MState bs (rs ++ [(c, Nil)]) en cl cr)
      else match nth_error bs i with
           | None => None
           | Some b => match next_item b with
                       | None => None
                       | Some (m, b') => Some (MState (set_nth bs i b') (rs ++ [(c, Got i m)]) en cl cr)
                       end
           end
  | End c => Some (MState bs rs (c :: en) cl cr)
  | Expire c => if existsb (Nat.eqb c) en then Some (MState bs (rs ++ [(c, Completed)]) en cl cr) else None
  | Close => if cl then Some (MState bs rs en cl true)   (* close of closed channel *)
             else Some (MState bs rs en true cr)
  | Deliver i =>
      match nth_error bs i with
      | None => None
      | Some b => match next_item b with
                  | None => None
                  | Some _ => if cl then Some (MState bs rs en cl true) else None
                  end
      end
  end.

Fixpoint mrun {A} (s : mstate A) (sched : list mact) : mstate A :=
  match sched with
  | [] => s
  | a :: rest => mrun (match mstep s a with Some s' => s' | None => s end) rest
  end.

Definition minit {A} (bs : list (list (list A))) : mstate A := MState bs [] [] false false.

(** ** LookupMetadata (DataSubscriber.go:284-299) *)

(** Signal IDs are numbers here; a record is identified by the number it was
    created with (its address). *)
Inductive kgor : Type :=
| KIdle (todo : list Z)              (* signal IDs still to look up *)
| KMissed (sid : Z) (todo : list Z). (* Load missed, before LoadOrStore *)

Record kstate : Type := KState {
  registry : list (Z * nat);         (* sync.Map *)
  created : nat;                     (* records created so far *)
  kgors : list kgor;
  found : list (Z * nat)             (* results of LookupMetadata, newest first *)
}.

Fixpoint assoc (l : list (Z * nat)) (k : Z) : option nat :=
  match l with
  | [] => None
  | (k', v) :: r => if k =? k' then Some v else assoc r k
  end.

(** Load at line 289; creation and LoadOrStore at 291-296, whose result is
    dropped: the caller returns the record it created. *)
Definition kstep (s : kstate) (i : nat) : option kstate :=
  let '(KState reg n gs fd) := s in
  match nth_error gs i with
  | None | Some (KIdle []) => None
  | Some (KIdle (sid :: r)) =>
      match assoc reg sid with
      | Some v => Some (KState reg n (set_nth gs i (KIdle r)) ((sid, v) :: fd))
      | None => Some (KState reg n (set_nth gs i (KMissed sid r)) fd)
      end
  | Some (KMissed sid r) =>
      let reg' := match assoc reg sid with Some _ => reg | None => (sid, n) :: reg end in
      Some (KState reg' (S n) (set_nth gs i (KIdle r)) ((sid, n) :: fd))
  end.

Definition kinit (lookups : list (list Z)) : kstate := KState [] 0 (map KIdle lookups) [].

(** ** The shared command buffer (DataSubscriber.go:1499-1533) *)

(** Stores one goroutine performs to send a command: size bytes, command byte,
    payload bytes, then the socket write of the first [n] bytes. *)
Inductive bop : Type := Store (at_ : nat) (b : Z) | SocketWrite (n : nat).

Fixpoint stores (at_ : nat) (l : bytes) : list bop :=
  match l with
  | [] => []
  | b :: r => Store at_ b :: stores (S at_) r
  end.

(** SendServerCommandWithPayload on a connected subscriber, payload within the
    buffer: lines 1512 (PutUint32), 1515, 1517-1521, 1528. *)
Definition send_program (cmd : Z) (data : bytes) : list bop :=
  stores 0 (be_put 4 (len data + 1)) ++ [Store 4 cmd] ++ stores 5 data ++
  [SocketWrite (5 + length data)].

Record bstate : Type := BState {
  buffer : bytes;
  wire : bytes;
  bgors : list (list bop)
}.

Definition bstep (s : bstate) (i : nat) : option bstate :=
  let '(BState bf wi gs) := s in
  match nth_error gs i with
  | None | Some [] => None
  | Some (Store k b :: r) => Some (BState (set_nth bf k b) wi (set_nth gs i r))
  | Some (SocketWrite n :: r) => Some (BState bf (wi ++ firstn n bf) (set_nth gs i r))
  end.

Definition binit (size : nat) (sends : list (list (Z * bytes))) : bstate :=
  BState (repeat 0 size) [] (map (flat_map (fun c => send_program (fst c) (snd c))) sends).

(** ** The command channel reader against Unsubscribe
    (DataSubscriber.go:801-880 and 571-594) *)

(** Control points of the reader goroutine. *)
Inductive upc : Type :=
| UHeader                     (* in io.ReadFull of the 4-byte header (line 805) *)
| UGotHeader (size : Z)       (* before the test of disconnecting (810) *)
| UBody (size : Z)            (* in io.ReadFull of the body (857) *)
| UGotBody (packet : bytes).  (* before the test of disconnecting (861) *)

Record ustate : Type := UState {
  upcoming : bytes;           (* bytes the socket will still deliver *)
  disconnecting : bool;
  processed : list bytes;     (* packets given to processServerResponse, oldest first *)
  upc_ : upc;
  unsub : list bool           (* values Unsubscribe will still store into disconnecting *)
}.

(** Goroutine 0 reads; goroutine 1 is in Unsubscribe (set at line 578, unset at
    593).  The connection stays up, it is validated, reads do not fail, and
    io.ReadFull blocks when too few bytes are left. *)
Definition ustep (s : ustate) (i : nat) : option ustate :=
  let '(UState bs dc ps pc us) := s in
  match i with
  | O =>
      match pc with
      | UHeader =>
          if (length bs <? 4)%nat then None
          else Some (UState (skipn 4 bs) dc ps (UGotHeader (be_val (firstn 4 bs))) us)
      | UGotHeader n => Some (UState bs dc ps (if dc then UHeader else UBody n) us)
      | UBody n =>
          if len bs <? n then None
          else Some (UState (skipn (Z.to_nat n) bs) dc ps (UGotBody (firstn (Z.to_nat n) bs)) us)
      | UGotBody p => Some (UState bs dc (if dc then ps else ps ++ [p]) UHeader us)
      end
  | _ =>
      match us with
      | [] => None
      | b :: r => Some (UState bs b ps pc r)
      end
  end.

(** Reader between packets, Unsubscribe about to be called. *)
Definition uinit (bs : bytes) : ustate := UState bs false [] UHeader [true; false].
