(** The three callback locks - of the SubscriberConnector, of the DataSubscriber
    and of the Subscriber - and what takes them (C138).  [ConcModel] has one lock
    by itself; here goroutines go from one to another. *)
From Coq Require Import List Bool Arith.
From Verif Require Import ConcModel.
Import ListNotations.
Open Scope list_scope.

(** transport/SubscriberConnector.go:76, transport/DataSubscriber.go:70,
    Subscriber.go:70: assigningHandlerMutex, a sync.RWMutex each *)
Inductive lock : Type := Con | Ds | Sb.
Definition lock_eqb (a b : lock) : bool := match a, b with Con, Con | Ds, Ds | Sb, Sb => true | _, _ => false end.
(** The callbacks that can be registered: fields of the Subscriber
    (Subscriber.go:55-66), of the DataSubscriber (DataSubscriber.go:81-127) and of the
    SubscriberConnector (SubscriberConnector.go:43-49) *)
Inductive slot : Type :=
| SbStatus | SbError | SbMetadata | SbStart | SbConfig | SbComplete | SbEstablished
| DsStatus | DsError | DsEstablished | DsTerminated | DsReconnect | DsMetadata | DsUpdated | DsStart | DsConfig | DsMeasurements | DsBlocks | DsComplete | DsNotification
| ConError | ConReconnect.
(** RLock, RUnlock, Lock, Unlock - BeginCallbackSync, EndCallbackSync,
    BeginCallbackAssignment and EndCallbackAssignment are these
    (SubscriberConnector.go:282-299, DataSubscriber.go:217-234, Subscriber.go:444-461) -
    the reading and assigning of a callback, and waiting for goroutine [j] to end
    (thread/Thread.go:75-83 Join). *)
Inductive act : Type := RL (l : lock) | RU (l : lock) | WL (l : lock) | WU (l : lock) | Use (f : slot) | Assign (f : slot) | Wait (j : nat).
(** A goroutine: the locks it has (true: for writing), whether the Lock it is at
    has been announced, and what it has still to do. *)
Record gor : Type := Gor { held : list (lock * bool); announced : bool; todo : list act }.
Definition has (l : lock) (w : bool) (g : gor) : bool := existsb (fun p => lock_eqb (fst p) l && Bool.eqb (snd p) w) (held g).
Definition wants (l : lock) (g : gor) : bool := announced g && match todo g with WL k :: _ => lock_eqb k l | _ => false end.
Fixpoint drop (l : lock) (w : bool) (h : list (lock * bool)) : list (lock * bool) :=
  match h with
  | [] => []
  | p :: r => if lock_eqb (fst p) l && Bool.eqb (snd p) w then r else p :: drop l w r
  end.
(** sync.RWMutex: a reader waits while a writer is inside or has announced itself;
    a writer waits for other writers, announces itself and waits for the readers
    inside.  Simplified: when a writer leaves, either the readers that wait or the
    next writer may go first (in Go the readers do).  Releasing a lock one has not
    got ends the program (here the goroutine stops). *)
Definition gstep (s : list gor) (i : nat) : option (list gor) :=
  match nth_error s i with
  | None => None
  | Some g =>
    match todo g with
    | [] => None
    | RL k :: r => if existsb (fun x => has k true x || wants k x) s then None else Some (set_nth s i (Gor ((k, false) :: held g) false r))
    | WL k :: r =>
      if announced g then if existsb (has k false) s then None else Some (set_nth s i (Gor ((k, true) :: held g) false r))
      else if existsb (fun x => has k true x || wants k x) s then None else Some (set_nth s i (Gor (held g) true (WL k :: r)))
    | Use _ :: r | Assign _ :: r => Some (set_nth s i (Gor (held g) false r))
    | Wait j :: r => match nth_error s j with Some (Gor _ _ []) => Some (set_nth s i (Gor (held g) false r)) | _ => None end
    | RU k :: r => if has k false g then Some (set_nth s i (Gor (drop k false (held g)) false r)) else None
    | WU k :: r => if has k true g then Some (set_nth s i (Gor (drop k true (held g)) false r)) else None
    end
  end.
Definition ginit (progs : list (list act)) : list gor := map (Gor [] false) progs.

(** ** What the library does with them *)

(** Subscriber.go:466-485 StatusMessage, ErrorMessage ([f] is SbStatus or SbError);
    the logger takes no lock *)
Definition report (f : slot) : list act := [RL Sb; Use f; RU Sb].
(** Subscriber.go:728-750, 765-782, 815-832: SetStatusMessageLogger,
    SetErrorMessageLogger, SetMetadataReceiver, SetDataStartTimeReceiver,
    SetConfigurationChangedReceiver, SetHistoricalReadCompleteReceiver,
    SetConnectionEstablishedReceiver *)
Definition set_sb (f : slot) : list act := [WL Sb; Assign f; WU Sb].
(** Subscriber.go:784-811, 835-841: SetNewMeasurementsReceiver,
    SetNewBufferBlocksReceiver, SetNotificationReceiver,
    SetConnectionTerminatedReceiver *)
Definition set_ds (f : slot) : list act := [WL Ds; Assign f; WU Ds].
(** Subscriber.go:756-761 SetSubscriptionUpdatedReceiver: a field of the
    DataSubscriber in the Subscriber's lock *)
Definition set_updated : list act := [WL Sb; Assign DsUpdated; WU Sb].
(** DataSubscriber.go:732-750 dispatchStatusMessage, dispatchErrorMessage; also
    1006-1008, 1044-1050, 1096-1102, 1183-1189 and 1476-1482: a callback is looked up
    and started on its own goroutine *)
Definition dispatch (f : slot) : list act := [RL Ds; Use f; RU Ds].
(** SubscriberConnector.go:271-279 dispatchErrorMessage *)
Definition con_message : list act := [RL Con; Use ConError; RU Con].
Fixpoint times (n : nat) (l : list act) : list act := match n with O => [] | S n => l ++ times n l end.
(** Subscriber.go:242-260 (Dial), 329-344 (Listen): callbacks are registered *)
Definition register_dial : list act :=
  [WL Con; WL Ds; RL Sb;
   Use SbError; Assign ConError; Use SbStatus; Assign DsStatus; Use SbError; Assign DsError;
   Assign ConReconnect; Assign DsMetadata; Assign DsStart; Assign DsConfig; Assign DsComplete;
   RU Sb; WU Con; WU Ds].
Definition register_listen : list act :=
  [WL Ds; RL Sb; Use SbStatus; Assign DsStatus; Use SbError; Assign DsError;
   Assign DsEstablished; Assign DsMetadata; Assign DsStart; Assign DsConfig; Assign DsComplete; RU Sb; WU Ds].
(** SubscriberConnector.go:198-260 connect: the reconnect callback is registered
    when there is to be one, and [n] attempts fail (271-279 for each) *)
Definition connect (auto : bool) (n : nat) : list act := (if auto then [WL Ds; Assign DsReconnect; WU Ds] else []) ++ times n con_message.
(** Callbacks called inside the DataSubscriber's lock: NewMeasurements
    (DataSubscriber.go:1253-1261), NewBufferBlocks (1447-1455),
    ConnectionTerminated (695-701); [body] is what the application does in it. *)
Definition ds_callback (f : slot) (body : list act) : list act := RL Ds :: Use f :: body ++ [RU Ds].
(** DataSubscriber.go:707-717: AutoReconnectCallback, inside the lock; it waits for the
    last reconnection, goroutine [j], to end if there was one
    (SubscriberConnector.go:84-92) and starts the next *)
Definition reconnecting (last : option nat) : list act := ds_callback DsReconnect (match last with Some j => [Wait j] | None => [] end).
(** Callbacks called inside the Subscriber's lock *)
Definition sb_call (f : slot) (body : list act) : list act := RL Sb :: Use f :: body ++ [RU Sb].
(** DataStartTime: DataSubscriber.go:1032-1040 and Subscriber.go:655-661 *)
Definition start_time (body : list act) : list act := ds_callback DsStart (sb_call SbStart body).
(** Callbacks on a goroutine of their own: metadata (Subscriber.go:530-536),
    configuration changed (665-671), historical read complete (681-687).  Commands
    that are sent next and fail are reported ([n] of them;
    DataSubscriber.go:1528-1532). *)
Definition sb_callback (f : slot) (body : list act) (n : nat) : list act := sb_call f body ++ times n (dispatch DsError).
(** Subscriber.go:489-509 handleConnect, [n] commands failing *)
Definition handle_connect (body : list act) (n : nat) : list act := sb_callback SbEstablished body n.
(** SubscriberConnector.go:94-124: the connection is made again, then
    ReconnectCallback is called inside the connector's lock *)
Definition reconnected (failed : nat) (body : list act) (n : nat) : list act :=
  connect true failed ++ RL Con :: Use ConReconnect :: handle_connect body n ++ [RU Con].
(** Dial (Subscriber.go:226-276): connect, then handleConnect outside the locks *)
Definition dial (auto : bool) (failed : nat) (body : list act) (n : nat) : list act := register_dial ++ connect auto failed ++ handle_connect body n.
(** A publisher connects to a listening subscriber: DataSubscriber.go:400 and
    413-419, ConnectionEstablishedCallback is handleConnect, inside the lock *)
Definition accepted (body : list act) (n : nat) : list act := dispatch DsStatus ++ ds_callback DsEstablished (handle_connect body n).
