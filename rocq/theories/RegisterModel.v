(** Which receiver is called: what registering, dialing and listening assign, and
    what events look up (C140). *)
From Coq Require Import List Bool ZArith.
Import ListNotations.
Open Scope list_scope.

(** The receivers that can be registered (Subscriber.go:728-841) *)
Inductive kind : Type := KStatus | KError | KMetadata | KStart | KConfig | KComplete | KEstablished | KTerminated | KUpdated | KMeasurements | KBlocks | KNotification.
Definition kind_eqb (a b : kind) : bool :=
  match a, b with
  | KStatus, KStatus | KError, KError | KMetadata, KMetadata | KStart, KStart | KConfig, KConfig | KComplete, KComplete | KEstablished, KEstablished
  | KTerminated, KTerminated | KUpdated, KUpdated | KMeasurements, KMeasurements | KBlocks, KBlocks | KNotification, KNotification => true
  | _, _ => false
  end.
(** The default receivers (Subscriber.go:692-725) or one of the application *)
Inductive receiver : Type := Default | Mine (n : Z).
(** [own]: fields of the Subscriber (Subscriber.go:59-65); [direct]: fields of the
    DataSubscriber that hold a receiver (DataSubscriber.go:81-127); [handled]: fields
    of the DataSubscriber that hold a handler of the Subscriber once assigned;
    [con_error], [con_handled]: SubscriberConnector.go:42-49 *)
Record fields : Type := Fields {
  own : kind -> option receiver;
  direct : kind -> option receiver;
  handled : kind -> bool;
  con_error : option receiver;
  con_handled : bool
}.
Definition put {A} (m : kind -> A) (k : kind) (a : A) (q : kind) : A := if kind_eqb k q then a else m q.
(** Where a receiver is kept *)
Definition in_subscriber (k : kind) : bool :=
  match k with KStatus | KError | KMetadata | KStart | KConfig | KComplete | KEstablished => true | _ => false end.
(** Subscriber.go:74-84 NewSubscriber *)
Definition new_fields : fields :=
  Fields (fun k => match k with KStatus | KError | KEstablished => Some Default | _ => None end)
         (fun k => match k with KTerminated => Some Default | _ => None end) (fun _ => false) None false.
(** Registering a receiver (nil is None), Dial and Listen as far as they assign callbacks *)
Inductive change : Type := Register (k : kind) (r : option receiver) | Dial | Listen.
Definition assign (s : fields) (c : change) : fields :=
  match c with
  | Register k r =>                                                       (* Subscriber.go:728-841 *)
    if in_subscriber k then Fields (put (own s) k r) (direct s) (handled s) (con_error s) (con_handled s)
    else Fields (own s) (put (direct s) k r) (handled s) (con_error s) (con_handled s)
  | Dial =>                                                               (* Subscriber.go:246-256 *)
    Fields (own s) (put (put (direct s) KStatus (own s KStatus)) KError (own s KError))
      (put (put (put (put (handled s) KMetadata true) KStart true) KConfig true) KComplete true) (own s KError) true
  | Listen =>                                                             (* Subscriber.go:332-341 *)
    Fields (own s) (put (put (direct s) KStatus (own s KStatus)) KError (own s KError))
      (put (put (put (put (put (handled s) KEstablished true) KMetadata true) KStart true) KConfig true) KComplete true) (con_error s) (con_handled s)
  end.
(** Events.  [Reports]: the application or a handler of the Subscriber calls
    StatusMessage or ErrorMessage (Subscriber.go:466-485).  [Arrives]: the
    DataSubscriber has something of this kind (DataSubscriber.go:411-419, 695-701,
    732-750, 1006-1026, 1032-1050, 1096-1102, 1183-1189, 1253-1261, 1447-1455,
    1476-1482).  [ConnectorFails]: SubscriberConnector.go:271-279.  [Dialed]: a dial
    has connected (DataSubscriber.go:411-419, then Subscriber.go:265-267).
    [Redialed]: a lost connection has been made again (DataSubscriber.go:411-419,
    then SubscriberConnector.go:116-123, Subscriber.go:511-514).  [Accepted]: a
    publisher has connected (DataSubscriber.go:411-419).  Messages that handlers
    give meanwhile are events of their own. *)
Inductive event : Type := Reports (k : kind) | Arrives (k : kind) | ConnectorFails | Dialed | Redialed | Accepted.
Definition one (o : option receiver) : list receiver := match o with Some r => [r] | None => [] end.
(** Subscriber.go:489-496, 529-537, 654-688: the handlers look up the receiver *)
Definition handler (s : fields) (k : kind) : list receiver := one (own s k).
Definition arrives (s : fields) (k : kind) : list receiver :=
  match k with
  | KMetadata | KStart | KConfig | KComplete | KEstablished => if handled s k then handler s k else []
  | _ => one (direct s k)
  end.
Definition called (s : fields) (e : event) : list receiver :=
  match e with
  | Reports k => one (own s k)
  | Arrives k => arrives s k
  | ConnectorFails => one (con_error s)
  | Dialed => arrives s KEstablished ++ handler s KEstablished
  | Redialed => arrives s KEstablished ++ (if con_handled s then handler s KEstablished else [])
  | Accepted => arrives s KEstablished
  end.
(** The callbacks after a history of changes *)
Definition after (h : list change) : fields := fold_left assign h new_fields.
