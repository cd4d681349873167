(** The three callback locks: what is asked (C138, C139). *)
From Coq Require Import List.
From Verif Require Import ConcModel LocksModel.
Import ListNotations.
Open Scope list_scope.

(** Every goroutine has done all it had to do *)
Definition finished (s : list gor) : Prop := Forall (fun g => todo g = []) s.
(** What an application may do in a callback that runs in the DataSubscriber's
    lock: report messages and register receivers of the Subscriber *)
Inductive harmless : list act -> Prop :=
| h_nothing : harmless []
| h_report f l : harmless l -> harmless (report f ++ l)
| h_set f l : harmless l -> harmless (set_sb f ++ l)
| h_set_updated l : harmless l -> harmless (set_updated ++ l).
(** The library and applications whose callbacks inside the Subscriber's lock
    use none of the locks *)
Inductive quiet : list act -> Prop :=
| q_nothing : quiet []
| q_then a b : quiet a -> quiet b -> quiet (a ++ b)
| q_report f : quiet (report f)
| q_set_sb f : quiet (set_sb f)
| q_set_ds f : quiet (set_ds f)
| q_set_updated : quiet set_updated
| q_dispatch f : quiet (dispatch f)
| q_con_message : quiet con_message
| q_listen : quiet register_listen
| q_ds_callback f body : harmless body -> quiet (ds_callback f body)
| q_reconnecting : quiet (reconnecting None)
| q_start_time : quiet (start_time [])
| q_sb_callback f n : quiet (sb_callback f [] n)
| q_reconnected failed n : quiet (reconnected failed [] n)
| q_dial auto failed n : quiet (dial auto failed [] n)
| q_accepted : quiet (accepted [] 0).
(** The object a callback is a field of *)
Definition owner (f : slot) : lock :=
  match f with
  | SbStatus | SbError | SbMetadata | SbStart | SbConfig | SbComplete | SbEstablished => Sb
  | ConError | ConReconnect => Con
  | _ => Ds
  end.
(** The library and applications whose callbacks do anything, without
    SetSubscriptionUpdatedReceiver *)
Inductive code : list act -> Prop :=
| c_nothing : code []
| c_then a b : code a -> code b -> code (a ++ b)
| c_report f : owner f = Sb -> code (report f)
| c_set_sb f : owner f = Sb -> code (set_sb f)
| c_set_ds f : owner f = Ds -> code (set_ds f)
| c_dispatch f : owner f = Ds -> code (dispatch f)
| c_con_message : code con_message
| c_listen : code register_listen
| c_ds_callback f body : owner f = Ds -> code body -> code (ds_callback f body)
| c_reconnecting last : code (reconnecting last)
| c_start_time body : code body -> code (start_time body)
| c_sb_callback f body n : owner f = Sb -> code body -> code (sb_callback f body n)
| c_reconnected failed body n : code body -> code (reconnected failed body n)
| c_dial auto failed body n : code body -> code (dial auto failed body n)
| c_accepted body n : code body -> code (accepted body n).
(** One goroutine is about to assign a callback that another is about to read or assign *)
Definition race (s : list gor) (f : slot) : Prop :=
  exists i j gi gj ri rj, i <> j /\ nth_error s i = Some gi /\ nth_error s j = Some gj /\
    todo gi = Assign f :: ri /\ (todo gj = Use f :: rj \/ todo gj = Assign f :: rj).
