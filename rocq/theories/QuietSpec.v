(** What C145 says: which things ask the publisher for data. *)
From Coq Require Import ZArith List.
From Verif Require Import Base SubscriberModel SessionModel SessionSpec.
Import ListNotations.
Open Scope Z_scope.

(** The frame asks for data: ServerCommand.Subscribe is 2. *)
Definition asks_for_data (f : bytes) : Prop := command_byte f = 2.
(** The application, or the connector for it, asks for data or for a connection. *)
Definition starts (a : sact) : bool :=
  match a with SSubscribe _ _ | SDial _ _ _ | SListen _ _ _ | SAccept | SReconnect _ _ => true | _ => false end.
(** The configuration lets received metadata be followed by a subscription. *)
Definition automatic (s : session) : bool := c_AutoRequestMetadata (sn_config s) && c_AutoSubscribe (sn_config s).
