(** The receiver registered last (C140). *)
From Coq Require Import List.
From Verif Require Import RegisterModel.
Import ListNotations.
Open Scope list_scope.

(** What a new subscriber has: loggers and receivers for the beginning and the end of connections *)
Definition at_first (k : kind) : option receiver := match k with KStatus | KError | KEstablished | KTerminated => Some Default | _ => None end.
(** The history says that the receiver registered last is this one *)
Inductive registered (k : kind) : list change -> option receiver -> Prop :=
| r_first : registered k [] (at_first k)
| r_now h r : registered k (h ++ [Register k r]) r
| r_other h q r0 r : q <> k -> registered k h r -> registered k (h ++ [Register q r0]) r
| r_dial h r : registered k h r -> registered k (h ++ [Dial]) r
| r_listen h r : registered k h r -> registered k (h ++ [Listen]) r.
Definition logger (k : kind) : Prop := k = KStatus \/ k = KError.
(** Registrations only *)
Definition registers (h : list change) : Prop := forall c, In c h -> exists k r, c = Register k r.
