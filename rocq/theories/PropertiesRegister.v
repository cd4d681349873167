(** Which receiver is called (C140). *)
From Coq Require Import List ZArith.
From Verif Require Import RegisterModel RegisterSpec RegisterProofs.
Import ListNotations.
Open Scope list_scope.

(** One receiver is the one registered last, for every kind and history. *)
Theorem C140_registered : forall k h, (exists r, registered k h r) /\ (forall r r', registered k h r -> registered k h r' -> r = r').
Proof. intros k h. split; [apply registered_total|]. intros r r' A B. rewrite <- (kept_registered _ _ _ A). apply kept_registered, B. Qed.
Print Assumptions C140_registered.

(** Whatever arrives, other than messages and connections, goes to the receiver
    registered last and to it alone, also when it was registered while connected. *)
Theorem C140_receivers : forall k h r, ~ logger k -> k <> KEstablished -> (In Dial h \/ In Listen h) -> registered k h r -> called (after h) (Arrives k) = one r.
Proof.
  intros k h r L N S R. apply kept_registered in R. unfold kept in R. cbn [called]. unfold arrives, handler.
  destruct k; try (exfalso; apply L; unfold logger; auto; fail); try congruence; cbn [in_subscriber] in R;
    try (rewrite handled_after; [|unfold handled_kind; auto|exact S]); rewrite R; reflexivity.
Qed.
Print Assumptions C140_receivers.
(** Messages reported through the Subscriber go to the logger registered last. *)
Theorem C140_reports : forall k h r, logger k -> registered k h r -> called (after h) (Reports k) = one r.
Proof. intros k h r L R. apply kept_registered in R. unfold kept in R. cbn [called]. destruct L as [->| ->]; cbn [in_subscriber] in R; rewrite R; reflexivity. Qed.
Print Assumptions C140_reports.
(** The connection-established receiver registered last is called once per
    connection - accepted, dialed or made again - unless the subscriber has
    listened before it dials. *)
Theorem C140_connected_partial : forall h r, registered KEstablished h r ->
  (In Listen h -> called (after h) Accepted = one r) /\
  (~ In Listen h -> In Dial h -> called (after h) Dialed = one r /\ called (after h) Redialed = one r).
Proof.
  intros h r R. apply kept_registered in R. unfold kept in R. cbn [in_subscriber] in R. cbn [called]. unfold arrives, handler. rewrite R. split.
  - intros L. apply established_after in L. rewrite L. reflexivity.
  - intros L D. rewrite (con_after h D). destruct (handled (after h) KEstablished) eqn:E; [apply established_after in E; contradiction|]. split; reflexivity.
Qed.
Print Assumptions C140_connected_partial.
Theorem C140_connected_refuted : forall h r, registered KEstablished h r -> In Listen h -> In Dial h ->
  called (after h) Dialed = one r ++ one r /\ called (after h) Redialed = one r ++ one r.
Proof.
  intros h r R L D. apply kept_registered in R. unfold kept in R. cbn [in_subscriber] in R. cbn [called]. unfold arrives, handler. rewrite R, (con_after h D).
  apply established_after in L. rewrite L. split; reflexivity.
Qed.
Print Assumptions C140_connected_refuted.

(** The library's own messages go to the logger that was registered when the
    subscriber last dialed or listened, ... *)
Theorem C140_messages_partial : forall k h c h' r, logger k -> (c = Dial \/ c = Listen) -> registers h' -> registered k h r ->
  called (after (h ++ c :: h')) (Arrives k) = one r.
Proof. intros k h c h' r L C G R. pose proof (messages_after k h c h' L C G r R) as M. cbn [called]. destruct L as [->| ->]; cbn [arrives]; rewrite M; reflexivity. Qed.
Print Assumptions C140_messages_partial.
Theorem C140_connector_partial : forall h h' r, (forall c, In c h' -> c <> Dial) -> registered KError h r -> called (after (h ++ Dial :: h')) ConnectorFails = one r.
Proof. intros h h' r N R. cbn [called]. rewrite (con_error_after h h' N r R). reflexivity. Qed.
Print Assumptions C140_connector_partial.
(** ... so a logger registered later gets none of them. *)
Theorem C140_logger_refuted : forall k n, logger k -> exists h, registered k h (Some (Mine n)) /\ In Dial h /\ called (after h) (Arrives k) = [Default].
Proof.
  intros k n L. exists ([Dial] ++ [Register k (Some (Mine n))]). split; [apply r_now|]. split; [left; reflexivity|]. destruct L as [->| ->]; reflexivity.
Qed.
Print Assumptions C140_logger_refuted.

Example C140_nonvacuous :
  let h := [Register KMetadata (Some (Mine 1)); Register KMeasurements (Some (Mine 2)); Register KError (Some (Mine 3)); Dial; Register KMetadata (Some (Mine 4)); Register KMeasurements None; Register KError (Some (Mine 5))] in
  called (after h) (Arrives KMetadata) = [Mine 4] /\ called (after h) (Arrives KMeasurements) = [] /\ called (after h) (Arrives KTerminated) = [Default] /\
  called (after h) (Reports KError) = [Mine 5] /\ called (after h) (Arrives KError) = [Mine 3] /\ called (after h) ConnectorFails = [Mine 3] /\
  called (after h) Dialed = [Default] /\ called (after (Listen :: h)) Dialed = [Default; Default].
Proof. vm_compute. repeat split. Qed.
