(** Property theorems for the UDP data channel (C105). *)
From Coq Require Import List ZArith Bool Lia.
Import ListNotations.
From Verif Require Import Base ChannelModel ChannelSpec ChannelProofs.
Open Scope Z_scope.

(** In every history of a careful program, whatever the schedule, the datagrams and
    the publisher's answers: while no call is under way, exactly the data channel of
    the last Subscribe is open, if it opened one and neither Unsubscribe nor
    Disconnect was called since; otherwise none is. *)
Theorem C105_open_partial : forall s l, careful s l -> call s = None ->
  open_sockets s = (if wanted l then 1 else 0)%nat.
Proof. exact idle_count. Qed.
Print Assumptions C105_open_partial.

(** And every call returns: left to itself, the subscriber comes to rest within a
    bounded number of steps whatever the schedule; there the call has returned, and
    if no data channel is wanted every goroutine of every channel has ended.  Missing
    from the full property: programs that are not careful. *)
Theorem C105_returns_partial : forall s l, careful s l -> exists bound, forall r s', forallb internal r = true -> crun s r = Some s' ->
  (length r <= bound)%nat /\
  ((exists e s'', internal e = true /\ cstep s' e = Some s'') \/
   at_rest s' /\ call s' = None /\ open_sockets s' = (if wanted (l ++ r) then 1 else 0)%nat /\
   (wanted (l ++ r) = false -> goroutines s' = 0%nat)).
Proof.
  intros s l H. exists (measure s). intros r s' F R. destruct (careful_ends s l r s' H F R) as (B & A). split; [exact B|].
  destruct (rest_or_step s') as [X|X]; [right|left; exact X]. split; [exact X|exact (A X)].
Qed.
Print Assumptions C105_returns_partial.

Lemma from_new l s : crun NewChannel l = Some s -> history s l.
Proof. exact (history_run l NewChannel [] s h_nil). Qed.
(** Two Subscribe calls before the publisher has answered the first: the second finds
    the port in use, and Unsubscribe then never returns, whatever happens. *)
Definition twice : list event :=
  [EConnect; ECall (CSubscribe 9600) None; EListen true; EThread 0; ECall (CSubscribe 9600) None; EListen false].
Theorem C105_subscribe_twice_refuted : exists s, history s (twice ++ [ECall CUnsubscribe None; EStep]) /\
  forall l s', crun s l = Some s' -> call s' <> None /\ open_sockets s' = 1%nat.
Proof.
  eexists. split; [apply from_new; vm_compute; reflexivity|].
  intros l s' R. apply stuck_run in R; [|unfold stuck; cbn; eauto 10]. destruct R as ((p & S) & _ & _ & _ & a & b & E).
  split; [congruence|]. unfold open_sockets. rewrite S. reflexivity.
Qed.
Print Assumptions C105_subscribe_twice_refuted.
(** Nor does Disconnect complete, unless another datagram arrives. *)
Theorem C105_disconnect_blocks_refuted : exists s, history s (twice ++ [ECall CDisconnect None; EStep]) /\
  at_rest s /\ call s <> None /\ open_sockets s = 1%nat.
Proof.
  eexists. split; [apply from_new; vm_compute; reflexivity|]. split; [|split; [discriminate|reflexivity]].
  intros e I. destruct e as [| | |[]|[|[|k]]| |]; try discriminate; reflexivity.
Qed.
Print Assumptions C105_disconnect_blocks_refuted.
(** With port 0 the second Subscribe succeeds: then the first socket and its goroutine
    outlive Unsubscribe and Disconnect. *)
Theorem C105_leak_refuted : exists s l, history s l /\ call s = None /\ at_rest s /\ connected s = false /\ wanted l = false /\
  open_sockets s = 1%nat /\ goroutines s = 1%nat.
Proof.
  eexists. exists [EConnect; ECall (CSubscribe 0) None; EListen true; EThread 0; ECall (CSubscribe 0) None; EListen true; EThread 1;
              ECall CUnsubscribe None; EStep; EThread 1; EStep; ECall CDisconnect None; EStep; EStep].
  split; [apply from_new; vm_compute; reflexivity|].
  split; [reflexivity|]. split; [|repeat split; reflexivity].
  intros e I. destruct e as [| | |[]|[|[|k]]| |]; try discriminate; try reflexivity. destruct k; reflexivity.
Qed.
Print Assumptions C105_leak_refuted.
(** Unsubscribe called from the callback for new measurements never returns. *)
Theorem C105_callback_refuted : exists s,
  history s [EConnect; ECall (CSubscribe 9600) None; EListen true; EThread 0; EAnswer true; EDatagram 0; ECall CUnsubscribe (Some 0%nat); EStep] /\
  forall l s', crun s l = Some s' -> call s' <> None.
Proof.
  eexists. split; [apply from_new; vm_compute; reflexivity|].
  intros l s' R. apply self_join_run in R; [|unfold self_join; cbn; eauto]. destruct R as (a & c & E & _). congruence.
Qed.
Print Assumptions C105_callback_refuted.
(** Even a careful program: a goroutine that is scheduled late reads the next channel's
    socket.  Two goroutines then process its datagrams, and one of them goes on after
    Unsubscribe has returned. *)
Definition late : list event :=
  [EConnect; ECall (CSubscribe 9600) None; EListen true; ECall CUnsubscribe None; EStep; EStep;
   ECall (CSubscribe 9600) None; EListen true; EThread 0; EThread 1; EDatagram 0].
Lemma late_careful : forall r, (r = [] \/ r = [ECall CUnsubscribe None; EStep; EThread 1; EStep]) -> exists s, careful s (late ++ r) /\ crun NewChannel (late ++ r) = Some s.
Proof.
  assert (G : forall l s0 h s, careful s0 h -> crun s0 l = Some s ->
    (forall a e b s1, l = a ++ e :: b -> crun s0 a = Some s1 -> careful_step s1 e) -> careful s (h ++ l)).
  { induction l as [|e l IH]; intros s0 h s H R K; cbn [crun] in R.
    - injection R as <-. rewrite app_nil_r. exact H.
    - destruct (cstep s0 e) as [s1|] eqn:E; [|discriminate]. replace (h ++ e :: l) with ((h ++ [e]) ++ l) by (rewrite <- app_assoc; reflexivity).
      apply (IH s1); [eapply c_snoc; [exact H| |exact E]; apply (K [] e l s0); reflexivity|exact R|].
      intros a x b s2 L A. apply (K (e :: a) x b s2); [rewrite L; reflexivity|]. cbn [crun]. rewrite E. exact A. }
  assert (P : forall l s, (forall n s1 e, (n < length l)%nat -> crun NewChannel (firstn n l) = Some s1 -> nth_error l n = Some e -> careful_step s1 e) ->
    crun NewChannel l = Some s -> careful s l).
  { intros l s K R. apply (G l NewChannel [] s (c_nil) R). intros a e b s1 L A. apply (K (length a) s1 e).
    - rewrite L, app_length. cbn. lia.
    - rewrite L, firstn_app, firstn_all, Nat.sub_diag. cbn. rewrite app_nil_r. exact A.
    - rewrite L, nth_error_app2 by lia. rewrite Nat.sub_diag. reflexivity. }
  intros r [->| ->]; (eexists; split; [|reflexivity]; apply P; [|reflexivity]);
    intros n s1 e LT A N;
    do 15 (destruct n as [|n]; [vm_compute in N; first [discriminate N|vm_compute in A; inversion A; subst s1; inversion N; subst e; cbn; auto]|]); cbn in LT; lia.
Qed.
Theorem C105_two_readers_refuted : exists s, careful s late /\ open_sockets s = 1%nat /\ threads s = [TBusy (Real 1); TRead (Real 1)].
Proof.
  destruct (late_careful [] (or_introl eq_refl)) as (s & C & R). rewrite app_nil_r in C, R. exists s. split; [exact C|].
  vm_compute in R. injection R as <-. split; reflexivity.
Qed.
Print Assumptions C105_two_readers_refuted.
Theorem C105_data_after_unsubscribe_refuted : exists s l, careful s l /\ call s = None /\ wanted l = false /\ nth_error (threads s) 0 = Some (TBusy (Real 1)).
Proof.
  destruct (late_careful _ (or_intror eq_refl)) as (s & C & R). exists s. eexists. split; [exact C|].
  vm_compute in R. injection R as <-. repeat split; reflexivity.
Qed.
Print Assumptions C105_data_after_unsubscribe_refuted.
(** Careful histories with a channel open and being closed. *)
Example C105_nonvacuous : exists s1 s2, careful s1 late /\ call s1 = None /\ wanted late = true /\
  careful s2 (late ++ [ECall CUnsubscribe None; EStep; EThread 1; EStep]) /\ wanted (late ++ [ECall CUnsubscribe None; EStep; EThread 1; EStep]) = false.
Proof.
  destruct (late_careful [] (or_introl eq_refl)) as (s & C & R). destruct (late_careful _ (or_intror eq_refl)) as (s2 & C2 & R2).
  rewrite app_nil_r in C, R. exists s, s2. split; [exact C|]. split; [vm_compute in R; injection R as <-; reflexivity|].
  split; [reflexivity|]. split; [exact C2|reflexivity].
Qed.
