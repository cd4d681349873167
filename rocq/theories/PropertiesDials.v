(** C141: a subscriber has one connection at a time, however many goroutines connect it. *)
From Coq Require Import List Bool Arith Lia.
From Verif Require Import ConcModel ConcProofs DialsModel DialsSpec DialsProofs.
Import ListNotations.
Open Scope list_scope.

(** Whatever the goroutines ask for and however they are scheduled, a call that begins
    after any call has returned nil is refused, at once and with an error. *)
Theorem C141_refused : forall progs sched t1 j t2 i t3,
  trace (run dstep (dinit progs) sched) = t1 ++ Returns j true :: t2 ++ Begins i :: t3 ->
  exists t4, t3 = Returns i false :: t4.
Proof.
  intros progs sched.
  enough (K : well (run dstep (dinit progs) sched) /\ refuses (trace (run dstep (dinit progs) sched))) by exact (proj2 K).
  apply run_keeps; [|split; [apply well_init|intros t1 j t2 i t3 H; destruct t1; discriminate]].
  intros s k s' (W & R) E. exact (conj (well_step _ _ _ W E) (refuses_step _ _ _ W R E)).
Qed.
Print Assumptions C141_refused.

(** Calls that take turns, from whichever goroutines: never more than one connection is
    open, and it is the one the subscriber knows and will close.  Missing: calls that
    overlap (refuted below). *)
Theorem C141_one_connection_partial : forall progs sched,
  let s := run dstep (dinit progs) sched in
  turns (trace s) ->
  (socket s = None /\ opened s = [] /\ flag s = false) \/ (exists n, socket s = Some n /\ opened s = [n] /\ flag s = true).
Proof.
  intros progs sched s T. destruct (run_keeps orderly orderly_step sched _ (orderly_init progs) T) as (O & _).
  destruct O as [(A & B & C)|(A & B & C)]; [left|right; exists 0]; auto.
Qed.
Print Assumptions C141_one_connection_partial.

(** The flag is looked at before the mutex is taken and not again inside: any number of
    goroutines that connect at once can all be told they have connected, each with a
    connection of its own, of which the subscriber knows (and can close) the last alone. *)
Theorem C141_one_connection_refuted : forall n, exists sched,
  let s := run dstep (dinit (repeat [true] (S n))) sched in
  dgors s = repeat (DGor Idle []) (S n) /\ successes (trace s) = S n /\ length (opened s) = S n /\ socket s = Some n.
Proof.
  intros n. exists (seq 0 (S n) ++ flat_map (fun i => [i; i; i; i]) (seq 0 (S n))). cbv zeta. rewrite run_app.
  destruct (all_look (S n) 0 []) as (t & T & R). rewrite init_repeat. change (repeat (DGor Idle [true]) (S n)) with (repeat (DGor (AtLock true) []) 0 ++ repeat (DGor Idle [true]) (S n)). rewrite R.
  destruct (all_dial (S n) 0 false None [] t) as (t' & so' & op' & f' & S1 & S2 & S3 & S4).
  change (repeat (DGor (AtLock true) []) (0 + S n)) with (repeat (DGor Idle []) 0 ++ repeat (DGor (AtLock true) []) (S n)). rewrite S4.
  cbn [dgors trace opened socket]. rewrite S1, T, S2, S3 by lia. repeat split. cbn [length]. f_equal. lia.
Qed.
Print Assumptions C141_one_connection_refuted.

(** Three goroutines that take turns: the first is not accepted, the second connects, the
    third and the first are refused. *)
Example C141_nonvacuous :
  let s := run dstep (dinit [[false; true]; [true]; [true]]) [0; 0; 0; 0; 1; 1; 1; 1; 1; 2; 0] in
  trace s = [Begins 0; Returns 0 false; Begins 1; Returns 1 true; Begins 2; Returns 2 false; Begins 0; Returns 0 false] /\ turns (trace s) /\ opened s = [0] /\ socket s = Some 0.
Proof. vm_compute. repeat split. Qed.
(** Two that overlap: both connect. *)
Example C141_nonvacuous_overlap :
  let s := run dstep (dinit [[true; true]; [true]]) [0; 1; 0; 0; 0; 0; 1; 1; 1; 1; 0] in
  trace s = [Begins 0; Begins 1; Returns 0 true; Returns 1 true; Begins 0; Returns 0 false] /\ opened s = [0; 1] /\ socket s = Some 1.
Proof. vm_compute. repeat split. Qed.
