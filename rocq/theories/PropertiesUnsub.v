(** Unsubscribe and the end of the connection (C134). *)
From Coq Require Import Arith Lia.
From Verif Require Import Base ConcModel ShutdownModel ShutdownSpec ShutdownProofs UnsubModel UnsubSpec UnsubProofs UnsubProofs2.

Definition go (i n : nat) : list nact := map (fun i => NAct (Go i)) (repeat i n).
Definition calls_on (k n : nat) : list nact := map NCall (repeat k n).
Lemma go_stays i n : stays (go i n).
Proof. unfold stays, go. rewrite Forall_map. apply Forall_forall. discriminate. Qed.
Lemma calls_stay k n : stays (calls_on k n).
Proof. unfold stays, calls_on. rewrite Forall_map. apply Forall_forall. discriminate. Qed.
Ltac staying := repeat (apply Forall_app; split); first [apply go_stays|apply calls_stay].

(** However many goroutines call Unsubscribe, and in whatever order they proceed: while the
    publisher keeps the connection and nobody disconnects, the connection stays, nothing
    is reported, every call returns and the subscriber is connected as before. *)
Theorem C134_stays : forall times sched, stays sched -> let s := nrun (ninit times []) sched in
  connected (under s) = true /\ disconnected (under s) = false /\ crashed (under s) = false /\ closed (under s) = [] /\ terminations (under s) = 0%nat /\
  (nothing_left s -> unsubscribed s /\ up (under s)).
Proof. exact unsubscribe_stays. Qed.
Print Assumptions C134_stays.
Lemma left_check s n k : (length (sgors (under s)) <= n)%nat -> (length (callers s) <= k)%nat ->
  forallb (fun i => match sstep (under s) i with None => true | _ => false end) (seq 0 n) = true -> forallb (fun i => match call_step s i with None => true | _ => false end) (seq 0 k) = true -> nothing_left s.
Proof.
  intros L1 L2 F1 F2 [[i|c]|j] A.
  - cbn. assert (E : sstep (under s) i = None); [|rewrite E; reflexivity]. destruct (Nat.lt_ge_cases i n) as [I|I].
    + rewrite forallb_forall in F1. specialize (F1 i ltac:(apply in_seq; lia)). destruct (sstep (under s) i); [discriminate|reflexivity].
    + unfold sstep. destruct (crashed (under s)); [reflexivity|]. assert (Q : nth_error (sgors (under s)) i = None) by (apply nth_error_None; lia). rewrite Q. reflexivity.
  - exfalso. exact (A c eq_refl).
  - cbn. destruct (Nat.lt_ge_cases j k) as [I|I].
    + rewrite forallb_forall in F2. specialize (F2 j ltac:(apply in_seq; lia)). destruct (call_step s j); [discriminate|reflexivity].
    + unfold call_step. destruct (crashed (under s)); [reflexivity|]. assert (Q : nth_error (callers s) j = None) by (apply nth_error_None; lia). rewrite Q. reflexivity.
Qed.
Definition overlapping : list nact := go 0 2 ++ calls_on 0 2 ++ calls_on 1 2 ++ calls_on 0 1 ++ calls_on 1 4.
Example C134_stays_example : stays overlapping /\ nothing_left (nrun (ninit [1; 2]%nat []) overlapping).
Proof. split; [unfold overlapping; staying|]. apply (left_check _ 3 3); vm_compute; auto. Qed.

(** As long as calls of Disconnect and of Unsubscribe never overlap: nothing crashes, every
    call returns, and if Disconnect was called the connection is closed and its end is
    reported.
    Missing for the full property: calls that overlap and a publisher that closes the
    connection meanwhile (see below). *)
Theorem C134_apart_partial : forall times calls sched, disconnecting_only calls -> stays sched -> apart (ninit times calls) sched ->
  let s := nrun (ninit times calls) sched in
  crashed (under s) = false /\ (terminations (under s) <= calls_of calls)%nat /\
  (nothing_left s -> unsubscribed s /\ returned (under s) /\ ((0 < calls_of calls)%nat -> down (under s) /\ In 1%nat (closed (under s)) /\ (1 <= terminations (under s))%nat)).
Proof. exact apart_shuts_down. Qed.
Print Assumptions C134_apart_partial.
Lemma unused s : forallb (fun c => match at_pc c with NIdle => true | _ => false end) (callers s) = true -> no_unsubscribe s.
Proof. intros H. rewrite forallb_forall in H. unfold no_unsubscribe. apply Forall_forall. intros x I. specialize (H x I). destruct (at_pc x); [reflexivity|discriminate|discriminate]. Qed.
Lemma not_disconnecting b : forallb (fun g => match g with User (UDisc _) _ => false | _ => true end) (sgors b) = true -> no_disconnect b.
Proof. intros H p todo I. rewrite forallb_forall in H. specialize (H _ I). discriminate. Qed.
Definition apart_now (s : nst) (a : nact) : bool :=
  match a with
  | NAct _ => forallb (fun c => match at_pc c with NIdle => true | _ => false end) (callers s)
  | NCall _ => forallb (fun g => match g with User (UDisc _) _ => false | _ => true end) (sgors (under s))
  end.
Fixpoint apart_check (s : nst) (sched : list nact) : bool :=
  match sched with [] => true | a :: r => apart_now s a && apart_check (match nact_step s a with Some s' => s' | None => s end) r end.
Lemma apart_checked sched : forall s, apart_check s sched = true -> apart s sched.
Proof.
  induction sched as [|a r IH]; intros s H; [exact I|]. cbn [apart_check] in H. apply andb_prop in H as (H1 & H2). split; [|exact (IH _ H2)].
  destruct a as [[i|c]|k]; cbn; [|exact I|].
  - intros todo _. exact (unused s H1).
  - intros n _. exact (not_disconnecting _ H1).
Qed.
Definition one_after_other : list nact := go 0 2 ++ calls_on 0 3 ++ go 1 5 ++ calls_on 0 1 ++ go 2 6 ++ go 0 5 ++ go 2 9.
Example C134_apart_example : disconnecting_only [[ODisconnect]] /\ stays one_after_other /\ apart (ninit [2]%nat [[ODisconnect]]) one_after_other /\
  let s := nrun (ninit [2]%nat [[ODisconnect]]) one_after_other in nothing_left s /\ down (under s) /\ terminations (under s) = 1%nat.
Proof.
  split; [repeat constructor|]. split; [unfold one_after_other; staying|]. split.
  - apply apart_checked. vm_compute. reflexivity.
  - cbn zeta. split; [apply (left_check _ 3 1); vm_compute; auto|vm_compute; auto].
Qed.

(** Disconnect while an Unsubscribe is under way does nothing: both calls return and the
    subscriber stays connected. *)
Definition ignored : list nact := go 0 2 ++ calls_on 0 2 ++ go 1 1 ++ calls_on 0 1.
Theorem C134_ignored_refuted : exists sched, stays sched /\ let s := nrun (ninit [1]%nat [[ODisconnect]]) sched in
  nothing_left s /\ unsubscribed s /\ returned (under s) /\ up (under s) /\ terminations (under s) = 0%nat.
Proof.
  exists ignored. split; [unfold ignored; staying|]. cbn zeta. split; [apply (left_check _ 2 1); vm_compute; auto|]. split; [repeat constructor|].
  split; [|vm_compute; auto]. intros p todo I. vm_compute in I. destruct I as [I|[I|[]]]; [discriminate|injection I as <- <-; auto].
Qed.
Print Assumptions C134_ignored_refuted.

(** An Unsubscribe that clears the flag while Disconnect is under way: the reader takes the
    closed socket for a lost connection, a second disconnection runs beside the first, and
    it uses a nil pointer - or the callback is called twice for one call. *)
Definition cleared : list nact :=
  go 0 2 ++ go 1 2 ++ calls_on 0 1 ++ go 1 3 ++ calls_on 0 2 ++ go 2 6 ++ go 0 9 ++ go 3 5.
Theorem C134_crash_refuted : exists sched, stays sched /\ crashed (under (nrun (ninit [1]%nat [[ODisconnect]]) sched)) = true.
Proof. exists (cleared ++ go 4 3 ++ go 2 2 ++ go 4 1). split; [unfold cleared; staying|vm_compute; reflexivity]. Qed.
Print Assumptions C134_crash_refuted.
Theorem C134_twice_refuted : exists sched, stays sched /\ terminations (under (nrun (ninit [1]%nat [[ODisconnect]]) sched)) = 2%nat.
Proof. exists (cleared ++ go 2 5 ++ go 4 9). split; [unfold cleared; staying|vm_compute; reflexivity]. Qed.
Print Assumptions C134_twice_refuted.

(** The same without any Disconnect, when the publisher closes the connection (without
    Unsubscribe nothing crashes then: C103). *)
Theorem C134_lost_crash_refuted : exists sched, crashed (under (nrun (ninit [1]%nat []) sched)) = true.
Proof.
  exists (go 0 2 ++ [NAct (Closes 1)] ++ go 0 6 ++ calls_on 0 1 ++ go 0 4 ++ go 1 7 ++ calls_on 0 2 ++ go 2 4 ++ go 0 6 ++ go 3 5 ++ go 4 3 ++ go 2 2 ++ go 4 1).
  vm_compute. reflexivity.
Qed.
Print Assumptions C134_lost_crash_refuted.

(** Short of that crash, a lost connection is always reported, whatever calls of Unsubscribe
    run beside it, and everything comes to an end: the socket is closed, the subscriber is
    disconnected and every goroutine has finished.
    Missing for the full property: the end is reported at least once rather than exactly
    once, and no crash. *)
Theorem C134_lost_partial : forall times sched, let s := nrun (ninit times []) sched in
  In 1%nat (gone (under s)) -> crashed (under s) = false -> nothing_left s ->
  unsubscribed s /\ down (under s) /\ In 1%nat (closed (under s)) /\ (1 <= terminations (under s))%nat /\
  (forall g, In g (sgors (under s)) -> g = Reader 1 RdEnd \/ g = Term TmEnd \/ g = Disc true XEnd).
Proof. exact lost_reported. Qed.
Print Assumptions C134_lost_partial.
Definition lost_meanwhile : list nact :=
  go 0 2 ++ calls_on 0 2 ++ [NAct (Closes 1)] ++ go 0 12 ++ go 1 7 ++ calls_on 0 1 ++ go 2 20 ++ go 0 9 ++ go 1 9 ++ go 3 20 ++ go 4 20 ++ calls_on 1 3 ++ calls_on 0 4 ++ go 0 9 ++ go 2 9 ++ go 0 9 ++ go 3 9 ++ go 2 9 ++ go 4 20.
Example C134_lost_example : let s := nrun (ninit [2; 1]%nat []) lost_meanwhile in
  In 1%nat (gone (under s)) /\ crashed (under s) = false /\ nothing_left s.
Proof. cbn zeta. split; [vm_compute; auto|]. split; [vm_compute; reflexivity|]. apply (left_check _ 6 3); vm_compute; auto 9. Qed.
