(** C142: the application is told everything once, in the order in which it happened. *)
From Coq Require Import List Bool Arith Lia Permutation.
From Verif Require Import ConcModel RegisterModel HeardModel HeardSpec HeardProofs.
Import ListNotations.
Open Scope list_scope.

(** Under every schedule nothing is told twice, and nothing that has not happened; once
    all has happened and every goroutine has run, everything has been told, once. *)
Theorem C142_once : forall progs ms,
  let s := hrun progs ms in
  (exists rest, Permutation (happenings 0 progs) (rest ++ heard s)) /\
  ((forall p, In p (sources s) -> p = []) -> started s = [] -> Permutation (happenings 0 progs) (heard s)).
Proof.
  intros progs ms s. assert (K : kept progs s) by (apply (hrun_keeps (kept progs) (kept_step progs)); unfold kept; cbn [sources started heard app]; rewrite app_nil_r; reflexivity).
  unfold kept in K. split; [exists (happenings 0 (sources s) ++ started s); rewrite <- app_assoc; exact K|].
  intros H E. rewrite E, (happenings_none _ 0 H) in K. exact K.
Qed.
Print Assumptions C142_once.

(** Measurements, buffer blocks, start times and connections made and ended are told in
    the order in which they happen in their goroutine, under every schedule.  Missing:
    everything else (refuted below). *)
Theorem C142_order_partial : forall progs ms i p,
  nth_error progs i = Some p ->
  exists rest, filter sequenced p = filter sequenced (heard_of i (heard (hrun progs ms))) ++ rest.
Proof.
  intros progs ms i p P. destruct (hrun_keeps (along progs) (along_step progs) ms _ (along_init progs)) as (_ & B & _).
  destruct (B i p P) as (q & d & _ & -> & E). exists (filter sequenced q). unfold hrun. rewrite E. apply filter_app.
Qed.
Print Assumptions C142_order_partial.

(** Nothing is told before the measurements, buffer blocks, start times and connections
    that came before it: the end of a historical read, say, never before its measurements. *)
Theorem C142_after : forall progs ms i p a x b e c h1 h2,
  nth_error progs i = Some p -> NoDup p -> p = a ++ x :: b ++ e :: c -> sequenced x = true ->
  heard (hrun progs ms) = h1 ++ (i, e) :: h2 ->
  In (i, x) h1.
Proof.
  intros progs ms i p a x b e c h1 h2 P U E S H. destruct (hrun_keeps (along progs) (along_step progs) ms _ (along_init progs)) as (_ & _ & _ & D).
  destruct (D i p e h1 h2 P H) as (a' & c' & E' & T). apply T; [|exact S].
  assert (F : a ++ x :: b = a'). { apply (split_unique e _ c _ c'); rewrite <- app_assoc; cbn [app]; [rewrite <- E; exact U|rewrite <- E; exact E']. }
  rewrite <- F. apply in_or_app. right. left. reflexivity.
Qed.
Print Assumptions C142_after.

(** All else is told by a goroutine of its own: whatever happens, in whatever order, the
    messages, notifications, metadata, signal index caches and configuration changes can
    all be told in any other order, and after all measurements that follow them. *)
Theorem C142_order_refuted : forall p l,
  Permutation (filter (fun e => negb (sequenced e)) p) l ->
  exists ms, let s := hrun [p] ms in
    sources s = [[]] /\ started s = [] /\ heard_of 0 (heard s) = filter sequenced p ++ l.
Proof.
  intros p l P. destruct (any_order [[]] (map (pair 0) l) (map (pair 0) (filter (fun e => negb (sequenced e)) p)) (map (pair 0) (filter sequenced p)) (Permutation_map _ P)) as (ms & M).
  exists (repeat (Happens 0) (length p) ++ ms). unfold hrun. cbv zeta. rewrite fold_left_app, all_happen. cbn [app]. rewrite M. cbn [sources started heard]. split; [reflexivity|]. split; [reflexivity|].
  rewrite <- map_app. induction (filter sequenced p ++ l) as [|y r IH]; [reflexivity|]. cbn [map heard_of Nat.eqb]. rewrite IH. reflexivity.
Qed.
Print Assumptions C142_order_refuted.

(** A cache, measurements in it, a second cache, measurements, the end of the read; a
    data channel beside it; the schedule swaps the caches. *)
Example C142_nonvacuous :
  let p := [(KUpdated, 1); (KMeasurements, 1); (KUpdated, 2); (KMeasurements, 2); (KComplete, 1)] in
  let s := hrun [p; [(KMeasurements, 7); (KStatus, 8)]] [Happens 0; Happens 0; Happens 1; Happens 0; Calls 1; Happens 1; Happens 0; Calls 0; Happens 0; Calls 1; Calls 0] in
  NoDup p /\ started s = [] /\ heard_of 0 (heard s) = [(KMeasurements, 1); (KUpdated, 2); (KMeasurements, 2); (KUpdated, 1); (KComplete, 1)] /\ heard_of 1 (heard s) = [(KMeasurements, 7); (KStatus, 8)].
Proof. split; [repeat constructor; cbn; intuition congruence|vm_compute; repeat split]. Qed.
Example C142_nonvacuous_refuted :
  Permutation (filter (fun e => negb (sequenced e)) [(KNotification, 1); (KMeasurements, 1); (KNotification, 2)]) [(KNotification, 2); (KNotification, 1)].
Proof. cbn. apply perm_swap. Qed.
