(** Connection and reconnection sequences (C36 - C38). *)
From Coq Require Import Lia.
From Verif Require Import Base ConnectorModel ConnectorSpec ConnectorProofs.

(** ** C36: retry delay *)

(** The settings for which the back-off does what it says: the maximum is at
    least the interval and reached within twelve doublings, and thirteen
    doublings of the interval fit an int32.  The default settings (1 s, 30 s)
    are among them. *)
Theorem C36_delay_is_capped_backoff_partial : forall c n,
  0 < retryInterval c ->
  retryInterval c <= maxRetryInterval c <= retryInterval c * 2 ^ 12 ->
  retryInterval c * 2 ^ 13 < 2 ^ 31 -> 0 <= n ->
  let d := waitForRetry_delay c n in
  d = backoff (retryInterval c) (maxRetryInterval c) n /\
  0 < d <= maxRetryInterval c /\ d <= waitForRetry_delay c (n + 1).
Proof.
  intros c n Hr Hm Ho Hn. cbv zeta. rewrite !delay_backoff by (auto; lia).
  split; [reflexivity|]. apply backoff_props; lia.
Qed.

Example C36_nonvacuous :
  let c := Settings (-1) 1000 30000 in
  map (waitForRetry_delay c) [0; 1; 2; 3; 4; 5; 6; 100]
  = [1000; 2000; 4000; 8000; 16000; 30000; 30000; 30000].
Proof. reflexivity. Qed.

(** For every setting whatsoever the delay is the retry interval itself or a
    positive number not above the maximum. *)
Theorem C36_delay_range : forall c n,
  waitForRetry_delay c n = retryInterval c \/
  0 < waitForRetry_delay c n <= maxRetryInterval c.
Proof. exact delay_cases. Qed.

(** Not monotone: with a maximum above 2^12 times the interval the fourteenth
    attempt waits half as long as the thirteenth. *)
Theorem C36_delay_not_monotone_refuted :
  let c := Settings (-1) 1000 10000000 in
  waitForRetry_delay c 13 = 8192000 /\ waitForRetry_delay c 14 = 4096000.
Proof. split; reflexivity. Qed.

(** Not capped and not increasing: with a retry interval of ten minutes and a
    maximum of one hour the int32 product overflows, and the seventh attempt
    waits ten minutes again after waits of one hour. *)
Theorem C36_delay_overflow_refuted :
  let c := Settings (-1) 600000 3600000 in
  waitForRetry_delay c 11 = 3600000 /\ waitForRetry_delay c 12 = 600000.
Proof. split; reflexivity. Qed.

(** Above the maximum: an interval larger than the maximum is used uncapped. *)
Theorem C36_delay_above_max_refuted :
  let c := Settings (-1) 5000 1000 in waitForRetry_delay c 0 = 5000.
Proof. reflexivity. Qed.

(** ** C37: MaxRetries *)

(** With MaxRetries = m >= 1, a positive interval and a server that never
    accepts, Connect on a connector whose counter is below m dials exactly m + 1
    times, waits the n-th delay after the n-th dial, and reports failure. *)
Theorem C37_gives_up_partial : forall c m a extra,
  maxRetries c = m -> 0 < retryInterval c -> is_i32 m -> 1 <= m -> a < m ->
  Connect c a (never_accepts (Z.to_nat m + 1) ++ extra)
  = (flat_map (fun n => [Dial; Wait (waitForRetry_delay c (Z.of_nat n))])
              (seq 0 (Z.to_nat m + 1)), Failed, m).
Proof.
  intros c m a extra Hm Hr Hi H1 Ha. rewrite (connect_gives_up c m) by auto. f_equal. f_equal.
  assert (G : forall n k, failing c (Z.of_nat k) n
     = flat_map (fun n => [Dial; Wait (waitForRetry_delay c (Z.of_nat n))]) (seq k n)).
  { induction n; intros k; cbn; [reflexivity|]. rewrite <- IHn.
    replace (Z.of_nat (S k)) with (Z.of_nat k + 1) by lia. reflexivity. }
  apply (G _ 0%nat).
Qed.

(** A server that accepts the dial after n <= m failures is connected to, after
    n + 1 dials. *)
Theorem C37_connects_within_limit : forall c m a n extra,
  maxRetries c = m -> 0 < retryInterval c -> is_i32 m -> 1 <= m -> a < m -> Z.of_nat n <= m ->
  let '(es, st, _) := Connect c a (never_accepts n ++ Accepts :: extra) in
  dial_count es = S n /\ st = Success.
Proof.
  intros c m a n extra Hm Hr Hi H1 Ha Hn. rewrite (connect_accepted c m) by auto.
  split; [|reflexivity].
  assert (G : forall es, dial_count (es ++ [Dial]) = S (dial_count es)).
  { induction es as [|[|] es IH]; cbn; auto. }
  rewrite G, failing_dials. reflexivity.
Qed.

(** No call of Connect makes more than m + 1 dials, whatever the server does. *)
Theorem C37_never_more_dials_partial : forall c m, maxRetries c = m -> 0 < retryInterval c ->
  is_i32 m -> 0 <= m -> forall dials a,
  let '(es, _, _) := Connect c a dials in Z.of_nat (dial_count es) <= m + 1.
Proof. exact connect_bound. Qed.

(** MaxRetries = -1: failures never end the sequence, and the first accepted
    dial does. *)
Theorem C37_unlimited : forall c, maxRetries c = -1 -> forall n a extra,
  (let '(es, st, _) := Connect c a (never_accepts n) in dial_count es = n /\ st = Running) /\
  (let '(es, st, _) := Connect c a (never_accepts n ++ Accepts :: extra) in
   dial_count es = S n /\ st = Success).
Proof.
  intros c Hm n a extra. split; [exact (loop_unlimited c Hm n false a)|].
  exact (loop_unlimited_accepts c Hm n false a extra).
Qed.

(** A publisher that accepts each connection and refuses it in the handshake is
    dialled m times by automatic reconnection, then no more. *)
Theorem C37_refusals_bounded : forall c m, maxRetries c = m -> 0 < retryInterval c ->
  is_i32 m -> 0 <= m -> forall k,
  let '(es, st, _) := session c 0 (repeat (true, [Accepts]) (Z.to_nat m + S k)) in
  dial_count es = Z.to_nat m /\ st = Failed.
Proof.
  intros c m Hm Hr Hi H0 k.
  pose proof (session_refused c m Hm Hr Hi (Z.to_nat m) 0 ltac:(lia) ltac:(lia) k) as S.
  destruct (session c 0 _) as [[es st] a']. tauto.
Qed.

(** A connection lost after it was accepted starts a new count: reconnection
    goes on as long as the server accepts again. *)
Theorem C37_lost_connections_restart_count : forall c m, maxRetries c = m -> 1 <= m -> forall n a,
  let '(es, st, _) := session c a (repeat (false, [Accepts]) n) in
  dial_count es = n /\ st = Running.
Proof. exact session_lost. Qed.

Example C37_nonvacuous :
  let c := Settings 3 1000 30000 in
  Connect c 0 (never_accepts 9)
  = ([Dial; Wait 1000; Dial; Wait 2000; Dial; Wait 4000; Dial; Wait 8000], Failed, 3) /\
  Connect c 0 [Fails false; Accepts] = ([Dial; Wait 1000; Dial], Success, 1).
Proof. split; reflexivity. Qed.

(** MaxRetries = 0 makes no attempt at all, even against a server that accepts. *)
Theorem C37_zero_retries_never_dials_refuted : forall c dials,
  maxRetries c = 0 -> Connect c 0 dials = ([], Failed, 0).
Proof. intros c dials H. apply (exhausted_no_dial c 0); auto; lia. Qed.

(** Once a sequence has given up, the next Connect fails without dialling. *)
Theorem C37_second_connect_never_dials_refuted : forall c m a extra dials,
  maxRetries c = m -> 0 < retryInterval c -> is_i32 m -> 1 <= m -> a < m ->
  let '(_, _, a1) := Connect c a (never_accepts (Z.to_nat m + 1) ++ extra) in
  Connect c a1 (Accepts :: dials) = ([], Failed, a1).
Proof.
  intros c m a extra dials Hm Hr Hi H1 Ha. rewrite (connect_gives_up c m) by auto.
  apply (exhausted_no_dial c m); auto; lia.
Qed.

(** With RetryInterval <= 0 the limit is never reached: each dial resets the
    counter, and Connect dials without pause for ever. *)
Theorem C37_no_interval_never_gives_up_refuted : forall c m,
  maxRetries c = m -> retryInterval c <= 0 -> 1 <= m -> forall n a, a < m ->
  let '(es, st, _) := Connect c a (never_accepts n) in dial_count es = n /\ st = Running.
Proof. exact loop_no_interval. Qed.

(** ** C38: Cancel *)

(** Some schedule leaves both the reconnect goroutine and Cancel waiting for
    ever: Cancel stops the timer whose channel the goroutine receives from. *)
Theorem C38_cancel_can_hang_refuted : exists sched,
  cancel (crun false cinit sched) = true /\
  forall more, ~ both_ended (crun false cinit (sched ++ more)).
Proof.
  exists hang_schedule. destruct hang_example as [H C]. split; [exact C|].
  intros more. apply (stopped_hangs false hang_schedule more H).
Qed.

(** Every schedule in which Cancel finds the wait still running ends so. *)
Theorem C38_stopped_wait_hangs_refuted : forall refused sched more,
  waits_on_stopped_timer (crun refused cinit sched) ->
  ~ both_ended (crun refused cinit (sched ++ more)).
Proof. intros. apply stopped_hangs. assumption. Qed.

(** That is the only way to hang: from every other reachable state both can end. *)
Theorem C38_no_other_hang_partial : forall refused sched,
  ~ waits_on_stopped_timer (crun refused cinit sched) ->
  exists more, both_ended (crun refused cinit (sched ++ more)).
Proof.
  intros refused sched H. destruct (no_other_hang refused sched H) as [more E].
  exists more. rewrite crun_app. exact E.
Qed.

(** A Cancel that takes effect during a wait is honoured: no dial follows. *)
Theorem C38_cancel_during_wait_no_dial_partial : forall refused sched,
  cancel (crun refused cinit sched) = true -> in_wait (crun refused cinit sched) ->
  forall more, let s := crun refused cinit (sched ++ more) in
  w s <> WDial /\ w s <> WDone true.
Proof. intros refused sched C W more. rewrite crun_app. apply cancelled_wait; assumption. Qed.

(** Cancel before the wait, or between the wait and the new connection, is
    forgotten: the goroutine reconnects although Cancel was called before, and
    Cancel returns. *)
Theorem C38_cancel_forgotten_refuted : exists sched more,
  cancel (crun false cinit sched) = true /\
  (forall b, w (crun false cinit sched) <> WDone b) /\
  x (crun false cinit (sched ++ more)) = XDone /\
  w (crun false cinit (sched ++ more)) = WDone true.
Proof.
  exists [AX], [AX; AX; AW true; AW true; AW true; ATimer; AW true; AW true; AW true; AW true; AX].
  cbn. repeat split. discriminate.
Qed.

Theorem C38_cancel_after_wait_forgotten_refuted : exists sched more,
  w (crun false cinit sched) = WUnset /\ cancel (crun false cinit sched) = true /\
  w (crun false cinit (sched ++ more)) = WDone true /\
  x (crun false cinit (sched ++ more)) = XDone /\
  cancel (crun false cinit (sched ++ more)) = false.
Proof.
  exists [AW true; AW true; AW true; ATimer; AW true; AW true; AX],
         [AX; AX; AW true; AW true; AX].
  cbn. auto.
Qed.

(** Hypotheses of the partial theorems are met by real schedules. *)
Example C38_nonvacuous :
  let sched := [AW true; AW true; AW true; ATimer; AX; AX; AX] in
  cancel (crun false cinit sched) = true /\ in_wait (crun false cinit sched) /\
  ~ waits_on_stopped_timer (crun false cinit sched) /\
  both_ended (crun false cinit (sched ++ [AW true; AW true; AX])).
Proof.
  cbv zeta. split; [reflexivity|]. split; [exists true; cbn; auto|].
  split; [intros [T _]; discriminate|]. split; [reflexivity|]. exists false. reflexivity.
Qed.

Print Assumptions C36_delay_is_capped_backoff_partial.
Print Assumptions C36_delay_range.
Print Assumptions C36_delay_not_monotone_refuted.
Print Assumptions C36_delay_overflow_refuted.
Print Assumptions C36_delay_above_max_refuted.
Print Assumptions C37_gives_up_partial.
Print Assumptions C37_connects_within_limit.
Print Assumptions C37_never_more_dials_partial.
Print Assumptions C37_unlimited.
Print Assumptions C37_refusals_bounded.
Print Assumptions C37_lost_connections_restart_count.
Print Assumptions C37_zero_retries_never_dials_refuted.
Print Assumptions C37_second_connect_never_dials_refuted.
Print Assumptions C37_no_interval_never_gives_up_refuted.
Print Assumptions C38_cancel_can_hang_refuted.
Print Assumptions C38_stopped_wait_hangs_refuted.
Print Assumptions C38_no_other_hang_partial.
Print Assumptions C38_cancel_during_wait_no_dial_partial.
Print Assumptions C38_cancel_forgotten_refuted.
Print Assumptions C38_cancel_after_wait_forgotten_refuted.
