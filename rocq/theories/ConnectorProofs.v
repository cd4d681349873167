From Coq Require Import Lia ZifyBool ZifyNat.
From Verif Require Import Base BaseProofs ConnectorModel ConnectorSpec.

(** ** Delay *)

Lemma i32_small z : - 2 ^ 31 <= z < 2 ^ 31 -> i32 z = z.
Proof. intros. unfold i32. rewrite Z.mod_small by lia. lia. Qed.

Lemma delay_backoff c n :
  0 < retryInterval c -> retryInterval c <= maxRetryInterval c <= retryInterval c * 2 ^ 12 ->
  retryInterval c * 2 ^ 13 < 2 ^ 31 -> 0 <= n ->
  waitForRetry_delay c n = backoff (retryInterval c) (maxRetryInterval c) n.
Proof.
  intros Hr Hm Ho Hn. unfold waitForRetry_delay, backoff.
  destruct (Z.ltb_spec 0 n) as [Hp|Hp].
  - set (ri := retryInterval c) in *. set (mx := maxRetryInterval c) in *. cbv zeta.
    destruct (Z.ltb_spec 13 n) as [H13|H13].
    + rewrite i32_small by lia.
      assert (ri * 2 ^ 12 <= ri * 2 ^ n).
      { apply Z.mul_le_mono_nonneg_l; [lia|]. apply Z.pow_le_mono_r; lia. }
      destruct (Z.ltb_spec mx (ri * 2 ^ 12)); [|].
      * replace (0 <? mx) with true by lia. lia.
      * replace (0 <? ri * 2 ^ 12) with true by lia. lia.
    + assert (0 < 2 ^ n) by (apply Z.pow_pos_nonneg; lia).
      assert (ri * 2 ^ n <= ri * 2 ^ 13).
      { apply Z.mul_le_mono_nonneg_l; [lia|]. apply Z.pow_le_mono_r; lia. }
      assert (0 < ri * 2 ^ n) by (apply Z.mul_pos_pos; lia).
      rewrite i32_small by lia.
      destruct (Z.ltb_spec mx (ri * 2 ^ n)).
      * replace (0 <? mx) with true by lia. lia.
      * replace (0 <? ri * 2 ^ n) with true by lia. lia.
  - assert (n = 0) as -> by lia. cbn [Z.pow]. change (2 ^ 0) with 1.
    replace (maxRetryInterval c <? 0) with false by lia. cbn [Z.ltb]. 
    change (0 <? 0) with false. cbv iota. lia.
Qed.

Lemma backoff_props ri mx n :
  0 < ri -> ri <= mx -> 0 <= n ->
  0 < backoff ri mx n <= mx /\ backoff ri mx n <= backoff ri mx (n + 1).
Proof.
  intros. unfold backoff. rewrite Z.pow_add_r by lia.
  assert (0 < 2 ^ n) by (apply Z.pow_pos_nonneg; lia).
  assert (0 < ri * 2 ^ n) by (apply Z.mul_pos_pos; lia).
  change (2 ^ 1) with 2. nia.
Qed.

(** For every setting and every attempt number at all: the delay is one of the
    three values. *)
Lemma delay_cases c n :
  let d := waitForRetry_delay c n in
  d = retryInterval c \/ (0 < d <= maxRetryInterval c).
Proof.
  cbv zeta. unfold waitForRetry_delay. cbv zeta.
  match goal with |- context [if maxRetryInterval c <? ?e then _ else _] => set (r := e) end.
  destruct (Z.ltb_spec (maxRetryInterval c) r).
  - destruct (Z.ltb_spec 0 (maxRetryInterval c)); [right; lia|left; lia].
  - destruct (Z.ltb_spec 0 r); [right; lia|left; lia].
Qed.

(** ** The connect loop *)

Lemma limit_reached m a : -1 < m -> m <= a -> negb (m =? -1) && (m <=? a) = true.
Proof. intros. lia. Qed.
Lemma limit_not m a : a < m -> negb (m =? -1) && (m <=? a) = false.
Proof. intros. lia. Qed.
Lemma limit_never a : negb (-1 =? -1) && (-1 <=? a) = false.
Proof. reflexivity. Qed.

(** Events of [n] failing dials made with the counter at [a], [a+1], ... *)
Fixpoint failing (c : settings) (a : Z) (n : nat) : list event :=
  match n with
  | O => []
  | S k => Dial :: Wait (waitForRetry_delay c a) :: failing c (a + 1) k
  end.

Lemma failing_dials c a n : dial_count (failing c a n) = n.
Proof. revert a. induction n; intros; cbn; auto. Qed.

(** auto-reconnecting loop, limit m, enough failing dials *)
Lemma loop_auto_fails c m : maxRetries c = m -> 0 < retryInterval c -> is_i32 m ->
  forall n a extra, 0 <= a -> m = a + Z.of_nat n ->
  connect_loop c true a (never_accepts n ++ extra) = (failing c (a + 1) n, Failed, m).
Proof.
  intros Hm Hr Hi. unfold is_i32 in Hi. induction n as [|n IH]; intros a extra Ha E.
  - cbn [never_accepts repeat app]. assert (m = a) as Ea by lia.
    destruct extra as [|d r]; cbn [connect_loop]; rewrite Hm, limit_reached by lia; subst; reflexivity.
  - unfold never_accepts in *. cbn [repeat app connect_loop]. rewrite Hm, limit_not by lia.
    rewrite i32_small by lia. replace (0 <? retryInterval c) with true by lia.
    rewrite IH by lia. cbn [failing]. reflexivity.
Qed.

Lemma loop_auto_accepts c m : maxRetries c = m -> 0 < retryInterval c -> is_i32 m ->
  forall n a extra, 0 <= a -> m > a + Z.of_nat n ->
  connect_loop c true a (never_accepts n ++ Accepts :: extra)
  = (failing c (a + 1) n ++ [Dial], Success, a + Z.of_nat n + 1).
Proof.
  intros Hm Hr Hi. unfold is_i32 in Hi. induction n as [|n IH]; intros a extra Ha E.
  - cbn [never_accepts repeat app failing connect_loop]. rewrite Hm, limit_not by lia.
    rewrite i32_small by lia. f_equal. lia.
  - unfold never_accepts in *. cbn [repeat app connect_loop]. rewrite Hm, limit_not by lia.
    rewrite i32_small by lia. replace (0 <? retryInterval c) with true by lia.
    rewrite IH by lia. cbn [failing app]. f_equal. lia.
Qed.

Lemma connect_gives_up c m a extra :
  maxRetries c = m -> 0 < retryInterval c -> is_i32 m -> 1 <= m -> a < m ->
  Connect c a (never_accepts (Z.to_nat m + 1) ++ extra)
  = (failing c 0 (Z.to_nat m + 1), Failed, m).
Proof.
  intros Hm Hr Hi H1 Ha. unfold Connect.
  replace (Z.to_nat m + 1)%nat with (S (Z.to_nat m)) by lia.
  unfold never_accepts. cbn [repeat app connect_loop failing].
  rewrite Hm, limit_not by lia. replace (0 <? retryInterval c) with true by lia.
  change (repeat (Fails false) (Z.to_nat m)) with (never_accepts (Z.to_nat m)).
  rewrite (loop_auto_fails c m) by (auto; lia). reflexivity.
Qed.

Lemma connect_accepted c m a n extra :
  maxRetries c = m -> 0 < retryInterval c -> is_i32 m -> 1 <= m -> a < m ->
  Z.of_nat n <= m ->
  Connect c a (never_accepts n ++ Accepts :: extra)
  = (failing c 0 n ++ [Dial], Success, Z.of_nat n).
Proof.
  intros Hm Hr Hi H1 Ha Hn. unfold Connect. destruct n as [|n].
  - cbn [never_accepts repeat app failing connect_loop]. rewrite Hm, limit_not by lia. reflexivity.
  - unfold never_accepts. cbn [repeat app connect_loop failing].
    rewrite Hm, limit_not by lia. replace (0 <? retryInterval c) with true by lia.
    change (repeat (Fails false) n) with (never_accepts n).
    rewrite (loop_auto_accepts c m) by (auto; lia). cbn [app]. f_equal. lia.
Qed.

Lemma loop_unlimited c : maxRetries c = -1 -> forall n auto a,
  let '(es, st, _) := connect_loop c auto a (never_accepts n) in
  dial_count es = n /\ st = Running.
Proof.
  intros Hm. induction n as [|n IH]; intros auto a.
  - cbn [never_accepts repeat connect_loop]. rewrite Hm, limit_never. cbn. auto.
  - unfold never_accepts in *. cbn [repeat connect_loop]. rewrite Hm, limit_never.
    destruct (0 <? retryInterval c).
    + match goal with |- context [connect_loop c true ?e _] => specialize (IH true e) end.
      destruct (connect_loop c true _ _) as [[es st] a']. destruct IH as [<- ->]. cbn. auto.
    + match goal with |- context [connect_loop c auto ?e _] => specialize (IH auto e) end.
      destruct (connect_loop c auto _ _) as [[es st] a']. destruct IH as [<- ->]. cbn. auto.
Qed.

Lemma loop_unlimited_accepts c : maxRetries c = -1 -> forall n auto a extra,
  let '(es, st, _) := connect_loop c auto a (never_accepts n ++ Accepts :: extra) in
  dial_count es = S n /\ st = Success.
Proof.
  intros Hm. induction n as [|n IH]; intros auto a extra.
  - cbn [never_accepts repeat app connect_loop]. rewrite Hm, limit_never. cbn. auto.
  - unfold never_accepts in *. cbn [repeat app connect_loop]. rewrite Hm, limit_never.
    destruct (0 <? retryInterval c).
    + match goal with |- context [connect_loop c true ?e _] => specialize (IH true e extra) end.
      destruct (connect_loop c true _ _) as [[es st] a']. destruct IH as [<- ->]. cbn. auto.
    + match goal with |- context [connect_loop c auto ?e _] => specialize (IH auto e extra) end.
      destruct (connect_loop c auto _ _) as [[es st] a']. destruct IH as [<- ->]. cbn. auto.
Qed.

(** RetryInterval <= 0: every dial resets the counter, so no limit is reached. *)
Lemma loop_no_interval c m : maxRetries c = m -> retryInterval c <= 0 -> 1 <= m -> forall n a,
  a < m ->
  let '(es, st, _) := connect_loop c false a (never_accepts n) in
  dial_count es = n /\ st = Running.
Proof.
  intros Hm Hr H1. induction n as [|n IH]; intros a Ha.
  - cbn [never_accepts repeat connect_loop]. rewrite Hm, limit_not by lia. cbn. auto.
  - unfold never_accepts in *. cbn [repeat connect_loop]. rewrite Hm, limit_not by lia.
    replace (0 <? retryInterval c) with false by lia.
    specialize (IH 0 ltac:(lia)).
    destruct (connect_loop c false _ _) as [[es st] a']. destruct IH as [<- ->]. cbn. auto.
Qed.

Lemma exhausted_no_dial c m a dials : maxRetries c = m -> 0 <= m -> m <= a ->
  Connect c a dials = ([], Failed, a).
Proof.
  intros Hm H0 Ha. unfold Connect. destruct dials; cbn [connect_loop];
    rewrite Hm, limit_reached by lia; reflexivity.
Qed.

(** Every sequence, from any counter value: at most m+1 dials when a retry
    interval is set (m - a when auto-reconnecting). *)
Lemma loop_auto_bound c m : maxRetries c = m -> 0 < retryInterval c -> is_i32 m -> 0 <= m ->
  forall dials a, 0 <= a ->
  let '(es, _, a') := connect_loop c true a dials in
  a <= a' /\ Z.of_nat (dial_count es) <= Z.max 0 (m - a) /\
  (a <= m -> a + Z.of_nat (dial_count es) <= m).
Proof.
  intros Hm Hr Hi H0. unfold is_i32 in Hi. induction dials as [|d rest IH]; intros a Ha; cbn [connect_loop].
  - rewrite Hm. destruct (Z.le_gt_cases m a).
    + rewrite limit_reached by lia. cbn. lia.
    + rewrite limit_not by lia. rewrite i32_small by lia. cbn. lia.
  - rewrite Hm. destruct (Z.le_gt_cases m a).
    + rewrite limit_reached by lia. cbn. lia.
    + rewrite limit_not by lia. rewrite i32_small by lia.
      replace (0 <? retryInterval c) with true by lia.
      destruct d as [|cn]; [cbn; lia|]. destruct cn; [cbn; lia|].
      specialize (IH (a + 1) ltac:(lia)). destruct (connect_loop c true _ _) as [[es st] a'].
      cbn [dial_count]. lia.
Qed.

Lemma connect_bound c m : maxRetries c = m -> 0 < retryInterval c -> is_i32 m -> 0 <= m ->
  forall dials a, let '(es, _, _) := Connect c a dials in Z.of_nat (dial_count es) <= m + 1.
Proof.
  intros Hm Hr Hi H0 dials a. unfold Connect. destruct dials as [|d rest]; cbn [connect_loop].
  - destruct (negb _ && _); cbn; lia.
  - destruct (negb _ && _); [cbn; lia|]. replace (0 <? retryInterval c) with true by lia.
    destruct d as [|cn]; [cbn; lia|]. destruct cn; [cbn; lia|].
    pose proof (loop_auto_bound c m Hm Hr Hi H0 rest 0 ltac:(lia)) as B.
    destruct (connect_loop c true _ _) as [[es st] a']. cbn [dial_count]. lia.
Qed.

(** ** Sessions of refused connections *)

Lemma session_refused c m : maxRetries c = m -> 0 < retryInterval c -> is_i32 m ->
  forall n a, 0 <= a -> m = a + Z.of_nat n -> forall k,
  let '(es, st, a') := session c a (repeat (true, [Accepts]) (n + S k)) in
  dial_count es = n /\ st = Failed /\ a' = m.
Proof.
  intros Hm Hr Hi. unfold is_i32 in Hi. induction n as [|n IH]; intros a Ha E k.
  - cbn [Nat.add repeat session reconnect]. unfold reconnect. rewrite Hm, limit_reached by lia.
    cbn. repeat split; lia.
  - cbn [Nat.add repeat session]. unfold reconnect. cbn [connect_loop].
    rewrite Hm, limit_not by lia. rewrite i32_small by lia.
    specialize (IH (a + 1) ltac:(lia) ltac:(lia) k).
    destruct (session c (a + 1) _) as [[es st] a']. destruct IH as (<- & -> & ->).
    cbn. auto.
Qed.

Lemma session_lost c m : maxRetries c = m -> 1 <= m -> forall n a,
  let '(es, st, _) := session c a (repeat (false, [Accepts]) n) in
  dial_count es = n /\ st = Running.
Proof.
  intros Hm H1. induction n as [|n IH]; intros a.
  - cbn. auto.
  - cbn [repeat session]. unfold reconnect. cbn [connect_loop]. rewrite Hm, limit_not by lia.
    match goal with |- context [session c ?e _] => specialize (IH e) end.
    destruct (session c _ _) as [[es st] a']. destruct IH as [<- ->]. cbn. auto.
Qed.

(** ** Cancel *)

Lemma crun_app r s a b : crun r s (a ++ b) = crun r (crun r s a) b.
Proof. revert s. induction a; intros; cbn; auto. Qed.

Lemma crun_inv (P : cstate -> Prop) r :
  (forall s a s', P s -> cstep r s a = Some s' -> P s') ->
  forall sched s, P s -> P (crun r s sched).
Proof.
  intros H. induction sched as [|a rest IH]; intros s Hs; cbn [crun]; [exact Hs|].
  apply IH. destruct (cstep r s a) eqn:E; eauto.
Qed.

Definition stuck (s : cstate) : Prop :=
  tmr s = Stopped /\ (exists o, w s = WReceive o) /\ x s = XJoin.

Lemma stuck_step r s a s' : stuck s -> cstep r s a = Some s' -> stuck s'.
Proof.
  intros (T & (o & W) & X) E. destruct s as [c n t p w0 x0]. cbn in T, W, X. subst.
  destruct a; cbn in E; discriminate.
Qed.

Lemma stuck_forever r s sched : stuck s -> stuck (crun r s sched).
Proof. apply crun_inv. intros s0 a s'. apply stuck_step. Qed.

(** Invariant of the states reachable from [cinit]. *)
Definition below (q : option nat) (n : nat) : Prop :=
  match q with Some k => (k < n)%nat | None => True end.

Definition cinv (s : cstate) : Prop :=
  below (waitTimer s) (S (tid s)) /\
  match x s with XStop q => below q (S (tid s)) | _ => True end /\
  match w s with
  | WPublish _ =>
      (tmr s = Armed \/ tmr s = Fired) /\ below (waitTimer s) (tid s) /\
      match x s with XStop q => below q (tid s) | _ => True end
  | WReceive _ => tmr s <> NoTimer
  | _ => tmr s = NoTimer
  end /\
  (tmr s = Stopped -> x s = XJoin) /\
  (x s = XDone -> exists b, w s = WDone b).

Lemma cinv_init : cinv cinit.
Proof. unfold cinv; cbn. intuition discriminate. Qed.

Lemma below_S q n : below q n -> below q (S n).
Proof. destruct q; cbn; lia. Qed.

Lemma cinv_step r s a s' : cinv s -> cstep r s a = Some s' -> cinv s'.
Proof.
  intros (I1 & I2 & I3 & I4 & I5) E. destruct s as [c n t p w0 x0]. cbn in I1, I2, I3, I4, I5.
  destruct a as [acc| |]; cbn in E.
  - destruct w0; try discriminate E.
    + injection E as <-. unfold cinv; cbn. repeat split; auto.
      intros X; destruct (I5 X); discriminate.
    + injection E as <-. unfold cinv; cbn.
      repeat split; auto using below_S; try discriminate;
        try (destruct x0; auto using below_S; fail).
      intros X; destruct (I5 X); discriminate.
    + injection E as <-. unfold cinv; cbn. destruct I3 as (I3 & _ & _).
      repeat split; try lia; auto; [|intros X; destruct (I5 X); discriminate].
      intros ->; destruct I3; discriminate.
    + destruct t; try discriminate E. injection E as <-. unfold cinv; cbn.
      repeat split; auto; try discriminate. intros X; destruct (I5 X); discriminate.
    + injection E as <-. unfold cinv; cbn. subst t.
      repeat split; auto; destruct c, outer; auto;
        intros X; destruct (I5 X); discriminate.
    + injection E as <-. unfold cinv; cbn. subst t.
      repeat split; auto. intros X; destruct (I5 X); discriminate.
    + injection E as <-. unfold cinv; cbn. subst t.
      repeat split; auto; destruct acc; auto; intros X; destruct (I5 X); discriminate.
  - destruct x0 as [| |q| |]; try discriminate E.
    + injection E as <-. unfold cinv; cbn. repeat split; auto; try discriminate.
      intros T. specialize (I4 T). discriminate.
    + injection E as <-. unfold cinv; cbn. repeat split; auto; try discriminate.
      * destruct w0; intuition.
      * intros T. specialize (I4 T). discriminate.
    + injection E as <-. unfold cinv; cbn. repeat split; auto; try discriminate.
      destruct w0; try (subst t; destruct q; reflexivity).
      * destruct I3 as (T & A & B). repeat split; auto.
        destruct q as [k|]; cbn in B; [|auto]. destruct T as [->| ->]; auto.
        destruct (Nat.eqb_spec k n); [lia|auto].
      * destruct q as [k|]; [|auto]. destruct t; auto. destruct (Nat.eqb k n); discriminate.
    + destruct w0; try discriminate E. injection E as <-. unfold cinv; cbn.
      repeat split; eauto. subst t. discriminate.
  - destruct t; try discriminate E. injection E as <-. unfold cinv; cbn.
    repeat split; auto; try discriminate.
    destruct w0; intuition discriminate.
Qed.

Lemma cinv_reach r sched : cinv (crun r cinit sched).
Proof. apply crun_inv; [intros; eapply cinv_step; eauto|apply cinv_init]. Qed.

(** From every reachable state where nobody waits on a stopped timer, both
    goroutines can run to their ends. *)
Definition finish_w : list act :=
  [AW true; AW true; AW true; ATimer; AW true; AW true; AW true; AW true].
Definition finish_w2 : list act := [ATimer; AW true; AW true; AW true; AW true].
Definition finish_x : list act := [AX; AX; AX; AX].

Lemma finish_x_ok r c n t p b x0 :
  both_ended (crun r (CState c n t p (WDone b) x0) finish_x).
Proof. unfold both_ended. destruct x0; cbn; eauto. Qed.

Lemma finish_w_ok r s : cinv s -> ~ waits_on_stopped_timer s ->
  exists more b, w (crun r s more) = WDone b.
Proof.
  intros (I1 & I2 & I3 & I4 & I5) NS. destruct s as [c n t p w0 x0]. cbn in I1, I2, I3, I4, I5.
  unfold waits_on_stopped_timer in NS; cbn in NS.
  destruct w0 as [|o|o|o|o| | |b].
  - exists finish_w. subst t. destruct r, c; cbn; eauto.
  - exists (AW true :: AW true :: finish_w2). subst t. destruct c, o; cbn; eauto.
  - exists (AW true :: finish_w2). destruct I3 as ([->| ->] & _ & _), c, o; cbn; eauto.
  - exists finish_w2. destruct t; try contradiction; [| |exfalso; eauto]; destruct c, o; cbn; eauto.
  - exists finish_w2. subst t. destruct c, o; cbn; eauto.
  - exists finish_w2. subst t. cbn; eauto.
  - exists finish_w2. subst t. cbn; eauto.
  - exists []. cbn; eauto.
Qed.

Lemma no_other_hang r sched :
  let s := crun r cinit sched in
  ~ waits_on_stopped_timer s -> exists more, both_ended (crun r s more).
Proof.
  intros s NS. destruct (finish_w_ok r s (cinv_reach r sched) NS) as (more & b & W).
  exists (more ++ finish_x). rewrite crun_app. destruct (crun r s more) as [c n t p w0 x0].
  cbn in W. subst. apply finish_x_ok.
Qed.

(** A goroutine waiting on a stopped timer never gets on, nor does Cancel. *)
Lemma stopped_hangs r sched more :
  waits_on_stopped_timer (crun r cinit sched) ->
  waits_on_stopped_timer (crun r cinit (sched ++ more)) /\
  ~ both_ended (crun r cinit (sched ++ more)).
Proof.
  intros (T & o & W). pose proof (cinv_reach r sched) as (_ & _ & _ & I4 & _).
  assert (S0 : stuck (crun r cinit sched)) by (repeat split; eauto).
  rewrite crun_app. pose proof (stuck_forever r _ more S0) as (T' & (o' & W') & X').
  split; [split; eauto|]. intros (X'' & b & W''). congruence.
Qed.

(** Cancel during a wait: no dial follows. *)
Lemma cancelled_wait r s : cancel s = true -> in_wait s -> forall more,
  w (crun r s more) <> WDial /\ w (crun r s more) <> WDone true.
Proof.
  intros C W more.
  assert (P : cancel (crun r s more) = true /\
              (in_wait (crun r s more) \/ w (crun r s more) = WDone false)).
  { apply (crun_inv (fun s => cancel s = true /\ (in_wait s \/ w s = WDone false))); [|auto].
    clear. intros s a s' [C W] E. destruct s as [c n t p w0 x0]. cbn in C, W. subst c.
    unfold in_wait in *. cbn in W. destruct a; cbn in E.
    - destruct W as [[o [-> |[-> |[-> | ->]]]]| ->]; try discriminate E;
        try (destruct t; try discriminate E); injection E as <-; cbn; eauto 10.
    - destruct x0; try discriminate E; try (injection E as <-; cbn; auto).
      destruct w0; try discriminate E; injection E as <-; cbn; auto.
    - destruct t; try discriminate E; injection E as <-; cbn; auto. }
  destruct P as [_ [[o W']|W']]; [destruct W' as [W'|[W'|[W'|W']]]|]; rewrite W'; split; discriminate.
Qed.

Definition hang_schedule : list act := [AW false; AW false; AW false; AX; AX; AX].
Lemma hang_example : waits_on_stopped_timer (crun false cinit hang_schedule)
  /\ cancel (crun false cinit hang_schedule) = true.
Proof. split; [split; [reflexivity|eexists; reflexivity]|reflexivity]. Qed.
