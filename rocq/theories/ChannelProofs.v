(** The life of data channels under every schedule. *)
From Coq Require Import List ZArith Bool Lia.
Import ListNotations.
From Verif Require Import Base ChannelModel ChannelSpec.
Open Scope Z_scope.

Lemma set_nth_length {A} (l : list A) k x : length (set_nth l k x) = length l.
Proof. revert k. induction l; intros [|k]; cbn [set_nth length]; auto. Qed.
Lemma set_nth_same {A} (l : list A) k x y : nth_error l k = Some y -> nth_error (set_nth l k x) k = Some x.
Proof. revert k. induction l; intros [|k] H; cbn in *; try discriminate; auto. Qed.
Lemma set_nth_other {A} (l : list A) k j x : j <> k -> nth_error (set_nth l k x) j = nth_error l j.
Proof. revert k j. induction l; intros [|k] [|j] H; cbn; auto; try congruence. Qed.

(** Every socket is closed; every socket but the one in the field is. *)
Definition closed (s : chan) (k : nat) : Prop := forall x, nth_error (socks s) k = Some x -> s_open x = false.
Definition all_closed (s : chan) : Prop := forall k, closed s k.
Definition others_closed (s : chan) : Prop := forall k, field s <> Some (Real k) -> closed s k.
Definition inv (s : chan) : Prop :=
  others_closed s /\
  match call s with
  | None => connected s = false -> all_closed s
  | Some (PClose _, b) => b = None
  | Some (PJoin _, b) => b = None /\ all_closed s
  | Some (PListen _, b) => b = None /\ all_closed s /\ connected s = true
  end /\
  (match call s with Some (PClose (ThenListen _), _) | Some (PJoin (ThenListen _), _) => connected s = true | _ => True end).

Lemma open_zero s : open_sockets s = 0%nat <-> all_closed s.
Proof.
  unfold open_sockets, all_closed, closed. induction (socks s) as [|x l IH].
  - split; [intros _ k y H; destruct k; discriminate|reflexivity].
  - cbn [filter]. split.
    + destruct (s_open x) eqn:E; [discriminate|]. intros H [|k] y Y; cbn in Y; [injection Y as <-; exact E|]. apply (proj1 IH H k y Y).
    + intros H. rewrite (H 0%nat x eq_refl). apply IH. intros k y Y. exact (H (S k) y Y).
Qed.
Lemma close_field_closed s : others_closed s ->
  forall k x, nth_error (close_field s) k = Some x -> s_open x = false.
Proof.
  intros H k x. unfold close_field. destruct (field s) as [[|j]|] eqn:F.
  - intros X. apply (H k) with (x := x); [rewrite F; discriminate|exact X].
  - destruct (nth_error (socks s) j) as [y|] eqn:J.
    + destruct (Nat.eq_dec k j) as [->|N]; [rewrite (set_nth_same _ _ _ _ J); intros X; injection X as <-; reflexivity|].
      rewrite set_nth_other by exact N. intros X. apply (H k) with (x := x); [rewrite F; congruence|exact X].
    + intros X. destruct (Nat.eq_dec k j) as [->|N]; [congruence|]. apply (H k) with (x := x); [rewrite F; congruence|exact X].
  - intros X. apply (H k) with (x := x); [rewrite F; discriminate|exact X].
Qed.

Lemma inv_new : inv NewChannel.
Proof. repeat split; unfold all_closed, others_closed, closed; cbn; intros; destruct k; discriminate. Qed.
Ltac same := repeat split; auto; try tauto; try discriminate.
Lemma inv_step s e s' : inv s -> careful_step s e -> cstep s e = Some s' -> inv s'.
Proof.
  intros (O & C & L) CS H. destruct e as [|c b| |ok|k|k|b]; cbn [cstep] in H.
  - destruct (call s) eqn:E; [discriminate|]. destruct (connected s) eqn:K; [discriminate|]. injection H as <-.
    unfold inv. cbn [call]. split; [exact O|]. split; [cbn; discriminate|exact I].
  - destruct (call s) eqn:E; [discriminate|].
    destruct (negb _); [discriminate|]. destruct c as [p| |]; cbn [careful_step] in CS.
    + destruct CS as (-> & CS). destruct (connected s) eqn:K; cbn [negb] in H; [|injection H as <-; unfold inv; rewrite E, K; auto].
      destruct (subscribed s) eqn:S; injection H as <-; unfold inv, set_call; cbn [call connected].
      * split; [exact O|]. split; [reflexivity|]. exact K.
      * split; [exact O|]. split; [|exact I]. split; [reflexivity|]. split; [|exact K]. apply open_zero. destruct CS; [congruence|assumption].
    + subst b. destruct (connected s) eqn:K; cbn [negb] in H; injection H as <-; unfold inv, set_call; cbn [call connected].
      * split; [exact O|]. split; [reflexivity|exact I].
      * rewrite E, K. auto.
    + subst b. injection H as <-. unfold inv. cbn [call]. split; [exact O|]. split; [reflexivity|exact I].
  - destruct (call s) as [[[a|a|p] b]|] eqn:E; try discriminate.
    + injection H as <-. assert (AC : forall k x, nth_error (close_field s) k = Some x -> s_open x = false) by (apply close_field_closed, O).
      unfold inv. cbn [call connected]. split; [intros k _ x X; exact (AC k x X)|]. split; [split; [exact C|intros k x X; exact (AC k x X)]|].
      destruct a; auto.
    + destruct (join_returns s); [|discriminate]. injection H as <-. destruct C as (-> & C). destruct a; unfold inv, set_call; cbn [call connected].
      * split; [exact O|]. auto.
      * split; [exact O|]. auto.
      * split; [exact O|]. auto.
  - destruct (call s) as [[[a|a|p] b]|] eqn:E; try discriminate. destruct C as (-> & C & K). destruct ok.
    + destruct (port_free s p); [|discriminate]. injection H as <-. unfold inv. cbn [call connected]. split; [|split; [intros X; congruence|exact I]].
      intros k F x X. cbn [socks field] in *. destruct (Nat.lt_ge_cases k (length (socks s))) as [LT|GE].
      * rewrite nth_error_app1 in X by exact LT. exact (C k x X).
      * destruct (Nat.eq_dec k (length (socks s))) as [->|NE]; [congruence|].
        assert (Y : nth_error (socks s ++ [mkSock true p]) k <> None) by congruence. apply nth_error_Some in Y. rewrite app_length in Y. cbn in Y. lia.
    + injection H as <-. unfold inv. cbn [call connected]. split; [intros k _; exact (C k)|]. split; [intros _; exact C|exact I].
  - destruct (nth_error (threads s) k) as [[|c|c|]|]; try discriminate.
    + injection H as <-. exact (conj O (conj C L)).
    + destruct (read_fails s c); [|discriminate]. injection H as <-. exact (conj O (conj C L)).
    + destruct (calling s k); [discriminate|]. injection H as <-. exact (conj O (conj C L)).
  - destruct (nth_error (threads s) k) as [[|c|c|]|]; try discriminate.
    destruct (read_fails s c); [discriminate|]. injection H as <-. exact (conj O (conj C L)).
  - destruct (connected s) eqn:K; [|discriminate]. injection H as <-. unfold inv. cbn [call connected]. split; [exact O|].
    destruct (call s) as [[[a|a|p] b0]|]; [split; [exact C|destruct a; auto]|split; [exact C|destruct a; auto]|split; [exact C|exact I]|split; [discriminate|exact I]].
Qed.
Lemma careful_inv s l : careful s l -> inv s.
Proof. induction 1; [apply inv_new|eapply inv_step; eassumption]. Qed.

(** ** How many are open *)
Lemma wanted_snoc l e b : wanted_from b (l ++ [e]) =
  match e with EListen ok => ok | ECall CUnsubscribe _ | ECall CDisconnect _ => false | _ => wanted_from b l end.
Proof.
  revert b. induction l as [|x l IH]; intros b; cbn [app wanted_from].
  - destruct e as [|[]| | | | |]; reflexivity.
  - destruct x as [|[]| | | | |]; rewrite IH; destruct e as [|[]| | | | |]; reflexivity.
Qed.
(** While no call is under way (or Unsubscribe and Disconnect have not yet closed, or
    Subscribe is about to), the count is what is wanted. *)
Definition counted (s : chan) (w : bool) : Prop :=
  match call s with
  | None => open_sockets s = if w then 1%nat else 0%nat
  | Some (PClose (ThenListen _), _) => open_sockets s = if w then 1%nat else 0%nat
  | Some (PClose _, _) => w = false
  | Some (PJoin (ThenListen _), _) => open_sockets s = 0%nat
  | Some (PJoin _, _) => open_sockets s = 0%nat /\ w = false
  | Some (PListen _, _) => open_sockets s = 0%nat
  end.
Lemma open_app l x : length (filter s_open (l ++ [x])) = (length (filter s_open l) + if s_open x then 1 else 0)%nat.
Proof. rewrite filter_app, app_length. cbn [filter]. destruct (s_open x); reflexivity. Qed.
Lemma closed_close s : others_closed s -> length (filter s_open (close_field s)) = 0%nat.
Proof.
  intros H. pose proof (close_field_closed s H) as C. induction (close_field s) as [|x l IH]; [reflexivity|].
  cbn [filter]. rewrite (C 0%nat x eq_refl). apply IH. intros k y Y. exact (C (S k) y Y).
Qed.
Lemma counted_step s l e s' : inv s -> careful_step s e -> cstep s e = Some s' -> counted s (wanted l) -> counted s' (wanted (l ++ [e])).
Proof.
  intros (O & C & L) CS H K. unfold wanted in *. rewrite wanted_snoc. set (w := wanted_from false l) in *. clearbody w.
  unfold counted in *. destruct e as [|c b| |ok|k|k|b]; cbn [cstep] in H.
  - destruct (call s) eqn:E; [discriminate|]. destruct (connected s); [discriminate|]. injection H as <-. exact K.
  - destruct (call s) eqn:E; [discriminate|]. destruct (negb _); [discriminate|]. destruct c as [p| |]; cbn [careful_step] in CS.
    + destruct (connected s) eqn:KC; cbn [negb] in H; [|injection H as <-; rewrite E; exact K].
      destruct (subscribed s) eqn:S; injection H as <-; unfold set_call; cbn [call]; [exact K|]. destruct CS as (_ & [CS|CS]); [congruence|exact CS].
    + destruct (connected s) eqn:KC; cbn [negb] in H; injection H as <-; unfold set_call; cbn [call]; [reflexivity|].
      rewrite E. apply open_zero, C. reflexivity.
    + injection H as <-. reflexivity.
  - destruct (call s) as [[[a|a|p] b]|] eqn:E; try discriminate.
    + injection H as <-. cbn [call socks]. unfold open_sockets. cbn [socks]. pose proof (closed_close s O) as Z0. destruct a; auto.
    + destruct (join_returns s); [|discriminate]. injection H as <-. destruct a; unfold set_call, open_sockets in *; cbn [call socks]; [exact K|destruct K as (K & ->); exact K|destruct K as (K & ->); exact K].
  - destruct (call s) as [[[a|a|p] b]|] eqn:E; try discriminate. destruct ok.
    + destruct (port_free s p); [|discriminate]. injection H as <-. cbn [call]. unfold open_sockets in *. cbn [socks]. rewrite open_app, K. reflexivity.
    + injection H as <-. exact K.
  - destruct (nth_error (threads s) k) as [[|c|c|]|]; try discriminate.
    + injection H as <-. exact K.
    + destruct (read_fails s c); [|discriminate]. injection H as <-. exact K.
    + destruct (calling s k); [discriminate|]. injection H as <-. exact K.
  - destruct (nth_error (threads s) k) as [[|c|c|]|]; try discriminate.
    destruct (read_fails s c); [discriminate|]. injection H as <-. exact K.
  - destruct (connected s); [|discriminate]. injection H as <-. exact K.
Qed.
Lemma careful_counted s l : careful s l -> counted s (wanted l).
Proof. induction 1; [reflexivity|]. eapply counted_step; try eassumption. eapply careful_inv; eassumption. Qed.
Lemma idle_count s l : careful s l -> call s = None -> open_sockets s = if wanted l then 1%nat else 0%nat.
Proof. intros H E. pose proof (careful_counted s l H) as K. unfold counted in K. rewrite E in K. exact K. Qed.

(** ** Every call returns *)
Definition weight (t : thread) : nat := match t with TNew => 3 | TBusy _ => 2 | TRead _ => 1 | TDone => 0 end.
Definition total (l : list thread) : nat := fold_right (fun t n => weight t + n)%nat 0%nat l.
Definition measure (s : chan) : nat :=
  total (threads s) + match call s with None => 0 | Some (PListen _, _) => 4 | Some (PJoin _, _) => 5 | Some (PClose _, _) => 6 end.
Lemma total_app l t : total (l ++ [t]) = (total l + weight t)%nat.
Proof. unfold total. induction l; cbn [app fold_right] in *; lia. Qed.
Lemma total_set l k t u : nth_error l k = Some t -> (total (set_nth l k u) + weight t = total l + weight u)%nat.
Proof. unfold total. revert k. induction l as [|x l IH]; intros [|k] H; cbn in H; try discriminate; cbn [set_nth fold_right]; [injection H as <-; lia|]. specialize (IH k H). lia. Qed.
Lemma internal_less s e s' : internal e = true -> cstep s e = Some s' -> (measure s' < measure s)%nat.
Proof.
  intros I H. unfold measure. destruct e as [|c b| |ok|k|k|b]; try discriminate; cbn [cstep] in H.
  - destruct (call s) as [[[a|a|p] b]|] eqn:E; try discriminate.
    + injection H as <-. cbn [call threads]. lia.
    + destruct (join_returns s); [|discriminate]. injection H as <-. destruct a; cbn [set_call call threads]; lia.
  - destruct (call s) as [[[a|a|p] b]|] eqn:E; try discriminate. destruct ok.
    + destruct (port_free s p); [|discriminate]. injection H as <-. cbn [call threads]. rewrite total_app. cbn [weight]. lia.
    + injection H as <-. cbn [call threads]. lia.
  - destruct (nth_error (threads s) k) as [[|c|c|]|] eqn:T; try discriminate.
    + injection H as <-. unfold set_thread. cbn [call threads].
      pose proof (total_set _ _ _ (if connected s then match field s with Some c => TRead c | None => TDone end else TDone) T) as X.
      assert (W : (weight (if connected s then match field s with Some c => TRead c | None => TDone end else TDone) <= 1)%nat) by (destruct (connected s), (field s); cbn; lia).
      cbn [weight] in X. lia.
    + destruct (read_fails s c); [|discriminate]. injection H as <-. unfold set_thread. cbn [call threads].
      pose proof (total_set _ _ _ TDone T) as X. cbn [weight] in X. lia.
    + destruct (calling s k); [discriminate|]. injection H as <-. unfold set_thread. cbn [call threads].
      pose proof (total_set _ _ _ (if connected s then TRead c else TDone) T) as X.
      assert (W : (weight (if connected s then TRead c else TDone) <= 1)%nat) by (destruct (connected s); cbn; lia).
      cbn [weight] in X. lia.
Qed.
Lemma internal_bound l : forall s s', forallb internal l = true -> crun s l = Some s' -> (length l <= measure s)%nat.
Proof.
  induction l as [|e l IH]; intros s s' F H; cbn [length]; [lia|]. cbn [forallb] in F. apply andb_prop in F as (I & F). cbn [crun] in H.
  destruct (cstep s e) as [s1|] eqn:E; [|discriminate]. pose proof (internal_less _ _ _ I E). pose proof (IH _ _ F H). lia.
Qed.
Lemma rest_returned s : inv s -> at_rest s -> call s = None.
Proof.
  intros (O & C & L) R. destruct (call s) as [[[a|a|p] b]|] eqn:E; [| | |reflexivity]; exfalso.
  - specialize (R EStep eq_refl). cbn [cstep] in R. rewrite E in R. discriminate.
  - destruct C as (-> & C). pose proof (R EStep eq_refl) as R1. cbn [cstep] in R1. rewrite E in R1.
    destruct (join_returns s) eqn:J; [destruct a; discriminate|]. unfold join_returns in J.
    destruct (reader s) as [m|]; [|discriminate]. pose proof (R (EThread m) eq_refl) as R2. cbn [cstep] in R2.
    destruct (nth_error (threads s) m) as [[|c|c|]|]; try discriminate.
    + assert (RF : read_fails s c = true).
      { unfold read_fails. destruct c as [|k]; [reflexivity|]. destruct (nth_error (socks s) k) eqn:N; [|reflexivity]. rewrite (C k _ N). reflexivity. }
      rewrite RF in R2. discriminate.
    + unfold calling in R2. rewrite E in R2. discriminate.
  - specialize (R (EListen false) eq_refl). cbn [cstep] in R. rewrite E in R. discriminate.
Qed.
(** A careful history goes on by itself as a careful history. *)
Lemma careful_app s l : careful s l -> forall r s', forallb internal r = true -> crun s r = Some s' -> careful s' (l ++ r).
Proof.
  intros H r. revert s l H. induction r as [|e r IH]; intros s l H s' F R.
  - cbn in R. injection R as <-. rewrite app_nil_r. exact H.
  - cbn [forallb] in F. apply andb_prop in F as (I & F). cbn [crun] in R. destruct (cstep s e) as [s1|] eqn:E; [|discriminate].
    replace (l ++ e :: r) with ((l ++ [e]) ++ r) by (rewrite <- app_assoc; reflexivity). apply (IH s1); auto.
    eapply c_snoc; [exact H| |exact E]. destruct e as [|[]| | | | |]; try discriminate; exact Logic.I.
Qed.
Lemma rest_threads s : inv s -> at_rest s -> all_closed s -> goroutines s = 0%nat.
Proof.
  intros V R C. pose proof (rest_returned s V R) as E. unfold goroutines.
  assert (D : forall k t, nth_error (threads s) k = Some t -> t = TDone).
  { intros k t T. pose proof (R (EThread k) eq_refl) as X. cbn [cstep] in X. rewrite T in X. destruct t as [|c|c|]; try discriminate; [| |reflexivity].
    - assert (RF : read_fails s c = true).
      { unfold read_fails. destruct c as [|j]; [reflexivity|]. destruct (nth_error (socks s) j) eqn:N; [|reflexivity]. rewrite (C j _ N). reflexivity. }
      rewrite RF in X. discriminate.
    - unfold calling in X. rewrite E in X. discriminate. }
  induction (threads s) as [|t l IH]; [reflexivity|]. cbn [filter]. rewrite (D 0%nat t eq_refl). apply IH. intros k u U. exact (D (S k) u U).
Qed.
Lemma careful_ends s l r s' : careful s l -> forallb internal r = true -> crun s r = Some s' ->
  (length r <= measure s)%nat /\
  (at_rest s' -> call s' = None /\ open_sockets s' = (if wanted (l ++ r) then 1 else 0)%nat /\ (wanted (l ++ r) = false -> goroutines s' = 0%nat)).
Proof.
  intros H F R. split; [exact (internal_bound r s s' F R)|]. intros A. pose proof (careful_app s l H r s' F R) as H'.
  pose proof (careful_inv _ _ H') as V. pose proof (rest_returned s' V A) as E. pose proof (idle_count s' (l ++ r) H' E) as N.
  split; [exact E|]. split; [exact N|]. intros W. rewrite W in N. apply rest_threads; auto. apply open_zero, N.
Qed.
(** What is not at rest can go on. *)
Lemma rest_or_step s : at_rest s \/ exists e s', internal e = true /\ cstep s e = Some s'.
Proof.
  assert (TH : forall n, (exists k s', (k < n)%nat /\ cstep s (EThread k) = Some s') \/ forall k, (k < n)%nat -> cstep s (EThread k) = None).
  { induction n as [|n [IH|IH]]; [right; intros k K; lia|left; destruct IH as (k & s' & K & X); exists k, s'; split; [lia|exact X]|].
    destruct (cstep s (EThread n)) as [s'|] eqn:E; [left; exists n, s'; split; [lia|exact E]|]. right. intros k K.
    destruct (Nat.eq_dec k n) as [->|N]; [exact E|apply IH; lia]. }
  destruct (cstep s EStep) as [s'|] eqn:E1; [right; exists EStep, s'; auto|].
  destruct (cstep s (EListen true)) as [s'|] eqn:E2; [right; exists (EListen true), s'; auto|].
  destruct (cstep s (EListen false)) as [s'|] eqn:E3; [right; exists (EListen false), s'; auto|].
  destruct (TH (length (threads s))) as [(k & s' & _ & X)|X]; [right; exists (EThread k), s'; auto|].
  left. intros e I. destruct e as [| | |[]|k| |]; try discriminate; auto.
  destruct (Nat.lt_ge_cases k (length (threads s))) as [LT|GE]; [exact (X k LT)|]. cbn [cstep]. rewrite (proj2 (nth_error_None _ _) GE). reflexivity.
Qed.

(** ** Blocked for ever *)
Definition stuck (s : chan) : Prop :=
  (exists p, socks s = [mkSock true p]) /\ (threads s = [TRead (Real 0)] \/ threads s = [TBusy (Real 0)]) /\ reader s = Some 0%nat /\
  connected s = true /\ exists a b, call s = Some (PJoin a, b).
Lemma stuck_step s e s' : stuck s -> cstep s e = Some s' -> stuck s'.
Proof.
  intros ((p & S) & T & R & K & a & b & E) H. unfold stuck. destruct e as [|c b0| |ok|k|k|b0]; cbn [cstep] in H; rewrite ?E in H; try discriminate.
  - unfold join_returns in H. rewrite R in H. destruct T as [T|T]; rewrite T in H; discriminate.
  - destruct k as [|k]; [|destruct T as [T|T]; rewrite T in H; cbn in H; destruct k; discriminate].
    destruct T as [T|T]; rewrite T in H; cbn [nth_error] in H.
    + unfold read_fails in H. rewrite S in H. discriminate.
    + destruct (calling s 0); [discriminate|]. injection H as <-. rewrite K. unfold set_thread. cbn. rewrite T. cbn. split; [eauto|]. split; [auto|]. eauto.
  - destruct k as [|k]; [|destruct T as [T|T]; rewrite T in H; cbn in H; destruct k; discriminate].
    destruct T as [T|T]; rewrite T in H; cbn [nth_error] in H; [|discriminate].
    unfold read_fails in H. rewrite S in H. cbn in H. injection H as <-. unfold set_thread. cbn. rewrite T. cbn. split; [eauto|]. split; [auto|]. eauto 6.
  - rewrite K in H. injection H as <-. cbn. split; [eauto|]. split; [exact T|]. eauto.
Qed.
Lemma stuck_run l : forall s s', stuck s -> crun s l = Some s' -> stuck s'.
Proof.
  induction l as [|e l IH]; intros s s' S H; cbn [crun] in H; [injection H as <-; exact S|].
  destruct (cstep s e) as [s1|] eqn:E; [|discriminate]. eapply IH; [eapply stuck_step; eassumption|exact H].
Qed.
(** A callback that unsubscribes waits for its own goroutine. *)
Definition self_join (s : chan) : Prop :=
  exists a c, call s = Some (PJoin a, Some 0%nat) /\ threads s = [TBusy c] /\ reader s = Some 0%nat.
Lemma self_join_step s e s' : self_join s -> cstep s e = Some s' -> self_join s'.
Proof.
  intros (a & c & E & T & R) H. unfold self_join. destruct e as [|c0 b0| |ok|k|k|b0]; cbn [cstep] in H; rewrite ?E in H; try discriminate.
  - unfold join_returns in H. rewrite R, T in H. discriminate.
  - rewrite T in H. destruct k as [|k]; [|cbn in H; destruct k; discriminate]. cbn [nth_error] in H. unfold calling in H. rewrite E in H. discriminate.
  - rewrite T in H. destruct k as [|k]; [|cbn in H; destruct k; discriminate]. discriminate.
  - destruct (connected s); [|discriminate]. injection H as <-. cbn. eauto.
Qed.
Lemma self_join_run l : forall s s', self_join s -> crun s l = Some s' -> self_join s'.
Proof.
  induction l as [|e l IH]; intros s s' S H; cbn [crun] in H; [injection H as <-; exact S|].
  destruct (cstep s e) as [s1|] eqn:E; [|discriminate]. eapply IH; [eapply self_join_step; eassumption|exact H].
Qed.
Lemma history_run l : forall s0 h s, history s0 h -> crun s0 l = Some s -> history s (h ++ l).
Proof.
  induction l as [|e l IH]; intros s0 h s H R; cbn [crun] in R.
  - injection R as <-. rewrite app_nil_r. exact H.
  - destruct (cstep s0 e) as [s1|] eqn:E; [|discriminate]. replace (h ++ e :: l) with ((h ++ [e]) ++ l) by (rewrite <- app_assoc; reflexivity).
    apply (IH s1); [eapply h_snoc; eassumption|exact R].
Qed.
