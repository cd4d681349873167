(** When measurements are delivered (C74). *)
From stdpp Require Import gmap.
From Coq Require Import Lia ZArith.
From Verif Require Import Base BaseProofs FrameModel FrameSpec FrameProofs SubscriberModel SubscriberSpec SubscriberProofs SubscriberProofs2 SubscriberProofs4 SubscriberProofs5 SubscriberProofs6 SubscriberProofs10 CleanSpec CleanProofs.
Open Scope Z_scope.
Ltac Zify.zify_post_hook ::= Z.div_mod_to_equations.

Lemma dispatch_delivers e pool s c m d s' ev : bytes_ok d -> cbc_ok e -> dispatch e pool s c m d = Ok (s', ev) ->
  delivered ev <> [] -> c = 0x82 /\ length (delivered ev) = 1%nat.
Proof.
  intros Bd Bc. unfold dispatch. intros H N.
  assert (X : forall l, delivered ev = l -> l = [] -> c = 0x82 /\ length (delivered ev) = 1%nat) by (intros l <- E; contradiction (N E)).
  destruct (c =? sr_Succeeded). { apply handleSucceeded_mask in H as (_ & (Q & _) & _). apply (X _ Q eq_refl). }
  destruct (c =? sr_Failed). { apply handleFailed_mask in H as (_ & (Q & _)). apply (X _ Q eq_refl). }
  destruct (c =? sr_DataPacket) eqn:E.
  { apply Z.eqb_eq in E. split; [exact E|]. apply handleDataPacket_inv in H as [(_ & ->)|(z & count & ci & body & s1 & ms & ev1 & _ & _ & P & _ & ->)]; auto.
    - contradiction N; reflexivity.
    - assert (Q : quiet ev1) by (destruct z; [eapply parseTSSC_room, P|eapply parseCompactMeasurements_room, P]).
      rewrite delivered_app, (proj1 Q). reflexivity. }
  destruct (c =? sr_DataStartTime). { unfold handleDataStartTime in H. destruct (be_u64 d); try discriminate. cbn [bind] in H. inv H. contradiction N; reflexivity. }
  destruct (c =? sr_ProcessingComplete). { inv H. contradiction N; reflexivity. }
  destruct (c =? sr_UpdateSignalIndexCache). { apply handleUpdateSignalIndexCache_quiet in H as (Q & _). apply (X _ Q eq_refl). }
  destruct (c =? sr_UpdateBaseTimes). { apply handleUpdateBaseTimes_mask in H as (_ & (Q & _)). apply (X _ Q eq_refl). }
  destruct (c =? sr_UpdateCipherKeys). { apply handleUpdateCipherKeys_mask in H as (_ & (Q & _)). apply (X _ Q eq_refl). }
  destruct (c =? sr_ConfigurationChanged). { inv H. contradiction N; reflexivity. }
  destruct (c =? sr_BufferBlock). { apply handleBufferBlock_mask in H as (_ & Q). apply (X _ Q eq_refl). }
  destruct (c =? sr_Notify). { apply handleNotification_mask in H as (_ & Q & _). apply (X _ Q eq_refl). }
  destruct (c =? sr_NoOP); inv H; contradiction N; reflexivity.
Qed.
Lemma process_delivers e pool s p s' ev : bytes_ok p -> cbc_ok e -> processServerResponse e pool s p = Ok (s', ev) ->
  connected s' = connected s /\ (validated s' = true -> accepted s p) /\
  (delivered ev <> [] -> code_of p = 0x82 /\ length (delivered ev) = 1%nat /\ (validated s = true \/ Version s < 2)).
Proof.
  intros Bp Bc H. apply process_inv in H as (L & [(V & -> & ->)|(s1 & V & D)]); rewrite validate_spec in V.
  - split; [reflexivity|]. split; [intros X; left; exact X|]. intros N; contradiction N; reflexivity.
  - assert (B : bytes_ok (skipn 6 p)) by (apply bytes_ok_skipn', Bp).
    pose proof (dispatch_mask _ _ _ _ _ _ _ _ B Bc D) as (M & _).
    assert (A : connected s1 = connected s /\ accepted s p /\ (code_of p = 0x82 -> validated s = true \/ Version s < 2)).
    { unfold accepted. destruct (validated s) eqn:Vs; [injection V as <-; auto|].
      destruct (2 <=? Version s) eqn:W; cbn [andb] in V.
      - destruct (_ || _) eqn:P in V; [|discriminate]. cbn [negb] in V. injection V as <-. split; [reflexivity|].
        split; [right; right; apply plausible_dec, P|]. intros K. rewrite K in P. cbn in P. rewrite andb_false_r in P. discriminate P.
      - injection V as <-. assert (Version s < 2) by lia. auto. }
    destruct A as (A1 & A2 & A3). split; [rewrite <- A1; change (connected (mask_all s') = connected (mask_all s1)); rewrite M; reflexivity|].
    split; [intros _; exact A2|]. intros N. destruct (dispatch_delivers _ _ _ _ _ _ _ _ B Bc D N) as (K1 & K2). auto.
Qed.
Lemma setup_keeps s : connected (set_connectionRefused (setupConnection s) false) = connected s /\ validated (set_connectionRefused (setupConnection s) false) = validated s.
Proof. destruct s. rewrite setup_eq. split; reflexivity. Qed.
Lemma establish_delivers s s' ev : establishConnection s = Ok (s', ev) -> connected s' = true /\ validated s' = validated s /\ delivered ev = [].
Proof.
  unfold establishConnection. intros H. rewrite sendOperationalModes_modes in H. set (x := modes_of _) in H. clearbody x.
  set (s0 := set_connected s true) in *. assert (S0 : connected s0 = true /\ validated s0 = validated s) by (split; reflexivity). clearbody s0.
  destruct (send s0 sc_DefineOperationalModes x) as [[s1 ev1]| |] eqn:X; try discriminate. cbn [bind] in H. unfold done in H. injection H as <- <-.
  pose proof (send_ref _ _ _ _ _ X) as (_ & X2 & X3). apply send_quiet in X as (X & _). rewrite delivered_app, X, X2, X3. destruct S0 as (-> & ->). repeat split.
Qed.
Lemma connect_delivers s d s' ev : connect s d = Ok (s', ev) -> connected s' = connected s || d /\ validated s' = validated s /\ delivered ev = [].
Proof.
  unfold connect. destruct (setup_keeps s) as (K1 & K2). set (t := set_connectionRefused (setupConnection s) false) in *. clearbody t. intros H.
  destruct (connected s) eqn:C; [injection H as <- <-; rewrite C; auto|]. destruct d.
  - apply establish_delivers in H as (-> & -> & ->). rewrite K2. auto.
  - unfold done in H. injection H as <- <-. auto.
Qed.
Definition connected_after (s : sub) (a : action) : bool := match a with AConnect d => connected s || d | ADisconnect => false | _ => connected s end.
Lemma act_delivers e s a s' ev : packet_ok a -> cbc_ok e -> act e s a = Ok (s', ev) ->
  connected s' = connected_after s a /\
  (validated s' = true -> a <> ADisconnect /\ (validated s = true \/ Version s < 2 \/ (connected s = true /\ validates a))) /\
  (delivered ev <> [] -> connected s = true /\ length (delivered ev) = 1%nat /\
     (exists p, packet_of a = Some p /\ code_of p = 0x82) /\ (validated s = true \/ Version s < 2)).
Proof.
  intros Bp Bc H.
  assert (W : forall pool p s0, packet_of a = Some p -> connected s = true -> a <> ADisconnect -> connected_after s a = connected s -> connected s0 = true -> Version s0 = Version s ->
     validated s0 = validated s -> processServerResponse e pool s0 p = Ok (s', ev) ->
     connected s' = connected_after s a /\
     (validated s' = true -> a <> ADisconnect /\ (validated s = true \/ Version s < 2 \/ (connected s = true /\ validates a))) /\
     (delivered ev <> [] -> connected s = true /\ length (delivered ev) = 1%nat /\
        (exists p, packet_of a = Some p /\ code_of p = 0x82) /\ (validated s = true \/ Version s < 2))).
  { intros pool p s0 E C NA CA C0 V0 Z0 D. unfold packet_ok in Bp. rewrite E in Bp. destruct (process_delivers _ _ _ _ _ _ Bp Bc D) as (D1 & D2 & D3).
    rewrite CA, C, D1, C0. split; [reflexivity|]. rewrite Z0, V0 in D3. split.
    - intros X. split; [exact NA|]. destruct (D2 X) as [Y|[Y|Y]]; [left; congruence|right; left; lia|right; right; split; [reflexivity|exists p; auto]].
    - intros X. destruct (D3 X) as (Y1 & Y2 & Y3). eauto 10. }
  destruct a as [d|pool p|pool p| | |]; cbn [act] in H.
  - assert (Q : connected s' = connected s || d /\ validated s' = validated s /\ delivered ev = []).
    { exact (connect_delivers _ _ _ _ H). }
    destruct Q as (Q1 & Q2 & Q3). rewrite Q1, Q2, Q3. split; [reflexivity|]. split; [intros ->; split; [discriminate|auto]|intros N; contradiction N; reflexivity].
  - destruct (connected s) eqn:C.
    + assert (CA : connected_after s (APacket pool p) = true) by exact C. rewrite CA in *. unfold receive in H. destruct (readPayloadHeader s (len p)) as [s0 go] eqn:R. unfold readPayloadHeader in R. cbv zeta in R.
      change (validated (set_cmdBytes s (u64 (cmdBytes s + payloadHeaderSize)))) with (validated s) in R. change (Version (set_cmdBytes s (u64 (cmdBytes s + payloadHeaderSize)))) with (Version s) in R.
      destruct (validated s) eqn:Vs; cbn [negb] in R.
      * injection R as <- <-. unfold readPacket in H. refine (W pool p _ eq_refl eq_refl _ eq_refl _ _ _ H); [discriminate|exact C|reflexivity|exact Vs].
      * destruct (2 <=? Version s) eqn:V2.
        -- injection R as <- <-. destruct (len p <=? _).
           ++ unfold readPacket in H. refine (W pool p _ eq_refl eq_refl _ eq_refl _ _ _ H); [discriminate|exact C|reflexivity|exact Vs].
           ++ unfold done in H. injection H as <- <-. split; [exact C|]. split; [intros X; change (validated s = true) in X; congruence|intros N; contradiction N; reflexivity].
        -- injection R as <- <-. unfold readPacket in H. unfold packet_ok in Bp. cbn [packet_of] in Bp. destruct (process_delivers _ _ _ _ _ _ Bp Bc H) as (D1 & D2 & D3).
           assert (Version s < 2) by lia. split; [rewrite D1; exact C|]. split; [intros _; split; [discriminate|auto]|]. intros N. destruct (D3 N) as (N1 & N2 & _). cbn [packet_of]. eauto 10.
    + unfold done in H. injection H as <- <-. split; [reflexivity|]. split; [intros X; split; [discriminate|auto]|intros N; contradiction N; reflexivity].
  - destruct (connected s) eqn:C.
    + unfold receiveUdp in H. refine (W pool p _ eq_refl eq_refl _ _ _ _ _ H); [discriminate|exact C|exact C|reflexivity|reflexivity].
    + unfold done in H. injection H as <- <-. split; [reflexivity|]. split; [intros X; split; [discriminate|auto]|intros N; contradiction N; reflexivity].
  - assert (Q : delivered ev = []).
    { pose proof H as H'. unfold Subscribe in H. destruct (negb _); [injection H as _ <-; reflexivity|]. destruct (_ && _); [injection H as _ <-; reflexivity|].
      match type of H with bind ?x _ = _ => destruct x as [[s1 ev1]| |] eqn:X end; try discriminate. cbn [bind] in H. cbv beta zeta iota in H.
      match type of H with bind ?x _ = _ => destruct x as [[s2 ev2]| |] eqn:Y end; try discriminate. cbn [bind] in H. unfold done in H. injection H as _ <-.
      apply send_quiet in Y as (Y & _). rewrite delivered_app, Y. destruct (subscribed s); [|injection X as _ <-; reflexivity].
      unfold Unsubscribe in X. destruct (_ || _); [injection X as _ <-; reflexivity|]. apply send_quiet in X as (-> & _). reflexivity. }
    apply Subscribe_ref in H as (_ & H2 & H3). rewrite H2, H3, Q. split; [reflexivity|]. split; [intros X; split; [discriminate|auto]|intros N; contradiction N; reflexivity].
  - assert (Q : delivered ev = []) by (unfold Unsubscribe in H; destruct (_ || _); [injection H as _ <-; reflexivity|apply send_quiet in H as (-> & _); reflexivity]).
    apply Unsubscribe_ref in H as (_ & H2 & H3). rewrite H2, H3, Q. split; [reflexivity|]. split; [intros X; split; [discriminate|auto]|intros N; contradiction N; reflexivity].
  - unfold disconnect, done in H. injection H as <- <-. split; [reflexivity|]. split; [intros X; discriminate X|intros N; contradiction N; reflexivity].
Qed.
Lemma run_snoc e s l a s' ev : run e s (l ++ [a]) = Ok (s', ev) -> exists s1 ev1 ev2, run e s l = Ok (s1, ev1) /\ act e s1 a = Ok (s', ev2) /\ ev = ev1 ++ ev2.
Proof.
  rewrite run_app. destruct (run e s l) as [[s1 ev1]| |]; [|discriminate|discriminate]. cbn [bind]. intros H. unfold emit at 1 in H.
  destruct (run e s1 [a]) as [[s2 ev2]| |] eqn:X; [|discriminate|discriminate]. cbn [bind] in H. unfold done in H. injection H as <- <-.
  apply run_cons in X as (s3 & e3 & e4 & A & R & ->). cbn [run] in R. unfold done in R. injection R as <- <-. rewrite app_nil_r. exists s1, ev1, e3. auto.
Qed.
Lemma act_version e s a s' ev : packet_ok a -> cbc_ok e -> act e s a = Ok (s', ev) -> Version s' = Version s.
Proof. intros Bp Bc H. apply act_fixed in H; [|exact Bp|exact Bc]. unfold fixed in H. injection H as H _. exact H. Qed.
(** Where a history stands. *)
Lemma run_stands e s0 : cbc_ok e -> connected s0 = false -> forall l s ev, Forall packet_ok l -> run e s0 l = Ok (s, ev) ->
  Version s = Version s0 /\
  (connected s = false -> validated s = true -> Version s0 < 2 \/ ~ In ADisconnect l) /\
  (connected s = true -> exists before during, l = before ++ AConnect true :: during /\ ~ In ADisconnect during /\
     (validated s = true -> Version s0 < 2 \/ ~ In ADisconnect before \/ exists a, In a during /\ validates a)).
Proof.
  intros Bc C0. induction l as [|a l IH] using rev_ind; intros s ev F H.
  - cbn [run] in H. unfold done in H. injection H as <- <-. split; [reflexivity|]. split; [intros _ _; right; intros []|congruence].
  - apply Forall_app in F as (F1 & F2). apply Forall_cons_1 in F2 as (F2 & _). apply run_snoc in H as (s1 & ev1 & ev2 & R & A & _).
    destruct (IH s1 ev1 F1 R) as (Vr & Off & On). pose proof (act_version _ _ _ _ _ F2 Bc A) as V1.
    destruct (act_delivers _ _ _ _ _ F2 Bc A) as (A1 & A2 & _). rewrite V1. split; [exact Vr|]. rewrite Vr in A2. split.
    + intros C V. destruct (A2 V) as (ND & A3). rewrite A1 in C.
      assert (C1 : connected s1 = false) by (destruct a; cbn [connected_after] in C; try exact C; [destruct (connected s1); [discriminate C|reflexivity]|contradiction ND; reflexivity]).
      destruct A3 as [A3|[A3|(A3 & _)]]; [|left; exact A3|congruence]. destruct (Off C1 A3) as [X|X]; [left; exact X|right].
      intros I. apply in_app_or in I as [I|[I|[]]]; [exact (X I)|exact (ND I)].
    + intros C. rewrite A1 in C. destruct (connected s1) eqn:C1.
      * destruct (On eq_refl) as (b & d & -> & N & P). exists b, (d ++ [a]). split; [rewrite <- app_assoc; reflexivity|].
        split. { intros I. apply in_app_or in I as [I|[I|[]]]; [exact (N I)|]. subst a. discriminate C. }
        intros V. destruct (A2 V) as (_ & [A3|[A3|(_ & A3)]]); [|left; exact A3|right; right; exists a; split; [apply in_or_app; right; left; reflexivity|exact A3]].
        destruct (P A3) as [X|[X|(x & X1 & X2)]]; [auto|auto|]. right; right. exists x. split; [apply in_or_app; left; exact X1|exact X2].
      * destruct a as [d| | | | |]; cbn [connected_after] in C; try congruence. rewrite C1 in C. cbn [orb] in C. subst d. exists l, []. split; [reflexivity|].
        split; [intros []|]. intros V. destruct (A2 V) as (_ & [A3|[A3|(A3 & _)]]); [|left; exact A3|congruence]. destruct (Off eq_refl A3) as [X|X]; auto.
Qed.
Lemma delivery_stands e s0 l s ev a s1 ev1 : cbc_ok e -> connected s0 = false -> Forall packet_ok l -> packet_ok a ->
  run e s0 l = Ok (s, ev) -> act e s a = Ok (s1, ev1) -> delivered ev1 <> [] ->
  within_connection (Version s0) l /\ length (delivered ev1) = 1%nat /\ exists p, packet_of a = Some p /\ code_of p = 0x82.
Proof.
  intros Bc C0 F Bp R A N. destruct (run_stands e s0 Bc C0 l s ev F R) as (Vr & _ & On). destruct (act_delivers _ _ _ _ _ Bp Bc A) as (_ & _ & D).
  destruct (D N) as (C & L & P & V). split; [|split; [exact L|exact P]]. destruct (On C) as (b & d & E & ND & Q). exists b, d. split; [exact E|]. split; [exact ND|].
  destruct V as [V|V]; [exact (Q V)|left; lia].
Qed.

(** Deciding [clean] on concrete histories. *)
Definition byte_b (x : Z) : bool := (0 <=? x) && (x <? 256).
Definition refers_b (v : Z) (d : leftover) (p : bytes) : bool :=
  ((negb (code_of p =? 0x82)) || (negb (l_slot d (Z.testbit (nth 6 p 0) 4)) && (negb (l_base d) || Z.testbit (nth 6 p 0) 3))) &&
  ((negb (code_of p =? 0x88)) || (negb (l_blocks d) && negb (l_slot d ((1 <? v) && (0 <? nth 10 p 0))))).
Fixpoint clean_b (e : env) (d : leftover) (s : sub) (l : list action) : bool :=
  match l with
  | [] => true
  | a :: r =>
      match packet_of a with Some p => forallb byte_b p && refers_b (Version s) d p | None => true end &&
      match act e s a with Ok (s1, ev) => clean_b e (after (Version s) d a ev) s1 r | Panic => true | Err => false end
  end.
Lemma clean_b_ok e l : forall d s, clean_b e d s l = true -> clean e d s l.
Proof.
  induction l as [|a r IH]; intros d s H; [constructor|]. cbn [clean_b] in H. apply andb_true_iff in H as (H1 & H2).
  assert (P : packet_ok a /\ forall p, packet_of a = Some p -> refers_to_none (Version s) d p).
  { unfold packet_ok. destruct (packet_of a) as [p|]; [|split; [exact Logic.I|discriminate]]. apply andb_true_iff in H1 as (B & R). split.
    - apply List.Forall_forall. intros x Hx. rewrite forallb_forall in B. specialize (B x Hx). unfold byte_b in B. apply andb_true_iff in B as (B1 & B2). unfold is_u8. lia.
    - intros q Q. injection Q as <-. unfold refers_b in R. apply andb_true_iff in R as (R1 & R2). split.
      + intros X. rewrite X in R1. cbn [Z.eqb Pos.eqb negb orb] in R1. apply andb_true_iff in R1 as (R3 & R4). apply negb_true_iff in R3. split; [exact R3|].
        apply orb_true_iff in R4 as [R4|R4]; [left; apply negb_true_iff, R4|right; exact R4].
      + intros X. rewrite X in R2. cbn [Z.eqb Pos.eqb negb orb] in R2. apply andb_true_iff in R2 as (R3 & R4). apply negb_true_iff in R3, R4. auto. }
  destruct P as (P1 & P2). destruct (act e s a) as [[s1 ev]| |] eqn:A; [|discriminate|].
  - eapply clean_step; eauto.
  - apply clean_crash; assumption.
Qed.
Lemma nothing_delivered e s0 l s ev acts s1 ev1 : cbc_ok e -> Forall packet_ok l -> Forall packet_ok acts ->
  run e s0 (l ++ [ADisconnect]) = Ok (s, ev) -> ~ In (AConnect true) acts -> run e s acts = Ok (s1, ev1) -> delivered ev1 = [].
Proof.
  intros Bc F Fa R N R1. apply run_snoc in R as (t & e1 & e2 & _ & A & _). cbn [act] in A. unfold disconnect, done in A. injection A as A _.
  assert (C : connected s = false) by (rewrite <- A; reflexivity). clear A. revert s s1 ev1 C Fa N R1.
  induction acts as [|a r IH]; intros s s1 ev1 C Fa N R1.
  - cbn [run] in R1. unfold done in R1. injection R1 as _ <-. reflexivity.
  - apply run_cons in R1 as (s2 & x1 & x2 & A & R2 & ->). apply Forall_cons_1 in Fa as (F1 & F2). destruct (act_delivers _ _ _ _ _ F1 Bc A) as (A1 & _ & A3).
    assert (C2 : connected s2 = false).
    { rewrite A1. destruct a as [d| | | | |]; cbn [connected_after]; try exact C; [|reflexivity]. destruct d; [contradiction N; left; reflexivity|rewrite C; reflexivity]. }
    rewrite delivered_app, (IH s2 s1 x2 C2 F2); [|intros I; apply N; right; exact I|exact R2]. rewrite app_nil_r.
    destruct (delivered x1) as [|y ys] eqn:D; [reflexivity|]. assert (X : delivered x1 <> []) by (rewrite D; discriminate). destruct (A3 ltac:(discriminate)) as (K & _). congruence.
Qed.
