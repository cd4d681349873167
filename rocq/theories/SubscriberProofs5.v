(** Invariants of reachable states; buffer blocks; which messages crash. *)
From stdpp Require Import gmap.
From Coq Require Import Lia ZArith.
From Verif Require Import Base BaseProofs TicksModel GuidModel FormatModel FormatProofs CompactModel CompactSpec CompactProofs CacheModel CacheSpec CacheProofs FrameModel FrameSpec FrameProofs TsscModel TsscSpec TsscCode TsscCode2 TsscRead TsscProofs TsscProofs2 TsscProofs3 SubscriberModel SubscriberSpec SubscriberProofs SubscriberProofs2 SubscriberProofs3 SubscriberProofs4.
Open Scope Z_scope.
Ltac Zify.zify_post_hook ::= Z.div_mod_to_equations.

Definition good (s : sub) : Prop :=
  len (writeBuffer s) = maxPacketSize /\ Forall (fun b => bb_Buffer b = None) (bufferBlockCache s).

Lemma send_ok s c d : len (writeBuffer s) = maxPacketSize -> len d <= maxPacketSize - 5 ->
  exists wb, len wb = maxPacketSize /\
    send s c d = Ok (set_writeBuffer s wb, if connected s then [EvSend (frame c d)] else []).
Proof.
  intros L D. unfold send. destruct (connected s) eqn:C.
  - destruct (Send_ok (writeBuffer s) c d L D) as (wb & E & L'). rewrite E. exists wb. auto.
  - exists (writeBuffer s). split; [exact L|]. reflexivity.
Qed.
Lemma send_len s c d s' ev : len (writeBuffer s) = maxPacketSize -> send s c d = Ok (s', ev) ->
  exists wb, len wb = maxPacketSize /\ s' = set_writeBuffer s wb /\ ev = if connected s then [EvSend (frame c d)] else [].
Proof.
  intros L H. destruct (Z_le_gt_dec (len d) (maxPacketSize - 5)) as [G|G].
  - destruct (send_ok s c d L G) as (wb & Lw & E). rewrite E in H. injection H as <- <-. eauto.
  - unfold send in H. destruct (connected s) eqn:C.
    + rewrite Send_panic in H by (try exact L; lia). discriminate.
    + cbn in H. injection H as <- <-. exists (writeBuffer s). auto.
Qed.

(** ** Buffer blocks *)
Lemma ready_none l : Forall (fun b => bb_Buffer b = None) l -> ready l = O.
Proof. intros F. destruct F as [|[g o] r H F]; [reflexivity|]. cbn in H. subst. reflexivity. Qed.
Definition bb_seq (d : bytes) : Z := be_val (firstn 4 d).
Definition bb_slot (v : Z) (d : bytes) : Z := if 1 <? v then if 0 <? nth 4 d 0 then 1 else 0 else 0.
Definition bb_index (v : Z) (d : bytes) : Z := i32 (be_val (firstn 4 (skipn (if 1 <? v then 5%nat else 4%nat) d))).
Definition bb_block (s : sub) (d : bytes) : block :=
  mkBlock (signalID_of (sc_sic (cache_at s (bb_slot (Version s) d))) (bb_index (Version s) d)) None.
Definition bb_sent (s : sub) (d : bytes) : list event := if connected s then [EvSend (frame 8 (firstn 4 d))] else [].
Definition bb_stored (s : sub) (d : bytes) : list block :=
  let c := bufferBlockCache s in
  let n := Z.to_nat (u32 (bb_seq d - bufferBlockExpected s)) in
  let c' := c ++ repeat zeroBlock (S n - length c) in
  firstn n c' ++ bb_block s d :: skipn (S n) c'.

Lemma fresh_none (c : list block) bci : Forall (fun b => bb_Buffer b = None) c ->
  (len c <=? bci) || match nth_error c (Z.to_nat bci) with Some (mkBlock _ (Some _)) => false | _ => true end = true.
Proof.
  intros F. destruct (nth_error c (Z.to_nat bci)) as [[g [x|]]|] eqn:E; try apply orb_true_r.
  exfalso. apply nth_error_In in E. rewrite List.Forall_forall in F. apply F in E. discriminate.
Qed.
Lemma bb_ok s d : good s -> (if 1 <? Version s then 9 else 8) <= len d ->
  exists wb, len wb = maxPacketSize /\
  handleBufferBlock s d =
    if bb_seq d =? bufferBlockExpected s
    then Ok (set_bufferBlockExpected (set_bufferBlockCache (set_writeBuffer s wb) (skipn 1 (bufferBlockCache s))) (u32 (bufferBlockExpected s + 1)),
             bb_sent s d ++ [EvBufferBlocks (bb_block s d :: repeat zeroBlock (length (bufferBlockCache s)))])
    else Ok (set_bufferBlockCache (set_writeBuffer s wb) (bb_stored s d), bb_sent s d).
Proof.
  intros (W & F) L.
  assert (L4 : (8 <= length d)%nat) by (unfold len in L; destruct (1 <? Version s); lia).
  destruct (send_ok s sc_ConfirmBufferBlock (firstn 4 d) W) as (wb & Lw & E).
  { unfold len, maxPacketSize. rewrite firstn_length. lia. }
  exists wb. split; [exact Lw|]. unfold handleBufferBlock, be_u32. rewrite be_get_ok by lia. cbn [bind]. cbv zeta.
  fold (bb_seq d). set (bci := u32 (bb_seq d - bufferBlockExpected s)).
  assert (E1 : (if 1 <? Version s then let* t := slice_from d 4 in let* b := idx t 0 in Ok (if 0 <? b then 1 else 0) else Ok 0) = Ok (bb_slot (Version s) d)).
  { unfold bb_slot. destruct (1 <? Version s); [|reflexivity].
    change 4 with (Z.of_nat 4) at 1. rewrite slice_from_in by lia. cbn [bind]. unfold idx. cbn [Z.ltb Z.to_nat].
    destruct d as [|d0 [|d1 [|d2 [|d3 [|d4 r]]]]]; cbn [length] in L4; try lia. reflexivity. }
  rewrite E1. cbn [bind]. cbv zeta. rewrite fresh_none by exact F. cbn [negb].
  rewrite slice0 by (unfold len; lia). change (Z.to_nat 4) with 4%nat. cbn [bind]. rewrite E. cbn [bind]. cbv beta zeta iota.
  change (Version (set_writeBuffer s wb)) with (Version s). change (bufferBlockCache (set_writeBuffer s wb)) with (bufferBlockCache s).
  change (bufferBlockExpected (set_writeBuffer s wb)) with (bufferBlockExpected s). change (cache_at (set_writeBuffer s wb)) with (cache_at s).
  assert (E2 : slice_from d (if 1 <? Version s then 5 else 4) = Ok (skipn (if 1 <? Version s then 5%nat else 4%nat) d)).
  { destruct (1 <? Version s); [change 5 with (Z.of_nat 5)|change 4 with (Z.of_nat 4)]; apply slice_from_in; lia. }
  rewrite E2. cbn [bind]. rewrite be_get_ok.
  2:{ rewrite skipn_length. unfold len in L. destruct (1 <? Version s); lia. }
  cbn [bind]. cbv zeta. unfold bb_sent. fold (bb_index (Version s) d). fold (bb_block s d).
  destruct (bb_seq d =? bufferBlockExpected s).
  - rewrite ready_none. 2:{ destruct F; cbn [skipn]; auto. }
    cbn [firstn app]. rewrite Nat.sub_0_r. cbn [Nat.add]. change (Z.of_nat 0) with 0. rewrite Z.add_0_r. reflexivity.
  - unfold bb_stored. fold bci.
    assert (B : 0 <= bci) by (unfold bci; pose proof (u32_range (bb_seq d - bufferBlockExpected s)) as U; unfold is_u32 in U; lia).
    replace (Z.to_nat (bci + 1)) with (S (Z.to_nat bci)) by lia.
    assert (UU : forall (l : list block) x, (Z.to_nat bci < length l)%nat -> upd l bci x = Ok (firstn (Z.to_nat bci) l ++ x :: skipn (S (Z.to_nat bci)) l)).
    { intros l x Hl. rewrite <- upd_ok by exact Hl. rewrite Z2Nat.id by lia. reflexivity. }
    rewrite UU by (rewrite app_length, repeat_length; lia).
    cbn [bind]. reflexivity.
Qed.
Lemma bb_short s d : good s -> len d < (if 1 <? Version s then 9 else 8) -> handleBufferBlock s d = Panic.
Proof.
  intros (W & F) L. unfold handleBufferBlock, be_u32.
  destruct (le_lt_dec 4 (length d)) as [G|G]; [|rewrite be_get_panic by lia; reflexivity].
  rewrite be_get_ok by lia. cbn [bind]. cbv zeta.
  match goal with |- bind ?x _ = _ => destruct x as [ci| |] eqn:E1 end; cbn [bind]; [| |reflexivity].
  - cbv zeta. rewrite fresh_none by exact F. cbn [negb]. rewrite slice0 by (unfold len; lia). change (Z.to_nat 4) with 4%nat. cbn [bind].
    destruct (send_ok s sc_ConfirmBufferBlock (firstn 4 d) W) as (wb & Lw & E). { unfold len, maxPacketSize. rewrite firstn_length. lia. }
    rewrite E. cbn [bind]. cbv beta zeta iota. change (Version (set_writeBuffer s wb)) with (Version s).
    destruct (slice_from d (if 1 <? Version s then 5 else 4)) as [d'| |] eqn:E2; cbn [bind]; [| |reflexivity].
    + unfold slice_from in E2. destruct (_ || _); [discriminate|]. injection E2 as <-.
      rewrite be_get_panic; [reflexivity|]. rewrite skipn_length. unfold len in L. destruct (1 <? Version s); lia.
    + unfold slice_from in E2. destruct (_ || _); discriminate.
  - exfalso. destruct (1 <? Version s); [|discriminate]. unfold slice_from, idx in E1. destruct (_ || _); [discriminate|]. cbn [bind] in E1.
    destruct (0 <? 0); [discriminate|]. destruct (nth_error _ _); discriminate.
Qed.
Lemma skipn_F {A} (P : A -> Prop) n (l : list A) : Forall P l -> Forall P (skipn n l).
Proof. intros F. rewrite <- (firstn_skipn n l) in F. apply Forall_app in F. tauto. Qed.
Lemma firstn_F {A} (P : A -> Prop) n (l : list A) : Forall P l -> Forall P (firstn n l).
Proof. intros F. rewrite <- (firstn_skipn n l) in F. apply Forall_app in F. tauto. Qed.
Definition nil_payloads (ev : list event) : Prop := Forall (Forall (fun b => bb_Buffer b = None)) (blocks ev).
Lemma handleBufferBlock_good s d s' ev : good s -> handleBufferBlock s d = Ok (s', ev) -> good s' /\ nil_payloads ev.
Proof.
  intros G H. destruct (Z_lt_le_dec (len d) (if 1 <? Version s then 9 else 8)) as [L|L]; [rewrite bb_short in H by assumption; discriminate|].
  destruct (bb_ok s d G L) as (wb & Lw & E). rewrite E in H. destruct G as (W & F).
  assert (R : forall n, Forall (fun b => bb_Buffer b = None) (repeat zeroBlock n)) by (intros n; induction n; constructor; auto).
  assert (Q : blocks (bb_sent s d) = []) by (unfold bb_sent; destruct (connected s); reflexivity).
  destruct (_ =? _); injection H as <- <-.
  - split; [split; [exact Lw|apply skipn_F, F]|]. unfold nil_payloads. rewrite blocks_app, Q. cbn [app blocks flat_map].
    constructor; [|constructor]. constructor; [reflexivity|apply R].
  - split; [|unfold nil_payloads; rewrite Q; constructor]. split; [exact Lw|].
    change (Forall (fun b => bb_Buffer b = None) (bb_stored s d)). unfold bb_stored. cbv zeta.
    assert (F' : Forall (fun b => bb_Buffer b = None) (bufferBlockCache s ++ repeat zeroBlock (S (Z.to_nat (u32 (bb_seq d - bufferBlockExpected s))) - length (bufferBlockCache s)))).
    { apply Forall_app. split; [exact F|apply R]. }
    apply Forall_app. split; [apply firstn_F, F'|]. constructor; [reflexivity|apply skipn_F, F'].
Qed.

(** ** The invariant *)
Definition mask_wb (s : sub) := (writeBuffer s, bufferBlockCache s).
Lemma good_mask s s' : mask_wb s' = mask_wb s -> good s -> good s'.
Proof. unfold mask_wb, good. intros [= -> ->]. auto. Qed.
Lemma dispatch_good e pool s c m d s' ev : bytes_ok d -> cbc_ok e -> good s ->
  dispatch e pool s c m d = Ok (s', ev) -> good s' /\ nil_payloads ev.
Proof.
  intros Bd Bc G. unfold dispatch. intros H.
  assert (K : forall mk, (forall x, mask_wb (mk x) = mask_wb x) -> mk s' = mk s -> good s').
  { intros mk K1 E. apply (good_mask s); [|exact G]. rewrite <- (K1 s'), <- (K1 s), E. reflexivity. }
  assert (Q0 : forall x, blocks x = [] -> nil_payloads x) by (intros x Q; unfold nil_payloads; rewrite Q; constructor).
  destruct (c =? sr_Succeeded).
  { apply handleSucceeded_mask in H as (H & Q & _). split; [apply (K (fun x => set_subscribed x false)); auto|apply Q0, Q]. }
  destruct (c =? sr_Failed).
  { apply handleFailed_mask in H as (H & Q). split; [apply (K (fun x => set_connectionRefused x false)); auto|apply Q0, Q]. }
  destruct (c =? sr_DataPacket).
  { apply handleDataPacket_inv in H as [(-> & ->)|(z & count & ci & body & s1 & ms & ev1 & _ & _ & P & -> & ->)]; auto.
    assert (M : mask_data s1 = mask_data s) by (destruct z; [eapply parseTSSC_mask, P|apply parseCompactMeasurements_state in P; subst; reflexivity]).
    split; [apply (K mask_data); [reflexivity|]; rewrite <- M; destruct s1; reflexivity|].
    apply Q0. rewrite blocks_app. cbn [blocks flat_map app].
    assert (blocks ev1 = []) as ->; [|reflexivity]. destruct z; [apply parseTSSC_room in P as (_ & Q); apply Q|apply parseCompactMeasurements_room in P as (_ & Q); apply Q]. }
  destruct (c =? sr_DataStartTime). { unfold handleDataStartTime in H. destruct (be_u64 d); try discriminate. cbn [bind] in H. inv H. split; [exact G|constructor]. }
  destruct (c =? sr_ProcessingComplete). { inv H. split; [exact G|constructor]. }
  destruct (c =? sr_UpdateSignalIndexCache).
  { pose proof (handleUpdateSignalIndexCache_quiet _ _ _ _ _ H) as (_ & Q). split; [|apply Q0, Q].
    unfold handleUpdateSignalIndexCache in H.
    match type of H with bind ?x _ = _ => destruct x as [[ci d']| |] end; try discriminate. cbn [bind] in H. cbv zeta beta iota in H.
    destruct (if CompressSignalIndexCache s then gunzip e d' else Some d') as [d2|]; [|inv H; exact G].
    destruct (decode _ _ _) as [ds r]. destruct r; [|inv H; exact G|discriminate].
    match type of H with context [set_cacheIndex ?x ?y] => set (s1 := set_cacheIndex x y) in H end.
    assert (G1 : good s1) by (apply (good_mask s); [unfold s1, set_cache; destruct (ci =? 0); reflexivity|exact G]). clearbody s1.
    match type of H with (let* (_, _) := ?x in _) = _ => destruct x as [[s2 ev2]| |] eqn:X end; try discriminate.
    cbn [bind] in H. inv H. destruct (1 <? Version s1); [|inv X; exact G1].
    apply send_len in X as (wb & Lw & -> & _); [|apply G1]. split; [exact Lw|apply G1]. }
  destruct (c =? sr_UpdateBaseTimes).
  { apply handleUpdateBaseTimes_mask in H as (H & Q). split; [apply (K mask_times); auto|apply Q0, Q]. }
  destruct (c =? sr_UpdateCipherKeys).
  { apply handleUpdateCipherKeys_mask in H as (H & Q). split; [apply (K (fun x => set_keyIVs x None)); auto|apply Q0, Q]. }
  destruct (c =? sr_ConfigurationChanged). { inv H. split; [exact G|constructor]. }
  destruct (c =? sr_BufferBlock). { eapply handleBufferBlock_good; eassumption. }
  destruct (c =? sr_Notify).
  { pose proof (handleNotification_mask _ _ _ _ H) as (_ & _ & Q). split; [|apply Q0, Q].
    unfold handleNotification, emit in H. destruct (slice_from d 4) as [x| |]; try discriminate. cbn [bind] in H.
    destruct (slice d 0 4) as [h| |]; try discriminate. cbn [bind] in H.
    destruct (send s sc_ConfirmNotification h) as [[s2 ev2]| |] eqn:X; try discriminate. cbn [bind] in H. inv H.
    apply send_len in X as (wb & Lw & -> & _); [|apply G]. split; [exact Lw|apply G]. }
  destruct (c =? sr_NoOP); inv H; (split; [exact G|constructor]).
Qed.
Lemma nil_app a b : nil_payloads a -> nil_payloads b -> nil_payloads (a ++ b).
Proof. unfold nil_payloads. rewrite blocks_app. intros. apply Forall_app. auto. Qed.
Lemma send_good s c d s' ev : good s -> send s c d = Ok (s', ev) -> good s' /\ nil_payloads ev.
Proof.
  intros G X. pose proof (send_quiet _ _ _ _ _ X) as (_ & Q). apply send_len in X as (wb & Lw & -> & _); [|apply G].
  split; [split; [exact Lw|apply G]|]. unfold nil_payloads. rewrite Q. constructor.
Qed.
Lemma Unsubscribe_good s s' ev : good s -> Unsubscribe s = Ok (s', ev) -> good s' /\ nil_payloads ev.
Proof. intros G. unfold Unsubscribe. destruct (_ || _); intros H; [inv H; split; [exact G|constructor]|eapply send_good; eassumption]. Qed.
Lemma sendOperationalModes_eq s : exists d, sendOperationalModes s = send s sc_DefineOperationalModes (be_put 4 d).
Proof. eexists. reflexivity. Qed.
Lemma sendOperationalModes_good s s' ev : good s -> sendOperationalModes s = Ok (s', ev) -> good s' /\ nil_payloads ev.
Proof. intros G H. destruct (sendOperationalModes_eq s) as (d & E). rewrite E in H. eapply send_good; eassumption. Qed.
Lemma establish_good s s' ev : good s -> establishConnection s = Ok (s', ev) -> good s' /\ nil_payloads ev.
Proof.
  intros G H. unfold establishConnection in H. cbv zeta in H.
  assert (G0 : good (set_connected s true)) by (apply (good_mask s); [reflexivity|exact G]).
  destruct (sendOperationalModes (set_connected s true)) as [[s1 ev1]| |] eqn:X; try discriminate. cbn [bind] in H. unfold done in H. injection H as <- <-.
  apply sendOperationalModes_good in X as (X1 & X2); [|exact G0].
  split; [exact X1|apply nil_app; [exact X2|constructor]].
Qed.
Lemma connect_good s d s' ev : good s -> connect s d = Ok (s', ev) -> good s' /\ nil_payloads ev.
Proof.
  unfold connect. intros G H. destruct (connected s); [injection H as <- <-; split; [exact G|constructor]|]. cbv zeta in H.
  assert (G0 : good (set_connectionRefused (setupConnection s) false)) by (apply (good_mask s); [reflexivity|exact G]).
  destruct d; [|injection H as <- <-; split; [exact G0|constructor]].
  eapply establish_good; eassumption.
Qed.
Lemma Subscribe_good s s' ev : good s -> Subscribe s = Ok (s', ev) -> good s' /\ nil_payloads ev.
Proof.
  unfold Subscribe. intros G H. destruct (negb (connected s)); [injection H as <- <-; split; [exact G|constructor]|].
  destruct (_ && _); [injection H as <- <-; split; [exact G|constructor]|].
  match type of H with bind ?x _ = _ => destruct x as [[s1 ev1]| |] eqn:X end; try discriminate.
  assert (G1 : good s1 /\ nil_payloads ev1) by (destruct (subscribed s); [eapply Unsubscribe_good; [exact G|exact X]|injection X as <- <-; split; [exact G|constructor]]).
  cbn [bind] in H. cbv beta zeta iota in H.
  match type of H with bind ?x _ = _ => destruct x as [[s2 ev2]| |] eqn:Y end; try discriminate.
  cbn [bind] in H. cbv beta zeta iota in H. unfold done in H. injection H as <- <-.
  apply send_good in Y as (Y1 & Y2); [|apply (good_mask s1); [reflexivity|exact (proj1 G1)]].
  split; [apply (good_mask s2); [reflexivity|exact Y1]|apply nil_app; [exact (proj2 G1)|exact Y2]].
Qed.
Lemma act_good e s a s' ev : packet_ok a -> cbc_ok e -> good s -> act e s a = Ok (s', ev) -> good s' /\ nil_payloads ev.
Proof.
  intros Bp Bc G H. destruct (packet_of a) as [p|] eqn:E.
  - unfold packet_ok in Bp. rewrite E in Bp. apply (packet_inv _ _ _ _ _ _ E) in H as [(M & Q)|(_ & _ & pool & s1 & M & D)].
    + split; [|destruct Q; subst; constructor]. apply (good_mask s); [|exact G]. change (mask_wb (mask_count s') = mask_wb (mask_count s)). congruence.
    + apply dispatch_good in D; [exact D|apply bytes_ok_skipn', Bp|exact Bc|].
      apply (good_mask s); [|exact G]. change (mask_wb (mask_count s1) = mask_wb (mask_count s)). congruence.
  - destruct a as [dl|pool q|pool q| | |]; try discriminate; cbn [act] in H.
    + eapply connect_good; eassumption.
    + eapply Subscribe_good; eassumption.
    + eapply Unsubscribe_good; eassumption.
    + unfold disconnect, done in H. injection H as <- <-. split; [apply (good_mask s); [reflexivity|exact G]|constructor].
Qed.
Lemma run_good e acts : forall s s' ev, Forall packet_ok acts -> cbc_ok e -> good s -> run e s acts = Ok (s', ev) -> good s' /\ nil_payloads ev.
Proof.
  induction acts as [|a r IH]; intros s s' ev F Bc G H; [cbn in H; inv H; split; [exact G|constructor]|].
  apply run_cons in H as (s1 & ev1 & ev2 & A & R & ->). inversion F; subst.
  destruct (act_good _ _ _ _ _ H1 Bc G A) as (G1 & N1). destruct (IH _ _ _ H2 Bc G1 R) as (G2 & N2). split; [exact G2|apply nil_app; assumption].
Qed.
Lemma new_good v cp cm cc sw st : good (NewDataSubscriber v cp cm cc sw st).
Proof.
  split; [|constructor]. change (len (repeat 0 (Z.to_nat maxPacketSize)) = maxPacketSize). unfold len. rewrite repeat_length.
  unfold maxPacketSize. lia.
Qed.
