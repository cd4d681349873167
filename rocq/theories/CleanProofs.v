(** Non-interference of what an earlier connection left. *)
From stdpp Require Import gmap.
From Coq Require Import Lia ZArith.
From Verif Require Import Base BaseProofs GuidModel FrameModel FrameSpec FrameProofs CacheModel CompactModel TsscModel SubscriberModel SubscriberSpec SubscriberProofs SubscriberProofs4 SubscriberProofs5 CleanSpec.
Open Scope Z_scope.
Ltac Zify.zify_post_hook ::= Z.div_mod_to_equations.

Inductive agree (d : leftover) : sub -> sub -> Prop :=
| Agree con val sb rf rf' v cp cm cc sw st cb cb' db db' mt mt' rg id id' k0 k0' k1 k1' ci ci' ti ti' bt bt' ks tr tr' be bq bq' wb wb' :
    (l_cache0 d = false -> k0 = k0') -> (l_cache1 d = false -> k1 = k1') -> (l_base d = false -> bt = bt') -> (l_blocks d = false -> bq = bq') ->
    len wb = maxPacketSize -> len wb' = maxPacketSize ->
    agree d (mkSub con val sb rf v cp cm cc sw st cb db mt rg id k0 k1 ci ti bt ks tr be bq wb)
            (mkSub con val sb rf' v cp cm cc sw st cb' db' mt' rg id' k0' k1' ci' ti' bt' ks tr' be bq' wb').

Ltac agr A := destruct A as [con val sb rf rf' v cp cm cc sw st cb cb' db db' mt mt' rg id id' k0 k0' k1 k1' ci ci' ti ti' bt bt' ks tr tr' be bq bq' wb wb' H0 H1 HB HQ W W'].

Definition alike (R : list event -> sub -> sub -> Prop) (r r' : step) : Prop :=
  match r, r' with Ok (s, ev), Ok (s', ev') => ev = ev' /\ R ev s s' | Panic, Panic | Err, Err => True | _, _ => False end.
Definition always (d : leftover) (_ : list event) := agree d.
Lemma alike_mono (R R' : list event -> sub -> sub -> Prop) r r' : (forall ev s s', R ev s s' -> R' ev s s') -> alike R r r' -> alike R' r r'.
Proof. intros H. unfold alike. destruct r as [[s ev]| |], r' as [[s' ev']| |]; auto. intros [-> A]. split; [reflexivity|apply H, A]. Qed.
Lemma alike_bind (R R' : list event -> sub -> sub -> Prop) (r r' : step) f f' : alike R r r' ->
  (forall s ev s', R ev s s' -> alike R' (f (s, ev)) (f' (s', ev))) -> alike R' (bind r f) (bind r' f').
Proof. unfold alike at 1. destruct r as [[s ev]| |], r' as [[s' ev']| |]; cbn [bind]; try contradiction; try constructor. intros [<- A] H. apply H, A. Qed.
Lemma alike_pure {A} (R : list event -> sub -> sub -> Prop) (r : res A) (f f' : A -> step) : (forall x, r = Ok x -> alike R (f x) (f' x)) -> alike R (bind r f) (bind r f').
Proof. intros H. destruct r as [x| |]; cbn [bind]; [apply H; reflexivity|exact I|exact I]. Qed.
Lemma alike_done (R : list event -> sub -> sub -> Prop) s s' ev : R ev s s' -> alike R (done s ev) (done s' ev).
Proof. intros H. split; [reflexivity|exact H]. Qed.
Lemma alike_emit d ev r r' : alike (always d) r r' -> alike (always d) (emit ev r) (emit ev r').
Proof. unfold emit. intros A. apply (alike_bind _ _ _ _ _ _ A). intros s ev0 s' H. split; [reflexivity|exact H]. Qed.
Lemma agree_less d d' s s' : (l_cache0 d = false -> l_cache0 d' = false) -> (l_cache1 d = false -> l_cache1 d' = false) ->
  (l_base d = false -> l_base d' = false) -> (l_blocks d = false -> l_blocks d' = false) -> agree d' s s' -> agree d s s'.
Proof. intros D0 D1 D2 D3 A. agr A. constructor; auto. Qed.

Lemma send_alike d s s' c x : agree d s s' -> alike (always d) (send s c x) (send s' c x).
Proof.
  intros A. destruct A as [con val sb rf rf' v cp cm cc sw st cb cb' db db' mt mt' rg id id' k0 k0' k1 k1' ci ci' ti ti' bt bt' ks tr tr' be bq bq' wb wb' H0 H1 HB HQ W W'].
  set (s := mkSub _ _ _ _ _ _ _ _ _ _ _ _ _ _ _ k0 _ _ _ _ _ _ _ _ _). set (s' := mkSub _ _ _ _ _ _ _ _ _ _ _ _ _ _ _ k0' _ _ _ _ _ _ _ _ _).
  destruct (Z_le_gt_dec (len x) (maxPacketSize - 5)) as [G|G].
  - unfold always. destruct (send_ok s c x W G) as (w1 & L1 & ->). destruct (send_ok s' c x W' G) as (w2 & L2 & ->). subst s s'. cbn [connected set_writeBuffer].
    split; [reflexivity|]. constructor; assumption.
  - unfold send, s, s'. cbn [connected writeBuffer]. destruct con.
    + rewrite !Send_panic by (assumption || lia). exact I.
    + cbn [SendServerCommandWithPayload negb bind]. split; [reflexivity|]. cbn [set_writeBuffer]. constructor; assumption.
Qed.

Lemma decode_sub rg id id' c0 x sw : exists i i',
  decode (mkDec rg id c0) x sw = (mkDec (d_reg (fst (decode (mkDec rg id c0) x sw))) i (d_sic (fst (decode (mkDec rg id c0) x sw))), snd (decode (mkDec rg id c0) x sw)) /\
  decode (mkDec rg id' c0) x sw = (mkDec (d_reg (fst (decode (mkDec rg id c0) x sw))) i' (d_sic (fst (decode (mkDec rg id c0) x sw))), snd (decode (mkDec rg id c0) x sw)).
Proof.
  unfold decode. destruct (u32 (len x) <? 4); [exists id, id'; split; reflexivity|].
  destruct (be_u32 x) as [b| |]; [|exists id, id'; split; reflexivity..].
  destruct (u32 (len x) <? b); [exists id, id'; split; reflexivity|].
  destruct (let* t := slice_from x 4 in FromBytes t sw) as [g| |]; [|exists Empty, Empty; split; reflexivity|exists id, id'; split; reflexivity].
  destruct (let* t := slice_from x 20 in be_u32 t) as [n| |]; [|exists g, g; split; reflexivity..].
  cbn [d_reg d_sic]. destruct (decode_loop _ _ _ _ _) as [[reg c] r]. exists g, g. split; reflexivity.
Qed.

(** ** The handlers *)
Definition refreshed (d : leftover) (one : bool) : leftover :=
  Leftover (l_cache0 d && one) (l_cache1 d && negb one) (l_base d) (l_blocks d).
Ltac projs := cbn [connected validated subscribed connectionRefused Version CompressPayloadData CompressMetadata CompressSignalIndexCache SwapGuidEndianness subscription cmdBytes dataBytes measTotal measurementRegistry subscriberID cache0 cache1 cacheIndex timeIndex baseTimes keyIVs tsscResetRequested bufferBlockExpected bufferBlockCache writeBuffer
  set_connected set_validated set_subscribed set_connectionRefused set_Version set_subscription set_cmdBytes set_dataBytes set_measTotal set_measurementRegistry set_subscriberID set_cache0 set_cache1 set_cacheIndex set_timeIndex set_baseTimes set_keyIVs set_tsscResetRequested set_bufferBlockExpected set_bufferBlockCache set_writeBuffer].
Ltac keep := apply alike_done; constructor; assumption.

Lemma handleSucceeded_alike e d s s' c x : agree d s s' -> alike (always d) (handleSucceeded e s c x) (handleSucceeded e s' c x).
Proof.
  intros A. agr A. unfold handleSucceeded. projs.
  destruct (c =? sc_MetadataRefresh); [destruct cm; [destruct (gunzip e x)|]; keep|].
  destruct (c =? sc_Subscribe); [keep|]. destruct (c =? sc_Unsubscribe); [keep|]. destruct (_ || _); keep.
Qed.
Lemma handleFailed_alike d s s' c x : agree d s s' -> alike (always d) (handleFailed s c x) (handleFailed s' c x).
Proof. intros A. agr A. unfold handleFailed. projs. destruct (_ || _); keep. Qed.
Lemma handleDataStartTime_alike d s s' x : agree d s s' -> alike (always d) (handleDataStartTime s x) (handleDataStartTime s' x).
Proof. intros A. apply alike_pure. intros t _. apply alike_done, A. Qed.
Lemma handleUpdateSignalIndexCache_alike e d s s' x : agree d s s' ->
  alike (fun ev => agree (if reports_update ev then refreshed d ((1 <? Version s) && (0 <? nth 0 x 0)) else d))
    (handleUpdateSignalIndexCache e s x) (handleUpdateSignalIndexCache e s' x).
Proof.
  intros A. agr A. unfold handleUpdateSignalIndexCache. projs. apply alike_pure. intros [i data] E.
  assert (I : i = if (1 <? v) && (0 <? nth 0 x 0) then 1 else 0).
  { destruct (1 <? v); [|injection E as <- _; reflexivity]. unfold idx in E. change (0 <? 0) with false in E. cbv iota in E. change (Z.to_nat 0) with 0%nat in E.
    destruct x as [|b x]; [discriminate E|]. cbn [nth_error bind nth] in *. destruct (slice_from (b :: x) 1); [|discriminate E|discriminate E].
    cbn [bind] in E. injection E as <- _. reflexivity. }
  set (one := (1 <? v) && (0 <? nth 0 x 0)) in *. clearbody one.
  destruct (if cc then gunzip e data else Some data) as [y|]; [|keep].
  destruct (decode_sub rg id id' NewSignalIndexCache y sw) as (n & n' & -> & ->). set (dd := decode _ _ _). clearbody dd. destruct dd as [[reg q c] r]. cbn [fst snd d_reg d_sic d_sub].
  destruct r as [u| |]; [|keep|exact Logic.I].
  assert (AG : agree (refreshed d one)
    (set_cacheIndex (set_cache (mkSub con val sb rf v cp cm cc sw st cb db mt reg n k0 k1 ci ti bt ks tr be bq wb) i (mkScache c None)) i)
    (set_cacheIndex (set_cache (mkSub con val sb rf' v cp cm cc sw st cb' db' mt' reg n' k0' k1' ci' ti' bt' ks tr' be bq' wb') i (mkScache c None)) i)).
  { subst i. destruct one; unfold set_cache; cbn [Z.eqb]; projs; constructor; cbn [refreshed l_cache0 l_cache1 l_base l_blocks]; rewrite ?andb_true_r; try assumption; intros _; reflexivity. }
  subst i. destruct one; unfold set_cache in AG |- *; cbn [Z.eqb] in AG |- *; revert AG; projs; intros AG;
    (eapply (alike_bind (always (refreshed d _))); [destruct (1 <? v); [apply send_alike, AG|apply alike_done, AG]|]);
    intros s0 ev s0' H; apply alike_done; unfold reports_update; rewrite existsb_app; cbn [existsb]; rewrite orb_true_r; exact H.
Qed.
Definition no_base (d : leftover) : leftover := Leftover (l_cache0 d) (l_cache1 d) false (l_blocks d).
Lemma handleUpdateBaseTimes_alike d s s' x : agree d s s' -> alike (fun _ => agree (no_base d)) (handleUpdateBaseTimes s x) (handleUpdateBaseTimes s' x).
Proof.
  intros A. agr A. unfold handleUpdateBaseTimes. projs. apply alike_pure. intros t _. apply alike_pure. intros d1 _. apply alike_pure. intros b0 _.
  apply alike_pure. intros d2 _. apply alike_pure. intros b1 _. destruct (_ || _); [exact I|]. apply alike_done. constructor; cbn [no_base l_cache0 l_cache1 l_base l_blocks]; try assumption. reflexivity.
Qed.
Lemma handleUpdateCipherKeys_alike d s s' x : agree d s s' -> alike (always d) (handleUpdateCipherKeys s x) (handleUpdateCipherKeys s' x).
Proof.
  intros A. agr A. unfold handleUpdateCipherKeys.
  repeat first [apply alike_pure; intros [? ?] _ | apply alike_pure; intros ? _]. projs. keep.
Qed.
Lemma slot_agree d s s' one : agree d s s' -> l_slot d one = false -> cache_at s (if one then 1 else 0) = cache_at s' (if one then 1 else 0).
Proof. intros A L. agr A. unfold cache_at, l_slot in *. destruct one; cbn [Z.eqb]; projs; auto. Qed.
Lemma set_cache_agree d s s' i c : agree d s s' -> agree d (set_cache s i c) (set_cache s' i c).
Proof. intros A. agr A. unfold set_cache. destruct (i =? 0); projs; constructor; auto. Qed.
Lemma set_tssc_agree d s s' b : agree d s s' -> agree d (set_tsscResetRequested s b) (set_tsscResetRequested s' b).
Proof. intros A. agr A. projs. constructor; auto. Qed.

Definition alike3 (d : leftover) (r r' : res (sub * list measurement * list event)) : Prop :=
  match r, r' with Ok (s, ms, ev), Ok (s', ms', ev') => ms = ms' /\ ev = ev' /\ agree d s s' | Panic, Panic | Err, Err => True | _, _ => False end.
Lemma parseTSSC_alike d s s' one x room : agree d s s' -> l_slot d one = false ->
  alike3 d (parseTSSC s (if one then 1 else 0) x room) (parseTSSC s' (if one then 1 else 0) x room).
Proof.
  intros A L. unfold parseTSSC. rewrite <- (slot_agree d s s' one A L). set (i := if one then 1 else 0). set (sc := cache_at s i). clearbody i sc.
  set (d0 := match sc_decoder sc with Some d1 => d1 | None => NewDecoder end). set (nd := match sc_decoder sc with None => true | Some _ => false end). clearbody d0 nd.
  pose proof (set_cache_agree d s s' i (mkScache (sc_sic sc) (Some d0)) A) as A1.
  destruct (idx x 0) as [v| |]; cbn [bind]; [|exact I|exact I]. destruct (negb (v =? 85)); [repeat split; exact A1|].
  destruct (slice_from x 1) as [t| |]; cbn [bind]; [|exact I|exact I]. destruct (be_u16 t) as [q| |]; cbn [bind]; [|exact I|exact I].
  cbv zeta. set (d1 := if (q =? 0) && negb nd then NewDecoder else d0). set (ev := if _ && _ then [EvInfo] else []). clearbody d1 ev.
  set (S1 := if q =? 0 then set_tsscResetRequested (set_cache (set_cache s _ _) _ _) false else _).
  set (S2 := if q =? 0 then set_tsscResetRequested (set_cache (set_cache s' _ _) _ _) false else _).
  assert (A2 : agree d S1 S2). { subst S1 S2. destruct (q =? 0); [|exact A1]. apply set_tssc_agree, set_cache_agree, A1. }
  clearbody S1 S2. destruct (negb _); [repeat split; exact A2|]. destruct (slice_from x 3) as [body| |]; cbn [bind]; [|exact I|exact I].
  destruct (tssc_loop _ _ _ _) as [[ms dd] xx]. destruct xx; try exact I; repeat split; apply set_cache_agree, A2.
Qed.
Lemma parseCompact_alike d s s' one x room : agree d s s' -> l_slot d one = false -> l_base d = false ->
  alike3 d (parseCompactMeasurements s (if one then 1 else 0) x room) (parseCompactMeasurements s' (if one then 1 else 0) x room).
Proof.
  intros A L B. unfold parseCompactMeasurements. rewrite <- (slot_agree d s s' one A L).
  assert (E : subscription s = subscription s' /\ baseTimes s = baseTimes s') by (agr A; projs; auto). destruct E as [<- <-].
  destruct (Count _ =? 0); [repeat split; exact A|]. destruct (parseCompact _ _ _) as [ms xx]. destruct xx; try exact I; repeat split; exact A.
Qed.
Lemma land_bit f k : 0 <= f -> 0 <= k -> (0 <? Z.land f (2 ^ k)) = Z.testbit f k.
Proof.
  intros F K. destruct (Z.testbit f k) eqn:T.
  - apply Z.ltb_lt. assert (0 <= Z.land f (2 ^ k)) by (apply Z.land_nonneg; left; exact F).
    enough (Z.land f (2 ^ k) <> 0) by lia. intros Q. assert (X : Z.testbit (Z.land f (2 ^ k)) k = true) by (rewrite Z.land_spec, T, Z.pow2_bits_true by exact K; reflexivity).
    rewrite Q, Z.bits_0 in X. discriminate X.
  - apply Z.ltb_ge. enough (Z.land f (2 ^ k) = 0) by lia. apply Z.bits_inj'. intros n N. rewrite Z.land_spec, Z.bits_0, Z.pow2_bits_eqb by exact K.
    destruct (Z.eqb_spec k n) as [<-|NE]; [rewrite T; reflexivity|apply andb_false_r].
Qed.
Lemma handleDataPacket_alike e pool d s s' x : bytes_ok x -> agree d s s' ->
  l_slot d (Z.testbit (nth 0 x 0) 4) = false -> (l_base d = false \/ Z.testbit (nth 0 x 0) 3 = true) ->
  alike (always d) (handleDataPacket e pool s x) (handleDataPacket e pool s' x).
Proof.
  intros BX A L B. unfold handleDataPacket. apply alike_pure. intros f F.
  assert (FE : f = nth 0 x 0 /\ 0 <= f).
  { unfold idx in F. change (0 <? 0) with false in F. cbv iota in F. change (Z.to_nat 0) with 0%nat in F. destruct x as [|b x]; [discriminate F|]. cbn [nth_error nth] in *. injection F as <-.
    apply List.Forall_cons_iff in BX. destruct BX as [[BX _] _]. split; [reflexivity|exact BX]. }
  destruct FE as [FE F0]. rewrite <- FE in L, B. change df_Compressed with (2 ^ 3). change df_CacheIndex with (2 ^ 4). rewrite !land_bit by (exact F0 || lia).
  destruct (_ && _); [apply alike_done, A|]. apply alike_pure. intros y _.
  assert (KE : keyIVs s = keyIVs s') by (agr A; reflexivity). rewrite <- KE.
  match goal with |- alike _ (match ?P with _ => _ end) _ => destruct P as [z| |] end; [|apply alike_done, A|exact I].
  apply alike_pure. intros n _. apply alike_pure. intros body _.
  assert (Q : alike3 d
     (if Z.testbit f 3 then parseTSSC s (if Z.testbit f 4 then 1 else 0) body (length (destination pool n)) else parseCompactMeasurements s (if Z.testbit f 4 then 1 else 0) body (length (destination pool n)))
     (if Z.testbit f 3 then parseTSSC s' (if Z.testbit f 4 then 1 else 0) body (length (destination pool n)) else parseCompactMeasurements s' (if Z.testbit f 4 then 1 else 0) body (length (destination pool n)))).
  { destruct (Z.testbit f 3); [apply parseTSSC_alike; assumption|]. destruct B as [B|B]; [|discriminate B]. apply parseCompact_alike; assumption. }
  revert Q. unfold alike3. match goal with |- match ?P with _ => _ end -> _ => destruct P as [[[s1 ms] ev]| |] end;
    match goal with |- match ?P with _ => _ end -> _ => destruct P as [[[s1' ms'] ev']| |] end; try contradiction; cbn [bind]; [|intros _; exact I..].
  intros (<- & <- & A1). apply alike_done. agr A1. projs. constructor; assumption.
Qed.
Lemma handleBufferBlock_alike d s s' x : agree d s s' -> l_blocks d = false -> l_slot d ((1 <? Version s) && (0 <? nth 4 x 0)) = false ->
  alike (always d) (handleBufferBlock s x) (handleBufferBlock s' x).
Proof.
  intros A Q L. unfold handleBufferBlock.
  assert (E : Version s = Version s' /\ bufferBlockExpected s = bufferBlockExpected s' /\ bufferBlockCache s = bufferBlockCache s') by (agr A; projs; auto).
  destruct E as (EV & EB & EQ). rewrite <- EV, <- EB, <- EQ.
  apply alike_pure. intros q _. apply alike_pure. intros i I0.
  assert (IE : i = if (1 <? Version s) && (0 <? nth 4 x 0) then 1 else 0).
  { destruct (1 <? Version s); [|injection I0 as <-; reflexivity]. unfold slice_from in I0. destruct (_ || _) eqn:G; [discriminate I0|]. cbn [bind] in I0.
    change (Z.to_nat 4) with 4%nat in I0. unfold idx in I0. change (0 <? 0) with false in I0. cbv iota in I0. change (Z.to_nat 0) with 0%nat in I0.
    destruct (skipn 4 x) as [|b y] eqn:SK; [discriminate I0|]. cbn [nth_error bind] in I0. injection I0 as <-.
    replace (nth 4 x 0) with b; [reflexivity|]. rewrite <- (firstn_skipn 4 x), SK. rewrite app_nth2; rewrite firstn_length; [|lia].
    assert (length x >= 5)%nat by (pose proof (skipn_length 4 x) as SL; rewrite SK in SL; cbn [length] in SL; lia).
    replace (4 - Nat.min 4 (length x))%nat with 0%nat by lia. reflexivity. }
  subst i. pose proof (slot_agree d s s' _ A L) as SA.
  destruct (negb _); [apply alike_done, A|]. apply alike_pure. intros cf _.
  pose proof (send_alike d s s' sc_ConfirmBufferBlock cf A) as SD.
  assert (SM : forall t c y t1 ev, send t c y = Ok (t1, ev) -> exists w, t1 = set_writeBuffer t w) by (intros t c y t1 ev H; apply send_inv in H as (w & -> & _); exists w; reflexivity).
  destruct (send s sc_ConfirmBufferBlock cf) as [[s1 ev]| |] eqn:E1, (send s' sc_ConfirmBufferBlock cf) as [[s1' ev']| |] eqn:E2; try contradiction; cbn [bind]; [|exact I|exact I].
  destruct SD as [<- A1]. destruct (SM _ _ _ _ _ E1) as [w ->]. destruct (SM _ _ _ _ _ E2) as [w' ->].
  assert (P : forall t w, Version (set_writeBuffer t w) = Version t /\ bufferBlockExpected (set_writeBuffer t w) = bufferBlockExpected t /\ bufferBlockCache (set_writeBuffer t w) = bufferBlockCache t /\ forall j, cache_at (set_writeBuffer t w) j = cache_at t j) by (intros t w0; repeat split).
  destruct (P s w) as (-> & -> & -> & C1). destruct (P s' w') as (-> & -> & -> & C2). rewrite <- EV, <- EB, <- EQ.
  apply alike_pure. intros y _. apply alike_pure. intros si _. rewrite C1, C2, SA.
  unfold always in *. destruct (q =? bufferBlockExpected s).
  - apply alike_done. clear - A1 EB. agr A1. projs. constructor; try assumption. reflexivity.
  - apply alike_pure. intros c _. apply alike_done. clear - A1. agr A1. projs. constructor; try assumption. reflexivity.
Qed.
Lemma handleNotification_alike d s s' x : agree d s s' -> alike (always d) (handleNotification s x) (handleNotification s' x).
Proof. intros A. unfold handleNotification. apply alike_pure. intros m _. apply alike_pure. intros h _. apply alike_emit, send_alike, A. Qed.

(** ** Actions *)
Lemma validate_alike d s s' c m : agree d s s' ->
  match validate s c m, validate s' c m with Some t, Some t' => agree d t t' /\ Version t = Version s | None, None => True | _, _ => False end.
Proof.
  intros A. agr A. unfold validate. projs. destruct (negb val).
  - destruct (_ && _ && _); [exact I|]. projs. split; [constructor; assumption|reflexivity].
  - split; [constructor; assumption|reflexivity].
Qed.
Lemma nth_skipn_6 (p : bytes) k : nth k (skipn 6 p) 0 = nth (6 + k) p 0.
Proof.
  destruct (Nat.le_gt_cases (length p) 6) as [L|L].
  - rewrite skipn_all2 by exact L. rewrite !nth_overflow; [reflexivity|lia|cbn [length]; lia].
  - rewrite <- (firstn_skipn 6 p) at 2. rewrite app_nth2; rewrite firstn_length; [|lia]. f_equal. lia.
Qed.
Definition after_packet (v : Z) (d : leftover) (p : bytes) (ev : list event) : leftover :=
  let upd := (code_of p =? 0x83) && reports_update ev in
  let one := (1 <? v) && (0 <? nth 6 p 0) in
  Leftover (l_cache0 d && negb (upd && negb one)) (l_cache1 d && negb (upd && one))
    (l_base d && negb ((code_of p =? 0x84) && reports_info ev)) (l_blocks d).
Lemma after_keep v d p ev s s' : (code_of p =? 0x83) = false -> (code_of p =? 0x84) = false -> agree d s s' -> agree (after_packet v d p ev) s s'.
Proof.
  intros C1 C2 A. eapply agree_less; [..|exact A]; cbn [after_packet l_cache0 l_cache1 l_base l_blocks]; rewrite ?C1, ?C2; cbn [andb negb]; rewrite ?andb_true_r; auto.
Qed.
Lemma after_silent v d p ev s s' : reports_update ev = false -> reports_info ev = false -> agree d s s' -> agree (after_packet v d p ev) s s'.
Proof.
  intros C1 C2 A. eapply agree_less; [..|exact A]; cbn [after_packet l_cache0 l_cache1 l_base l_blocks]; rewrite ?C1, ?C2, ?andb_false_r; cbn [andb negb]; rewrite ?andb_true_r; auto.
Qed.
Lemma process_alike e pool d s s' p : bytes_ok p -> agree d s s' -> refers_to_none (Version s) d p ->
  alike (fun ev => agree (after_packet (Version s) d p ev)) (processServerResponse e pool s p) (processServerResponse e pool s' p).
Proof.
  intros BP A (RD & RB). unfold processServerResponse. apply alike_pure. intros x X. apply alike_pure. intros c C. apply alike_pure. intros m _.
  assert (XE : x = skipn 6 p). { unfold slice_from in X. destruct (_ || _); [discriminate X|]. injection X as <-. reflexivity. }
  assert (CE : c = code_of p). { unfold idx in C. change (0 <? 0) with false in C. cbv iota in C. change (Z.to_nat 0) with 0%nat in C. destruct p as [|b p]; [discriminate C|]. cbn in C. injection C as <-. reflexivity. }
  pose proof (validate_alike d s s' c m A) as V. destruct (validate s c m) as [t|], (validate s' c m) as [t'|]; try contradiction.
  2: { apply alike_done. apply after_silent; try reflexivity. exact A. }
  destruct V as [AT VT]. clear A. rewrite <- VT in *. clear VT s s'.
  assert (BX : bytes_ok x) by (subst x; apply bytes_ok_skipn', BP).
  assert (KEEP : (code_of p =? 0x83) = false -> (code_of p =? 0x84) = false -> forall r r', alike (always d) r r' -> alike (fun ev => agree (after_packet (Version t) d p ev)) r r').
  { intros C1 C2 r r'. apply alike_mono. intros ev s s'. apply after_keep; assumption. }
  assert (N83 : forall k, k <> 0x83 -> (c =? k) = true -> (code_of p =? 0x83) = false) by (intros k K E; lia).
  assert (N84 : forall k, k <> 0x84 -> (c =? k) = true -> (code_of p =? 0x84) = false) by (intros k K E; lia).
  Local Ltac other KEEP N83 N84 E := apply KEEP; [eapply N83; [|exact E]; discriminate|eapply N84; [|exact E]; discriminate|].
  destruct (c =? sr_Succeeded) eqn:E1; [other KEEP N83 N84 E1; apply handleSucceeded_alike, AT|].
  destruct (c =? sr_Failed) eqn:E2; [other KEEP N83 N84 E2; apply handleFailed_alike, AT|].
  destruct (c =? sr_DataPacket) eqn:E3.
  { other KEEP N83 N84 E3. apply Z.eqb_eq in E3. destruct RD as [R1 R2]; [rewrite <- CE; exact E3|].
    apply handleDataPacket_alike; [exact BX|exact AT|..]; subst x; rewrite nth_skipn_6; assumption. }
  destruct (c =? sr_DataStartTime) eqn:E4; [other KEEP N83 N84 E4; apply handleDataStartTime_alike, AT|].
  destruct (c =? sr_ProcessingComplete) eqn:E5; [other KEEP N83 N84 E5; apply alike_done, AT|].
  destruct (c =? sr_UpdateSignalIndexCache) eqn:E6.
  { pose proof (handleUpdateSignalIndexCache_alike e d t t' x AT) as Q. revert Q. apply alike_mono. intros ev s s'.
    assert (N0 : nth 0 x 0 = nth 6 p 0) by (subst x; apply nth_skipn_6). rewrite N0.
    apply Z.eqb_eq in E6. assert (K1 : (code_of p =? 0x83) = true) by (unfold sr_UpdateSignalIndexCache in E6; lia). assert (K2 : (code_of p =? 0x84) = false) by (unfold sr_UpdateSignalIndexCache in E6; lia).
    unfold after_packet. set (one := (1 <? Version t) && (0 <? nth 6 p 0)). clearbody one.
    intros A. apply (agree_less _ (if reports_update ev then refreshed d one else d)); [..|exact A]; cbn [l_cache0 l_cache1 l_base l_blocks];
      rewrite ?K1, ?K2; destruct (reports_update ev); cbn [andb negb refreshed l_cache0 l_cache1 l_base l_blocks]; rewrite ?andb_true_r, ?negb_involutive; intros H; exact H. }
  destruct (c =? sr_UpdateBaseTimes) eqn:E7.
  { pose proof (handleUpdateBaseTimes_alike d t t' x AT) as Q. revert Q. apply alike_mono. intros ev s s' A.
    apply Z.eqb_eq in E7. assert (K1 : (code_of p =? 0x83) = false) by (unfold sr_UpdateBaseTimes in E7; lia).
    apply (agree_less _ (no_base d)); [..|exact A]; cbn [after_packet no_base l_cache0 l_cache1 l_base l_blocks]; rewrite ?K1; cbn [andb negb]; rewrite ?andb_true_r; auto. }
  assert (K1 : (code_of p =? 0x83) = false) by (rewrite <- CE; exact E6). assert (K2 : (code_of p =? 0x84) = false) by (rewrite <- CE; exact E7).
  apply (KEEP K1 K2).
  destruct (c =? sr_UpdateCipherKeys); [apply handleUpdateCipherKeys_alike, AT|].
  destruct (c =? sr_ConfigurationChanged); [apply alike_done, AT|].
  destruct (c =? sr_BufferBlock) eqn:E8.
  { apply Z.eqb_eq in E8. destruct RB as [R1 R2]; [rewrite <- CE; exact E8|]. apply handleBufferBlock_alike; [exact AT|exact R1|]. subst x. rewrite nth_skipn_6. exact R2. }
  destruct (c =? sr_Notify); [apply handleNotification_alike, AT|]. destruct (c =? sr_NoOP); apply alike_done, AT.
Qed.
Lemma set_bytes_agree d s s' a b : agree d s s' -> agree d (set_cmdBytes s a) (set_cmdBytes s' b) /\ agree d (set_dataBytes s a) (set_dataBytes s' b).
Proof. intros A. agr A. projs. split; constructor; assumption. Qed.
Lemma receive_alike e pool d s s' p : bytes_ok p -> agree d s s' -> refers_to_none (Version s) d p ->
  alike (fun ev => agree (after_packet (Version s) d p ev)) (receive e pool s p) (receive e pool s' p).
Proof.
  intros BP A R. unfold receive.
  assert (H : let '(t, go) := readPayloadHeader s (len p) in let '(t', go') := readPayloadHeader s' (len p) in go = go' /\ agree d t t' /\ Version t = Version s).
  { agr A. unfold readPayloadHeader. projs. destruct (negb val); [destruct (2 <=? v)|]; projs; split; try reflexivity; (split; [constructor; assumption|reflexivity]). }
  destruct (readPayloadHeader s (len p)) as [t go], (readPayloadHeader s' (len p)) as [t' go']. destruct H as (<- & AT & VT). rewrite <- VT in *.
  destruct go; [|apply alike_done, after_silent; try reflexivity; exact AT]. unfold readPacket.
  apply (process_alike e pool d (set_cmdBytes t _) (set_cmdBytes t' _) p BP); [|exact R]. apply set_bytes_agree, AT.
Qed.
Lemma receiveUdp_alike e pool d s s' p : bytes_ok p -> agree d s s' -> refers_to_none (Version s) d p ->
  alike (fun ev => agree (after_packet (Version s) d p ev)) (receiveUdp e pool s p) (receiveUdp e pool s' p).
Proof.
  intros BP A R. unfold receiveUdp. apply (process_alike e pool d (set_dataBytes s _) (set_dataBytes s' _) p BP); [|exact R]. apply set_bytes_agree, A.
Qed.
Lemma Unsubscribe_alike d s s' : agree d s s' -> alike (always d) (Unsubscribe s) (Unsubscribe s').
Proof.
  intros A. unfold Unsubscribe. assert (E : connected s = connected s' /\ validated s = validated s') by (agr A; split; reflexivity). destruct E as [<- <-].
  destruct (_ || _); [apply alike_done, A|apply send_alike, A].
Qed.
Lemma Subscribe_alike d s s' : agree d s s' -> alike (always d) (Subscribe s) (Subscribe s').
Proof.
  intros A. unfold Subscribe. assert (E : connected s = connected s' /\ validated s = validated s' /\ Version s = Version s' /\ subscribed s = subscribed s') by (agr A; repeat split).
  destruct E as (<- & <- & <- & <-). destruct (negb _); [apply alike_done, A|]. destruct (_ && _); [apply alike_done, A|].
  apply (alike_bind (always d)); [destruct (subscribed s); [apply Unsubscribe_alike, A|apply alike_done, A]|].
  intros t ev t' AT. assert (A2 : agree d (set_measTotal t 0) (set_measTotal t' 0) /\ subscription (set_measTotal t 0) = subscription (set_measTotal t' 0)) by (clear - AT; unfold always in AT; agr AT; projs; split; [constructor; assumption|reflexivity]).
  destruct A2 as [A2 ES]. rewrite <- ES. apply (alike_bind (always d)); [apply send_alike, A2|]. intros u ev2 u' AU. apply alike_done, set_tssc_agree, AU.
Qed.
(** What setting up a connection does, field by field. *)
Lemma setup_eq con val sb rf v cp cm cc sw st cb db mt rg id k0 k1 ci ti bt ks tr be bq wb :
  set_connectionRefused (setupConnection (mkSub con val sb rf v cp cm cc sw st cb db mt rg id k0 k1 ci ti bt ks tr be bq wb)) false =
  mkSub con val false false v cp cm cc sw st 0 0 0 ∅ id k0 k1 ci ti bt None tr 0 bq wb.
Proof. vm_compute. reflexivity. Qed.
Lemma setup_agree d s s' : agree d s s' -> agree d (set_connectionRefused (setupConnection s) false) (set_connectionRefused (setupConnection s') false).
Proof. intros A. agr A. rewrite !setup_eq. constructor; assumption. Qed.
Lemma set_connected_agree d s s' : agree d s s' -> agree d (set_connected s true) (set_connected s' true).
Proof. intros A. agr A. projs. constructor; assumption. Qed.
Definition modes_of (x : sub) : bytes := be_put 4 (operationalModes (Version x) oe_UTF8 (CompressPayloadData x)
    (s_UdpDataChannel (subscription x)) (CompressMetadata x) (CompressSignalIndexCache x)).
Lemma modes_agree d s s' : agree d s s' -> modes_of s = modes_of s'.
Proof. intros A. agr A. unfold modes_of. projs. reflexivity. Qed.
Lemma sendOperationalModes_modes x : sendOperationalModes x = send x sc_DefineOperationalModes (modes_of x).
Proof. reflexivity. Qed.
Lemma establish_alike d s s' : agree d s s' -> alike (always d) (establishConnection s) (establishConnection s').
Proof.
  intros A. unfold establishConnection. apply set_connected_agree in A. rewrite !sendOperationalModes_modes. rewrite <- (modes_agree _ _ _ A). set (m := modes_of _). clearbody m.
  apply (alike_bind (always d)); [apply send_alike, A|]. intros u ev u' AU. apply alike_done, AU.
Qed.
Lemma connect_alike d s s' dial : agree d s s' -> alike (always d) (connect s dial) (connect s' dial).
Proof.
  intros A. unfold connect. assert (E : connected s = connected s') by (agr A; reflexivity). rewrite <- E. destruct (connected s); [apply alike_done, A|].
  apply setup_agree in A. set (t := set_connectionRefused (setupConnection s) false) in *. set (t' := set_connectionRefused (setupConnection s') false) in *. clearbody t t'.
  destruct dial; [apply establish_alike, A|apply alike_done, A].
Qed.
Lemma disconnect_alike d s s' : agree d s s' -> alike (always d) (disconnect s) (disconnect s').
Proof. intros A. unfold disconnect. apply alike_done. clear - A. unfold always. agr A. projs. constructor; assumption. Qed.
Lemma act_alike e d s s' a : packet_ok a -> agree d s s' -> (forall p, packet_of a = Some p -> refers_to_none (Version s) d p) ->
  alike (fun ev => agree (after (Version s) d a ev)) (act e s a) (act e s' a).
Proof.
  intros BP A R. assert (EC : connected s = connected s') by (agr A; reflexivity).
  destruct a as [dial|pool p|pool p| | |]; cbn [act]; unfold after; cbn [packet_of].
  - apply connect_alike, A.
  - rewrite <- EC. destruct (connected s); [apply receive_alike; [exact BP|exact A|apply R; reflexivity]|]. apply alike_done. apply (after_silent _ d p []); [reflexivity|reflexivity|exact A].
  - rewrite <- EC. destruct (connected s); [apply receiveUdp_alike; [exact BP|exact A|apply R; reflexivity]|]. apply alike_done. apply (after_silent _ d p []); [reflexivity|reflexivity|exact A].
  - apply Subscribe_alike, A.
  - apply Unsubscribe_alike, A.
  - apply disconnect_alike, A.
Qed.
Lemma run_alike e d s l : clean e d s l -> forall s', agree d s s' -> same_seen (run e s l) (run e s' l).
Proof.
  induction 1 as [d s|d s a l s1 ev BP R X C IH|d s a l BP R X]; intros s' A; cbn [run].
  - reflexivity.
  - pose proof (act_alike e d s s' a BP A R) as Q. rewrite X in *. unfold alike in Q. destruct (act e s' a) as [[s1' ev']| |]; try contradiction. destruct Q as [<- A1].
    specialize (IH s1' A1). cbn [bind]. unfold same_seen in *. destruct (run e s1 l) as [[t ev1]| |], (run e s1' l) as [[t' ev1']| |]; try contradiction; cbn [emit bind]; try exact I. subst. reflexivity.
  - pose proof (act_alike e d s s' a BP A R) as Q. rewrite X in *. unfold alike in Q. destruct (act e s' a) as [[s1' ev']| |]; try contradiction. exact I.
Qed.
(** Two subscribers about to connect. *)
Lemma setup_fresh s s' q : good s -> good s' -> same_settings s s' -> connected s = connected s' -> validated s = validated s' ->
  (q = false -> bufferBlockCache s = bufferBlockCache s') ->
  agree (Leftover true true true q) (set_connectionRefused (setupConnection s) false) (set_connectionRefused (setupConnection s') false).
Proof.
  intros G G' S C V Q.
  destruct s as [con val sb rf v cp cm cc sw st cb db mt rg id k0 k1 ci ti bt ks tr be bq wb], s' as [con' val' sb' rf' v' cp' cm' cc' sw' st' cb' db' mt' rg' id' k0' k1' ci' ti' bt' ks' tr' be' bq' wb'].
  unfold good, same_settings in *. cbn [connected validated Version CompressPayloadData CompressMetadata CompressSignalIndexCache SwapGuidEndianness subscription bufferBlockCache writeBuffer] in *.
  destruct S as (-> & -> & -> & -> & -> & ->). subst. rewrite !setup_eq.
  constructor; cbn [l_cache0 l_cache1 l_base l_blocks]; try (intros X; discriminate X); [exact Q|apply G|apply G'].
Qed.
Lemma connect_true s : connected s = false -> connect s true = establishConnection (set_connectionRefused (setupConnection s) false).
Proof. intros C. unfold connect. rewrite C. reflexivity. Qed.
Lemma act_connect e s : connected s = false -> act e s (AConnect true) = establishConnection (set_connectionRefused (setupConnection s) false).
Proof. intros C. cbn [act]. apply connect_true, C. Qed.
Lemma runs_alike e d a s s' l : alike (always d) (act e s a) (act e s' a) ->
  (forall s1 ev, act e s a = Ok (s1, ev) -> clean e d s1 l) -> same_seen (run e s (a :: l)) (run e s' (a :: l)).
Proof.
  intros A CL. cbn [run]. unfold alike in A. destruct (act e s a) as [[s1 ev]| |], (act e s' a) as [[s1' ev']| |]; try contradiction; cbn [bind]; try exact I.
  destruct A as [<- A]. pose proof (run_alike e _ s1 l (CL s1 ev eq_refl) s1' A) as R. unfold same_seen in *.
  destruct (run e s1 l) as [[t e1]| |], (run e s1' l) as [[t' e1']| |]; try contradiction; cbn [emit bind]; try exact I. subst. reflexivity.
Qed.
Lemma fresh_alike e s s' l : good s -> good s' -> same_settings s s' -> connected s = false -> connected s' = false -> validated s = validated s' ->
  forall q, (q = false -> bufferBlockCache s = bufferBlockCache s') ->
  (forall s1 ev, act e s (AConnect true) = Ok (s1, ev) -> clean e (Leftover true true true q) s1 l) ->
  same_seen (run e s (AConnect true :: l)) (run e s' (AConnect true :: l)).
Proof.
  intros G G' S C C' V q Q CL. apply (runs_alike e (Leftover true true true q)); [|exact CL]. clear CL.
  rewrite (act_connect e s C), (act_connect e s' C'). apply establish_alike.
  apply setup_fresh; [exact G|exact G'|exact S|rewrite C, C'; reflexivity|exact V|exact Q].
Qed.
