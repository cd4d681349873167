(** Lemmas about the data channel and the command channel at the same time. *)
From stdpp Require Import gmap.
From Coq Require Import Lia ZArith.
From Verif Require Import Base BaseProofs TicksModel GuidModel CompactModel CompactSpec CompactProofs CacheModel FrameModel SubscriberModel SubscriberSpec SubscriberProofs SubscriberProofs7
  EndSpec EndProofs MixModel MixSpec.
Open Scope Z_scope.
Ltac Zify.zify_post_hook ::= Z.div_mod_to_equations.

(** ** A packet handled alone *)
Definition result (s : sub) (pool : option (list measurement)) (count : Z) (o : outcome) : step :=
  match o with
  | Crashed => Panic
  | Refused => done s [EvError; EvTerminate]
  | Given failed ms =>
      done (set_measTotal s (u64 (measTotal s + count)))
        ((if failed then [EvError; EvTerminate] else []) ++ [EvMeasurements (ms ++ skipn (length ms) (destination pool count))])
  end.

Lemma mixed_finished e pool incl ms p h sched o : mixed e pool incl ms p h (Finished o) sched = Finished o.
Proof. revert h. induction sched as [|[|w] r IH]; intros h; cbn [mixed data_step]; auto. Qed.
Lemma mixed_app e pool incl ms p sched1 sched2 : forall h a,
  mixed e pool incl ms p h a (sched1 ++ sched2) =
  mixed e pool incl ms p (apply_all h (stores_of sched1)) (mixed e pool incl ms p h a sched1) sched2.
Proof.
  induction sched1 as [|[|w] r IH]; intros h a; cbn [mixed app]; [reflexivity|apply IH|].
  rewrite IH. reflexivity.
Qed.
Lemma alone_loop e pool incl ms p h c body : forall n index acc k, (n < k)%nat ->
  mixed e pool incl ms p h (Loop c body n index acc) (repeat Data k) =
  let '(l, x) := parseCompact_loop (mkCfg (signalID_of c) incl ms (h_base0 h, h_base1 h)) body n index in
  Finished (match x with PPanic => Crashed | PErr => Given true (rev acc ++ l) | PDone => Given false (rev acc ++ l) end).
Proof.
  induction n as [|n IH]; intros index acc k Hk; (destruct k as [|k]; [lia|]); cbn [repeat mixed data_step parseCompact_loop].
  - rewrite mixed_finished, app_nil_r. reflexivity.
  - destruct (slice_from body index) as [t| |]; try (rewrite mixed_finished; reflexivity).
    destruct (Decode _ t) as [[m used]| |].
    + rewrite IH by lia. cbn [rev]. destruct (parseCompact_loop _ body n (index + used)) as [l x].
      rewrite <- app_assoc. reflexivity.
    + rewrite mixed_finished, app_nil_r. reflexivity.
    + apply mixed_finished.
Qed.

Lemma slice_not_err {A} (l : list A) n : slice_from l n <> Err.
Proof. unfold slice_from. destruct (_ || _); discriminate. Qed.
Lemma be_not_err n l : be_get n l <> Err.
Proof. unfold be_get. destruct (_ <? _)%nat; discriminate. Qed.

(** From the fetching of the cache on. *)
Lemma alone_plain e pool s packet flags data :
  exists o count, (exists K, forall k, (K <= k)%nat ->
    mixed e pool (s_IncludeTime (subscription s)) (s_UseMillisecondResolution (subscription s)) packet (shared_of s) (Plain flags data) (repeat Data k) = Finished o) /\
    (let* count := be_u32 data in
        let dest := destination pool count in
        let ci := if 0 <? Z.land flags df_CacheIndex then 1 else 0 in
        let* body := slice_from data 4 in
        let* (r, ev) := parseCompactMeasurements s ci body (length dest) in
        let '(s, ms) := r in
        done (set_measTotal s (u64 (measTotal s + count)))
             (ev ++ [EvMeasurements (ms ++ skipn (length ms) dest)])) = result s pool count o.
Proof.
  destruct (be_u32 data) as [count| |] eqn:B; [|exfalso; exact (be_not_err _ _ B)|].
  2:{ exists Crashed, 0. split; [|reflexivity]. exists 1%nat. intros [|k] Hk; [lia|]. cbn [repeat mixed data_step]. rewrite B. apply mixed_finished. }
  cbn [bind]. cbv zeta.
  destruct (slice_from data 4) as [body| |] eqn:B4; [|exfalso; exact (slice_not_err _ _ B4)|].
  2:{ exists Crashed, 0. split; [|reflexivity]. exists 1%nat. intros [|k] Hk; [lia|]. cbn [repeat mixed data_step]. rewrite B. cbn [of_res]. cbv zeta. rewrite B4. apply mixed_finished. }
  cbn [bind]. unfold parseCompactMeasurements. cbv zeta.
  set (c := sc_sic (cache_at s (if 0 <? Z.land flags df_CacheIndex then 1 else 0))).
  assert (HC : h_cache (shared_of s) (0 <? Z.land flags df_CacheIndex) = c).
  { unfold c, h_cache, cache_at, shared_of. destruct (0 <? Z.land flags df_CacheIndex); reflexivity. }
  destruct (Count c =? 0) eqn:C0.
  { exists (Given false []), count. split; [|reflexivity]. exists 1%nat. intros [|k] Hk; [lia|]. cbn [repeat mixed data_step]. rewrite B. cbn [of_res]. cbv zeta. rewrite B4.
    cbn [of_res]. rewrite HC, C0. apply mixed_finished. }
  set (n := length (destination pool count)).
  set (cfg := mkCfg (signalID_of c) (s_IncludeTime (subscription s)) (s_UseMillisecondResolution (subscription s)) (baseTimes s)).
  destruct (parseCompact cfg body n) as [l x] eqn:P.
  exists (match x with PPanic => Crashed | PErr => Given true l | PDone => Given false l end), count. split.
  - exists (S (S n)). intros [|k] Hk; [lia|]. cbn [repeat mixed data_step]. rewrite B. cbn [of_res]. cbv zeta. rewrite B4. cbn [of_res]. rewrite HC, C0.
    fold n. rewrite alone_loop by lia. cbn [h_base0 h_base1 shared_of rev app]. rewrite <- surjective_pairing. fold cfg.
    unfold parseCompact in P. rewrite P. reflexivity.
  - destruct x; reflexivity.
Qed.

Lemma alone e pool s packet flags : idx packet 0 = Ok flags -> (0 <? Z.land flags df_Compressed) = false ->
  exists o count, (exists K, forall k, (K <= k)%nat ->
    mixed e pool (s_IncludeTime (subscription s)) (s_UseMillisecondResolution (subscription s)) packet (shared_of s) Start (repeat Data k) = Finished o) /\
    handleDataPacket e pool s packet = result s pool count o.
Proof.
  intros F C. set (M := mixed e pool _ _ packet (shared_of s)).
  assert (ST : forall a k, M a (repeat Data (S k)) = M (data_step e pool (s_IncludeTime (subscription s)) (s_UseMillisecondResolution (subscription s)) packet (shared_of s) a) (repeat Data k)) by reflexivity.
  assert (FI : forall o k, M (Finished o) (repeat Data k) = Finished o) by (intros; apply mixed_finished).
  assert (Later : forall (H : step), (exists o count, (exists K, forall k, (K <= k)%nat ->
     M (data_step e pool (s_IncludeTime (subscription s)) (s_UseMillisecondResolution (subscription s)) packet (shared_of s) Start) (repeat Data k) = Finished o) /\ H = result s pool count o) ->
     exists o count, (exists K, forall k, (K <= k)%nat -> M Start (repeat Data k) = Finished o) /\ H = result s pool count o).
  { intros H (o & count & (K & A) & B). exists o, count. split; [|exact B]. exists (S K). intros [|k] Hk; [lia|]. rewrite ST. apply A. lia. }
  apply Later. clear Later. unfold handleDataPacket. cbn [data_step]. rewrite F. cbn [bind of_res]. cbv zeta. rewrite C. cbn [negb andb].
  destruct (0 <? Z.land flags df_Compact); cbn [negb].
  2:{ exists Refused, 0. split; [|reflexivity]. exists O. intros k Hk. apply FI. }
  destruct (slice_from packet 1) as [data| |] eqn:S1; cbn [bind of_res]; [|exfalso; exact (slice_not_err _ _ S1)|].
  2:{ exists Crashed, 0. split; [|reflexivity]. exists O. intros k Hk. apply FI. }
  change (h_keys (shared_of s)) with (keyIVs s). destruct (keyIVs s) as [[k0 k1]|] eqn:K.
  2:{ apply alone_plain. }
  cut (exists o count, (exists K, forall k, (K <= k)%nat ->
     M (data_step e pool (s_IncludeTime (subscription s)) (s_UseMillisecondResolution (subscription s)) packet (shared_of s) (Sealed flags data)) (repeat Data k) = Finished o) /\
     match decipherAES e (fst (if 0 <? Z.land flags df_CipherIndex then k1 else k0)) (snd (if 0 <? Z.land flags df_CipherIndex then k1 else k0)) data with
     | Ok data => let* count := be_u32 data in
        let dest := destination pool count in
        let ci := if 0 <? Z.land flags df_CacheIndex then 1 else 0 in
        let* body := slice_from data 4 in
        let* (r, ev) := parseCompactMeasurements s ci body (length dest) in
        let '(s, ms) := r in
        done (set_measTotal s (u64 (measTotal s + count)))
             (ev ++ [EvMeasurements (ms ++ skipn (length ms) dest)])
     | Err => done s [EvError; EvTerminate]
     | Panic => Panic
     end = result s pool count o).
  { intros (o & count & (K' & A) & B). exists o, count. split; [|exact B]. exists (S K'). intros [|k] Hk; [lia|]. rewrite ST. apply A. lia. }
  cbn [data_step]. change (h_keys (shared_of s)) with (keyIVs s). rewrite K. cbv zeta.
  destruct (decipherAES _ _ _ data) as [plain| |]; cbn [of_res].
  - apply alone_plain.
  - exists Refused, 0. split; [|reflexivity]. exists O. intros k Hk. apply FI.
  - exists Crashed, 0. split; [|reflexivity]. exists O. intros k Hk. apply FI.
Qed.

(** ** Handlers and their stores *)
Lemma bind_ok {A B} (x : res A) (f : A -> res B) y : bind x f = Ok y -> exists a, x = Ok a /\ f a = Ok y.
Proof. destruct x as [a| |]; cbn [bind]; intros H; try discriminate. exists a. auto. Qed.
Lemma send_shared s c d s' ev : send s c d = Ok (s', ev) -> shared_of s' = shared_of s /\ cacheIndex s' = cacheIndex s /\
  existsb (fun x => match x with EvSubscriptionUpdated _ => true | _ => false end) ev = false.
Proof.
  intros H. apply send_inv in H as (wb & -> & H). split; [reflexivity|]. split; [reflexivity|].
  destruct H as [(_ & _ & ->)|(_ & f & -> & _)]; reflexivity.
Qed.
Lemma stores_right e pool s code cmd data s' ev ws :
  In code [sr_UpdateBaseTimes; sr_UpdateCipherKeys; sr_UpdateSignalIndexCache] ->
  dispatch e pool s code cmd data = Ok (s', ev) -> stores e s code data = Ok ws -> shared_of s' = apply_all (shared_of s) ws.
Proof.
  intros [<-|[<-|[<-|[]]]] D W.
  - change (handleUpdateBaseTimes s data = Ok (s', ev)) in D. unfold stores in W. cbn in W. rewrite D in W. cbn [bind] in W. injection W as <-.
    unfold handleUpdateBaseTimes in D. repeat (apply bind_ok in D as (? & _ & D)). cbv zeta in D. destruct (_ || _); [discriminate|].
    injection D as <- <-. reflexivity.
  - change (handleUpdateCipherKeys s data = Ok (s', ev)) in D. unfold stores in W. cbn in W. rewrite D in W. cbn [bind] in W. injection W as <-.
    unfold handleUpdateCipherKeys in D. repeat (apply bind_ok in D as ((? & ?) & _ & D)). injection D as <- <-. reflexivity.
  - change (handleUpdateSignalIndexCache e s data = Ok (s', ev)) in D. unfold stores in W. cbn in W. rewrite D in W. cbn [bind] in W. injection W as <-.
    unfold handleUpdateSignalIndexCache in D. apply bind_ok in D as ((ci & d) & CI & D). cbv beta iota zeta in D.
    assert (C01 : ci = 0 \/ ci = 1).
    { destruct (1 <? Version s); [|injection CI as <- _; auto]. apply bind_ok in CI as (b & _ & CI). apply bind_ok in CI as (? & _ & CI).
      injection CI as <- _. destruct (0 <? b); auto. }
    destruct (if CompressSignalIndexCache s then gunzip e d else Some d) as [d'|].
    2:{ injection D as <- <-. reflexivity. }
    destruct (decode _ d' _) as [dc r]. destruct r as [r| |]; [|injection D as <- <-; reflexivity|discriminate].
    apply bind_ok in D as ((s2 & ev2) & D2 & D). injection D as <- <-.
    rewrite existsb_app. cbn [existsb]. rewrite orb_true_r.
    assert (Q : shared_of s2 = apply_all (shared_of s) [SCache (ci =? 1) (d_sic dc)] /\ cacheIndex s2 = ci).
    { match type of D2 with (if ?b then _ else _) = _ => destruct b end; [apply send_shared in D2 as (-> & -> & _)|injection D2 as <- _]; destruct C01 as [-> | ->]; split; reflexivity. }
    destruct Q as (Q1 & Q2). rewrite Q1, Q2. do 2 f_equal. 
    assert (X : h_cache (shared_of s2) (ci =? 1) = d_sic dc) by (rewrite Q1; destruct C01 as [-> | ->]; reflexivity).
    rewrite <- X. destruct C01 as [-> | ->]; reflexivity.
Qed.

(** ** A sample decoded with other base times *)
Lemma encode_shape cfg s : sample_ok s -> exists f time,
  encode_sample cfg s = wire f (s_id s) (s_value s) time /\ is_u8 f /\ Z.testbit f 7 = (s_timeIndex s =? 1) /\
  length time = time_size (includeTime cfg) (useMillisecondResolution cfg) f /\ mapToFullFlags f = mapToFullFlags (mapToCompactFlags (s_flags s)).
Proof.
  intros (H1 & H2 & H3 & H4 & H5). unfold encode_sample, publisher_encode.
  destruct (GetBinaryLength cfg (s_time s) (s_timeIndex s) false) as [n offs] eqn:E.
  destruct (getflags_bits (mapToCompactFlags (s_flags s)) (s_timeIndex s) offs (compact_flags_range _)) as (F1 & F2 & F3 & F4).
  change (or_if offs (or_if (negb (s_timeIndex s =? 0)) (mapToCompactFlags (s_flags s)) cf_TimeIndex) cf_BaseTimeOffset)
    with (GetCompactStateFlags (s_flags s) (s_timeIndex s) offs) in *.
  eexists _, _. split; [reflexivity|]. split; [exact F1|]. split; [rewrite F2; destruct H5 as [-> | ->]; reflexivity|]. split; [|exact F4].
  unfold time_size. rewrite F3. unfold GetBinaryLength in E. destruct (includeTime cfg); cbn [negb] in E; [|injection E as <- <-; reflexivity].
  destruct (0 <? base_at cfg (s_timeIndex s)); [|injection E as <- <-; apply be_put_length].
  destruct (0 <? _).
  - destruct (useMillisecondResolution cfg).
    + destruct (_ <? 65535); injection E as <- <-; apply be_put_length.
    + destruct (_ <? 4294967295); injection E as <- <-; apply be_put_length.
  - injection E as <- <-; apply be_put_length.
Qed.
Lemma decode_other f f' incl ms b0 b1 b0' b1' s rest : sample_ok s -> is_i64 b0 -> is_i64 b1 ->
  let cfg := mkCfg f incl ms (b0, b1) in
  exists m, Decode (mkCfg f' incl ms (b0', b1')) (encode_sample cfg s ++ rest) = Ok (m, len (encode_sample cfg s)) /\
    m_SignalID m = f' (s_id s) /\ m_Value m = s_value s /\ category_closure (s_flags s) (m_Flags m) /\
    ((if s_timeIndex s =? 1 then b1' = b1 else b0' = b0) -> received_time cfg s (m_Timestamp m)).
Proof.
  intros OK B0 B1 cfg. destruct (encode_shape cfg s OK) as (F & time & E & F1 & F2 & F3 & F4).
  destruct (publisher_round_trip cfg s rest OK B0 B1) as (m & D & (_ & _ & R3 & R4) & _).
  destruct OK as (O1 & O2 & O3 & O4 & O5). rewrite E in D |- *. rewrite Decode_wire in D by assumption. injection D as <- DL.
  rewrite Decode_wire by assumption. eexists. split; [rewrite <- DL; reflexivity|]. cbn [m_SignalID m_Value m_Flags m_Timestamp lookup] in *.
  split; [reflexivity|]. split; [reflexivity|]. split; [exact R3|]. intros HB.
  cbn [includeTime useMillisecondResolution baseTimeOffsets cfg] in *.
  assert (SB : selected_base (b0', b1') F = selected_base (b0, b1) F).
  { unfold selected_base. rewrite F2. destruct (s_timeIndex s =? 1); cbn [fst snd]; exact HB. }
  unfold time_of in *. rewrite SB. exact R4.
Qed.

(** ** The loop under any stores *)
Lemma apply_kept h0 ws h w : In w ws -> (forall i, base_kept h0 i ws -> h_base h i = h_base h0 i) ->
  forall i, base_kept h0 i ws -> h_base (apply h w) i = h_base h0 i.
Proof.
  intros IN HB i K. specialize (HB i K). destruct w as [k|[|] c|j v]; [exact HB|exact HB|exact HB|].
  destruct (Bool.bool_dec j i) as [->|N].
  - specialize (K v IN). destruct i; exact K.
  - destruct j, i; try congruence; exact HB.
Qed.
Lemma loop_mixed e pool incl ms p f h0 c ws pad : is_i64 (h_base0 h0) -> is_i64 (h_base1 h0) ->
  let cfg := mkCfg f incl ms (h_base0 h0, h_base1 h0) in
  forall sched todo pre acc h,
  Forall sample_ok todo -> (length todo < turns sched)%nat -> (forall w, In w (stores_of sched) -> In w ws) ->
  (forall i, base_kept h0 i ws -> h_base h i = h_base h0 i) ->
  exists l, mixed e pool incl ms p h (Loop c (pre ++ concat (map (encode_sample cfg) todo) ++ pad) (length todo) (len pre) acc) sched
            = Finished (Given false (rev acc ++ l)) /\ Forall2 (expected h0 cfg ws c) todo l.
Proof.
  intros B0 B1 cfg. induction sched as [|[|w] r IH]; intros todo pre acc h OK T IN HB.
  - cbn in T. lia.
  - destruct todo as [|s todo]; cbn [length mixed data_step].
    + exists []. rewrite mixed_finished, app_nil_r. split; [reflexivity|constructor].
    + cbn [map concat]. rewrite slice_from_app, <- app_assoc.
      apply List.Forall_cons_iff in OK as (O1 & O2).
      destruct (decode_other f (signalID_of c) incl ms (h_base0 h0) (h_base1 h0) (h_base0 h) (h_base1 h) s (concat (map (encode_sample cfg) todo) ++ pad) O1 B0 B1)
        as (m & D & R1 & R2 & R3 & R4). fold cfg in D, R4. rewrite D.
      destruct (IH todo (pre ++ encode_sample cfg s) (m :: acc) h O2) as (l & A & B).
      * cbn [turns filter length] in T |- *. unfold turns in T. cbn [filter length] in T. fold (turns r) in T. lia.
      * exact IN.
      * exact HB.
      * exists (m :: l). rewrite <- app_assoc in A. rewrite len_app in A. rewrite A. cbn [rev]. rewrite <- app_assoc. split; [reflexivity|].
        constructor; [|exact B]. split; [exact R1|]. split; [exact R2|]. split; [exact R3|]. intros K. apply R4.
        specialize (HB _ K). destruct (s_timeIndex s =? 1); exact HB.
  - cbn [mixed]. apply IH; [exact OK|exact T|intros x Hx; apply IN; right; exact Hx|].
    apply apply_kept; [apply IN; left; reflexivity|exact HB].
Qed.

(** ** The whole packet *)
Lemma key_of_for e k k' odd plain data : key_for k' odd = key_for k odd -> keys_fine k -> sealed e k odd plain data ->
  match k' with
  | None => data = plain
  | Some (k0, k1) => decipherAES e (fst (if odd then k1 else k0)) (snd (if odd then k1 else k0)) data = Ok plain
  end /\ (k' = None <-> k = None).
Proof.
  unfold key_for, sealed, keys_fine. intros E F S. destruct k' as [[a0 a1]|], k as [[b0 b1]|]; try discriminate.
  - assert (X : forall k : key_iv, key_ok k -> len data mod 16 = 0 /\ cbc e (fst k) (snd k) data = plain -> decipherAES e (fst k) (snd k) data = Ok plain).
    { intros k (L1 & L2) (S1 & S2). unfold decipherAES. replace ((len (fst k) =? 16) || (len (fst k) =? 24) || (len (fst k) =? 32)) with true by lia.
      replace (len (snd k) =? 16) with true by lia. replace (len data mod 16 =? 0) with true by lia. cbn [negb]. exact (f_equal Ok S2). }
    split; [|split; discriminate]. destruct odd; injection E as ->; apply X; try apply F; exact S.
  - split; [exact S|tauto].
Qed.
Section packet.
Variables (e : env) (pool : option (list measurement)) (incl ms : bool) (h0 : shared) (second odd : bool) (ss : list sample) (pad data : bytes) (ws : list store).
Let f := signalID_of (h_cache h0 second).
Let cfg := mkCfg f incl ms (h_base0 h0, h_base1 h0).
Let flags := packet_flags false (if second then 1 else 0) odd.
Let plain := be_put 4 (len ss) ++ concat (map (encode_sample cfg) ss) ++ pad.
Hypothesis (B0 : is_i64 (h_base0 h0)) (B1 : is_i64 (h_base1 h0)) (KF : keys_fine (h_keys h0)) (OK : Forall sample_ok ss) (LN : len ss < 2 ^ 32).
Hypothesis SE : sealed e (h_keys h0) odd plain data.
Hypothesis KW : forall k, In (SKeys k) ws -> key_for k odd = key_for (h_keys h0) odd.
Let inv (h : shared) : Prop :=
  key_for (h_keys h) odd = key_for (h_keys h0) odd /\ held h0 second ws (h_cache h second) /\ (forall i, base_kept h0 i ws -> h_base h i = h_base h0 i).
Let good_end (o : at_) : Prop :=
  exists c l, held h0 second ws c /\ o = Finished (Given false l) /\ (if Count c =? 0 then l = [] else Forall2 (expected h0 cfg ws c) ss l).

Lemma inv0 : inv h0.
Proof. split; [reflexivity|]. split; [left; reflexivity|]. reflexivity. Qed.
Lemma inv_apply h w : In w ws -> inv h -> inv (apply h w).
Proof.
  intros IN (I1 & I2 & I3). split; [|split; [|apply apply_kept; assumption]].
  - destruct w as [k|[|] c|[|] v]; try exact I1. apply KW, IN.
  - destruct w as [k|j c|[|] v]; try exact I2. destruct (Bool.bool_dec j second) as [->|N].
    + right. replace (h_cache (apply h (SCache second c)) second) with c by (destruct second; reflexivity). exact IN.
    + replace (h_cache (apply h (SCache j c)) second) with (h_cache h second) by (destruct j, second; congruence || reflexivity). exact I2.
Qed.
Lemma flags_bits : (0 <? Z.land flags df_Compressed) = false /\ (0 <? Z.land flags df_Compact) = true /\
  (0 <? Z.land flags df_CacheIndex) = second /\ (0 <? Z.land flags df_CipherIndex) = odd.
Proof. unfold flags. destruct second, odd; vm_compute; auto. Qed.
Lemma step_plain h : inv h -> forall r, (length ss < turns r)%nat -> (forall w, In w (stores_of r) -> In w ws) ->
  good_end (mixed e pool incl ms (flags :: data) h (data_step e pool incl ms (flags :: data) h (Plain flags plain)) r).
Proof.
  intros (I1 & I2 & I3) r T IN. destruct flags_bits as (_ & _ & F3 & _). cbn [data_step]. unfold plain, be_u32.
  rewrite be_put_get by (unfold len in *; cbn; lia). cbn [of_res]. cbv zeta.
  rewrite slice_from_at by (unfold len; rewrite be_put_length; reflexivity). cbn [of_res]. rewrite F3.
  destruct (Count (h_cache h second) =? 0) eqn:C0.
  - exists (h_cache h second), []. rewrite mixed_finished, C0. auto.
  - rewrite room_length.
    destruct (loop_mixed e pool incl ms (flags :: data) f h0 (h_cache h second) ws pad B0 B1 r ss [] [] h OK T IN I3) as (l & A & B). fold cfg in A, B.
    exists (h_cache h second), l. cbn [app] in A. change (len []) with 0 in A. rewrite A, C0. cbn [rev app]. auto.
Qed.
Lemma from_plain : forall sched h, inv h -> (S (length ss) < turns sched)%nat -> (forall w, In w (stores_of sched) -> In w ws) ->
  good_end (mixed e pool incl ms (flags :: data) h (Plain flags plain) sched).
Proof.
  induction sched as [|[|w] r IH]; intros h I0 T IN.
  - cbn in T. lia.
  - cbn [mixed]. apply step_plain; [exact I0|unfold turns in *; cbn [filter length] in T; lia|exact IN].
  - cbn [mixed]. apply IH; [apply inv_apply; [apply IN; left; reflexivity|exact I0]|exact T|intros x Hx; apply IN; right; exact Hx].
Qed.
Lemma from_sealed : h_keys h0 <> None -> forall sched h, inv h -> (S (S (length ss)) < turns sched)%nat -> (forall w, In w (stores_of sched) -> In w ws) ->
  good_end (mixed e pool incl ms (flags :: data) h (Sealed flags data) sched).
Proof.
  intros NK. induction sched as [|[|w] r IH]; intros h I0 T IN.
  - cbn in T. lia.
  - cbn [mixed data_step]. destruct (key_of_for e (h_keys h0) (h_keys h) odd plain data (proj1 I0) KF SE) as (K1 & K2).
    destruct flags_bits as (_ & _ & _ & F4). destruct (h_keys h) as [[k0 k1]|]; [|destruct NK; tauto]. cbv zeta. rewrite F4.
    match goal with |- context[decipherAES ?a ?b ?c ?d] => replace (decipherAES a b c d) with (@Ok bytes plain) by (symmetry; exact K1) end. cbn [of_res].
    apply from_plain; [exact I0|unfold turns in *; cbn [filter length] in T; lia|exact IN].
  - cbn [mixed]. apply IH; [apply inv_apply; [apply IN; left; reflexivity|exact I0]|exact T|intros x Hx; apply IN; right; exact Hx].
Qed.
Lemma from_start : forall sched h, inv h -> (S (S (S (length ss))) < turns sched)%nat -> (forall w, In w (stores_of sched) -> In w ws) ->
  good_end (mixed e pool incl ms (flags :: data) h Start sched).
Proof.
  induction sched as [|[|w] r IH]; intros h I0 T IN.
  - cbn in T. lia.
  - cbn [mixed data_step]. destruct flags_bits as (F1 & F2 & _ & _). change (idx (flags :: data) 0) with (@Ok Z flags). cbn [of_res]. rewrite F1, F2. cbn [negb andb].
    pose proof (slice_from_app [flags] data) as Q. change (len [flags]) with 1 in Q. cbn [app] in Q. rewrite Q. cbn [of_res].
    destruct (key_of_for e (h_keys h0) (h_keys h) odd plain data (proj1 I0) KF SE) as (K1 & K2).
    assert (T' : (S (S (length ss)) < turns r)%nat) by (unfold turns in *; cbn [filter length] in T; lia).
    destruct (h_keys h) as [k|] eqn:K.
    + apply from_sealed; [intros X; apply K2 in X; discriminate|exact I0|exact T'|exact IN].
    + replace (Plain flags data) with (Plain flags plain) by (f_equal; symmetry; exact K1). apply from_plain; [exact I0|lia|exact IN].
  - cbn [mixed]. apply IH; [apply inv_apply; [apply IN; left; reflexivity|exact I0]|exact T|intros x Hx; apply IN; right; exact Hx].
Qed.
End packet.
Lemma held_old h0 second ws c : (forall c', ~ In (SCache second c') ws) -> held h0 second ws c -> c = h_cache h0 second.
Proof. intros N [H|H]; [exact H|]. destruct (N _ H). Qed.
Lemma unrelated_received e pool incl ms h second odd ss pad data sched :
  is_i64 (h_base0 h) -> is_i64 (h_base1 h) -> keys_fine (h_keys h) -> Forall sample_ok ss -> len ss < 2 ^ 32 -> Count (h_cache h second) <> 0 ->
  let cfg := mkCfg (signalID_of (h_cache h second)) incl ms (h_base0 h, h_base1 h) in
  sealed e (h_keys h) odd (be_put 4 (len ss) ++ concat (map (encode_sample cfg) ss) ++ pad) data ->
  Forall (unrelated h second odd ss) (stores_of sched) -> (length ss + 3 < turns sched)%nat ->
  exists l, mixed e pool incl ms (packet_flags false (if second then 1 else 0) odd :: data) h Start sched = Finished (Given false l) /\
    Forall2 (received cfg) ss l.
Proof.
  intros B0 B1 KF OK LN C cfg SE U T. rewrite List.Forall_forall in U.
  destruct (from_start e pool incl ms h second odd ss pad data (stores_of sched) B0 B1 KF OK LN SE (fun k H => U _ H) sched h (inv0 h second odd (stores_of sched)) ltac:(lia) ltac:(auto))
    as (c & l & HC & E & R).
  apply held_old in HC; [|intros c' H; apply U in H; cbn in H; congruence]. subst c.
  replace (Count (h_cache h second) =? 0) with false in R by lia. exists l. split; [exact E|].
  fold cfg in R. assert (K : forall s, In s ss -> base_kept h (s_timeIndex s =? 1) (stores_of sched)).
  { intros s Hs v Hv. apply U in Hv as [->|F]; [reflexivity|]. rewrite List.Forall_forall in F. destruct (F s Hs). reflexivity. }
  clear - R K. induction R as [|s m ss l (R1 & R2 & R3 & R4) R IH]; constructor.
  - split; [exact R1|]. split; [exact R2|]. split; [exact R3|]. apply R4, K. left. reflexivity.
  - apply IH. intros x Hx. apply K. right. exact Hx.
Qed.
Lemma alone_more e pool incl ms p h a n m o : mixed e pool incl ms p h a (repeat Data n) = Finished o -> mixed e pool incl ms p h a (repeat Data (n + m)) = Finished o.
Proof. intros H. rewrite repeat_app, mixed_app, H. apply mixed_finished. Qed.
Lemma alone_unique e pool incl ms p h a n m o o' : mixed e pool incl ms p h a (repeat Data n) = Finished o -> mixed e pool incl ms p h a (repeat Data m) = Finished o' -> o = o'.
Proof.
  intros A B. apply (alone_more _ _ _ _ _ _ _ _ m) in A. apply (alone_more _ _ _ _ _ _ _ _ n) in B. rewrite Nat.add_comm in B. congruence.
Qed.
Lemma stores_response e pool s code cmd z data s' ev ws : validated s = true -> length z = 4%nat ->
  In code [sr_UpdateBaseTimes; sr_UpdateCipherKeys; sr_UpdateSignalIndexCache] ->
  processServerResponse e pool s (response code cmd z data) = Ok (s', ev) -> stores e s code data = Ok ws -> shared_of s' = apply_all (shared_of s) ws.
Proof.
  intros V Lz IN P. destruct (response_data code cmd z data Lz) as [D1 D2]. rewrite process_eq in P by exact D2. rewrite validate_spec, V, D1 in P.
  exact (stores_right e pool s code cmd data s' ev ws IN P).
Qed.
