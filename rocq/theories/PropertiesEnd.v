(** End to end (C106): what a publisher sends on a connection is what the application
    receives, whatever happened on earlier connections. *)
From stdpp Require Import gmap.
From Coq Require Import Lia ZArith.
From Verif Require Import Base BaseProofs TicksModel GuidModel CompactModel CompactSpec CacheModel CacheSpec FrameModel FrameSpec TsscModel TsscSpec TsscProofs TsscProofs2 TsscProofs3
  SubscriberModel SubscriberSpec SubscriberProofs4 SubscriberProofs5 SubscriberProofs8 EndModel EndSpec EndProofs PropertiesSubscriber.
Open Scope Z_scope.

(** A subscriber in any state reached before connects; the first response validates the
    connection (success or failure of the operational modes, or a NOOP).  Then packets
    arrive on either channel, mixed with Subscribe and Unsubscribe calls.  If the
    packets are what a publisher sends ([publication]: tables before data, streams
    numbered, keys and base times as last sent), nothing crashes, the connection is not
    given up, and the deliveries are the contents of the data packets, in order. *)
Theorem C106_end_to_end : forall e s0 s ev0 pool code cmd z d acts cs,
  cbc_ok e -> reachable e s0 -> connected s0 = false -> act e s0 (AConnect true) = Ok (s, ev0) ->
  plausible code cmd -> length z = 4%nat -> bytes_ok (response code cmd z d) -> len (response code cmd z d) <= 8198 ->
  len (subscribe_payload (subscription s)) <= 32763 -> Forall packet_ok acts -> forallb in_session acts = true ->
  publication e (options_of s) pub0 (packets_of acts) cs ->
  exists s' ev, run e s (APacket pool (response code cmd z d) :: acts) = Ok (s', ev) /\ Forall2 arrives cs (delivered ev) /\ ~ In EvTerminate ev.
Proof. exact end_to_end. Qed.
Print Assumptions C106_end_to_end.

(** The same for the byte stream of the TCP connection, however the network cuts it
    ([under r]: the pieces), until it ends, possibly inside a packet. *)
Theorem C106_over_tcp : forall e s0 s ev0 code cmd z d ps cs pools r rest fuel,
  cbc_ok e -> reachable e s0 -> connected s0 = false -> act e s0 (AConnect true) = Ok (s, ev0) ->
  plausible code cmd -> length z = 4%nat -> len (response code cmd z d) <= 8198 ->
  len (subscribe_payload (subscription s)) <= 32763 ->
  let first := response code cmd z d in
  Forall (fun p => bytes_ok p /\ len p < 2 ^ 32) (first :: ps) -> publication e (options_of s) pub0 ps cs ->
  nonempty_chunks (under r) -> stream r = concat (map packet_wire (first :: ps)) ++ rest ->
  bytes_ok rest -> len rest < 4 \/ len rest < 4 + be_val (firstn 4 rest) -> (length ps + 1 < fuel)%nat ->
  exists st, read_connection e fuel (mkChan s [] pools) r = Stop st /\
    Forall2 arrives cs (delivered (ch_events st)) /\ ~ In EvTerminate (ch_events st).
Proof. exact over_tcp. Qed.
Print Assumptions C106_over_tcp.

(** An example with everything: an old connection that left a table, base times and keys;
    then a new one with its own tables in both slots, base times, compact and compressed
    packets, and keys; the last packets are encrypted, one of them padded. *)
Definition C106_key (x : Z) : key_pair := (repeat x 16, repeat 0 16).
Definition C106_seal (x : Z) (l : bytes) : bytes := map (fun b => (b - x) mod 256) l.
Definition C106_rs : list crec := [mkRec 7 (repeat 3 16) [80] 1; mkRec 8 (repeat 4 16) [66] 2].
Definition C106_table : bytes := cache_wire true 0 (repeat 9 16) C106_rs [].
Definition C106_wide : choice := mkChoice (Some 7) (Some 17) (Some 19) 31.
Definition C106_l1 : list (choice * tmeas) := [(C106_wide, mkTm 7 637000000000000000 0 5); (C106_wide, mkTm 8 637000000000000001 4 0x3F800000)].
Definition C106_l2 : list (choice * tmeas) := [(mkChoice None (Some 17) (Some 19) 31, mkTm 9 637000000000000003 7 6);
  (C106_wide, mkTm 7 637000000000000004 4 8); (C106_wide, mkTm 8 637000000000000005 4 8)].
Definition C106_e1 := e_packet enc0 C106_l1.
Definition C106_b1 : bytes := match C106_e1 with Some (b, _) => b | None => [] end.
Definition C106_en1 : enc := match C106_e1 with Some (_, x) => x | None => enc0 end.
Definition C106_e2 := e_packet C106_en1 C106_l2.
Definition C106_b2 : bytes := match C106_e2 with Some (b, _) => b | None => [] end.
Definition C106_en2 : enc := match C106_e2 with Some (_, x) => x | None => enc0 end.
Definition C106_pad (l : bytes) : bytes := repeat (16 - len l mod 16) (Z.to_nat (16 - len l mod 16)).
Definition C106_pad2 : bytes := C106_pad (be_put 4 3 ++ tssc_body 1 C106_b2).
Definition C106_o : options := mkOptions 2 true false true false.
Definition C106_cfg (b : Z * Z) : cm_config := mkCfg (table_signal C106_rs) true false b.
Definition C106_b : Z * Z := (637000000000000000, 637000000600000000).
Definition C106_plain : bytes := be_put 4 (len ex_ss) ++ concat (map (encode_sample (C106_cfg C106_b)) ex_ss).
Definition C106_padding : bytes := repeat 9 (Z.to_nat (16 - len C106_plain mod 16)).
Definition C106_acts : list action :=
  [ ASubscribe; APacket None (response 0x80 2 zz [79; 75]);
    APacket None (response 0x83 2 zz (cache_update 2 0 C106_table));
    APacket None (response 0x82 0 zz (packet_flags false 0 false :: be_put 4 2 ++ concat (map (encode_sample (C106_cfg (0, 0))) ex_ss) ++ []));
    APacket None (response 0x84 0 zz (base_time_message 0 637000000000000000 637000000600000000));
    AUdp None (response 0x82 0 zz (packet_flags false 0 false :: C106_plain ++ []));
    APacket None (response 0x83 2 zz (cache_update 2 1 C106_table));
    APacket None (response 0x82 0 zz (packet_flags true 1 false :: be_put 4 2 ++ tssc_body 0 (C106_b1 ++ [])));
    APacket None (response 0x85 0 zz (cipher_message 0 (repeat 1 16) (repeat 0 16) (repeat 2 16) (repeat 0 16)));
    APacket None (response 0x82 0 zz (packet_flags false 0 true :: C106_seal 2 (C106_plain ++ C106_padding)));
    AUnsubscribe;
    AUdp None (response 0x82 0 zz (packet_flags true 1 false :: C106_seal 1 (be_put 4 3 ++ tssc_body 1 (C106_b2 ++ C106_pad2)))) ].
Definition C106_cs : list content :=
  [ Samples (C106_cfg (0, 0)) ex_ss; Samples (C106_cfg C106_b) ex_ss; Points (table_signal C106_rs) (map snd C106_l1);
    Samples (C106_cfg C106_b) ex_ss; Points (table_signal C106_rs) (map snd C106_l2) ].
Lemma C106_table_ok : is_table ex_cipher C106_o C106_rs C106_table.
Proof.
  exists 0, (repeat 9 16), []. cbv zeta. split; [|vm_compute; repeat split; congruence].
  repeat constructor; unfold rec_ok; cbn; repeat split; try lia; repeat constructor; lia.
Qed.
Lemma C106_samples_ok : Forall sample_ok ex_ss.
Proof.
  constructor; [|constructor; [|constructor]]; (split; [unfold is_i32; cbn; lia|]; split; [unfold is_u32; cbn; lia|]; split; [unfold is_u32; cbn; lia|];
    split; [unfold is_u64; cbn; lia|]; cbn; auto).
Qed.
Lemma C106_bytes l : forallb (fun a => match packet_of a with Some p => forallb (fun x => (0 <=? x) && (x <? 256)) p | None => true end) l = true -> Forall packet_ok l.
Proof.
  intros H. rewrite forallb_forall in H. apply List.Forall_forall. intros a Ia. specialize (H a Ia). unfold packet_ok. destruct (packet_of a) as [p|]; [|exact I].
  apply List.Forall_forall. intros x Ix. rewrite forallb_forall in H. specialize (H x Ix). apply andb_true_iff in H as (H1 & H2). unfold is_u8. lia.
Qed.
Lemma C106_some (o : option (bytes * enc)) : (if o then true else false) = true ->
  o = Some (match o with Some (b, _) => b | None => [] end, match o with Some (_, x) => x | None => enc0 end).
Proof. destruct o as [[b x]|]; [reflexivity|discriminate]. Qed.
Lemma C106_E1 : e_packet enc0 C106_l1 = Some (C106_b1, C106_en1).
Proof. refine (C106_some (e_packet enc0 C106_l1) _). vm_compute. reflexivity. Qed.
Lemma C106_E2 : e_packet C106_en1 C106_l2 = Some (C106_b2, C106_en2).
Proof. refine (C106_some (e_packet C106_en1 C106_l2) _). vm_compute. reflexivity. Qed.
Lemma C106_closed : exists i en1, e_items C106_en1 C106_l2 = Some (i, en1) /\ (length (bits_of i) mod 8 <> 0)%nat.
Proof.
  assert (H : forall o : option (list item * enc), (match o with Some (i, _) => negb (length (bits_of i) mod 8 =? 0)%nat | None => false end) = true ->
    exists i en1, o = Some (i, en1) /\ (length (bits_of i) mod 8 <> 0)%nat).
  { intros [[i x]|] Q; [|discriminate]. exists i, x. split; [reflexivity|]. apply negb_true_iff, Nat.eqb_neq in Q. exact Q. }
  refine (H (e_items C106_en1 C106_l2) _). vm_compute. reflexivity.
Qed.
Example C106_nonvacuous : cbc_ok ex_cipher /\ Forall packet_ok C106_acts /\ forallb in_session C106_acts = true /\
  publication ex_cipher C106_o pub0 (packets_of C106_acts) C106_cs.
Proof.
  split; [|split; [apply C106_bytes; vm_compute; reflexivity|split; [reflexivity|]]].
  { intros k iv x. apply List.Forall_forall. intros b Ib. cbn [cbc ex_cipher] in Ib. apply in_map_iff in Ib as (y & <- & _). apply Z.mod_pos_bound. lia. }
  assert (Lz : length zz = 4%nat) by reflexivity.
  unfold packets_of, C106_acts, C106_cs. cbn [flat_map packet_of].
  refine (publication_more _ _ _ _ [] _ _ _ (pub_other _ _ _ 0x80 2 zz [79; 75] 0 Lz _ eq_refl _) _); [discriminate|vm_compute; congruence|].
  refine (publication_more _ _ _ _ [] _ _ _ (pub_table _ C106_o _ 2 zz 0 C106_rs C106_table Lz (or_introl eq_refl) C106_table_ok) _).
  refine (publication_more _ _ _ _ _ _ _ _ (pub_compact _ C106_o _ 0 zz 0 false C106_rs ex_ss [] _ Lz (or_introl eq_refl) _ C106_samples_ok eq_refl _) _); [reflexivity..|].
  refine (publication_more _ _ _ _ [] _ _ _ (pub_bases _ _ _ 0 zz 0 637000000000000000 637000000600000000 Lz _ _) _); [unfold is_i64; lia..|].
  refine (publication_more _ _ _ _ _ _ _ _ (pub_compact _ C106_o _ 0 zz 0 false C106_rs ex_ss [] _ Lz (or_introl eq_refl) _ C106_samples_ok eq_refl _) _); [reflexivity..|].
  refine (publication_more _ _ _ _ [] _ _ _ (pub_table _ C106_o _ 2 zz 1 C106_rs C106_table Lz (or_intror (conj eq_refl eq_refl)) C106_table_ok) _).
  refine (publication_more _ _ _ _ _ _ _ _ (pub_tssc _ _ _ 0 zz 1 false C106_rs enc0 0 C106_l1 C106_b1 C106_en1 [] _ Lz (or_intror eq_refl) _ (or_introl eq_refl) _ eq_refl _ (or_introl eq_refl) _) _).
  { reflexivity. }
  { repeat constructor; unfold tmeas_ok, is_i32, is_i64, is_u32; cbn; lia. }
  { exact C106_E1. }
  { reflexivity. }
  refine (publication_more _ _ _ _ [] _ _ _ (pub_keys _ _ _ 0 zz 0 (C106_key 1) (C106_key 2) Lz _ _) _); [split; [left|]; reflexivity..|].
  refine (publication_more _ _ _ _ _ _ _ _ (pub_compact _ C106_o _ 0 zz 0 true C106_rs ex_ss C106_padding _ Lz (or_introl eq_refl) _ C106_samples_ok eq_refl _) _).
  { reflexivity. }
  { vm_compute. split; reflexivity. }
  refine (publication_more _ _ _ _ _ _ _ _ (pub_tssc _ _ _ 0 zz 1 false C106_rs C106_en1 1 C106_l2 C106_b2 C106_en2 C106_pad2 _ Lz (or_intror eq_refl) _ (or_intror _) _ eq_refl _ (or_intror C106_closed) _) _).
  { reflexivity. } { reflexivity. }
  { repeat constructor; unfold tmeas_ok, is_i32, is_i64, is_u32; cbn; lia. }
  { exact C106_E2. }
  { vm_compute. split; reflexivity. }
  constructor.
Qed.
(** The subscriber of the example, which had another connection before, and what it
    delivers. *)
Example C106_delivered :
  map (map (fun m => (hd 0 (m_SignalID m), m_Value m, m_Timestamp m)))
    (delivered (events (run ex_cipher ex_new ([AConnect true; ex_update; APacket None (response 0x84 0 zz (base_time_message 1 5 6));
       APacket None (response 0x85 0 zz (cipher_message 0 (repeat 8 16) (repeat 0 16) (repeat 9 16) (repeat 0 16))); ADisconnect; AConnect true;
       APacket None (response 0x80 6 zz [])] ++ C106_acts)))) =
  [[(3, 1065353216, 637000000000012345); (4, 5, 637000000600000001)];
   [(3, 1065353216, 637000000000012345); (4, 5, 637000000600000001)];
   [(3, 5, 637000000000000000); (4, 1065353216, 637000000000000001)];
   [(3, 1065353216, 637000000000012345); (4, 5, 637000000600000001)];
   [(0, 6, 637000000000000003); (3, 8, 637000000000000004); (4, 8, 637000000000000005)]].
Proof. vm_compute. reflexivity. Qed.
Example C106_start : exists s0 s ev0, reachable ex_cipher s0 /\ connected s0 = false /\ act ex_cipher s0 (AConnect true) = Ok (s, ev0) /\
  options_of s = C106_o /\ len (subscribe_payload (subscription s)) <= 32763 /\ plausible 0x80 6.
Proof.
  assert (R : reachable ex_cipher ex_new) by (exists 2, true, false, false, true, ex_set, [], []; split; [constructor|reflexivity]).
  destruct (connect_succeeds ex_new (new_good _ _ _ _ _ _)) as (s & ev & H & _).
  assert (FX : fixed s = fixed ex_new).
  { eapply (run_fixed ex_cipher [AConnect true]); [repeat constructor|apply C106_nonvacuous|]. cbn [run act]. rewrite H. reflexivity. }
  exists ex_new, s, ev. split; [exact R|]. split; [reflexivity|]. split; [exact H|].
  assert (F1 : Version s = Version ex_new) by (unfold fixed in FX; congruence).
  assert (F2 : SwapGuidEndianness s = SwapGuidEndianness ex_new) by (unfold fixed in FX; congruence).
  assert (F3 : CompressSignalIndexCache s = CompressSignalIndexCache ex_new) by (unfold fixed in FX; congruence).
  assert (F4 : subscription s = subscription ex_new) by (unfold fixed in FX; congruence).
  unfold options_of. rewrite F1, F2, F3, F4. split; [reflexivity|]. split; [vm_compute; congruence|]. right. auto.
Qed.

(** ** Padding (C107)

    The padding an encrypted packet needs to fill its last block is not removed.  What
    the specification of the publisher allows is the positive part: a compact packet is
    read up to its count, a compressed packet up to its end-of-stream code, so whatever
    follows does not matter. *)
Definition pkcs7 (l : bytes) : bytes := l ++ C106_pad l.
Theorem C107_compact_partial : forall cfg ss padding,
  Forall sample_ok ss -> is_i64 (fst (baseTimeOffsets cfg)) -> is_i64 (snd (baseTimeOffsets cfg)) ->
  exists ms, parseCompact cfg (concat (map (encode_sample cfg) ss) ++ padding) (length ss) = (ms, PDone) /\ Forall2 (received cfg) ss ms.
Proof. intros [f a b sb] ss padding F B1 B2. exact (parse_stream' f a b sb sb ss [] padding (or_introl eq_refl) F B1 B2). Qed.
Print Assumptions C107_compact_partial.
Theorem C107_compressed_partial : forall ls bs fuel, Forall (Forall (fun cm => tmeas_ok (snd cm))) ls -> padded enc0 ls bs ->
  Forall (fun l => (length l < fuel)%nat) ls -> exists t, d_packets fuel NewDecoder bs = DOk (map (map snd) ls) t.
Proof. intros ls bs fuel F P L. exact (decode_padded ls NewDecoder enc0 bs fuel NewDecoder_rel F P L). Qed.
Print Assumptions C107_compressed_partial.
Example C107_nonvacuous : padded enc0 [C106_l1; C106_l2] [C106_b1 ++ []; C106_b2 ++ [7; 7; 7]] /\ C106_b2 <> [].
Proof.
  split; [|intros H; apply (f_equal (@length Z)) in H; revert H; vm_compute; discriminate].
  apply (padded_cons _ _ _ C106_en1); [exact C106_E1|left; reflexivity|].
  apply (padded_cons _ _ _ C106_en2); [exact C106_E2|right; exact C106_closed|constructor].
Qed.
(** A compressed packet whose bits fill whole bytes has no such code: it is read to the
    end of the data, and the padding is taken for more measurements.  The first
    compressed packet of the example, padded as AES-CBC plaintexts are (PKCS #7),
    crashes the subscriber. *)
Theorem C107_compressed_refuted : exists plain,
  plain = be_put 4 2 ++ tssc_body 0 C106_b1 /\ len (pkcs7 plain) mod 16 = 0 /\
  cbc ex_cipher (fst (C106_key 1)) (snd (C106_key 1)) (C106_seal 1 (pkcs7 plain)) = pkcs7 plain /\
  run ex_cipher ex_new [AConnect true; APacket None (response 0x80 6 zz []); APacket None (response 0x83 2 zz (cache_update 2 0 C106_table));
    APacket None (response 0x85 0 zz (cipher_message 0 (repeat 1 16) (repeat 0 16) (repeat 2 16) (repeat 0 16)));
    APacket None (response 0x82 0 zz (packet_flags true 0 false :: C106_seal 1 (pkcs7 plain)))] = Panic.
Proof. eexists. split; [reflexivity|]. vm_compute. repeat split; reflexivity. Qed.
Print Assumptions C107_compressed_refuted.
