(** Property theorems for the signal index cache (C14, C15, C70). *)
From stdpp Require Import gmap.
From Coq Require Import Lia.
From Verif Require Import Base BaseProofs GuidModel CacheModel CacheSpec CacheProofs.
Open Scope Z_scope.

(** C14: after adding any records to a new cache, lookups by index give the latest
    record with that index, or the "not found" values. *)
Theorem C14_lookup_by_index : forall rs i, Z.of_nat (length rs) < 2 ^ 32 ->
  let c := snd (add_all (∅, NewSignalIndexCache) rs) in
  match latest (by_index i) rs with
  | Some r => Contains c i = true /\ SignalID c i = Ok (r_guid r) /\ Source c i = Ok (r_source r) /\
              ID c i = Ok (r_id r) /\ RecordOf c i = Ok (r_guid r, r_source r, r_id r, true)
  | None => Contains c i = false /\ SignalID c i = Ok Empty /\ Source c i = Ok [] /\
            ID c i = Ok (2 ^ 64 - 1) /\ RecordOf c i = Ok (Empty, [], 0, false)
  end.
Proof. exact lookups_ok. Qed.
Print Assumptions C14_lookup_by_index.

Theorem C14_lookup_by_signal : forall rs g, Z.of_nat (length rs) < 2 ^ 32 ->
  SignalIndex (snd (add_all (∅, NewSignalIndexCache) rs)) g =
  match latest (by_guid g) rs with Some r => r_index r | None => -1 end.
Proof. exact reverse_lookup_ok. Qed.
Print Assumptions C14_lookup_by_signal.

Theorem C14_signal_ids : forall rs g, Z.of_nat (length rs) < 2 ^ 32 ->
  (g ∈ SignalIDs (snd (add_all (∅, NewSignalIndexCache) rs)) <-> In g (map r_guid rs)).
Proof. exact signal_ids_ok. Qed.
Print Assumptions C14_signal_ids.

Theorem C14_count : forall rs, Z.of_nat (length rs) < 2 ^ 32 ->
  Count (snd (add_all (∅, NewSignalIndexCache) rs)) =
  Z.of_nat (length (nodup (list_eq_dec Z.eq_dec) (map r_guid rs))).
Proof. exact count_ok. Qed.
Print Assumptions C14_count.

(** With distinct indices and signals the two lookup directions are inverse. *)
Theorem C14_distinct_records : forall rs r, Z.of_nat (length rs) < 2 ^ 32 ->
  List.NoDup (map r_index rs) -> List.NoDup (map r_guid rs) -> In r rs ->
  let c := snd (add_all (∅, NewSignalIndexCache) rs) in
  SignalID c (r_index r) = Ok (r_guid r) /\ Source c (r_index r) = Ok (r_source r) /\
  ID c (r_index r) = Ok (r_id r) /\ SignalIndex c (r_guid r) = r_index r /\
  Count c = Z.of_nat (length rs).
Proof. exact distinct_ok. Qed.
Print Assumptions C14_distinct_records.

(** The binary length of a cache is the size of its records on the wire (each 32 bytes
    and its source; the message has 28 more), modulo 2^32. *)
Theorem C14_binary_length : forall rs,
  BinaryLength (snd (add_all (∅, NewSignalIndexCache) rs)) = records_size rs mod 2 ^ 32.
Proof. intros rs. rewrite binary_length. destruct rs; reflexivity. Qed.
Print Assumptions C14_binary_length.

Definition ex_g1 : guid := repeat 1 16.
Definition ex_g2 : guid := repeat 2 16.
Definition ex_recs : list crec := [mkRec 7 ex_g1 [80; 80; 65] 1; mkRec 9 ex_g2 [66] 2; mkRec 7 ex_g2 [67] 3].
Example C14_nonvacuous :
  latest (by_index 7) ex_recs = Some (mkRec 7 ex_g2 [67] 3) /\ latest (by_guid ex_g1) ex_recs = Some (mkRec 7 ex_g1 [80; 80; 65] 1) /\
  List.NoDup (map r_index (firstn 2 ex_recs)) /\ List.NoDup (map r_guid (firstn 2 ex_recs)).
Proof.
  split; [reflexivity|]. split; [reflexivity|].
  split; repeat constructor; cbn; intros H; repeat destruct H as [H|H]; try discriminate; exact H.
Qed.

(** C15: decoding a publisher's message. *)
Theorem C15_decode_wire : forall swap declared sub rs extra ds,
  Forall rec_ok rs -> length sub = 16%nat ->
  let msg := cache_wire swap declared sub rs extra in
  len msg < 2 ^ 32 -> 0 <= declared <= len msg ->
  decode ds msg swap =
  (let '(reg, c) := add_all (d_reg ds, d_sic ds) rs in mkDec reg sub c, Ok tt).
Proof. exact decode_wire. Qed.
Print Assumptions C15_decode_wire.

Theorem C15_short_message_rejected : forall ds msg swap, len msg < 2 ^ 32 ->
  (len msg < 4 \/ (4 <= len msg /\ len msg < be_val (firstn 4 msg))) ->
  decode ds msg swap = (ds, Err).
Proof. exact decode_short. Qed.
Print Assumptions C15_short_message_rejected.

Example C15_nonvacuous :
  Forall rec_ok ex_recs /\ len (cache_wire true 100 ex_g1 ex_recs [0; 0]) < 2 ^ 32 /\
  100 <= len (cache_wire true 100 ex_g1 ex_recs [0; 0]) /\
  is_ok (snd (decode (mkDec ∅ Empty NewSignalIndexCache) (cache_wire true 100 ex_g1 ex_recs [0; 0]) true)) = true /\
  decode (mkDec ∅ Empty NewSignalIndexCache) [0; 0; 0; 9] true = (mkDec ∅ Empty NewSignalIndexCache, Err).
Proof.
  split.
  { repeat constructor; unfold is_i32, is_u64, is_u8; cbn; try lia. }
  split; [vm_compute; reflexivity|]. split; [vm_compute; discriminate|].
  split; vm_compute; reflexivity.
Qed.

(** A message cut short after its header crashes the subscriber. *)
Theorem C15_truncated_message_refuted : exists msg,
  len msg = 20 /\ be_val (firstn 4 msg) = 20 /\
  snd (decode (mkDec ∅ Empty NewSignalIndexCache) msg true) = Panic.
Proof. exists ([0; 0; 0; 20] ++ repeat 0 16). split; [reflexivity|]. split; reflexivity. Qed.
Print Assumptions C15_truncated_message_refuted.

(** So does a source length that overruns the message. *)
Theorem C15_bad_source_length_refuted : exists msg,
  len msg = 60 /\ be_val (firstn 4 msg) = 60 /\
  snd (decode (mkDec ∅ Empty NewSignalIndexCache) msg true) = Panic.
Proof.
  exists ([0; 0; 0; 60] ++ repeat 0 16 ++ [0; 0; 0; 1] ++ repeat 0 4 ++ repeat 0 16 ++ [0; 0; 0; 100] ++ repeat 0 12).
  split; [reflexivity|]. split; reflexivity.
Qed.
Print Assumptions C15_bad_source_length_refuted.

(** C70: a cache update registers metadata for new signals and never overwrites a
    signal whose metadata already has a source. *)
Theorem C70_registry : forall rs reg c g,
  Forall (fun r => r_source r <> []) rs ->
  fst (add_all (reg, c) rs) !! g =
  match reg !! g with
  | Some (s, i) => if len s =? 0
                   then match List.find (by_guid g) rs with
                        | Some r => Some (r_source r, r_id r) | None => Some (s, i) end
                   else Some (s, i)
  | None => match List.find (by_guid g) rs with
            | Some r => Some (r_source r, r_id r) | None => None end
  end.
Proof. exact registry_ok. Qed.
Print Assumptions C70_registry.
Example C70_nonvacuous : Forall (fun r => r_source r <> []) ex_recs /\
  fst (add_all (∅, NewSignalIndexCache) ex_recs) !! ex_g2 = Some ([66], 2).
Proof. split; [repeat constructor; discriminate|vm_compute; reflexivity]. Qed.

(** The same for records of any sources, empty ones included. *)
Theorem C70_registry_any_source : forall rs reg c g,
  fst (add_all (reg, c) rs) !! g = registered (reg !! g) rs g.
Proof. exact registry_any. Qed.
Print Assumptions C70_registry_any_source.
(** Looking up a signal gives what is registered for it, or registers it with an empty
    source and ID 0 and gives that; either way the next lookup gives the same. *)
Theorem C70_lookup : forall reg g reg' e, LookupMetadata reg g = (reg', e) ->
  e = match reg !! g with Some x => x | None => ([], 0) end /\
  LookupMetadata reg' g = (reg', e) /\ (forall g', g' <> g -> reg' !! g' = reg !! g').
Proof.
  intros reg g reg' e H. unfold LookupMetadata in *. unfold bytes, guid, registry in *. destruct (reg !! g) as [x|] eqn:E.
  - injection H as <- <-. rewrite E. auto.
  - injection H as <- <-. rewrite lookup_insert. split; [reflexivity|]. split; [reflexivity|].
    intros g' N. apply lookup_insert_ne. intros Q. apply N. symmetry. exact Q.
Qed.
Print Assumptions C70_lookup.
Example C70_any_source_nonvacuous :
  let rs := [mkRec 1 ex_g1 [] 4; mkRec 2 ex_g1 [] 5; mkRec 3 ex_g2 [] 6; mkRec 4 ex_g2 [66] 7; mkRec 5 ex_g2 [67] 8] in
  let reg := fst (add_all (∅, NewSignalIndexCache) rs) in
  reg !! ex_g1 = Some ([], 5) /\ reg !! ex_g2 = Some ([66], 7) /\
  BinaryLength (snd (add_all (∅, NewSignalIndexCache) rs)) = 162.
Proof. cbv zeta. split; [vm_compute; reflexivity|]. split; vm_compute; reflexivity. Qed.
