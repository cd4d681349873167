(** Property theorems for compact measurements (C10, C11, C12, part of C13). *)
From Coq Require Import Lia.
From Verif Require Import Base BaseProofs TicksModel GuidModel CompactModel CompactSpec CompactProofs.

(** C10 *)
Theorem C10_full_to_compact_to_full : forall f, is_u32 f ->
  category_closure f (mapToFullFlags (mapToCompactFlags f)).
Proof. exact (fun f H => flags_closure f (proj1 H)). Qed.
Print Assumptions C10_full_to_compact_to_full.

Theorem C10_compact_bit_iff_category : forall f b ps, is_u32 f -> In (b, ps) flag_table ->
  (Z.testbit (mapToCompactFlags f) b = true <-> has_any f ps).
Proof. exact (fun f b ps H => compact_flags_table f b ps (proj1 H)). Qed.
Print Assumptions C10_compact_bit_iff_category.

Theorem C10_full_bit_iff_compact_bit : forall c i, is_u8 c -> 0 <= i ->
  (Z.testbit (mapToFullFlags c) i = true <->
   exists b ps, In (b, ps) flag_table /\ In i ps /\ Z.testbit c b = true).
Proof. exact (fun c i H => full_flags_table c i (proj1 H)). Qed.
Print Assumptions C10_full_bit_iff_compact_bit.

Theorem C10_compact_to_full_to_compact : forall c, is_u8 c ->
  mapToCompactFlags (mapToFullFlags c) = Z.land c 63.
Proof. exact full_to_compact. Qed.
Print Assumptions C10_compact_to_full_to_compact.

Example C10_nonvacuous :
  mapToCompactFlags 0x400010 = 0x21 /\ mapToFullFlags 0x21 = 0x4000FC /\ is_u32 0x400010.
Proof. repeat split; try reflexivity; unfold is_u32; lia. Qed.

(** C11: every well-formed wire image is decoded to what it denotes. *)
Theorem C11_decode_wire : forall cfg f rid v time rest,
  is_u8 f -> is_i32 rid -> is_u32 v ->
  length time = time_size (includeTime cfg) (useMillisecondResolution cfg) f ->
  Decode cfg (wire f rid v time ++ rest) =
  Ok (mkMeas (lookup cfg rid) v
        (time_of (includeTime cfg) (useMillisecondResolution cfg) (baseTimeOffsets cfg) f time)
        (mapToFullFlags f),
      9 + len time).
Proof. exact Decode_wire. Qed.
Print Assumptions C11_decode_wire.

Theorem C11_publisher_round_trip : forall cfg s rest,
  sample_ok s -> is_i64 (fst (baseTimeOffsets cfg)) -> is_i64 (snd (baseTimeOffsets cfg)) ->
  exists m, Decode cfg (encode_sample cfg s ++ rest) = Ok (m, len (encode_sample cfg s)) /\
            received cfg s m /\
            len (encode_sample cfg s) = fst (GetBinaryLength cfg (s_time s) (s_timeIndex s) false).
Proof. exact publisher_round_trip. Qed.
Print Assumptions C11_publisher_round_trip.

Theorem C11_exact_time : forall cfg s t,
  received_time cfg s t -> includeTime cfg = true -> is_u64 (s_time s) ->
  s_time s < 2 ^ 62 ->
  (useMillisecondResolution cfg = true ->
     (s_time s - base_at cfg (s_timeIndex s)) mod 10000 = 0) ->
  t = s_time s.
Proof. exact exact_time. Qed.
Print Assumptions C11_exact_time.

Definition ex_cfg : cm_config := mkCfg (fun i => repeat i 16) true false (637000000000000000, 637000000600000000).
Definition ex_s1 := mkSample 7 0x3F800000 0x1004 637000000000012345 0.
Definition ex_s2 := mkSample 8 0x40000000 0 637000000600000001 1.
Definition ex_s3 := mkSample 9 0 0x80000000 (2 ^ 63 + 5) 0.
Lemma ex_ok : Forall sample_ok [ex_s1; ex_s2; ex_s3].
Proof.
  repeat (apply Forall_cons || apply Forall_nil); unfold sample_ok, is_i32, is_u32, is_u64;
    cbn [s_id s_value s_flags s_time s_timeIndex ex_s1 ex_s2 ex_s3]; lia.
Qed.
Example C11_nonvacuous :
  sample_ok ex_s1 /\ length (encode_sample ex_cfg ex_s1) = 13%nat /\
  length (encode_sample ex_cfg ex_s3) = 17%nat /\
  Decode ex_cfg (encode_sample ex_cfg ex_s1 ++ [1;2]) =
    Ok (mkMeas (repeat 7 16) 0x3F800000 637000000000012345 0x10FC, 13).
Proof. split; [exact (Forall_inv ex_ok)|]. vm_compute. auto. Qed.

(** C12: any list of samples, whatever follows. *)
Theorem C12_stream : forall cfg ss rest,
  Forall sample_ok ss -> is_i64 (fst (baseTimeOffsets cfg)) -> is_i64 (snd (baseTimeOffsets cfg)) ->
  exists ms, parseCompact cfg (concat (map (encode_sample cfg) ss) ++ rest) (length ss) = (ms, PDone) /\
             Forall2 (received cfg) ss ms.
Proof. exact parse_stream0. Qed.
Print Assumptions C12_stream.

Example C12_nonvacuous :
  Forall sample_ok [ex_s1; ex_s2; ex_s3] /\
  map m_Timestamp (fst (parseCompact ex_cfg (concat (map (encode_sample ex_cfg) [ex_s1; ex_s2; ex_s3])) 3))
   = [637000000000012345; 637000000600000001; 2 ^ 63 + 5].
Proof. split; [exact ex_ok | vm_compute; reflexivity]. Qed.

(** C13, compact part: the error is returned only below nine bytes; a buffer with
    a complete fixed part but a truncated time field crashes. *)
Theorem C13_compact_decode_panics_iff : forall cfg (buffer : bytes),
  bytes_ok buffer ->
  (Decode cfg buffer = Err <-> len buffer < 9) /\
  (Decode cfg buffer = Panic <->
     9 <= len buffer /\
     let f := hd 0 buffer in
     let n := time_size (includeTime cfg) (useMillisecondResolution cfg) f in
     len buffer < 9 + Z.of_nat n /\
     (Z.testbit f 6 = true -> 0 < selected_base (baseTimeOffsets cfg) f)).
Proof. exact Decode_panic_iff. Qed.
Print Assumptions C13_compact_decode_panics_iff.

Theorem C13_truncated_compact_refuted :
  exists cfg buffer, bytes_ok buffer /\ Decode cfg buffer = Panic.
Proof.
  exact (ex_intro _ ex_cfg (ex_intro _ (repeat 0 9) (conj (zeros_ok 9) eq_refl))).
Qed.
Print Assumptions C13_truncated_compact_refuted.
