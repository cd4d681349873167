(** The bit and byte reader against the wire layout of the specification; 7-bit
    integers (C23); code words (C21). *)
From stdpp Require Import gmap.
From Coq Require Import Lia ZArith ZifyBool ZifyNat.
From Verif Require Import Base BaseProofs FormatModel FormatProofs CompactProofs TsscModel TsscSpec TsscCode TsscCode2.
Open Scope Z_scope.
Ltac Zify.zify_post_hook ::= Z.div_mod_to_equations.

(** Bytes. *)
Definition items_ok (l : list item) : Prop := Forall (fun i => match i with Byte x => is_u8 x | Bit _ => True end) l.

(** The decoder is about to read [l]; [z] is fixed along the reading of a packet. *)
Record inp (t : td) (l : list item) (z : Z) : Prop := {
  i_data : exists pre, data t = pre ++ ser l (Z.to_nat (bitStreamCount t)) /\ position t = len pre;
  i_last : lastPosition t = len (data t);
  i_count : 0 <= bitStreamCount t <= 7;
  i_cache : forall j, 0 <= j < bitStreamCount t ->
              Z.testbit (bitStreamCache t) (bitStreamCount t - 1 - j) = nth (Z.to_nat j) (bits_of l) false;
  i_z : (bitStreamCount t - len (bits_of l)) mod 8 = z }.

Lemma byte_testbit bs j : 0 <= j < 8 -> Z.testbit (byte_of_bits bs) (7 - j) = nth (Z.to_nat j) bs false.
Proof.
  intros H. unfold byte_of_bits. cbv zeta.
  assert (j = 0 \/ j = 1 \/ j = 2 \/ j = 3 \/ j = 4 \/ j = 5 \/ j = 6 \/ j = 7) as C by lia.
  repeat (destruct C as [C|C]); subst j;
  change (Z.to_nat 0) with 0%nat; change (Z.to_nat 1) with 1%nat; change (Z.to_nat 2) with 2%nat; change (Z.to_nat 3) with 3%nat;
  change (Z.to_nat 4) with 4%nat; change (Z.to_nat 5) with 5%nat; change (Z.to_nat 6) with 6%nat; change (Z.to_nat 7) with 7%nat;
  destruct (nth 0 bs false), (nth 1 bs false), (nth 2 bs false), (nth 3 bs false), (nth 4 bs false), (nth 5 bs false), (nth 6 bs false), (nth 7 bs false); reflexivity.
Qed.

Lemma idx_mid {A} (pre : list A) x post : idx (pre ++ x :: post) (len pre) = Ok x.
Proof. unfold len. apply idx_ok. rewrite nth_error_app2, Nat.sub_diag by lia. reflexivity. Qed.

Lemma readBit_spec t b l z : inp t (Bit b :: l) z ->
  exists p c k, readBit t = DOk (Z.b2z b) (set_buf t p c k) /\ inp (set_buf t p c k) l z.
Proof.
  intros [(pre & Hd & Hp) Hl Hc Hk Hz]. unfold readBit.
  assert (LB : len (bits_of (Bit b :: l)) = 1 + len (bits_of l)) by (unfold len; cbn; lia).
  rewrite LB in Hz.
  destruct (bitStreamCount t =? 0) eqn:E.
  - assert (C0 : bitStreamCount t = 0) by lia. rewrite C0 in *. clear Hk.
    change (Z.to_nat 0) with 0%nat in Hd. cbn [ser] in Hd.
    unfold data_at. rewrite Hp, Hd, idx_mid. cbv zeta.
    set (B := byte_of_bits (b :: bits_of l)) in *.
    cbn [set_buf bitStreamCount bitStreamCache position data lastPosition].
    change (i32 (8 - 1)) with 7.
    exists (len pre + 1), 7, B. split.
    + f_equal. pose proof (byte_testbit (b :: bits_of l) 0 ltac:(lia)) as T. fold B in T. change (7 - 0) with 7 in T. change (nth (Z.to_nat 0) (b :: bits_of l) false) with b in T.
      change 1 with (Z.ones 1). rewrite Z.land_ones by lia. rewrite Z.shiftr_div_pow2 by lia.
      rewrite <- Z.testbit_spec' by lia. rewrite T. reflexivity.
    + split; cbn [set_buf bitStreamCount bitStreamCache position data lastPosition].
      * exists (pre ++ [B]). rewrite <- app_assoc. cbn [app]. split; [exact Hd|].
        rewrite len_app. reflexivity.
      * rewrite Hl. reflexivity.
      * lia.
      * intros j Hj. pose proof (byte_testbit (b :: bits_of l) (j + 1) ltac:(lia)) as T. fold B in T.
        replace (7 - 1 - j) with (7 - (j + 1)) by lia. rewrite T.
        replace (Z.to_nat (j + 1)) with (S (Z.to_nat j)) by lia. reflexivity.
      * lia.
  - set (c := bitStreamCount t) in *.
    assert (I : i32 (c - 1) = c - 1) by (apply i32_small; unfold is_i32; lia). rewrite I.
    exists (position t), (c - 1), (bitStreamCache t). split.
    + f_equal. specialize (Hk 0 ltac:(lia)). change (nth (Z.to_nat 0) (bits_of (Bit b :: l)) false) with b in Hk. replace (c - 1 - 0) with (c - 1) in Hk by lia.
      change 1 with (Z.ones 1) at 2. rewrite Z.land_ones by lia. rewrite Z.shiftr_div_pow2 by lia.
      rewrite <- Z.testbit_spec' by lia. rewrite Hk. reflexivity.
    + split; cbn [set_buf bitStreamCount bitStreamCache position data lastPosition].
      * exists pre. split; [|exact Hp]. rewrite Hd. f_equal.
        destruct (Z.to_nat c) as [|n] eqn:En; [lia|]. cbn [ser]. replace (Z.to_nat (c - 1)) with n by lia. reflexivity.
      * exact Hl.
      * lia.
      * intros j Hj. specialize (Hk (j + 1) ltac:(lia)).
        replace (c - 1 - 1 - j) with (c - 1 - (j + 1)) by lia. rewrite Hk.
        replace (Z.to_nat (j + 1)) with (S (Z.to_nat j)) by lia. reflexivity.
      * lia.
Qed.

(** A whole byte. *)
Lemma readByte_spec t x l z : inp t (Byte x :: l) z ->
  idx (data t) (position t) = Ok x /\ inp (set_position t (position t + 1)) l z.
Proof.
  intros [(pre & Hd & Hp) Hl Hc Hk Hz]. cbn [ser bits_of] in *. split.
  - rewrite Hp, Hd. apply idx_mid.
  - split; cbn [set_position set_buf bitStreamCount bitStreamCache position data lastPosition]; auto.
    exists (pre ++ [x]). rewrite <- app_assoc. cbn [app]. split; [exact Hd|]. rewrite len_app, Hp. reflexivity.
Qed.

(** Several bytes at once. *)
Lemma readBytes_spec t bs l z : inp t (map Byte bs ++ l) z ->
  (exists post, slice_from (data t) (position t) = Ok (bs ++ post)) /\ inp (set_position t (position t + len bs)) l z.
Proof.
  revert t. induction bs as [|b bs IH]; intros t H.
  - cbn [map app] in H. change (len []) with 0. rewrite Z.add_0_r. split.
    + destruct H as [(pre & Hd & Hp) _ _ _ _]. rewrite Hd, Hp. rewrite slice_from_app. eauto.
    + destruct t. exact H.
  - cbn [map app] in H. destruct (readByte_spec _ _ _ _ H) as [_ H2].
    destruct (IH _ H2) as [[post Hs] H3]. split.
    + destruct H as [(pre & Hd & Hp) _ _ _ _].
      cbn [ser] in Hd. cbn [set_position set_buf data position] in Hs.
      rewrite Hd, Hp in Hs |- *. rewrite slice_from_app.
      replace (len pre + 1) with (len (pre ++ [b])) in Hs by (rewrite len_app; reflexivity).
      change (pre ++ b :: ser (map Byte bs ++ l) (Z.to_nat (bitStreamCount t))) with (pre ++ [b] ++ ser (map Byte bs ++ l) (Z.to_nat (bitStreamCount t))) in Hs.
      rewrite app_assoc, slice_from_app in Hs. exists post. cbn [app]. congruence.
    + cbn [set_position set_buf position bitStreamCount bitStreamCache] in *.
      replace (position t + len (b :: bs)) with (position t + 1 + len bs) by (unfold len; cbn; lia). exact H3.
Qed.

(** Bits of a small number. *)
Lemma read4_spec t v l z : 0 <= v < 16 -> inp t (bits v 4 ++ l) z ->
  exists p c k, readBits4 t = DOk v (set_buf t p c k) /\ inp (set_buf t p c k) l z.
Proof.
  intros Hv H. unfold bits in H. cbn [writeBits map app] in H.
  unfold readBits4.
  destruct (readBit_spec _ _ _ _ H) as (p1 & c1 & k1 & R1 & I1). rewrite R1. cbn [dbind].
  destruct (readBit_spec _ _ _ _ I1) as (p2 & c2 & k2 & R2 & I2). rewrite R2. cbn [dbind].
  destruct (readBit_spec _ _ _ _ I2) as (p3 & c3 & k3 & R3 & I3). rewrite R3. cbn [dbind].
  destruct (readBit_spec _ _ _ _ I3) as (p4 & c4 & k4 & R4 & I4). rewrite R4. cbn [dbind].
  exists p4, c4, k4. split; [|exact I4]. change (set_buf (set_buf (set_buf (set_buf t p1 c1 k1) p2 c2 k2) p3 c3 k3) p4 c4 k4) with (set_buf t p4 c4 k4).
  f_equal. clear -Hv.
  assert (A : forallb (fun v => Z.lor (Z.lor (Z.lor (Z.shiftl (Z.b2z (Z.testbit v 3)) 3) (Z.shiftl (Z.b2z (Z.testbit v 2)) 2)) (Z.shiftl (Z.b2z (Z.testbit v 1)) 1)) (Z.b2z (Z.testbit v 0)) =? v)
     (map Z.of_nat (seq 0 16)) = true) by (vm_compute; reflexivity).
  rewrite forallb_forall in A. specialize (A v). rewrite in_map_iff in A.
  apply Z.eqb_eq, A. exists (Z.to_nat v). split; [lia|]. apply in_seq. lia.
Qed.
Lemma read5_spec t v l z : 0 <= v < 32 -> inp t (bits v 5 ++ l) z ->
  exists p c k, readBits5 t = DOk v (set_buf t p c k) /\ inp (set_buf t p c k) l z.
Proof.
  intros Hv H. unfold bits in H. cbn [writeBits map app] in H.
  unfold readBits5.
  destruct (readBit_spec _ _ _ _ H) as (p1 & c1 & k1 & R1 & I1). rewrite R1. cbn [dbind].
  destruct (readBit_spec _ _ _ _ I1) as (p2 & c2 & k2 & R2 & I2). rewrite R2. cbn [dbind].
  destruct (readBit_spec _ _ _ _ I2) as (p3 & c3 & k3 & R3 & I3). rewrite R3. cbn [dbind].
  destruct (readBit_spec _ _ _ _ I3) as (p4 & c4 & k4 & R4 & I4). rewrite R4. cbn [dbind].
  destruct (readBit_spec _ _ _ _ I4) as (p5 & c5 & k5 & R5 & I5). rewrite R5. cbn [dbind].
  exists p5, c5, k5. split; [|exact I5].
  change (set_buf (set_buf (set_buf (set_buf (set_buf t p1 c1 k1) p2 c2 k2) p3 c3 k3) p4 c4 k4) p5 c5 k5) with (set_buf t p5 c5 k5).
  f_equal. clear -Hv.
  assert (A : forallb (fun v => Z.lor (Z.lor (Z.lor (Z.lor (Z.shiftl (Z.b2z (Z.testbit v 4)) 4) (Z.shiftl (Z.b2z (Z.testbit v 3)) 3)) (Z.shiftl (Z.b2z (Z.testbit v 2)) 2)) (Z.shiftl (Z.b2z (Z.testbit v 1)) 1)) (Z.b2z (Z.testbit v 0)) =? v)
     (map Z.of_nat (seq 0 32)) = true) by (vm_compute; reflexivity).
  rewrite forallb_forall in A. specialize (A v). rewrite in_map_iff in A.
  apply Z.eqb_eq, A. exists (Z.to_nat v). split; [lia|]. apply in_seq. lia.
Qed.

(** The code bits a coder emits. *)
Definition code_bits (c : coder) (code : Z) : list bool :=
  let fix go (short : list Z) : list bool :=
    match short with
    | [] => writeBits code 5
    | s :: r => if code =? s then [true] else false :: go r
    end in go (shorts c).

Lemma high_bits code n : is_code code -> 5 <= n -> Z.testbit code n = false.
Proof.
  intros [H1 H2] Hn. apply Z.bits_above_log2; [lia|].
  destruct (Z.eq_dec code 0) as [->|]; [cbn; lia|]. assert (Z.log2 code < 5); [|lia]. apply Z.log2_lt_pow2; lia.
Qed.

Lemma WriteCode_bits c code : codes_ok c -> is_code code ->
  WriteCode c code = let* c' := updatedCodeStatistics c code in Ok (code_bits c code, c').
Proof.
  intros (Hm & _) Hc. unfold WriteCode, code_bits, shorts.
  pose proof (high_bits code 5 Hc ltac:(lia)) as B5. pose proof (high_bits code 6 Hc ltac:(lia)) as B6. pose proof (high_bits code 7 Hc ltac:(lia)) as B7.
  destruct Hm as [H|[H|[H|H]]]; rewrite H; cbn [Z.eqb Pos.eqb].
  - reflexivity.
  - destruct (code =? mode21 c); cbn [bind]; [reflexivity|]. cbn [writeBits]. change (Z.of_nat 5) with 5. rewrite B5. reflexivity.
  - destruct (code =? mode31 c); cbn [bind]; [reflexivity|].
    destruct (code =? mode301 c); cbn [bind]; [reflexivity|].
    cbn [writeBits]. change (Z.of_nat 5) with 5. change (Z.of_nat 6) with 6. rewrite B5, B6. reflexivity.
  - destruct (code =? mode41 c); cbn [bind]; [reflexivity|].
    destruct (code =? mode401 c); cbn [bind]; [reflexivity|].
    destruct (code =? mode4001 c); cbn [bind]; [reflexivity|].
    cbn [writeBits]. change (Z.of_nat 5) with 5. change (Z.of_nat 6) with 6. change (Z.of_nat 7) with 7. rewrite B5, B6, B7. reflexivity.
Qed.

Lemma code_bits_len c code : codes_ok c -> len (code_bits c code) = code_len (shorts c) code.
Proof.
  intros _. unfold code_bits, len. induction (shorts c) as [|s r IH]; [reflexivity|].
  cbn [code_len]. destruct (code =? s); [reflexivity|]. cbn [length]. rewrite <- IH. lia.
Qed.

Lemma readCodeBits_spec c t code l z : codes_ok c -> is_code code -> inp t (map Bit (code_bits c code) ++ l) z ->
  exists p cn k, readCodeBits c t = DOk code (set_buf t p cn k) /\ inp (set_buf t p cn k) l z.
Proof.
  intros (Hm & _) Hc H. unfold code_bits, shorts in H. unfold readCodeBits.
  destruct Hm as [Hm|[Hm|[Hm|Hm]]]; rewrite Hm in *; cbn [Z.eqb Pos.eqb] in *.
  - apply read5_spec; assumption.
  - destruct (Z.eqb_spec code (mode21 c)) as [E|E]; cbn [map app] in H;
      destruct (readBit_spec _ _ _ _ H) as (p1 & c1 & k1 & R1 & I1); rewrite R1; cbn [dbind Z.b2z Z.eqb Pos.eqb].
    + subst code. eauto.
    + destruct (read5_spec _ _ _ _ Hc I1) as (p2 & c2 & k2 & R2 & I2). rewrite R2. eauto.
  - destruct (Z.eqb_spec code (mode31 c)) as [E|E]; cbn [map app] in H;
      destruct (readBit_spec _ _ _ _ H) as (p1 & c1 & k1 & R1 & I1); rewrite R1; cbn [dbind Z.b2z Z.eqb Pos.eqb].
    + subst code. eauto.
    + destruct (Z.eqb_spec code (mode301 c)) as [E'|E']; cbn [map app] in I1;
        destruct (readBit_spec _ _ _ _ I1) as (p2 & c2 & k2 & R2 & I2); rewrite R2; cbn [dbind Z.b2z Z.eqb Pos.eqb].
      * subst code. eauto.
      * destruct (read5_spec _ _ _ _ Hc I2) as (p3 & c3 & k3 & R3 & I3). rewrite R3. eauto.
  - destruct (Z.eqb_spec code (mode41 c)) as [E|E]; cbn [map app] in H;
      destruct (readBit_spec _ _ _ _ H) as (p1 & c1 & k1 & R1 & I1); rewrite R1; cbn [dbind Z.b2z Z.eqb Pos.eqb].
    + subst code. eauto.
    + destruct (Z.eqb_spec code (mode401 c)) as [E'|E']; cbn [map app] in I1;
        destruct (readBit_spec _ _ _ _ I1) as (p2 & c2 & k2 & R2 & I2); rewrite R2; cbn [dbind Z.b2z Z.eqb Pos.eqb].
      * subst code. eauto.
      * destruct (Z.eqb_spec code (mode4001 c)) as [E''|E'']; cbn [map app] in I2;
          destruct (readBit_spec _ _ _ _ I2) as (p3 & c3 & k3 & R3 & I3); rewrite R3; cbn [dbind Z.b2z Z.eqb Pos.eqb].
        -- subst code. eauto.
        -- destruct (read5_spec _ _ _ _ Hc I3) as (p4 & c4 & k4 & R4 & I4). rewrite R4. eauto.
Qed.

(** ** 7-bit integers *)
Fixpoint dloop (wrap : Z -> Z) (n : nat) (k : Z) (value M : Z) (s : bytes) : res (Z * Z) :=
  match n with
  | O => Ok (Z.lxor value M, k)
  | S n' => if value <? 2 ^ (7 * k) then Ok (Z.lxor value M, k)
            else let* b := idx s k in
                 dloop wrap n' (k + 1) (Z.lxor value (wrap (Z.shiftl b (7 * k)))) (Z.lxor M (2 ^ (7 * k))) s
  end.

Lemma decode7_32_loop stream pos :
  decode7BitUInt32 stream pos =
  let* s := slice_from stream pos in let* b0 := idx s 0 in
  let* (v, k) := dloop u32 4 1 b0 0 s in Ok (v, pos + k).
Proof.
  unfold decode7BitUInt32. destruct (slice_from stream pos) as [s| |]; cbn [bind]; [|reflexivity..].
  destruct (idx s 0) as [b0| |]; cbn [bind]; [|reflexivity..]. cbv zeta.
  cbn [dloop]. change (2 ^ (7 * 1)) with 128. destruct (b0 <? 128); [cbn [bind]; rewrite Z.lxor_0_r; reflexivity|].
  destruct (idx s 1) as [b1| |]; cbn [bind]; [|reflexivity..].
  change (7 * 1) with 7. change (7 * (1 + 1)) with 14. change (2 ^ 14) with 16384.
  change (Z.lxor 0 128) with 0x80. change (1 + 1) with 2.
  destruct (_ <? 16384); [reflexivity|].
  destruct (idx s 2) as [b2| |]; cbn [bind]; [|reflexivity..].
  change (7 * (2 + 1)) with 21. change (2 ^ 21) with 2097152. change (2 + 1) with 3. change (Z.lxor 0x80 16384) with 0x4080.
  destruct (_ <? 2097152); [reflexivity|].
  destruct (idx s 3) as [b3| |]; cbn [bind]; [|reflexivity..].
  change (7 * (3 + 1)) with 28. change (2 ^ 28) with 268435456. change (3 + 1) with 4. change (Z.lxor 0x4080 2097152) with 0x204080.
  destruct (_ <? 268435456); [reflexivity|].
  destruct (idx s 4) as [b4| |]; cbn [bind]; [|reflexivity..].
  reflexivity.
Qed.

Lemma decode7_64_loop stream pos :
  decode7BitUInt64 stream pos =
  let* s := slice_from stream pos in let* b0 := idx s 0 in
  let* (v, k) := dloop u64 8 1 b0 0 s in Ok (v, pos + k).
Proof.
  unfold decode7BitUInt64. destruct (slice_from stream pos) as [s| |]; cbn [bind]; [|reflexivity..].
  destruct (idx s 0) as [b0| |]; cbn [bind]; [|reflexivity..]. cbv zeta.
  cbn [dloop]. change (2 ^ (7 * 1)) with 128. destruct (b0 <? 128); [cbn [bind]; rewrite Z.lxor_0_r; reflexivity|].
  destruct (idx s 1) as [b1| |]; cbn [bind]; [|reflexivity..].
  change (7 * 1) with 7. change (7 * (1 + 1)) with 14. change (2 ^ 14) with 16384.
  change (Z.lxor 0 128) with 0x80. change (1 + 1) with 2.
  destruct (_ <? 16384); [reflexivity|].
  destruct (idx s 2) as [b2| |]; cbn [bind]; [|reflexivity..].
  change (7 * (2 + 1)) with 21. change (2 ^ 21) with 2097152. change (2 + 1) with 3. change (Z.lxor 0x80 16384) with 0x4080.
  destruct (_ <? 2097152); [reflexivity|].
  destruct (idx s 3) as [b3| |]; cbn [bind]; [|reflexivity..].
  change (7 * (3 + 1)) with 28. change (2 ^ 28) with 268435456. change (3 + 1) with 4. change (Z.lxor 0x4080 2097152) with 0x204080.
  destruct (_ <? 268435456); [reflexivity|].
  destruct (idx s 4) as [b4| |]; cbn [bind]; [|reflexivity..].
  change (7 * (4 + 1)) with 35. change (2 ^ 35) with 34359738368. change (4 + 1) with 5. change (Z.lxor 0x204080 268435456) with 0x10204080.
  destruct (_ <? 34359738368); [reflexivity|].
  destruct (idx s 5) as [b5| |]; cbn [bind]; [|reflexivity..].
  change (7 * (5 + 1)) with 42. change (2 ^ 42) with 4398046511104. change (5 + 1) with 6. change (Z.lxor 0x10204080 34359738368) with 0x810204080.
  destruct (_ <? 4398046511104); [reflexivity|].
  destruct (idx s 6) as [b6| |]; cbn [bind]; [|reflexivity..].
  change (7 * (6 + 1)) with 49. change (2 ^ 49) with 562949953421312. change (6 + 1) with 7. change (Z.lxor 0x810204080 4398046511104) with 0x40810204080.
  destruct (_ <? 562949953421312); [reflexivity|].
  destruct (idx s 7) as [b7| |]; cbn [bind]; [|reflexivity..].
  change (7 * (7 + 1)) with 56. change (2 ^ 56) with 72057594037927936. change (7 + 1) with 8. change (Z.lxor 0x40810204080 562949953421312) with 0x2040810204080.
  destruct (_ <? 72057594037927936); [reflexivity|].
  destruct (idx s 8) as [b8| |]; cbn [bind]; [|reflexivity..].
  reflexivity.
Qed.

(** Disjoint bits: xor is sum. *)
Lemma lxor_disjoint a b k : 0 <= k -> 0 <= a < 2 ^ k -> Z.lxor a (b * 2 ^ k) = a + b * 2 ^ k.
Proof.
  intros Hk Ha. rewrite <- Z.shiftl_mul_pow2 by lia.
  rewrite Z.add_nocarry_lxor; [reflexivity|]. apply Z.bits_inj'. intros n Hn.
  rewrite Z.land_spec, Z.bits_0, Z.shiftl_spec by lia.
  destruct (Z.lt_ge_cases n k) as [H|H].
  - rewrite (Z.testbit_neg_r b) by lia. apply andb_false_r.
  - rewrite <- (Z.mod_small a (2 ^ k)) by lia. rewrite Z.mod_pow2_bits_high by lia. reflexivity.
Qed.
Lemma lxor_low a b m k : 0 <= k -> 0 <= a < 2 ^ k -> 0 <= m < 2 ^ k ->
  Z.lxor (a + b * 2 ^ k) m = Z.lxor a m + b * 2 ^ k /\ 0 <= Z.lxor a m < 2 ^ k.
Proof.
  intros Hk Ha Hm.
  assert (B : 0 <= Z.lxor a m < 2 ^ k).
  { assert (Z.lxor a m = Z.lxor a m mod 2 ^ k) as E.
    { rewrite <- !Z.land_ones by lia. apply Z.bits_inj'. intros n Hn. rewrite Z.land_spec, Z.lxor_spec.
      destruct (Z.lt_ge_cases n k) as [H|H].
      - rewrite Z.ones_spec_low by lia. rewrite andb_true_r. reflexivity.
      - rewrite Z.ones_spec_high by lia. rewrite andb_false_r.
        rewrite <- (Z.mod_small a (2 ^ k)), <- (Z.mod_small m (2 ^ k)) by lia.
        rewrite !Z.mod_pow2_bits_high by lia. reflexivity. }
    rewrite E. apply Z.mod_pos_bound. apply Z.pow_pos_nonneg; lia. }
  split; [|exact B].
  rewrite <- (lxor_disjoint a b k), <- (lxor_disjoint (Z.lxor a m) b k) by assumption.
  rewrite !Z.lxor_assoc. f_equal. apply Z.lxor_comm.
Qed.

Lemma div_bound v Q lim : 0 <= v -> v * Q < 2 ^ lim -> 0 < Q -> 0 <= v / 128 * (128 * Q) < 2 ^ lim.
Proof.
  intros Hv Hl HQ. assert (H1 : 0 <= v / 128) by lia. assert (H2 : v / 128 * 128 <= v) by lia.
  set (q := v / 128) in *. clearbody q. split; [nia|]. apply Z.le_lt_trans with (v * Q); [|exact Hl].
  replace (q * (128 * Q)) with (q * 128 * Q) by ring. apply Z.mul_le_mono_nonneg_r; lia.
Qed.

Lemma nth_error_app1_Some {A} (l m : list A) i x : nth_error l i = Some x -> nth_error (l ++ m) i = Some x.
Proof. intros H. rewrite nth_error_app1; [exact H|]. apply nth_error_Some. congruence. Qed.

(** [w]: the number given by the first [k-1] bytes; [v]: the rest of the number, whose
    first byte has been read. *)
Lemma dloop_spec wrap lim n : forall k w v M s b rest,
  1 <= k -> 0 <= w < 2 ^ (7 * (k - 1)) -> 0 <= M < 2 ^ (7 * k) -> 0 <= v ->
  (forall x, 0 <= x < 2 ^ lim -> wrap x = x) ->
  v * 2 ^ (7 * (k - 1)) < 2 ^ lim -> 7 * (k + Z.of_nat n - 2) + 8 <= lim ->
  enc7 n v = b :: rest ->
  (forall i x, nth_error rest i = Some x -> idx s (k + Z.of_nat i) = Ok x) ->
  dloop wrap n k (Z.lxor (w + b * 2 ^ (7 * (k - 1))) M) M s = Ok (w + v * 2 ^ (7 * (k - 1)), k - 1 + len (enc7 n v)).
Proof.
  induction n as [|n IH]; intros k w v M s b rest Hk Hw HM Hv Hwrap Hlim Hl Henc Hs.
  - cbn [enc7] in *. cbn [dloop]. rewrite Z.lxor_assoc, Z.lxor_nilpotent, Z.lxor_0_r.
    assert (b = v) by congruence. subst b. change (len [v]) with 1. do 2 f_equal. lia.
  - assert (P : 0 < 2 ^ (7 * (k - 1))) by (apply Z.pow_pos_nonneg; lia).
    assert (PK : 2 ^ (7 * k) = 128 * 2 ^ (7 * (k - 1))).
    { replace (7 * k) with (7 + 7 * (k - 1)) by lia. rewrite Z.pow_add_r by lia. reflexivity. }
    set (Q := 2 ^ (7 * (k - 1))) in *.
    cbn [enc7] in *. cbn [dloop]. destruct (v <? 128) eqn:E.
    + assert (b = v) by congruence. subst b.
      assert (A : 0 <= w + v * Q < 2 ^ (7 * k)) by nia.
      destruct (lxor_low (w + v * Q) 0 M (7 * k) ltac:(lia) A HM) as [_ B2].
      replace (Z.lxor (w + v * Q) M <? 2 ^ (7 * k)) with true by lia.
      rewrite Z.lxor_assoc, Z.lxor_nilpotent, Z.lxor_0_r. change (len [v]) with 1. do 2 f_equal. lia.
    + assert (Eb : b = v mod 128 + 128) by congruence. assert (Er : enc7 n (v / 128) = rest) by congruence.
      set (w' := w + v mod 128 * Q).
      assert (A : 0 <= w' < 2 ^ (7 * k)) by (subst w'; nia).
      assert (EA : w + b * Q = w' + 1 * 2 ^ (7 * k)) by (subst w' b; nia).
      destruct (lxor_low w' 1 M (7 * k) ltac:(lia) A HM) as [B1 B2]. rewrite EA.
      replace (Z.lxor (w' + 1 * 2 ^ (7 * k)) M <? 2 ^ (7 * k)) with false by lia.
      destruct (enc7 n (v / 128)) as [|b' rest'] eqn:Er'.
      { destruct n; cbn [enc7] in Er'; [discriminate|]. destruct (v / 128 <? 128); discriminate. }
      assert (I : idx s k = Ok b').
      { rewrite <- (Z.add_0_r k). apply (Hs 0%nat). rewrite <- Er. reflexivity. }
      rewrite I. cbn [bind].
      assert (Hb' : 0 <= b' * 2 ^ (7 * k) < 2 ^ lim).
      { destruct n as [|n'].
        - cbn [enc7] in Er'. assert (b' = v / 128) by congruence. subst b'. rewrite PK. apply (div_bound v Q lim); assumption.
        - assert (0 <= b' < 256) as Hb.
          { cbn [enc7] in Er'. destruct (v / 128 <? 128) eqn:F; [assert (b' = v / 128) by congruence; lia|].
            assert (b' = (v / 128) mod 128 + 128) by congruence. lia. }
          split; [apply Z.mul_nonneg_nonneg; [lia|]; apply Z.pow_nonneg; lia|].
          apply Z.lt_le_trans with (2 ^ (8 + 7 * k)).
          + rewrite Z.pow_add_r by lia. change (2 ^ 8) with 256. apply Z.mul_lt_mono_pos_r; [apply Z.pow_pos_nonneg; lia|lia].
          + apply Z.pow_le_mono_r; lia. }
      rewrite Z.shiftl_mul_pow2 by lia. rewrite Hwrap by exact Hb'.
      set (M' := Z.lxor M (2 ^ (7 * k))).
      assert (EX : Z.lxor (Z.lxor (w' + 1 * 2 ^ (7 * k)) M) (b' * 2 ^ (7 * k)) = Z.lxor (w' + b' * 2 ^ (7 * k)) M').
      { rewrite <- (lxor_disjoint w' 1), <- (lxor_disjoint w' b') by (assumption || lia). subst M'. rewrite Z.mul_1_l.
        rewrite !Z.lxor_assoc. f_equal. rewrite (Z.lxor_comm M (b' * _)), (Z.lxor_comm M (2 ^ _)).
        rewrite <- !Z.lxor_assoc. f_equal. apply Z.lxor_comm. }
      rewrite EX.
      assert (HM' : 0 <= M' < 2 ^ (7 * (k + 1))).
      { subst M'. rewrite <- (Z.mul_1_l (2 ^ (7 * k))), lxor_disjoint by (assumption || lia).
        replace (7 * (k + 1)) with (7 + 7 * k) by lia. rewrite (Z.pow_add_r 2 7) by lia. change (2 ^ 7) with 128. lia. }
      replace (7 * k) with (7 * (k + 1 - 1)) by lia.
      rewrite (IH (k + 1) w' (v / 128) M' s b' rest'); try assumption; try lia.
      * replace (7 * (k + 1 - 1)) with (7 * k) by lia. do 2 f_equal; [subst w'; rewrite PK; assert (DM : v = 128 * (v / 128) + v mod 128) by (apply Z.div_mod; lia); clearbody Q; clear -DM; set (q := v / 128) in *; set (r := v mod 128) in *; clearbody q r; subst v; ring|].
        rewrite Er'. unfold len. cbn [length]. lia.
      * replace (7 * (k + 1 - 1)) with (7 * k) by lia. exact A.
      * replace (7 * (k + 1 - 1)) with (7 * k) by lia. rewrite PK. apply (div_bound v Q lim); assumption.
      * intros i x Hi. replace (k + 1 + Z.of_nat i) with (k + Z.of_nat (S i)) by lia. apply Hs. rewrite <- Er. exact Hi.
Qed.

Lemma enc7_cons n v : exists b rest, enc7 n v = b :: rest.
Proof. destruct n; cbn [enc7]; [eauto|]. destruct (v <? 128); eauto. Qed.

Lemma decode7_32_spec v pre post : is_u32 v ->
  decode7BitUInt32 (pre ++ enc7_32 v ++ post) (len pre) = Ok (v, len pre + len (enc7_32 v)).
Proof.
  intros Hv. unfold enc7_32. destruct (enc7_cons 4 v) as (b & rest & E).
  rewrite decode7_32_loop, slice_from_app. cbn [bind]. rewrite E.
  assert (I : idx ((b :: rest) ++ post) 0 = Ok b) by reflexivity. rewrite I. cbn [bind].
  pose proof (dloop_spec u32 32 4 1 0 v 0 ((b :: rest) ++ post) b rest) as D.
  change (7 * (1 - 1)) with 0 in D. change (2 ^ 0) with 1 in D. rewrite !Z.mul_1_r, !Z.add_0_l, Z.lxor_0_r in D.
  rewrite D; try assumption; try lia.
  - cbn [bind]. rewrite E. do 2 f_equal; lia.
  - unfold is_u32 in Hv. lia.
  - intros x Hx. apply u32_small. exact Hx.
  - unfold is_u32 in Hv. lia.
  - intros i x Hi. replace (1 + Z.of_nat i) with (Z.of_nat (S i)) by lia. apply idx_ok. cbn [app nth_error].
    apply nth_error_app1_Some. exact Hi.
Qed.
Lemma decode7_64_spec v pre post : is_u64 v ->
  decode7BitUInt64 (pre ++ enc7_64 v ++ post) (len pre) = Ok (v, len pre + len (enc7_64 v)).
Proof.
  intros Hv. unfold enc7_64. destruct (enc7_cons 8 v) as (b & rest & E).
  rewrite decode7_64_loop, slice_from_app. cbn [bind]. rewrite E.
  assert (I : idx ((b :: rest) ++ post) 0 = Ok b) by reflexivity. rewrite I. cbn [bind].
  pose proof (dloop_spec u64 64 8 1 0 v 0 ((b :: rest) ++ post) b rest) as D.
  change (7 * (1 - 1)) with 0 in D. change (2 ^ 0) with 1 in D. rewrite !Z.mul_1_r, !Z.add_0_l, Z.lxor_0_r in D.
  rewrite D; try assumption; try lia.
  - cbn [bind]. rewrite E. do 2 f_equal; lia.
  - unfold is_u64 in Hv. lia.
  - intros x Hx. apply u64_small. exact Hx.
  - unfold is_u64 in Hv. lia.
  - intros i x Hi. replace (1 + Z.of_nat i) with (Z.of_nat (S i)) by lia. apply idx_ok. cbn [app nth_error].
    apply nth_error_app1_Some. exact Hi.
Qed.
