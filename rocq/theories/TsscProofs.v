(** TSSC decompression is lossless (C24); time deltas (C25). *)
From stdpp Require Import gmap.
From Coq Require Import Lia ZArith ZifyBool ZifyNat.
From Verif Require Import Base BaseProofs FormatModel FormatProofs CompactProofs TsscModel TsscSpec TsscCode TsscCode2 TsscRead.
Open Scope Z_scope.
Ltac Zify.zify_post_hook ::= Z.div_mod_to_equations.

(** ** Exclusive or of signed integers *)
Lemma shiftr_sign x k : 0 <= k -> (-2 ^ k <= x < 2 ^ k <-> Z.shiftr x k = 0 \/ Z.shiftr x k = -1).
Proof.
  intros Hk. rewrite Z.shiftr_div_pow2 by lia. assert (0 < 2 ^ k) by (apply Z.pow_pos_nonneg; lia).
  set (q := 2 ^ k) in *. clearbody q. split; intros H0.
  - destruct (Z.lt_ge_cases x 0); [right|left; apply Z.div_small; lia].
    symmetry. apply Z.div_unique with (x + q); lia.
  - pose proof (Z.div_mod x q ltac:(lia)). pose proof (Z.mod_pos_bound x q ltac:(lia)). destruct H0 as [E|E]; rewrite E in *; lia.
Qed.
Lemma lxor_signed a b k : 0 <= k -> -2 ^ k <= a < 2 ^ k -> -2 ^ k <= b < 2 ^ k -> -2 ^ k <= Z.lxor a b < 2 ^ k.
Proof.
  intros Hk Ha Hb. apply shiftr_sign in Ha; [|assumption]. apply shiftr_sign in Hb; [|assumption].
  apply shiftr_sign; [assumption|]. rewrite Z.shiftr_lxor. destruct Ha as [->| ->], Hb as [->| ->]; cbn; auto.
Qed.
Lemma lxor_i32 a b : is_i32 a -> is_i32 b -> is_i32 (Z.lxor a b).
Proof. unfold is_i32. intros Ha Hb. apply (lxor_signed a b 31); lia. Qed.
Lemma lxor_i64 a b : is_i64 a -> is_i64 b -> is_i64 (Z.lxor a b).
Proof. unfold is_i64. intros Ha Hb. apply (lxor_signed a b 63); lia. Qed.
Lemma lxor_u32 a b : is_u32 a -> is_u32 b -> is_u32 (Z.lxor a b).
Proof.
  unfold is_u32. intros Ha Hb. destruct (lxor_low a 0 b 32 ltac:(lia) ltac:(lia) ltac:(lia)) as [_ B]. exact B.
Qed.
Lemma i32_u32 x : is_i32 x -> i32 (u32 x) = x.
Proof. unfold is_i32, i32, u32. intros H. lia. Qed.
Lemma i64_u64 x : is_i64 x -> i64 (u64 x) = x.
Proof. unfold is_i64, i64, u64. intros H. lia. Qed.
Lemma lxor_cancel a b : Z.lxor (Z.lxor a b) b = a.
Proof. rewrite Z.lxor_assoc, Z.lxor_nilpotent, Z.lxor_0_r. reflexivity. Qed.
Lemma lxor_cancel_l a b : Z.lxor a (Z.lxor a b) = b.
Proof. rewrite <- Z.lxor_assoc, Z.lxor_nilpotent. reflexivity. Qed.

(** ** Invariant of the encoder and relation to the decoder *)
Definition point_ok (p : pm) : Prop :=
  (exists seg, coder_ok (pm_coder p) seg) /\ is_i32 (PrevNextPointID1 p) /\
  is_u32 (PrevStateFlags1 p) /\ is_u32 (PrevStateFlags2 p) /\
  is_u32 (PrevValue1 p) /\ is_u32 (PrevValue2 p) /\ is_u32 (PrevValue3 p).
Record enc_ok (e : enc) : Prop := {
  eo_point : forall k, point_ok (e_point e k);
  eo_t1 : is_i64 (e_t1 e); eo_t2 : is_i64 (e_t2 e);
  eo_gaps : Forall is_i64 (e_gaps e) }.

Definition view (t : td) (k : option Z) : pm :=
  match k with
  | None => point0 t
  | Some i => match points t !! i with Some p => p | None => fresh_point i end
  end.
Record rel (t : td) (e : enc) : Prop := {
  r_ok : enc_ok e;
  r_view : forall k, view t k = e_point e k;
  r_last : lastPoint t = e_last e;
  r_pres : forall i, e_last e = Some i -> is_Some (points t !! i);
  r_t1 : prevTimestamp1 t = e_t1 e; r_t2 : prevTimestamp2 t = e_t2 e;
  r_d1 : prevTimeDelta1 t = slot 0 (e_gaps e); r_d2 : prevTimeDelta2 t = slot 1 (e_gaps e);
  r_d3 : prevTimeDelta3 t = slot 2 (e_gaps e); r_d4 : prevTimeDelta4 t = slot 3 (e_gaps e) }.

Lemma fresh_point_ok i : point_ok (fresh_point i).
Proof.
  unfold point_ok, fresh_point. cbn [pm_coder PrevNextPointID1 PrevStateFlags1 PrevStateFlags2 PrevValue1 PrevValue2 PrevValue3].
  split; [exists []; apply newCoder_ok|]. split; [apply i32_range|]. unfold is_u32. lia.
Qed.
Lemma enc0_ok : enc_ok enc0.
Proof.
  split; cbn [enc0 e_t1 e_t2 e_gaps e_point].
  - intros [i|]; [apply fresh_point_ok|]. unfold point_ok. cbn [newPointMetadata pm_coder PrevNextPointID1 PrevStateFlags1 PrevStateFlags2 PrevValue1 PrevValue2 PrevValue3].
    split; [exists []; apply newCoder_ok|]. unfold is_i32, is_u32. lia.
  - unfold is_i64; lia.
  - unfold is_i64; lia.
  - constructor.
Qed.
Lemma NewDecoder_rel : rel NewDecoder enc0.
Proof.
  split; try reflexivity.
  - apply enc0_ok.
  - discriminate.
Qed.

Lemma rel_buf t e p c k : rel t e -> rel (set_buf t p c k) e.
Proof. intros [H1 H2 H3 H4 H5 H6 H7 H8 H9 H10]. split; assumption. Qed.
Lemma inp_point t l z k p : inp t l z -> inp (set_point t k p) l z.
Proof. intros [H1 H2 H3 H4 H5]. destruct k; split; assumption. Qed.
Lemma inp_times t l z t1 t2 a b c d : inp t l z -> inp (set_times t t1 t2 a b c d) l z.
Proof. intros [H1 H2 H3 H4 H5]. split; assumption. Qed.
Lemma key_eqb_spec a b : key_eqb a b = true <-> a = b.
Proof. destruct a as [x|], b as [y|]; cbn; split; intros H; try discriminate; try congruence; [f_equal; lia|injection H; lia]. Qed.

Lemma view_set t k p k' : view (set_point t k p) k' = if key_eqb k k' then p else view t k'.
Proof.
  destruct k as [i|], k' as [j|]; cbn [key_eqb set_point view point0 points set_points]; try reflexivity.
  destruct (Z.eqb_spec i j) as [->|N].
  - rewrite lookup_insert. reflexivity.
  - rewrite lookup_insert_ne by congruence. reflexivity.
Qed.

Lemma enc_ok_set e k p : enc_ok e -> point_ok p -> enc_ok (e_set e k p).
Proof.
  intros [H1 H2 H3 H4] Hp. split; cbn [e_set e_point e_t1 e_t2 e_gaps]; auto.
  intros k'. destruct (key_eqb k k'); auto.
Qed.
Lemma rel_set t e k p : rel t e -> point_ok p -> rel (set_point t k p) (e_set e k p).
Proof.
  intros [H1 H2 H3 H4 H5 H6 H7 H8 H9 H10] Hp. split; cbn [e_set e_point e_last e_t1 e_t2 e_gaps]; try (destruct k; assumption).
  - apply enc_ok_set; assumption.
  - intros k'. rewrite view_set, H2. reflexivity.
  - intros i Hi. destruct k as [j|]; cbn [set_point set_points points]; [|auto].
    destruct (Z.eq_dec i j) as [->|N]; [rewrite lookup_insert; eauto|]. rewrite lookup_insert_ne by congruence. auto.
Qed.
Lemma present_set t k p i : is_Some (points t !! i) -> is_Some (points (set_point t k p) !! i).
Proof.
  destruct k as [j|]; cbn [set_point set_points points]; [|auto]. intros H.
  destruct (Z.eq_dec i j) as [->|N]; [rewrite lookup_insert; eauto|]. rewrite lookup_insert_ne by congruence. auto.
Qed.
Lemma get_last t e : rel t e -> get_point t (lastPoint t) = e_point e (e_last e).
Proof.
  intros R. rewrite (r_last _ _ R). rewrite <- (r_view _ _ R). unfold get_point, view.
  destruct (e_last e) as [i|] eqn:E; [|reflexivity]. destruct (r_pres _ _ R i E) as [p ->]. reflexivity.
Qed.
Lemma get_present t e i : rel t e -> is_Some (points t !! i) -> get_point t (Some i) = e_point e (Some i).
Proof. intros R [p Hp]. rewrite <- (r_view _ _ R). cbn [get_point view]. rewrite Hp. reflexivity. Qed.

(** ** Reading a code word *)
Lemma e_code_spec e code : enc_ok e -> is_code code ->
  exists c' seg, updatedCodeStatistics (pm_coder (e_point e (e_last e))) code = Ok c' /\ coder_ok c' seg /\
    e_code e code = Some (map Bit (code_bits (pm_coder (e_point e (e_last e))) code),
                          e_set e (e_last e) (set_coder (e_point e (e_last e)) c')).
Proof.
  intros He Hc. destruct (eo_point _ He (e_last e)) as ((seg & Hk) & _).
  destruct (updated_ok _ _ _ Hk Hc) as (c' & U & V).
  assert (exists seg', coder_ok c' seg') as [seg' K'].
  { destruct (length seg + 1 =? _)%nat in V; destruct V as [V _]; eauto. }
  exists c', seg'. split; [exact U|]. split; [exact K'|].
  unfold e_code. rewrite WriteCode_bits; [|apply (k_codes _ _ Hk)|exact Hc]. rewrite U. reflexivity.
Qed.
Lemma set_coder_ok p c seg : point_ok p -> coder_ok c seg -> point_ok (set_coder p c).
Proof. intros (_ & H) Hc. split; [exists seg; exact Hc|exact H]. Qed.

Lemma ReadCode_spec t e code i e' l z :
  rel t e -> is_code code -> e_code e code = Some (i, e') -> inp t (i ++ l) z ->
  exists t', ReadCode t = DOk code t' /\ rel t' e' /\ inp t' l z /\
    (forall j, is_Some (points t !! j) -> is_Some (points t' !! j)) /\
    prevTimestamp1 t' = prevTimestamp1 t.
Proof.
  intros R Hc He Hi. pose proof (r_ok _ _ R) as Ho.
  destruct (e_code_spec e code Ho Hc) as (c' & seg & U & K & E). rewrite E in He.
  assert (i = map Bit (code_bits (pm_coder (e_point e (e_last e))) code)) by congruence.
  assert (e' = e_set e (e_last e) (set_coder (e_point e (e_last e)) c')) by congruence. subst i e'.
  destruct (eo_point _ Ho (e_last e)) as ((seg0 & Hk) & _).
  destruct (readCodeBits_spec _ t code l z (k_codes _ _ Hk) Hc Hi) as (p & cn & k & RB & I).
  unfold ReadCode. rewrite (get_last t e R), RB. cbn [dbind].
  pose proof (rel_buf t e p cn k R) as R'. rewrite (get_last _ e R'), U.
  eexists. split; [reflexivity|]. rewrite (r_last _ _ R').
  split; [apply rel_set; [assumption|]; eapply set_coder_ok; [apply (eo_point _ Ho)|eassumption]|].
  split; [apply inp_point; assumption|]. split; [|destruct (e_last e); reflexivity].
  intros j Hj. apply present_set. exact Hj.
Qed.

Lemma code_bits_cons c code : exists b r, code_bits c code = b :: r.
Proof. unfold code_bits. destruct (shorts c) as [|s r]; [cbn [writeBits]; eauto|]. destruct (code =? s); eauto. Qed.

(** ** Payloads *)
Lemma data_at_ok {A} t i (k : Z -> dres A) b : idx (data t) i = Ok b -> data_at t i k = k b.
Proof. intros H. unfold data_at. rewrite H. reflexivity. Qed.

Lemma le_bytes_map n x : exists bs, le_bytes n x = map Byte bs /\ length bs = n.
Proof.
  revert x. induction n as [|n IH]; intros x; cbn [le_bytes]; [exists []; auto|].
  destruct (IH (x / 256)) as (bs & -> & <-). exists (x mod 256 :: bs). auto.
Qed.

Lemma xor_shift a b k : 0 <= k -> 0 <= a < 2 ^ k -> Z.lxor a (Z.shiftl b k) = a + b * 2 ^ k.
Proof. intros Hk Ha. rewrite Z.shiftl_mul_pow2 by lia. apply lxor_disjoint; assumption. Qed.

Lemma set_buf_twice t p c k p' c' k' : set_buf (set_buf t p c k) p' c' k' = set_buf t p' c' k'.
Proof. reflexivity. Qed.

(** Bytes after the optional nibble. *)
Definition bytesPayload (b s : Z) (k : nat) (t : td) : dres Z :=
  match k with
  | O => DOk b t
  | S O =>
      data_at t (position t) (fun x0 =>
      DOk (Z.lxor b (Z.shiftl x0 s)) (set_position t (position t + 1)))
  | S (S O) =>
      data_at t (position t) (fun x0 => data_at t (position t + 1) (fun x1 =>
      DOk (Z.lxor (Z.lxor b (Z.shiftl x0 s)) (Z.shiftl x1 (s + 8))) (set_position t (position t + 2))))
  | S (S (S O)) =>
      data_at t (position t) (fun x0 => data_at t (position t + 1) (fun x1 => data_at t (position t + 2) (fun x2 =>
      DOk (Z.lxor (Z.lxor (Z.lxor b (Z.shiftl x0 s)) (Z.shiftl x1 (s + 8))) (Z.shiftl x2 (s + 16)))
        (set_position t (position t + 3)))))
  | _ =>
      data_at t (position t) (fun x0 => data_at t (position t + 1) (fun x1 => data_at t (position t + 2) (fun x2 => data_at t (position t + 3) (fun x3 =>
      DOk (Z.lxor (Z.lxor (Z.lxor (Z.lxor b (Z.shiftl x0 s)) (Z.shiftl x1 (s + 8))) (Z.shiftl x2 (s + 16))) (Z.shiftl x3 (s + 24)))
        (set_position t (position t + 4))))))
  end.

Lemma bytesPayload_spec t b s k x l z : (k <= 4)%nat -> s = 0 \/ s = 4 -> 0 <= b < 2 ^ s ->
  0 <= x < 2 ^ (8 * Z.of_nat k) -> inp t (le_bytes k x ++ l) z ->
  exists p c q, bytesPayload b s k t = DOk (b + x * 2 ^ s) (set_buf t p c q) /\ inp (set_buf t p c q) l z.
Proof.
  intros Hk Hs Hb Hx Hi.
  assert (P8 : 2 ^ (s + 8) = 256 * 2 ^ s) by (rewrite Z.pow_add_r by lia; change (2 ^ 8) with 256; lia).
  assert (P16 : 2 ^ (s + 16) = 65536 * 2 ^ s) by (rewrite Z.pow_add_r by lia; change (2 ^ 16) with 65536; lia).
  assert (P24 : 2 ^ (s + 24) = 16777216 * 2 ^ s) by (rewrite Z.pow_add_r by lia; change (2 ^ 24) with 16777216; lia).
  assert (QQ : 2 ^ s = 1 \/ 2 ^ s = 16) by (destruct Hs; subst s; auto).
  destruct k as [|[|[|[|[|]]]]]; [..|lia]; cbn [le_bytes app bytesPayload] in *.
  - exists (position t), (bitStreamCount t), (bitStreamCache t). change (2 ^ (8 * Z.of_nat 0)) with 1 in Hx.
    split; [|destruct t; exact Hi]. replace (b + x * 2 ^ s) with b by (replace x with 0 by lia; lia). destruct t; reflexivity.
  - destruct (readByte_spec _ _ _ _ Hi) as [D0 I0]. rewrite (data_at_ok _ _ _ _ D0).
    change (2 ^ (8 * Z.of_nat 1)) with 256 in Hx. rewrite (Z.mod_small x 256) by lia.
    rewrite xor_shift by lia. eexists _, _, _. split; [reflexivity|exact I0].
  - destruct (readByte_spec _ _ _ _ Hi) as [D0 I0]. rewrite (data_at_ok _ _ _ _ D0).
    destruct (readByte_spec _ _ _ _ I0) as [D1 I1]. rewrite (data_at_ok t _ _ _ D1).
    change (2 ^ (8 * Z.of_nat 2)) with 65536 in Hx.
    rewrite (xor_shift b) by lia. rewrite (xor_shift (b + _) _ (s + 8)); [|lia|rewrite ?P8; destruct QQ as [Q|Q]; rewrite Q in *; lia].
    cbn [set_position set_buf position bitStreamCount bitStreamCache] in *.
    eexists (position t + 1 + 1), _, _. split; [|exact I1].
    replace (position t + 2) with (position t + 1 + 1) by lia. unfold set_position. f_equal.
    rewrite P8. destruct QQ as [Q|Q]; rewrite Q in *; lia.
  - destruct (readByte_spec _ _ _ _ Hi) as [D0 I0]. rewrite (data_at_ok _ _ _ _ D0).
    destruct (readByte_spec _ _ _ _ I0) as [D1 I1]. rewrite (data_at_ok t _ _ _ D1).
    destruct (readByte_spec _ _ _ _ I1) as [D2 I2].
    cbn [set_position set_buf position bitStreamCount bitStreamCache data] in *.
    replace (position t + 1 + 1) with (position t + 2) in * by lia. rewrite (data_at_ok _ _ _ _ D2).
    change (2 ^ (8 * Z.of_nat 3)) with 16777216 in Hx.
    rewrite (xor_shift b) by lia. rewrite (xor_shift (b + _) _ (s + 8)); [|lia|rewrite ?P8; destruct QQ as [Q|Q]; rewrite Q in *; lia].
    rewrite (xor_shift _ _ (s + 16)); [|lia|rewrite P8, P16; destruct QQ as [Q|Q]; rewrite Q in *; lia].
    eexists (position t + 2 + 1), _, _. split; [|exact I2].
    replace (position t + 3) with (position t + 2 + 1) by lia. unfold set_position. f_equal.
    rewrite P8, P16. destruct QQ as [Q|Q]; rewrite Q in *; lia.
  - destruct (readByte_spec _ _ _ _ Hi) as [D0 I0]. rewrite (data_at_ok _ _ _ _ D0).
    destruct (readByte_spec _ _ _ _ I0) as [D1 I1]. rewrite (data_at_ok t _ _ _ D1).
    destruct (readByte_spec _ _ _ _ I1) as [D2 I2].
    destruct (readByte_spec _ _ _ _ I2) as [D3 I3].
    cbn [set_position set_buf position bitStreamCount bitStreamCache data] in *.
    replace (position t + 1 + 1 + 1) with (position t + 3) in * by lia.
    replace (position t + 1 + 1) with (position t + 2) in * by lia.
    rewrite (data_at_ok _ _ _ _ D2), (data_at_ok _ _ _ _ D3).
    change (2 ^ (8 * Z.of_nat 4)) with 4294967296 in Hx.
    rewrite (xor_shift b) by lia. rewrite (xor_shift (b + _) _ (s + 8)); [|lia|rewrite ?P8; destruct QQ as [Q|Q]; rewrite Q in *; lia].
    rewrite (xor_shift _ _ (s + 16)); [|lia|rewrite P8, P16; destruct QQ as [Q|Q]; rewrite Q in *; lia].
    rewrite xor_shift; [|lia|rewrite P8, P16, P24; destruct QQ as [Q|Q]; rewrite Q in *; lia].
    eexists (position t + 3 + 1), _, _. split; [|exact I3].
    replace (position t + 4) with (position t + 3 + 1) by lia. unfold set_position. f_equal.
    rewrite P8, P16, P24. destruct QQ as [Q|Q]; rewrite Q in *; lia.
Qed.

Lemma payload_spec t (nib : bool) k w m l z : (k <= 4)%nat -> w = 8 * Z.of_nat k + (if nib then 4 else 0) ->
  0 <= m < 2 ^ w -> inp t (payload w m ++ l) z ->
  exists p c q, xorPayload nib k t = DOk m (set_buf t p c q) /\ inp (set_buf t p c q) l z.
Proof.
  intros Hk Hw Hm Hi.
  change (xorPayload nib k t) with (do (b, t) <- (if nib then readBits4 t else DOk 0 t); bytesPayload b (if nib then 4 else 0) k t).
  unfold payload in Hi. destruct nib.
  - replace (w mod 8 =? 4) with true in Hi by lia. replace (Z.to_nat (w / 8)) with k in Hi by lia. rewrite <- app_assoc in Hi.
    destruct (read4_spec t (m mod 16) _ z ltac:(lia) Hi) as (p & c & q & R & I). rewrite R. cbn [dbind].
    destruct (bytesPayload_spec (set_buf t p c q) (m mod 16) 4 k (m / 16) l z) as (p' & c' & q' & R' & I'); try assumption; auto.
    + change (2 ^ 4) with 16. lia.
    + rewrite Hw, Z.pow_add_r in Hm by lia. change (2 ^ 4) with 16 in Hm. set (Q := 2 ^ (8 * Z.of_nat k)) in *. clearbody Q.
      split; [lia|]. apply Z.div_lt_upper_bound; lia.
    + exists p', c', q'. rewrite R', set_buf_twice. split; [|exact I']. f_equal. change (2 ^ 4) with 16. lia.
  - rewrite Z.add_0_r in Hw. replace (w mod 8 =? 4) with false in Hi by lia. replace (Z.to_nat (w / 8)) with k in Hi by lia.
    cbn [dbind].
    destruct (bytesPayload_spec t 0 0 k m l z) as (p' & c' & q' & R' & I'); try assumption; auto.
    + change (2 ^ 0) with 1. lia.
    + rewrite <- Hw. exact Hm.
    + exists p', c', q'. split; [|exact I']. rewrite R'. f_equal. change (2 ^ 0) with 1. lia.
Qed.

(** ** Time deltas *)
Lemma gap_abs a b : abs64 (i64 (a - b)) = gap a b.
Proof.
  unfold abs64, gap. pose proof (i64_range (a - b)) as H. destruct (i64 (a - b) <? 0) eqn:E.
  - f_equal. lia.
  - rewrite Z.abs_eq by lia. rewrite (i64_small (i64 (a - b))) by exact H. reflexivity.
Qed.

Fixpoint increasing (l : list Z) : Prop :=
  match l with
  | [] => True
  | x :: r => match r with [] => True | y :: _ => x < y end /\ increasing r
  end.
Lemma ins_increasing x l : increasing l -> increasing (ins x l).
Proof.
  induction l as [|y r IH]; intros H; [cbn; auto|].
  destruct H as [H1 H2]. specialize (IH H2). cbn [ins].
  destruct (Z.ltb_spec x y) as [L|L]; [split; [exact L|split; assumption]|].
  destruct (Z.eqb_spec x y) as [E|E]; [split; assumption|].
  split; [|exact IH]. destruct r as [|u r]; cbn [ins]; [lia|].
  destruct (x <? u); [lia|]. destruct (x =? u); lia.
Qed.
Lemma sorted_gaps_increasing g : increasing (sorted_gaps g).
Proof. induction g as [|x g IH]; cbn; [exact I|]. apply ins_increasing. exact IH. Qed.
Lemma ins_in x l y : In y (ins x l) <-> y = x \/ In y l.
Proof.
  induction l as [|a r IH]; cbn [ins]; [cbn; intuition|].
  destruct (x <? a); [cbn; intuition|]. destruct (Z.eqb_spec x a) as [E|E]; [cbn; subst; intuition|].
  cbn [In]. rewrite IH. intuition.
Qed.
Lemma sorted_gaps_in g y : In y (sorted_gaps g) <-> In y g.
Proof. induction g as [|x g IH]; cbn; [reflexivity|]. fold (sorted_gaps g). rewrite ins_in, IH. intuition. Qed.
Lemma sorted_gaps_bound g : Forall is_i64 g -> Forall (fun x => x <= MaxInt64) (sorted_gaps g).
Proof.
  intros H. apply List.Forall_forall. intros x Hx. apply (proj1 (sorted_gaps_in g x)) in Hx.
  rewrite List.Forall_forall in H. specialize (H x Hx). unfold is_i64, MaxInt64 in *. lia.
Qed.

Lemma slots_update x l : increasing l -> Forall (fun x => x <= MaxInt64) l -> x <= MaxInt64 ->
  let d1 := nth 0 l MaxInt64 in let d2 := nth 1 l MaxInt64 in let d3 := nth 2 l MaxInt64 in let d4 := nth 3 l MaxInt64 in
  (nth 0 (ins x l) MaxInt64, nth 1 (ins x l) MaxInt64, nth 2 (ins x l) MaxInt64, nth 3 (ins x l) MaxInt64) =
  if (x <? d4) && negb (x =? d1) && negb (x =? d2) && negb (x =? d3) then
    if x <? d1 then (x, d1, d2, d3) else if x <? d2 then (d1, x, d2, d3) else if x <? d3 then (d1, d2, x, d3) else (d1, d2, d3, x)
  else (d1, d2, d3, d4).
Proof.
  intros Hi Hb Hx. set (M := MaxInt64) in *. clearbody M.
  destruct l as [|a [|b [|c [|d r]]]]; cbn [nth ins increasing] in *;
  repeat match goal with H : Forall _ (_ :: _) |- _ => apply Forall_cons_1 in H as [? H] | H : _ /\ _ |- _ => destruct H end;
  repeat match goal with
  | |- context [?u <? ?v] => destruct (Z.ltb_spec u v)
  | |- context [?u =? ?v] => destruct (Z.eqb_spec u v)
  end; cbn [andb negb nth]; try (exfalso; lia); repeat f_equal; lia.
Qed.

Lemma saveTimestamp_rel t e ts : rel t e -> is_i64 ts ->
  rel (saveTimestamp t ts) (mkEnc (e_point e) (e_last e) ts (e_t1 e) (gap (e_t1 e) ts :: e_gaps e)).
Proof.
  intros R Hts. pose proof R as [H1 H2 H3 H4 H5 H6 H7 H8 H9 H10].
  pose proof (slots_update (gap (e_t1 e) ts) (sorted_gaps (e_gaps e)) (sorted_gaps_increasing _)
    (sorted_gaps_bound _ (eo_gaps _ H1))) as S.
  assert (GB : is_i64 (gap (e_t1 e) ts)) by apply i64_range.
  specialize (S ltac:(unfold is_i64, MaxInt64 in *; lia)). cbv zeta in S.
  fold (slot 0 (e_gaps e)) (slot 1 (e_gaps e)) (slot 2 (e_gaps e)) (slot 3 (e_gaps e)) in S.
  unfold saveTimestamp. cbv zeta. rewrite H5, H7, H8, H9, H10, gap_abs.
  set (g := gap (e_t1 e) ts) in *.
  assert (OK' : enc_ok (mkEnc (e_point e) (e_last e) ts (e_t1 e) (g :: e_gaps e))).
  { destruct H1 as [O1 O2 O3 O4]. split; cbn; auto. }
  assert (KK : forall a b c d, (slot 0 (g :: e_gaps e), slot 1 (g :: e_gaps e), slot 2 (g :: e_gaps e), slot 3 (g :: e_gaps e)) = (a, b, c, d) ->
    rel (set_times t ts (e_t1 e) a b c d) (mkEnc (e_point e) (e_last e) ts (e_t1 e) (g :: e_gaps e))).
  { intros a b c d Q. assert (slot 0 (g :: e_gaps e) = a /\ slot 1 (g :: e_gaps e) = b /\ slot 2 (g :: e_gaps e) = c /\ slot 3 (g :: e_gaps e) = d) as (? & ? & ? & ?)
      by (repeat split; congruence).
    split; cbn [set_times prevTimestamp1 prevTimestamp2 prevTimeDelta1 prevTimeDelta2 prevTimeDelta3 prevTimeDelta4 e_t1 e_t2 e_gaps lastPoint e_last e_point]; auto. }
  change (nth 0 (ins g (sorted_gaps (e_gaps e))) MaxInt64) with (slot 0 (g :: e_gaps e)) in S.
  change (nth 1 (ins g (sorted_gaps (e_gaps e))) MaxInt64) with (slot 1 (g :: e_gaps e)) in S.
  change (nth 2 (ins g (sorted_gaps (e_gaps e))) MaxInt64) with (slot 2 (g :: e_gaps e)) in S.
  change (nth 3 (ins g (sorted_gaps (e_gaps e))) MaxInt64) with (slot 3 (g :: e_gaps e)) in S.
  destruct ((g <? slot 3 (e_gaps e)) && negb (g =? slot 0 (e_gaps e)) && negb (g =? slot 1 (e_gaps e)) && negb (g =? slot 2 (e_gaps e))).
  - destruct (g <? slot 0 (e_gaps e)); [apply KK; exact S|].
    destruct (g <? slot 1 (e_gaps e)); [apply KK; exact S|].
    destruct (g <? slot 2 (e_gaps e)); apply KK; exact S.
  - apply KK; exact S.
Qed.
Lemma saveTimestamp_inp t l z ts : inp t l z -> inp (saveTimestamp t ts) l z.
Proof.
  intros H. unfold saveTimestamp. cbv zeta.
  repeat match goal with |- context [if ?b then _ else _] => destruct b end; apply inp_times; exact H.
Qed.
Lemma saveTimestamp_points t ts : points (saveTimestamp t ts) = points t.
Proof.
  unfold saveTimestamp. cbv zeta.
  repeat match goal with |- context [if ?b then _ else _] => destruct b end; reflexivity.
Qed.
