(** TSSC decompression is lossless (C24): the decoder follows the encoder. *)
From stdpp Require Import gmap.
From Coq Require Import Lia ZArith ZifyBool ZifyNat.
From Verif Require Import Base BaseProofs FormatModel FormatProofs CompactProofs TsscModel TsscSpec TsscCode TsscCode2 TsscRead TsscProofs.
Open Scope Z_scope.
Ltac Zify.zify_post_hook ::= Z.div_mod_to_equations.

(** ** The decoder in phases *)
Definition create (id : Z) (t : td) : td :=
  match points t !! id with
  | Some _ => t
  | None => set_point t (Some id) (set_next newPointMetadata (i32 (id + 1)))
  end.
Definition KV (id ts f code : Z) (t : td) : dres (option tmeas) :=
  do (valueRaw, t) <- decodeValue code id t;
  DOk (Some (mkTm id ts f valueRaw)) (set_points t (point0 t) (Some id) (points t)).
Definition KF (id ts code : Z) (t : td) : dres (option tmeas) :=
  do (fc, t) <- (if code <=? StateFlags7Bit32 then
                   do (f, t) <- decodeStateFlags (u8 code) id t;
                   do (code, t) <- ReadCode t;
                   if code <? Value1 then DErr t else DOk (f, code) t
                 else DOk (PrevStateFlags1 (get_point t (Some id)), code) t);
  let '(stateFlags, code) := fc in KV id ts stateFlags code t.
Definition KT (id code : Z) (t : td) : dres (option tmeas) :=
  do (tc, t) <- (if code <=? TimeXor7Bit then
                   do (ts, t) <- decodeTimestamp (u8 code) t;
                   do (code, t) <- ReadCode t;
                   if code <? StateFlags2 then DErr t else DOk (ts, code) t
                 else DOk (prevTimestamp1 t, code) t);
  let '(timestamp, code) := tc in KF id timestamp code t.
Definition KI (code : Z) (t : td) : dres (option tmeas) :=
  do (code, t) <- (if code <=? PointIDXor32 then
                     do (u, t) <- decodePointID (u8 code) t;
                     do (code, t) <- ReadCode t;
                     if code <? TimeDelta1Forward then DErr t else DOk code t
                   else DOk code t);
  let id := PrevNextPointID1 (get_point t (lastPoint t)) in KT id code (create id t).

Lemma Try_phases t :
  TryGetMeasurement t =
  if (position t =? lastPosition t) && bitStreamIsEmpty t then DOk None (clearBitStream t)
  else do (code, t) <- ReadCode t;
       if code =? EndOfStream then DOk None (clearBitStream t) else KI code t.
Proof. reflexivity. Qed.

Lemma create_present id t : is_Some (points t !! id) -> create id t = t.
Proof. intros [p H]. unfold create. rewrite H. reflexivity. Qed.
Lemma create_there id t : is_Some (points (create id t) !! id).
Proof. unfold create. destruct (points t !! id) eqn:E; [rewrite E; eauto|]. cbn [set_point set_points points]. rewrite lookup_insert. eauto. Qed.
Lemma create_rel id t e : rel t e -> rel (create id t) e.
Proof.
  intros R. unfold create. destruct (points t !! id) eqn:E; [exact R|].
  destruct R as [H1 H2 H3 H4 H5 H6 H7 H8 H9 H10]. split; try assumption.
  - intros k. rewrite view_set. destruct (key_eqb (Some id) k) eqn:Q; [|apply H2].
    apply key_eqb_spec in Q. subst k. rewrite <- H2. cbn [view]. rewrite E. reflexivity.
  - intros i Hi. apply present_set. auto.
Qed.
Lemma create_inp id t l z : inp t l z -> inp (create id t) l z.
Proof. intros H. unfold create. destruct (points t !! id); [exact H|]. apply inp_point. exact H. Qed.
Lemma create_t1 id t : prevTimestamp1 (create id t) = prevTimestamp1 t.
Proof. unfold create. destruct (points t !! id); reflexivity. Qed.

Lemma code_u8 code : is_code code -> u8 code = code.
Proof. unfold is_code, u8. intros H. lia. Qed.

Lemma e_code_keeps e code i e' : enc_ok e -> is_code code -> e_code e code = Some (i, e') ->
  enc_ok e' /\ e_last e' = e_last e /\ e_t1 e' = e_t1 e /\ e_t2 e' = e_t2 e /\ e_gaps e' = e_gaps e /\
  (forall k, PrevNextPointID1 (e_point e' k) = PrevNextPointID1 (e_point e k) /\
     PrevStateFlags1 (e_point e' k) = PrevStateFlags1 (e_point e k) /\ PrevStateFlags2 (e_point e' k) = PrevStateFlags2 (e_point e k) /\
     PrevValue1 (e_point e' k) = PrevValue1 (e_point e k) /\ PrevValue2 (e_point e' k) = PrevValue2 (e_point e k) /\
     PrevValue3 (e_point e' k) = PrevValue3 (e_point e k)) /\
  exists b r, i = Bit b :: r.
Proof.
  intros Ho Hc He. destruct (e_code_spec e code Ho Hc) as (c' & seg & U & K & E). rewrite E in He.
  assert (i = map Bit (code_bits (pm_coder (e_point e (e_last e))) code)) by congruence.
  assert (e' = e_set e (e_last e) (set_coder (e_point e (e_last e)) c')) by congruence. subst i e'.
  split; [apply enc_ok_set; [exact Ho|]; eapply set_coder_ok; [apply (eo_point _ Ho)|eassumption]|].
  do 4 (split; [reflexivity|]). split.
  - intros k. cbn [e_set e_point]. destruct (key_eqb (e_last e) k) eqn:Q; [|auto 10].
    apply key_eqb_spec in Q. subst k. cbn [set_coder PrevNextPointID1 PrevStateFlags1 PrevStateFlags2 PrevValue1 PrevValue2 PrevValue3]. auto 10.
  - destruct (code_bits_cons (pm_coder (e_point e (e_last e))) code) as (b & r & ->). cbn [map]. eauto.
Qed.

(** ** Value *)
Lemma set_values_ok p a b c : point_ok p -> is_u32 a -> is_u32 b -> is_u32 c -> point_ok (set_values p a b c).
Proof. intros (H1 & H2 & H3 & H4 & _) Ha Hb Hc. unfold point_ok. cbn [set_values pm_coder PrevNextPointID1 PrevStateFlags1 PrevStateFlags2 PrevValue1 PrevValue2 PrevValue3]. auto 10. Qed.
Lemma set_flags_ok p a b : point_ok p -> is_u32 a -> is_u32 b -> point_ok (set_flags p a b).
Proof. intros (H1 & H2 & _ & _ & H3) Ha Hb. unfold point_ok. cbn [set_flags pm_coder PrevNextPointID1 PrevStateFlags1 PrevStateFlags2 PrevValue1 PrevValue2 PrevValue3]. auto 10. Qed.
Lemma set_next_ok p n : point_ok p -> is_i32 n -> point_ok (set_next p n).
Proof. intros (H1 & _ & H2) Hn. unfold point_ok. cbn [set_next pm_coder PrevNextPointID1 PrevStateFlags1 PrevStateFlags2 PrevValue1 PrevValue2 PrevValue3]. auto 10. Qed.

Definition phase_result (e : enc) (l : list item) (z : Z) (r : dres (option tmeas)) (m : tmeas) : Prop :=
  exists t', r = DOk (Some m) t' /\ rel t' e /\ inp t' l z.

Definition finish (e : enc) (id : Z) : enc := mkEnc (e_point e) (Some id) (e_t1 e) (e_t2 e) (e_gaps e).
Lemma finish_rel t e id : rel t e -> is_Some (points t !! id) ->
  rel (set_points t (point0 t) (Some id) (points t)) (finish e id).
Proof.
  intros [H1 H2 H3 H4 H5 H6 H7 H8 H9 H10] Hp. split; try assumption; try reflexivity.
  - destruct H1 as [O1 O2 O3 O4]. split; assumption.
  - intros i Hi. cbn in Hi. assert (i = id) by congruence. subst i. exact Hp.
Qed.
Lemma finish_inp t l z id : inp t l z -> inp (set_points t (point0 t) id (points t)) l z.
Proof. intros [H1 H2 H3 H4 H5]. split; assumption. Qed.

Lemma value_width_cases code w : value_width code = Some w ->
  exists nib k, (k <= 4)%nat /\ w = 8 * Z.of_nat k + (if nib : bool then 4 else 0) /\ 24 <= code < 32 /\
  forall id t, decodeValue code id t =
    do (m, t) <- xorPayload nib k t;
    let v := Z.lxor (u32 m) (PrevValue1 (get_point t (Some id))) in
    let p := get_point t (Some id) in
    DOk v (set_point t (Some id) (set_values p v (PrevValue1 p) (PrevValue2 p))).
Proof.
  intros H.
  assert (code = 24 \/ code = 25 \/ code = 26 \/ code = 27 \/ code = 28 \/ code = 29 \/ code = 30 \/ code = 31) as C.
  { unfold value_width in H. destruct code as [|c|c]; [discriminate| |discriminate].
    repeat (destruct c as [c|c|]; try discriminate; auto 20). }
  repeat destruct C as [C|C]; subst code; injection H as <-;
  [exists true, 0%nat|exists false, 1%nat|exists true, 1%nat|exists false, 2%nat|exists true, 2%nat|exists false, 3%nat|exists true, 3%nat|exists false, 4%nat];
  (split; [lia|]; split; [reflexivity|]; split; [lia|]; intros; reflexivity).
Qed.

Lemma e_value_cases e code id v i e' : e_value e code id v = Some (i, e') ->
  let p := e_point e (Some id) in
  exists ic e1, e_code e code = Some (ic, e1) /\ 20 <= code < 32 /\
  let note a b c := e_set e1 (Some id) (set_values (e_point e1 (Some id)) a b c) in
  (code = 20 /\ v = PrevValue1 p /\ i = ic /\ e' = e1) \/
  (code = 21 /\ v = PrevValue2 p /\ i = ic /\ e' = note v (PrevValue1 p) (PrevValue3 p)) \/
  (code = 22 /\ v = PrevValue3 p /\ i = ic /\ e' = note v (PrevValue1 p) (PrevValue2 p)) \/
  (code = 23 /\ v = 0 /\ i = ic /\ e' = note v (PrevValue1 p) (PrevValue2 p)) \/
  (exists w, value_width code = Some w /\ Z.lxor v (PrevValue1 p) < 2 ^ w /\
     i = ic ++ payload w (Z.lxor v (PrevValue1 p)) /\ e' = note v (PrevValue1 p) (PrevValue2 p)).
Proof.
  intros H p. unfold e_value in H. cbv zeta in H. fold p in H.
  assert (XC : match value_width code with
      | None => None
      | Some w => if Z.lxor v (PrevValue1 p) <? 2 ^ w then
            try (i, e1) <- e_code e code; Some (i ++ payload w (Z.lxor v (PrevValue1 p)),
              e_set e1 (Some id) (set_values (e_point e1 (Some id)) v (PrevValue1 p) (PrevValue2 p))) else None
      end = Some (i, e') -> 20 <= code < 32 -> exists ic e1, e_code e code = Some (ic, e1) /\ 20 <= code < 32 /\
      exists w, value_width code = Some w /\ Z.lxor v (PrevValue1 p) < 2 ^ w /\
     i = ic ++ payload w (Z.lxor v (PrevValue1 p)) /\ e' = e_set e1 (Some id) (set_values (e_point e1 (Some id)) v (PrevValue1 p) (PrevValue2 p))).
  { clear H. intros H HR. destruct (value_width code) as [w|]; [|discriminate].
    destruct (Z.ltb_spec (Z.lxor v (PrevValue1 p)) (2 ^ w)) as [L|L]; [|discriminate].
    destruct (e_code e code) as [[ic e1]|]; [|discriminate]. exists ic, e1. split; [reflexivity|]. split; [exact HR|].
    exists w. split; [reflexivity|]. split; [exact L|]. split; congruence. }
  assert (PC : forall (b : bool) (P : Prop) (n : enc -> enc), (b = true -> P) ->
     (if b then try (i, e1) <- e_code e code; Some (i, n e1) else None) = Some (i, e') ->
     exists ic e1, e_code e code = Some (ic, e1) /\ P /\ i = ic /\ e' = n e1).
  { clear. intros b P n HP H. destruct b; [|discriminate]. destruct (e_code e code) as [[ic e1]|]; [|discriminate].
    exists ic, e1. split; [reflexivity|]. split; [apply HP; reflexivity|]. split; congruence. }
  assert (code = 20 \/ code = 21 \/ code = 22 \/ code = 23 \/ exists w, value_width code = Some w /\ 20 <= code < 32) as C.
  { destruct code as [|c|c]; [discriminate H| |discriminate H].
    repeat (destruct c as [c|c|]; try discriminate H; auto 10; try (do 4 right; cbn [value_width]; eexists; split; [reflexivity|lia])). }
  destruct C as [C|[C|[C|[C|C]]]].
  - subst code. destruct (PC _ _ (fun e => e) (fun h => proj1 (Z.eqb_eq _ _) h) H) as (ic & e1 & E1 & E2 & E3 & E4).
    exists ic, e1. split; [exact E1|]. split; [lia|]. left. auto.
  - subst code. destruct (PC _ _ (fun e => _) (fun h => proj1 (Z.eqb_eq _ _) h) H) as (ic & e1 & E1 & E2 & E3 & E4).
    exists ic, e1. split; [exact E1|]. split; [lia|]. right; left. auto.
  - subst code. destruct (PC _ _ (fun e => _) (fun h => proj1 (Z.eqb_eq _ _) h) H) as (ic & e1 & E1 & E2 & E3 & E4).
    exists ic, e1. split; [exact E1|]. split; [lia|]. do 2 right; left. auto.
  - subst code. destruct (PC _ _ (fun e => _) (fun h => proj1 (Z.eqb_eq _ _) h) H) as (ic & e1 & E1 & E2 & E3 & E4).
    exists ic, e1. split; [exact E1|]. split; [lia|]. do 3 right; left. auto.
  - destruct C as (w & W & HR). destruct XC as (ic & e1 & E1 & E2 & E3); [|exact HR|].
    + revert H. assert (code <> 20 /\ code <> 21 /\ code <> 22 /\ code <> 23) as (N1 & N2 & N3 & N4)
        by (repeat split; intros ->; discriminate W).
      destruct code as [|c|c]; try discriminate W. clear -W N1 N2 N3 N4.
      repeat (destruct c as [c|c|]; try discriminate W; try congruence; try (intros H; exact H)).
    + exists ic, e1. split; [exact E1|]. split; [exact E2|]. do 4 right. exact E3.
Qed.

Lemma phase_value t e code id ts f v l z i e' :
  rel t e -> is_u32 v -> e_value e code id v = Some (i, e') -> inp t (i ++ l) z ->
  exists t1, ReadCode t = DOk code t1 /\ Value1 <= code < 32 /\ (exists e1, rel t1 e1 /\ forall k, PrevNextPointID1 (e_point e1 k) = PrevNextPointID1 (e_point e k) /\ PrevStateFlags1 (e_point e1 k) = PrevStateFlags1 (e_point e k)) /\
    (forall j, is_Some (points t !! j) -> is_Some (points t1 !! j)) /\ prevTimestamp1 t1 = prevTimestamp1 t /\
    lastPoint t1 = lastPoint t /\
    phase_result (finish e' id) l z (KV id ts f code (create id t1)) (mkTm id ts f v).
Proof.
  intros R Hv He Hi. pose proof (r_ok _ _ R) as Ho.
  destruct (e_value_cases _ _ _ _ _ _ He) as (ic & e1 & EC & Hcode & C).
  assert (Hc : is_code code) by (unfold is_code; lia).
  destruct (e_code_keeps _ _ _ _ Ho Hc EC) as (Ho1 & KL & K1 & K2 & KG & KP & _).
  destruct (KP (Some id)) as (_ & _ & _ & KV1 & KV2 & KV3).
  destruct (eo_point _ Ho1 (Some id)) as (_ & _ & _ & _ & U1 & U2 & U3).
  rewrite <- KV1, <- KV2, <- KV3 in C. clear KV1 KV2 KV3.
  assert (exists l', i = ic ++ l') as [l' El].
  { destruct C as [C|[C|[C|[C|C]]]]; [exists []; rewrite app_nil_r; tauto..|]. destruct C as (w & _ & _ & C & _). eauto. }
  pose proof Hi as Hi'. rewrite El, <- app_assoc in Hi'.
  destruct (ReadCode_spec _ _ _ _ _ _ _ R Hc EC Hi') as (t1 & RC & R1 & I1 & P1 & T1).
  exists t1. split; [exact RC|]. split; [unfold Value1; lia|].
  split; [exists e1; split; [exact R1|]; intros k; destruct (KP k) as (? & ? & _); auto|].
  split; [exact P1|]. split; [exact T1|]. split; [rewrite (r_last _ _ R1), (r_last _ _ R); exact KL|].
  pose proof (create_rel id _ _ R1) as R1'. pose proof (create_there id t1) as PR.
  pose proof (get_present _ _ _ R1' PR) as GP. pose proof (create_inp id _ _ _ I1) as I1'.
  set (t2 := create id t1) in *. clearbody t2. clear RC P1 T1 R1 I1.
  assert (DONE : forall a b c, is_u32 a -> is_u32 b -> is_u32 c -> l' = [] ->
    e' = e_set e1 (Some id) (set_values (e_point e1 (Some id)) a b c) ->
    decodeValue code id t2 = DOk v (set_point t2 (Some id) (set_values (e_point e1 (Some id)) a b c)) ->
    phase_result (finish e' id) l z (KV id ts f code t2) (mkTm id ts f v)).
  { intros a b c Ha Hb Hcc -> -> HD. unfold KV. rewrite HD. cbn [dbind].
    eexists. split; [reflexivity|]. split.
    - apply finish_rel; [|apply present_set; exact PR]. apply rel_set; [exact R1'|]. apply set_values_ok; auto. apply (eo_point _ Ho1).
    - apply finish_inp, inp_point. exact I1'. }
  assert (NIL : i = ic -> l' = []).
  { intros E. rewrite El in E. rewrite <- (app_nil_r ic) in E at 2. apply app_inv_head in E. exact E. }
  destruct C as [C|[C|[C|[C|C]]]].
  - destruct C as (-> & Ev & Ei & ->). rewrite (NIL Ei) in I1'.
    unfold KV. change (decodeValue 20 id t2) with (DOk (PrevValue1 (get_point t2 (Some id))) t2). cbn [dbind]. rewrite GP, <- Ev.
    eexists. split; [reflexivity|]. split; [apply finish_rel; assumption|apply finish_inp; exact I1'].
  - destruct C as (-> & Ev & Ei & Ee). eapply DONE; [..|exact Ee|]; auto.
    change (decodeValue 21 id t2) with (let p := get_point t2 (Some id) in
      DOk (PrevValue2 p) (set_point t2 (Some id) (set_values p (PrevValue2 p) (PrevValue1 p) (PrevValue3 p)))).
    cbv zeta. rewrite GP, <- Ev. reflexivity.
  - destruct C as (-> & Ev & Ei & Ee). eapply DONE; [..|exact Ee|]; auto.
    change (decodeValue 22 id t2) with (let p := get_point t2 (Some id) in
      DOk (PrevValue3 p) (set_point t2 (Some id) (set_values p (PrevValue3 p) (PrevValue1 p) (PrevValue2 p)))).
    cbv zeta. rewrite GP, <- Ev. reflexivity.
  - destruct C as (-> & Ev & Ei & Ee). eapply DONE; [..|exact Ee|]; auto.
    change (decodeValue 23 id t2) with (let p := get_point t2 (Some id) in
      DOk 0 (set_point t2 (Some id) (set_values p 0 (PrevValue1 p) (PrevValue2 p)))).
    cbv zeta. rewrite GP, Ev. reflexivity.
  - destruct C as (w & W & HL & Ei & Ee). rewrite El in Ei. apply app_inv_head in Ei. subst l'.
    destruct (value_width_cases _ _ W) as (nib & k & Hk & Hw & _ & HD).
    pose proof (lxor_u32 v (PrevValue1 (e_point e1 (Some id))) Hv U1) as XU.
    destruct (payload_spec t2 nib k w (Z.lxor v (PrevValue1 (e_point e1 (Some id)))) l z Hk Hw ltac:(unfold is_u32 in XU; lia) I1') as (p & c & q & XP & XI).
    unfold KV. rewrite HD, XP. cbn [dbind]. cbv zeta.
    change (get_point (set_buf t2 p c q) (Some id)) with (get_point t2 (Some id)). rewrite GP.
    rewrite (u32_small _ XU), lxor_cancel.
    eexists. split; [reflexivity|]. split.
    + apply finish_rel; [|apply present_set; exact PR]. rewrite Ee. apply rel_set; [apply rel_buf; exact R1'|].
      apply set_values_ok; auto. apply (eo_point _ Ho1).
    + apply finish_inp, inp_point. exact XI.
Qed.

(** ** State flags *)
Lemma ser_bytes bs l n : ser (map Byte bs ++ l) n = bs ++ ser l n.
Proof. induction bs as [|b bs IH]; cbn [map app ser]; [reflexivity|]. rewrite IH. reflexivity. Qed.

Lemma lift7_32 t v l z : is_u32 v -> inp t (map Byte (enc7_32 v) ++ l) z ->
  lift7 t (decode7BitUInt32 (data t) (position t)) = DOk v (set_position t (position t + len (enc7_32 v))) /\
  inp (set_position t (position t + len (enc7_32 v))) l z.
Proof.
  intros Hv H. split; [|apply readBytes_spec; exact H].
  destruct H as [(pre & Hd & Hp) _ _ _ _]. rewrite ser_bytes in Hd. rewrite Hd, Hp, decode7_32_spec by exact Hv. reflexivity.
Qed.
Lemma lift7_64 t v l z : is_u64 v -> inp t (map Byte (enc7_64 v) ++ l) z ->
  lift7 t (decode7BitUInt64 (data t) (position t)) = DOk v (set_position t (position t + len (enc7_64 v))) /\
  inp (set_position t (position t + len (enc7_64 v))) l z.
Proof.
  intros Hv H. split; [|apply readBytes_spec; exact H].
  destruct H as [(pre & Hd & Hp) _ _ _ _]. rewrite ser_bytes in Hd. rewrite Hd, Hp, decode7_64_spec by exact Hv. reflexivity.
Qed.

Lemma e_flags_cases e ch id f i e' : e_flags e ch id f = Some (i, e') ->
  (ch = None /\ f = PrevStateFlags1 (e_point e (Some id)) /\ i = [] /\ e' = e) \/
  exists code ic e1, ch = Some code /\ e_code e code = Some (ic, e1) /\
    e' = e_set e1 (Some id) (set_flags (e_point e1 (Some id)) f (PrevStateFlags1 (e_point e1 (Some id)))) /\
    ((code = 18 /\ f = PrevStateFlags2 (e_point e (Some id)) /\ i = ic) \/ (code = 19 /\ i = ic ++ map Byte (enc7_32 f))).
Proof.
  unfold e_flags. intros H. destruct ch as [code|]; [right|left].
  - assert (code = 18 \/ code = 19) as C.
    { destruct code as [|c|c]; [discriminate H| |discriminate H]. repeat (destruct c as [c|c|]; try discriminate H; auto). }
    destruct C as [-> | ->].
    + destruct (Z.eqb_spec f (PrevStateFlags2 (e_point e (Some id)))) as [E|E]; [|discriminate].
      destruct (e_code e 18) as [[ic e1]|] eqn:EC; [|discriminate]. exists 18, ic, e1. split; [reflexivity|]. split; [exact EC|].
      split; [congruence|]. left. split; [reflexivity|]. split; [exact E|congruence].
    + destruct (e_code e 19) as [[ic e1]|] eqn:EC; [|discriminate]. exists 19, ic, e1. split; [reflexivity|]. split; [exact EC|].
      split; [congruence|]. right. split; [reflexivity|congruence].
  - destruct (Z.eqb_spec f (PrevStateFlags1 (e_point e (Some id)))) as [E|E]; [|discriminate].
    split; [reflexivity|]. split; [exact E|]. split; congruence.
Qed.

Lemma phase_flags t e ch vcode id ts f v l z i1 i2 e1 e2 :
  rel t e -> is_u32 f -> is_u32 v -> e_flags e ch id f = Some (i1, e1) -> e_value e1 vcode id v = Some (i2, e2) ->
  inp t (i1 ++ i2 ++ l) z ->
  exists code t1, ReadCode t = DOk code t1 /\ StateFlags2 <= code < 32 /\
    (exists e1, rel t1 e1 /\ forall k, PrevNextPointID1 (e_point e1 k) = PrevNextPointID1 (e_point e k)) /\
    (forall j, is_Some (points t !! j) -> is_Some (points t1 !! j)) /\ prevTimestamp1 t1 = prevTimestamp1 t /\
    lastPoint t1 = lastPoint t /\
    phase_result (finish e2 id) l z (KF id ts code (create id t1)) (mkTm id ts f v).
Proof.
  intros R Hf Hv He Hev Hi. pose proof (r_ok _ _ R) as Ho.
  destruct (e_flags_cases _ _ _ _ _ _ He) as [(-> & Ef & -> & ->)|(code & ic & ec & -> & EC & Ee & C)].
  - cbn [app] in Hi. destruct (phase_value t e vcode id ts f v l z i2 e2 R Hv Hev Hi) as (t1 & RC & HR & (e3 & R3 & N3) & P & T & L & PH).
    exists vcode, t1. split; [exact RC|]. split; [unfold Value1, StateFlags2 in *; lia|].
    split; [exists e3; split; [exact R3|]; intros k; apply N3|]. split; [exact P|]. split; [exact T|]. split; [exact L|].
    unfold KF. replace (vcode <=? StateFlags7Bit32) with false by (unfold Value1, StateFlags7Bit32 in *; lia). cbn [dbind].
    rewrite (get_present (create id t1) e3 id); [|apply create_rel; exact R3|apply create_there].
    destruct (N3 (Some id)) as [_ Nf]. rewrite Nf, <- Ef. exact PH.
  - assert (Hc : is_code code) by (unfold is_code; destruct C as [(-> & _)|(-> & _)]; lia).
    destruct (e_code_keeps _ _ _ _ Ho Hc EC) as (Ho1 & KL & K1 & K2 & KG & KP & _).
    assert (exists l', i1 = ic ++ l' /\ (code = 18 -> l' = []) /\ (code = 19 -> l' = map Byte (enc7_32 f))) as (l' & El & L18 & L19).
    { destruct C as [(-> & _ & ->)|(-> & ->)]; [exists []|exists (map Byte (enc7_32 f))]; rewrite ?app_nil_r; split; auto; split; auto; discriminate. }
    rewrite El, <- app_assoc in Hi.
    destruct (ReadCode_spec _ _ _ _ _ _ _ R Hc EC Hi) as (t1 & RC & R1 & I1 & P1 & T1).
    exists code, t1. split; [exact RC|]. split; [unfold StateFlags2; destruct C as [(-> & _)|(-> & _)]; lia|].
    split; [exists ec; split; [exact R1|]; intros k; apply KP|]. split; [exact P1|]. split; [exact T1|].
    split; [rewrite (r_last _ _ R1), (r_last _ _ R); exact KL|].
    pose proof (create_rel id _ _ R1) as R1'. pose proof (create_there id t1) as PR.
    pose proof (get_present _ _ _ R1' PR) as GP. pose proof (create_inp id _ _ _ I1) as I1'.
    set (t2 := create id t1) in *. clearbody t2.
    destruct (eo_point _ Ho1 (Some id)) as (_ & _ & UF1 & _).
    (* the flags are read *)
    assert (exists t3, decodeStateFlags (u8 code) id t2 = DOk f t3 /\ rel t3 e1 /\ inp t3 (i2 ++ l) z /\ is_Some (points t3 !! id)) as (t3 & DF & R3 & I3 & PR3).
    { assert (PO : point_ok (set_flags (e_point ec (Some id)) f (PrevStateFlags1 (e_point ec (Some id))))).
      { apply set_flags_ok; auto. apply (eo_point _ Ho1). }
      rewrite (code_u8 _ Hc). destruct C as [(-> & Ef & _)|(-> & _)].
      - rewrite (L18 eq_refl) in I1'. cbn [app] in I1'.
        change (decodeStateFlags 18 id t2) with (let p := get_point t2 (Some id) in
          DOk (PrevStateFlags2 p) (set_point t2 (Some id) (set_flags p (PrevStateFlags2 p) (PrevStateFlags1 p)))).
        cbv zeta. rewrite GP. destruct (KP (Some id)) as (_ & _ & KF2 & _). rewrite KF2, <- Ef.
        eexists. split; [reflexivity|]. split; [rewrite Ee; apply rel_set; assumption|]. split; [apply inp_point; exact I1'|apply present_set; exact PR].
      - rewrite (L19 eq_refl) in I1'. destruct (lift7_32 t2 f _ z Hf I1') as [D I2].
        unfold decodeStateFlags. change (19 =? StateFlags2) with false. cbv iota. rewrite D. cbn [dbind]. cbv zeta.
        change (get_point (set_position t2 (position t2 + len (enc7_32 f))) (Some id)) with (get_point t2 (Some id)). rewrite GP.
        eexists. split; [reflexivity|]. split; [rewrite Ee; apply rel_set; [apply rel_buf; assumption|assumption]|].
        split; [apply inp_point; exact I2|apply present_set; exact PR]. }
    destruct (phase_value t3 e1 vcode id ts f v l z i2 e2 R3 Hv Hev I3) as (t4 & RC4 & HR4 & _ & P4 & _ & _ & PH).
    unfold KF. replace (code <=? StateFlags7Bit32) with true by (unfold StateFlags7Bit32; destruct C as [(-> & _)|(-> & _)]; reflexivity).
    rewrite DF. cbn [dbind]. rewrite RC4. cbn [dbind]. replace (vcode <? Value1) with false by lia. cbn [dbind].
    rewrite <- (create_present id t4) by (apply P4; exact PR3). exact PH.
Qed.

(** ** Timestamp *)
Lemma e_time_cases e ch ts i e' : e_time e ch ts = Some (i, e') ->
  (ch = None /\ ts = e_t1 e /\ i = [] /\ e' = e) \/
  exists code ic e1, ch = Some code /\ e_code e code = Some (ic, e1) /\ 8 <= code <= 17 /\
    e' = mkEnc (e_point e1) (e_last e1) ts (e_t1 e1) (gap (e_t1 e1) ts :: e_gaps e1) /\
    ((code = 17 /\ i = ic ++ map Byte (enc7_64 (u64 (Z.lxor (e_t1 e1) ts)))) \/
     (code < 17 /\ i = ic /\ ts = match code with
        | 8 => i64 (e_t1 e + slot 0 (e_gaps e)) | 9 => i64 (e_t1 e + slot 1 (e_gaps e))
        | 10 => i64 (e_t1 e + slot 2 (e_gaps e)) | 11 => i64 (e_t1 e + slot 3 (e_gaps e))
        | 12 => i64 (e_t1 e - slot 0 (e_gaps e)) | 13 => i64 (e_t1 e - slot 1 (e_gaps e))
        | 14 => i64 (e_t1 e - slot 2 (e_gaps e)) | 15 => i64 (e_t1 e - slot 3 (e_gaps e))
        | _ => e_t2 e end)).
Proof.
  unfold e_time. intros H. destruct ch as [code|]; [right|left].
  - assert (8 <= code <= 17) as HR.
    { destruct code as [|c|c]; [discriminate H| |discriminate H]. repeat (destruct c as [c|c|]; try discriminate H; try lia). }
    assert (PC : forall x, (if ts =? x then try (i, e0) <- e_code e code; Some (i, mkEnc (e_point e0) (e_last e0) ts (e_t1 e0) (gap (e_t1 e0) ts :: e_gaps e0)) else None) = Some (i, e') ->
       exists ic e1, e_code e code = Some (ic, e1) /\ e' = mkEnc (e_point e1) (e_last e1) ts (e_t1 e1) (gap (e_t1 e1) ts :: e_gaps e1) /\ i = ic /\ ts = x).
    { clear. intros x H. destruct (Z.eqb_spec ts x) as [E|E]; [|discriminate]. destruct (e_code e code) as [[ic e1]|]; [|discriminate].
      exists ic, e1. split; [reflexivity|]. split; [congruence|]. split; [congruence|exact E]. }
    assert (code = 8 \/ code = 9 \/ code = 10 \/ code = 11 \/ code = 12 \/ code = 13 \/ code = 14 \/ code = 15 \/ code = 16 \/ code = 17) as C by lia.
    repeat (destruct C as [C|C]; [subst code; cbv zeta beta iota in H; destruct (PC _ H) as (ic & e1 & E1 & E2 & E3 & E4); eexists _, ic, e1;
      split; [reflexivity|]; split; [exact E1|]; split; [lia|]; split; [exact E2|]; right; split; [lia|]; split; [exact E3|exact E4]|]).
    subst code. destruct (e_code e 17) as [[ic e1]|] eqn:EC; [|discriminate]. exists 17, ic, e1. split; [reflexivity|]. split; [exact EC|].
    split; [lia|]. split; [congruence|]. left. split; [reflexivity|congruence].
  - destruct (Z.eqb_spec ts (e_t1 e)) as [E|E]; [|discriminate].
    split; [reflexivity|]. split; [exact E|]. split; congruence.
Qed.

Lemma phase_time t e tch fch vcode id ts f v l z i1 i2 i3 e1 e2 e3 :
  rel t e -> is_i64 ts -> is_u32 f -> is_u32 v ->
  e_time e tch ts = Some (i1, e1) -> e_flags e1 fch id f = Some (i2, e2) -> e_value e2 vcode id v = Some (i3, e3) ->
  inp t (i1 ++ i2 ++ i3 ++ l) z ->
  exists code t1, ReadCode t = DOk code t1 /\ TimeDelta1Forward <= code < 32 /\
    (exists e1, rel t1 e1 /\ forall k, PrevNextPointID1 (e_point e1 k) = PrevNextPointID1 (e_point e k)) /\
    lastPoint t1 = lastPoint t /\
    phase_result (finish e3 id) l z (KT id code (create id t1)) (mkTm id ts f v).
Proof.
  intros R Hts Hf Hv He Hef Hev Hi. pose proof (r_ok _ _ R) as Ho.
  destruct (e_time_cases _ _ _ _ _ He) as [(-> & Et & -> & ->)|(code & ic & ec & -> & EC & HR & Ee & C)].
  - cbn [app] in Hi. destruct (phase_flags t e fch vcode id ts f v l z i2 i3 e2 e3 R Hf Hv Hef Hev Hi) as (code & t1 & RC & HR & RN & P & T & L & PH).
    exists code, t1. split; [exact RC|]. split; [unfold StateFlags2, TimeDelta1Forward in *; lia|]. split; [exact RN|]. split; [exact L|].
    unfold KT. replace (code <=? TimeXor7Bit) with false by (unfold StateFlags2, TimeXor7Bit in *; lia). cbn [dbind].
    rewrite create_t1, T, (r_t1 _ _ R), <- Et. exact PH.
  - assert (Hc : is_code code) by (unfold is_code; lia).
    destruct (e_code_keeps _ _ _ _ Ho Hc EC) as (Ho1 & KL & K1 & K2 & KG & KP & _).
    assert (exists l', i1 = ic ++ l' /\ (code < 17 -> l' = []) /\ (code = 17 -> l' = map Byte (enc7_64 (u64 (Z.lxor (e_t1 ec) ts))))) as (l' & El & L16 & L17).
    { destruct C as [(-> & ->)|(HL & -> & _)]; [exists (map Byte (enc7_64 (u64 (Z.lxor (e_t1 ec) ts))))|exists []]; rewrite ?app_nil_r; split; auto; split; auto; lia. }
    rewrite El, <- app_assoc in Hi.
    destruct (ReadCode_spec _ _ _ _ _ _ _ R Hc EC Hi) as (t1 & RC & R1 & I1 & P1 & T1).
    exists code, t1. split; [exact RC|]. split; [unfold TimeDelta1Forward; lia|].
    split; [exists ec; split; [exact R1|]; intros k; apply KP|]. split; [rewrite (r_last _ _ R1), (r_last _ _ R); exact KL|].
    pose proof (create_rel id _ _ R1) as R1'. pose proof (create_there id t1) as PR. pose proof (create_inp id _ _ _ I1) as I1'.
    set (t2 := create id t1) in *. clearbody t2.
    pose proof (saveTimestamp_rel t2 ec ts R1' Hts) as SR. rewrite <- Ee in SR.
    assert (exists t3, decodeTimestamp (u8 code) t2 = DOk ts t3 /\ rel t3 e1 /\ inp t3 (i2 ++ i3 ++ l) z /\ is_Some (points t3 !! id)) as (t3 & DF & R3 & I3 & PR3).
    { rewrite (code_u8 _ Hc). destruct C as [(-> & _)|(HL & _ & Et)].
      - rewrite (L17 eq_refl) in I1'. destruct (lift7_64 t2 (u64 (Z.lxor (e_t1 ec) ts)) _ z (u64_range _) I1') as [D I2].
        unfold decodeTimestamp. cbv zeta. change (17 =? TimeDelta1Forward) with false. change (17 =? TimeDelta2Forward) with false.
        change (17 =? TimeDelta3Forward) with false. change (17 =? TimeDelta4Forward) with false. change (17 =? TimeDelta1Reverse) with false.
        change (17 =? TimeDelta2Reverse) with false. change (17 =? TimeDelta3Reverse) with false. change (17 =? TimeDelta4Reverse) with false.
        change (17 =? Timestamp2) with false. cbv iota. rewrite D. cbn [dbind].
        rewrite (r_t1 _ _ R1'), i64_u64 by (apply lxor_i64; [apply (eo_t1 _ Ho1)|exact Hts]). rewrite lxor_cancel_l.
        eexists. split; [reflexivity|]. split.
        + pose proof (saveTimestamp_rel (set_position t2 (position t2 + len (enc7_64 (u64 (Z.lxor (e_t1 ec) ts))))) ec ts (rel_buf _ _ _ _ _ R1') Hts) as SR'.
          rewrite <- Ee in SR'. exact SR'.
        + split; [apply saveTimestamp_inp; exact I2|]. rewrite saveTimestamp_points. exact PR.
      - rewrite (L16 HL) in I1'. cbn [app] in I1'.
        assert (DT : decodeTimestamp code t2 = DOk ts (saveTimestamp t2 ts)).
        { rewrite <- K1, <- K2, <- KG in Et.
          assert (code = 8 \/ code = 9 \/ code = 10 \/ code = 11 \/ code = 12 \/ code = 13 \/ code = 14 \/ code = 15 \/ code = 16) as C by lia.
          pose proof (r_t1 _ _ R1') as Q1. pose proof (r_t2 _ _ R1') as Q2. pose proof (r_d1 _ _ R1') as Q3. pose proof (r_d2 _ _ R1') as Q4.
          pose proof (r_d3 _ _ R1') as Q5. pose proof (r_d4 _ _ R1') as Q6.
          rewrite <- Q1, <- Q2, <- Q3, <- Q4, <- Q5, <- Q6 in Et. clear -C Et.
          repeat destruct C as [C|C]; subst code; cbv iota in Et; rewrite Et; reflexivity. }
        rewrite DT. eexists. split; [reflexivity|]. split; [exact SR|]. split; [apply saveTimestamp_inp; exact I1'|]. rewrite saveTimestamp_points. exact PR. }
    destruct (phase_flags t3 e1 fch vcode id ts f v l z i2 i3 e2 e3 R3 Hf Hv Hef Hev I3) as (fcode & t4 & RC4 & HR4 & _ & P4 & _ & _ & PH).
    unfold KT. replace (code <=? TimeXor7Bit) with true by (unfold TimeXor7Bit; lia).
    rewrite DF. cbn [dbind]. rewrite RC4. cbn [dbind]. replace (fcode <? StateFlags2) with false by lia. cbn [dbind].
    rewrite <- (create_present id t4) by (apply P4; exact PR3). exact PH.
Qed.

(** ** Measurement identifier *)
Lemma id_width_cases code w : id_width code = Some w ->
  exists nib k, (k <= 4)%nat /\ w = 8 * Z.of_nat k + (if nib : bool then 4 else 0) /\ 1 <= code <= 7 /\ w <= 32 /\
  forall t, decodePointID code t =
    do (m, t) <- xorPayload nib k t;
    let p := get_point t (lastPoint t) in
    DOk tt (set_point t (lastPoint t) (set_next p (Z.lxor (i32 m) (PrevNextPointID1 p)))).
Proof.
  intros H.
  assert (code = 1 \/ code = 2 \/ code = 3 \/ code = 4 \/ code = 5 \/ code = 6 \/ code = 7) as C.
  { unfold id_width in H. destruct code as [|c|c]; [discriminate| |discriminate].
    repeat (destruct c as [c|c|]; try discriminate; auto 20). }
  repeat destruct C as [C|C]; subst code; injection H as <-;
  [exists true, 0%nat|exists false, 1%nat|exists true, 1%nat|exists false, 2%nat|exists true, 2%nat|exists false, 3%nat|exists false, 4%nat];
  (split; [lia|]; split; [reflexivity|]; split; [lia|]; split; [lia|]; intros; reflexivity).
Qed.

Lemma e_id_cases e ch id i e' : e_id e ch id = Some (i, e') ->
  (ch = None /\ id = PrevNextPointID1 (e_point e (e_last e)) /\ i = [] /\ e' = e) \/
  exists code w ic e1, ch = Some code /\ id_width code = Some w /\ e_code e code = Some (ic, e1) /\
    u32 (Z.lxor id (PrevNextPointID1 (e_point e (e_last e)))) < 2 ^ w /\
    i = ic ++ payload w (u32 (Z.lxor id (PrevNextPointID1 (e_point e (e_last e))))) /\
    e' = e_set e1 (e_last e1) (set_next (e_point e1 (e_last e1)) id).
Proof.
  unfold e_id. intros H. destruct ch as [code|]; [right|left].
  - destruct (id_width code) as [w|] eqn:W; [|discriminate].
    destruct (Z.ltb_spec (u32 (Z.lxor id (PrevNextPointID1 (e_point e (e_last e))))) (2 ^ w)) as [L|L]; [|discriminate].
    destruct (e_code e code) as [[ic e1]|] eqn:EC; [|discriminate].
    exists code, w, ic, e1. split; [reflexivity|]. split; [exact W|]. split; [exact EC|]. split; [exact L|]. split; congruence.
  - destruct (Z.eqb_spec id (PrevNextPointID1 (e_point e (e_last e)))) as [E|E]; [|discriminate].
    split; [reflexivity|]. split; [exact E|]. split; congruence.
Qed.

Lemma e_meas_inv e ch m i e' : e_meas e ch m = Some (i, e') ->
  exists i1 e1 i2 e2 i3 e3 i4 e4,
    e_id e (ch_id ch) (tm_id m) = Some (i1, e1) /\ e_time e1 (ch_time ch) (tm_time m) = Some (i2, e2) /\
    e_flags e2 (ch_flags ch) (tm_id m) (tm_flags m) = Some (i3, e3) /\ e_value e3 (ch_value ch) (tm_id m) (tm_value m) = Some (i4, e4) /\
    i = i1 ++ i2 ++ i3 ++ i4 /\ e' = finish e4 (tm_id m).
Proof.
  unfold e_meas. intros H.
  destruct (e_id e (ch_id ch) (tm_id m)) as [[i1 e1]|]; [|discriminate].
  destruct (e_time e1 (ch_time ch) (tm_time m)) as [[i2 e2]|] eqn:E2; [|discriminate].
  destruct (e_flags e2 (ch_flags ch) (tm_id m) (tm_flags m)) as [[i3 e3]|] eqn:E3; [|discriminate].
  destruct (e_value e3 (ch_value ch) (tm_id m) (tm_value m)) as [[i4 e4]|] eqn:E4; [|discriminate].
  exists i1, e1, i2, e2, i3, e3, i4, e4. repeat (split; [first [reflexivity|assumption|congruence]|]). unfold finish. congruence.
Qed.

Lemma not_at_end t b l z : inp t (Bit b :: l) z -> (position t =? lastPosition t) && bitStreamIsEmpty t = false.
Proof.
  intros [(pre & Hd & Hp) Hl Hc _ _]. unfold bitStreamIsEmpty. destruct (bitStreamCount t =? 0) eqn:E; [|apply andb_false_r].
  rewrite andb_true_r. replace (Z.to_nat (bitStreamCount t)) with 0%nat in Hd by lia. cbn [ser] in Hd.
  rewrite Hl, Hp, Hd, len_app. unfold len at 3. cbn [length]. lia.
Qed.

Lemma ReadCode_not_end t code t1 : ReadCode t = DOk code t1 -> (position t <= lastPosition t) -> lastPosition t = len (data t) ->
  (position t =? lastPosition t) && bitStreamIsEmpty t = false.
Proof.
  intros H Hp Hl. destruct (Z.eqb_spec (position t) (lastPosition t)) as [E|E]; [|reflexivity]. cbn [andb]. unfold bitStreamIsEmpty.
  destruct (bitStreamCount t =? 0) eqn:C; [|reflexivity]. exfalso.
  assert (RB : readBit t = DPanic).
  { unfold readBit. rewrite C. unfold data_at. rewrite E, Hl. unfold idx, len. replace (Z.of_nat (length (data t)) <? 0) with false by lia.
    rewrite Nat2Z.id. replace (nth_error (data t) (length (data t))) with (@None Z); [reflexivity|]. symmetry. apply nth_error_None. lia. }
  unfold ReadCode, readCodeBits, readBits5 in H. rewrite RB in H. cbn [dbind] in H.
  set (md := mode (pm_coder (get_point t (lastPoint t)))) in *. clearbody md.
  repeat match type of H with context [md =? ?k] => destruct (md =? k); cbn [dbind] in H end; discriminate.
Qed.

Lemma inp_bounds t l z : inp t l z -> position t <= lastPosition t /\ lastPosition t = len (data t).
Proof. intros [(pre & Hd & Hp) Hl _ _ _]. split; [|exact Hl]. rewrite Hl, Hd, Hp, len_app. pose proof (len_nonneg (ser l (Z.to_nat (bitStreamCount t)))). lia. Qed.

Lemma decode_measurement t e ch m i e' l z :
  rel t e -> tmeas_ok m -> e_meas e ch m = Some (i, e') -> inp t (i ++ l) z ->
  exists t', TryGetMeasurement t = DOk (Some m) t' /\ rel t' e' /\ inp t' l z.
Proof.
  intros R (Hid & Hts & Hf & Hv) He Hi.
  destruct (e_meas_inv _ _ _ _ _ He) as (i1 & e1 & i2 & e2 & i3 & e3 & i4 & e4 & E1 & E2 & E3 & E4 & -> & ->).
  rewrite <- !app_assoc in Hi. pose proof (r_ok _ _ R) as Ho. destruct (inp_bounds _ _ _ Hi) as [B1 B2].
  rewrite Try_phases. destruct m as [id ts f v]; cbn [tm_id tm_time tm_flags tm_value] in *.
  destruct (e_id_cases _ _ _ _ _ E1) as [(_ & Eid & -> & ->)|(code & w & ic & ec & _ & W & EC & HL & Ei & Ee)].
  - cbn [app] in Hi.
    destruct (phase_time t e (ch_time ch) (ch_flags ch) (ch_value ch) id ts f v l z i2 i3 i4 e2 e3 e4 R Hts Hf Hv E2 E3 E4 Hi)
      as (code & t1 & RC & HR & (en & RN & NN) & L & PH).
    rewrite (ReadCode_not_end _ _ _ RC B1 B2), RC. cbn [dbind].
    replace (code =? EndOfStream) with false by (unfold TimeDelta1Forward, EndOfStream in *; lia).
    unfold KI. replace (code <=? PointIDXor32) with false by (unfold TimeDelta1Forward, PointIDXor32 in *; lia). cbn [dbind]. cbv zeta.
    rewrite (get_last t1 en RN), NN. rewrite <- (r_last _ _ RN), L, (r_last _ _ R), <- Eid. exact PH.
  - destruct (id_width_cases _ _ W) as (nib & k & Hk & Hw & Hcode & Hw32 & HD).
    assert (Hc : is_code code) by (unfold is_code; lia).
    destruct (e_code_keeps _ _ _ _ Ho Hc EC) as (Ho1 & KL & K1 & K2 & KG & KP & _).
    rewrite Ei, <- app_assoc in Hi.
    destruct (ReadCode_spec _ _ _ _ _ _ _ R Hc EC Hi) as (t1 & RC & R1 & I1 & P1 & T1).
    rewrite (ReadCode_not_end _ _ _ RC B1 B2), RC. cbn [dbind].
    replace (code =? EndOfStream) with false by (unfold EndOfStream in *; lia).
    unfold KI. replace (code <=? PointIDXor32) with true by (unfold PointIDXor32 in *; lia). rewrite (code_u8 _ Hc), HD.
    set (prev := PrevNextPointID1 (e_point e (e_last e))) in *.
    assert (Hprev : is_i32 prev) by (apply (eo_point _ Ho)).
    destruct (payload_spec t1 nib k w (u32 (Z.lxor id prev)) _ z Hk Hw ltac:(pose proof (u32_range (Z.lxor id prev)) as U; unfold is_u32 in U; lia) I1)
      as (p & c & q & XP & XI).
    rewrite XP. cbn [dbind]. cbv zeta.
    pose proof (rel_buf t1 ec p c q R1) as R1'.
    rewrite (get_last _ ec R1'). change (lastPoint (set_buf t1 p c q)) with (lastPoint t1).
    assert (PV : PrevNextPointID1 (e_point ec (e_last ec)) = prev) by (rewrite KL; apply KP).
    rewrite PV, i32_u32 by (apply lxor_i32; assumption). rewrite lxor_cancel. rewrite (r_last _ _ R1).
    set (t2 := set_point (set_buf t1 p c q) (e_last ec) (set_next (e_point ec (e_last ec)) id)).
    assert (R2 : rel t2 e1).
    { rewrite Ee. apply rel_set; [exact R1'|]. apply set_next_ok; [apply (eo_point _ Ho1)|exact Hid]. }
    assert (I2 : inp t2 (i2 ++ i3 ++ i4 ++ l) z) by (apply inp_point; exact XI).
    destruct (phase_time t2 e1 (ch_time ch) (ch_flags ch) (ch_value ch) id ts f v l z i2 i3 i4 e2 e3 e4 R2 Hts Hf Hv E2 E3 E4 I2)
      as (code2 & t3 & RC3 & HR & (en & RN & NN) & L & PH).
    rewrite RC3. cbn [dbind]. replace (code2 <? TimeDelta1Forward) with false by lia. cbn [dbind].
    rewrite (get_last t3 en RN), NN. rewrite <- (r_last _ _ RN), L, (r_last _ _ R2).
    assert (QQ : PrevNextPointID1 (e_point e1 (e_last e1)) = id).
    { rewrite Ee. cbn [e_set e_last e_point]. replace (key_eqb (e_last ec) (e_last ec)) with true by (symmetry; apply key_eqb_spec; reflexivity). reflexivity. }
    rewrite QQ. exact PH.
Qed.

(** ** Packets *)
Lemma clear_rel t e : rel t e -> rel (clearBitStream t) e.
Proof. apply rel_buf. Qed.
Lemma setbuffer_rel t e b : rel t e -> rel (SetBuffer t b) e.
Proof. intros [H1 H2 H3 H4 H5 H6 H7 H8 H9 H10]. split; assumption. Qed.
Lemma setbuffer_inp t l : inp (SetBuffer t (ser l 0)) l ((- len (bits_of l)) mod 8).
Proof.
  split; cbn [SetBuffer clearBitStream set_buf data position lastPosition bitStreamCount bitStreamCache].
  - exists []. split; reflexivity.
  - reflexivity.
  - lia.
  - intros j Hj. lia.
  - reflexivity.
Qed.

Lemma decode_items l0 : forall t e i e' l z fuel,
  rel t e -> Forall (fun cm => tmeas_ok (snd cm)) l0 -> e_items e l0 = Some (i, e') -> inp t (i ++ l) z ->
  exists t1, rel t1 e' /\ inp t1 l z /\
    decode_all (length l0 + fuel) t = do (r, t') <- decode_all fuel t1; DOk (map snd l0 ++ r) t'.
Proof.
  induction l0 as [|[ch m] l0 IH]; intros t e i e' l z fuel R Hok He Hi.
  - cbn [e_items] in He. assert (i = []) by congruence. assert (e' = e) by congruence. subst.
    exists t. split; [exact R|]. split; [exact Hi|]. cbn [length map app Nat.add].
    destruct (decode_all fuel t); reflexivity.
  - cbn [e_items] in He. destruct (e_meas e ch m) as [[im em]|] eqn:EM; [|discriminate].
    destruct (e_items em l0) as [[is es]|] eqn:ES; [|discriminate].
    assert (i = im ++ is) by congruence. assert (e' = es) by congruence. subst.
    apply Forall_cons_1 in Hok as [Hm Hok]. cbn [snd] in Hm. rewrite <- app_assoc in Hi.
    destruct (decode_measurement t e ch m im em _ z R Hm EM Hi) as (t1 & D & R1 & I1).
    destruct (IH t1 em is es l z fuel R1 Hok ES I1) as (t2 & R2 & I2 & DA).
    exists t2. split; [exact R2|]. split; [exact I2|]. cbn [length Nat.add decode_all]. rewrite D. cbn [dbind]. rewrite DA.
    destruct (decode_all fuel t2); reflexivity.
Qed.

Lemma bits_of_app a b : bits_of (a ++ b) = bits_of a ++ bits_of b.
Proof. induction a as [|[x|x] a IH]; cbn [app bits_of]; rewrite ?IH; reflexivity. Qed.

Lemma decode_packet t e l0 b e' fuel :
  rel t e -> Forall (fun cm => tmeas_ok (snd cm)) l0 -> e_packet e l0 = Some (b, e') -> (length l0 < fuel)%nat ->
  exists t', decode_all fuel (SetBuffer t b) = DOk (map snd l0) t' /\ rel t' e'.
Proof.
  intros R Hok He Hf. unfold e_packet in He.
  destruct (e_items e l0) as [[i ei]|] eqn:EI; [|discriminate].
  replace fuel with (length l0 + S (fuel - length l0 - 1))%nat by lia. set (fu := (fuel - length l0 - 1)%nat).
  destruct (Nat.eqb_spec (length (bits_of i) mod 8) 0) as [E|E].
  - assert (b = ser i 0) by congruence. assert (e' = ei) by congruence. subst.
    pose proof (setbuffer_inp t i) as I0. pose proof (setbuffer_rel t e (ser i 0) R) as R0.
    destruct (decode_items l0 _ e i ei [] ((- len (bits_of i)) mod 8) (S fu) R0 Hok EI) as (t1 & R1 & I1 & D); [rewrite app_nil_r; exact I0|].
    rewrite D. cbn [decode_all]. rewrite Try_phases.
    destruct I1 as [(pre & Hd & Hp) Hl Hc _ Hz]. cbn [ser] in Hd. rewrite app_nil_r in Hd.
    assert (bitStreamCount t1 = 0) as C0.
    { cbn [bits_of] in Hz. change (len (@nil bool)) with 0 in Hz. unfold len in Hz.
      assert ((- Z.of_nat (length (bits_of i))) mod 8 = 0) as Z0.
      { apply Z.mod_opp_l_z; [lia|]. change 8 with (Z.of_nat 8). rewrite <- Nat2Z.inj_mod, E. reflexivity. }
      lia. }
    replace ((position t1 =? lastPosition t1) && bitStreamIsEmpty t1) with true.
    2: { symmetry. unfold bitStreamIsEmpty. rewrite C0, Hl, Hp, Hd. rewrite Z.eqb_refl. reflexivity. }
    cbn [dbind]. rewrite app_nil_r. eexists. split; [reflexivity|]. apply clear_rel. exact R1.
  - destruct (e_code ei EndOfStream) as [[iz ez]|] eqn:EZ; [|discriminate].
    assert (b = ser (i ++ iz) 0) by congruence. assert (e' = ez) by congruence. subst.
    pose proof (setbuffer_inp t (i ++ iz)) as I0. pose proof (setbuffer_rel t e (ser (i ++ iz) 0) R) as R0.
    destruct (decode_items l0 _ e i ei iz _ (S fu) R0 Hok EI I0) as (t1 & R1 & I1 & D).
    rewrite D. cbn [decode_all]. rewrite Try_phases. destruct (inp_bounds _ _ _ I1) as [B1 B2].
    rewrite <- (app_nil_r iz) in I1.
    destruct (ReadCode_spec t1 ei EndOfStream iz ez [] _ R1 ltac:(unfold is_code, EndOfStream; lia) EZ I1) as (t2 & RC & R2 & _).
    rewrite (ReadCode_not_end _ _ _ RC B1 B2), RC. cbn [dbind].
    change (EndOfStream =? EndOfStream) with true. cbv iota. cbn [dbind]. rewrite app_nil_r.
    eexists. split; [reflexivity|]. apply clear_rel. exact R2.
Qed.

Lemma decode_packets l0 : forall t e bs fuel,
  rel t e -> Forall (Forall (fun cm => tmeas_ok (snd cm))) l0 -> e_packets e l0 = Some bs ->
  Forall (fun p => (length p < fuel)%nat) l0 ->
  exists t', d_packets fuel t bs = DOk (map (map snd) l0) t'.
Proof.
  induction l0 as [|p l0 IH]; intros t e bs fuel R Hok He Hf.
  - cbn in He. assert (bs = []) by congruence. subst. cbn. eauto.
  - cbn [e_packets] in He. destruct (e_packet e p) as [[b e1]|] eqn:EP; [|discriminate].
    destruct (e_packets e1 l0) as [bs'|] eqn:EPS; [|discriminate]. assert (bs = b :: bs') by congruence. subst.
    apply Forall_cons_1 in Hok as [Hp Hok]. apply Forall_cons_1 in Hf as [Hf1 Hf].
    destruct (decode_packet t e p b e1 fuel R Hp EP Hf1) as (t1 & D & R1).
    destruct (IH t1 e1 bs' fuel R1 Hok EPS Hf) as (t2 & D2).
    exists t2. cbn [d_packets]. rewrite D. cbn [dbind]. rewrite D2. reflexivity.
Qed.

(** Every measurement can be encoded. *)
Definition wide (m : tmeas) : choice * tmeas := (mkChoice (Some 7) (Some 17) (Some 19) 31, m).
Lemma note_time_ok e ts : enc_ok e -> is_i64 ts -> enc_ok (mkEnc (e_point e) (e_last e) ts (e_t1 e) (gap (e_t1 e) ts :: e_gaps e)).
Proof. intros [O1 O2 O3 O4] H. split; cbn; auto. constructor; [apply i64_range|exact O4]. Qed.

Lemma wide_meas e m : enc_ok e -> tmeas_ok m -> exists i e', e_meas e (fst (wide m)) m = Some (i, e') /\ enc_ok e'.
Proof.
  intros Ho (Hid & Hts & Hf & Hv). unfold e_meas, wide. cbn [fst ch_id ch_time ch_flags ch_value].
  assert (C7 : is_code 7) by (unfold is_code; lia). assert (C17 : is_code 17) by (unfold is_code; lia).
  assert (C19 : is_code 19) by (unfold is_code; lia). assert (C31 : is_code 31) by (unfold is_code; lia).
  unfold e_id at 1. cbn [id_width]. pose proof (u32_range (Z.lxor (tm_id m) (PrevNextPointID1 (e_point e (e_last e))))) as U. unfold is_u32 in U.
  change (2 ^ 32) with 4294967296 in *.
  replace (_ <? 4294967296) with true by lia.
  destruct (e_code_spec e 7 Ho C7) as (c1 & s1 & _ & _ & EC1).
  destruct (e_code e 7) as [[i1 e1]|] eqn:E1; [|discriminate].
  destruct (e_code_keeps _ _ _ _ Ho C7 E1) as (Ho1 & _). clear EC1.
  set (ei := e_set e1 (e_last e1) (set_next (e_point e1 (e_last e1)) (tm_id m))).
  assert (Hoi : enc_ok ei) by (apply enc_ok_set; [exact Ho1|]; apply set_next_ok; [apply (eo_point _ Ho1)|exact Hid]).
  unfold e_time at 1.
  destruct (e_code_spec ei 17 Hoi C17) as (c2 & s2 & _ & _ & EC2).
  destruct (e_code ei 17) as [[i2 e2]|] eqn:E2; [|discriminate]. clear EC2.
  destruct (e_code_keeps _ _ _ _ Hoi C17 E2) as (Ho2 & _).
  pose proof (note_time_ok e2 (tm_time m) Ho2 Hts) as Hot.
  set (et := mkEnc (e_point e2) (e_last e2) (tm_time m) (e_t1 e2) (gap (e_t1 e2) (tm_time m) :: e_gaps e2)) in *.
  unfold e_flags at 1.
  destruct (e_code_spec et 19 Hot C19) as (c3 & s3 & _ & _ & EC3).
  destruct (e_code et 19) as [[i3 e3]|] eqn:E3; [|discriminate]. clear EC3.
  destruct (e_code_keeps _ _ _ _ Hot C19 E3) as (Ho3 & _).
  set (ef := e_set e3 (Some (tm_id m)) (set_flags (e_point e3 (Some (tm_id m))) (tm_flags m) (PrevStateFlags1 (e_point e3 (Some (tm_id m)))))).
  assert (Hof : enc_ok ef).
  { apply enc_ok_set; [exact Ho3|]. apply set_flags_ok; [apply (eo_point _ Ho3)|exact Hf|apply (eo_point _ Ho3)]. }
  unfold e_value at 1. cbn [value_width].
  assert (U1 : is_u32 (PrevValue1 (e_point ef (Some (tm_id m))))) by apply (eo_point _ Hof).
  assert (U2 : is_u32 (PrevValue2 (e_point ef (Some (tm_id m))))) by apply (eo_point _ Hof).
  pose proof (lxor_u32 _ _ Hv U1) as UX. unfold is_u32 in UX. change (2 ^ 32) with 4294967296 in *.
  replace (_ <? 4294967296) with true by lia.
  destruct (e_code_spec ef 31 Hof C31) as (c4 & s4 & _ & _ & EC4).
  destruct (e_code ef 31) as [[i4 e4]|] eqn:E4; [|discriminate]. clear EC4.
  destruct (e_code_keeps _ _ _ _ Hof C31 E4) as (Ho4 & _).
  eexists _, _. split; [reflexivity|].
  assert (OF : enc_ok (e_set e4 (Some (tm_id m)) (set_values (e_point e4 (Some (tm_id m))) (tm_value m)
     (PrevValue1 (e_point ef (Some (tm_id m)))) (PrevValue2 (e_point ef (Some (tm_id m))))))).
  { apply enc_ok_set; [exact Ho4|]. apply set_values_ok; auto. apply (eo_point _ Ho4). }
  destruct OF as [O1 O2 O3 O4]. split; assumption.
Qed.
Lemma wide_items ms : forall e, enc_ok e -> Forall tmeas_ok ms -> exists i e', e_items e (map wide ms) = Some (i, e') /\ enc_ok e'.
Proof.
  induction ms as [|m ms IH]; intros e Ho Hm; [cbn; eauto|]. apply Forall_cons_1 in Hm as [Hm1 Hm].
  destruct (wide_meas e m Ho Hm1) as (i & e1 & E1 & O1). destruct (IH e1 O1 Hm) as (i2 & e2 & E2 & O2).
  cbn [map e_items]. unfold wide at 1. unfold wide in E1 at 1. cbn [fst] in E1. rewrite E1, E2. eauto.
Qed.
Lemma wide_packets mss : forall e, enc_ok e -> Forall (Forall tmeas_ok) mss -> exists bs, e_packets e (map (map wide) mss) = Some bs.
Proof.
  induction mss as [|ms mss IH]; intros e Ho Hm; [cbn; eauto|]. apply Forall_cons_1 in Hm as [Hm1 Hm].
  destruct (wide_items ms e Ho Hm1) as (i & e1 & E1 & O1).
  cbn [map e_packets]. unfold e_packet. rewrite E1.
  destruct (_ =? 0)%nat.
  - destruct (IH e1 O1 Hm) as (bs & ->). eauto.
  - assert (C0 : is_code EndOfStream) by (unfold is_code, EndOfStream; lia).
    destruct (e_code_spec e1 EndOfStream O1 C0) as (c2 & s2 & _ & _ & EC2).
    destruct (e_code e1 EndOfStream) as [[i2 e2]|] eqn:E2; [|discriminate].
    destruct (e_code_keeps _ _ _ _ O1 C0 E2) as (O2 & _).
    destruct (IH e2 O2 Hm) as (bs & ->). eauto.
Qed.
