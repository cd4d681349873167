(** The TSSC decoder on arbitrary bytes (C25, C26). *)
From stdpp Require Import gmap.
From Coq Require Import Lia ZArith ZifyBool ZifyNat.
From Verif Require Import Base BaseProofs FormatModel FormatProofs CompactProofs TsscModel TsscSpec TsscCode TsscCode2 TsscRead TsscProofs TsscProofs2.
Open Scope Z_scope.
Ltac Zify.zify_post_hook ::= Z.div_mod_to_equations.

(** A decoder state whatever bytes it has been given. *)
Record wf (t : td) : Prop := {
  w_coder : forall k, exists seg, coder_ok (pm_coder (get_point t k)) seg;
  w_count : 0 <= bitStreamCount t <= 7;
  w_pos : 0 <= position t <= len (data t);
  w_last : lastPosition t = len (data t) }.
(** [trip n s t x]: started in a well-formed state, [x] consumes at most [n] bytes and
    at least [s] bits, keeps the state well-formed, and panics only when fewer than [n]
    bytes are left. *)
Definition trip {A} (n s : Z) (t : td) (x : dres A) : Prop :=
  wf t ->
  match x with
  | DOk _ t' => wf t' /\ data t' = data t /\ bits_left t' + s <= bits_left t /\ position t <= position t' <= position t + n
  | DErr t' => wf t' /\ data t' = data t /\ bits_left t' <= bits_left t /\ position t <= position t' <= position t + n
  | DPanic => position t + n > len (data t)
  end.

Lemma trip_bind {A B} n s m r t (x : dres A) (k : A -> td -> dres B) :
  trip n s t x -> 0 <= m -> 0 <= s -> 0 <= r -> (forall a t', x = DOk a t' -> wf t' -> trip m r t' (k a t')) -> trip (n + m) (s + r) t (dbind x k).
Proof.
  intros H Hm Hs0 Hr0 K W. specialize (H W). destruct x as [a t'|t'|]; cbn [dbind].
  - destruct H as (W' & D & Hs & Hp). specialize (K a t' eq_refl W' W').
    destruct (k a t') as [b t''|t''|].
    + destruct K as (W'' & D' & Hs' & Hp'). split; [exact W''|]. split; [congruence|]. split; lia.
    + destruct K as (W'' & D' & Hs' & Hp'). split; [exact W''|]. split; [congruence|]. split; lia.
    + rewrite D in K. lia.
  - destruct H as (W' & D & Hs & Hp). split; [exact W'|]. split; [exact D|]. split; lia.
  - lia.
Qed.
Lemma trip_weaken {A} n s m r t (x : dres A) : trip n s t x -> n <= m -> r <= s -> trip m r t x.
Proof.
  intros H Hn Hs W. specialize (H W). destruct x as [a t'|t'|]; [destruct H as (? & ? & ? & ?)..|]; [split; [assumption|]; split; [assumption|]; lia..|lia].
Qed.
Lemma trip_ok {A} (a : A) t : trip 0 0 t (DOk a t).
Proof. intros W. split; [exact W|]. split; [reflexivity|]. lia. Qed.
Lemma trip_err {A} t : trip 0 0 t (@DErr A t).
Proof. intros W. split; [exact W|]. split; [reflexivity|]. lia. Qed.
(** Changes of state that do not touch the buffer. *)
Lemma trip_state {A} (a : A) t t' : (wf t -> wf t') -> data t' = data t -> position t' = position t -> bitStreamCount t' = bitStreamCount t ->
  trip 0 0 t (DOk a t').
Proof. intros H1 H2 H3 H4 W. split; [auto|]. split; [exact H2|]. unfold bits_left. rewrite H2, H3, H4. lia. Qed.

Lemma wf_buf t p c k : wf t -> 0 <= c <= 7 -> 0 <= p <= len (data t) -> wf (set_buf t p c k).
Proof. intros [H1 H2 H3 H4] Hc Hp. split; assumption. Qed.
Lemma wf_point t k p seg : wf t -> coder_ok (pm_coder p) seg -> wf (set_point t k p).
Proof.
  intros [H1 H2 H3 H4] Hp. destruct k as [i|]; split; auto.
  - intros [j|]; [|apply (H1 None)]. cbn [get_point set_point set_points points point0].
    destruct (Z.eq_dec i j) as [->|N]; [rewrite lookup_insert; eauto|]. rewrite lookup_insert_ne by congruence. apply (H1 (Some j)).
  - intros [j|]; [apply (H1 (Some j))|]. cbn [get_point set_point set_points points point0]. eauto.
Qed.
Lemma wf_point_same t k p : wf t -> pm_coder p = pm_coder (get_point t k) -> wf (set_point t k p).
Proof. intros W E. destruct (w_coder _ W k) as [seg H]. apply wf_point with seg; [exact W|]. rewrite E. exact H. Qed.

Lemma idx_cases {A} (l : list A) i : (exists x, idx l i = Ok x /\ 0 <= i < len l) \/ (idx l i = Panic /\ (i < 0 \/ len l <= i)).
Proof.
  unfold idx, len. destruct (i <? 0) eqn:E; [right; split; [reflexivity|lia]|].
  destruct (nth_error l (Z.to_nat i)) eqn:N.
  - left. eexists. split; [reflexivity|]. assert (Z.to_nat i < length l)%nat by (apply nth_error_Some; congruence). lia.
  - right. split; [reflexivity|]. apply nth_error_None in N. lia.
Qed.

Lemma trip_data_at {A} n s t i (k : Z -> dres A) : 0 <= i ->
  (i < len (data t) -> forall b, trip n s t (k b)) -> i < position t + n -> trip n s t (data_at t i k).
Proof.
  intros Hi H Hn W. unfold data_at. destruct (idx_cases (data t) i) as [(x & E & B)|(E & B)]; rewrite E.
  - apply H; [lia|exact W].
  - lia.
Qed.

Lemma readBit_trip t : trip 1 1 t (readBit t).
Proof.
  intros W. pose proof W as [_ Hc Hp Hl]. unfold readBit. destruct (bitStreamCount t =? 0) eqn:E.
  - unfold data_at. destruct (idx_cases (data t) (position t)) as [(x & E1 & B)|(E1 & B)]; rewrite E1; [|lia].
    cbv zeta. cbn [set_buf bitStreamCount bitStreamCache position]. change (i32 (8 - 1)) with 7.
    split; [change (wf (set_buf t (position t + 1) 7 x)); apply wf_buf; [exact W|lia|lia]|]. split; [reflexivity|].
    unfold bits_left. cbn [set_buf bitStreamCount bitStreamCache position data]. lia.
  - cbv zeta. rewrite i32_id by lia.
    split; [apply wf_buf; [exact W|lia|lia]|]. split; [reflexivity|].
    unfold bits_left. cbn [set_buf bitStreamCount bitStreamCache position data]. lia.
Qed.
Lemma readBit_01 t b t' : readBit t = DOk b t' -> b = 0 \/ b = 1.
Proof.
  unfold readBit. cbv zeta. intros H.
  assert (L : forall x, Z.land x 1 = 0 \/ Z.land x 1 = 1).
  { intros x. pose proof (Z.land_ones x 1 ltac:(lia)) as Q. change (Z.ones 1) with 1 in Q. change (2 ^ 1) with 2 in Q. lia. }
  destruct (bitStreamCount t =? 0); [unfold data_at in H; destruct (idx (data t) (position t)); try discriminate|];
  match type of H with DOk ?x _ = DOk _ _ => assert (b = x) as -> by congruence end; apply L.
Qed.

Ltac tbind lem := eapply trip_bind; [apply lem|lia|lia|lia|].

Lemma readBits4_trip t : trip 4 4 t (readBits4 t).
Proof.
  unfold readBits4. change 4 with (1 + (1 + (1 + (1 + 0)))).
  repeat (tbind readBit_trip; intros ? ? _ _). apply trip_ok.
Qed.
Lemma readBits5_trip t : trip 5 5 t (readBits5 t).
Proof.
  unfold readBits5. change 5 with (1 + (1 + (1 + (1 + (1 + 0))))).
  repeat (tbind readBit_trip; intros ? ? _ _). apply trip_ok.
Qed.
Lemma readBits5_code t c t' : readBits5 t = DOk c t' -> is_code c.
Proof.
  unfold readBits5. intros H.
  destruct (readBit t) as [a ta| |] eqn:E1; cbn [dbind] in H; try discriminate.
  destruct (readBit ta) as [b tb| |] eqn:E2; cbn [dbind] in H; try discriminate.
  destruct (readBit tb) as [d tc| |] eqn:E3; cbn [dbind] in H; try discriminate.
  destruct (readBit tc) as [e tde| |] eqn:E4; cbn [dbind] in H; try discriminate.
  destruct (readBit tde) as [g te| |] eqn:E5; cbn [dbind] in H; try discriminate.
  assert (c = Z.lor (Z.lor (Z.lor (Z.lor (Z.shiftl a 4) (Z.shiftl b 3)) (Z.shiftl d 2)) (Z.shiftl e 1)) g) as -> by congruence.
  apply readBit_01 in E1, E2, E3, E4, E5. unfold is_code.
  destruct E1 as [->| ->], E2 as [->| ->], E3 as [->| ->], E4 as [->| ->], E5 as [->| ->]; vm_compute; split; congruence.
Qed.

Lemma readCodeBits_trip c t : codes_ok c -> trip 8 1 t (readCodeBits c t) /\
  (forall code t', readCodeBits c t = DOk code t' -> is_code code) /\ (forall t', readCodeBits c t <> DErr t').
Proof.
  intros (Hm & M1 & M2 & M3 & M4 & M5 & M6). 
  assert (NE : forall t t', readBit t <> DErr t').
  { intros u u'. unfold readBit. cbv zeta. destruct (bitStreamCount u =? 0); [unfold data_at; destruct (idx (data u) (position u))|]; discriminate. }
  assert (NE5 : forall t t', readBits5 t <> DErr t').
  { intros u u' H. unfold readBits5 in H.
    repeat match type of H with context [readBit ?w] => let E := fresh in destruct (readBit w) eqn:E; cbn [dbind] in H; [|apply NE in E; exact E|discriminate] end; discriminate. }
  assert (T : trip 8 1 t (readCodeBits c t)).
  { unfold readCodeBits. destruct Hm as [H|[H|[H|H]]]; rewrite H; cbn [Z.eqb Pos.eqb].
    - eapply trip_weaken; [apply readBits5_trip|lia|lia].
    - eapply trip_weaken with (n := 1 + 5) (s := 1 + 0); [|lia|lia]. tbind readBit_trip; intros b t1 _ _.
      destruct (b =? 1); [eapply trip_weaken; [apply trip_ok|lia|lia]|eapply trip_weaken; [apply readBits5_trip|lia|lia]].
    - eapply trip_weaken with (n := 1 + (1 + 5)) (s := 1 + 0); [|lia|lia]. tbind readBit_trip; intros b t1 _ _.
      destruct (b =? 1); [eapply trip_weaken; [apply trip_ok|lia|lia]|].
      eapply trip_weaken with (n := 1 + 5) (s := 1 + 0); [|lia|lia]. tbind readBit_trip; intros b2 t2 _ _.
      destruct (b2 =? 1); [eapply trip_weaken; [apply trip_ok|lia|lia]|eapply trip_weaken; [apply readBits5_trip|lia|lia]].
    - eapply trip_weaken with (n := 1 + (1 + (1 + 5))) (s := 1 + 0); [|lia|lia]. tbind readBit_trip; intros b t1 _ _.
      destruct (b =? 1); [eapply trip_weaken; [apply trip_ok|lia|lia]|].
      eapply trip_weaken with (n := 1 + (1 + 5)) (s := 1 + 0); [|lia|lia]. tbind readBit_trip; intros b2 t2 _ _.
      destruct (b2 =? 1); [eapply trip_weaken; [apply trip_ok|lia|lia]|].
      eapply trip_weaken with (n := 1 + 5) (s := 1 + 0); [|lia|lia]. tbind readBit_trip; intros b3 t3 _ _.
      destruct (b3 =? 1); [eapply trip_weaken; [apply trip_ok|lia|lia]|eapply trip_weaken; [apply readBits5_trip|lia|lia]]. }
  split; [exact T|]. split.
  - intros code t' H. unfold readCodeBits in H.
    destruct Hm as [Q|[Q|[Q|Q]]]; rewrite Q in H; cbn [Z.eqb Pos.eqb] in H;
    repeat match type of H with
    | readBits5 _ = _ => apply readBits5_code in H; exact H
    | dbind (readBit ?w) _ = _ => let E := fresh in destruct (readBit w) eqn:E; cbn [dbind] in H; try discriminate
    | DOk ?x _ = DOk _ _ => assert (code = x) as -> by congruence; assumption
    | (if ?b then _ else _) = _ => destruct b
    end.
  - intros t' H. unfold readCodeBits in H.
    destruct Hm as [Q|[Q|[Q|Q]]]; rewrite Q in H; cbn [Z.eqb Pos.eqb] in H;
    repeat match type of H with
    | readBits5 _ = _ => apply NE5 in H; exact H
    | dbind (readBit ?w) _ = _ => let E := fresh in destruct (readBit w) eqn:E; cbn [dbind] in H; [|apply NE in E; exact E|discriminate]
    | (if ?b then _ else _) = _ => destruct b; try discriminate
    end.
Qed.

(** Reading a code never fails other than by running out of bytes. *)
Lemma ReadCode_trip t : wf t ->
  trip 8 1 t (ReadCode t) /\ (forall code t', ReadCode t = DOk code t' -> is_code code) /\ (forall t', ReadCode t <> DErr t').
Proof.
  intros W. destruct (w_coder _ W (lastPoint t)) as [seg Hk].
  destruct (readCodeBits_trip _ t (k_codes _ _ Hk)) as (T & C & NE).
  assert (SAME : forall code t', readCodeBits (pm_coder (get_point t (lastPoint t))) t = DOk code t' ->
     exists p c k, t' = set_buf t p c k).
  { clear. intros code t' H.
    assert (RB : forall u b u', readBit u = DOk b u' -> exists p c k, u' = set_buf u p c k).
    { intros u b u' E. unfold readBit in E. cbv zeta in E. destruct (bitStreamCount u =? 0); [unfold data_at in E; destruct (idx (data u) (position u)); try discriminate|];
        eexists _, _, _; match type of E with DOk _ ?x = _ => transitivity x; [congruence|] end; reflexivity. }
    assert (R5 : forall u b u', readBits5 u = DOk b u' -> exists p c k, u' = set_buf u p c k).
    { intros u b u' E. unfold readBits5 in E.
      destruct (readBit u) as [x1 u1| |] eqn:E1; cbn [dbind] in E; try discriminate. destruct (RB _ _ _ E1) as (p1 & c1 & k1 & ->).
      destruct (readBit (set_buf u p1 c1 k1)) as [x2 u2| |] eqn:E2; cbn [dbind] in E; try discriminate. destruct (RB _ _ _ E2) as (p2 & c2 & k2 & ->).
      destruct (readBit (set_buf (set_buf u p1 c1 k1) p2 c2 k2)) as [x3 u3| |] eqn:E3; cbn [dbind] in E; try discriminate. destruct (RB _ _ _ E3) as (p3 & c3 & k3 & ->).
      match type of E with context [readBit ?w] => destruct (readBit w) as [x4 u4| |] eqn:E4; cbn [dbind] in E; try discriminate end. destruct (RB _ _ _ E4) as (p4 & c4 & k4 & ->).
      match type of E with context [readBit ?w] => destruct (readBit w) as [x5 u5| |] eqn:E5; cbn [dbind] in E; try discriminate end. destruct (RB _ _ _ E5) as (p5 & c5 & k5 & ->).
      exists p5, c5, k5. match type of E with DOk _ ?x = _ => transitivity x; [congruence|] end. reflexivity. }
    unfold readCodeBits in H.
    repeat match type of H with
    | readBits5 _ = DOk _ _ => apply R5 in H; destruct H as (? & ? & ? & ->); eexists _, _, _; reflexivity
    | DOk _ ?x = DOk _ _ => eexists _, _, _; transitivity x; [congruence|reflexivity]
    | DErr _ = _ => discriminate
    | dbind (readBit ?w) _ = _ => let E := fresh in destruct (readBit w) eqn:E; cbn [dbind] in H; [apply RB in E; destruct E as (? & ? & ? & ->)|discriminate|discriminate]
    | (if ?b then _ else _) = _ => destruct b
    end. }
  unfold ReadCode.
  destruct (readCodeBits (pm_coder (get_point t (lastPoint t))) t) as [code t1|t1|] eqn:E; cbn [dbind].
  - destruct (SAME _ _ eq_refl) as (p & c & k & ->).
    change (get_point (set_buf t p c k) (lastPoint (set_buf t p c k))) with (get_point t (lastPoint t)).
    destruct (updated_ok _ _ _ Hk (C _ _ eq_refl)) as (c' & U & V).
    assert (exists seg', coder_ok c' seg') as [seg' K'].
    { destruct (length seg + 1 =? _)%nat in V; destruct V as [V _]; eauto. }
    rewrite U. split; [|split].
    + intros _. specialize (T W). destruct T as (W1 & D & B & P).
      split; [apply wf_point with seg'; [exact W1|exact K']|].
      assert (X : forall q, data (set_point (set_buf t p c k) (lastPoint (set_buf t p c k)) q) = data t /\
         position (set_point (set_buf t p c k) (lastPoint (set_buf t p c k)) q) = p /\
         bitStreamCount (set_point (set_buf t p c k) (lastPoint (set_buf t p c k)) q) = c).
      { intros q. cbn [set_buf lastPoint]. destruct (lastPoint t); cbn; auto. }
      destruct (X (set_coder (get_point t (lastPoint t)) c')) as (X1 & X2 & X3).
      unfold bits_left in *. rewrite X1, X2, X3. cbn [set_buf data position bitStreamCount] in *. split; [reflexivity|]. lia.
    + intros code' t' H. assert (code' = code) as -> by congruence. apply (C _ _ eq_refl).
    + discriminate.
  - exfalso. apply (NE t1). reflexivity.
  - split; [|split; discriminate]. exact T.
Qed.

(** ** Payloads *)
Lemma set_position_trip {A} (a : A) t n : 0 <= n -> position t + n <= len (data t) -> trip n 0 t (DOk a (set_position t (position t + n))).
Proof.
  intros Hn Hp W. pose proof W as [H1 H2 H3 H4]. split; [apply wf_buf; [exact W|assumption|lia]|]. split; [reflexivity|].
  unfold bits_left. cbn [set_position set_buf data position bitStreamCount]. lia.
Qed.
Lemma xorPayload_trip nib k t : trip 8 0 t (xorPayload nib k t).
Proof.
  change (xorPayload nib k t) with (do (b, t) <- (if nib then readBits4 t else DOk 0 t); bytesPayload b (if nib then 4 else 0) k t).
  change 8 with (4 + 4). change 0 with (0 + 0) at 1. eapply trip_bind; [| lia | lia | lia |].
  - destruct nib; eapply trip_weaken; try apply readBits4_trip; try apply trip_ok; lia.
  - intros b t1 _ W. pose proof (w_pos _ W) as P. generalize (if nib then 4 else 0). intros s.
    destruct k as [|[|[|[|k]]]]; cbn [bytesPayload].
    + eapply trip_weaken; [apply trip_ok|lia|lia].
    + apply trip_data_at; [lia| |lia]. intros L x0. eapply trip_weaken; [apply set_position_trip|lia|lia]; lia.
    + apply trip_data_at; [lia| |lia]. intros L0 x0. apply trip_data_at; [lia| |lia]. intros L x1.
      eapply trip_weaken; [apply set_position_trip|lia|lia]; lia.
    + apply trip_data_at; [lia| |lia]. intros L0 x0. apply trip_data_at; [lia| |lia]. intros L1 x1.
      apply trip_data_at; [lia| |lia]. intros L x2.
      eapply trip_weaken; [apply set_position_trip|lia|lia]; lia.
    + apply trip_data_at; [lia| |lia]. intros L0 x0. apply trip_data_at; [lia| |lia]. intros L1 x1.
      apply trip_data_at; [lia| |lia]. intros L2 x2. apply trip_data_at; [lia| |lia]. intros L x3.
      eapply trip_weaken; [apply set_position_trip|lia|lia]; lia.
Qed.

Lemma dloop_bound wrap n : forall k v M s,
  0 <= k -> match dloop wrap n k v M s with
  | Ok (_, k') => k <= k' <= k + Z.of_nat n /\ (k' <= len s \/ k' = k)
  | Err => False
  | Panic => k + Z.of_nat n > len s
  end.
Proof.
  induction n as [|n IH]; intros k v M s Hk; cbn [dloop]; [lia|].
  destruct (v <? 2 ^ (7 * k)); [lia|].
  destruct (idx_cases s k) as [(x & E & B)|(E & B)]; rewrite E; cbn [bind]; [|lia].
  specialize (IH (k + 1) (Z.lxor v (wrap (Z.shiftl x (7 * k)))) (Z.lxor M (2 ^ (7 * k))) s ltac:(lia)).
  destruct (dloop _ _ _ _ _ _) as [[? ?]| |]; lia.
Qed.
Lemma slice_from_ok (l : bytes) p : 0 <= p <= len l -> exists s, slice_from l p = Ok s /\ len s = len l - p.
Proof.
  intros H. pose proof (slice_from_in l (Z.to_nat p)) as E. unfold len in *. rewrite Z2Nat.id in E by lia.
  eexists. split; [apply E; lia|]. rewrite skipn_length. lia.
Qed.

Lemma lift7_trip t n (d : bytes -> Z -> res (Z * Z)) (wrap : Z -> Z) :
  (forall stream pos, d stream pos = let* s := slice_from stream pos in let* b0 := idx s 0 in
     let* (v, k) := dloop wrap n 1 b0 0 s in Ok (v, pos + k)) ->
  trip (1 + Z.of_nat n) 0 t (lift7 t (d (data t) (position t))).
Proof.
  intros E W. pose proof W as [_ Hc Hp Hl]. rewrite E.
  destruct (slice_from_ok (data t) (position t) Hp) as (s & E1 & L). rewrite E1. cbn [bind].
  destruct (idx_cases s 0) as [(x & E2 & B)|(E2 & B)]; rewrite E2; cbn [bind lift7]; [|lia].
  pose proof (dloop_bound wrap n 1 x 0 s ltac:(lia)) as D.
  destruct (dloop wrap n 1 x 0 s) as [[v k]| |]; cbn [bind lift7]; [|contradiction|lia].
  split; [apply wf_buf; [exact W|lia|lia]|]. split; [reflexivity|].
  unfold bits_left. cbn [set_position set_buf data position bitStreamCount]. lia.
Qed.

Lemma set_point_buf t k p : data (set_point t k p) = data t /\ position (set_point t k p) = position t /\ bitStreamCount (set_point t k p) = bitStreamCount t.
Proof. destruct k; cbn; auto. Qed.
Lemma trip_set_point {A} (a : A) t k p : pm_coder p = pm_coder (get_point t k) -> trip 0 0 t (DOk a (set_point t k p)).
Proof.
  intros E. destruct (set_point_buf t k p) as (H1 & H2 & H3). apply trip_state; auto. intros W. apply wf_point_same; assumption.
Qed.

Lemma decodePointID_trip code t : trip 8 0 t (decodePointID code t).
Proof.
  unfold decodePointID.
  assert (T : forall nib k, trip 8 0 t (do (m, t) <- xorPayload nib k t;
    DOk tt (set_point t (lastPoint t) (set_next (get_point t (lastPoint t)) (Z.lxor (i32 m) (PrevNextPointID1 (get_point t (lastPoint t)))))))).
  { intros nib k. change 8 with (8 + 0). change 0 with (0 + 0) at 2. eapply trip_bind; [apply xorPayload_trip|lia|lia|lia|].
    intros m t1 _ _. apply trip_set_point. reflexivity. }
  repeat match goal with |- context [if ?b then _ else _] => destruct b; [apply T|] end.
  eapply trip_weaken; [apply trip_err|lia|lia].
Qed.

Lemma saveTimestamp_wf t ts : wf t -> wf (saveTimestamp t ts).
Proof. intros [H1 H2 H3 H4]. unfold saveTimestamp. cbv zeta. repeat match goal with |- context [if ?b then _ else _] => destruct b end; split; assumption. Qed.
Lemma saveTimestamp_buf t ts : data (saveTimestamp t ts) = data t /\ position (saveTimestamp t ts) = position t /\ bitStreamCount (saveTimestamp t ts) = bitStreamCount t.
Proof. unfold saveTimestamp. cbv zeta. repeat match goal with |- context [if ?b then _ else _] => destruct b end; auto. Qed.

Lemma decodeTimestamp_trip code t : trip 9 0 t (decodeTimestamp code t).
Proof.
  unfold decodeTimestamp. cbv zeta.
  assert (S : forall n x, trip n 0 t x -> trip n 0 t (do (ts, t) <- x; DOk ts (saveTimestamp t ts))).
  { intros n x H. replace n with (n + 0) by lia. change 0 with (0 + 0) at 2. eapply trip_bind; [exact H|lia|lia|lia|].
    intros ts t1 _ _. destruct (saveTimestamp_buf t1 ts) as (H1 & H2 & H3). apply trip_state; auto using saveTimestamp_wf. }
  repeat match goal with |- context [if ?b then _ else _] => destruct b; [eapply trip_weaken; [apply S, trip_ok|lia|lia]|] end.
  apply S. change 9 with (9 + 0). change 0 with (0 + 0) at 2. eapply trip_bind; [apply (lift7_trip t 8 decode7BitUInt64 u64), decode7_64_loop|lia|lia|lia|].
  intros x t1 _ _. apply trip_ok.
Qed.

Lemma decodeStateFlags_trip code id t : trip 5 0 t (decodeStateFlags code id t).
Proof.
  unfold decodeStateFlags. change 5 with (5 + 0). change 0 with (0 + 0) at 2. eapply trip_bind; [|lia|lia|lia|].
  - destruct (code =? StateFlags2); [eapply trip_weaken; [apply trip_ok|lia|lia]|].
    apply (lift7_trip t 4 decode7BitUInt32 u32), decode7_32_loop.
  - intros f t1 _ _. cbv zeta. apply trip_set_point. reflexivity.
Qed.

Lemma decodeValue_trip code id t : trip 8 0 t (decodeValue code id t).
Proof.
  unfold decodeValue. cbv zeta.
  assert (T : forall nib k, trip 8 0 t (do (m, t) <- xorPayload nib k t;
    DOk (Z.lxor (u32 m) (PrevValue1 (get_point t (Some id)))) (set_point t (Some id)
      (set_values (get_point t (Some id)) (Z.lxor (u32 m) (PrevValue1 (get_point t (Some id)))) (PrevValue1 (get_point t (Some id))) (PrevValue2 (get_point t (Some id))))))).
  { intros nib k. change 8 with (8 + 0). change 0 with (0 + 0) at 2. eapply trip_bind; [apply xorPayload_trip|lia|lia|lia|].
    intros m t1 _ _. apply trip_set_point. reflexivity. }
  destruct (code =? Value1); [eapply trip_weaken; [apply trip_ok|lia|lia]|].
  do 3 (match goal with |- context [if ?b then _ else _] => destruct b; [eapply trip_weaken; [apply trip_set_point; reflexivity|lia|lia]|] end).
  repeat match goal with |- context [if ?b then _ else _] => destruct b; [apply T|] end.
  eapply trip_weaken; [apply trip_err|lia|lia].
Qed.

Lemma ReadCode_trip' t : trip 8 1 t (ReadCode t).
Proof. intros W. apply (ReadCode_trip t W); exact W. Qed.

(** One call consumes at least one bit and at most 64 bytes. *)
Lemma clear_trip {A} (a : A) t : (wf t -> 0 <= bitStreamCount t) -> trip 0 0 t (DOk a (clearBitStream t)).
Proof.
  intros _ W. pose proof W as [H1 H2 H3 H4]. split; [apply wf_buf; [exact W|lia|lia]|]. split; [reflexivity|].
  unfold bits_left. cbn. lia.
Qed.

Lemma TryGet_trip1 t : (position t =? lastPosition t) && bitStreamIsEmpty t = false -> trip 64 1 t (TryGetMeasurement t).
Proof.
  intros NE. unfold TryGetMeasurement. rewrite NE. clear NE.
  eapply trip_weaken with (n := 8 + (16 + (0 + (17 + (13 + (8 + 0)))))) (s := 1 + (0 + (0 + (0 + (0 + (0 + 0)))))); [|lia|lia].
  tbind ReadCode_trip'. intros code t1 _ _.
  destruct (code =? EndOfStream); [eapply trip_weaken; [apply clear_trip|lia|lia]; apply w_count|].
  eapply trip_bind; [|lia|lia|lia|].
  { destruct (code <=? PointIDXor32); [|eapply trip_weaken; [apply trip_ok|lia|lia]].
    eapply trip_weaken with (n := 8 + (8 + 0)) (s := 0 + (1 + 0)); [|lia|lia].
    tbind decodePointID_trip. intros [] t2 _ _. tbind ReadCode_trip'. intros code2 t3 _ _.
    destruct (_ <? _); [apply trip_err|apply trip_ok]. }
  intros code' t2 _ W2. clear code. rename code' into code. cbv zeta.
  set (id := PrevNextPointID1 (get_point t2 (lastPoint t2))).
  set (t3 := match points t2 !! id with Some _ => t2 | None => _ end).
  assert (T3 : wf t3 /\ data t3 = data t2 /\ position t3 = position t2 /\ bitStreamCount t3 = bitStreamCount t2).
  { subst t3. destruct (points t2 !! id); [auto|]. split; [|apply set_point_buf].
    apply wf_point with []; [exact W2|]. apply newCoder_ok. }
  clearbody id t3. 
  match goal with |- trip _ _ _ ?x => cut (trip (17 + (13 + (8 + 0))) (0 + (0 + (0 + 0))) t3 x) end.
  { clear -T3. destruct T3 as (W & D & P & B). intros H _. specialize (H W). unfold bits_left in *. rewrite D, P, B in H.
    exact H. }
  clear T3. 
  eapply trip_bind; [|lia|lia|lia|].
  { destruct (code <=? TimeXor7Bit); [|eapply trip_weaken; [apply trip_ok|lia|lia]].
    eapply trip_weaken with (n := 9 + (8 + 0)) (s := 0 + (1 + 0)); [|lia|lia].
    tbind decodeTimestamp_trip. intros ts t4 _ _. tbind ReadCode_trip'. intros code2 t5 _ _.
    destruct (_ <? _); [apply trip_err|apply trip_ok]. }
  intros [ts code'] t4 _ _. clear code. rename code' into code.
  eapply trip_bind; [|lia|lia|lia|].
  { destruct (code <=? StateFlags7Bit32); [|eapply trip_weaken; [apply trip_ok|lia|lia]].
    eapply trip_weaken with (n := 5 + (8 + 0)) (s := 0 + (1 + 0)); [|lia|lia].
    tbind decodeStateFlags_trip. intros f t5 _ _. tbind ReadCode_trip'. intros code2 t6 _ _.
    destruct (_ <? _); [apply trip_err|apply trip_ok]. }
  intros [f code'] t5 _ _. clear code. rename code' into code.
  tbind decodeValue_trip. intros v t6 _ _.
  apply trip_state; [|reflexivity..]. intros [H1 H2 H3 H4]. split; auto.
Qed.
Lemma TryGet_trip t : trip 64 0 t (TryGetMeasurement t).
Proof.
  destruct ((position t =? lastPosition t) && bitStreamIsEmpty t) eqn:E.
  - unfold TryGetMeasurement. rewrite E. eapply trip_weaken; [apply clear_trip|lia|lia]; apply w_count.
  - eapply trip_weaken; [apply TryGet_trip1, E|lia|lia].
Qed.
Lemma TryGet_some t m t' : wf t -> TryGetMeasurement t = DOk (Some m) t' -> wf t' /\ data t' = data t /\ bits_left t' < bits_left t.
Proof.
  intros W H. destruct ((position t =? lastPosition t) && bitStreamIsEmpty t) eqn:E.
  - unfold TryGetMeasurement in H. rewrite E in H. discriminate.
  - pose proof (TryGet_trip1 t E W) as T. rewrite H in T. destruct T as (? & ? & ? & ?). split; [assumption|]. split; [assumption|lia].
Qed.
Lemma bits_left_nonneg t : wf t -> 0 <= bits_left t.
Proof. intros [H1 H2 H3 H4]. unfold bits_left. lia. Qed.

Lemma NewDecoder_wf : wf NewDecoder.
Proof.
  split; [|vm_compute; split; congruence|vm_compute; split; congruence|reflexivity]. intros k. exists []. destruct k; [|apply newCoder_ok]. cbn. rewrite lookup_empty. apply newCoder_ok.
Qed.
Lemma SetBuffer_wf t d : wf t -> wf (SetBuffer t d).
Proof. intros [H1 H2 H3 H4]. pose proof (len_nonneg d). split; [exact H1|cbn -[len]; lia|cbn -[len]; lia|reflexivity]. Qed.

Lemma decode_all_fuel f1 : forall f2 t, wf t -> bits_left t < Z.of_nat f1 -> bits_left t < Z.of_nat f2 ->
  decode_all f1 t = decode_all f2 t.
Proof.
  induction f1 as [|f1 IH]; intros f2 t W L1 L2; [pose proof (bits_left_nonneg t W); lia|].
  destruct f2 as [|f2]; [pose proof (bits_left_nonneg t W); lia|]. cbn [decode_all].
  destruct (TryGetMeasurement t) as [[m|] t'|t'|] eqn:E; cbn [dbind]; [|reflexivity..].
  destruct (TryGet_some _ _ _ W E) as (W' & _ & L). rewrite (IH f2 t') by (assumption || lia). reflexivity.
Qed.
Lemma decode_all_count f : forall t l t', wf t -> decode_all f t = DOk l t' -> wf t' /\ len l <= bits_left t.
Proof.
  induction f as [|f IH]; intros t l t' W H; cbn [decode_all] in H; [discriminate|].
  destruct (TryGetMeasurement t) as [[m|] t1|t1|] eqn:E; cbn [dbind] in H; try discriminate.
  - destruct (TryGet_some _ _ _ W E) as (W' & _ & L).
    destruct (decode_all f t1) as [r t2|t2|] eqn:E2; cbn [dbind] in H; try discriminate.
    assert (l = m :: r /\ t' = t2) as [-> ->] by (split; congruence).
    destruct (IH _ _ _ W' E2) as [W2 L2]. split; [exact W2|]. unfold len in *. cbn [length]. lia.
  - assert (l = [] /\ t' = t1) as [-> ->] by (split; congruence).
    pose proof (TryGet_trip t W) as T. rewrite E in T. destruct T as (W1 & _). split; [exact W1|].
    pose proof (bits_left_nonneg t W). unfold len. cbn [length]. lia.
Qed.

(** ** What the decoder remembers about timestamps *)
Definition times (t : td) := (prevTimestamp1 t, prevTimestamp2 t, prevTimeDelta1 t, prevTimeDelta2 t, prevTimeDelta3 t, prevTimeDelta4 t).
Definition kt {A} (t : td) (x : dres A) : Prop :=
  match x with DOk _ t' | DErr t' => times t' = times t | DPanic => True end.
Lemma kt_bind {A B} t (x : dres A) (k : A -> td -> dres B) : kt t x -> (forall a t', kt t' (k a t')) -> kt t (dbind x k).
Proof.
  unfold kt. intros H K. destruct x as [a t'|t'|]; cbn [dbind]; auto. specialize (K a t'). destruct (k a t'); congruence.
Qed.
Lemma kt_ok {A} (a : A) t t' : times t' = times t -> kt t (DOk a t').
Proof. auto. Qed.
Lemma readBit_kt t : kt t (readBit t).
Proof. unfold readBit. destruct (bitStreamCount t =? 0); [unfold data_at; destruct (idx _ _)|]; cbn; auto. Qed.
Ltac ktb lem := apply kt_bind; [apply lem|].
Lemma readBits4_kt t : kt t (readBits4 t).
Proof. unfold readBits4. repeat (ktb readBit_kt; intros ? ?). apply kt_ok. reflexivity. Qed.
Lemma readBits5_kt t : kt t (readBits5 t).
Proof. unfold readBits5. repeat (ktb readBit_kt; intros ? ?). apply kt_ok. reflexivity. Qed.
Lemma readCodeBits_kt c t : kt t (readCodeBits c t).
Proof.
  unfold readCodeBits.
  repeat match goal with
  | |- kt _ (if ?b then _ else _) => destruct b
  | |- kt _ (dbind (readBit _) _) => ktb readBit_kt; intros ? ?
  | |- _ => apply readBits5_kt
  | |- _ => reflexivity
  end.
Qed.
Lemma set_point_times t k p : times (set_point t k p) = times t.
Proof. destruct k; reflexivity. Qed.
Lemma ReadCode_kt t : kt t (ReadCode t).
Proof.
  unfold ReadCode. ktb readCodeBits_kt. intros code t1. cbv zeta. destruct (updatedCodeStatistics _ _); cbn [kt]; auto using set_point_times.
Qed.
Lemma xorPayload_kt nib k t : kt t (xorPayload nib k t).
Proof.
  unfold xorPayload. apply kt_bind; [destruct nib; [apply readBits4_kt|reflexivity]|]. intros b t1. cbv zeta. unfold data_at.
  destruct k as [|[|[|[|k]]]]; [reflexivity|..];
  repeat match goal with |- context [idx ?l ?i] => destruct (idx l i) end; cbn [kt]; reflexivity || exact I.
Qed.
Lemma lift7_kt t r : kt t (lift7 t r).
Proof. unfold lift7. destruct r as [[? ?]| |]; cbn; auto. Qed.
Lemma decodePointID_kt code t : kt t (decodePointID code t).
Proof.
  unfold decodePointID.
  repeat match goal with |- context [if ?b then _ else _] => destruct b; [apply kt_bind; [apply xorPayload_kt|intros ? ?; apply kt_ok, set_point_times]|] end.
  reflexivity.
Qed.
Lemma decodeStateFlags_kt code id t : kt t (decodeStateFlags code id t).
Proof.
  unfold decodeStateFlags. apply kt_bind; [destruct (_ =? _); [reflexivity|apply lift7_kt]|]. intros f t1. apply kt_ok, set_point_times.
Qed.
Lemma decodeValue_kt code id t : kt t (decodeValue code id t).
Proof.
  unfold decodeValue. cbv zeta.
  do 4 (match goal with |- context [if ?b then _ else _] => destruct b; [apply kt_ok; reflexivity|] end).
  repeat match goal with |- context [if ?b then _ else _] => destruct b; [apply kt_bind; [apply xorPayload_kt|intros ? ?; apply kt_ok, set_point_times]|] end.
  reflexivity.
Qed.

(** [tracks t h]: the decoder has saved exactly the timestamps [h], most recent first,
    on top of the initial value 0. *)
Definition tracks (t : td) (h : list Z) : Prop :=
  times t = (nth 0 (h ++ [0]) 0, nth 1 (h ++ [0]) 0,
    slot 0 (gaps_of (h ++ [0])), slot 1 (gaps_of (h ++ [0])), slot 2 (gaps_of (h ++ [0])), slot 3 (gaps_of (h ++ [0]))).

Lemma gaps_of_i64 h : Forall is_i64 (gaps_of h).
Proof.
  induction h as [|a [|b r] IH]; [constructor..|]. change (gaps_of (a :: b :: r)) with (gap b a :: gaps_of (b :: r)).
  constructor; [apply i64_range|exact IH].
Qed.
Lemma saveTimestamp_tracks t h ts : tracks t h -> tracks (saveTimestamp t ts) (ts :: h).
Proof.
  unfold tracks. intros H.
  assert (exists p r, h ++ [0] = p :: r) as (p & r & E) by (destruct h; cbn; eauto).
  change ((ts :: h) ++ [0]) with (ts :: (h ++ [0])). rewrite E in *.
  change (gaps_of (ts :: p :: r)) with (gap p ts :: gaps_of (p :: r)). cbn [nth] in *.
  pose proof (gaps_of_i64 (p :: r)) as B. set (g := gaps_of (p :: r)) in *.
  pose proof (slots_update (gap p ts) (sorted_gaps g) (sorted_gaps_increasing g) (sorted_gaps_bound g B)) as S.
  assert (GB : is_i64 (gap p ts)) by apply i64_range.
  specialize (S ltac:(unfold is_i64, MaxInt64 in *; lia)). cbv zeta in S.
  unfold times in H.
  assert (P1 : prevTimestamp1 t = p) by congruence.
  assert (D1 : prevTimeDelta1 t = slot 0 g) by congruence. assert (D2 : prevTimeDelta2 t = slot 1 g) by congruence.
  assert (D3 : prevTimeDelta3 t = slot 2 g) by congruence. assert (D4 : prevTimeDelta4 t = slot 3 g) by congruence.
  unfold saveTimestamp. cbv zeta. rewrite gap_abs, P1, D1, D2, D3, D4.
  change (slot 0 (gap p ts :: g)) with (nth 0 (ins (gap p ts) (sorted_gaps g)) MaxInt64).
  change (slot 1 (gap p ts :: g)) with (nth 1 (ins (gap p ts) (sorted_gaps g)) MaxInt64).
  change (slot 2 (gap p ts :: g)) with (nth 2 (ins (gap p ts) (sorted_gaps g)) MaxInt64).
  change (slot 3 (gap p ts :: g)) with (nth 3 (ins (gap p ts) (sorted_gaps g)) MaxInt64).
  fold (slot 0 g) (slot 1 g) (slot 2 g) (slot 3 g) in S. clear -S.
  destruct (_ && _); [|unfold times, set_times; cbn [prevTimestamp1 prevTimestamp2 prevTimeDelta1 prevTimeDelta2 prevTimeDelta3 prevTimeDelta4]; congruence].
  destruct (_ <? _); [unfold times, set_times; cbn [prevTimestamp1 prevTimestamp2 prevTimeDelta1 prevTimeDelta2 prevTimeDelta3 prevTimeDelta4]; congruence|].
  destruct (_ <? _); [unfold times, set_times; cbn [prevTimestamp1 prevTimestamp2 prevTimeDelta1 prevTimeDelta2 prevTimeDelta3 prevTimeDelta4]; congruence|].
  destruct (_ <? _); unfold times, set_times; cbn [prevTimestamp1 prevTimestamp2 prevTimeDelta1 prevTimeDelta2 prevTimeDelta3 prevTimeDelta4]; congruence.
Qed.
Lemma tracks_times t t' h : times t' = times t -> tracks t h -> tracks t' h.
Proof. unfold tracks. congruence. Qed.
Lemma tracks_head t h : tracks t h -> prevTimestamp1 t = hd 0 h.
Proof. unfold tracks, times. intros H. replace (hd 0 h) with (nth 0 (h ++ [0]) 0) by (destruct h; reflexivity). congruence. Qed.

(** Outcomes of a computation started with history [h]: [None] when nothing was saved,
    otherwise the timestamp saved. *)
Lemma decodeTimestamp_tracks code t h : tracks t h ->
  match decodeTimestamp code t with
  | DOk ts t' => tracks t' (ts :: h)
  | DErr t' => tracks t' h
  | DPanic => True
  end.
Proof.
  intros T. unfold decodeTimestamp. cbv zeta.
  repeat match goal with |- context [if ?b then _ else _] => destruct b; [cbn [dbind]; apply saveTimestamp_tracks; exact T|] end.
  pose proof (lift7_kt t (decode7BitUInt64 (data t) (position t))) as K.
  destruct (lift7 _ _) as [x t1|t1|]; cbn [dbind kt] in *; [|eapply tracks_times; eassumption|exact I].
  apply saveTimestamp_tracks. eapply tracks_times; eassumption.
Qed.

Lemma TryGet_tracks t h : tracks t h ->
  match TryGetMeasurement t with
  | DOk (Some m) t' => (tracks t' h /\ tm_time m = hd 0 h) \/ tracks t' (tm_time m :: h)
  | DOk None t' => tracks t' h
  | DErr t' => tracks t' h \/ exists ts, tracks t' (ts :: h)
  | DPanic => True
  end.
Proof.
  intros T. unfold TryGetMeasurement. destruct (_ && _); [exact T|].
  pose proof (ReadCode_kt t) as K. destruct (ReadCode t) as [code t1|t1|]; cbn [dbind kt] in *; [|left; eapply tracks_times; eassumption|exact I].
  apply (tracks_times _ _ _ K) in T. clear K. destruct (code =? EndOfStream); [exact T|].
  match goal with |- context [dbind ?x _] => assert (K : kt t1 x) end.
  { destruct (code <=? PointIDXor32); [|reflexivity]. ktb decodePointID_kt. intros [] t2. ktb ReadCode_kt. intros c2 t3.
    destruct (_ <? _); reflexivity. }
  match goal with |- context [dbind ?x _] => destruct x as [code' t2|t2|]; cbn [dbind kt] in * end; [|left; eapply tracks_times; eassumption|exact I].
  apply (tracks_times _ _ _ K) in T. clear K t t1 code. cbv zeta. rename code' into code.
  set (id := PrevNextPointID1 (get_point t2 (lastPoint t2))).
  set (t3 := match points t2 !! id with Some _ => t2 | None => _ end).
  assert (T3 : tracks t3 h).
  { subst t3. destruct (points t2 !! id); [exact T|]. eapply tracks_times; [apply set_point_times|exact T]. }
  clearbody id t3. clear T t2.
  match goal with |- context [dbind ?x _] => assert (K : match x with
     | DOk (ts, c) t' => (tracks t' h /\ ts = hd 0 h) \/ tracks t' (ts :: h)
     | DErr t' => tracks t' h \/ exists ts, tracks t' (ts :: h)
     | DPanic => True end) end.
  { destruct (code <=? TimeXor7Bit).
    - pose proof (decodeTimestamp_tracks (u8 code) t3 h T3) as D.
      destruct (decodeTimestamp (u8 code) t3) as [ts t4|t4|]; cbn [dbind]; auto.
      pose proof (ReadCode_kt t4) as K. destruct (ReadCode t4) as [c2 t5|t5|]; cbn [dbind kt] in *; auto.
      + apply (tracks_times _ _ _ K) in D. destruct (_ <? _); [right; eauto|right; exact D].
      + apply (tracks_times _ _ _ K) in D. right; eauto.
    - left. split; [exact T3|]. apply tracks_head, T3. }
  match goal with |- context [dbind ?x _] => destruct x as [[ts code'] t4|t4|]; cbn [dbind] in * end; auto.
  clear code t3 T3. rename code' into code.
  match goal with |- match dbind ?x ?k with _ => _ end => cut (kt t4 (dbind x k) /\ forall m t', dbind x k = DOk m t' -> exists m', m = Some m' /\ tm_time m' = ts); [generalize (dbind x k)|] end.
  { intros d [K1 K2]. destruct d as [m t'|t'|]; cbn [kt] in K1; [|destruct K as [[K _]|K]; apply (tracks_times _ _ _ K1) in K; eauto|exact I].
    destruct (K2 m t' eq_refl) as (m' & -> & E). rewrite E.
    destruct K as [[K K']|K]; apply (tracks_times _ _ _ K1) in K; auto. }
  split.
  - apply kt_bind.
    + destruct (code <=? StateFlags7Bit32); [|reflexivity]. ktb decodeStateFlags_kt. intros f t5. ktb ReadCode_kt. intros c2 t6.
      destruct (_ <? _); reflexivity.
    + intros [f c2] t5. ktb decodeValue_kt. intros v t6. reflexivity.
  - intros m t' H. match type of H with dbind ?x _ = _ => destruct x as [[f c2] t5|t5|]; cbn [dbind] in H; try discriminate end.
    destruct (decodeValue c2 id t5) as [v t6|t6|]; cbn [dbind] in H; try discriminate.
    assert (m = Some (mkTm id ts f v)) as -> by congruence. eexists. split; [reflexivity|]. reflexivity.
Qed.

(** What [tracks] says without mentioning insertion: the remembered gaps are the
    smallest distinct gaps of the history, in increasing order. *)
Lemma slots_meaning g : Forall is_i64 g ->
  slot 0 g <= slot 1 g <= slot 2 g /\ slot 2 g <= slot 3 g /\
  (forall i, (i < 4)%nat -> slot i g <> MaxInt64 -> In (slot i g) g) /\
  (forall i, (i < 3)%nat -> slot i g <> MaxInt64 -> slot i g < slot (i + 1) g) /\
  (forall x, In x g -> x < slot 3 g -> exists i, (i < 3)%nat /\ x = slot i g).
Proof.
  intros B. pose proof (sorted_gaps_increasing g) as I. pose proof (sorted_gaps_bound g B) as BD. pose proof (sorted_gaps_in g) as M.
  unfold slot. set (l := sorted_gaps g) in *. clearbody l.
  assert (INC : forall l, increasing l -> Forall (fun x => x <= MaxInt64) l -> forall i, (nth i l MaxInt64 <= nth (i + 1) l MaxInt64) /\ (nth i l MaxInt64 <> MaxInt64 -> nth i l MaxInt64 < nth (i + 1) l MaxInt64)).
  { clear. induction l as [|a r IH]; intros H F i; [destruct i; cbn; (split; [lia|congruence])|].
    destruct H as [H1 H2]. apply Forall_cons_1 in F as [F1 F2]. destruct i as [|i]; [|apply (IH H2 F2 i)].
    destruct r as [|b r]; cbn [nth plus]; [lia|]. lia. }
  destruct (INC l I BD 0%nat) as [A0 B0]. destruct (INC l I BD 1%nat) as [A1 B1]. destruct (INC l I BD 2%nat) as [A2 B2].
  change (0 + 1)%nat with 1%nat in *. change (1 + 1)%nat with 2%nat in *. change (2 + 1)%nat with 3%nat in *.
  split; [lia|]. split; [lia|]. split; [|split].
  - intros i Hi N. apply M. destruct (Nat.lt_ge_cases i (length l)) as [L|L]; [apply nth_In, L|]. rewrite nth_overflow in N by exact L. congruence.
  - intros i Hi N. destruct i as [|[|[|i]]]; [exact (B0 N)|exact (B1 N)|exact (B2 N)|lia].
  - intros x Hx L. apply M in Hx. destruct (In_nth _ _ MaxInt64 Hx) as (i & Li & E).
    destruct (Nat.lt_ge_cases i 3) as [L3|L3]; [exists i; auto|]. exfalso.
    assert (forall j, nth 3 l MaxInt64 <= nth (3 + j) l MaxInt64) as MONO.
    { induction j as [|j IHj]; [change (3 + 0)%nat with 3%nat; lia|]. destruct (INC l I BD (3 + j)%nat) as [Q _]. replace (3 + S j)%nat with (3 + j + 1)%nat by lia. lia. }
    specialize (MONO (i - 3)%nat). replace (3 + (i - 3))%nat with i in MONO by lia. lia.
Qed.

(** ** Decoded histories *)
(** A timestamp equal to the previous one may be repeated without being saved: the
    gap it adds to the history is 0, which the decoder may not remember. *)
Inductive stutter : list Z -> list Z -> Prop :=
| st_nil : stutter [] []
| st_cons x a b : stutter a b -> stutter (x :: a) (x :: b)
| st_dup x a b : stutter a b -> x = hd 0 b -> stutter (x :: a) b.
Lemma stutter_hd a b : stutter a b -> hd 0 a = hd 0 b.
Proof. induction 1; cbn; congruence. Qed.
Lemma gap_self x : gap x x = 0.
Proof. unfold gap. rewrite Z.sub_diag. reflexivity. Qed.
Lemma app0_cons h : exists r, h ++ [0] = hd 0 h :: r.
Proof. destruct h; cbn; eauto. Qed.
Lemma stutter_gaps a b : stutter a b -> forall x,
  (In x (gaps_of (b ++ [0])) -> In x (gaps_of (a ++ [0]))) /\ (In x (gaps_of (a ++ [0])) -> x = 0 \/ In x (gaps_of (b ++ [0]))).
Proof.
  induction 1 as [|y a b S IH|y a b S IH E]; intros x; [cbn; tauto|..]; specialize (IH x); pose proof (stutter_hd _ _ S) as Q;
  destruct (app0_cons a) as [ra Ea]; destruct (app0_cons b) as [rb Eb].
  - change ((y :: a) ++ [0]) with (y :: (a ++ [0])). change ((y :: b) ++ [0]) with (y :: (b ++ [0])).
    rewrite Ea, Eb in *. rewrite Q in *.
    change (gaps_of (y :: hd 0 b :: ra)) with (gap (hd 0 b) y :: gaps_of (hd 0 b :: ra)).
    change (gaps_of (y :: hd 0 b :: rb)) with (gap (hd 0 b) y :: gaps_of (hd 0 b :: rb)). cbn [In]. tauto.
  - change ((y :: a) ++ [0]) with (y :: (a ++ [0])). rewrite Ea, Eb in *. rewrite Q in *.
    change (gaps_of (y :: hd 0 b :: ra)) with (gap (hd 0 b) y :: gaps_of (hd 0 b :: ra)). rewrite E, gap_self. cbn [In].
    intuition congruence.
Qed.
Lemma NewDecoder_tracks : tracks NewDecoder [].
Proof. reflexivity. Qed.
Lemma decoded_tracks t h : decoded t h -> exists s, stutter h s /\ tracks t s.
Proof.
  induction 1 as [|t h b D (s & S & T)|t h m t' D (s & S & T) E|t h t' D (s & S & T) E].
  - exists []. split; [constructor|apply NewDecoder_tracks].
  - exists s. split; [exact S|]. exact T.
  - pose proof (TryGet_tracks t s T) as K. rewrite E in K. destruct K as [[K1 K2]|K].
    + exists s. split; [apply st_dup; assumption|exact K1].
    + exists (tm_time m :: s). split; [apply st_cons, S|exact K].
  - pose proof (TryGet_tracks t s T) as K. rewrite E in K. exists s. auto.
Qed.
Lemma decoded_wf t h : decoded t h -> wf t.
Proof.
  induction 1 as [|t h b D IH|t h m t' D IH E|t h t' D IH E]; [apply NewDecoder_wf|apply SetBuffer_wf, IH|..];
  pose proof (TryGet_trip t IH) as T; rewrite E in T; apply T.
Qed.
Lemma decoded_deltas t h : decoded t h ->
  let d := deltas t in let g := gaps_of (h ++ [0]) in
  nth 0 d 0 <= nth 1 d 0 <= nth 2 d 0 /\ nth 2 d 0 <= nth 3 d 0 /\
  (forall i, (i < 3)%nat -> nth i d 0 <> MaxInt64 -> nth i d 0 < nth (i + 1) d 0) /\
  (forall x, In x d -> x = MaxInt64 \/ In x g) /\
  (forall x, In x g -> x <> 0 -> x < nth 3 d 0 -> In x d).
Proof.
  intros D. cbv zeta. destruct (decoded_tracks t h D) as (s & S & T).
  pose proof (stutter_gaps h s S) as G.
  destruct (slots_meaning (gaps_of (s ++ [0])) (gaps_of_i64 _)) as (M1 & M2 & M3 & M4 & M5).
  set (g := gaps_of (s ++ [0])) in *.
  assert (E : deltas t = [slot 0 g; slot 1 g; slot 2 g; slot 3 g]).
  { unfold tracks, times in T. fold g in T. unfold deltas. congruence. }
  rewrite E. cbn [nth]. split; [exact M1|]. split; [exact M2|]. split; [|split].
  - intros i Hi N. specialize (M4 i Hi). destruct i as [|[|[|i]]]; [exact (M4 N)..|lia].
  - intros x Hx. cbn [In] in Hx. assert (exists i, (i < 4)%nat /\ x = slot i g) as (i & Hi & ->).
    { destruct Hx as [<-|[<-|[<-|[<-|[]]]]]; [exists 0%nat|exists 1%nat|exists 2%nat|exists 3%nat]; split; auto; lia. }
    destruct (Z.eq_dec (slot i g) MaxInt64) as [Q|Q]; [left; exact Q|right]. apply G. apply M3; assumption.
  - intros x Hx N L. apply G in Hx as [Hx|Hx]; [congruence|]. destruct (M5 x Hx L) as (i & Hi & ->).
    destruct i as [|[|[|i]]]; cbn [In]; auto; lia.
Qed.

(** ** Sequences of commands (C21) *)
Lemma ser_bits_count bs : forall l c, (c <= 7)%nat -> exists c', (c' <= 7)%nat /\
  8 * len (ser (map Bit bs ++ l) c) + Z.of_nat c = 8 * len (ser l c') + Z.of_nat c' + len bs.
Proof.
  induction bs as [|b bs IH]; intros l c Hc; [exists c; cbn; unfold len; cbn [length]; lia|].
  cbn [map app ser]. destruct c as [|c].
  - destruct (IH l 7%nat ltac:(lia)) as (c' & H1 & H2). exists c'. split; [exact H1|]. unfold len in *. cbn [length]. lia.
  - destruct (IH l c ltac:(lia)) as (c' & H1 & H2). exists c'. split; [exact H1|]. unfold len in *. cbn [length]. lia.
Qed.
Lemma bits_of_app a b : bits_of (a ++ b) = bits_of a ++ bits_of b.
Proof. induction a as [|[x|x] a IH]; cbn; congruence. Qed.
Lemma bits_of_map bs : bits_of (map Bit bs) = bs.
Proof. induction bs; cbn; congruence. Qed.
Lemma inp_consumed t t' bs l z : inp t (map Bit bs ++ l) z -> inp t' l z -> data t' = data t -> bits_left t' + len bs = bits_left t.
Proof.
  intros [(p1 & D1 & P1) _ C1 _ Z1] [(p2 & D2 & P2) _ C2 _ Z2] E.
  assert (B1 : bits_left t = 8 * len (ser (map Bit bs ++ l) (Z.to_nat (bitStreamCount t))) + bitStreamCount t).
  { unfold bits_left. rewrite D1, P1, len_app. lia. }
  assert (B2 : bits_left t' = 8 * len (ser l (Z.to_nat (bitStreamCount t'))) + bitStreamCount t').
  { unfold bits_left. rewrite D2, P2, len_app. lia. }
  destruct (ser_bits_count bs l (Z.to_nat (bitStreamCount t)) ltac:(lia)) as (c' & H1 & H2).
  rewrite bits_of_app, bits_of_map, len_app in Z1.
  assert (Z.of_nat c' = bitStreamCount t') as X.
  { assert ((Z.of_nat c' - bitStreamCount t') mod 8 = 0) as Q; [|clear -Q H1 C2; lia].
    assert (exists q, Z.of_nat c' = bitStreamCount t - len bs + 8 * q) as (q & Q).
    { exists (len (ser (map Bit bs ++ l) (Z.to_nat (bitStreamCount t))) - len (ser l c')). lia. }
    rewrite Q. clear -Z1 Z2. lia. }
  rewrite <- X, Nat2Z.id in B2. lia.
Qed.

Lemma set_point_last t k p : lastPoint (set_point t k p) = lastPoint t.
Proof. destruct k; reflexivity. Qed.
Lemma read_codes_spec codes : forall t l z seg,
  Forall is_code codes -> coder_ok (current_coder t) seg ->
  exists bs c', write_codes (current_coder t) codes = Ok (bs, c') /\
  code_history (current_coder t) codes = Ok c' /\
  (inp t (map Bit bs ++ l) z ->
   exists t', read_codes (length codes) t = DOk codes t' /\ current_coder t' = c' /\ lastPoint t' = lastPoint t /\
     data t' = data t /\ inp t' l z).
Proof.
  induction codes as [|x codes IH]; intros t l z seg Hc Hk.
  - exists [], (current_coder t). split; [reflexivity|]. split; [reflexivity|]. intros I. exists t. auto.
  - apply Forall_cons_1 in Hc as [Hx Hc].
    destruct (updated_ok _ _ x Hk Hx) as (c1 & U & V).
    assert (exists seg', coder_ok c1 seg') as [seg1 K1].
    { destruct (length seg + 1 =? _)%nat in V; destruct V as [V _]; eauto. }
    pose (t1 := set_point t (lastPoint t) (set_coder (get_point t (lastPoint t)) c1)).
    assert (T1 : forall t, current_coder (set_point t (lastPoint t) (set_coder (get_point t (lastPoint t)) c1)) = c1).
    { clear. intros t. unfold current_coder. destruct t as [? ? ? ? ? ? ? ? ? p0 [i|] ps ? ? ?]; cbn; [rewrite lookup_insert|]; reflexivity. }
    destruct (IH t1 l z seg1 Hc) as (bs & c' & W & H & R). { unfold t1. rewrite T1. exact K1. }
    unfold t1 in W, H. rewrite T1 in W, H.
    exists (code_bits (current_coder t) x ++ bs), c'. split; [|split].
    + cbn [write_codes]. rewrite WriteCode_bits by (try exact (k_codes _ _ Hk); exact Hx). rewrite U. cbn [bind]. rewrite W. reflexivity.
    + cbn [code_history]. rewrite U. exact H.
    + clear R. intros I. rewrite map_app, <- app_assoc in I.
      destruct (readCodeBits_spec _ t x (map Bit bs ++ l) z (k_codes _ _ Hk) Hx I) as (p & cn & k & RB & I2).
      cbn [length read_codes]. unfold ReadCode at 1. fold (current_coder t). rewrite RB. cbn [dbind].
      change (get_point (set_buf t p cn k) (lastPoint (set_buf t p cn k))) with (get_point t (lastPoint t)).
      fold (current_coder t). rewrite U.
      set (t2 := set_point (set_buf t p cn k) (lastPoint (set_buf t p cn k)) (set_coder (get_point t (lastPoint t)) c1)).
      assert (C2 : current_coder t2 = c1) by (unfold t2; apply (T1 (set_buf t p cn k))).
      destruct (IH t2 l z seg1 Hc) as (bs' & c'' & W' & _ & R). { rewrite C2. exact K1. }
      rewrite C2, W in W'. assert (bs' = bs /\ c'' = c') as [-> ->] by (split; congruence).
      destruct R as (t' & R1 & R2 & R3 & R4 & R5). { unfold t2. apply inp_point. exact I2. }
      cbn [dbind]. rewrite R1. cbn [dbind]. exists t'. split; [reflexivity|]. split; [exact R2|]. split; [|split; [|exact R5]].
      * rewrite R3. unfold t2. rewrite set_point_last. reflexivity.
      * rewrite R4. unfold t2. apply (set_point_buf (set_buf t p cn k)).
Qed.

Lemma codes_round_trip hist codes t rest :
  Forall is_code hist -> Forall is_code codes -> code_history newCoder hist = Ok (current_coder t) ->
  exists bs c', write_codes (current_coder t) codes = Ok (bs, c') /\
  let t0 := SetBuffer t (ser (map Bit bs ++ rest) 0) in
  exists t', read_codes (length codes) t0 = DOk codes t' /\ current_coder t' = c' /\
    code_history newCoder (hist ++ codes) = Ok c' /\ bits_left t' = bits_left t0 - len bs /\ len bs = 
    (fix total (c : coder) (l : list Z) := match l with [] => 0 | x :: r =>
       code_len (shorts c) x + match updatedCodeStatistics c x with Ok c' => total c' r | _ => 0 end end) (current_coder t) codes.
Proof.
  intros Hh Hc E. destruct (history_any hist Hh) as (c0 & seg & E0 & K0).
  assert (c0 = current_coder t) by congruence. subst c0.
  pose (z bs := (- len (bits_of (map Bit bs ++ rest))) mod 8).
  destruct (read_codes_spec codes t rest 0 seg Hc K0) as (bs & c' & W & H & _).
  exists bs, c'. split; [exact W|]. cbv zeta. set (t0 := SetBuffer t (ser (map Bit bs ++ rest) 0)).
  assert (C0 : current_coder t0 = current_coder t) by reflexivity.
  destruct (read_codes_spec codes t0 rest (z bs) seg Hc K0) as (bs' & c'' & W' & H' & R).
  rewrite C0, W in W'. assert (bs' = bs /\ c'' = c') as [-> ->] by (split; congruence).
  pose proof (setbuffer_inp t (map Bit bs ++ rest)) as I0. destruct (R I0) as (t' & R1 & R2 & R3 & R4 & R5).
  exists t'. split; [exact R1|]. split; [exact R2|]. split; [|split].
  - rewrite history_app, E. exact H.
  - pose proof (inp_consumed _ _ _ _ _ I0 R5 R4) as Q. change (SetBuffer t (ser (map Bit bs ++ rest) 0)) with t0 in Q. lia.
  - clear -W K0 Hc. revert bs c' W seg K0. generalize (current_coder t). induction codes as [|x codes IH]; intros c bs c' W seg K0.
    + cbn in W. assert (bs = []) as -> by congruence. reflexivity.
    + apply Forall_cons_1 in Hc as [Hx Hc]. cbn [write_codes] in W. rewrite WriteCode_bits in W by (try exact (k_codes _ _ K0); exact Hx).
      destruct (updated_ok _ _ x K0 Hx) as (c1 & U & V). rewrite U in *. cbn [bind] in W.
      assert (exists seg', coder_ok c1 seg') as [seg1 K1].
      { destruct (length seg + 1 =? _)%nat in V; destruct V as [V _]; eauto. }
      destruct (write_codes c1 codes) as [[b2 c2]| |] eqn:W2; cbn [bind] in W; try discriminate.
      assert (bs = code_bits c x ++ b2) as -> by congruence.
      rewrite len_app, (code_bits_len c x (k_codes _ _ K0)). rewrite (IH Hc c1 b2 c2 W2 seg1 K1). reflexivity.
Qed.

(** A command is never refused whatever was read (C22, C26). *)
Lemma decoded_ReadCode t h : decoded t h -> (exists code t', ReadCode t = DOk code t' /\ is_code code) \/ ReadCode t = DPanic.
Proof.
  intros D. destruct (ReadCode_trip t (decoded_wf t h D)) as (_ & C & NE).
  destruct (ReadCode t) as [c t'|t'|] eqn:E; [left; exists c, t'; split; [reflexivity|apply (C _ _ eq_refl)]|exfalso; apply (NE t' eq_refl)|right; reflexivity].
Qed.
Lemma decoded_panic t h : decoded t h -> TryGetMeasurement t = DPanic -> len (data t) - position t < 64.
Proof. intros D E. pose proof (TryGet_trip t (decoded_wf t h D) ) as T. rewrite E in T. lia. Qed.
Lemma decoded_inside t h x t' : decoded t h -> TryGetMeasurement t = DOk x t' ->
  data t' = data t /\ position t <= position t' <= len (data t).
Proof.
  intros D E. pose proof (TryGet_trip t (decoded_wf t h D) ) as T. rewrite E in T. destruct T as (W & H1 & _ & H2).
  pose proof (w_pos _ W) as P. rewrite H1 in P. split; [exact H1|lia].
Qed.
Lemma decoded_terminates t h packet : decoded t h -> forall fuel, 8 * len packet < Z.of_nat fuel ->
  decode_all fuel (SetBuffer t packet) = decode_all (S (Z.to_nat (8 * len packet))) (SetBuffer t packet) /\
  (forall l t', decode_all fuel (SetBuffer t packet) = DOk l t' -> len l <= 8 * len packet).
Proof.
  intros D fuel Hf. pose proof (SetBuffer_wf t packet (decoded_wf t h D)) as W. pose proof (len_nonneg packet).
  assert (B : bits_left (SetBuffer t packet) = 8 * len packet).
  { unfold bits_left. change (data (SetBuffer t packet)) with packet. change (position (SetBuffer t packet)) with 0.
    change (bitStreamCount (SetBuffer t packet)) with 0. lia. }
  split.
  - apply decode_all_fuel; [exact W|lia|lia].
  - intros l t' E. destruct (decode_all_count _ _ _ _ W E) as [_ L]. lia.
Qed.
