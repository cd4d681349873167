(** When the TSSC decoder reads beyond a packet (C26). *)
From stdpp Require Import gmap.
From Coq Require Import Lia ZArith ZifyBool ZifyNat.
From Verif Require Import Base BaseProofs FormatModel FormatProofs CompactProofs TsscModel TsscSpec TsscCode TsscCode2 TsscRead TsscProofs TsscProofs2 TsscProofs3 TsscCutSpec.
Open Scope Z_scope.
Ltac Zify.zify_post_hook ::= Z.div_mod_to_equations.

Lemma used_wf t : used t -> wf t.
Proof.
  induction 1 as [|t b D IH|t r t' D IH E|t t' D IH E]; [apply NewDecoder_wf|apply SetBuffer_wf, IH|..];
  pose proof (TryGet_trip t IH) as T; rewrite E in T; apply T.
Qed.

(** [more]: as [with_more], keeping how much lies behind lastPosition. *)
Definition more (x : bytes) (t : td) : td :=
  mkTd (data t ++ x) (position t) (lastPosition t + len x) (prevTimestamp1 t) (prevTimestamp2 t) (prevTimeDelta1 t) (prevTimeDelta2 t)
    (prevTimeDelta3 t) (prevTimeDelta4 t) (point0 t) (lastPoint t) (points t) (bitStreamCount t) (bitStreamCache t) (SequenceNumber t).
Definition mono {A} (t : td) (r : dres A) : Prop :=
  match r with DOk _ t' => position t <= position t' /\ data t' = data t | DErr t' => position t <= position t' /\ data t' = data t | DPanic => True end.
Definition ext {A} (x : bytes) (n : Z) (r r' : dres A) : Prop :=
  match r with
  | DOk a t' => r' = DOk a (more x t')
  | DErr t' => r' = DErr (more x t')
  | DPanic => match r' with DOk _ t' => n < position t' | DErr t' => n < position t' | DPanic => True end
  end.
Definition cont {A} (x : bytes) (f : td -> dres A) : Prop :=
  (forall t, 0 <= position t -> mono t (f t)) /\ forall t, 0 <= position t -> ext x (len (data t)) (f t) (f (more x t)).

Lemma cont_bind {A B} x (f : td -> dres A) (k : A -> td -> dres B) : cont x f -> (forall a, cont x (k a)) -> cont x (fun t => dbind (f t) k).
Proof.
  intros [M E] K. split.
  - intros t P. specialize (M t P). destruct (f t) as [a t'|t'|]; cbn [dbind]; [|exact M|exact Logic.I].
    destruct M as [M1 M2]. destruct (K a) as [K1 _]. specialize (K1 t' ltac:(lia)). destruct (k a t') as [b t''|t''|]; cbn [mono] in *; [destruct K1; split; [lia|congruence]..|exact Logic.I].
  - intros t P. pose proof (M t P) as Mt. pose proof (M (more x t) P) as Mm. specialize (E t P).
    destruct (f t) as [a t'|t'|]; cbn [ext dbind mono] in *.
    + rewrite E. cbn [dbind]. destruct Mt as [M1 M2]. destruct (K a) as [_ K2]. specialize (K2 t' ltac:(lia)). rewrite M2 in K2. exact K2.
    + rewrite E. reflexivity.
    + destruct (f (more x t)) as [a t'|t'|]; cbn [dbind mono] in *; [|exact E|exact Logic.I].
      destruct Mm as [M1 M2]. destruct (K a) as [K1 _]. change (position (more x t)) with (position t) in M1. specialize (K1 t' ltac:(lia)).
      destruct (k a t') as [b t''|t''|]; cbn [mono] in *; [lia|lia|exact Logic.I].
Qed.
(** Steps that do not touch the buffer *)
Lemma cont_state {A} x (g : td -> A) (h : td -> td) :
  (forall t, position (h t) = position t) -> (forall t, data (h t) = data t) -> (forall t, g (more x t) = g t) -> (forall t, h (more x t) = more x (h t)) ->
  cont x (fun t => DOk (g t) (h t)).
Proof.
  intros H1 H2 H3 H4. split; intros t P; cbn [mono ext]; [rewrite H1, H2; split; [lia|reflexivity]|rewrite H3, H4; reflexivity].
Qed.
Lemma cont_ok {A} x (a : A) : cont x (DOk a).
Proof. apply (cont_state x (fun _ => a) (fun t => t)); reflexivity. Qed.
Lemma cont_err {A} x : cont x (@DErr A).
Proof. split; intros t P; cbn; [split; [lia|reflexivity]|reflexivity]. Qed.
Lemma cont_if {A} x (b : td -> bool) (f g : td -> dres A) : (forall t, b (more x t) = b t) -> cont x f -> cont x g -> cont x (fun t => if b t then f t else g t).
Proof.
  intros B [F1 F2] [G1 G2]. split; intros t P; [destruct (b t); auto|]. rewrite B. destruct (b t); auto.
Qed.

Lemma idx_app_l {A} (l r : list A) i : i < len l -> idx (l ++ r) i = idx l i.
Proof.
  intros H. unfold idx. destruct (i <? 0) eqn:E; [reflexivity|]. rewrite nth_error_app1; [reflexivity|]. unfold len in H. lia.
Qed.

Lemma readBit_cont x : cont x readBit.
Proof.
  split.
  - intros t P. unfold readBit. destruct (bitStreamCount t =? 0); [|cbn; split; [lia|reflexivity]].
    unfold data_at. destruct (idx (data t) (position t)); cbn; [split; [lia|reflexivity]|exact Logic.I..].
  - intros t P. unfold readBit. change (bitStreamCount (more x t)) with (bitStreamCount t). destruct (bitStreamCount t =? 0) eqn:E; [|reflexivity].
    unfold data_at. change (data (more x t)) with (data t ++ x). change (position (more x t)) with (position t).
    destruct (idx_cases (data t) (position t)) as [(b & E1 & B)|(E1 & B)]; rewrite E1.
    + rewrite idx_app_l by lia. rewrite E1. reflexivity.
    + destruct (idx (data t ++ x) (position t)); cbn [ext]; [cbn; lia|exact Logic.I..].
Qed.

Ltac cb := apply cont_bind; [apply readBit_cont|intros ?].
Lemma readBits4_cont x : cont x readBits4.
Proof. unfold readBits4. do 4 (apply (cont_bind x _ _ (readBit_cont x)); intros ?). apply cont_ok. Qed.
Lemma readBits5_cont x : cont x readBits5.
Proof. unfold readBits5. do 5 (apply (cont_bind x _ _ (readBit_cont x)); intros ?). apply cont_ok. Qed.
Lemma readCodeBits_cont x c : cont x (readCodeBits c).
Proof.
  unfold readCodeBits. destruct (mode c =? 1); [apply readBits5_cont|].
  destruct (mode c =? 2).
  { apply (cont_bind x _ _ (readBit_cont x)); intros b. destruct (b =? 1); [apply cont_ok|apply readBits5_cont]. }
  destruct (mode c =? 3).
  { apply (cont_bind x _ _ (readBit_cont x)); intros b. destruct (b =? 1); [apply cont_ok|].
    apply (cont_bind x _ _ (readBit_cont x)); intros b2. destruct (b2 =? 1); [apply cont_ok|apply readBits5_cont]. }
  destruct (mode c =? 4); [|apply cont_err].
  apply (cont_bind x _ _ (readBit_cont x)); intros b. destruct (b =? 1); [apply cont_ok|].
  apply (cont_bind x _ _ (readBit_cont x)); intros b2. destruct (b2 =? 1); [apply cont_ok|].
  apply (cont_bind x _ _ (readBit_cont x)); intros b3. destruct (b3 =? 1); [apply cont_ok|apply readBits5_cont].
Qed.

Lemma more_set_point x t k p : set_point (more x t) k p = more x (set_point t k p).
Proof. destruct k; reflexivity. Qed.
Lemma more_get_point x t k : get_point (more x t) k = get_point t k.
Proof. destruct k; reflexivity. Qed.
Lemma set_point_pos t k p : position (set_point t k p) = position t.
Proof. destruct k; reflexivity. Qed.
Lemma set_point_data t k p : data (set_point t k p) = data t.
Proof. destruct k; reflexivity. Qed.

(** A function whose choice depends on the state alone. *)
Lemma cont_dep {A} {B} x (g : td -> B) (f : B -> td -> dres A) : (forall t, g (more x t) = g t) -> (forall b, cont x (f b)) -> cont x (fun t => f (g t) t).
Proof. intros G F. split; intros t P; [apply (F (g t)), P|]. rewrite G. apply (F (g t)), P. Qed.

Lemma ReadCode_cont x : cont x ReadCode.
Proof.
  unfold ReadCode. apply (cont_bind x (fun t => readCodeBits (pm_coder (get_point t (lastPoint t))) t)).
  - apply (cont_dep x (fun t => pm_coder (get_point t (lastPoint t))) readCodeBits); [intros t; rewrite more_get_point; reflexivity|apply readCodeBits_cont].
  - intros code. cbv zeta. 
    apply (cont_dep x (fun t => updatedCodeStatistics (pm_coder (get_point t (lastPoint t))) code)
      (fun r t => match r with Ok c => DOk code (set_point t (lastPoint t) (set_coder (get_point t (lastPoint t)) c)) | Err => DErr t | Panic => DPanic end)).
    + intros t. change (lastPoint (more x t)) with (lastPoint t). rewrite more_get_point. reflexivity.
    + intros [c| |]; [|apply cont_err|split; intros t P; exact Logic.I].
      apply (cont_state x (fun _ => code) (fun t => set_point t (lastPoint t) (set_coder (get_point t (lastPoint t)) c))); intros t.
      * apply set_point_pos. * apply set_point_data. * reflexivity.
      * change (lastPoint (more x t)) with (lastPoint t). rewrite more_get_point. apply more_set_point.
Qed.

Lemma bytesPayload_cont x b s k : cont x (bytesPayload b s k).
Proof.
  split.
  - intros t P. destruct k as [|[|[|[|k]]]]; cbn [bytesPayload]; unfold data_at;
    repeat match goal with |- context [idx ?l ?i] => destruct (idx l i) end; cbn [mono set_position set_buf position data]; try exact Logic.I; (split; [lia|reflexivity]).
  - intros t P. destruct k as [|[|[|[|k]]]]; cbn [bytesPayload]; unfold data_at;
    change (data (more x t)) with (data t ++ x); change (position (more x t)) with (position t); [reflexivity|..];
    repeat match goal with
    | H : idx (data t) ?i = _ |- context [idx (data t) ?i] => rewrite H
    | |- context [match idx (data t) ?i with _ => _ end] =>
        let E := fresh "E" in destruct (idx_cases (data t) i) as [(? & E & ?)|(E & ?)]; rewrite E
    | H : 0 <= ?i < len (data t) |- context [idx (data t ++ x) ?i] => rewrite (idx_app_l (data t) x i) by lia
    end.
    all: try reflexivity.
    all: cbn [ext].
    all: repeat match goal with |- context [match idx ?l ?i with _ => _ end] => destruct (idx l i) end; try exact Logic.I; cbn [set_position set_buf position]; lia.
Qed.

Lemma xorPayload_cont x nib k : cont x (xorPayload nib k).
Proof.
  change (cont x (fun t => do (b, t) <- (if nib then readBits4 t else DOk 0 t); bytesPayload b (if nib then 4 else 0) k t)).
  apply (cont_bind x (fun t => if nib then readBits4 t else DOk 0 t)); [destruct nib; [apply readBits4_cont|apply cont_ok]|].
  intros b. apply bytesPayload_cont.
Qed.

Lemma dloop_ext wrap n x : forall k v M s, 0 <= k ->
  match dloop wrap n k v M s with
  | Ok r => dloop wrap n k v M (s ++ x) = Ok r
  | Err => True
  | Panic => match dloop wrap n k v M (s ++ x) with Ok (_, k') => len s < k' | _ => True end
  end.
Proof.
  induction n as [|n IH]; intros k v M s Hk; cbn [dloop]; [reflexivity|].
  destruct (v <? 2 ^ (7 * k)); [reflexivity|].
  destruct (idx_cases s k) as [(y & E & B)|(E & B)]; rewrite E; cbn [bind].
  - rewrite idx_app_l by lia. rewrite E. cbn [bind]. apply IH. lia.
  - destruct (idx (s ++ x) k) as [y| |]; cbn [bind]; [|exact Logic.I..].
    pose proof (dloop_bound wrap n (k + 1) (Z.lxor v (wrap (Z.shiftl y (7 * k)))) (Z.lxor M (2 ^ (7 * k))) (s ++ x) ltac:(lia)) as D.
    destruct (dloop _ _ _ _ _ _) as [[? ?]| |]; [lia|exact Logic.I..].
Qed.
Lemma lift7_cont x n (d : bytes -> Z -> res (Z * Z)) (wrap : Z -> Z) :
  (forall stream pos, d stream pos = let* s := slice_from stream pos in let* b0 := idx s 0 in
     let* (v, k) := dloop wrap n 1 b0 0 s in Ok (v, pos + k)) ->
  cont x (fun t => lift7 t (d (data t) (position t))).
Proof.
  intros Ed. split.
  - intros t P. rewrite Ed. destruct (slice_from (data t) (position t)) as [s| |] eqn:E1; cbn [bind lift7 mono]; [| |exact Logic.I].
    + destruct (idx_cases s 0) as [(y & E & B)|(E & B)]; rewrite E; cbn [bind lift7 mono]; [|exact Logic.I].
      pose proof (dloop_bound wrap n 1 y 0 s ltac:(lia)) as D. destruct (dloop wrap n 1 y 0 s) as [[v k]| |]; cbn [bind lift7 mono]; [|contradiction|exact Logic.I].
      cbn. split; [lia|reflexivity].
    + split; [lia|reflexivity].
  - intros t P. rewrite !Ed. change (data (more x t)) with (data t ++ x). change (position (more x t)) with (position t).
    unfold slice_from. rewrite len_app. pose proof (len_nonneg x) as Lx. 
    destruct ((position t <? 0) || (len (data t) <? position t)) eqn:C.
    + cbn [bind lift7 ext]. destruct ((position t <? 0) || (len (data t) + len x <? position t)); cbn [bind lift7]; [exact Logic.I|].
      set (s := skipn _ _). destruct (idx_cases s 0) as [(y & E & B)|(E & B)]; rewrite E; cbn [bind lift7]; [|exact Logic.I].
      pose proof (dloop_bound wrap n 1 y 0 s ltac:(lia)) as D. destruct (dloop wrap n 1 y 0 s) as [[v k]| |]; cbn [bind lift7]; [|contradiction|exact Logic.I].
      cbn [set_position set_buf position]. lia.
    + replace ((position t <? 0) || (len (data t) + len x <? position t)) with false by lia. cbn [bind].
      assert (S : skipn (Z.to_nat (position t)) (data t ++ x) = skipn (Z.to_nat (position t)) (data t) ++ x).
      { rewrite skipn_app. replace (Z.to_nat (position t) - length (data t))%nat with 0%nat by (unfold len in C; lia). reflexivity. }
      rewrite S. set (s := skipn (Z.to_nat (position t)) (data t)).
      assert (Ls : len s = len (data t) - position t) by (unfold s, len in *; rewrite skipn_length; lia).
      destruct (idx_cases s 0) as [(y & E & B)|(E & B)]; rewrite E; cbn [bind].
      * rewrite idx_app_l by lia. rewrite E. cbn [bind].
        pose proof (dloop_ext wrap n x 1 y 0 s ltac:(lia)) as D. pose proof (dloop_bound wrap n 1 y 0 s ltac:(lia)) as D'.
        destruct (dloop wrap n 1 y 0 s) as [[v k]| |]; [rewrite D; reflexivity|contradiction|].
        cbn [bind lift7 ext]. pose proof (dloop_bound wrap n 1 y 0 (s ++ x) ltac:(lia)) as D2. destruct (dloop wrap n 1 y 0 (s ++ x)) as [[v k]| |]; cbn [bind lift7]; [|contradiction|exact Logic.I].
        cbn [set_position set_buf position]. lia.
      * cbn [bind lift7 ext]. destruct (idx (s ++ x) 0) as [y| |] eqn:E2; cbn [bind lift7]; [|exfalso; clear -E2|exact Logic.I].
        -- pose proof (dloop_bound wrap n 1 y 0 (s ++ x) ltac:(lia)) as D2. destruct (dloop wrap n 1 y 0 (s ++ x)) as [[v k]| |]; cbn [bind lift7]; [|contradiction|exact Logic.I].
           cbn [set_position set_buf position]. lia.
        -- unfold idx in E2. destruct (0 <? 0); [discriminate|]. destruct (nth_error (s ++ x) (Z.to_nat 0)); discriminate.
Qed.

Lemma decodePointID_cont x code : cont x (decodePointID code).
Proof.
  assert (T : forall nib k, cont x (fun t => do (m, t) <- xorPayload nib k t;
    DOk tt (set_point t (lastPoint t) (set_next (get_point t (lastPoint t)) (Z.lxor (i32 m) (PrevNextPointID1 (get_point t (lastPoint t)))))))).
  { intros nib k. apply cont_bind; [apply xorPayload_cont|]. intros m.
    apply (cont_state x (fun _ => tt) (fun t => set_point t (lastPoint t) (set_next (get_point t (lastPoint t)) (Z.lxor (i32 m) (PrevNextPointID1 (get_point t (lastPoint t))))))); intros t.
    - apply set_point_pos. - apply set_point_data. - reflexivity.
    - change (lastPoint (more x t)) with (lastPoint t). rewrite more_get_point. apply more_set_point. }
  unfold decodePointID. cbv zeta.
  repeat match goal with |- context [code =? ?c] => destruct (code =? c); [apply T|] end. apply cont_err.
Qed.
Lemma saveTimestamp_more x t ts : saveTimestamp (more x t) ts = more x (saveTimestamp t ts).
Proof.
  unfold saveTimestamp. cbv zeta. cbn [more prevTimestamp1 prevTimeDelta1 prevTimeDelta2 prevTimeDelta3 prevTimeDelta4].
  repeat match goal with |- context [if ?b then _ else _] => destruct b end; reflexivity.
Qed.
Lemma decodeTimestamp_cont x code : cont x (decodeTimestamp code).
Proof.
  assert (Sv : forall f, cont x f -> cont x (fun t => do (ts, t) <- f t; DOk ts (saveTimestamp t ts))).
  { intros f F. apply cont_bind; [exact F|]. intros ts. apply (cont_state x (fun _ => ts) (fun t => saveTimestamp t ts)); intros t;
    [destruct (saveTimestamp_buf t ts) as (H1 & H2 & H3); assumption..|reflexivity|apply saveTimestamp_more]. }
  assert (P : forall g : td -> Z, (forall t, g (more x t) = g t) -> cont x (fun t => do (ts, t) <- DOk (g t) t; DOk ts (saveTimestamp t ts))).
  { intros g G. apply Sv. apply (cont_state x g (fun t => t)); auto. }
  unfold decodeTimestamp. cbv zeta.
  destruct (code =? TimeDelta1Forward); [apply (P (fun t => i64 (prevTimestamp1 t + prevTimeDelta1 t))); reflexivity|].
  destruct (code =? TimeDelta2Forward); [apply (P (fun t => i64 (prevTimestamp1 t + prevTimeDelta2 t))); reflexivity|].
  destruct (code =? TimeDelta3Forward); [apply (P (fun t => i64 (prevTimestamp1 t + prevTimeDelta3 t))); reflexivity|].
  destruct (code =? TimeDelta4Forward); [apply (P (fun t => i64 (prevTimestamp1 t + prevTimeDelta4 t))); reflexivity|].
  destruct (code =? TimeDelta1Reverse); [apply (P (fun t => i64 (prevTimestamp1 t - prevTimeDelta1 t))); reflexivity|].
  destruct (code =? TimeDelta2Reverse); [apply (P (fun t => i64 (prevTimestamp1 t - prevTimeDelta2 t))); reflexivity|].
  destruct (code =? TimeDelta3Reverse); [apply (P (fun t => i64 (prevTimestamp1 t - prevTimeDelta3 t))); reflexivity|].
  destruct (code =? TimeDelta4Reverse); [apply (P (fun t => i64 (prevTimestamp1 t - prevTimeDelta4 t))); reflexivity|].
  destruct (code =? Timestamp2); [apply (P prevTimestamp2); reflexivity|].
  apply (Sv (fun t => do (y, t0) <- lift7 t (decode7BitUInt64 (data t) (position t)); DOk (Z.lxor (prevTimestamp1 t) (i64 y)) t0)).
  apply (cont_dep x prevTimestamp1 (fun p t => do (y, t0) <- lift7 t (decode7BitUInt64 (data t) (position t)); DOk (Z.lxor p (i64 y)) t0)); [reflexivity|].
  intros p. apply (cont_bind x (fun t => lift7 t (decode7BitUInt64 (data t) (position t)))).
  - apply (lift7_cont x 8 decode7BitUInt64 u64), decode7_64_loop.
  - intros y. apply cont_ok.
Qed.
Lemma decodeStateFlags_cont x code id : cont x (decodeStateFlags code id).
Proof.
  unfold decodeStateFlags.
  apply (cont_bind x (fun t => if code =? StateFlags2 then DOk (PrevStateFlags2 (get_point t (Some id))) t else lift7 t (decode7BitUInt32 (data t) (position t)))).
  - destruct (code =? StateFlags2); [apply (cont_state x (fun t => PrevStateFlags2 (get_point t (Some id))) (fun t => t)); reflexivity|].
    apply (lift7_cont x 4 decode7BitUInt32 u32), decode7_32_loop.
  - intros f. cbv zeta. apply (cont_state x (fun _ => f) (fun t => set_point t (Some id) (set_flags (get_point t (Some id)) f (PrevStateFlags1 (get_point t (Some id)))))); reflexivity.
Qed.
Lemma decodeValue_cont x code id : cont x (decodeValue code id).
Proof.
  assert (T : forall nib k, cont x (fun t => do (m, t) <- xorPayload nib k t;
    DOk (Z.lxor (u32 m) (PrevValue1 (get_point t (Some id)))) (set_point t (Some id)
      (set_values (get_point t (Some id)) (Z.lxor (u32 m) (PrevValue1 (get_point t (Some id)))) (PrevValue1 (get_point t (Some id))) (PrevValue2 (get_point t (Some id))))))).
  { intros nib k. apply cont_bind; [apply xorPayload_cont|]. intros m.
    apply (cont_state x (fun t => Z.lxor (u32 m) (PrevValue1 (get_point t (Some id)))) (fun t => set_point t (Some id)
      (set_values (get_point t (Some id)) (Z.lxor (u32 m) (PrevValue1 (get_point t (Some id)))) (PrevValue1 (get_point t (Some id))) (PrevValue2 (get_point t (Some id)))))); reflexivity. }
  unfold decodeValue. cbv zeta.
  destruct (code =? Value1); [apply (cont_state x (fun t => PrevValue1 (get_point t (Some id))) (fun t => t)); reflexivity|].
  destruct (code =? Value2); [apply (cont_state x (fun t => PrevValue2 (get_point t (Some id))) (fun t => set_point t (Some id) (set_values (get_point t (Some id)) (PrevValue2 (get_point t (Some id))) (PrevValue1 (get_point t (Some id))) (PrevValue3 (get_point t (Some id)))))); reflexivity|].
  destruct (code =? Value3); [apply (cont_state x (fun t => PrevValue3 (get_point t (Some id))) (fun t => set_point t (Some id) (set_values (get_point t (Some id)) (PrevValue3 (get_point t (Some id))) (PrevValue1 (get_point t (Some id))) (PrevValue2 (get_point t (Some id)))))); reflexivity|].
  destruct (code =? ValueZero); [apply (cont_state x (fun _ => 0) (fun t => set_point t (Some id) (set_values (get_point t (Some id)) 0 (PrevValue1 (get_point t (Some id))) (PrevValue2 (get_point t (Some id)))))); reflexivity|].
  repeat match goal with |- context [code =? ?c] => destruct (code =? c); [apply T|] end. apply cont_err.
Qed.

Lemma create_more x id t : create id (more x t) = more x (create id t).
Proof. unfold create. change (points (more x t)) with (points t). destruct (points t !! id); reflexivity. Qed.
Lemma create_pos id t : position (create id t) = position t /\ data (create id t) = data t.
Proof. unfold create. destruct (points t !! id); split; reflexivity. Qed.
Lemma cont_before {A} x (h : td -> td) (f : td -> dres A) : (forall t, position (h t) = position t) -> (forall t, data (h t) = data t) -> (forall t, h (more x t) = more x (h t)) ->
  cont x f -> cont x (fun t => f (h t)).
Proof.
  intros H1 H2 H3 [F1 F2]. split; intros t P.
  - specialize (F1 (h t) ltac:(rewrite H1; exact P)). destruct (f (h t)); cbn [mono] in *; rewrite ?H1, ?H2 in F1; exact F1.
  - specialize (F2 (h t) ltac:(rewrite H1; exact P)). rewrite H2 in F2. rewrite H3. exact F2.
Qed.
Lemma KV_cont x id ts f code : cont x (KV id ts f code).
Proof.
  unfold KV. apply cont_bind; [apply decodeValue_cont|]. intros v.
  apply (cont_state x (fun _ => Some (mkTm id ts f v)) (fun t => set_points t (point0 t) (Some id) (points t))); reflexivity.
Qed.
Lemma KF_cont x id ts code : cont x (KF id ts code).
Proof.
  unfold KF. apply (cont_bind x (fun t => if code <=? StateFlags7Bit32 then do (f, t) <- decodeStateFlags (u8 code) id t; do (code, t) <- ReadCode t; if code <? Value1 then DErr t else DOk (f, code) t
                 else DOk (PrevStateFlags1 (get_point t (Some id)), code) t)).
  - destruct (code <=? StateFlags7Bit32); [|apply (cont_state x (fun t => (PrevStateFlags1 (get_point t (Some id)), code)) (fun t => t)); reflexivity].
    apply cont_bind; [apply decodeStateFlags_cont|]. intros f. apply cont_bind; [apply ReadCode_cont|]. intros c. destruct (c <? Value1); [apply cont_err|apply cont_ok].
  - intros [f c]. apply KV_cont.
Qed.
Lemma KT_cont x id code : cont x (KT id code).
Proof.
  unfold KT. apply (cont_bind x (fun t => if code <=? TimeXor7Bit then do (ts, t) <- decodeTimestamp (u8 code) t; do (code, t) <- ReadCode t; if code <? StateFlags2 then DErr t else DOk (ts, code) t
                 else DOk (prevTimestamp1 t, code) t)).
  - destruct (code <=? TimeXor7Bit); [|apply (cont_state x (fun t => (prevTimestamp1 t, code)) (fun t => t)); reflexivity].
    apply cont_bind; [apply decodeTimestamp_cont|]. intros f. apply cont_bind; [apply ReadCode_cont|]. intros c. destruct (c <? StateFlags2); [apply cont_err|apply cont_ok].
  - intros [f c]. apply KF_cont.
Qed.
Lemma KI_cont x code : cont x (KI code).
Proof.
  unfold KI. apply (cont_bind x (fun t => if code <=? PointIDXor32 then do (u, t) <- decodePointID (u8 code) t; do (code, t) <- ReadCode t; if code <? TimeDelta1Forward then DErr t else DOk code t
                   else DOk code t)).
  - destruct (code <=? PointIDXor32); [|apply cont_ok].
    apply cont_bind; [apply decodePointID_cont|]. intros f. apply cont_bind; [apply ReadCode_cont|]. intros c. destruct (c <? TimeDelta1Forward); [apply cont_err|apply cont_ok].
  - intros c. cbv zeta.
    apply (cont_dep x (fun t => PrevNextPointID1 (get_point t (lastPoint t))) (fun id t => KT id c (create id t))).
    + intros t. change (lastPoint (more x t)) with (lastPoint t). rewrite more_get_point. reflexivity.
    + intros id. apply (cont_before x (create id) (KT id c)); [intros t; apply create_pos..|intros t; apply create_more|apply KT_cont].
Qed.
Lemma Call_cont x : cont x (fun t => do (code, t) <- ReadCode t; if code =? EndOfStream then DOk None (clearBitStream t) else KI code t).
Proof.
  apply cont_bind; [apply ReadCode_cont|]. intros code. destruct (code =? EndOfStream); [|apply KI_cont].
  apply (cont_state x (fun _ => None) clearBitStream); reflexivity.
Qed.

Lemma with_more_more x t : wf t -> with_more x t = more x t.
Proof. intros W. unfold with_more, more. rewrite len_app, (w_last _ W). reflexivity. Qed.
Lemma with_more_wf x t : wf t -> wf (with_more x t).
Proof.
  intros [H1 H2 H3 H4]. split; [exact H1|exact H2| |reflexivity]. cbn [with_more position data]. rewrite len_app. pose proof (len_nonneg x). lia.
Qed.
Lemma not_at_end_iff t : wf t -> ((position t =? lastPosition t) && bitStreamIsEmpty t = false <-> ~ all_read t).
Proof. intros W. unfold all_read, bitStreamIsEmpty. rewrite (w_last _ W). lia. Qed.

Lemma call_longer x t : used t -> ~ all_read t -> ext x (len (data t)) (TryGetMeasurement t) (TryGetMeasurement (with_more x t)).
Proof.
  intros U N. pose proof (used_wf t U) as W. pose proof (with_more_wf x t W) as W'. rewrite !Try_phases.
  rewrite (proj2 (not_at_end_iff t W) N).
  assert (N' : ~ all_read (with_more x t)).
  { intros [A B]. apply N. cbn [with_more position data bitStreamCount] in A, B. rewrite len_app in A. pose proof (len_nonneg x). pose proof (w_pos _ W). split; [lia|exact B]. }
  rewrite (proj2 (not_at_end_iff _ W') N'). rewrite (with_more_more x t W).
  apply (proj2 (Call_cont x) t). apply (w_pos _ W).
Qed.

Lemma panics_iff_cut t : used t -> (TryGetMeasurement t = DPanic <-> cut_short t).
Proof.
  intros U. pose proof (used_wf t U) as W. split.
  - intros E. assert (N : ~ all_read t).
    { intros [A B]. rewrite Try_phases in E. unfold bitStreamIsEmpty in E. rewrite (w_last _ W), A, B, Z.eqb_refl in E. discriminate. }
    split; [exact N|]. exists (repeat 0 64). split; [apply List.Forall_forall; intros y Hy; apply repeat_spec in Hy; subst y; unfold is_u8; lia|].
    pose proof (call_longer (repeat 0 64) t U N) as X. rewrite E in X. cbn [ext] in X.
    pose proof (TryGet_trip _ (with_more_wf (repeat 0 64) t W)) as T.
    unfold ends_beyond. destruct (TryGetMeasurement (with_more (repeat 0 64) t)) as [r t'|t'|].
    + left. exists r, t'. split; [reflexivity|exact X].
    + right. exists t'. split; [reflexivity|exact X].
    + exfalso. cbn [with_more position data] in T. rewrite len_app in T. change (len (repeat 0 64)) with 64 in T. pose proof (w_pos _ W). lia.
  - intros (N & x & _ & B). pose proof (call_longer x t U N) as X. pose proof (TryGet_trip t W) as T.
    destruct (TryGetMeasurement t) as [r t'|t'|]; [| |reflexivity]; exfalso; cbn [ext] in X;
    destruct T as (W' & D & _ & _); pose proof (w_pos _ W') as P; rewrite D in P;
    destruct B as [(r0 & t0 & B & L)|(t0 & B & L)]; rewrite X in B; try discriminate.
    + assert (t0 = more x t') as -> by congruence. cbn [more position] in L. lia.
    + assert (t0 = more x t') as -> by congruence. cbn [more position] in L. lia.
Qed.
Lemma result_prefix t x r t' : used t -> ~ all_read t -> TryGetMeasurement t = DOk r t' -> TryGetMeasurement (with_more x t) = DOk r (with_more x t').
Proof.
  intros U N E. pose proof (call_longer x t U N) as X. rewrite E in X. cbn [ext] in X. rewrite X. f_equal. symmetry. apply with_more_more.
  apply used_wf. apply (used_call _ _ _ U E).
Qed.
Lemma used_panic t : used t -> TryGetMeasurement t = DPanic -> len (data t) - position t < 64.
Proof. intros D E. pose proof (TryGet_trip t (used_wf t D) ) as T. rewrite E in T. lia. Qed.
Lemma used_inside t x t' : used t -> TryGetMeasurement t = DOk x t' ->
  data t' = data t /\ position t <= position t' <= len (data t).
Proof.
  intros D E. pose proof (TryGet_trip t (used_wf t D) ) as T. rewrite E in T. destruct T as (W & H1 & _ & H2).
  pose proof (w_pos _ W) as P. rewrite H1 in P. split; [exact H1|lia].
Qed.
Lemma used_ReadCode t : used t -> (exists code t', ReadCode t = DOk code t' /\ is_code code) \/ ReadCode t = DPanic.
Proof.
  intros D. destruct (ReadCode_trip t (used_wf t D)) as (_ & C & NE).
  destruct (ReadCode t) as [c t'|t'|] eqn:E; [left; exists c, t'; split; [reflexivity|apply (C _ _ eq_refl)]|exfalso; apply (NE t' eq_refl)|right; reflexivity].
Qed.
Lemma used_terminates t packet : used t -> forall fuel, 8 * len packet < Z.of_nat fuel ->
  decode_all fuel (SetBuffer t packet) = decode_all (S (Z.to_nat (8 * len packet))) (SetBuffer t packet) /\
  (forall l t', decode_all fuel (SetBuffer t packet) = DOk l t' -> len l <= 8 * len packet).
Proof.
  intros D fuel Hf. pose proof (SetBuffer_wf t packet (used_wf t D)) as W. pose proof (len_nonneg packet).
  assert (B : bits_left (SetBuffer t packet) = 8 * len packet).
  { unfold bits_left. change (data (SetBuffer t packet)) with packet. change (position (SetBuffer t packet)) with 0.
    change (bitStreamCount (SetBuffer t packet)) with 0. lia. }
  split.
  - apply decode_all_fuel; [exact W|lia|lia].
  - intros l t' E. destruct (decode_all_count _ _ _ _ W E) as [_ L]. lia.
Qed.
