(** A compressed packet is handled as at one moment. *)
From stdpp Require Import gmap.
From Coq Require Import Lia ZArith.
From Verif Require Import Base BaseProofs CompactModel CacheModel TsscModel SubscriberModel MixModel MixSpec MixProofs.
Open Scope Z_scope.

(** What parseTSSC does to the cache it is given. *)
Definition zcore (sc : scache) (data : bytes) (room : nat) : res (scache * bool * list measurement * list event) :=
  let newDecoder := match sc_decoder sc with None => true | Some _ => false end in
  let d := match sc_decoder sc with None => NewDecoder | Some d => d end in
  let* v := idx data 0 in
  if negb (v =? 85) then Ok (mkScache (sc_sic sc) (Some d), false, [], [EvError; EvTerminate])
  else
    let* t := slice_from data 1 in
    let* seq := be_u16 t in
    let ev := if (seq =? 0) && negb newDecoder && (0 <? SequenceNumber d) then [EvInfo] else [] in
    let d := if (seq =? 0) && negb newDecoder then NewDecoder else d in
    if negb (SequenceNumber d =? seq) then Ok (mkScache (sc_sic sc) (Some d), seq =? 0, [], ev)
    else
      let* body := slice_from data 3 in
      let '(ms, d, x) := tssc_loop (S (Z.to_nat (8 * len body))) (sc_sic sc) (SetBuffer d body) room in
      match x with
      | PPanic => Panic
      | PErr => Ok (mkScache (sc_sic sc) (Some d), seq =? 0, ms, ev ++ [EvError; EvTerminate])
      | PDone =>
          let n := u16 (SequenceNumber d + 1) in
          Ok (mkScache (sc_sic sc) (Some (set_seq d (if n =? 0 then 1 else n))), seq =? 0, ms, ev)
      end.
Definition zback (s : sub) (i : Z) (sc : scache) (reset : bool) : sub :=
  let s := set_cache s i sc in if reset then set_tsscResetRequested s false else s.
Lemma set_cache_twice s i a b : set_cache (set_cache s i a) i b = set_cache s i b.
Proof. unfold set_cache. destruct (i =? 0); reflexivity. Qed.
Lemma cache_set s i c : cache_at (set_cache s i c) i = c.
Proof. unfold cache_at, set_cache. destruct (i =? 0); reflexivity. Qed.
Lemma set_cache_same s i : set_cache s i (cache_at s i) = s.
Proof. unfold cache_at, set_cache. destruct s, (i =? 0); reflexivity. Qed.
Lemma reset_set s i c : set_cache (set_tsscResetRequested s false) i c = set_tsscResetRequested (set_cache s i c) false.
Proof. unfold set_cache. destruct (i =? 0); reflexivity. Qed.
Lemma parse_core s i data room : parseTSSC s i data room =
  match zcore (cache_at s i) data room with Ok (sc, r, ms, ev) => Ok (zback s i sc r, ms, ev) | Err => Err | Panic => Panic end.
Proof.
  unfold parseTSSC, zcore, zback. cbv zeta. destruct (idx data 0) as [v| |]; cbn [bind]; try reflexivity.
  destruct (negb (v =? 85)); [reflexivity|]. destruct (slice_from data 1) as [t| |]; cbn [bind]; try reflexivity.
  destruct (be_u16 t) as [seq| |]; cbn [bind]; try reflexivity.
  destruct (negb (_ =? seq)).
  { destruct (seq =? 0) eqn:Z0; cbn [andb]; [|reflexivity]. rewrite set_cache_twice. reflexivity. }
  destruct (slice_from data 3) as [b| |]; cbn [bind]; try reflexivity.
  destruct (tssc_loop _ _ _ _) as [[ms d] x]. destruct x; try reflexivity.
  - destruct (seq =? 0); rewrite ?reset_set, ?set_cache_twice; reflexivity.
  - destruct (seq =? 0); rewrite ?reset_set, ?set_cache_twice; reflexivity.
Qed.

(** Its effect on the state, and that of the stores. *)
Definition zend (s : sub) (i : Z) (sc : scache) (r : bool) (count : Z) : sub := let s := zback s i sc r in set_measTotal s (u64 (measTotal s + count)).
Definition replaces (second : bool) (w : store) : bool := match w with SCache i _ => Bool.eqb i second | _ => false end.
Lemma put_end s second sc r count w : replaces second w = false ->
  put (zend s (if second then 1 else 0) sc r count) w = zend (put s w) (if second then 1 else 0) sc r count.
Proof. destruct w as [k|[] c|[] v], second, r; cbn [replaces Bool.eqb]; intros H; try discriminate H; reflexivity. Qed.
(** After a replacement only the other changes are left. *)
Definition zrest (s : sub) (r : bool) (count : Z) : sub := let s := if r then set_tsscResetRequested s false else s in set_measTotal s (u64 (measTotal s + count)).
Lemma put_rest s r count w : put (zrest s r count) w = zrest (put s w) r count.
Proof. destruct w as [k|[] c|[] v], r; reflexivity. Qed.
Lemma put_end_replaced s second sc r count w : replaces second w = true ->
  put (zend s (if second then 1 else 0) sc r count) w = zrest (put s w) r count.
Proof. destruct w as [k|[] c|[] v], second, r; cbn [replaces Bool.eqb]; intros H; try discriminate H; reflexivity. Qed.
Lemma put_cache s (second : bool) w : cache_at (put s w) (if second then 1 else 0) =
  match w with SCache i c => if Bool.eqb i second then mkScache c None else cache_at s (if second then 1 else 0) | _ => cache_at s (if second then 1 else 0) end.
Proof. destruct w as [k|[] c|[] v], second; reflexivity. Qed.

Lemma put_all_app s a b : put_all s (a ++ b) = put_all (put_all s a) b.
Proof. apply fold_left_app. Qed.
Lemma rest_all r count ws : forall s, put_all (zrest s r count) ws = zrest (put_all s ws) r count.
Proof. induction ws as [|w ws IH]; intros s; [reflexivity|]. unfold put_all in *. cbn [fold_left]. rewrite put_rest. apply IH. Qed.
Lemma zmixed_done e pool p r sched : forall s, zmixed e pool p s (ZDone r) sched = (put_all s (stores_of sched), ZDone r).
Proof. induction sched as [|[|w] l IH]; intros s; [reflexivity|exact (IH s)|exact (IH (put s w))]. Qed.
Lemma end_all sc (second : bool) r count ws : forall s,
  put_all (zend s (if second then 1 else 0) sc r count) ws =
  if existsb (replaces second) ws then zrest (put_all s ws) r count else zend (put_all s ws) (if second then 1 else 0) sc r count.
Proof.
  induction ws as [|w ws IH]; intros s; [reflexivity|]. cbn [put_all fold_left existsb]. fold (put_all (put s w) ws).
  destruct (replaces second w) eqn:R; cbn [orb].
  - rewrite put_end_replaced by exact R. apply rest_all.
  - rewrite put_end by exact R. apply IH.
Qed.
Lemma all_cache (second : bool) ws : forall s, existsb (replaces second) ws = false -> cache_at (put_all s ws) (if second then 1 else 0) = cache_at s (if second then 1 else 0).
Proof.
  induction ws as [|w ws IH]; intros s H; [reflexivity|]. cbn [existsb] in H. apply orb_false_iff in H as [H1 H2].
  unfold put_all in *. cbn [fold_left]. rewrite IH by exact H2. rewrite put_cache. destruct w; try reflexivity. cbn [replaces] in H1. rewrite H1. reflexivity.
Qed.

(** From the fetching of the cache on: [ws] has been stored since. *)
Lemma zparse e pool p s0 count (second : bool) body sched : forall ws, (1 <= turns sched)%nat ->
  zmixed e pool p (put_all s0 ws) (ZParse count second (cache_at s0 (if second then 1 else 0)) (existsb (replaces second) ws) body) sched =
  match parseTSSC s0 (if second then 1 else 0) body (length (destination pool count)) with
  | Ok (s', ms, ev) => (put_all (set_measTotal s' (u64 (measTotal s' + count))) (ws ++ stores_of sched),
                        ZDone (Ok (ev ++ [EvMeasurements (ms ++ skipn (length ms) (destination pool count))])))
  | _ => (put_all s0 (ws ++ stores_of sched), ZDone Panic)
  end.
Proof.
  induction sched as [|[|w] l IH]; intros ws T; [cbn in T; lia| |].
  - clear IH T. cbn [zmixed zstep]. cbv zeta. rewrite !parse_core, cache_set.
    change (stores_of (Data :: l)) with (stores_of l). rewrite !put_all_app.
    destruct (zcore _ _ _) as [[[[sc r] ms] ev]| |]; rewrite zmixed_done; try reflexivity.
    change (set_measTotal (zback s0 (if second then 1 else 0) sc r) (u64 (measTotal (zback s0 (if second then 1 else 0) sc r) + count))) with (zend s0 (if second then 1 else 0) sc r count).
    rewrite put_all_app, end_all. f_equal. f_equal.
    set (t := put_all s0 ws). destruct (existsb (replaces second) ws).
    + unfold zback, zrest. rewrite set_cache_twice. destruct r; rewrite ?reset_set, set_cache_twice, set_cache_same; reflexivity.
    + unfold zback, zend, zback. rewrite set_cache_twice. reflexivity.
  - cbn [zmixed]. change (stores_of (Store w :: l)) with (w :: stores_of l).
    replace (zreplace w (ZParse count second (cache_at s0 (if second then 1 else 0)) (existsb (replaces second) ws) body))
      with (ZParse count second (cache_at s0 (if second then 1 else 0)) (existsb (replaces second) (ws ++ [w])) body).
    2:{ rewrite existsb_app. cbn [existsb]. rewrite orb_false_r. destruct w; cbn [zreplace replaces]; rewrite ?orb_false_r; reflexivity. }
    replace (put (put_all s0 ws) w) with (put_all s0 (ws ++ [w])) by (unfold put_all; rewrite fold_left_app; reflexivity).
    rewrite IH by exact T. rewrite <- app_assoc. reflexivity.
Qed.

Lemma put_key odd w s K : key_for (keyIVs s) odd = K -> (forall k, w = SKeys k -> key_for k odd = K) -> key_for (keyIVs (put s w)) odd = K.
Proof. intros H1 H2. destruct w as [k|[] c|[] v]; cbn [put]; try exact H1. exact (H2 k eq_refl). Qed.

(** Stores before a step can be moved before the packet. *)
Lemma zplain e pool p flags data sched : forall s, (2 <= turns sched)%nat ->
  exists before after, stores_of sched = before ++ after /\ let s0 := put_all s before in
  zmixed e pool p s (ZPlain flags data) sched =
  match (let* count := be_u32 data in
         let* body := slice_from data 4 in
         let* (r, ev) := parseTSSC s0 (if 0 <? Z.land flags df_CacheIndex then 1 else 0) body (length (destination pool count)) in
         let '(s', ms) := r in
         done (set_measTotal s' (u64 (measTotal s' + count))) (ev ++ [EvMeasurements (ms ++ skipn (length ms) (destination pool count))])) with
  | Ok (s', ev) => (put_all s' after, ZDone (Ok ev))
  | _ => (put_all s (stores_of sched), ZDone Panic)
  end.
Proof.
  induction sched as [|[|w] l IH]; intros s T; [cbn in T; lia| |].
  - exists [], (stores_of l). split; [reflexivity|]. cbn [put_all fold_left zmixed zstep]. cbv zeta. change (stores_of (Data :: l)) with (stores_of l).
    destruct (be_u32 data) as [count| |] eqn:B; [|exfalso; exact (be_not_err _ _ B)|]; cbn [bind zof]; [|apply zmixed_done].
    destruct (slice_from data 4) as [body| |] eqn:B4; [|exfalso; exact (slice_not_err _ _ B4)|]; cbn [bind]; [|apply zmixed_done].
    pose proof (zparse e pool p s count (0 <? Z.land flags df_CacheIndex) body l [] ltac:(cbn in T; unfold turns; lia)) as Q.
    cbn [put_all fold_left existsb app] in Q. rewrite Q. destruct (parseTSSC _ _ _ _) as [[[s' ms] ev]| |]; reflexivity.
  - cbn [zmixed]. change (zreplace w (ZPlain flags data)) with (ZPlain flags data).
    destruct (IH (put s w) T) as (b & a & E & H). exists (w :: b), a. split; [change (stores_of (Store w :: l)) with (w :: stores_of l); rewrite E; reflexivity|].
    exact H.
Qed.

Definition zresult (s : sub) (after all : list store) (r : step) : sub * zat -> Prop := fun x =>
  match r with Ok (s', ev) => x = (put_all s' after, ZDone (Ok ev)) | _ => x = (put_all s all, ZDone Panic) end.
Lemma compressed_serial e pool p flags odd sched : forall s, idx p 0 = Ok flags -> (0 <? Z.land flags df_Compressed) = true ->
  odd = (0 <? Z.land flags df_CipherIndex) ->
  (forall k, In (SKeys k) (stores_of sched) -> key_for k odd = key_for (keyIVs s) odd) -> (4 <= turns sched)%nat ->
  exists before after, stores_of sched = before ++ after /\
    zresult s after (stores_of sched) (handleDataPacket e pool (put_all s before) p) (zmixed e pool p s ZStart sched).
Proof.
  intros s F C O. revert s.
  assert (KEYS : forall ws s, (forall k, In (SKeys k) ws -> key_for k odd = key_for (keyIVs s) odd) -> key_for (keyIVs (put_all s ws)) odd = key_for (keyIVs s) odd).
  { induction ws as [|w ws IH]; intros s H; [reflexivity|]. unfold put_all. cbn [fold_left].
    assert (P1 : key_for (keyIVs (put s w)) odd = key_for (keyIVs s) odd) by (apply put_key; [reflexivity|intros k ->; apply H; left; reflexivity]).
    rewrite <- P1. apply IH. intros k I1. rewrite P1. apply H. right. exact I1. }
  (* the data after decryption *)
  assert (HAND : forall s data, slice_from p 1 = Ok data ->
    handleDataPacket e pool s p =
    match match key_for (keyIVs s) odd with None => Ok data | Some k => decipherAES e (fst k) (snd k) data end with
    | Panic => Panic
    | Err => done s [EvError; EvTerminate]
    | Ok data => let* count := be_u32 data in
         let* body := slice_from data 4 in
         let* (r, ev) := parseTSSC s (if 0 <? Z.land flags df_CacheIndex then 1 else 0) body (length (destination pool count)) in
         let '(s', ms) := r in
         done (set_measTotal s' (u64 (measTotal s' + count))) (ev ++ [EvMeasurements (ms ++ skipn (length ms) (destination pool count))])
    end).
  { intros s data S1. unfold handleDataPacket. rewrite F. cbn [bind]. cbv zeta. rewrite C, S1. cbn [negb andb bind]. rewrite <- O.
    destruct (keyIVs s) as [[k0 k1]|]; cbn [key_for]; reflexivity. }
  assert (PLAIN : forall l s data plain, slice_from p 1 = Ok data -> (2 <= turns l)%nat ->
    (forall k, In (SKeys k) (stores_of l) -> key_for k odd = key_for (keyIVs s) odd) ->
    match key_for (keyIVs s) odd with None => Ok data | Some k => decipherAES e (fst k) (snd k) data end = Ok plain ->
    exists before after, stores_of l = before ++ after /\
    zresult s after (stores_of l) (handleDataPacket e pool (put_all s before) p) (zmixed e pool p s (ZPlain flags plain) l)).
  { intros l s data plain S1 T K D. destruct (zplain e pool p flags plain l s T) as (b & a & E & H). exists b, a. split; [exact E|].
    rewrite (HAND _ data S1), KEYS by (intros k I1; apply K; rewrite E; apply in_or_app; left; exact I1). rewrite D. cbv zeta in H. unfold zresult.
    destruct (let* count := be_u32 plain in _) as [[s' ev]| |]; exact H. }
  assert (SEALED : forall l s data, slice_from p 1 = Ok data -> (3 <= turns l)%nat -> key_for (keyIVs s) odd <> None ->
    (forall k, In (SKeys k) (stores_of l) -> key_for k odd = key_for (keyIVs s) odd) ->
    exists before after, stores_of l = before ++ after /\
    zresult s after (stores_of l) (handleDataPacket e pool (put_all s before) p) (zmixed e pool p s (ZSealed flags data) l)).
  { induction l as [|[|w] l IH]; intros s data S1 T KN K; [cbn in T; lia| |].
    - change (stores_of (Data :: l)) with (stores_of l) in *. cbn [zmixed zstep]. rewrite <- O. destruct (keyIVs s) as [[k0 k1]|] eqn:KS; [|exfalso; apply KN; reflexivity]. cbv zeta.
      cbn [key_for] in K. set (k := if odd then k1 else k0) in *.
      destruct (decipherAES e (fst k) (snd k) data) as [plain| |] eqn:D; cbn [zof].
      + apply (PLAIN l s data plain S1); [cbn in T; unfold turns; lia|rewrite KS; exact K|rewrite KS; cbn [key_for]; exact D].
      + exists [], (stores_of l). split; [reflexivity|]. cbn [put_all fold_left]. rewrite (HAND _ data S1), KS. cbn [key_for].
        match goal with |- context [decipherAES e ?a ?b data] => replace (decipherAES e a b data) with (@Err bytes) by (symmetry; exact D) end.
        cbn [zresult done]. apply zmixed_done.
      + exists [], (stores_of l). split; [reflexivity|]. cbn [put_all fold_left]. rewrite (HAND _ data S1), KS. cbn [key_for].
        match goal with |- context [decipherAES e ?a ?b data] => replace (decipherAES e a b data) with (@Panic bytes) by (symmetry; exact D) end.
        cbn [zresult done]. apply zmixed_done.
    - cbn [zmixed]. change (zreplace w (ZSealed flags data)) with (ZSealed flags data).
      assert (P1 : key_for (keyIVs (put s w)) odd = key_for (keyIVs s) odd) by (apply put_key; [reflexivity|intros k ->; apply K; left; reflexivity]).
      destruct (IH (put s w) data S1 T ltac:(rewrite P1; exact KN)) as (b & a & E & H).
      { intros k I1. rewrite P1. apply K. right. exact I1. }
      exists (w :: b), a. split; [change (stores_of (Store w :: l)) with (w :: stores_of l); rewrite E; reflexivity|exact H]. }
  induction sched as [|[|w] l IH]; intros s K T; [cbn in T; lia| |].
  - change (stores_of (Data :: l)) with (stores_of l) in *. cbn [zmixed zstep]. rewrite F. cbn [zof].
    destruct (slice_from p 1) as [data| |] eqn:S1; [|exfalso; exact (slice_not_err _ _ S1)|].
    2:{ exists [], (stores_of l). split; [reflexivity|]. cbn [put_all fold_left]. unfold handleDataPacket. rewrite F. cbn [bind]. cbv zeta. rewrite C, S1. cbn [negb andb bind zresult]. apply zmixed_done. }
    destruct (keyIVs s) as [[k0 k1]|] eqn:KS.
    + apply SEALED; [reflexivity|cbn in T; unfold turns; lia|rewrite KS; discriminate|rewrite KS; exact K].
    + apply (PLAIN l s data data eq_refl); [cbn in T; unfold turns; lia|rewrite KS; exact K|rewrite KS; reflexivity].
  - cbn [zmixed]. change (zreplace w ZStart) with ZStart.
    assert (P1 : key_for (keyIVs (put s w)) odd = key_for (keyIVs s) odd) by (apply put_key; [reflexivity|intros k ->; apply K; left; reflexivity]).
    destruct (IH (put s w)) as (b & a & E & H); [intros k I1; rewrite P1; apply K; right; exact I1|exact T|].
    exists (w :: b), a. split; [change (stores_of (Store w :: l)) with (w :: stores_of l); rewrite E; reflexivity|exact H].
Qed.

(** What is reported depends only on the key and the cache that the packet names. *)
Definition reported (r : step) : res (list event) := match r with Ok (_, ev) => Ok ev | Err => Err | Panic => Panic end.
Lemma same_report e pool s t p flags : idx p 0 = Ok flags -> (0 <? Z.land flags df_Compressed) = true ->
  key_for (keyIVs s) (0 <? Z.land flags df_CipherIndex) = key_for (keyIVs t) (0 <? Z.land flags df_CipherIndex) ->
  cache_at s (if 0 <? Z.land flags df_CacheIndex then 1 else 0) = cache_at t (if 0 <? Z.land flags df_CacheIndex then 1 else 0) ->
  reported (handleDataPacket e pool s p) = reported (handleDataPacket e pool t p).
Proof.
  intros F C K CA. unfold handleDataPacket. rewrite F. cbn [bind]. cbv zeta. rewrite C. cbn [negb andb].
  destruct (slice_from p 1) as [data| |]; cbn [bind]; try reflexivity.
  assert (E : match keyIVs s with None => Ok data | Some (even, odd) => decipherAES e (fst (if 0 <? Z.land flags df_CipherIndex then odd else even)) (snd (if 0 <? Z.land flags df_CipherIndex then odd else even)) data end =
              match keyIVs t with None => Ok data | Some (even, odd) => decipherAES e (fst (if 0 <? Z.land flags df_CipherIndex then odd else even)) (snd (if 0 <? Z.land flags df_CipherIndex then odd else even)) data end).
  { destruct (keyIVs s) as [[k0 k1]|], (keyIVs t) as [[k0' k1']|]; cbn [key_for] in K; try discriminate K; [|reflexivity].
    assert (K' : (if 0 <? Z.land flags df_CipherIndex then k1 else k0) = (if 0 <? Z.land flags df_CipherIndex then k1' else k0')) by (injection K as K1; exact K1).
    rewrite K'. reflexivity. }
  match type of E with _ = ?r => rewrite E; clear E; destruct r as [plain| |]; try reflexivity end.
  destruct (be_u32 plain) as [count| |]; cbn [bind]; try reflexivity. destruct (slice_from plain 4) as [body| |]; cbn [bind]; try reflexivity.
  rewrite !parse_core, CA. destruct (zcore _ _ _) as [[[[sc r] ms] ev]| |]; reflexivity.
Qed.
Lemma compressed_unrelated e pool p flags sched s : idx p 0 = Ok flags -> (0 <? Z.land flags df_Compressed) = true ->
  (forall k, In (SKeys k) (stores_of sched) -> key_for k (0 <? Z.land flags df_CipherIndex) = key_for (keyIVs s) (0 <? Z.land flags df_CipherIndex)) ->
  (forall c, ~ In (SCache (0 <? Z.land flags df_CacheIndex) c) (stores_of sched)) -> (4 <= turns sched)%nat ->
  snd (zmixed e pool p s ZStart sched) = ZDone (reported (handleDataPacket e pool s p)).
Proof.
  intros F C K N T. set (odd := 0 <? Z.land flags df_CipherIndex) in *.
  destruct (compressed_serial e pool p flags odd sched s F C eq_refl K T) as (b & a & E & H).
  assert (KB : key_for (keyIVs (put_all s b)) odd = key_for (keyIVs s) odd).
  { assert (KK : forall k, In (SKeys k) b -> key_for k odd = key_for (keyIVs s) odd) by (intros k I1; apply K; rewrite E; apply in_or_app; left; exact I1).
    clear - KK. revert s KK. induction b as [|w b IH]; intros s KK; [reflexivity|]. unfold put_all. cbn [fold_left].
    assert (P1 : key_for (keyIVs (put s w)) odd = key_for (keyIVs s) odd) by (apply put_key; [reflexivity|intros k ->; apply KK; left; reflexivity]).
    rewrite <- P1. apply IH. intros k I1. rewrite P1. apply KK. right. exact I1. }
  assert (CB : cache_at (put_all s b) (if 0 <? Z.land flags df_CacheIndex then 1 else 0) = cache_at s (if 0 <? Z.land flags df_CacheIndex then 1 else 0)).
  { apply all_cache. destruct (existsb _ b) eqn:X; [|reflexivity]. exfalso. apply existsb_exists in X as (w & I1 & R). destruct w as [k|i c|i v]; try discriminate R.
    apply Bool.eqb_prop in R. subst i. apply (N c). rewrite E. apply in_or_app. left. exact I1. }
  pose proof (same_report e pool (put_all s b) s p flags F C KB CB) as R. unfold zresult in H.
  destruct (handleDataPacket e pool (put_all s b) p) as [[s' ev]| |] eqn:HD; rewrite H; cbn [snd reported] in *; rewrite <- R; try reflexivity.
  exfalso. unfold handleDataPacket in HD. rewrite F in HD. cbn [bind] in HD. cbv zeta in HD. rewrite C in HD. cbn [negb andb] in HD.
  destruct (slice_from p 1) as [data| |] eqn:S1; cbn [bind] in HD; try discriminate HD; [|exact (slice_not_err _ _ S1)].
  match type of HD with (match ?x with Ok _ => _ | Err => _ | Panic => _ end) = _ => destruct x as [plain| |]; try discriminate HD end.
  destruct (be_u32 plain) as [count| |] eqn:B; cbn [bind] in HD; try discriminate HD; [|exact (be_not_err _ _ B)].
  destruct (slice_from plain 4) as [body| |] eqn:B4; cbn [bind] in HD; try discriminate HD; [|exact (slice_not_err _ _ B4)].
  rewrite parse_core in HD. destruct (zcore _ _ _) as [[[[sc r] ms] ev]| |] eqn:ZC; cbn [bind] in HD; try discriminate HD.
  unfold zcore in ZC. cbv zeta in ZC. destruct (idx body 0) as [v| |] eqn:I0; cbn [bind] in ZC; try discriminate ZC.
  2:{ unfold idx in I0. change (0 <? 0) with false in I0. cbv iota in I0. destruct (nth_error body (Z.to_nat 0)); discriminate I0. }
  destruct (negb (v =? 85)); [discriminate ZC|].
  destruct (slice_from body 1) as [t| |] eqn:S1'; cbn [bind] in ZC; try discriminate ZC; [|exact (slice_not_err _ _ S1')].
  destruct (be_u16 t) as [q| |] eqn:B2; cbn [bind] in ZC; try discriminate ZC; [|exact (be_not_err _ _ B2)].
  match type of ZC with (if ?x then _ else _) = _ => destruct x; [discriminate ZC|] end.
  destruct (slice_from body 3) as [z| |] eqn:S3; cbn [bind] in ZC; try discriminate ZC; [|exact (slice_not_err _ _ S3)].
  destruct (tssc_loop _ _ _ _) as [[ms d] x]. destruct x; discriminate ZC.
Qed.
