(** What the conversions of identifiers do to memory (C05). *)
From Coq Require Import Lia.
From Verif Require Import Base BaseProofs GuidModel GuidMemModel.
Open Scope Z_scope.

Lemma put_at_last (h : heap) a v : put_at (h ++ [a]) (length h) v = h ++ [v].
Proof. induction h; cbn; congruence. Qed.
Lemma nth_last (h : heap) a : nth (length h) (h ++ [a]) [] = a.
Proof. rewrite app_nth2 by lia. now rewrite Nat.sub_diag. Qed.

(** The sixteen bytes read. *)
Definition byte_at (h : heap) (d : gslice) (i : nat) : Z := nth (g_start d + i) (nth (g_array d) h []) 0.
Lemma load_old h d i b : (i < g_len d)%nat -> (g_array d < length h)%nat -> load (h ++ [b]) d i = Ok (byte_at h d i).
Proof.
  intros I A. unfold load, byte_at. destruct (Nat.ltb_spec i (g_len d)); [|lia]. rewrite app_nth1 by exact A. reflexivity.
Qed.
Lemma save_new h b i v : (i < 16)%nat -> save (h ++ [b]) (GSlice (length h) 0 16) i v = Ok (h ++ [put_at b i v]).
Proof.
  intros I. unfold save. cbn [g_len g_array g_start]. destruct (Nat.ltb_spec i 16); [|lia].
  rewrite nth_last, put_at_last. reflexivity.
Qed.
Lemma load_new h b i : (i < 16)%nat -> load (h ++ [b]) (GSlice (length h) 0 16) i = Ok (nth i b 0).
Proof. intros I. unfold load. cbn [g_len g_array g_start]. destruct (Nat.ltb_spec i 16); [|lia]. rewrite nth_last. reflexivity. Qed.

Lemma loop_step left i h d b c : (g_array d < length h)%nat -> (i < g_len d)%nat -> (i < 16)%nat -> length b = 16%nat ->
  swap_loop (S left) i (h ++ [b]) d (GSlice (length h) 0 16) c =
  swap_loop left (S i) (h ++ [put_at b i (byte_at h d i)]) d (GSlice (length h) 0 16)
    (if (i <? 8)%nat then put_at c i (byte_at h d i) else c).
Proof.
  intros A I B LB. cbn [swap_loop]. rewrite load_old by assumption. cbn [bind]. rewrite save_new by exact B. cbn [bind].
  rewrite load_new by exact B. cbn [bind].
  assert (nth i (put_at b i (byte_at h d i)) 0 = byte_at h d i) as ->; [|reflexivity].
  assert (K : (i < length b)%nat) by lia. clear - K. revert i K. generalize (byte_at h d). intros f.
  assert (G : forall i x, (i < length b)%nat -> nth i (put_at b i x) 0 = x).
  { induction b as [|y b IH]; intros [|i] x K; cbn in *; try lia. apply IH. lia. }
  intros i K. apply G, K.
Qed.
Lemma assign_step to from rest h b c : (to < 16)%nat ->
  swap_assign ((to, from) :: rest) (h ++ [b]) (GSlice (length h) 0 16) c =
  swap_assign rest (h ++ [put_at b to (nth from c 0)]) (GSlice (length h) 0 16) c.
Proof. intros T. cbn [swap_assign]. rewrite save_new by exact T. reflexivity. Qed.

Lemma swapMem_ok h d : (g_array d < length h)%nat -> (16 <= g_len d)%nat ->
  swapMem h d = Ok (h ++ [swapGuidEndianness (map (byte_at h d) (seq 0 16))], GSlice (length h) 0 16).
Proof.
  intros A N. unfold swapMem, make. cbn [repeat].
  do 16 (rewrite loop_step by first [exact A|lia|reflexivity]; cbn [put_at Nat.ltb Nat.leb]).
  change (swap_loop 0 ?i ?x ?y ?z ?c) with (Ok (x, c)). cbn [bind fst snd]. unfold swap_moves.
  do 8 (rewrite assign_step by lia; cbn [put_at nth]).
  cbn [swap_assign bind]. cbn [seq map]. unfold swapGuidEndianness. cbn [nth]. reflexivity.
Qed.

Lemma nth_drop (l : bytes) o n : nth n (skipn o l) 0 = nth (o + n) l 0.
Proof. revert l. induction o as [|o IH]; intros [|x l]; cbn; try reflexivity; [destruct n; reflexivity|]. apply IH. Qed.
Lemma contents_bytes h d n : (n <= g_len d)%nat -> in_heap h d ->
  map (byte_at h d) (seq 0 n) = firstn n (contents h d).
Proof.
  intros N I. unfold in_heap in I. unfold contents. rewrite firstn_firstn, Nat.min_l by exact N.
  unfold byte_at. set (l := nth (g_array d) h []) in *. clearbody l.
  assert (K : (g_start d + n <= length l)%nat) by lia. clear I N. revert K. generalize (g_start d). intros o.
  revert o l. induction n as [|n IH]; intros o l K; [reflexivity|].
  rewrite seq_S, map_app. cbn [map]. rewrite (IH o l) by lia. cbn [plus].
  assert (E : nth (o + n) l 0 = nth n (skipn o l) 0) by (rewrite nth_drop; reflexivity). rewrite E.
  assert (n < length (skipn o l))%nat as Q by (rewrite skipn_length; lia). revert Q. generalize (skipn o l). clear.
  induction n as [|n IH]; intros [|x l] Q; cbn in Q; try lia; [reflexivity|]. cbn [firstn app nth]. f_equal. apply IH. lia.
Qed.
Lemma swap16 l : swapGuidEndianness (firstn 16 l) = swapGuidEndianness l.
Proof.
  unfold swapGuidEndianness. do 16 (destruct l as [|? l]; [reflexivity|]). reflexivity.
Qed.

Lemma contents_new h b : contents (h ++ [b]) (GSlice (length h) 0 16) = firstn 16 b.
Proof. unfold contents. cbn [g_array g_start g_len skipn]. rewrite nth_last. reflexivity. Qed.

(** Every array that existed stays as it was. *)
Definition extends (h h' : heap) : Prop := exists fresh, h' = h ++ fresh.

Lemma FromBytesMem_ok h d swap : (g_array d < length h)%nat -> in_heap h d ->
  exists h', extends h h' /\ FromBytesMem h d swap = Ok (h', FromBytes (contents h d) swap).
Proof.
  intros A I. assert (LC : length (contents h d) = g_len d).
  { unfold contents, in_heap in *. rewrite firstn_length, skipn_length. lia. }
  unfold FromBytesMem, FromBytes. unfold len. rewrite LC.
  destruct (Nat.ltb_spec (g_len d) 16).
  - exists h. split; [exists []; now rewrite app_nil_r|]. destruct (Z.ltb_spec (Z.of_nat (g_len d)) 16); [reflexivity|lia].
  - destruct (Z.ltb_spec (Z.of_nat (g_len d)) 16); [lia|]. destruct swap.
    + rewrite swapMem_ok by assumption. cbn [bind fst snd]. eexists. split; [eexists; reflexivity|].
      rewrite contents_new, contents_bytes by assumption. rewrite swap16. reflexivity.
    + exists h. split; [exists []; now rewrite app_nil_r|]. reflexivity.
Qed.
Lemma ToBytesMem_ok h g swap : length g = 16%nat ->
  exists h' s, extends h h' /\ ToBytesMem h g swap = Ok (h', s) /\ contents h' s = ToBytes g swap /\
    (length h <= g_array s < length h')%nat /\ in_heap h' s /\ g_len s = 16%nat.
Proof.
  intros G. unfold ToBytesMem, ToBytes. cbv zeta. destruct swap.
  - rewrite swapMem_ok by (cbn; rewrite ?app_length; cbn; lia).
    match goal with |- context [swapGuidEndianness (map ?f ?l)] => assert (E : map f l = g) end.
    { rewrite contents_bytes by (try (cbn; lia); unfold in_heap; cbn; rewrite nth_last; lia).
      rewrite contents_new, firstn_firstn. cbn [Nat.min]. rewrite <- G. apply firstn_all. }
    rewrite E. eexists _, _. split; [exists ([g] ++ [swapGuidEndianness g])|split; [reflexivity|split; [|split; [|split]]]].
    + rewrite app_assoc. reflexivity.
    + rewrite contents_new. reflexivity.
    + cbn [g_array]. rewrite !app_length. cbn. lia.
    + unfold in_heap. cbn [g_array g_start g_len]. rewrite nth_last. cbn. lia.
    + reflexivity.
  - eexists _, _. split; [exists [g]; reflexivity|]. split; [reflexivity|]. unfold contents, in_heap. cbn [g_array g_start g_len]. rewrite nth_last.
    split; [cbn [skipn]; rewrite <- G; apply firstn_all|]. rewrite app_length. cbn. split; [lia|]. split; [lia|reflexivity].
Qed.

Lemma extends_contents h h' t : extends h h' -> (g_array t < length h)%nat -> contents h' t = contents h t.
Proof. intros (f & ->) T. unfold contents. rewrite app_nth1 by exact T. reflexivity. Qed.
Lemma put_at_other {A} (l : list A) n m x d : n <> m -> nth m (put_at l n x) d = nth m l d.
Proof. revert n m. induction l as [|a l IH]; intros [|n] [|m] N; cbn; try reflexivity; try congruence. apply IH. lia. Qed.
Lemma save_other h s i v h' t : save h s i v = Ok h' -> g_array t <> g_array s -> contents h' t = contents h t.
Proof.
  unfold save. destruct (i <? g_len s)%nat; [|discriminate]. intros E N. injection E as <-. unfold contents.
  rewrite put_at_other by congruence. reflexivity.
Qed.

Lemma from_bytes_memory h s swap : (g_array s < length h)%nat -> in_heap h s ->
  exists h', FromBytesMem h s swap = Ok (h', FromBytes (contents h s) swap) /\
    forall t, (g_array t < length h)%nat -> contents h' t = contents h t.
Proof.
  intros A I. destruct (FromBytesMem_ok h s swap A I) as (h' & X & E). exists h'. split; [exact E|].
  intros t. apply extends_contents, X.
Qed.
Lemma to_bytes_memory h g swap : length g = 16%nat ->
  exists h' s, ToBytesMem h g swap = Ok (h', s) /\ contents h' s = ToBytes g swap /\
    (forall t, (g_array t < length h)%nat -> contents h' t = contents h t) /\
    (forall i v, (i < 16)%nat -> exists h'', save h' s i v = Ok h'' /\
       forall t, (g_array t < length h)%nat -> contents h'' t = contents h t).
Proof.
  intros G. destruct (ToBytesMem_ok h g swap G) as (h' & s & X & E & C & A & I & L). exists h', s.
  split; [exact E|]. split; [exact C|]. assert (K := fun t => extends_contents h h' t X). split; [exact K|].
  intros i v B. unfold save. rewrite L. destruct (Nat.ltb_spec i 16); [|lia]. eexists. split; [reflexivity|].
  intros t T. rewrite <- (K t T). eapply (save_other h' s i v _ t).
  - unfold save. rewrite L. destruct (Nat.ltb_spec i 16); [reflexivity|lia].
  - lia.
Qed.
