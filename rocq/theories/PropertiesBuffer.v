(** C144: a metadata document is read as it was received, whatever is received after it. *)
From Coq Require Import List Bool Arith ZArith Lia.
From Verif Require Import ConcModel ConcProofs BufferModel BufferSpec BufferProofs.
Import ListNotations.
Open Scope list_scope.

(** Compressed metadata, whatever decompressing gives, under every schedule: the document
    read is the document received. *)
Theorem C144_compressed : forall unzip size ms, faithful (brun (Some unzip) size ms).
Proof.
  intros unzip size ms. enough (K : intact (brun (Some unzip) size ms) /\ owned (brun (Some unzip) size ms)) by exact (proj1 (proj1 K)).
  induction ms as [|m ms (I & O)] using rev_ind; [split; [split; [intros n d []|intros n g []]|intros n g []]|]. rewrite brun_snoc. apply unzipped; assumption.
Qed.
Print Assumptions C144_compressed.

(** Metadata that is not compressed: so, if nothing but packets without data is received
    before the document has been read.  Missing: anything else (refuted below). *)
Theorem C144_plain_partial : forall size ms, 6 <= size -> calm None size ms -> faithful (brun None size ms).
Proof. intros size ms Z C. exact (proj1 (proj1 (calm_keeps size ms Z C))). Qed.
Print Assumptions C144_plain_partial.

(** The goroutine is given the read buffer itself: whatever the document [d] and whatever
    the packet [p] that follows it (of the same length or more, in the same buffer), what
    is read as metadata can be the data of that packet. *)
Theorem C144_plain_refuted : forall size (d p : list Z),
  6 + length d <= length p -> length p <= size ->
  exists ms, let s := brun None size ms in
    nth_error (got s) 0 = Some d /\ seen s = [(0, firstn (length d) (skipn 6 p))].
Proof.
  intros size d p L1 L2. set (m := [128; 1; 0; 0; 0; 0]%Z ++ d). exists [Packet m; Packet p; Reads 0]. cbv zeta.
  set (s1 := brun None size [Packet m]).
  assert (S : sound (brun None size [])) by (split; [cbn; lia|split; [cbn [brun fold_left heap current nth]; rewrite repeat_length; lia|intros n x f k []]]).
  assert (I : intact (brun None size [])) by (split; [intros n x []|intros n g []]).
  destruct (calm_step (brun None size []) m I S (or_introl eq_refl)) as (_ & Sd). change (bstep None (brun None size []) (Packet m)) with s1 in Sd.
  assert (Lm : length m = 6 + length d) by (unfold m; rewrite app_length; reflexivity).
  assert (E1 : current s1 = 0 /\ waiting s1 = [(0, Part 0 6 (length d))] /\ got s1 = [d] /\ seen s1 = [] /\ length (nth 0 (heap s1) []) = size).
  { unfold s1, brun. cbn [fold_left bstep heap current nth set_nth]. 
    assert (W : length (write (repeat 0%Z size) (size_bytes (length m))) = size) by (rewrite write_length; rewrite repeat_length; [reflexivity|rewrite size_four; lia]).
    rewrite W. destruct (Nat.ltb_spec size (length m)) as [G|G]; [lia|]. cbn [nth set_nth]. change (is_metadata m) with true. cbn [current waiting got seen heap nth app].
    rewrite write_length by lia. rewrite W. replace (length m - 6) with (length d) by lia. repeat split. }
  destruct E1 as (E1 & E2 & E3 & E4 & E5). change (brun None size [Packet m; Packet p; Reads 0]) with (bstep None (bstep None s1 (Packet p)) (Reads 0)).
  pose proof (stored_sound s1 p Sd) as T. 
  assert (E : bstep None s1 (Packet p) = let '(h, c) := stored s1 p in
    if is_metadata p then BState h c (waiting s1 ++ [(length (got s1), Part c 6 (length p - 6))]) (got s1 ++ [skipn 6 p]) (seen s1) else BState h c (waiting s1) (got s1) (seen s1)) by reflexivity.
  assert (Ec : snd (stored s1 p) = 0).
  { unfold stored. cbn [snd]. rewrite E1. rewrite nth_set by (destruct Sd as (Q & _); rewrite E1 in Q; exact Q). cbn [Nat.eqb]. rewrite write_length by (rewrite size_four; lia). destruct (Nat.ltb_spec (length (nth 0 (heap s1) [])) (length p)); [lia|reflexivity]. }
  rewrite E. clear E. destruct (stored s1 p) as [h c0]. cbn [snd] in Ec. subst c0. destruct T as (_ & _ & _ & T4 & _). rewrite E2, E3, E4.
  assert (R : firstn (length d) (skipn 6 (nth 0 h [])) = firstn (length d) (skipn 6 p)) by (rewrite <- T4, firstn_firstn; f_equal; lia).
  destruct (is_metadata p); cbn [bstep waiting nth_error app got seen contents heap]; rewrite R; split; reflexivity.
Qed.
Print Assumptions C144_plain_refuted.

(** A document, a packet without data, the document read; then a longer one. *)
Example C144_nonvacuous :
  let ms := [Packet [128; 1; 0; 0; 0; 2; 65; 66]; Packet [133; 0; 0; 0; 0; 0]; Reads 0; Packet [128; 1; 0; 0; 0; 5; 71; 72; 73; 74; 75]; Reads 0]%Z in
  calm None 8 ms /\ seen (brun None 8 ms) = [(0%nat, [65; 66]); (1%nat, [71; 72; 73; 74; 75])]%Z /\ got (brun None 8 ms) = [[65; 66]; [71; 72; 73; 74; 75]]%Z.
Proof.
  intros ms. split; [|vm_compute; repeat split].
  apply (calm_reads None 8 (firstn 4 ms)). apply (calm_packet None 8 (firstn 3 ms)); [|left; reflexivity]. apply (calm_reads None 8 (firstn 2 ms)).
  apply (calm_packet None 8 (firstn 1 ms)); [|right; cbn; lia]. apply (calm_packet None 8 []); [constructor|left; reflexivity].
Qed.
(** The same two documents, the first read too late. *)
Example C144_nonvacuous_refuted :
  seen (brun None 16 [Packet [128; 1; 0; 0; 0; 2; 65; 66]; Packet [128; 1; 0; 0; 0; 5; 71; 72; 73; 74; 75]; Reads 0; Reads 0]%Z) = [(0%nat, [71; 72]); (1%nat, [71; 72; 73; 74; 75])]%Z.
Proof. reflexivity. Qed.
