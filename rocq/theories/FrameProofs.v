(** Lemmas about framing, operational modes and connection strings. *)
From Coq Require Import String Ascii Lia Zify ZifyBool ZifyNat.
From Verif Require Import Base BaseProofs FormatModel FormatSpec FormatProofs CompactProofs FrameModel FrameSpec.
Open Scope Z_scope.
Ltac Zify.zify_post_hook ::= Z.div_mod_to_equations.

Lemma skipn_skipn' {A} (l : list A) : forall a b, skipn a (skipn b l) = skipn (b + a) l.
Proof.
  induction l as [|x l IH]; intros a [|b]; cbn [skipn Nat.add]; try reflexivity.
  - destruct a; reflexivity.
  - apply IH.
Qed.

(** ** Sending *)
Lemma slice0 {A} (l : list A) n : 0 <= n <= len l -> slice l 0 n = Ok (firstn (Z.to_nat n) l).
Proof.
  intros H. unfold slice. replace ((0 <? 0) || (n <? 0) || (len l <? n)) with false by lia.
  rewrite Z.sub_0_r. reflexivity.
Qed.

Lemma write_loop_ok data : forall buf (i : nat), (5 + i + length data <= length buf)%nat ->
  write_loop buf (Z.of_nat i) data =
  Ok (firstn (5 + i) buf ++ data ++ skipn (5 + i + length data) buf).
Proof.
  induction data as [|b data IH]; intros buf i H; cbn [write_loop].
  - cbn [app length]. rewrite Nat.add_0_r, firstn_skipn. reflexivity.
  - cbn [length] in H. replace (5 + Z.of_nat i) with (Z.of_nat (5 + i)) by lia.
    rewrite upd_ok by lia. cbn [bind]. replace (Z.of_nat i + 1) with (Z.of_nat (S i)) by lia.
    rewrite IH by (rewrite upd_length by lia; lia). f_equal.
    set (P := firstn (5 + i) buf). set (Q := skipn (S (5 + i)) buf).
    assert (LP : length P = (5 + i)%nat) by (unfold P; rewrite firstn_length; lia).
    replace (5 + S i)%nat with (length P + 1)%nat by lia.
    rewrite firstn_app_2. cbn [firstn]. rewrite <- app_assoc. cbn [app]. f_equal. f_equal. f_equal.
    rewrite skipn_app. rewrite skipn_all2 by lia. cbn [app].
    replace (length P + 1 + length data - length P)%nat with (S (length data)) by lia.
    cbn [skipn]. unfold Q. rewrite skipn_skipn'. f_equal. cbn [length]. lia.
Qed.

Lemma write_loop_panic data : forall buf (i : nat), (length buf >= 5)%nat ->
  (length buf < 5 + i + length data)%nat -> (data <> [])  ->
  write_loop buf (Z.of_nat i) data = Panic.
Proof.
  induction data as [|b data IH]; intros buf i Hb H Hne; [congruence|]. cbn [write_loop]. cbn [length] in H.
  replace (5 + Z.of_nat i) with (Z.of_nat (5 + i)) by lia.
  destruct (Nat.ltb_spec (5 + i) (length buf)).
  - rewrite upd_ok by lia. cbn [bind]. replace (Z.of_nat i + 1) with (Z.of_nat (S i)) by lia.
    apply IH; [rewrite upd_length by lia; lia|rewrite upd_length by lia; lia|].
    intros ->. cbn [length] in H. lia.
  - unfold upd. replace ((Z.of_nat (5 + i) <? 0) || (len buf <=? Z.of_nat (5 + i))) with true by (unfold len; lia).
    reflexivity.
Qed.

Lemma Send_ok wb cmd data : len wb = maxPacketSize -> len data <= maxPacketSize - 5 ->
  exists wb', SendServerCommandWithPayload true wb cmd data = Ok (wb', Some (frame cmd data)) /\ len wb' = maxPacketSize.
Proof.
  unfold maxPacketSize. intros Hw Hd. unfold SendServerCommandWithPayload. cbn [negb].
  pose proof (len_nonneg data) as Hd0.
  assert (U1 : u32 (len data) = len data) by (apply Z.mod_small; lia).
  assert (U2 : u32 (len data + 1) = len data + 1) by (apply Z.mod_small; lia).
  unfold payloadHeaderSize.
  assert (U3 : u32 (len data + 1 + 4) = len data + 1 + 4) by (apply Z.mod_small; lia).
  rewrite U1, U2, U3. replace (len wb <? len data + 1 + 4) with false by lia. cbn [bind].
  unfold put_u32. replace (len wb <? 4) with false by lia. cbn [bind].
  set (w1 := be_put 4 (len data + 1) ++ skipn 4 wb).
  assert (L1 : length w1 = length wb).
  { unfold w1. rewrite app_length, be_put_length, skipn_length. unfold len in Hw. lia. }
  change 4 with (Z.of_nat 4) at 1. rewrite upd_ok by (rewrite L1; unfold len in Hw; lia). cbn [bind].
  assert (F1 : firstn 4 w1 = be_put 4 (len data + 1)).
  { unfold w1. pose proof (be_put_length 4 (len data + 1)) as E.
    rewrite <- E at 1. rewrite firstn_app, firstn_all, Nat.sub_diag, firstn_O, app_nil_r. reflexivity. }
  rewrite F1.
  set (w2 := be_put 4 (len data + 1) ++ cmd :: skipn 5 w1).
  assert (L2 : length w2 = length wb).
  { unfold w2. rewrite app_length, be_put_length. cbn [length]. rewrite skipn_length. unfold len in Hw. lia. }
  change 0 with (Z.of_nat 0) at 1.
  rewrite write_loop_ok by (rewrite L2; unfold len in *; lia). cbn [bind].
  set (w3 := firstn (5 + 0) w2 ++ data ++ skipn (5 + 0 + length data) w2).
  assert (L3 : length w3 = length wb).
  { unfold w3. rewrite !app_length, firstn_length, skipn_length. unfold len in *. lia. }
  assert (F2 : firstn (5 + 0) w2 = be_put 4 (len data + 1) ++ [cmd]).
  { unfold w2. pose proof (be_put_length 4 (len data + 1)) as E.
    replace (5 + 0)%nat with (length (be_put 4 (len data + 1)) + 1)%nat by (rewrite E; lia).
    rewrite firstn_app_2. reflexivity. }
  rewrite slice0 by (unfold len in *; lia). cbn [bind].
  exists w3. split; [|unfold len in *; lia]. do 3 f_equal.
  unfold w3. rewrite F2, <- app_assoc. cbn [app].
  unfold frame. pose proof (be_put_length 4 (len data + 1)) as E.
  replace (Z.to_nat (len data + 1 + 4)) with (length (be_put 4 (len data + 1)) + S (length data))%nat
    by (rewrite E; unfold len; lia).
  rewrite firstn_app_2. cbn [firstn]. f_equal. f_equal.
  rewrite firstn_app, firstn_all, Nat.sub_diag, firstn_O, app_nil_r. reflexivity.
Qed.

Lemma put_u32_length buf x w : put_u32 buf x = Ok w -> length w = length buf.
Proof.
  unfold put_u32, len. destruct (Z.of_nat (length buf) <? 4) eqn:E; [discriminate|].
  intros H. assert (w = be_put 4 x ++ skipn 4 buf) as -> by congruence. rewrite app_length, be_put_length, skipn_length. lia.
Qed.
Lemma upd_Ok_length {A} (l : list A) i c w : upd l i c = Ok w -> length w = length l.
Proof.
  unfold upd, len. destruct ((i <? 0) || (Z.of_nat (length l) <=? i)) eqn:E; [discriminate|].
  intros H. assert (w = firstn (Z.to_nat i) l ++ c :: skipn (S (Z.to_nat i)) l) as -> by congruence.
  rewrite app_length, firstn_length. cbn [length]. rewrite skipn_length. lia.
Qed.

Lemma Send_panic wb cmd data : len wb = maxPacketSize -> maxPacketSize - 5 < len data ->
  SendServerCommandWithPayload true wb cmd data = Panic.
Proof.
  unfold maxPacketSize. intros Hw Hd. unfold SendServerCommandWithPayload. cbn [negb].
  set (cbs := u32 (u32 (u32 (len data) + 1) + payloadHeaderSize)).
  destruct (len wb <? cbs) eqn:E.
  - unfold slice. replace ((0 <? 0) || (cbs <? 0) || (len wb <? cbs)) with true; [reflexivity|].
    rewrite E. destruct (0 <? 0), (cbs <? 0); reflexivity.
  - cbn [bind]. destruct (put_u32 wb (u32 (u32 (len data) + 1))) as [w1| |] eqn:E1; cbn [bind]; [|unfold put_u32 in E1; destruct (len wb <? 4); discriminate|reflexivity].
    apply put_u32_length in E1.
    destruct (upd w1 4 cmd) as [w2| |] eqn:E2; cbn [bind]; [|unfold upd in E2; destruct ((4 <? 0) || (len w1 <=? 4)); discriminate|reflexivity].
    apply upd_Ok_length in E2. change 0 with (Z.of_nat 0).
    rewrite write_loop_panic; [reflexivity| | |].
    + unfold len in *. lia.
    + unfold len in *. lia.
    + intros ->. cbn in Hd. lia.
Qed.

Lemma send_all_ok cmds : forall wb, len wb = maxPacketSize ->
  Forall (fun cd => len (snd cd) <= maxPacketSize - 5) cmds ->
  send_all wb cmds = Ok (concat (map (fun cd => frame (fst cd) (snd cd)) cmds)).
Proof.
  induction cmds as [|[c d] cmds IH]; intros wb Hw HF; [reflexivity|].
  inversion HF as [|? ? H1 H2]; subst. cbn [snd] in H1. cbn [send_all].
  destruct (Send_ok wb c d Hw H1) as (wb' & E & Hw'). rewrite E. cbn [bind fst snd].
  rewrite IH by assumption. reflexivity.
Qed.

Lemma split_frames_ok cmds : forall fuel, (length cmds <= fuel)%nat ->
  Forall (fun cd => len (snd cd) <= maxPacketSize - 5) cmds ->
  split_frames fuel (concat (map (fun cd => frame (fst cd) (snd cd)) cmds)) = Some cmds.
Proof.
  induction cmds as [|[c d] cmds IH]; intros fuel Hf HF; [destruct fuel; reflexivity|].
  inversion HF as [|? ? H1 H2]; subst. cbn [snd] in H1. unfold maxPacketSize in H1. cbn [length] in Hf.
  destruct fuel as [|fuel]; [lia|]. cbn [map concat fst snd].
  set (R := concat (map (fun cd => frame (fst cd) (snd cd)) cmds)) in *.
  unfold frame. rewrite <- app_assoc. cbn [app].
  set (H := be_put 4 (len d + 1)). assert (LH : length H = 4%nat) by apply be_put_length.
  assert (VH : be_val H = len d + 1).
  { unfold H. rewrite be_val_put. apply Z.mod_small. pose proof (len_nonneg d). lia. }
  cbn [split_frames]. destruct (H ++ c :: d ++ R) eqn:EE.
  { destruct H; discriminate. }
  rewrite <- EE. clear EE.
  assert (F : firstn 4 (H ++ c :: d ++ R) = H).
  { rewrite <- LH. rewrite firstn_app, firstn_all, Nat.sub_diag, firstn_O, app_nil_r. reflexivity. }
  assert (K : skipn 4 (H ++ c :: d ++ R) = c :: d ++ R).
  { rewrite <- LH. rewrite skipn_app, skipn_all, Nat.sub_diag. reflexivity. }
  rewrite F, K, VH. replace (Z.to_nat (len d + 1)) with (S (length d)) by (unfold len; lia).
  cbn [length]. replace ((S (length (d ++ R)) <? S (length d))%nat) with false by (rewrite app_length; lia).
  cbn [firstn skipn]. rewrite firstn_app, firstn_all, Nat.sub_diag, firstn_O, app_nil_r.
  rewrite skipn_app, skipn_all, Nat.sub_diag. cbn [skipn app].
  rewrite IH by (try assumption; lia). reflexivity.
Qed.

(** ** Receiving *)
Lemma sock_read_spec s n : 0 < n -> nonempty_chunks s ->
  match sock_read s n with
  | None => concat s = []
  | Some (b, s') => b <> [] /\ len b <= n /\ concat s = b ++ concat s' /\ nonempty_chunks s'
  end.
Proof.
  intros Hn Hs. destruct s as [|c s]; cbn [sock_read]; [reflexivity|].
  inversion Hs as [|? ? Hc Hs']; subst.
  destruct (len c <=? n) eqn:E.
  - repeat split; try assumption; lia.
  - assert (L : (Z.to_nat n < length c)%nat) by (unfold len in E; lia). repeat split.
    + destruct c; [congruence|]. destruct (Z.to_nat n) eqn:E'; [lia|]. discriminate.
    + unfold len. rewrite firstn_length. lia.
    + cbn [concat]. rewrite app_assoc, firstn_skipn. reflexivity.
    + constructor; [|exact Hs']. intros H. apply (f_equal (@length Z)) in H. rewrite skipn_length in H. cbn in H. lia.
Qed.

Lemma firstn_nonempty {A} (l : list A) n : (0 < n)%nat -> l <> [] -> firstn n l <> [].
Proof. destruct l; [congruence|]. destruct n; [lia|]. discriminate. Qed.

Lemma bufio_read_spec r n : 0 < n -> nonempty_chunks (under r) ->
  match bufio_read r n with
  | None => stream r = []
  | Some (b, r') => b <> [] /\ len b <= n /\ stream r = b ++ stream r' /\ nonempty_chunks (under r')
  end.
Proof.
  intros Hn Hs. destruct r as [bf s]. cbn [under] in Hs. unfold bufio_read, stream. cbn [buffered under].
  assert (LF : forall l : bytes, len (firstn (Z.to_nat n) l) <= n).
  { intros l. unfold len. rewrite firstn_length. lia. }
  destruct bf as [|x bf].
  - destruct (bufSize <=? n) eqn:E.
    + pose proof (sock_read_spec s n Hn Hs) as H. destruct (sock_read s n) as [[b s']|]; [|exact H].
      cbn [buffered under app]. exact H.
    + pose proof (sock_read_spec s bufSize ltac:(reflexivity) Hs) as H.
      destruct (sock_read s bufSize) as [[b s']|]; [|exact H]. cbn [buffered under app].
      destruct H as (H1 & H2 & H3 & H4). split; [apply firstn_nonempty; [lia|exact H1]|].
      split; [apply LF|]. split; [|exact H4]. rewrite app_assoc, firstn_skipn. exact H3.
  - cbn [buffered under]. split; [apply firstn_nonempty; [lia|discriminate]|].
    split; [apply LF|]. split; [|exact Hs]. rewrite app_assoc, firstn_skipn. reflexivity.
Qed.

Lemma readFull_loop_spec fuel : forall r n acc, nonempty_chunks (under r) -> n <= Z.of_nat fuel ->
  match readFull_loop fuel r n acc with
  | None => len (stream r) < n
  | Some (b, r') => n <= len (stream r) /\ b = acc ++ firstn (Z.to_nat n) (stream r) /\
                    stream r' = skipn (Z.to_nat n) (stream r) /\ nonempty_chunks (under r')
  end.
Proof.
  induction fuel as [|fuel IH]; intros r n acc Hs Hn; cbn [readFull_loop].
  - replace (n <=? 0) with true by lia. replace (Z.to_nat n) with 0%nat by lia.
    rewrite firstn_O, app_nil_r. cbn [skipn]. pose proof (len_nonneg (stream r)). repeat split; auto; lia.
  - destruct (n <=? 0) eqn:E.
    { replace (Z.to_nat n) with 0%nat by lia.
      rewrite firstn_O, app_nil_r. cbn [skipn]. pose proof (len_nonneg (stream r)). repeat split; auto; lia. }
    pose proof (bufio_read_spec r n ltac:(lia) Hs) as H.
    destruct (bufio_read r n) as [[b r']|].
    + destruct H as (H1 & H2 & H3 & H4).
      assert (L : 0 < len b). { destruct b; [congruence|]. unfold len. cbn [length]. lia. }
      specialize (IH r' (n - len b) (acc ++ b) H4 ltac:(lia)).
      destruct (readFull_loop fuel r' (n - len b) (acc ++ b)) as [[c r'']|].
      * destruct IH as (I1 & I2 & I3 & I4). rewrite H3, len_app. split; [lia|].
        replace (Z.to_nat n) with (length b + Z.to_nat (n - len b))%nat by (unfold len in *; lia).
        rewrite firstn_app_2, I2, <- app_assoc. split; [reflexivity|].
        split; [|exact I4]. rewrite I3. rewrite skipn_app. rewrite (skipn_all2 b) by lia. cbn [app]. f_equal. lia.
      * rewrite H3, len_app. lia.
    + rewrite H. unfold len. cbn [length]. lia.
Qed.

Lemma ReadFull_spec r n : nonempty_chunks (under r) -> 0 <= n ->
  match ReadFull r n with
  | None => len (stream r) < n
  | Some (b, r') => n <= len (stream r) /\ b = firstn (Z.to_nat n) (stream r) /\
                    stream r' = skipn (Z.to_nat n) (stream r) /\ nonempty_chunks (under r')
  end.
Proof.
  intros Hs Hn. pose proof (readFull_loop_spec (Z.to_nat n) r n [] Hs ltac:(lia)) as H.
  unfold ReadFull. destruct (readFull_loop (Z.to_nat n) r n []) as [[b r']|]; exact H.
Qed.

Lemma be_val_nonneg l : bytes_ok l -> 0 <= be_val l.
Proof. intros H. apply be_val_bound in H. lia. Qed.

Lemma bytes_ok_firstn' n l : bytes_ok l -> bytes_ok (firstn n l).
Proof. intros H. rewrite <- (firstn_skipn n l) in H. apply Forall_app in H. apply H. Qed.
Lemma bytes_ok_skipn' n l : bytes_ok l -> bytes_ok (skipn n l).
Proof. intros H. rewrite <- (firstn_skipn n l) in H. apply Forall_app in H. apply H. Qed.

(** Chunking independence. *)
Lemma channel_chunking {S} (header : S -> Z -> after S) process fuel : forall st r1 r2,
  nonempty_chunks (under r1) -> nonempty_chunks (under r2) -> bytes_ok (stream r1) ->
  stream r1 = stream r2 ->
  channel_loop header process fuel st r1 = channel_loop header process fuel st r2.
Proof.
  induction fuel as [|fuel IH]; intros st r1 r2 H1 H2 HB HE; [reflexivity|].
  cbn [channel_loop].
  pose proof (ReadFull_spec r1 4 H1 ltac:(lia)) as A1. pose proof (ReadFull_spec r2 4 H2 ltac:(lia)) as A2.
  unfold payloadHeaderSize.
  destruct (ReadFull r1 4) as [[h1 r1']|], (ReadFull r2 4) as [[h2 r2']|]; rewrite HE in A1; [| | |reflexivity]; try lia.
  destruct A1 as (A11 & A12 & A13 & A14), A2 as (A21 & A22 & A23 & A24). subst h1 h2.
  set (h := firstn (Z.to_nat 4) (stream r2)).
  destruct (header st (be_val h)) as [st1|st1|st1]; try reflexivity.
  assert (Hh : 0 <= be_val h) by (apply be_val_nonneg, bytes_ok_firstn'; rewrite <- HE; exact HB).
  pose proof (ReadFull_spec r1' (be_val h) A14 Hh) as B1. pose proof (ReadFull_spec r2' (be_val h) A24 Hh) as B2.
  rewrite A13 in B1. rewrite A23 in B2.
  destruct (ReadFull r1' (be_val h)) as [[p1 r1'']|], (ReadFull r2' (be_val h)) as [[p2 r2'']|]; [| | |reflexivity]; try lia.
  destruct B1 as (B11 & B12 & B13 & B14), B2 as (B21 & B22 & B23 & B24). subst p1 p2.
  destruct (process st1 (firstn (Z.to_nat (be_val h)) (skipn (Z.to_nat 4) (stream r2)))); try reflexivity.
  apply IH; try assumption.
  - rewrite B13. apply bytes_ok_skipn', bytes_ok_skipn'. rewrite <- HE. exact HB.
  - rewrite B13, B23. reflexivity.
Qed.

(** A stream of whole packets followed by [rest]. *)
Lemma channel_packets {S} (header : S -> Z -> after S) process ps : forall fuel st r rest,
  nonempty_chunks (under r) -> Forall (fun p => len p < 2 ^ 32) ps ->
  stream r = concat (map packet_wire ps) ++ rest -> (length ps <= fuel)%nat ->
  exists r', stream r' = rest /\ nonempty_chunks (under r') /\
  channel_loop header process fuel st r =
  match handle_all header process st ps with
  | Continue st' => channel_loop header process (fuel - length ps) st' r'
  | x => x
  end.
Proof.
  induction ps as [|p ps IH]; intros fuel st r rest Hs HF HE Hf.
  - exists r. cbn [length handle_all]. rewrite Nat.sub_0_r. auto.
  - inversion HF as [|? ? Hp HF']; subst. cbn [length] in Hf. destruct fuel as [|fuel]; [lia|].
    cbn [map concat] in HE. unfold packet_wire in HE at 1. rewrite <- !app_assoc in HE.
    pose proof (len_nonneg p) as Hp0.
    set (R := concat (map packet_wire ps) ++ rest) in *.
    assert (LH : length (be_put 4 (len p)) = 4%nat) by apply be_put_length.
    pose proof (ReadFull_spec r 4 Hs ltac:(lia)) as A.
    assert (LE : len (stream r) = 4 + len p + len R).
    { rewrite HE, !len_app. unfold len at 1. rewrite LH. lia. }
    pose proof (len_nonneg R).
    cbn [channel_loop handle_all]. unfold payloadHeaderSize.
    destruct (ReadFull r 4) as [[h r1]|] eqn:ER1; [|exfalso; lia].
    destruct A as (_ & Ah & Ar & As).
    assert (Hh : h = be_put 4 (len p)).
    { rewrite Ah, HE. change (Z.to_nat 4) with 4%nat. rewrite <- LH.
      rewrite firstn_app, firstn_all, Nat.sub_diag, firstn_O, app_nil_r. reflexivity. }
    assert (Hr1 : stream r1 = p ++ R).
    { rewrite Ar, HE. change (Z.to_nat 4) with 4%nat. rewrite <- LH.
      rewrite skipn_app, skipn_all, Nat.sub_diag. reflexivity. }
    assert (Hv : be_val h = len p).
    { rewrite Hh, be_val_put. apply Z.mod_small. lia. }
    rewrite Hv.
    pose proof (ReadFull_spec r1 (len p) As Hp0) as B. rewrite Hr1, len_app in B.
    destruct (ReadFull r1 (len p)) as [[q r2]|] eqn:ER2; [|exfalso; lia].
    destruct B as (_ & Bq & Br & Bs).
    assert (Hq : q = p).
    { rewrite Bq. unfold len. rewrite Nat2Z.id.
      rewrite firstn_app, firstn_all, Nat.sub_diag, firstn_O, app_nil_r. reflexivity. }
    assert (Hr2 : stream r2 = R).
    { rewrite Br. unfold len. rewrite Nat2Z.id. rewrite skipn_app, skipn_all, Nat.sub_diag. reflexivity. }
    rewrite Hq. clear q Bq Hq ER2. destruct (IH fuel st r2 rest Bs HF' Hr2 ltac:(lia)) as (r0 & I1 & I2 & _).
    destruct (header st (len p)) as [st1|st1|st1]; [|exists r0; auto|exists r0; auto].
    destruct (process st1 p) as [st2|st2|st2]; [|exists r0; auto|exists r0; auto].
    destruct (IH fuel st2 r2 rest Bs HF' Hr2 ltac:(lia)) as (r' & J1 & J2 & J3).
    exists r'. split; [exact J1|]. split; [exact J2|]. rewrite J3. reflexivity.
Qed.

(** An incomplete last packet is never processed: the outcome does not depend on
    [process]. *)
Lemma channel_incomplete {S} (header : S -> Z -> after S) process1 process2 fuel st r :
  nonempty_chunks (under r) -> bytes_ok (stream r) ->
  len (stream r) < 4 \/ len (stream r) < 4 + be_val (firstn 4 (stream r)) ->
  channel_loop header process1 fuel st r = channel_loop header process2 fuel st r.
Proof.
  intros Hs HB H. destruct fuel as [|fuel]; [reflexivity|]. cbn [channel_loop]. unfold payloadHeaderSize.
  pose proof (ReadFull_spec r 4 Hs ltac:(lia)) as A.
  destruct (ReadFull r 4) as [[h r1]|]; [|reflexivity].
  destruct A as (A1 & A2 & A3 & A4). change (Z.to_nat 4) with 4%nat in *.
  destruct (header st (be_val h)) as [st1| |]; try reflexivity.
  assert (V : 0 <= be_val h) by (rewrite A2; apply be_val_nonneg, bytes_ok_firstn', HB).
  pose proof (ReadFull_spec r1 (be_val h) A4 V) as B.
  destruct (ReadFull r1 (be_val h)) as [[p r2]|]; [|reflexivity].
  exfalso. destruct B as (B1 & _). rewrite A3 in B1. unfold len in *. rewrite skipn_length in B1.
  rewrite A2 in B1. lia.
Qed.

(** ** Operational modes *)
Lemma om_all_fields v cp udp cmd csc : 0 <= v < 256 ->
  let w := operationalModes v oe_UTF8 cp udp cmd csc in
  is_u32 w /\
  Z.land w om_EncodingMask = oe_UTF8 /\
  (Z.testbit w 29 = cp && negb udp) /\ Z.testbit w 30 = csc /\ Z.testbit w 31 = cmd /\
  Z.land w 0x1FFFFC00 = 0 /\
  Z.land w om_VersionMask =
    (if v <? 10 then v + 32 + (if cp && negb udp then 64 else 0) else v).
Proof.
  intros Hv.
  assert (A : forallb (fun v => forallb (fun cp => forallb (fun udp => forallb (fun cmd => forallb (fun csc =>
    let w := operationalModes v oe_UTF8 cp udp cmd csc in
    (0 <=? w) && (w <? 2 ^ 32) && (Z.land w om_EncodingMask =? oe_UTF8) &&
    Bool.eqb (Z.testbit w 29) (cp && negb udp) && Bool.eqb (Z.testbit w 30) csc && Bool.eqb (Z.testbit w 31) cmd &&
    (Z.land w 0x1FFFFC00 =? 0) &&
    (Z.land w om_VersionMask =? (if v <? 10 then v + 32 + (if cp && negb udp then 64 else 0) else v)))
    [true; false]) [true; false]) [true; false]) [true; false]) (map Z.of_nat (seq 0 256)) = true)
    by (vm_compute; reflexivity).
  rewrite forallb_forall in A. specialize (A v).
  assert (In v (map Z.of_nat (seq 0 256))) as Hin.
  { apply in_map_iff. exists (Z.to_nat v). split; [lia|]. apply in_seq. lia. }
  specialize (A Hin).
  assert (HB : forall b, In b [true; false]) by (intros []; cbn; auto).
  rewrite forallb_forall in A. specialize (A cp (HB cp)).
  rewrite forallb_forall in A. specialize (A udp (HB udp)).
  rewrite forallb_forall in A. specialize (A cmd (HB cmd)).
  rewrite forallb_forall in A. specialize (A csc (HB csc)).
  cbv zeta in A |- *. rewrite !andb_true_iff, !Bool.eqb_true_iff in A. unfold is_u32. intuition lia.
Qed.

(** ** Connection strings *)
Lemma cut_safe a : forall d r, safe_from d a = true ->
  cut d (a ++ c_semi :: r) = (a, Some r) /\ cut d a = (a, None).
Proof.
  induction a as [|c a IH]; intros d r H.
  - cbn [safe_from] in H. apply Nat.eqb_eq in H. subst d. split; reflexivity.
  - cbn [safe_from] in H. cbn [app cut].
    destruct (c =? c_open) eqn:E1.
    { assert (E3 : (c =? c_semi) = false) by (unfold c_open, c_semi in *; lia). rewrite E3. cbn [andb].
      destruct (IH (S d) r H) as [I1 I2]. rewrite I1, I2. split; reflexivity. }
    destruct (c =? c_close) eqn:E2.
    { assert (E3 : (c =? c_semi) = false) by (unfold c_close, c_semi in *; lia). rewrite E3. cbn [andb].
      destruct d as [|d]; [discriminate|]. cbn [pred].
      destruct (IH d r H) as [I1 I2]. rewrite I1, I2. split; reflexivity. }
    destruct ((c =? c_semi) && (d =? 0)%nat); [discriminate|].
    destruct (IH d r H) as [I1 I2]. rewrite I1, I2. split; reflexivity.
Qed.

Lemma cut_shorter s : forall d, match cut d s with (a, Some r) => (length r < length s)%nat | _ => True end.
Proof.
  induction s as [|c s IH]; intros d; cbn [cut]; [exact I|].
  destruct ((c =? c_semi) && (d =? 0)%nat); [cbn [length]; lia|].
  match goal with |- context [cut ?d' s] => specialize (IH d'); destruct (cut d' s) as [a [r|]] end; [|exact I].
  cbn [length]. lia.
Qed.
Lemma segments_fuel f1 : forall f2 s, (length s < f1)%nat -> (length s < f2)%nat -> segments f1 s = segments f2 s.
Proof.
  induction f1 as [|f1 IH]; intros f2 s H1 H2; [lia|]. destruct f2 as [|f2]; [lia|]. cbn [segments].
  pose proof (cut_shorter s 0) as C. destruct (cut 0 s) as [a [r|]]; [|reflexivity]. f_equal. apply IH; lia.
Qed.
Lemma parse_cons a r : safe a -> parse_conn (a ++ c_semi :: r) = key_value a :: parse_conn r.
Proof.
  intros H. unfold parse_conn.
  assert (E : segments (S (length (a ++ c_semi :: r))) (a ++ c_semi :: r) = a :: segments (length (a ++ c_semi :: r)) r)
    by (cbn [segments]; rewrite (proj1 (cut_safe a 0 r H)); reflexivity).
  rewrite E. cbn [map]. f_equal. f_equal.
  apply segments_fuel; rewrite ?app_length; cbn [length]; lia.
Qed.
Lemma parse_one a : safe a -> parse_conn a = [key_value a].
Proof. intros H. unfold parse_conn. cbn [segments]. rewrite (proj2 (cut_safe a 0 [] H)). reflexivity. Qed.

Definition plain (c : Z) : bool := negb (c =? c_semi) && negb (c =? c_open) && negb (c =? c_close).
Lemma safe_plain l : forall d r, forallb plain l = true -> safe_from d (l ++ r) = safe_from d r.
Proof.
  induction l as [|c l IH]; intros d r H; [reflexivity|]. cbn [forallb] in H. cbn [app safe_from].
  apply andb_true_iff in H as [H1 H2]. unfold plain in H1.
  destruct (c =? c_open), (c =? c_close), (c =? c_semi); try discriminate. cbn [andb]. apply IH, H2.
Qed.
Lemma balanced_plain l : forall d r, forallb (fun c => negb (c =? c_open) && negb (c =? c_close)) l = true ->
  balanced_from d (l ++ r) = balanced_from d r.
Proof.
  induction l as [|c l IH]; intros d r H; [reflexivity|]. cbn [forallb] in H. cbn [app balanced_from].
  apply andb_true_iff in H as [H1 H2].
  destruct (c =? c_open), (c =? c_close); try discriminate. apply IH, H2.
Qed.
Lemma balanced_app a : forall d r, balanced_from d a = true -> balanced_from d (a ++ r) = balanced_from 0 r.
Proof.
  induction a as [|c a IH]; intros d r H; cbn [app balanced_from] in *.
  - apply Nat.eqb_eq in H. subst. reflexivity.
  - destruct (c =? c_open); [apply IH, H|]. destruct (c =? c_close); [destruct d; [discriminate|]; apply IH, H|].
    apply IH, H.
Qed.
Lemma safe_in_braces a : forall d r, balanced_from d a = true -> safe_from (S d) (a ++ r) = safe_from 1 r.
Proof.
  induction a as [|c a IH]; intros d r H; cbn [app balanced_from safe_from] in *.
  - apply Nat.eqb_eq in H. subst. reflexivity.
  - destruct (c =? c_open); [apply IH, H|]. destruct (c =? c_close); [destruct d; [discriminate|]; apply IH, H|].
    rewrite Bool.andb_false_r. apply IH, H.
Qed.
Lemma safe_braces a : balanced a -> safe (braces a).
Proof.
  intros H. unfold safe, braces. cbn [safe_from]. change (c_open =? c_open) with true. cbn iota.
  rewrite (safe_in_braces a 0 [c_close] H). reflexivity.
Qed.

Definition kv_text (kv : bytes * bytes) : bytes := fst kv ++ c_eq :: snd kv.
Definition key_ok (k : bytes) : bool := forallb (fun c => plain c && negb (c =? c_eq)) k.

Lemma key_value_text k v : key_ok k = true -> key_value (kv_text (k, v)) = Some (k, v).
Proof.
  unfold kv_text. cbn [fst snd]. induction k as [|c k IH]; intros H; [reflexivity|].
  cbn [key_ok forallb] in H. apply andb_true_iff in H as [H1 H2]. cbn [app key_value].
  apply andb_true_iff in H1 as [_ H1]. destruct (c =? c_eq); [discriminate|].
  rewrite IH by exact H2. reflexivity.
Qed.
Lemma kv_safe k v : key_ok k = true -> safe v -> safe (kv_text (k, v)).
Proof.
  intros Hk Hv. unfold safe, kv_text. cbn [fst snd]. rewrite safe_plain.
  - exact Hv.
  - apply forallb_forall. intros c Hc. unfold key_ok in Hk. rewrite forallb_forall in Hk.
    specialize (Hk c Hc). apply andb_true_iff in Hk. apply Hk.
Qed.

Lemma bool_safe b : safe (bool_text b).
Proof. destruct b; reflexivity. Qed.
Lemma digits_plain l : Forall is_digit l -> forallb plain l = true.
Proof.
  intros H. apply forallb_forall. intros c Hc. rewrite Forall_forall in H. specialize (H c Hc).
  unfold is_digit in H. unfold plain, c_semi, c_open, c_close. lia.
Qed.
Lemma FormatInt_plain x : - 2 ^ 63 <= x < 2 ^ 63 -> forallb plain (FormatInt x) = true.
Proof.
  intros H. unfold FormatInt. destruct (x <? 0) eqn:E.
  - destruct (FormatUint_decimal (- x)) as [D _]; [unfold is_u64; lia|]. cbn [forallb].
    rewrite (digits_plain _ D). reflexivity.
  - destruct (FormatUint_decimal x) as [D _]; [unfold is_u64; lia|]. apply digits_plain, D.
Qed.
Lemma plain_safe l : forallb plain l = true -> safe l.
Proof. intros H. unfold safe. rewrite <- (app_nil_r l), safe_plain by exact H. reflexivity. Qed.

(** All the settings as one text, segment by segment. *)
Fixpoint joined (first : bytes) (rest : list bytes) : bytes :=
  match rest with [] => first | x :: r => first ++ c_semi :: joined x r end.
Lemma joined_app f l x r : joined f (l ++ x :: r) = joined f l ++ c_semi :: joined x r.
Proof.
  revert f. induction l as [|y l IH]; intros f; [reflexivity|]. cbn [app joined].
  rewrite IH, <- app_assoc. reflexivity.
Qed.
Definition semi_all (l : list bytes) : bytes := concat (map (fun x => c_semi :: x) l).
Lemma joined_semi f l : joined f l = f ++ semi_all l.
Proof.
  revert f. induction l as [|x l IH]; intros f; cbn [joined]; [rewrite app_nil_r; reflexivity|].
  rewrite IH. reflexivity.
Qed.
Lemma parse_joined l : forall f tail, safe f -> Forall safe l ->
  parse_conn (joined f l ++ match tail with Some t => c_semi :: t | None => [] end) =
  map key_value (f :: l) ++ match tail with Some t => parse_conn t | None => [] end.
Proof.
  induction l as [|x l IH]; intros f tail Hf HF; cbn [joined map app].
  - destruct tail as [t|]; [apply parse_cons, Hf|]. rewrite app_nil_r. apply parse_one, Hf.
  - inversion HF as [|? ? H1 H2]; subst. rewrite <- app_assoc. cbn [app]. rewrite parse_cons by exact Hf.
    f_equal. rewrite IH by assumption. reflexivity.
Qed.

Definition nan_text (s : settings) : bytes := str "requestNaNValueFilter" ++ bool_text (s_RequestNaNValueFilter s).
Definition all_texts (s : settings) : list bytes :=
  map kv_text (tl (settings_before s)) ++ nan_text s :: map kv_text (settings_after s).

Lemma nonempty_len l : (0 <? len l) = nonempty l.
Proof. destruct l; [reflexivity|]. unfold len. cbn [length nonempty]. lia. Qed.

Lemma semi_all_app a b : semi_all (a ++ b) = semi_all a ++ semi_all b.
Proof. unfold semi_all. rewrite map_app, concat_app. reflexivity. Qed.
Lemma semi_all_cons x l : semi_all (x :: l) = c_semi :: x ++ semi_all l.
Proof. reflexivity. Qed.
Lemma semi_optional c kv : semi_all (map kv_text (optional c kv)) =
  if c then c_semi :: fst kv ++ c_eq :: snd kv else [].
Proof. destruct c; cbn; [rewrite app_nil_r|]; reflexivity. Qed.

Lemma parameterString_joined s :
  parameterString s =
  joined (kv_text (str "throttled", bool_text (s_Throttled s))) (all_texts s) ++
  match s_ExtraConnectionStringParameters s with [] => [] | x => c_semi :: x end.
Proof.
  rewrite joined_semi. unfold all_texts, settings_before. cbn [tl map].
  rewrite !semi_all_app, !semi_all_cons. cbn [app]. unfold settings_after. cbn [map].
  rewrite semi_all_cons. rewrite !map_app, !semi_all_app, !semi_optional. cbn [fst snd].
  change (semi_all []) with (@nil Z).
  assert (Ex : match s_ExtraConnectionStringParameters s with [] => [] | x => c_semi :: x end =
    if nonempty (s_ExtraConnectionStringParameters s) then str ";" ++ s_ExtraConnectionStringParameters s else []).
  { destruct (s_ExtraConnectionStringParameters s); reflexivity. }
  rewrite Ex. unfold parameterString. rewrite !nonempty_len. unfold kv_text, nan_text, braces. cbn [fst snd].
  change FormatBool with bool_text.
  repeat (rewrite <- !app_assoc; cbn [app]).
  destruct (nonempty (s_FilterExpression s)), (s_UdpDataChannel s), (nonempty (s_StartTime s)),
    (nonempty (s_StopTime s)), (nonempty (s_ConstraintParameters s)), (nonempty (s_ExtraConnectionStringParameters s));
  repeat (rewrite <- !app_assoc; cbn [app]); reflexivity.
Qed.

Lemma key_value_map l : Forall (fun kv => key_ok (fst kv) = true) l ->
  map key_value (map kv_text l) = map Some l.
Proof.
  induction 1 as [|[k v] l H HF IH]; [reflexivity|]. cbn [map]. rewrite key_value_text by exact H. rewrite IH. reflexivity.
Qed.
Lemma kv_safe_all l : Forall (fun kv => key_ok (fst kv) = true /\ safe (snd kv)) l -> Forall safe (map kv_text l).
Proof.
  induction 1 as [|[k v] l [H1 H2] HF IH]; constructor; [apply kv_safe; assumption|exact IH].
Qed.
Lemma Forall_optional (P : bytes * bytes -> Prop) c kv : (c = true -> P kv) -> Forall P (optional c kv).
Proof. destruct c; cbn; intros H; repeat constructor. apply H. reflexivity. Qed.

Lemma nan_text_None s : key_value (nan_text s) = None /\ safe (nan_text s).
Proof. unfold nan_text. destruct (s_RequestNaNValueFilter s); split; vm_compute; reflexivity. Qed.

Lemma before_ok s : settings_ok s -> Forall (fun kv => key_ok (fst kv) = true /\ safe (snd kv)) (settings_before s).
Proof.
  intros (H1 & H2 & H3 & _ & _ & _ & _ & _ & _ & _ & H4 & _).
  unfold settings_before. repeat constructor; cbn [fst snd]; try reflexivity; try apply bool_safe; try assumption.
  apply plain_safe, FormatInt_plain. unfold is_i32 in H4. lia.
Qed.
Lemma after_ok s : settings_ok s -> Forall (fun kv => key_ok (fst kv) = true /\ safe (snd kv)) (settings_after s).
Proof.
  intros (_ & _ & _ & H1 & H2 & H3 & H4 & H5 & H6 & H7 & _ & H8).
  unfold settings_after. constructor.
  - split; [reflexivity|]. cbn [snd]. apply safe_braces. unfold balanced in *.
    rewrite balanced_plain by reflexivity. rewrite balanced_app by exact H5.
    rewrite balanced_plain by reflexivity. rewrite balanced_app by exact H6.
    rewrite balanced_plain by reflexivity. exact H7.
  - repeat (apply Forall_app; split); apply Forall_optional; intros _; (split; [reflexivity|]); cbn [snd];
      try assumption; apply safe_braces; try assumption.
    unfold balanced. rewrite balanced_plain by reflexivity.
    rewrite <- (app_nil_r (FormatInt _)), balanced_plain; [reflexivity|].
    pose proof (FormatInt_plain (s_DataChannelLocalPort s) ltac:(lia)) as P.
    rewrite forallb_forall in P |- *. intros c Hc. specialize (P c Hc). unfold plain in P.
    destruct (c =? c_open), (c =? c_close), (c =? c_semi); try discriminate; reflexivity.
Qed.

Lemma parse_parameterString s : settings_ok s ->
  parse_conn (parameterString s) =
  map Some (settings_before s) ++ None :: map Some (settings_after s) ++
  match s_ExtraConnectionStringParameters s with [] => [] | x => parse_conn x end.
Proof.
  intros H. rewrite parameterString_joined.
  pose proof (before_ok s H) as HB. pose proof (after_ok s H) as HA.
  assert (EX : match s_ExtraConnectionStringParameters s with [] => [] | x => c_semi :: x end =
    match (match s_ExtraConnectionStringParameters s with [] => None | x => Some x end) with Some t => c_semi :: t | None => [] end)
    by (destruct (s_ExtraConnectionStringParameters s); reflexivity).
  rewrite EX. rewrite parse_joined.
  - unfold all_texts.
    change (kv_text (str "throttled", bool_text (s_Throttled s)) ::
      map kv_text (tl (settings_before s)) ++ nan_text s :: map kv_text (settings_after s))
    with (map kv_text (settings_before s) ++ nan_text s :: map kv_text (settings_after s)).
    rewrite map_app. cbn [map]. rewrite (proj1 (nan_text_None s)).
    rewrite !key_value_map.
    + rewrite <- app_assoc. cbn [app]. destruct (s_ExtraConnectionStringParameters s); reflexivity.
    + apply Forall_impl with (2 := HA). intros a Ha. apply Ha.
    + apply Forall_impl with (2 := HB). intros a Ha. apply Ha.
  - apply kv_safe; [reflexivity|apply bool_safe].
  - unfold all_texts. apply Forall_app. split.
    + apply kv_safe_all. inversion HB as [|? ? _ HB']; subst. exact HB'.
    + constructor; [apply nan_text_None|apply kv_safe_all, HA].
Qed.

Lemma nan_key_absent s v : settings_ok s -> s_ExtraConnectionStringParameters s = [] ->
  ~ In (Some (str "requestNaNValueFilter", v)) (parse_conn (parameterString s)).
Proof.
  intros H HX. rewrite parse_parameterString by exact H. rewrite HX.
  intros HI. apply in_app_iff in HI as [HI|[HI|HI]]; [|discriminate|].
  - apply in_map_iff in HI as ([k v'] & E & HI). injection E as E1 E2.
    unfold settings_before in HI. cbn [In] in HI. 
    repeat (destruct HI as [HI|HI]; [injection HI as HI1 HI2; rewrite <- HI1 in E1; discriminate E1|]). destruct HI.
  - rewrite app_nil_r in HI. apply in_map_iff in HI as ([k v'] & E & HI). injection E as E1 E2.
    unfold settings_after in HI. cbn [In] in HI. destruct HI as [HI|HI]; [injection HI as HI1 HI2; rewrite <- HI1 in E1; discriminate E1|].
    repeat rewrite in_app_iff in HI.
    assert (O : forall c kv, In (k, v') (optional c kv) -> kv = (k, v')).
    { intros c kv. destruct c; cbn; [intros [X|[]]; exact X|intros []]. }
    repeat (destruct HI as [HI|HI]; [apply O in HI; injection HI as HI1 HI2; rewrite <- HI1 in E1; discriminate E1|]).
    apply O in HI; injection HI as HI1 HI2; rewrite <- HI1 in E1; discriminate E1.
Qed.
