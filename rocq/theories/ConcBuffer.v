From Coq Require Import Lia ZifyBool ZifyNat.
From Verif Require Import Base BaseProofs FrameSpec ConcModel ConcSpec ConcProofs.

(** ** The shared command buffer, used by one goroutine *)

Fixpoint bexec (bf wi : bytes) (l : list bop) : bytes * bytes :=
  match l with
  | [] => (bf, wi)
  | Store k b :: r => bexec (set_nth bf k b) wi r
  | SocketWrite n :: r => bexec bf (wi ++ firstn n bf) r
  end.

Lemma bexec_app bf wi a b : bexec bf wi (a ++ b) = bexec (fst (bexec bf wi a)) (snd (bexec bf wi a)) b.
Proof. revert bf wi. induction a as [|[k x|n] a IH]; intros; cbn [app bexec]; auto. Qed.

Lemma brun_one l : forall bf wi n, (length l <= n)%nat ->
  run bstep (BState bf wi [l]) (repeat 0%nat n)
  = BState (fst (bexec bf wi l)) (snd (bexec bf wi l)) [[]].
Proof.
  induction l as [|o l IH]; intros bf wi n L.
  - cbn [bexec fst snd]. clear L. induction n; [reflexivity|]. cbn [repeat run bstep nth_error]. exact IHn.
  - destruct n as [|n]; [cbn in L; lia|]. cbn [length] in L. cbn [repeat run bstep nth_error].
    destruct o as [k x|m]; cbn [set_nth bexec]; apply IH; lia.
Qed.

Lemma set_nth_split {A} (l : list A) k x : (k < length l)%nat ->
  set_nth l k x = firstn k l ++ x :: skipn (S k) l.
Proof.
  revert k. induction l as [|y l IH]; intros k H; [cbn in H; lia|].
  destruct k; [reflexivity|]. cbn [set_nth firstn app]. rewrite IH by (cbn in H; lia). reflexivity.
Qed.

Lemma skipn_plus {A} a b (l : list A) : skipn (a + b) l = skipn b (skipn a l).
Proof.
  revert l. induction a as [|a IH]; intros [|x l]; cbn [skipn Nat.add]; auto.
  destruct b; reflexivity.
Qed.

Lemma bexec_stores l : forall k bf wi, (k + length l <= length bf)%nat ->
  bexec bf wi (stores k l) = (firstn k bf ++ l ++ skipn (k + length l) bf, wi).
Proof.
  induction l as [|x l IH]; intros k bf wi H; cbn [stores bexec length] in *.
  - rewrite Nat.add_0_r. cbn [app]. rewrite firstn_skipn. reflexivity.
  - rewrite IH by (rewrite set_nth_length; lia). f_equal.
    rewrite set_nth_split by lia.
    assert (L : length (firstn k bf) = k) by (rewrite firstn_length; lia).
    replace (S k) with (length (firstn k bf) + 1)%nat at 1 by lia.
    rewrite firstn_app_2. cbn [firstn]. rewrite <- app_assoc. cbn [app]. f_equal. f_equal. f_equal.
    rewrite skipn_app, L. replace (S k + length l - k)%nat with (S (length l)) by lia.
    rewrite skipn_all2 by lia. cbn [app skipn].
    replace (k + S (length l))%nat with (S k + length l)%nat by lia.
    symmetry. exact (skipn_plus (S k) (length l) bf).
Qed.


Lemma bexec_send bf wi c d : (5 + length d <= length bf)%nat ->
  exists bf', bexec bf wi (send_program c d) = (bf', wi ++ frame c d) /\ length bf' = length bf.
Proof.
  intros H. unfold send_program.
  rewrite bexec_app, bexec_stores by (rewrite be_put_length; lia). cbn [fst snd].
  rewrite be_put_length. cbn [firstn app Nat.add].
  set (sz := be_put 4 (len d + 1)).
  assert (Ls : length sz = 4%nat) by apply be_put_length.
  set (b1 := sz ++ skipn 4 bf). cbn [bexec].
  assert (L1 : length b1 = length bf) by (unfold b1; rewrite app_length, skipn_length; lia).
  rewrite (set_nth_split b1 4 c) by lia.
  assert (F4 : firstn 4 b1 = sz).
  { unfold b1. rewrite firstn_app, Ls. rewrite firstn_all2 by lia. rewrite Nat.sub_diag. cbn [firstn]. apply app_nil_r. }
  rewrite F4. set (b2 := sz ++ c :: skipn 5 b1).
  assert (L2 : length b2 = length bf) by (unfold b2; rewrite app_length; cbn [length]; rewrite skipn_length; lia).
  rewrite bexec_app, bexec_stores by lia. cbn [fst snd bexec].
  assert (F5 : firstn 5 b2 = sz ++ [c]).
  { unfold b2. rewrite firstn_app, Ls. rewrite firstn_all2 by lia. change (5 - 4)%nat with 1%nat. reflexivity. }
  rewrite F5. eexists. split; [|].
  - f_equal. f_equal. rewrite app_assoc. rewrite firstn_app.
    rewrite firstn_all2 by (rewrite !app_length; cbn [length]; lia).
    replace (_ - _)%nat with 0%nat by (rewrite !app_length; cbn [length]; lia).
    cbn [firstn]. rewrite app_nil_r. unfold frame. fold sz. rewrite <- app_assoc. reflexivity.
  - rewrite !app_length, skipn_length. cbn [length]. lia.
Qed.

Lemma bexec_sends cmds : forall bf wi,
  Forall (fun c => (5 + length (snd c) <= length bf)%nat) cmds ->
  snd (bexec bf wi (flat_map (fun c => send_program (fst c) (snd c)) cmds))
  = wi ++ concat (map (fun c => frame (fst c) (snd c)) cmds).
Proof.
  induction cmds as [|[c d] cmds IH]; intros bf wi H.
  - cbn. rewrite app_nil_r. reflexivity.
  - inversion H as [|? ? H1 H2]; subst. cbn [flat_map map concat fst snd] in *.
    rewrite bexec_app. destruct (bexec_send bf wi c d H1) as (bf' & E & L). rewrite E. cbn [fst snd].
    rewrite IH by (rewrite L; exact H2). rewrite app_assoc. reflexivity.
Qed.

Lemma one_sender size cmds n :
  Forall (fun c => (5 + length (snd c) <= size)%nat) cmds ->
  (length (flat_map (fun c => send_program (fst c) (snd c)) cmds) <= n)%nat ->
  wire (run bstep (binit size [cmds]) (repeat 0%nat n))
  = concat (map (fun c => frame (fst c) (snd c)) cmds).
Proof.
  intros H L. unfold binit. cbn [map]. rewrite brun_one by exact L. cbn [wire].
  rewrite bexec_sends; [reflexivity|]. rewrite repeat_length. exact H.
Qed.

(** ** Unsubscribe and framing *)

(** What the reader has taken from the stream but not yet finished with. *)
Definition uinv (ps : list bytes) (s : ustate) : Prop :=
  exists rest, ps = processed s ++ rest /\
  match upc_ s with
  | UHeader => upcoming s = concat (map packet_wire rest)
  | UGotHeader n | UBody n =>
      exists p r, rest = p :: r /\ n = len p /\ upcoming s = p ++ concat (map packet_wire r)
  | UGotBody q => exists p r, rest = p :: r /\ q = p /\ upcoming s = concat (map packet_wire r)
  end.

Lemma uinv_step ps s i s' : Forall (fun p => len p < 2 ^ 32) ps -> uinv ps s ->
  (match i, upc_ s with
   | O, UGotHeader _ | O, UGotBody _ => negb (disconnecting s)
   | _, _ => true
   end) = true ->
  ustep s i = Some s' -> uinv ps s'.
Proof.
  intros B (rest & E & I) U St. destruct s as [bs dc pr pc us]. cbn [ustep upc_ disconnecting processed upcoming] in *.
  destruct i as [|i].
  - destruct pc as [|n|n|q].
    + destruct (length bs <? 4)%nat eqn:L; [discriminate St|].
      assert (s' = UState (skipn 4 bs) dc pr (UGotHeader (be_val (firstn 4 bs))) us) as -> by congruence.
      clear St. destruct rest as [|p r]; [cbn in I; subst bs; cbn in L; discriminate|].
      exists (p :: r). cbn [processed upc_ upcoming]. split; [exact E|].
      exists p, r. split; [reflexivity|]. cbn [map concat] in I. unfold packet_wire in I at 1.
      assert (Bp : len p < 2 ^ 32). { rewrite E in B. apply Forall_app in B. destruct B as [_ B]. inversion B; assumption. }
      rewrite <- app_assoc in I. subst bs.
      rewrite firstn_app, be_put_length, firstn_all2 by (rewrite be_put_length; lia).
      rewrite Nat.sub_diag. cbn [firstn]. rewrite app_nil_r.
      rewrite skipn_app, be_put_length, skipn_all2 by (rewrite be_put_length; lia).
      rewrite Nat.sub_diag. cbn [skipn app]. split; [|reflexivity].
      rewrite be_val_put. unfold len in *. rewrite Z.mod_small by lia. reflexivity.
    + destruct dc; [discriminate U|]. injection St as <-. exists rest. auto.
    + destruct I as (p & r & -> & -> & I). destruct (len bs <? len p) eqn:L; [discriminate St|].
      injection St as <-. exists (p :: r). cbn [processed upc_ upcoming]. split; [exact E|].
      exists p, r. split; [reflexivity|]. subst bs. unfold len. rewrite Nat2Z.id.
      split.
      * rewrite firstn_app, firstn_all2 by lia. rewrite Nat.sub_diag. cbn [firstn]. apply app_nil_r.
      * rewrite skipn_app, skipn_all2 by lia. rewrite Nat.sub_diag. reflexivity.
    + destruct dc; [discriminate U|]. injection St as <-. destruct I as (p & r & -> & -> & I).
      exists r. cbn [processed upc_ upcoming]. rewrite <- app_assoc. auto.
  - destruct us as [|b r]; [discriminate St|]. injection St as <-. exists rest. auto.
Qed.

Lemma undisturbed_ok ps sched : forall s, Forall (fun p => len p < 2 ^ 32) ps -> uinv ps s ->
  undisturbed s sched = true -> uinv ps (run ustep s sched).
Proof.
  induction sched as [|i r IH]; intros s B I U; [exact I|]. cbn [undisturbed] in U.
  apply andb_true_iff in U. destruct U as [U1 U2]. cbn [run]. apply IH; [exact B| |exact U2].
  destruct (ustep s i) eqn:St; [|exact I]. eapply uinv_step; eauto.
Qed.

Lemma undisturbed_prefix ps sched : Forall (fun p => len p < 2 ^ 32) ps ->
  undisturbed (uinit (concat (map packet_wire ps))) sched = true ->
  exists rest, ps = processed (run ustep (uinit (concat (map packet_wire ps))) sched) ++ rest.
Proof.
  intros B U.
  assert (I : uinv ps (uinit (concat (map packet_wire ps)))) by (exists ps; cbn; auto).
  destruct (undisturbed_ok ps sched _ B I U) as (rest & E & _). exists rest. exact E.
Qed.
