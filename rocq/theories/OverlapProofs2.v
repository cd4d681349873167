(** Overlapping calls on a data channel: no crash, bounds, sockets nobody closes *)
From Coq Require Import List ZArith Bool Lia ZifyBool.
Import ListNotations.
From Verif Require Import Base ChannelModel ChannelProofs OverlapModel OverlapSpec OverlapProofs.

(** Only Unsubscribe *)
Definition quiet (u : user) : Prop := Forall (eq CUnsubscribe) (u_todo u) /\
  match u_pc u with UIdle => True | UTest r | USet r | UClose r | UNil r | UJoin r | UWait _ r | UBack r => r = RReturn | _ => False end.
Definition quietly (s : ost) : Prop := o_crashed s = false /\ o_reader s <> None /\ o_discs s = [] /\ forall u, In u (o_users s) -> quiet u.
Lemma quietly_step s a s' : quietly s -> oact_step s a = Some s' -> quietly s'.
Proof.
  intros (C & R & D & U) H. unfold oact_step in H. rewrite C in H. destruct a as [k ok|k|k|k|b|].
  - unfold user_step in H. destruct (nth_error (o_users s) k) as [[pc todo]|] eqn:N; [|discriminate]. destruct (U _ (nth_error_In _ _ N)) as (T & Q). cbn [u_todo u_pc] in T, Q.
    assert (X : forall s0 u, o_users s0 = o_users s -> o_crashed s0 = false -> o_reader s0 <> None -> o_discs s0 = [] -> quiet u -> quietly (with_users s0 (ChannelModel.set_nth (o_users s0) k u))).
    { intros s0 u E1 E2 E3 E4 Y. split; [exact E2|]. split; [exact E3|]. split; [exact E4|]. cbn. rewrite E1. intros v I. destruct (put_in _ _ _ _ I) as [->|J]; [exact Y|exact (U v J)]. }
    destruct pc; try contradiction; try subst r.
    + destruct todo as [|c todo]; [discriminate|]. inversion T as [|? ? T1 T2]; subst. injection H as <-. apply X; auto. split; [exact T2|reflexivity].
    + injection H as <-. apply X; auto. split; [exact T|]. destruct (o_connected s); cbn; auto.
    + injection H as <-. apply (X (with_flag s true)); auto. split; [exact T|reflexivity].
    + injection H as <-. apply (X (with_chan s (close_field (chan_of s)) (o_field s) (o_threads s) (o_reader s))); auto. split; [exact T|reflexivity].
    + injection H as <-. apply X; auto. split; [exact T|]. destruct (o_reader s); reflexivity.
    + destruct (o_reader s) as [m|] eqn:E; [|congruence]. injection H as <-. apply X; auto; [congruence|]. split; [exact T|]. destruct (joined s m); reflexivity.
    + destruct (joined s m); [|discriminate]. injection H as <-. apply X; auto. split; [exact T|reflexivity].
    + injection H as <-. apply (X (with_flag s false)); auto. split; [exact T|exact I].
  - unfold disc_step in H. rewrite D in H. destruct k; discriminate.
  - unfold data_step in H. destruct (nth_error (o_threads s) k) as [[]|]; try discriminate; [|destruct (read_fails _ _); [|discriminate]|]; injection H as <-; repeat split; auto; apply U; auto.
  - destruct (nth_error (o_threads s) k) as [[]|]; try discriminate. destruct (read_fails _ _); [discriminate|]. injection H as <-. repeat split; auto; apply U; auto.
  - destruct (o_connected s); [|discriminate]. injection H as <-. repeat split; auto; apply U; auto.
  - destruct (_ || _); [discriminate|]. destruct (o_lock s); [discriminate|]. injection H as <-. repeat split; auto; apply U; auto.
Qed.
Lemma quietly_run l : forall s s', quietly s -> orun s l = Some s' -> quietly s'.
Proof. induction l as [|a l IH]; intros s s' Q H; cbn in H; [injection H as <-; exact Q|]. destruct (oact_step s a) as [s1|] eqn:T; [|discriminate]. exact (IH _ _ (quietly_step _ _ _ Q T) H). Qed.
Lemma quietly_start port calls : only CUnsubscribe calls -> quietly (subscribed_on port calls).
Proof.
  intros O. split; [reflexivity|]. split; [discriminate|]. split; [reflexivity|]. intros u I. apply in_map_iff in I as (c & <- & J). split; [|exact Logic.I]. unfold only in O. rewrite Forall_forall in O. exact (O c J).
Qed.

(** Only Disconnect *)
Definition leaving (u : user) : Prop := Forall (eq CDisconnect) (u_todo u) /\ match u_pc u with UIdle | UDisc | UFlags | USpawn => True | _ => False end.
Definition needs (d : dpc) : bool := match d with DJoin | DWait _ | DForget => true | _ => false end.
Record leaves (s : ost) : Prop := {
  l_cr : o_crashed s = false;
  l_us : forall u, In u (o_users s) -> leaving u;
  l_lk : forall k d, nth_error (o_discs s) k = Some d -> critical d = true -> o_lock s = Some k;
  l_rd : forall k d, nth_error (o_discs s) k = Some d -> needs d = true -> o_reader s <> None }.
Lemma leaves_disc s lk rd s' k d d' : leaves s -> nth_error (o_discs s) k = Some d -> o_crashed s' = false -> o_users s' = o_users s -> o_discs s' = ChannelModel.set_nth (o_discs s) k d' ->
  o_lock s' = lk -> o_reader s' = rd -> (critical d' = true -> lk = Some k) -> (needs d' = true -> rd <> None) ->
  (forall j e, j <> k -> nth_error (o_discs s) j = Some e -> critical e = true -> lk = Some j) ->
  (forall j e, j <> k -> nth_error (o_discs s) j = Some e -> needs e = true -> rd <> None) -> leaves s'.
Proof.
  intros [C U L R] N E1 E2 E3 E4 E5 X1 X2 Y1 Y2. constructor; [exact E1|rewrite E2; exact U| |].
  - intros j e M V. rewrite E3 in M. rewrite E4. destruct (Nat.eq_dec j k) as [->|NE]; [rewrite (set_nth_same _ _ _ _ N) in M; injection M as <-; auto|]. rewrite set_nth_other in M by exact NE. eauto.
  - intros j e M V. rewrite E3 in M. rewrite E5. destruct (Nat.eq_dec j k) as [->|NE]; [rewrite (set_nth_same _ _ _ _ N) in M; injection M as <-; auto|]. rewrite set_nth_other in M by exact NE. eauto.
Qed.
Lemma leaves_step s a s' : leaves s -> oact_step s a = Some s' -> leaves s'.
Proof.
  intros G H. pose proof G as [C U L R]. unfold oact_step in H. rewrite C in H. destruct a as [k ok|k|k|k|b|].
  - unfold user_step in H. destruct (nth_error (o_users s) k) as [[pc todo]|] eqn:N; [|discriminate]. destruct (U _ (nth_error_In _ _ N)) as (T & Q). cbn [u_todo u_pc] in T, Q.
    assert (X : forall u, leaving u -> forall v, In v (ChannelModel.set_nth (o_users s) k u) -> leaving v) by (intros u Y v I; destruct (put_in _ _ _ _ I) as [->|J]; auto).
    destruct pc; try contradiction.
    + destruct todo as [|c todo]; [discriminate|]. inversion T as [|? ? T1 T2]; subst. injection H as <-. constructor; auto. apply X. split; [exact T2|]. destruct (o_disconnecting s); exact I.
    + injection H as <-. constructor; auto. apply X. split; [exact T|]. destruct (o_disconnecting s); exact I.
    + injection H as <-. constructor; auto. apply X. split; [exact T|exact I].
    + injection H as <-. constructor; auto; [apply X; split; [exact T|exact I]| |].
      * intros j d M V. cbn in M. destruct (Nat.lt_ge_cases j (length (o_discs s))) as [B|B]; [rewrite nth_error_app1 in M by exact B; exact (L _ _ M V)|]. rewrite nth_error_app2 in M by exact B. destruct (j - length (o_discs s))%nat as [|[|n]]; [injection M as <-|discriminate|discriminate]; discriminate.
      * intros j d M V. cbn in M. destruct (Nat.lt_ge_cases j (length (o_discs s))) as [B|B]; [rewrite nth_error_app1 in M by exact B; exact (R _ _ M V)|]. rewrite nth_error_app2 in M by exact B. destruct (j - length (o_discs s))%nat as [|[|n]]; [injection M as <-|discriminate|discriminate]; discriminate.
  - unfold disc_step in H. destruct (nth_error (o_discs s) k) as [d|] eqn:N; [|discriminate].
    assert (only_k : critical d = true -> forall j e, j <> k -> nth_error (o_discs s) j = Some e -> critical e = true -> False).
    { intros V j e NE M W. pose proof (L _ _ N V). pose proof (L _ _ M W). congruence. }
    assert (nc : forall e, needs e = true -> critical e = true) by (intros []; auto).
    destruct d.
    + destruct (o_lock s) eqn:LK; [discriminate|]. injection H as <-. eapply (leaves_disc s _ _ _ k DLock DClose G N); try reflexivity; auto; try discriminate; intros j e NE M V; [specialize (L _ _ M V); discriminate|exact (R _ _ M V)].
    + injection H as <-. eapply (leaves_disc s _ _ _ k DClose DNil G N); try reflexivity; auto; try discriminate; [intros _; exact (L _ _ N eq_refl)|intros j e NE M V; exact (L _ _ M V)|intros j e NE M V; exact (R _ _ M V)].
    + injection H as <-. eapply (leaves_disc s _ _ _ k DNil _ G N); try reflexivity; auto; [intros _; exact (L _ _ N eq_refl)|cbn; destruct (o_reader s); discriminate|intros j e NE M V; exact (L _ _ M V)|intros j e NE M V; exact (R _ _ M V)].
    + destruct (o_reader s) as [m|] eqn:E; [|exfalso; exact (R _ _ N eq_refl eq_refl)]. injection H as <-. eapply (leaves_disc s _ _ _ k DJoin _ G N); try reflexivity; auto; [intros _; exact (L _ _ N eq_refl)|cbn; rewrite E; discriminate|intros j e NE M V; exact (L _ _ M V)|cbn; intros j e NE M V; rewrite E; discriminate].
    + destruct (joined s m); [|discriminate]. injection H as <-. eapply (leaves_disc s _ _ _ k (DWait m) _ G N); try reflexivity; auto; [intros _; exact (L _ _ N eq_refl)|intros _; exact (R _ _ N eq_refl)|intros j e NE M V; exact (L _ _ M V)|intros j e NE M V; exact (R _ _ M V)].
    + injection H as <-. eapply (leaves_disc s _ _ _ k DForget _ G N); try reflexivity; auto; [intros _; exact (L _ _ N eq_refl)|discriminate|intros j e NE M V; exact (L _ _ M V)|intros j e NE M V; exfalso; exact (only_k eq_refl _ _ NE M (nc _ V))].
    + injection H as <-. eapply (leaves_disc s _ _ _ k DUnSet _ G N); try reflexivity; auto; [intros _; exact (L _ _ N eq_refl)|discriminate|intros j e NE M V; exact (L _ _ M V)|intros j e NE M V; exact (R _ _ M V)].
    + injection H as <-. eapply (leaves_disc s _ _ _ k DUnlock _ G N); try reflexivity; auto; try discriminate; [intros j e NE M V; exfalso; exact (only_k eq_refl _ _ NE M V)|intros j e NE M V; exact (R _ _ M V)].
    + discriminate.
  - unfold data_step in H. destruct (nth_error (o_threads s) k) as [[]|]; try discriminate; [|destruct (read_fails _ _); [|discriminate]|]; injection H as <-; constructor; auto.
  - destruct (nth_error (o_threads s) k) as [[]|]; try discriminate. destruct (read_fails _ _); [discriminate|]. injection H as <-. constructor; auto.
  - destruct (o_connected s); [|discriminate]. injection H as <-. constructor; auto.
  - destruct (_ || _); [discriminate|]. destruct (o_lock s) eqn:E; [discriminate|]. injection H as <-. constructor; auto.
Qed.
Lemma leaves_run l : forall s s', leaves s -> orun s l = Some s' -> leaves s'.
Proof. induction l as [|a l IH]; intros s s' Q H; cbn in H; [injection H as <-; exact Q|]. destruct (oact_step s a) as [s1|] eqn:T; [|discriminate]. exact (IH _ _ (leaves_step _ _ _ Q T) H). Qed.
Lemma leaves_start port calls : only CDisconnect calls -> leaves (subscribed_on port calls).
Proof.
  intros O. constructor; [reflexivity| | |]; [|intros [|k] d M; discriminate|intros [|k] d M; discriminate]. intros u I. apply in_map_iff in I as (c & <- & J). split; [|exact Logic.I]. unfold only in O. rewrite Forall_forall in O. exact (O c J).
Qed.

(** Steps that are taken by itself are bounded. *)
Definition more (r : rest) : nat := match r with RListen _ => 8 | RReturn => 0 end.
Definition u_weight (u : user) : nat := (40 * length (u_todo u) +
  match u_pc u with
  | UIdle => 0 | USub _ => 18 | UTest r => 9 + more r | USet r => 8 + more r | UClose r => 7 + more r | UNil r => 6 + more r | UJoin r => 5 + more r | UWait _ r => 4 + more r | UBack r => 1 + more r
  | UListen _ => 6 | UStart => 5 | UDisc => 13 | UFlags => 12 | USpawn => 11
  end)%nat.
Definition d_weight (d : dpc) : nat := match d with DLock => 9 | DClose => 8 | DNil => 7 | DJoin => 6 | DWait _ => 5 | DForget => 4 | DUnSet => 3 | DUnlock => 2 | DEnd => 0 end.
Definition t_weight (t : thread) : nat := match t with TNew => 3 | TBusy _ => 2 | TRead _ => 1 | TDone => 0 end.
Definition sum {A} (f : A -> nat) (l : list A) : nat := fold_right (fun x n => (f x + n)%nat) 0%nat l.
Lemma sum_app {A} (f : A -> nat) l x : sum f (l ++ [x]) = (sum f l + f x)%nat.
Proof. induction l; cbn; [lia|]. unfold sum in IHl. rewrite IHl. lia. Qed.
Lemma sum_set {A} (f : A -> nat) l k x y : nth_error l k = Some x -> (sum f (ChannelModel.set_nth l k y) + f x = sum f l + f y)%nat.
Proof. revert k. induction l as [|a l IH]; intros [|k] N; try discriminate; cbn in N |- *; [injection N as ->; lia|]. specialize (IH _ N). unfold sum in IH. lia. Qed.
Definition work (s : ost) : nat := ((if o_crashed s then 0 else 1) + sum u_weight (o_users s) + sum d_weight (o_discs s) + sum t_weight (o_threads s))%nat.
Lemma work_less s a s' : by_itself a = true -> oact_step s a = Some s' -> (work s' < work s)%nat.
Proof.
  intros B H. unfold oact_step in H. destruct (o_crashed s) eqn:C; [discriminate|]. destruct a as [k ok|k|k|k|b|]; try discriminate B.
  - unfold user_step in H. destruct (nth_error (o_users s) k) as [[pc todo]|] eqn:N; [|discriminate]. pose proof (fun y => sum_set u_weight _ _ _ y N) as S1. unfold u_weight at 2 in S1. cbn [u_todo u_pc] in S1.
    destruct pc;
      try (match type of H with (match todo with _ => _ end) = _ => destruct todo as [|[p| |] todo]; [discriminate| | |] end);
      try (match type of H with (match o_reader s with _ => _ end) = _ => destruct (o_reader s) as [m0|] eqn:RD end);
      try (match type of H with (if joined s ?m then _ else _) = _ => destruct (joined s m) end; [|discriminate]);
      try (match type of H with (if ok then _ else _) = _ => destruct ok; [destruct (port_free _ _); [|discriminate]|] end);
      try discriminate; injection H as <-; unfold work, crash, with_users, with_chan, with_flag, with_discs; cbn [o_crashed o_users o_discs o_threads]; rewrite C, ?sum_app;
      match goal with |- context [ChannelModel.set_nth _ _ ?u] => specialize (S1 u); unfold u_weight at 3 in S1; cbn [u_todo u_pc length more after_unsubscribe] in S1 | _ => idtac end;
      repeat match goal with H : context [if ?b then _ else _] |- _ => destruct b | r : rest |- _ => destruct r | H : context [match o_reader s with _ => _ end] |- _ => destruct (o_reader s) end; cbn [more after_unsubscribe d_weight t_weight] in *; lia.
  - unfold disc_step in H. destruct (nth_error (o_discs s) k) as [d|] eqn:N; [|discriminate]. pose proof (fun y => sum_set d_weight _ _ _ y N) as S1.
    destruct d;
      try (match type of H with (match ?x with _ => _ end) = _ => destruct x eqn:?; try discriminate end);
      try discriminate; injection H as <-; unfold work, crash, with_users, with_chan, with_flag, with_discs; cbn [o_crashed o_users o_discs o_threads]; rewrite C;
      match goal with |- context [ChannelModel.set_nth _ _ ?u] => specialize (S1 u); cbn [d_weight] in S1 | _ => idtac end;
      repeat match goal with H : context [if ?b then _ else _] |- _ => destruct b | H : context [match o_reader s with _ => _ end] |- _ => destruct (o_reader s) end; cbn [d_weight] in *; lia.
  - unfold data_step in H. destruct (nth_error (o_threads s) k) as [t|] eqn:N; [|discriminate]. pose proof (fun y => sum_set t_weight _ _ _ y N) as S1.
    destruct t; try discriminate; [|destruct (read_fails _ _); [|discriminate]|]; injection H as <-; unfold work, with_chan; cbn [o_crashed o_users o_discs o_threads]; rewrite C;
      match goal with |- context [ChannelModel.set_nth _ _ ?u] => specialize (S1 u) end; cbn [t_weight] in S1;
      repeat match goal with H : context [if ?b then _ else _] |- _ => destruct b | H : context [match o_field s with _ => _ end] |- _ => destruct (o_field s) end; cbn [t_weight] in *; lia.
Qed.
Lemma work_bound l : forall s s', forallb by_itself l = true -> orun s l = Some s' -> (length l <= work s)%nat.
Proof.
  induction l as [|a l IH]; intros s s' B H; cbn in *; [lia|]. apply andb_prop in B as (B1 & B2). destruct (oact_step s a) as [s1|] eqn:T; [|discriminate]. pose proof (work_less _ _ _ B1 T). specialize (IH _ _ B2 H). lia.
Qed.

(** A socket that is open and not in the field stays open. *)
Definition orphan (p : Z) (s : ost) : Prop := nth_error (o_socks s) 0 = Some (mkSock true p) /\ o_field s <> Some (Real 0).
Lemma orphan_close p s : orphan p s -> nth_error (close_field (chan_of s)) 0 = Some (mkSock true p).
Proof.
  intros (N & F). unfold close_field, chan_of. cbn. destruct (o_field s) as [[|j]|]; [exact N| |exact N]. destruct (nth_error (o_socks s) j) as [x|]; [|exact N]. destruct j as [|j]; [congruence|]. destruct (o_socks s); [discriminate N|exact N].
Qed.
Lemma orphan_step p s a s' : orphan p s -> oact_step s a = Some s' -> orphan p s'.
Proof.
  intros G H. pose proof (orphan_close p s G) as CL. destruct G as (N & F). unfold oact_step in H. destruct (o_crashed s); [discriminate|]. destruct a as [k ok|k|k|k|b|].
  - unfold user_step in H. destruct (nth_error (o_users s) k) as [[pc todo]|]; [|discriminate]. destruct pc;
      try (match type of H with (match todo with _ => _ end) = _ => destruct todo as [|[q| |] todo]; [discriminate| | |] end);
      try (match type of H with (match o_reader s with _ => _ end) = _ => destruct (o_reader s) end);
      try (match type of H with (if joined s ?m then _ else _) = _ => destruct (joined s m) end; [|discriminate]);
      try (match type of H with (if ok then _ else _) = _ => destruct ok; [destruct (port_free _ _); [|discriminate]|] end);
      try discriminate; injection H as <-; split; cbn; auto; try discriminate.
    + destruct (o_socks s); [discriminate N|exact N].
    + destruct (o_socks s); [discriminate N|discriminate].
  - unfold disc_step in H. destruct (nth_error (o_discs s) k) as [d|]; [|discriminate]. destruct d;
      try (match type of H with (match ?x with _ => _ end) = _ => destruct x; try discriminate end); try discriminate; injection H as <-; split; cbn; auto.
  - unfold data_step in H. destruct (nth_error (o_threads s) k) as [t|]; [|discriminate]. destruct t; try discriminate; [|destruct (read_fails _ _); [|discriminate]|]; injection H as <-; split; cbn; auto.
  - destruct (nth_error (o_threads s) k) as [[]|]; try discriminate. destruct (read_fails _ _); [discriminate|]. injection H as <-. split; cbn; auto.
  - destruct (o_connected s); [|discriminate]. injection H as <-. split; cbn; auto.
  - destruct (_ || _); [discriminate|]. destruct (o_lock s); [discriminate|]. injection H as <-. split; cbn; auto.
Qed.
Lemma orphan_run p l : forall s s', orphan p s -> orun s l = Some s' -> orphan p s'.
Proof. induction l as [|a l IH]; intros s s' Q H; cbn in H; [injection H as <-; exact Q|]. destruct (oact_step s a) as [s1|] eqn:T; [|discriminate]. exact (IH _ _ (orphan_step _ _ _ _ Q T) H). Qed.
Lemma orphan_open p s : orphan p s -> (1 <= sockets_open s)%nat /\ (p <> 0 -> port_free (chan_of s) p = false)%Z.
Proof.
  intros (N & _). unfold sockets_open, port_free, chan_of. cbn. destruct (o_socks s) as [|x l]; [discriminate|]. injection N as ->. cbn. split; [lia|]. intros NZ. rewrite Z.eqb_refl. cbn. lia.
Qed.

(** ** Who holds the flag disconnecting *)
Definition holder_u (u : user) : bool :=
  match u_pc u with UClose _ | UNil _ | UJoin _ | UWait _ _ | UBack _ | USpawn => true | _ => false end.
Definition holder_d (d : dpc) : bool := match d with DUnlock | DEnd => false | _ => true end.
Definition held (us : list user) (ds : list dpc) : Prop :=
  (exists j u, nth_error us j = Some u /\ holder_u u = true) \/ (exists j d, nth_error ds j = Some d /\ holder_d d = true).
Lemma nth_set {A} (l : list A) : forall k j x y, nth_error l k = Some x -> nth_error (ChannelModel.set_nth l k y) j = if Nat.eqb j k then Some y else nth_error l j.
Proof.
  induction l as [|z l IH]; intros [|k] [|j] x y H; cbn in *; try discriminate; try reflexivity. rewrite (IH k j x y H). reflexivity.
Qed.
(** User k goes on: who else holds the flag still does, and so does k if its new place does or its old one did not. *)
Lemma held_user us ds k u u' : nth_error us k = Some u -> (holder_u u = true -> holder_u u' = true) -> held us ds -> held (ChannelModel.set_nth us k u') ds.
Proof.
  intros N H [(j & w & J & W)|D]; [|right; exact D]. left. destruct (Nat.eqb_spec j k) as [->|E].
  - exists k, u'. rewrite (nth_set us k k u u' N), Nat.eqb_refl. split; [reflexivity|]. rewrite N in J. injection J as ->. exact (H W).
  - exists j, w. rewrite (nth_set us k j u u' N). apply Nat.eqb_neq in E. rewrite E. auto.
Qed.
Lemma held_user_new us ds k u u' : nth_error us k = Some u -> holder_u u' = true -> held (ChannelModel.set_nth us k u') ds.
Proof. intros N H. left. exists k, u'. rewrite (nth_set us k k u u' N), Nat.eqb_refl. auto. Qed.
Lemma held_disc us ds k d d' : nth_error ds k = Some d -> (holder_d d = true -> holder_d d' = true) -> held us ds -> held us (ChannelModel.set_nth ds k d').
Proof.
  intros N H [D|(j & w & J & W)]; [left; exact D|]. right. destruct (Nat.eqb_spec j k) as [->|E].
  - exists k, d'. rewrite (nth_set ds k k d d' N), Nat.eqb_refl. split; [reflexivity|]. rewrite N in J. injection J as ->. exact (H W).
  - exists j, w. rewrite (nth_set ds k j d d' N). apply Nat.eqb_neq in E. rewrite E. auto.
Qed.
Lemma held_spawn us ds : held us (ds ++ [DLock]).
Proof. right. exists (length ds), DLock. rewrite nth_error_app2, Nat.sub_diag by auto. auto. Qed.

Definition flag_held (s : ost) : Prop := o_disconnecting s = true -> held (o_users s) (o_discs s).
Lemma flag_step s a s' : flag_held s -> oact_step s a = Some s' -> flag_held s'.
Proof.
  intros F. unfold oact_step, flag_held in *. destruct (o_crashed s); [discriminate|]. destruct a as [k ok|k|k|k|b|].
  - unfold user_step. destruct (nth_error (o_users s) k) as [[pc todo]|] eqn:N; [|discriminate].
    destruct pc; [destruct todo as [|[p| |] todo]; [discriminate|..]|..]; try (destruct (joined s _)); try (destruct ok; [destruct (port_free _ _)|]); try (destruct (o_reader s)); try discriminate;
      intros H; injection H as <-; cbn [o_disconnecting o_users o_discs with_users with_flag with_chan with_discs crash]; intros T; try discriminate T; try apply held_spawn;
      try (eapply held_user; [exact N|discriminate|auto]; fail);
      try (eapply held_user_new; [exact N|reflexivity]; fail);
      try (eapply held_user; [exact N|intros _; reflexivity|auto]; fail); try (apply F, T).
    destruct (joined s _); (eapply held_user_new; [exact N|reflexivity]).
  - unfold disc_step. destruct (nth_error (o_discs s) k) as [pc|] eqn:N; [|discriminate].
    destruct pc; try (destruct (o_lock s)); try (destruct (joined s _)); try (destruct (o_reader s)); try discriminate;
      intros H; injection H as <-; cbn [o_disconnecting o_users o_discs with_users with_flag with_chan with_discs crash]; intros T; try discriminate T;
      try (eapply held_disc; [exact N|intros _; reflexivity|auto]; fail); try (eapply held_disc; [exact N|discriminate|auto]; fail); try (apply F, T).
    all: destruct (joined s _); (eapply held_disc; [exact N|intros _; reflexivity|auto]).
  - unfold data_step. destruct (nth_error (o_threads s) k) as [[|c|c|]|]; try (destruct (read_fails _ _)); try discriminate; intros H; injection H as <-; exact F.
  - destruct (nth_error (o_threads s) k) as [[|c|c|]|]; try (destruct (read_fails _ _)); try discriminate; intros H; injection H as <-; exact F.
  - destruct (o_connected s); [|discriminate]. intros H. injection H as <-. exact F.
  - destruct (o_connected s || o_disconnecting s); [discriminate|]. destruct (o_lock s); [discriminate|]. intros H. injection H as <-. discriminate.
Qed.
Lemma flag_run l : forall s s', flag_held s -> orun s l = Some s' -> flag_held s'.
Proof.
  induction l as [|a l IH]; intros s s' F; cbn [orun]; [intros [= <-]; exact F|]. destruct (oact_step s a) as [s1|] eqn:E; [|discriminate]. apply IH, (flag_step _ _ _ F E).
Qed.
Lemma flag_returned s : flag_held s -> all_returned s -> o_disconnecting s = false.
Proof.
  intros F (U & D & _). destruct (o_disconnecting s) eqn:E; [|reflexivity]. exfalso. destruct (F E) as [(j & u & J & W)|(j & d & J & W)]; apply nth_error_In in J.
  - rewrite Forall_forall in U. rewrite <- (U _ J) in W. discriminate.
  - rewrite Forall_forall in D. rewrite <- (D _ J) in W. discriminate.
Qed.
