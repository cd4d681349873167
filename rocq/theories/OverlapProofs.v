(** Proofs about overlapping calls on a data channel *)
From Coq Require Import List ZArith Bool Lia.
Import ListNotations.
From Verif Require Import Base ChannelModel ChannelProofs OverlapModel OverlapSpec.

Lemma put_in {A} (l : list A) k x y : In y (ChannelModel.set_nth l k x) -> y = x \/ In y l.
Proof. revert k. induction l as [|a l IH]; intros [|k] H; cbn in H; try tauto; destruct H as [H|H]; cbn; auto. destruct (IH _ H); auto. Qed.
Lemma put_keeps {A} (l : list A) k x y z : nth_error l k = Some z -> In y l -> y <> z -> In y (ChannelModel.set_nth l k x).
Proof.
  revert k. induction l as [|a l IH]; intros [|k] N I D; [discriminate|discriminate| |]; cbn in N, I |- *.
  - injection N as <-. destruct I as [I|I]; [congruence|auto].
  - destruct I as [I|I]; [auto|right; exact (IH _ N I D)].
Qed.
Lemma put_there {A} (l : list A) k x z : nth_error l k = Some z -> In x (ChannelModel.set_nth l k x).
Proof. revert k. induction l as [|a l IH]; intros [|k] N; [discriminate|discriminate|left; reflexivity|right; exact (IH _ N)]. Qed.
Lemma put_forall2 {A B} (R : A -> B -> Prop) l cs k x z : nth_error l k = Some z -> (forall c, R z c -> R x c) -> Forall2 R l cs -> Forall2 R (ChannelModel.set_nth l k x) cs.
Proof. intros N X F. revert k N. induction F as [|a b l cs H F IH]; intros [|k] N; cbn in *; try discriminate; [injection N as ->; constructor; auto|constructor; auto]. Qed.

Definition plain (r : rest) : bool := match r with RReturn => true | _ => false end.
Definition uok (u : user) : bool :=
  forallb (fun c => match c with CSubscribe _ => false | _ => true end) (u_todo u) &&
  match u_pc u with
  | UIdle | UDisc | UFlags | USpawn => true
  | UTest r | USet r | UClose r | UNil r | UJoin r | UBack r => plain r
  | UWait m r => plain r && Nat.eqb m 0
  | _ => false
  end.
Definition uway (p : upc) : bool := match p with USet _ | UClose _ | UFlags | USpawn => true | _ => false end.
Definition upast (p : upc) : bool := match p with UNil _ | UJoin _ | UWait _ _ | UBack _ => true | _ => false end.
Definition testing (p : upc) : bool := match p with UTest _ | UDisc => true | _ => false end.
Definition dok (d : dpc) : bool := match d with DWait m => Nat.eqb m 0 | _ => true end.
Definition dway (d : dpc) : bool := match d with DLock | DClose => true | _ => false end.
Definition critical (d : dpc) : bool := match d with DLock | DEnd => false | _ => true end.
Definition W (o : bool) (us : list user) (ds : list dpc) : Prop :=
  o = false \/ (exists u, In u us /\ uway (u_pc u) = true) \/ (exists d, In d ds /\ dway d = true).
Definition fresh (u : user) (c : list api) : Prop := u_pc u = UIdle /\ u_todo u = c \/ testing (u_pc u) = true.

Record parts (calls : list (list api)) (o : bool) (t : thread) (rd : option nat) (cn dg : bool) (lk : option nat) (us : list user) (ds : list dpc) : Prop := {
  p_rd : rd = Some 0%nat \/ rd = None;
  p_t : match t with TRead c | TBusy c => c = Real 0 | _ => True end;
  p_us : forall u, In u us -> uok u = true;
  p_ds : forall d, In d ds -> dok d = true;
  p_up : forall u, In u us -> upast (u_pc u) = true -> o = false;
  p_dp : forall d, In d ds -> dway d = false -> o = false;
  p_lk : forall k, lk = Some k -> exists d, nth_error ds k = Some d /\ critical d = true;
  p_cn : cn = false -> W o us ds;
  p_dg : dg = true -> W o us ds;
  p_fresh : W o us ds \/ Forall2 fresh us calls }.
Inductive oinv (calls : list (list api)) : ost -> Prop :=
| OInv o p t rd cn sb dg lk us ds cr : parts calls o t rd cn dg lk us ds ->
    oinv calls (OState [mkSock o p] (Some (Real 0)) [t] rd cn sb dg lk us ds cr).

Lemma W_user o us ds k u u' : nth_error us k = Some u -> (uway (u_pc u) = true -> uway (u_pc u') = true) -> W o us ds -> W o (ChannelModel.set_nth us k u') ds.
Proof.
  intros N X [H|[(v & I & H)|H]]; [left; exact H| |right; right; exact H]. right. left.
  destruct (uway (u_pc u)) eqn:E; [exists u'; split; [exact (put_there _ _ _ _ N)|auto]|exists v; split; [apply (put_keeps _ _ _ _ _ N I)|exact H]]. congruence.
Qed.
Lemma W_disc o us ds k d d' : nth_error ds k = Some d -> (dway d = true -> dway d' = true) -> W o us ds -> W o us (ChannelModel.set_nth ds k d').
Proof.
  intros N X [H|[H|(v & I & H)]]; [left; exact H|right; left; exact H|]. right. right.
  destruct (dway d) eqn:E; [exists d'; split; [exact (put_there _ _ _ _ N)|auto]|exists v; split; [apply (put_keeps _ _ _ _ _ N I)|exact H]]. congruence.
Qed.
(** A step of a user that changes nothing but where it is, and maybe the flag *)
Lemma parts_user calls o t rd cn dg dg' lk us ds k u u' : parts calls o t rd cn dg lk us ds -> nth_error us k = Some u -> uok u' = true ->
  (uway (u_pc u) = true -> uway (u_pc u') = true) -> (upast (u_pc u') = true -> o = false) ->
  (dg' = true -> W o (ChannelModel.set_nth us k u') ds) ->
  (W o (ChannelModel.set_nth us k u') ds \/ (forall c, fresh u c -> fresh u' c)) ->
  parts calls o t rd cn dg' lk (ChannelModel.set_nth us k u') ds.
Proof.
  intros P N K X Y D F. constructor.
  - exact (p_rd _ _ _ _ _ _ _ _ _ P).
  - exact (p_t _ _ _ _ _ _ _ _ _ P).
  - intros v I. destruct (put_in _ _ _ _ I) as [->|J]; [exact K|exact (p_us _ _ _ _ _ _ _ _ _ P v J)].
  - exact (p_ds _ _ _ _ _ _ _ _ _ P).
  - intros v I. destruct (put_in _ _ _ _ I) as [->|J]; [exact Y|exact (p_up _ _ _ _ _ _ _ _ _ P v J)].
  - exact (p_dp _ _ _ _ _ _ _ _ _ P).
  - exact (p_lk _ _ _ _ _ _ _ _ _ P).
  - intros E. exact (W_user _ _ _ _ _ _ N X (p_cn _ _ _ _ _ _ _ _ _ P E)).
  - exact D.
  - destruct (p_fresh _ _ _ _ _ _ _ _ _ P) as [G|G]; [left; exact (W_user _ _ _ _ _ _ N X G)|]. destruct F as [F|F]; [left; exact F|right; exact (put_forall2 _ _ _ _ _ _ N F G)].
Qed.
Lemma parts_user_closed calls t rd cn dg dg' lk us ds k u' : parts calls false t rd cn dg lk us ds -> uok u' = true ->
  parts calls false t rd cn dg' lk (ChannelModel.set_nth us k u') ds.
Proof.
  intros [] K. constructor; auto; try (intros _; left; reflexivity); try (left; left; reflexivity).
  intros v I. destruct (put_in _ _ _ _ I) as [->|J]; auto.
Qed.
Lemma parts_closed calls o t rd cn dg lk us ds : parts calls o t rd cn dg lk us ds -> parts calls false t rd cn dg lk us ds.
Proof. intros []. constructor; auto; first [intros _; left; reflexivity|left; left; reflexivity]. Qed.
Lemma parts_close calls t rd cn dg lk us ds : parts calls false t rd cn dg lk us ds -> forall dg', parts calls false t rd cn dg' lk us ds.
Proof. intros [] dg'. constructor; auto; first [intros _; left; reflexivity|left; left; reflexivity]. Qed.
(** A step of a disconnect thread *)
Lemma parts_disc calls o t rd rd' cn dg dg' lk us ds k d d' : parts calls o t rd cn dg lk us ds -> nth_error ds k = Some d -> critical d' = true \/ lk <> Some k -> dok d' = true ->
  (rd' = rd \/ rd' = None) -> (dway d = true -> dway d' = true) -> (dway d' = false -> o = false) -> (dg' = true -> dg = true) ->
  parts calls o t rd' cn dg' lk us (ChannelModel.set_nth ds k d').
Proof.
  intros P N C K R X Y D. constructor.
  - destruct R as [->| ->]; [exact (p_rd _ _ _ _ _ _ _ _ _ P)|auto].
  - exact (p_t _ _ _ _ _ _ _ _ _ P).
  - exact (p_us _ _ _ _ _ _ _ _ _ P).
  - intros v I. destruct (put_in _ _ _ _ I) as [->|J]; [exact K|exact (p_ds _ _ _ _ _ _ _ _ _ P v J)].
  - exact (p_up _ _ _ _ _ _ _ _ _ P).
  - intros v I. destruct (put_in _ _ _ _ I) as [->|J]; [exact Y|exact (p_dp _ _ _ _ _ _ _ _ _ P v J)].
  - intros j E. destruct (p_lk _ _ _ _ _ _ _ _ _ P j E) as (v & M & V). destruct (Nat.eq_dec j k) as [->|NE].
    + exists d'. split; [exact (set_nth_same _ _ _ _ N)|]. destruct C as [C|C]; [exact C|congruence].
    + exists v. split; [rewrite set_nth_other by exact NE; exact M|exact V].
  - intros E. exact (W_disc _ _ _ _ _ _ N X (p_cn _ _ _ _ _ _ _ _ _ P E)).
  - intros E. exact (W_disc _ _ _ _ _ _ N X (p_dg _ _ _ _ _ _ _ _ _ P (D E))).
  - destruct (p_fresh _ _ _ _ _ _ _ _ _ P) as [G|G]; [left; exact (W_disc _ _ _ _ _ _ N X G)|right; exact G].
Qed.

Ltac inv H := injection H as <-.
Ltac fin P N OT := cbn [u_pc u_todo uway upast];
  first [solve [auto]|discriminate|solve [unfold uok; cbn; rewrite OT; reflexivity]|left; left; reflexivity|intros _; left; reflexivity
        |solve [let E := fresh in intros E; apply (W_user _ _ _ _ _ _ N); [cbn; first [discriminate|auto]|exact (p_dg _ _ _ _ _ _ _ _ _ P E)]]
        |right; intros ? _; right; reflexivity].
Lemma oinv_user calls s k ok s' : oinv calls s -> o_crashed s = false -> user_step s k ok = Some s' -> oinv calls s'.
Proof.
  intros [o p t rd cn sb dg lk us ds cr P] CR H. unfold user_step in H. cbn [o_users] in H. destruct (nth_error us k) as [[pc todo]|] eqn:N; [|discriminate].
  pose proof (p_us _ _ _ _ _ _ _ _ _ P _ (nth_error_In _ _ N)) as OK. pose proof (p_up _ _ _ _ _ _ _ _ _ P _ (nth_error_In _ _ N)) as UP. cbn in UP.
  unfold uok in OK. cbn [u_todo u_pc] in OK. apply andb_prop in OK as (OT & OP).
  assert (wu : forall u', uway (u_pc u') = true -> W o (ChannelModel.set_nth us k u') ds).
  { intros u' Y. right. left. exists u'. split; [exact (put_there _ _ _ _ N)|exact Y]. }
  assert (ok' : forall p', match p' with UIdle | UDisc | UFlags | USpawn => true | UTest r | USet r | UClose r | UNil r | UJoin r | UBack r => plain r | UWait m r => plain r && Nat.eqb m 0 | _ => false end = true -> uok (User p' todo) = true) by (intros p' E; unfold uok; cbn [u_todo u_pc]; rewrite OT, E; reflexivity).
  destruct pc; cbn in OP; try discriminate OP; cbn in H; try (destruct r; [discriminate OP|]).
  - destruct todo as [|c todo]; [discriminate|]. cbn in OT. destruct c; [discriminate OT| |]; cbn in OT.
    + inv H. apply OInv. apply (parts_user _ _ _ _ _ dg _ _ _ _ _ _ _ P N); fin P N OT.
    + destruct dg.
      * inv H. assert (G : W o (ChannelModel.set_nth us k (User UIdle todo)) ds) by (apply (W_user _ _ _ _ _ _ N); [cbn; auto; discriminate|exact (p_dg _ _ _ _ _ _ _ _ _ P eq_refl)]). apply OInv. apply (parts_user _ _ _ _ _ true _ _ _ _ _ _ _ P N); fin P N OT.
      * inv H. apply OInv. apply (parts_user _ _ _ _ _ false _ _ _ _ _ _ _ P N); fin P N OT.
  - (* UTest *) destruct cn.
    + inv H. apply OInv. apply (parts_user _ _ _ _ _ dg _ _ _ _ _ _ _ P N); fin P N OT.
    + inv H. assert (G : W o (ChannelModel.set_nth us k (User UIdle todo)) ds) by (apply (W_user _ _ _ _ _ _ N); [cbn; auto; discriminate|exact (p_cn _ _ _ _ _ _ _ _ _ P eq_refl)]). apply OInv. apply (parts_user _ _ _ _ _ dg _ _ _ _ _ _ _ P N); fin P N OT.
  - (* USet *) inv H. apply OInv. apply (parts_user _ _ _ _ _ dg true _ _ _ _ _ _ P N); fin P N OT.
  - (* UClose *) inv H. apply OInv. apply parts_closed in P. apply (parts_user_closed _ _ _ _ dg _ _ _ _ _ _ P). apply ok'. reflexivity.
  - (* UNil *) specialize (UP eq_refl). subst o. destruct rd; inv H; apply OInv; apply (parts_user _ _ _ _ _ dg _ _ _ _ _ _ _ P N); fin P N OT.
  - (* UJoin *) specialize (UP eq_refl). subst o. destruct (p_rd _ _ _ _ _ _ _ _ _ P) as [E|E]; subst rd.
    + destruct (joined _ 0) in H; inv H; apply OInv; apply (parts_user _ _ _ _ _ dg _ _ _ _ _ _ _ P N); fin P N OT.
    + inv H. apply OInv. exact P.
  - (* UWait *) specialize (UP eq_refl). subst o. destruct (joined _ m) in H; [|discriminate]. inv H. apply OInv. apply (parts_user _ _ _ _ _ dg _ _ _ _ _ _ _ P N); fin P N OT.
  - (* UBack *) specialize (UP eq_refl). subst o. inv H. apply OInv. apply (parts_user _ _ _ _ _ dg _ _ _ _ _ _ _ P N); fin P N OT.
  - (* UDisc *) destruct dg.
    + inv H. assert (G : W o (ChannelModel.set_nth us k (User UIdle todo)) ds) by (apply (W_user _ _ _ _ _ _ N); [cbn; auto; discriminate|exact (p_dg _ _ _ _ _ _ _ _ _ P eq_refl)]). apply OInv. apply (parts_user _ _ _ _ _ true _ _ _ _ _ _ _ P N); fin P N OT.
    + inv H. apply OInv. apply (parts_user _ _ _ _ _ false _ _ _ _ _ _ _ P N); fin P N OT.
  - (* UFlags *) inv H. apply OInv. assert (Q : parts calls o t rd cn true lk (ChannelModel.set_nth us k (User USpawn todo)) ds) by (apply (parts_user _ _ _ _ _ dg _ _ _ _ _ _ _ P N); fin P N OT).
    destruct Q. constructor; auto.
  - (* USpawn *) inv H. apply OInv. assert (G : W o (ChannelModel.set_nth us k (User UIdle todo)) (ds ++ [DLock])) by (right; right; exists DLock; split; [apply in_or_app; right; left; reflexivity|reflexivity]).
    destruct P. constructor; auto.
    + intros v I. destruct (put_in _ _ _ _ I) as [->|J]; [apply ok'; reflexivity|auto].
    + intros d I. apply in_app_or in I as [I|[<-|[]]]; auto.
    + intros v I. destruct (put_in _ _ _ _ I) as [->|J]; [discriminate|eauto].
    + intros d I. apply in_app_or in I as [I|[<-|[]]]; [eauto|discriminate].
    + intros j E. destruct (p_lk0 j E) as (d & M & C). exists d. split; [|exact C]. transitivity (nth_error ds j); [|exact M]. apply nth_error_app1. apply nth_error_Some. congruence.
Qed.
Lemma oinv_disc calls s k s' : oinv calls s -> disc_step s k = Some s' -> oinv calls s'.
Proof.
  intros [o p t rd cn sb dg lk us ds cr P] H. unfold disc_step in H. cbn [o_discs] in H. destruct (nth_error ds k) as [pc|] eqn:N; [|discriminate].
  pose proof (p_ds _ _ _ _ _ _ _ _ _ P _ (nth_error_In _ _ N)) as OK. pose proof (p_dp _ _ _ _ _ _ _ _ _ P _ (nth_error_In _ _ N)) as DP.
  destruct pc; cbn in H.
  - destruct lk; [discriminate|]. inv H. apply OInv. assert (Q : parts calls o t rd cn dg None us (ChannelModel.set_nth ds k DClose)) by (apply (parts_disc _ _ _ _ _ _ dg _ _ _ _ _ _ _ P N); cbn; auto; discriminate).
    destruct Q. constructor; auto. intros j E. injection E as <-. exists DClose. split; [exact (set_nth_same _ _ _ _ N)|reflexivity].
  - inv H. apply OInv. apply parts_closed in P.
    assert (Q : parts calls false t rd cn dg lk us (ChannelModel.set_nth ds k DNil)).
    { destruct P. constructor; auto; try (intros; left; reflexivity).
      - intros d I. destruct (put_in _ _ _ _ I) as [->|J]; auto.
      - intros j E. destruct (p_lk0 j E) as (v & M & V). destruct (Nat.eq_dec j k) as [->|NE]; [exists DNil; split; [exact (set_nth_same _ _ _ _ N)|reflexivity]|]. exists v. split; [rewrite set_nth_other by exact NE; exact M|exact V].
      - left. left. reflexivity. }
    exact Q.
  - destruct rd; inv H; apply OInv; apply (parts_disc _ _ _ _ _ _ dg _ _ _ _ _ _ _ P N); cbn; auto.
  - destruct (p_rd _ _ _ _ _ _ _ _ _ P) as [E|E]; subst rd.
    + destruct (joined _ 0) in H; inv H; apply OInv; apply (parts_disc _ _ _ _ _ _ dg _ _ _ _ _ _ _ P N); cbn; auto.
    + inv H. apply OInv. exact P.
  - destruct (joined _ m) in H; [|discriminate]. inv H. apply OInv. apply (parts_disc _ _ _ _ _ _ dg _ _ _ _ _ _ _ P N); cbn; auto.
  - inv H. apply OInv. apply (parts_disc _ _ _ _ _ _ dg _ _ _ _ _ _ _ P N); cbn; auto.
  - inv H. apply OInv. apply (parts_disc _ _ _ _ _ _ dg _ _ _ _ _ _ _ P N); cbn; auto; discriminate.
  - inv H. apply OInv. specialize (DP eq_refl). subst o. destruct P. constructor; auto; try (intros; left; reflexivity).
    + intros d I. destruct (put_in _ _ _ _ I) as [->|J]; auto.
    + intros j E. discriminate.
    + left. left. reflexivity.
  - discriminate.
Qed.
Lemma parts_thread calls o t t' rd cn dg lk us ds : parts calls o t rd cn dg lk us ds -> match t' with TRead c | TBusy c => c = Real 0 | _ => True end -> parts calls o t' rd cn dg lk us ds.
Proof. intros [] H. constructor; auto. Qed.
Lemma oinv_step calls s a s' : oinv calls s -> a <> OConnect -> oact_step s a = Some s' -> oinv calls s'.
Proof.
  intros G NC H. unfold oact_step in H. destruct (o_crashed s) eqn:CR; [discriminate|]. destruct a as [k ok|k|k|k|b|].
  - exact (oinv_user _ _ _ _ _ G CR H).
  - exact (oinv_disc _ _ _ _ G H).
  - destruct G as [o p t rd cn sb dg lk us ds cr P]. unfold data_step in H. cbn [o_threads] in H. destruct k as [|[|k]]; [|discriminate|discriminate]. cbn in H. pose proof (p_t _ _ _ _ _ _ _ _ _ P) as T.
    destruct t; [| | |discriminate].
    + inv H. destruct cn; apply OInv; apply (parts_thread _ _ _ _ _ _ _ _ _ _ P); cbn; auto.
    + destruct (read_fails _ c) in H; [|discriminate]. inv H. apply OInv. apply (parts_thread _ _ _ _ _ _ _ _ _ _ P). exact I.
    + inv H. destruct cn; apply OInv; apply (parts_thread _ _ _ _ _ _ _ _ _ _ P); cbn; auto.
  - destruct G as [o p t rd cn sb dg lk us ds cr P]. cbn [o_threads] in H. destruct k as [|[|k]]; [|discriminate|discriminate]. cbn in H. pose proof (p_t _ _ _ _ _ _ _ _ _ P) as T.
    destruct t; try discriminate. destruct (read_fails _ c) in H; [discriminate|]. inv H. apply OInv. apply (parts_thread _ _ _ _ _ _ _ _ _ _ P). exact T.
  - destruct G as [o p t rd cn sb dg lk us ds cr P]. cbn in H. destruct cn; [|discriminate]. inv H. apply OInv. exact P.
  - congruence.
Qed.
Lemma oinv_start port calls : only_ending calls -> oinv calls (subscribed_on port calls).
Proof.
  intros O. apply OInv. constructor; auto; try discriminate; try (intros d []).
  - intros u I. apply in_map_iff in I as (c & <- & J). unfold only_ending in O. rewrite Forall_forall in O. specialize (O c J). unfold uok. cbn. rewrite andb_true_r. apply forallb_forall. intros x X. rewrite Forall_forall in O. specialize (O x X). destruct x; [exfalso; exact (O port0 eq_refl)|reflexivity|reflexivity].
  - intros u I. apply in_map_iff in I as (c & <- & J). discriminate.
  - right. clear O. induction calls; constructor; auto. left. auto.
Qed.
Lemma oinv_run calls l : forall s s', oinv calls s -> one_connection l -> orun s l = Some s' -> oinv calls s'.
Proof.
  induction l as [|a l IH]; intros s s' G O H; cbn in H; [injection H as <-; exact G|]. inversion O as [|? ? O1 O2]; subst. destruct (oact_step s a) as [s1|] eqn:T; [|discriminate]. exact (IH _ _ (oinv_step _ _ _ _ G O1 T) O2 H).
Qed.

Lemma at_end calls s : oinv calls s -> o_crashed s = false -> stands_still s -> all_returned s /\ (some_call calls -> sockets_open s = 0%nat /\ reading s = 0%nat).
Proof.
  intros [o p t rd cn sb dg lk us ds cr P] CR R. cbn in CR. subst cr.
  assert (RU : forall k, user_step (OState [mkSock o p] (Some (Real 0)) [t] rd cn sb dg lk us ds false) k false = None) by (intros k; exact (R (OUser k false) eq_refl)).
  assert (RD : forall k, disc_step (OState [mkSock o p] (Some (Real 0)) [t] rd cn sb dg lk us ds false) k = None) by (intros k; exact (R (ODisc k) eq_refl)).
  pose proof (R (OData 0) eq_refl) as RT. cbn in RT. pose proof (p_t _ _ _ _ _ _ _ _ _ P) as T.
  assert (TD : t = TDone \/ o = true /\ t = TRead (Real 0)).
  { destruct t; try discriminate RT; [|auto]. subst c. unfold data_step, read_fails in RT. cbn in RT. destruct o; [auto|discriminate RT]. }
  assert (J : o = false -> joined (OState [mkSock o p] (Some (Real 0)) [t] rd cn sb dg lk us ds false) 0 = true) by (intros E; destruct TD as [->|(X & _)]; [reflexivity|congruence]).
  assert (DD : lk = None /\ forall d, In d ds -> d = DEnd).
  { assert (NL : lk = None).
    { destruct lk as [k|]; [|reflexivity]. destruct (p_lk _ _ _ _ _ _ _ _ _ P k eq_refl) as (d & N & C). specialize (RD k). unfold disc_step in RD. cbn [o_discs] in RD. rewrite N in RD.
      pose proof (p_ds _ _ _ _ _ _ _ _ _ P _ (nth_error_In _ _ N)) as OK. pose proof (p_dp _ _ _ _ _ _ _ _ _ P _ (nth_error_In _ _ N)) as DP.
      destruct d; try discriminate C; cbn [o_reader] in RD; try discriminate RD; [destruct rd; discriminate RD|]. cbn in OK. apply Nat.eqb_eq in OK. subst m. rewrite (J (DP eq_refl)) in RD. discriminate RD. }
    split; [exact NL|]. subst lk. intros d I. destruct (In_nth_error _ _ I) as (k & N). specialize (RD k). unfold disc_step in RD. cbn [o_discs] in RD. rewrite N in RD.
    pose proof (p_ds _ _ _ _ _ _ _ _ _ P _ I) as OK. pose proof (p_dp _ _ _ _ _ _ _ _ _ P _ I) as DP.
    destruct d; cbn [o_reader o_lock] in RD; try discriminate RD; [destruct rd; discriminate RD| |reflexivity]. cbn in OK. apply Nat.eqb_eq in OK. subst m. rewrite (J (DP eq_refl)) in RD. discriminate RD. }
  destruct DD as (-> & DD).
  assert (UU : forall u, In u us -> u = User UIdle []).
  { intros [pc todo] I. destruct (In_nth_error _ _ I) as (k & N). specialize (RU k). unfold user_step in RU. cbn [o_users] in RU. rewrite N in RU.
    pose proof (p_us _ _ _ _ _ _ _ _ _ P _ I) as OK. pose proof (p_up _ _ _ _ _ _ _ _ _ P _ I) as UP. cbn [u_pc] in UP. unfold uok in OK. cbn [u_todo u_pc] in OK. apply andb_prop in OK as (_ & OP).
    destruct pc; cbn in OP; try discriminate OP; cbn [o_reader] in RU; try discriminate RU; [destruct todo as [|[]]; [reflexivity| | |]; discriminate RU|destruct rd; discriminate RU|].
    destruct r; [discriminate OP|]. cbn in OP. apply Nat.eqb_eq in OP. subst m. rewrite (J (UP eq_refl)) in RU. discriminate RU. }
  split; [split; [apply Forall_forall; intros u I; symmetry; exact (UU u I)|split; [apply Forall_forall; intros d I; symmetry; exact (DD d I)|reflexivity]]|].
  intros (l & I & NE). assert (OC : o = false).
  { destruct (p_fresh _ _ _ _ _ _ _ _ _ P) as [[H|[(u & IU & H)|(d & ID & H)]]|F]; [exact H|rewrite (UU u IU) in H; discriminate|rewrite (DD d ID) in H; discriminate|].
    exfalso. clear - F I NE UU. induction F as [|u c us cs H F IH]; [destruct I|]. destruct I as [<-|I]; [|exact (IH (fun u J => UU u (or_intror J)) I)]. rewrite (UU u (or_introl eq_refl)) in H. destruct H as [(_ & H)|H]; [cbn in H; congruence|discriminate]. }
  subst o. destruct TD as [->|(X & _)]; [split; reflexivity|discriminate].
Qed.
