(** Proofs about Unsubscribe when the publisher closes the connection. *)
From Coq Require Import Arith Lia ZifyBool ZifyNat.
From Verif Require Import Base ConcModel ShutdownModel ShutdownSpec ShutdownProofs UnsubModel UnsubSpec UnsubProofs.

Definition some (w : sgor -> bool) (l : list sgor) : Prop := exists g, In g l /\ w g = true.
Lemma some_there w l j g g' : nth_error l j = Some g -> w g' = true -> some w (set_nth l j g').
Proof. intros N W. exists g'. split; [exact (set_there _ _ _ _ N)|exact W]. Qed.
Lemma some_set w l j g g' : nth_error l j = Some g -> some w l -> (w g = true -> w g' = true) -> some w (set_nth l j g').
Proof.
  intros N (x & I & W) H. destruct (w g) eqn:G; [apply (some_there w l j g g' N); auto|]. exists x. split; [|exact W]. apply (set_keeps _ _ _ _ _ N I). intros ->. congruence.
Qed.
Lemma some_app w l g : some w l -> some w (l ++ [g]).
Proof. intros (x & I & W). exists x. split; [apply in_or_app; auto|exact W]. Qed.
Lemma some_last w l g : w g = true -> some w (l ++ [g]).
Proof. intros W. exists g. split; [apply in_or_app; right; left; reflexivity|exact W]. Qed.
Lemma of_set w l j g' : some w (set_nth l j g') -> w g' = false -> some w l.
Proof. intros (x & I & W) H. apply set_in in I as [->|I]; [congruence|]. exists x. auto. Qed.
Lemma of_app w l g : some w (l ++ [g]) -> w g = false -> some w l.
Proof. intros (x & I & W) H. apply in_app_or in I as [I|[->|[]]]; [|congruence]. exists x. auto. Qed.

Definition okg (g : sgor) : bool :=
  match g with
  | Term _ => true
  | Disc true (XTerm | XTermWait | XLock | XRelease | XWait (S _)) => false
  | Disc true _ => true
  | _ => false
  end.
Definition w_gone (g : sgor) : bool := match g with Term (TmDisc DStart) | Disc _ _ => true | _ => false end.
Definition w_shut (g : sgor) : bool := match g with Disc _ (XNew | XTerm | XTermWait | XLock | XClose) => false | Disc _ _ => true | _ => false end.
Definition w_told (g : sgor) : bool := match g with Disc _ (XDone | XRelease | XUnlock | XUnSet | XEnd) => true | _ => false end.
Definition w_over (g : sgor) : bool := match g with Disc _ (XRelease | XUnlock | XUnSet | XEnd) => true | _ => false end.
Definition w_busy (g : sgor) : bool := match g with Term (TmDisc (DUnSet | DStart)) => true | Disc _ (XRelease | XUnlock | XUnSet | XEnd) => false | Disc _ _ => true | _ => false end.
Definition w_holds (g : sgor) : bool := match g with Term (TmUnSet | TmEnd) => false | Term _ => true | _ => false end.
Definition rlate (pc : rdpc) : bool := match pc with RdUnlock | RdUnSet | RdEnd => true | _ => false end.
Record linv (cn dg dd th : bool) (cm : option nat) (cl : list nat) (lg : list sev) (pc : rdpc) (rest : list sgor) (cs : list caller) : Prop := Linv {
  q_ok : forall g, In g rest -> okg g = true;
  q_conn : cn = false -> some w_gone rest;
  q_late : rlate pc = true -> cn = false;
  q_shut : some w_shut rest -> has 1 cl = true;
  q_told : some w_told rest -> (1 <= terms lg)%nat;
  q_over : some w_over rest -> dd = true;
  q_flag : dg = true -> (exists n, In (Caller NBack n) cs) \/ some w_busy rest;
  q_held : th = true -> pc = RdSpawn \/ some w_holds rest;
  q_cmd : cm = Some 0%nat \/ cm = None }.
Inductive lgood (s : nst) : Prop :=
  Lgood cn dg dd tr th ac cm dt cl gn cr lg pc rest cs :
    s = NState (SState cn dg dd tr th ac 1 cm dt cl gn cr (Reader 1 pc :: rest) lg) cs -> linv cn dg dd th cm cl lg pc rest cs -> lgood s.

Ltac keep N := 
  match goal with
  | H : In ?x (set_nth _ _ _) |- _ => apply set_in in H as [->|H]; auto
  | |- some _ (set_nth _ _ _) => solve [eapply some_there; [exact N|reflexivity] | eapply some_set; [exact N|eauto|cbn; auto; discriminate]]
  | H : some _ (set_nth _ _ _) |- _ => first [apply of_set in H; [|reflexivity]; eauto | clear H]
  end.
Lemma lgood_reader s s' : lgood s -> nact_step s (NAct (Go 0)) = Some s' -> lgood s'.
Proof.
  intros [cn dg dd tr th ac cm dt cl gn cr lg pc rest cs -> V] H. destruct V as [OK CN LA SH TO OV FL HE CM]. cbn in H. destruct cr; [discriminate|].
  destruct pc; cbn in H;
    repeat match type of H with context [if ?b then _ else _] => destruct b eqn:?; cbn in H; try discriminate H end; try discriminate H; injection H as <-;
    (eapply Lgood; [reflexivity|]); constructor; auto; try discriminate; try (intros E; destruct (HE E); [discriminate|auto]); auto.
  - intros g I. apply in_app_or in I as [I|[<-|[]]]; auto.
  - intros E. apply some_app; auto.
  - intros E. apply of_app in E; auto.
  - intros E. apply of_app in E; auto.
  - intros E. apply of_app in E; auto.
  - intros E. destruct (FL E); [auto|right; apply some_app; auto].
  - intros _. right. apply some_last. reflexivity.
Qed.
Lemma lgood_other s j s' : lgood s -> nact_step s (NAct (Go (S j))) = Some s' -> lgood s'.
Proof.
  intros [cn dg dd tr th ac cm dt cl gn cr lg pc rest cs -> V] H. destruct V as [OK CN LA SH TO OV FL HE CM]. cbn in H. destruct cr; [discriminate|]. cbn in H.
  destruct (nth_error rest j) as [g|] eqn:N; [|discriminate]. pose proof (OK g (nth_error_In _ _ N)) as O. destruct g as [u todo|c p|p|au p]; try discriminate O.
  - destruct p as [|p| | |]; cbn in H.
    + injection H as <-. eapply Lgood; [reflexivity|]. constructor; auto; intros; repeat keep N; auto.
      * destruct (FL H) as [F|F]; [auto|right]. keep N.
      * destruct (HE H) as [F|F]; [auto|right]. keep N.
    + destruct p; cbn in H.
      * injection H as <-. destruct dg; (eapply Lgood; [reflexivity|]); constructor; auto; intros; repeat keep N; auto; try discriminate.
        -- destruct (FL H) as [F|F]; [auto|right]. keep N.
        -- destruct (HE H) as [F|F]; [auto|right]. keep N.
        -- destruct (HE H) as [F|F]; [auto|right]. keep N.
      * injection H as <-. eapply Lgood; [reflexivity|]. constructor; auto; intros; repeat keep N; auto.
        -- right. keep N.
        -- destruct (HE H) as [F|F]; [auto|right]. keep N.
      * injection H as <-. eapply Lgood; [reflexivity|]. constructor; auto; intros; repeat keep N; auto.
        -- destruct (FL H) as [F|F]; [auto|right]. keep N.
        -- destruct (HE H) as [F|F]; [auto|right]. keep N.
      * injection H as <-. eapply Lgood; [reflexivity|]. constructor; auto; intros.
        -- apply in_app_or in H as [H|[<-|[]]]; [|reflexivity]. keep N.
        -- apply some_last. reflexivity.
        -- apply of_app in H; [|reflexivity]. keep N.
        -- apply of_app in H; [|reflexivity]. keep N.
        -- apply of_app in H; [|reflexivity]. keep N.
        -- right. apply some_last. reflexivity.
        -- destruct (HE H) as [F|F]; [auto|right]. apply some_app. keep N.
    + injection H as <-. eapply Lgood; [reflexivity|]. constructor; auto; intros; repeat keep N; auto; try discriminate.
      destruct (FL H) as [F|F]; [auto|right]. keep N.
    + injection H as <-. eapply Lgood; [reflexivity|]. constructor; auto; intros; repeat keep N; auto.
      * destruct (FL H) as [F|F]; [auto|right]. keep N.
      * destruct (HE H) as [F|F]; [auto|right]. keep N.
    + discriminate.
  - destruct au; [|discriminate O].
    assert (FH : forall g', (w_holds g' = w_holds (Disc true p)) -> th = true -> pc = RdSpawn \/ some w_holds (set_nth rest j g')).
    { intros g' Q T. destruct (HE T) as [F|F]; [auto|right]. apply (some_set _ _ _ _ _ N F). rewrite Q. auto. }
    assert (FF : forall g', w_busy g' = true -> dg = true -> (exists n, In (Caller NBack n) cs) \/ some w_busy (set_nth rest j g')).
    { intros g' Q T. right. exact (some_there _ _ _ _ _ N Q). }
    destruct p; try discriminate O; cbn in H.
    + injection H as <-. eapply Lgood; [reflexivity|]. constructor; auto; intros; repeat keep N; auto.
    + injection H as <-. eapply Lgood; [reflexivity|]. constructor; auto; intros; repeat keep N; auto.
    + injection H as <-. assert (S1 : has 1 cl = true) by (apply SH; exists (Disc true XTest); split; [exact (nth_error_In _ _ N)|reflexivity]).
      destruct cm; (eapply Lgood; [reflexivity|]); constructor; auto; intros; repeat keep N; auto.
    + assert (S1 : has 1 cl = true) by (apply SH; exists (Disc true XJoin); split; [exact (nth_error_In _ _ N)|reflexivity]).
      destruct CM as [->| ->].
      * destruct (is_running _ 0); injection H as <-; (eapply Lgood; [reflexivity|]); constructor; auto; intros; repeat keep N; auto.
      * injection H as <-. eapply Lgood; [reflexivity|]. constructor; auto.
    + assert (S1 : has 1 cl = true) by (apply SH; exists (Disc true (XWait i)); split; [exact (nth_error_In _ _ N)|reflexivity]).
      destruct (is_held _ i); [discriminate|]. injection H as <-. eapply Lgood; [reflexivity|]. constructor; auto; intros; repeat keep N; auto.
    + assert (S1 : has 1 cl = true) by (apply SH; exists (Disc true XNil); split; [exact (nth_error_In _ _ N)|reflexivity]).
      injection H as <-. eapply Lgood; [reflexivity|]. constructor; auto; intros; repeat keep N; auto.
    + assert (S1 : has 1 cl = true) by (apply SH; exists (Disc true XNotify); split; [exact (nth_error_In _ _ N)|reflexivity]).
      injection H as <-. eapply Lgood; [reflexivity|]. constructor; auto; intros; repeat keep N; auto. unfold terms. cbn. lia.
    + assert (S1 : has 1 cl = true) by (apply SH; exists (Disc true XDone); split; [exact (nth_error_In _ _ N)|reflexivity]).
      assert (S2 : (1 <= terms lg)%nat) by (apply TO; exists (Disc true XDone); split; [exact (nth_error_In _ _ N)|reflexivity]).
      injection H as <-. eapply Lgood; [reflexivity|]. constructor; auto; intros; repeat keep N; auto; discriminate.
    + assert (S1 : has 1 cl = true) by (apply SH; exists (Disc true XUnlock); split; [exact (nth_error_In _ _ N)|reflexivity]).
      assert (S2 : (1 <= terms lg)%nat) by (apply TO; exists (Disc true XUnlock); split; [exact (nth_error_In _ _ N)|reflexivity]).
      assert (S3 : dd = true) by (apply OV; exists (Disc true XUnlock); split; [exact (nth_error_In _ _ N)|reflexivity]).
      injection H as <-. eapply Lgood; [reflexivity|]. constructor; auto; intros; repeat keep N; auto. destruct (FL H) as [F|F]; [auto|right]. keep N.
    + assert (S1 : has 1 cl = true) by (apply SH; exists (Disc true XUnSet); split; [exact (nth_error_In _ _ N)|reflexivity]).
      assert (S2 : (1 <= terms lg)%nat) by (apply TO; exists (Disc true XUnSet); split; [exact (nth_error_In _ _ N)|reflexivity]).
      assert (S3 : dd = true) by (apply OV; exists (Disc true XUnSet); split; [exact (nth_error_In _ _ N)|reflexivity]).
      injection H as <-. eapply Lgood; [reflexivity|]. constructor; auto; intros; repeat keep N; auto. destruct (FL H) as [F|F]; [auto|right]. keep N.
    + discriminate.
Qed.
Lemma lgood_call s k s' : lgood s -> nact_step s (NCall k) = Some s' -> lgood s'.
Proof.
  intros [cn dg dd tr th ac cm dt cl gn cr lg pc rest cs -> V] H. destruct V as [OK CN LA SH TO OV FL HE CM]. cbn in H. unfold call_step in H. cbn in H. destruct cr; [discriminate|].
  destruct (nth_error cs k) as [[p n]|] eqn:N; [|discriminate]. destruct p.
  - destruct n as [|n]; [discriminate|]. destruct cn; injection H as <-; (eapply Lgood; [reflexivity|]); constructor; auto; intros E; (destruct (FL E) as [(m & I)|F]; [left; exists m; apply (set_keeps _ _ _ _ _ N I); discriminate|auto]).
  - injection H as <-. eapply Lgood; [reflexivity|]. constructor; auto. intros _. left. exists n. exact (set_there _ _ _ _ N).
  - injection H as <-. eapply Lgood; [reflexivity|]. constructor; auto. discriminate.
Qed.
Lemma lgood_step s a s' : lgood s -> nact_step s a = Some s' -> lgood s'.
Proof.
  destruct a as [[[|j]|c]|k]; intros G H; [exact (lgood_reader _ _ G H)|exact (lgood_other _ _ _ G H)| |exact (lgood_call _ _ _ G H)].
  destruct G as [cn dg dd tr th ac cm dt cl gn cr lg pc rest cs -> V]. cbn in H. destruct (_ && _ && _); [|discriminate]. injection H as <-. eapply Lgood; [reflexivity|exact V].
Qed.
Lemma lgood_run times sched : lgood (nrun (ninit times []) sched).
Proof.
  assert (G : lgood (ninit times [])).
  { eapply (Lgood _ true false false false false false (Some 0%nat) None [] [] false [EEstablished 1] RdNew [] (map (Caller NIdle) times)); [reflexivity|]. constructor; auto; try discriminate; try tauto; intros (g & [] & _). }
  revert G. generalize (ninit times []). induction sched as [|a r IH]; intros s G; [exact G|]. cbn [nrun]. apply IH. destruct (nact_step s a) as [s'|] eqn:T; [exact (lgood_step _ _ _ G T)|exact G].
Qed.

Lemma lost_reported times sched : let s := nrun (ninit times []) sched in In 1%nat (gone (under s)) -> crashed (under s) = false -> nothing_left s ->
  unsubscribed s /\ down (under s) /\ In 1%nat (closed (under s)) /\ (1 <= terminations (under s))%nat /\
  (forall g, In g (sgors (under s)) -> g = Reader 1 RdEnd \/ g = Term TmEnd \/ g = Disc true XEnd).
Proof.
  intros s GO CR R. pose proof (callers_done s CR R) as U. pose proof (under_rest s R) as AR. pose proof (lgood_run times sched) as G. fold s in G. clearbody s. clear R.
  destruct G as [cn dg dd tr th ac cm dt cl gn cr lg pc rest cs -> V]. destruct V as [OK CN LA SH TO OV FL HE CM]. cbn in GO, CR. subst cr. cbn [under] in AR |- *.
  assert (TE : forall p, In (Term p) rest -> p = TmEnd).
  { intros p I. destruct (In_nth_error _ _ I) as (j & N). specialize (AR (S j)). unfold sstep in AR. cbn [crashed sgors nth_error] in AR. rewrite N in AR. destruct p; try discriminate AR; reflexivity. }
  assert (G1 : has 1 gn = true) by (unfold has; apply existsb_exists; exists 1%nat; auto).
  assert (NH : ~ some w_holds rest) by (intros (g & I & W); destruct g; try discriminate W; rewrite (TE _ I) in W; discriminate).
  assert (PC : pc = RdEnd).
  { specialize (AR 0%nat). unfold sstep in AR. cbn [crashed sgors nth_error closed gone theld connected disconnecting trunning] in AR.
    destruct pc; try discriminate AR; [rewrite G1, orb_true_r in AR; discriminate AR| |reflexivity]. destruct th; [|discriminate AR]. destruct (HE eq_refl) as [F|F]; [discriminate|contradiction]. }
  subst pc.
  assert (DE : forall a p, In (Disc a p) rest -> a = true /\ p = XEnd).
  { intros a p I. pose proof (OK _ I) as O. destruct (In_nth_error _ _ I) as (j & N). specialize (AR (S j)). unfold sstep in AR. cbn [crashed sgors nth_error cmd] in AR. rewrite N in AR. destruct a; [|discriminate O]. split; [reflexivity|].
    destruct p; try discriminate O; try discriminate AR; [destruct CM as [->| ->]; discriminate AR| |reflexivity]. destruct i; [|discriminate O]. discriminate AR. }
  specialize (LA eq_refl). subst cn. destruct (CN eq_refl) as (g & I & W). assert (D : In (Disc true XEnd) rest).
  { destruct g as [| |p|a p]; try discriminate W; [rewrite (TE _ I) in W; discriminate|]. destruct (DE _ _ I) as (-> & ->). exact I. }
  assert (S1 : has 1 cl = true) by (apply SH; exists (Disc true XEnd); auto).
  split; [exact U|]. split; [split; [reflexivity|]; split|].
  - cbn. destruct dg; [|reflexivity]. destruct (FL eq_refl) as [(n & J)|(x & J & X)].
    + unfold unsubscribed in U. rewrite List.Forall_forall in U. specialize (U _ J). discriminate.
    + destruct x as [| |p|a p]; try discriminate X; [rewrite (TE _ J) in X; discriminate|]. destruct (DE _ _ J) as (-> & ->). discriminate.
  - cbn. apply OV. exists (Disc true XEnd). auto.
  - split; [cbn; unfold has in S1; apply existsb_exists in S1 as (x & J & E); apply Nat.eqb_eq in E; subst x; exact J|]. split; [apply TO; exists (Disc true XEnd); auto|].
    intros x [<-|J]; [auto|]. pose proof (OK _ J) as O. destruct x as [| |p|a p]; try discriminate O; [rewrite (TE _ J); auto|]. destruct (DE _ _ J) as (-> & ->). auto.
Qed.
