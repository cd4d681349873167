(** Closing: the goroutines below take steps of ShutdownModel. *)
From Coq Require Import Arith Lia.
From Verif Require Import Base ConcModel ShutdownModel ShutdownSpec ShutdownProofs CloseModel CloseSpec.

Lemma nth_set_same {A} (l : list A) i x y : nth_error l i = Some y -> nth_error (set_nth l i x) i = Some x.
Proof. revert i. induction l as [|z l IH]; intros [|i] H; try discriminate; cbn; auto. Qed.
Lemma nth_set_other {A} (l : list A) i j x : i <> j -> nth_error (set_nth l i x) j = nth_error l j.
Proof. revert i j. induction l as [|z l IH]; intros [|i] [|j] H; cbn; auto; congruence. Qed.
Lemma nth_app_some {A} (l : list A) m i x : nth_error l i = Some x -> nth_error (l ++ m) i = Some x.
Proof. intros H. rewrite nth_error_app1; [exact H|]. apply nth_error_Some. congruence. Qed.

(** What a step does to the goroutines: it moves its own and may start one. *)
Lemma sstep_gors s i s' : sstep s i = Some s' -> exists g g' more, nth_error (sgors s) i = Some g /\ sgors s' = set_nth (sgors s) i g' ++ more /\
  match g with Disc a p => exists p', g' = Disc a p' /\ (p = XUnSet \/ p = XEnd -> p' = XEnd) | _ => match g' with Disc _ _ => False | _ => True end end.
Proof.
  unfold sstep. destruct (crashed s) eqn:C; [discriminate|]. destruct (nth_error (sgors s) i) as [g|] eqn:N; [|discriminate]. intros H. exists g.
  assert (K : forall t g' more, sgors t = set_nth (sgors s) i g' ++ more -> Some t = Some s' ->
    match g with Disc a p => exists p', g' = Disc a p' /\ (p = XUnSet \/ p = XEnd -> p' = XEnd) | _ => match g' with Disc _ _ => False | _ => True end end ->
    exists g' more, Some g = Some g /\ sgors s' = set_nth (sgors s) i g' ++ more /\
    match g with Disc a p => exists p', g' = Disc a p' /\ (p = XUnSet \/ p = XEnd -> p' = XEnd) | _ => match g' with Disc _ _ => False | _ => True end end).
  { intros t g' more E T M. injection T as <-. exists g', more. auto. }
  assert (D : forall au k ret p, match g with Disc _ _ => False | _ => True end -> (forall p, match k p with Disc _ _ => False | _ => True end) -> match ret with Disc _ _ => False | _ => True end ->
    Some (disconnect_step s i au k ret p) = Some s' -> exists g' more, Some g = Some g /\ sgors s' = set_nth (sgors s) i g' ++ more /\
    match g with Disc a p => exists p', g' = Disc a p' /\ (p = XUnSet \/ p = XEnd -> p' = XEnd) | _ => match g' with Disc _ _ => False | _ => True end end).
  { intros au k ret p G KD RD E. injection E as <-.
    assert (X : exists g' more, sgors (disconnect_step s i au k ret p) = set_nth (sgors s) i g' ++ more /\ match g' with Disc _ _ => False | _ => True end).
    { destruct s; destruct p; cbn.
      - eexists _, []. rewrite app_nil_r. split; [reflexivity|]. destruct disconnecting; [exact RD|apply KD].
      - eexists _, []. rewrite app_nil_r. split; [reflexivity|apply KD].
      - eexists _, []. rewrite app_nil_r. split; [reflexivity|apply KD].
      - eexists _, _. split; [reflexivity|exact RD]. }
    destruct X as (g' & more & X & Y). exists g', more. split; [reflexivity|]. split; [exact X|]. destruct g; try exact Y. destruct G. }
  Ltac goes_ K H s := first [ solve [eapply (K _ _ []); [|exact H|]; [rewrite app_nil_r; destruct s; cbn; reflexivity|cbn; eauto] ]
     | solve [eapply (K _ _ _); [|exact H|]; [destruct s; cbn; reflexivity|cbn; eauto] ] ].
  destruct g as [u todo|c p|p|au p].
  - destruct u; try (goes_ K H s).
    + destruct todo as [|[] todo]; [discriminate| |]; destruct (connected s), (disconnecting s); goes_ K H s.
    + eapply D; [exact Logic.I| | |exact H]; [intros; exact Logic.I|exact Logic.I].
    + destruct (dthread s) as [t|]; [destruct (is_running s t)|]; goes_ K H s.
    + destruct (is_held s i0); [discriminate|goes_ K H s].
    + destruct (action s); [discriminate|goes_ K H s].
    + eapply (K _ (User UNotify todo) [Reader (conns s) RdNew]); [|exact H|exact Logic.I]. destruct s; reflexivity.
  - destruct p; try discriminate H; try (goes_ K H s).
    + destruct (connected s); goes_ K H s.
    + destruct (_ || _); [goes_ K H s|discriminate].
    + destruct (disconnecting s); goes_ K H s.
    + destruct (trunning s); goes_ K H s.
    + destruct (trunning s); goes_ K H s.
    + destruct (theld s); [discriminate|goes_ K H s].
  - destruct p; try discriminate H; try (goes_ K H s). eapply D; [exact Logic.I| | |exact H]; [intros; exact Logic.I|exact Logic.I].
  - Ltac goes2 K H s := eapply (K _ _ []); [|exact H|]; [rewrite app_nil_r; destruct s; cbn; reflexivity|eexists; split; [reflexivity|intros [?|?]; try discriminate; auto] ].
    destruct p; try discriminate H.
    + destruct au; goes2 K H s.
    + destruct (trunning s); goes2 K H s.
    + destruct (theld s); [discriminate|goes2 K H s].
    + destruct (action s); [discriminate|goes2 K H s].
    + goes2 K H s.
    + destruct (cmd s); goes2 K H s.
    + destruct (cmd s) as [t|]; [destruct (is_running s t); goes2 K H s|].
      eapply (K _ (Disc au XJoin) []); [|exact H|exists XJoin; split; [reflexivity|intros [?|?]; discriminate]].
      rewrite app_nil_r. destruct s; cbn in *. clear - N. revert i N. induction sgors as [|x l IH]; intros [|i] N; try discriminate; cbn in *; [injection N as ->; reflexivity|]. f_equal. apply IH. exact N.
    + destruct (is_held s i0); [discriminate|goes2 K H s].
    + goes2 K H s.
    + goes2 K H s.
    + destruct au; goes2 K H s.
    + goes2 K H s.
    + goes2 K H s.
    + goes2 K H s.
Qed.

Lemma sstep_other s i s' j g : sstep s i = Some s' -> j <> i -> nth_error (sgors s) j = Some g -> nth_error (sgors s') j = Some g.
Proof.
  intros H D N. destruct (sstep_gors _ _ _ H) as (h & h' & more & _ & -> & _). apply nth_app_some. rewrite nth_set_other by congruence. exact N.
Qed.
Definition is_disc (s : sst) (t : nat) : Prop := exists a p, nth_error (sgors s) t = Some (Disc a p).
Definition disc_over (s : sst) (t : nat) : Prop := exists a p, nth_error (sgors s) t = Some (Disc a p) /\ (p = XUnSet \/ p = XEnd).
Lemma sstep_disc s i s' t : sstep s i = Some s' -> (is_disc s t -> is_disc s' t) /\ (disc_over s t -> disc_over s' t).
Proof.
  intros H. destruct (sstep_gors _ _ _ H) as (h & h' & more & N & E & M).
  assert (K : forall a p, nth_error (sgors s) t = Some (Disc a p) -> exists p', nth_error (sgors s') t = Some (Disc a p') /\ (p = XUnSet \/ p = XEnd -> p' = XUnSet \/ p' = XEnd)).
  { intros a p T. rewrite E. destruct (Nat.eq_dec i t) as [<-|D].
    - rewrite N in T. injection T as ->. destruct M as (p' & -> & M). exists p'. split; [apply nth_app_some; exact (nth_set_same _ _ _ _ N)|]. intros X. right. exact (M X).
    - exists p. split; [|auto]. apply nth_app_some. rewrite nth_set_other by exact D. exact T. }
  split.
  - intros (a & p & T). destruct (K _ _ T) as (p' & T' & _). exists a, p'. exact T'.
  - intros (a & p & T & L). destruct (K _ _ T) as (p' & T' & X). exists a, p'. auto.
Qed.
Lemma sstep_dthread s i s' : sstep s i = Some s' -> dthread s' = dthread s \/ dthread s' = Some (length (sgors s)) /\ is_disc s' (length (sgors s)).
Proof.
  unfold sstep. destruct (crashed s) eqn:C; [discriminate|]. destruct (nth_error (sgors s) i) as [g|] eqn:N; [|discriminate].
  assert (D : forall au k ret p, Some (disconnect_step s i au k ret p) = Some s' -> dthread s' = dthread s \/ dthread s' = Some (length (sgors s)) /\ is_disc s' (length (sgors s))).
  { intros au k ret p E. injection E as <-. destruct p; try (left; destruct s; reflexivity). right.
    assert (L : length (set_nth (sgors s) i ret) = length (sgors s)) by apply set_nth_length. destruct s. cbn in *. rewrite app_length, L. cbn. rewrite Nat.add_1_r. split; [reflexivity|].
    exists au, XNew. cbn. rewrite <- L. rewrite nth_error_app2 by lia. rewrite Nat.sub_diag. reflexivity. }
  intros H.
  Ltac keeps H s := try discriminate H; solve [injection H as <-; left; destruct s; reflexivity].
  destruct g as [u todo|c p|p|au p].
  - destruct u; try keeps H s.
    + destruct todo as [|[] todo]; keeps H s.
    + exact (D _ _ _ _ H).
    + destruct (dthread s) as [t|] eqn:T; injection H as <-; left; destruct s; exact T.
    + destruct (is_held s i0); keeps H s.
    + destruct (action s); keeps H s.
  - destruct p; try keeps H s.
    + destruct (_ || _); keeps H s.
    + destruct (theld s); keeps H s.
  - destruct p; try keeps H s. exact (D _ _ _ _ H).
  - destruct p; try keeps H s.
    + destruct (theld s); keeps H s.
    + destruct (action s); keeps H s.
    + destruct (cmd s); keeps H s.
    + destruct (is_held s i0); keeps H s.
Qed.
Lemma set_set {A} (l : list A) i x y : set_nth (set_nth l i x) i y = set_nth l i y.
Proof. revert i. induction l as [|z l IH]; intros [|i]; cbn; auto. unfold set_nth in *. f_equal. apply IH. Qed.
Lemma goes_goes s i x y : goes (goes s i x) i y = goes s i y.
Proof. destruct s. unfold goes. cbn. rewrite set_set. reflexivity. Qed.
Lemma goes_disc s i g g' t : nth_error (sgors s) i = Some g -> (forall a p, g <> Disc a p) -> (is_disc s t -> is_disc (goes s i g') t) /\ (disc_over s t -> disc_over (goes s i g') t).
Proof.
  intros N D. assert (K : forall a p, nth_error (sgors s) t = Some (Disc a p) -> nth_error (sgors (goes s i g')) t = Some (Disc a p)).
  { intros a p T. destruct s. cbn in *. rewrite nth_set_other; [exact T|]. intros <-. rewrite N in T. injection T as ->. exact (D a p eq_refl). }
  split; [intros (a & p & T); exists a, p; auto|intros (a & p & T & L); exists a, p; auto].
Qed.

(** ** The invariant *)
Definition c_steps (c : closer) : nat := match cat c with CNew => 8 | CTest => 7 | CIn => 6 | CSee => 6 | CSaw _ => 5 | CJoin _ => 4 | CWait _ => 3 | CBack _ => 0 end.
Definition closers_steps (l : list closer) : nat := list_sum (map c_steps l).
Definition at_self (b : sst) (c : closer) : Prop :=
  match cat c with
  | CNew | CTest => nth_error (sgors b) (self c) = Some (User UIdle [ODisconnect])
  | CIn => exists p, p <> DTest /\ nth_error (sgors b) (self c) = Some (User (UDisc p) [])
  | _ => nth_error (sgors b) (self c) = Some (User UIdle [])
  end.
Definition at_thread (b : sst) (c : closer) : Prop :=
  match cat c with CSaw (Some t) | CJoin t | CWait t => is_disc b t | CBack true => exists t, disc_over b t | _ => True end.
Record cinv (total : nat) (s : cst) (m : nat) : Prop := CInv {
  v_good : exists mb, good total (base s) mb /\ (m = mb + closers_steps (closers s))%nat;
  v_selfs : NoDup (map self (closers s));
  v_at : forall c, In c (closers s) -> at_self (base s) c /\ at_thread (base s) c;
  v_thread : forall t, dthread (base s) = Some t -> is_disc (base s) t;
  v_host : forall c, In c (closers s) -> host c = None;
  v_dial : dialers s = []
}.
Lemma in_set_nth {A} (l : list A) k x y : In y (set_nth l k x) -> y = x \/ exists j, j <> k /\ nth_error l j = Some y.
Proof.
  revert k. induction l as [|z l IH]; intros [|k] H; cbn in *; try tauto.
  - destruct H as [->|H]; [auto|]. apply In_nth_error in H as (j & H). right. exists (S j). auto.
  - destruct H as [->|H]; [right; exists 0%nat; auto|]. destruct (IH k H) as [->|(j & D & N)]; [auto|]. right. exists (S j). auto.
Qed.
Lemma map_set_same {A B} (f : A -> B) l k x y : nth_error l k = Some y -> f x = f y -> map f (set_nth l k x) = map f l.
Proof. revert k. induction l as [|z l IH]; intros [|k] H E; try discriminate; cbn in *; [injection H as ->; congruence|]. f_equal. apply IH; assumption. Qed.
Lemma steps_set l k c c' : nth_error l k = Some c -> (closers_steps (set_nth l k c') + c_steps c = closers_steps l + c_steps c')%nat.
Proof.
  unfold closers_steps, list_sum. revert k. induction l as [|z l IH]; intros [|k] H; try discriminate; cbn in *; [injection H as ->; lia|]. specialize (IH k H). lia.
Qed.
Lemma self_other l k j c d : NoDup (map self l) -> nth_error l k = Some c -> nth_error l j = Some d -> j <> k -> self d <> self c.
Proof.
  intros N K J D E. apply D. rewrite NoDup_nth_error in N. apply N.
  - rewrite map_length. apply nth_error_Some. congruence.
  - rewrite !nth_error_map, K, J. cbn. congruence.
Qed.
(** Call [k] goes to [c'], the goroutines below to [b']. *)
Lemma close_keeps total s m k c c' b' dis mb' : cinv total s m -> nth_error (closers s) k = Some c -> self c' = self c -> host c' = None ->
  good total b' mb' -> (mb' + c_steps c' + closers_steps (closers s) < m + c_steps c)%nat ->
  (forall j g, j <> self c -> nth_error (sgors (base s)) j = Some g -> nth_error (sgors b') j = Some g) ->
  (forall t, is_disc (base s) t -> is_disc b' t) -> (forall t, disc_over (base s) t -> disc_over b' t) ->
  at_self b' c' -> at_thread b' c' -> (forall t, dthread b' = Some t -> is_disc b' t) ->
  exists m', cinv total (CState b' dis (set_nth (closers s) k c') (dialers s)) m' /\ (m' < m)%nat.
Proof.
  intros [G NS AT TH HO DI] N SF HF G' L O D1 D2 A1 A2 T. exists (mb' + closers_steps (set_nth (closers s) k c'))%nat. pose proof (steps_set _ _ _ c' N). split; [|lia].
  constructor; cbn [base closers dialers].
  - exists mb'. auto.
  - rewrite (map_set_same self _ _ _ _ N SF). exact NS.
  - intros d I. destruct (in_set_nth _ _ _ _ I) as [->|(j & D & J)]; [auto|].
    pose proof (self_other _ _ _ _ _ NS N J D) as SD. destruct (AT d (nth_error_In _ _ J)) as (X & Y). split.
    + unfold at_self in *. destruct (cat d); try (apply O; assumption). destruct X as (p & P & X). exists p. split; [exact P|]. apply O; assumption.
    + unfold at_thread in *. destruct (cat d) as [| | | |[]| | |[]]; auto. destruct Y as (t & Y). eauto.
  - exact T.
  - intros d I. destruct (in_set_nth _ _ _ _ I) as [->|(j & D & J)]; [exact HF|]. exact (HO d (nth_error_In _ _ J)).
  - exact DI.
Qed.
Lemma close_step_keep total s m k s' : cinv total s m -> close_step s k = Some s' -> exists m', cinv total s' m' /\ (m' < m)%nat.
Proof.
  intros V H. pose proof V as [(mb & G & EM) NS AT TH HO DI]. unfold close_step in H. destruct (crashed (base s)) eqn:CR; [discriminate|].
  destruct (nth_error (closers s) k) as [c|] eqn:N; [|discriminate]. pose proof (HO c (nth_error_In _ _ N)) as HN. destruct (AT c (nth_error_In _ _ N)) as (A1 & A2).
  destruct c as [u h p]. cbn [self host cat] in *. subst h. unfold at_self, at_thread in A1, A2. cbn [self cat] in A1, A2.
  (* steps that leave the goroutines below alone *)
  assert (K : forall dis p', (c_steps (Closer u None p') < c_steps (Closer u None p))%nat -> at_self (base s) (Closer u None p') -> at_thread (base s) (Closer u None p') ->
    exists m', cinv total (CState (base s) dis (set_nth (closers s) k (Closer u None p')) (dialers s)) m' /\ (m' < m)%nat).
  { intros dis p' L B1 B2. apply (close_keeps total s m k (Closer u None p) (Closer u None p') (base s) dis mb); auto. lia. }
  destruct p.
  - injection H as <-. apply K; [cbn; lia|exact A1|exact Logic.I].
  - destruct (disconnecting (base s)) eqn:DG; injection H as <-.
    + assert (ST : sstep (base s) u = Some (goes (base s) u (User UIdle []))) by (unfold sstep; rewrite CR, A1, DG; reflexivity).
      destruct (good_step _ _ _ _ _ G ST) as (mb' & G' & L). apply (close_keeps total s m k (Closer u None CTest) (Closer u None CSee) _ _ mb' V N); [reflexivity|reflexivity|exact G'| | | | | | | ].
      * change (c_steps (Closer u None CSee)) with 6%nat. change (c_steps (Closer u None CTest)) with 7%nat. lia.
      * intros j g D. exact (sstep_other _ _ _ j g ST D).
      * intros t. exact (proj1 (sstep_disc _ _ _ t ST)).
      * intros t. exact (proj2 (sstep_disc _ _ _ t ST)).
      * unfold at_self. cbn [cat self]. destruct (base s). exact (nth_set_same _ _ _ _ A1).
      * exact Logic.I.
      * intros t T. apply (sstep_disc _ _ _ t ST). apply TH. destruct (base s). exact T.
    + assert (ST : sstep (base s) u = Some (goes (base s) u (User (UDisc DTest) []))) by (unfold sstep; rewrite CR, A1, DG; reflexivity).
      assert (ST2 : sstep (goes (base s) u (User (UDisc DTest) [])) u = Some (goes (base s) u (User (UDisc DSet) []))).
      { unfold sstep. replace (crashed (goes _ _ _)) with false by (destruct (base s); exact (eq_sym CR)). replace (nth_error _ u) with (Some (User (UDisc DTest) [])) by (destruct (base s); symmetry; exact (nth_set_same _ _ _ _ A1)).
        cbn [disconnect_step]. replace (disconnecting (goes _ _ _)) with false by (destruct (base s); exact (eq_sym DG)). rewrite goes_goes. reflexivity. }
      destruct (good_step _ _ _ _ _ G ST) as (mb1 & G1 & L1). destruct (good_step _ _ _ _ _ G1 ST2) as (mb' & G' & L).
      apply (close_keeps total s m k (Closer u None CTest) (Closer u None CIn) _ _ mb' V N); [reflexivity|reflexivity|exact G'| | | | | | | ].
      * change (c_steps (Closer u None CIn)) with 6%nat. change (c_steps (Closer u None CTest)) with 7%nat. lia.
      * intros j g D X. exact (sstep_other _ _ _ j g ST2 D (sstep_other _ _ _ j g ST D X)).
      * intros t X. exact (proj1 (sstep_disc _ _ _ t ST2) (proj1 (sstep_disc _ _ _ t ST) X)).
      * intros t X. exact (proj2 (sstep_disc _ _ _ t ST2) (proj2 (sstep_disc _ _ _ t ST) X)).
      * unfold at_self. cbn [cat self]. exists DSet. split; [discriminate|]. destruct (base s). exact (nth_set_same _ _ _ _ A1).
      * exact Logic.I.
      * intros t T. apply (sstep_disc _ _ _ t ST2), (sstep_disc _ _ _ t ST). apply TH. destruct (base s). exact T.
  - destruct (sstep (base s) u) as [b'|] eqn:ST; [|discriminate]. injection H as <-. destruct A1 as (p & PT & A1). rewrite A1.
    destruct (good_step _ _ _ _ _ G ST) as (mb' & G' & L).
    assert (TH' : forall t, dthread b' = Some t -> is_disc b' t).
    { intros t T. destruct (sstep_dthread _ _ _ ST) as [E|(E & I)]; [apply (sstep_disc _ _ _ t ST), TH; congruence|]. rewrite E in T. injection T as <-. exact I. }
    apply (close_keeps total s m k (Closer u None CIn) (Closer u None _) _ _ mb' V N); [reflexivity|reflexivity|exact G'| | | | | | | ].
    + change (c_steps (Closer u None CIn)) with 6%nat. assert (c_steps (Closer u None (match p with DStart => CJoin (length (sgors (base s))) | _ => CIn end)) <= 6)%nat by (destruct p; cbn; lia). lia.
    + intros j g D. exact (sstep_other _ _ _ j g ST D).
    + intros t. exact (proj1 (sstep_disc _ _ _ t ST)).
    + intros t. exact (proj2 (sstep_disc _ _ _ t ST)).
    + unfold sstep in ST. rewrite CR, A1 in ST. injection ST as <-. unfold at_self. cbn [self]. destruct p; cbn [cat disconnect_step]; try congruence.
      * exists DUnSet. split; [discriminate|]. destruct (base s). exact (nth_set_same _ _ _ _ A1).
      * exists DStart. split; [discriminate|]. destruct (base s). exact (nth_set_same _ _ _ _ A1).
      * destruct (base s). cbn. apply nth_app_some. exact (nth_set_same _ _ _ _ A1).
    + unfold at_thread. destruct p; cbn [cat]; auto. apply TH'. unfold sstep in ST. rewrite CR, A1 in ST. injection ST as <-. destruct (base s). cbn. rewrite app_length, set_nth_length. cbn. f_equal. lia.
    + exact TH'.
  - injection H as <-. apply K; [cbn; lia|exact A1|]. unfold at_thread. cbn [cat]. destruct (dthread (base s)) as [t|] eqn:T; [exact (TH t eq_refl)|exact Logic.I].
  - injection H as <-. apply K; [destruct t; [destruct (disconnected (base s))|]; cbn; lia| |].
    + destruct t; [destruct (disconnected (base s))|]; exact A1.
    + destruct t; [destruct (disconnected (base s))|]; try exact Logic.I. exact A2.
  - injection H as <-. apply K; [destruct (is_running (base s) t); cbn; lia| |].
    + destruct (is_running (base s) t); exact A1.
    + destruct (is_running (base s) t); [exact A2|exact Logic.I].
  - destruct (is_held (base s) t) eqn:HE; [discriminate|]. injection H as <-. apply K; [cbn; lia|exact A1|].
    unfold at_thread. cbn [cat]. exists t. destruct A2 as (a & p & T). exists a, p. split; [exact T|]. unfold is_held in HE. rewrite T in HE. destruct p; try discriminate HE; auto.
  - discriminate.
Qed.
Lemma cinv_step total s m a s' : cinv total s m -> (forall c, a <> CAct (Closes c)) -> cact_step s a = Some s' -> exists m', cinv total s' m' /\ (m' < m)%nat.
Proof.
  intros V KO H. destruct a as [[i|c]|k|k].
  - pose proof V as [(mb & G & EM) NS AT TH HO DI]. cbn [cact_step sact_step] in H. destruct (held_up s i) eqn:HU; [discriminate|]. destruct (sstep (base s) i) as [b'|] eqn:ST; [|discriminate]. injection H as <-.
    destruct (good_step _ _ _ _ _ G ST) as (mb' & G' & L). exists (mb' + closers_steps (closers s))%nat. split; [|lia]. constructor; cbn [base closers dialers]; auto.
    + exists mb'. auto.
    + intros c I. destruct (AT c I) as (X & Y).
      assert (SD : self c <> i). { intros E. unfold held_up in HU. apply Bool.orb_false_elim in HU as (HU & _). apply Bool.not_true_iff_false in HU. apply HU. apply existsb_exists. exists c. split; [exact I|]. rewrite E, Nat.eqb_refl. reflexivity. }
      split.
      * unfold at_self in *. destruct (cat c); try (exact (sstep_other _ _ _ _ _ ST SD X)). destruct X as (p & P & X). exists p. split; [exact P|]. exact (sstep_other _ _ _ _ _ ST SD X).
      * unfold at_thread in *. destruct (cat c) as [| | | |[t|]|t|t|[]]; auto; try (exact (proj1 (sstep_disc _ _ _ t ST) Y)). destruct Y as (t & Y). exists t. exact (proj2 (sstep_disc _ _ _ t ST) Y).
    + intros t T. destruct (sstep_dthread _ _ _ ST) as [E|(E & I)]; [apply (sstep_disc _ _ _ t ST), TH; congruence|]. rewrite E in T. injection T as <-. exact I.
  - destruct (KO c eq_refl).
  - exact (close_step_keep _ _ _ _ _ V H).
  - pose proof (v_dial _ _ _ V) as DI. cbn [cact_step] in H. unfold dial_step in H. rewrite DI in H. destruct (crashed (base s)); [discriminate|]. destruct k; discriminate.
Qed.
Lemma cinv_run total sched : forall s m, cinv total s m -> keeps_open sched -> (exists m', cinv total (crun s sched) m') /\ (cmoves s sched <= m)%nat.
Proof.
  induction sched as [|a sched IH]; intros s m V KO; cbn [crun cmoves]; [split; [eauto|lia]|]. inversion KO as [|? ? K KO']; subst.
  destruct (cact_step s a) as [s'|] eqn:E.
  - destruct (cinv_step _ _ _ _ _ V K E) as (m' & V' & L). destruct (IH s' m' V' KO') as (R & M). split; [exact R|lia].
  - exact (IH s m V KO').
Qed.

(** ** Every call of Close *)
Lemma crun_closers s sched : length (closers (crun s sched)) = length (closers s).
Proof.
  revert s. induction sched as [|a sched IH]; intros s; [reflexivity|]. cbn [crun]. rewrite IH. destruct (cact_step s a) as [s'|] eqn:E; [|reflexivity].
  destruct a as [a|k|k]; cbn [cact_step] in E.
  - destruct (match a with Go i => held_up s i | Closes _ => false end); [discriminate|]. destruct (sact_step (base s) a); [|discriminate]. injection E as <-. reflexivity.
  - unfold close_step in E. destruct (crashed (base s)); [discriminate|]. destruct (nth_error (closers s) k) as [c|]; [|discriminate].
    destruct (cat c); try discriminate E; repeat match type of E with context [match ?b with _ => _ end] => destruct b end; try discriminate E; injection E as <-; apply set_nth_length.
  - unfold dial_step in E. destruct (crashed (base s)); [discriminate|]. destruct (nth_error (dialers s) k) as [[u []]|]; try discriminate. destruct (disposing s); injection E as <-; reflexivity.
Qed.
Lemma closers_len k hosts : length (closers_from k hosts) = length hosts.
Proof. revert k. induction hosts as [|h hosts IH]; intros k; cbn; auto. Qed.
Lemma closers_self k hosts : map self (closers_from k hosts) = seq k (length hosts).
Proof. revert k. induction hosts as [|h hosts IH]; intros k; cbn; auto. f_equal. apply IH. Qed.
Lemma closers_in k hosts c : In c (closers_from k hosts) -> cat c = CNew /\ In (host c) hosts /\ exists j, self c = (k + j)%nat /\ (j < length hosts)%nat.
Proof.
  revert k. induction hosts as [|h hosts IH]; intros k; cbn; [tauto|]. intros [<-|H]; [split; [reflexivity|split; [auto|exists 0%nat; cbn; lia]]|].
  destruct (IH (S k) H) as (A & B & j & C & D). split; [exact A|]. split; [auto|]. exists (S j). lia.
Qed.
Lemma closers_weight k hosts : closers_steps (closers_from k hosts) = (8 * length hosts)%nat.
Proof. unfold closers_steps, list_sum. revert k. induction hosts as [|h hosts IH]; intros k; [reflexivity|]. cbn [closers_from map fold_right length c_steps cat]. rewrite IH. lia. Qed.
Lemma calls_of_closers {A} (l : list A) calls : calls_of (map (fun _ => [ODisconnect]) l ++ calls) = (length l + calls_of calls)%nat.
Proof. unfold calls_of, list_sum. induction l as [|x l IH]; [reflexivity|]. cbn [map app fold_right length]. cbn in IH. rewrite IH. lia. Qed.
Lemma nth_closers {A} (l : list A) calls j : (j < length l)%nat -> nth_error (map (fun _ => [ODisconnect]) l ++ calls) j = Some [ODisconnect].
Proof. revert j. induction l as [|x l IH]; intros [|j] H; cbn in *; try lia; [reflexivity|]. apply IH. lia. Qed.
Lemma cinv_init n calls : disconnecting_only calls ->
  cinv (n + calls_of calls) (cinit (repeat None n) 0 calls) (20 * (n + calls_of calls) + 8 + 8 * n).
Proof.
  intros H. assert (D : disconnecting_only (map (fun _ => [ODisconnect]) (repeat (@None nat) n) ++ calls)).
  { unfold disconnecting_only. apply List.Forall_app. split; [|exact H]. apply List.Forall_forall. intros l I. apply in_map_iff in I as (x & <- & _). repeat constructor. }
  pose proof (good_init _ D) as G. rewrite (calls_of_closers (repeat (@None nat) n) calls), repeat_length in G. constructor; cbn [cinit base closers dialers repeat app].
  - exists (20 * (n + calls_of calls) + 8)%nat. split; [exact G|]. rewrite closers_weight, repeat_length. reflexivity.
  - rewrite closers_self. apply seq_NoDup.
  - intros c I. destruct (closers_in _ _ _ I) as (C & _ & j & SF & J). unfold at_self, at_thread. rewrite C, SF. split; [|exact Logic.I]. cbn [sconnected sgors nth_error Nat.add].
    rewrite nth_error_map, nth_closers by exact J. reflexivity.
  - discriminate.
  - intros c I. destruct (closers_in _ _ _ I) as (_ & K & _). exact (repeat_spec n None (host c) K).
  - reflexivity.
Qed.
Lemma good_over total s m t : good total s m -> disc_over s t -> over s.
Proof.
  intros [cn dg dd ac cm dt cl lg pc rest -> V ->] (a & p & N & P). destruct V as [B HO CN LV BG PA FI CL OP ON ER CM NO DO TO SO]. destruct t as [|t]; [discriminate N|]. cbn in N. apply nth_error_In in N.
  pose proof (sum_in w_disc rest _ N) as S1. pose proof (sum_in w_done rest _ N) as S2. pose proof (sum_in w_closed rest _ N) as S3. pose proof (sum_in w_noted rest _ N) as S4.
  assert (X : w_disc (Disc a p) = 1%nat /\ w_done (Disc a p) = 1%nat /\ w_closed (Disc a p) = 1%nat /\ w_noted (Disc a p) = 1%nat) by (destruct P as [->| ->]; repeat split). destruct X as (X1 & X2 & X3 & X4).
  rewrite X1 in S1. rewrite X2 in S2. rewrite X3 in S3. rewrite X4 in S4. split; [|split; [|split]]; cbn.
  - destruct cn; [specialize (CN eq_refl); clear - CN S1; lia|reflexivity].
  - apply DO. clear - S2; lia.
  - specialize (CL ltac:(clear - S3; lia)). apply existsb_exists in CL as (x & I & E). apply Nat.eqb_eq in E. subst x. exact I.
  - change (1 <= terms lg)%nat. rewrite NO. exact S4.
Qed.
Lemma terms_bound total s m : good total s m -> crashed s = false /\ (terminations s <= total)%nat.
Proof.
  intros [cn dg dd ac cm dt cl lg pc rest -> V ->]. split; [reflexivity|]. change (terminations _) with (terms lg). rewrite (i_noted _ _ _ _ _ _ _ _ _ _ V).
  pose proof (i_total _ _ _ _ _ _ _ _ _ _ V). assert (sum w_noted rest <= sum w_disc rest)%nat by (apply sum_le; intros [| | |? []]; cbn; lia). lia.
Qed.
Lemma rest_below total s m : cinv total s m -> all_rest s -> at_rest (base s).
Proof.
  intros [(mb & G & _) NS AT TH HO DI] (R1 & R2 & _) i. specialize (R1 i). cbn [cact_step sact_step] in R1. destruct (held_up s i) eqn:HU.
  2:{ destruct (sstep (base s) i); [discriminate|reflexivity]. }
  unfold held_up in HU. rewrite DI in HU. cbn in HU. rewrite Bool.orb_false_r in HU. apply existsb_exists in HU as (c & I & E). rewrite (HO c I), Bool.orb_false_r in E. apply Nat.eqb_eq in E. subst i.
  destruct (In_nth_error _ _ I) as (k & N). specialize (R2 k). unfold close_step in R2. destruct (terms_bound _ _ _ G) as (CR & _). rewrite CR, N in R2. destruct (AT c I) as (A1 & _).
  unfold at_self in A1. unfold may_begin in R2. rewrite (HO c I) in R2.
  destruct (cat c); try discriminate R2; try (unfold sstep; rewrite CR, A1; reflexivity).
  - destruct (disconnecting (base s)); discriminate R2.
  - destruct A1 as (p & _ & A1). unfold sstep in R2. rewrite CR, A1 in R2. discriminate R2.
Qed.
