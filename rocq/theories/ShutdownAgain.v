(** Connecting again once everything has come to rest. *)
From Coq Require Import Arith Lia.
From Verif Require Import Base ConcModel ShutdownModel ShutdownSpec ShutdownProofs ShutdownLost.

Record settled (s : sst) : Prop := Settled {
  q_gors : forallb quiet (sgors s) = true;
  q_flags : crashed s = false /\ action s = false /\ connected s = false /\ disconnecting s = false;
  q_fresh : has (S (conns s)) (closed s) = false /\ has (S (conns s)) (gone s) = false
}.

(** The states of a goroutine that connects, and of the reader it starts *)
Inductive phase (s : sst) : sst -> Prop :=
| P0 : phase s (later_calls s [OConnect])
| P1 : phase s (with_gors s (sgors s ++ [User UJoin []]))
| P2 : phase s (with_gors s (sgors s ++ [User ULock []]))
| P3 : phase s (with_gors (with_action s true) (sgors s ++ [User USetup []]))
| P4 : phase s (with_gors (with_conns (with_flags (with_action s true) false (disconnecting s) false) (S (conns s))) (sgors s ++ [User UConn []]))
| P5 pc : pc = RdNew \/ pc = RdLoop \/ pc = RdRead ->
  phase s (with_cmd (with_gors (with_conns (with_flags (with_action s true) true (disconnecting s) false) (S (conns s))) (sgors s ++ [User UNotify []; Reader (S (conns s)) pc])) (Some (S (length (sgors s)))))
| P6 pc : pc = RdNew \/ pc = RdLoop \/ pc = RdRead ->
  phase s (says (with_cmd (with_gors (with_conns (with_flags (with_action s false) true (disconnecting s) false) (S (conns s))) (sgors s ++ [User UIdle []; Reader (S (conns s)) pc])) (Some (S (length (sgors s)))))
             (EEstablished (S (conns s)))).

Lemma quiet_stuck t i gs more : sgors t = gs ++ more -> forallb quiet gs = true -> (i < length gs)%nat -> sstep t i = None.
Proof.
  intros E Q L. unfold sstep. destruct (crashed t); [reflexivity|]. rewrite E, nth_error_app1 by exact L. destruct (nth_error gs i) as [g|] eqn:N; [|reflexivity].
  rewrite forallb_forall in Q. specialize (Q g (nth_error_In _ _ N)). destruct g as [[] []|? []|[]|? []]; try discriminate Q; reflexivity.
Qed.
Lemma set_last {A} (l : list A) x y : set_nth (l ++ [x]) (length l) y = l ++ [y].
Proof. induction l as [|z l IH]; [reflexivity|]. cbn [app length]. unfold set_nth in *. cbn. f_equal. exact IH. Qed.
Lemma set_last2 {A} (l : list A) x z y : set_nth (l ++ [x; z]) (length l) y = l ++ [y; z].
Proof. induction l as [|w l IH]; [reflexivity|]. cbn [app length]. unfold set_nth in *. cbn. f_equal. exact IH. Qed.
Lemma set_last3 {A} (l : list A) x z y : set_nth (l ++ [x; z]) (S (length l)) y = l ++ [x; y].
Proof. induction l as [|w l IH]; [reflexivity|]. cbn [app length]. unfold set_nth in *. cbn. f_equal. exact IH. Qed.
Lemma nth_last {A} (l : list A) x : nth_error (l ++ [x]) (length l) = Some x.
Proof. induction l; auto. Qed.
Lemma nth_last2 {A} (l : list A) x z : nth_error (l ++ [x; z]) (length l) = Some x.
Proof. induction l; auto. Qed.
Lemma nth_last3 {A} (l : list A) x z : nth_error (l ++ [x; z]) (S (length l)) = Some z.
Proof. induction l; auto. Qed.
Lemma quiet_not_running t i gs : sgors t = gs ++ [User UJoin []] -> forallb quiet gs = true -> is_running t i = false.
Proof.
  intros E Q. unfold is_running. rewrite E. destruct (nth_error (gs ++ [User UJoin []]) i) as [g|] eqn:N; [|reflexivity]. apply nth_error_In in N. apply in_app_or in N as [N|[<-|[]]]; [|reflexivity].
  rewrite forallb_forall in Q. specialize (Q g N). destruct g as [[] []|? []|[]|? []]; try discriminate Q; reflexivity.
Qed.

Lemma phase_step s t i t' : settled s -> phase s t -> sstep t i = Some t' -> phase s t'.
Proof.
  intros [Q (F1 & F2 & F3 & F4) (C1 & C2)] P H. destruct s as [cn dg dd tr th ac n cm dt cl go cr gs lg]. cbn [sgors crashed action ShutdownModel.connected ShutdownModel.disconnecting conns closed gone] in *. subst cr ac cn dg.
  assert (A : forall more, sgors t = gs ++ more -> (length gs <= i)%nat).
  { intros more E. destruct (Nat.lt_ge_cases i (length gs)) as [L|L]; [|exact L]. rewrite (quiet_stuck t i gs more E Q L) in H; discriminate. }
  assert (B : forall more, sgors t = gs ++ more -> (i < length gs + length more)%nat).
  { intros more E. unfold sstep in H. destruct (crashed t); [discriminate|]. destruct (nth_error (sgors t) i) eqn:N; [|discriminate]. rewrite <- app_length, <- E. apply nth_error_Some. rewrite N. discriminate. }
  destruct P; (specialize (A _ eq_refl); specialize (B _ eq_refl); cbn [length] in B).
  - assert (i = length gs) by (clear - A B; lia). subst i. unfold sstep in H. cbn [later_calls spawn with_gors sgors crashed] in H. rewrite nth_last in H. cbn [ShutdownModel.connected] in H. injection H as <-.
    unfold goes. cbn [sgors with_gors]. rewrite set_last. apply (P1 (SState false false dd tr th false n cm dt cl go false gs lg)).
  - assert (i = length gs) by (clear - A B; lia). subst i. unfold sstep in H. cbn [with_gors sgors crashed] in H. rewrite nth_last in H. cbn [dthread] in H.
    replace (match dt with Some _ => _ | None => _ end) with (Some (goes (SState false false dd tr th false n cm dt cl go false (gs ++ [User UJoin []]) lg) (length gs) (User ULock []))) in H.
    2:{ destruct dt as [d|]; [|reflexivity]. rewrite (quiet_not_running (SState false false dd tr th false n cm (Some d) cl go false (gs ++ [User UJoin []]) lg) d gs eq_refl Q). reflexivity. }
    injection H as <-. unfold goes. cbn [sgors with_gors]. rewrite set_last. apply (P2 (SState false false dd tr th false n cm dt cl go false gs lg)).
  - assert (i = length gs) by (clear - A B; lia). subst i. unfold sstep in H. cbn [with_gors sgors crashed] in H. rewrite nth_last in H. cbn [action] in H. injection H as <-.
    unfold goes. cbn [sgors with_gors with_action]. rewrite set_last. apply (P3 (SState false false dd tr th false n cm dt cl go false gs lg)).
  - assert (i = length gs) by (clear - A B; lia). subst i. unfold sstep in H. cbn [with_gors with_action sgors crashed] in H. rewrite nth_last in H. injection H as <-.
    unfold goes. cbn [sgors with_gors with_action with_conns with_flags ShutdownModel.connected ShutdownModel.disconnecting conns]. rewrite set_last. apply (P4 (SState false false dd tr th false n cm dt cl go false gs lg)).
  - assert (i = length gs) by (clear - A B; lia). subst i. unfold sstep in H. cbn [with_gors with_action with_conns with_flags sgors crashed] in H. rewrite nth_last in H. injection H as <-.
    unfold goes, spawn. cbn [sgors with_gors with_action with_conns with_flags ShutdownModel.connected ShutdownModel.disconnecting ShutdownModel.disconnected conns]. rewrite set_last.
    rewrite <- app_assoc. cbn [app]. rewrite app_length. cbn [length]. replace (pred (length gs + 2)) with (S (length gs)) by lia.
    apply (P5 (SState false false dd tr th false n cm dt cl go false gs lg)). auto.
  - assert (i = length gs \/ i = S (length gs)) as [-> | ->] by (clear - A B; lia); unfold sstep in H; cbn [with_cmd with_gors with_action with_conns with_flags sgors crashed conns] in H.
    + rewrite nth_last2 in H. injection H as <-. unfold goes. cbn [sgors with_cmd with_gors with_action with_conns with_flags says conns]. rewrite set_last2.
      exact (P6 (SState false false dd tr th false n cm dt cl go false gs lg) pc H0).
    + rewrite nth_last3 in H. destruct H0 as [->|[->| ->]]; cbn [ShutdownModel.connected closed gone] in H.
      * injection H as <-. unfold goes. cbn [sgors with_gors with_action with_conns with_flags with_cmd]. rewrite set_last3. apply (P5 (SState false false dd tr th false n cm dt cl go false gs lg)). auto.
      * injection H as <-. unfold goes. cbn [sgors with_gors with_action with_conns with_flags with_cmd]. rewrite set_last3. apply (P5 (SState false false dd tr th false n cm dt cl go false gs lg)). auto.
      * change (has (S n) cl || has (S n) go = false -> False) in H || idtac. rewrite C1, C2 in H. discriminate.
  - assert (i = length gs \/ i = S (length gs)) as [-> | ->] by (clear - A B; lia); unfold sstep in H; cbn [says with_cmd with_gors with_action with_conns with_flags sgors crashed conns] in H.
    + rewrite nth_last2 in H. discriminate.
    + rewrite nth_last3 in H. destruct H0 as [->|[->| ->]]; cbn [ShutdownModel.connected closed gone] in H.
      * injection H as <-. unfold goes. cbn [sgors with_gors with_action with_conns with_flags with_cmd says]. rewrite set_last3. apply (P6 (SState false false dd tr th false n cm dt cl go false gs lg)). auto.
      * injection H as <-. unfold goes. cbn [sgors with_gors with_action with_conns with_flags with_cmd says]. rewrite set_last3. apply (P6 (SState false false dd tr th false n cm dt cl go false gs lg)). auto.
      * rewrite C1, C2 in H. discriminate.
Qed.
Lemma phase_run s later : settled s -> publisher_stays later -> forall t, phase s t -> phase s (srun t later).
Proof.
  intros Q P. induction P as [|a later (i & ->) P IH]; intros t H; [exact H|]. cbn [srun sact_step]. destruct (sstep t i) as [t'|] eqn:E; apply IH; [exact (phase_step _ _ _ _ Q H E)|exact H].
Qed.
Lemma connect_again s later : settled s -> publisher_stays later ->
  let t := srun (later_calls s [OConnect]) later in
  crashed t = false /\ terminations t = terminations s /\ closed t = closed s /\
  (at_rest t -> returned t /\ up t /\ slog t = EEstablished (S (conns s)) :: slog s).
Proof.
  intros Q P. pose proof (phase_run s later Q P _ (P0 s)) as H. cbn zeta. set (t := srun _ _) in *. clearbody t.
  destruct Q as [Q (F1 & F2 & F3 & F4) (C1 & C2)]. destruct s as [cn dg dd tr th ac n cm dt cl go cr gs lg]. cbn [sgors crashed action ShutdownModel.connected ShutdownModel.disconnecting conns closed gone slog] in *. subst cr ac cn dg.
  destruct H; (split; [reflexivity|split; [reflexivity|split; [reflexivity|]]]); intros R.
  all: try (specialize (R (length gs)); unfold sstep in R; cbn [later_calls spawn says with_cmd with_gors with_action with_conns with_flags sgors crashed] in R; rewrite ?nth_last, ?nth_last2 in R;
            cbn [dthread action] in R; try discriminate R; destruct dt; discriminate R).
  split; [|split; [repeat split|reflexivity]]. intros p todo I. cbn [sgors with_gors with_action with_conns with_flags with_cmd says] in I. apply in_app_or in I as [I|[I|[I|[]]]].
  - rewrite forallb_forall in Q. specialize (Q _ I). destruct p; try discriminate Q. destruct todo; [auto|discriminate].
  - injection I as <- <-. auto.
  - discriminate.
Qed.

Lemma good_settled total s m : good total s m -> at_rest s -> (0 < total)%nat -> settled s.
Proof.
  intros G R T. pose proof (good_rest _ _ _ G R) as (RT & D). specialize (D T) as ((D1 & D2 & D3) & D4 & _). destruct G as [cn dg dd ac cm dt cl lg pc rest -> V ->].
  destruct V as [B HO CN LV BG PA FI CL OP ON ER CM NO DO TO SO]. cbn in D1, D2, D3, D4. subst cn dg dd. assert (K : has 1 cl = true) by (apply has_in; exact D4).
  assert (pc = RdEnd).
  { specialize (R 0%nat). destruct pc; auto; try discriminate R; try discriminate FI. unfold sstep in R. cbn [state crashed sgors nth_error closed gone] in R. rewrite K in R. discriminate R. }
  subst pc.
  assert (RR : forall g, In g rest -> quiet g = true \/ g = Disc false XLock /\ ac = true).
  { intros g I. destruct (In_nth_error _ _ I) as (j & N). pose proof (sum_in w_bad rest g I) as B'. specialize (R (S j)).
    unfold sstep in R. cbn [state crashed sgors nth_error] in R. rewrite N in R.
    destruct g as [u todo|c p|p|au p]; try (exfalso; clear -B B'; cbn in B'; lia).
    - destruct (RT u todo (or_intror I)) as (-> & ->). auto.
    - destruct au; [exfalso; clear -B B'; cbn in B'; lia|]. destruct p; cbn [trunning theld action cmd conns state] in R; try discriminate R; try (exfalso; clear -B B'; cbn in B'; lia); auto.
      + destruct ac; [auto 6|discriminate].
      + destruct cm; discriminate R.
      + destruct i; [discriminate R|exfalso; clear -B B'; cbn in B'; lia]. }
  assert (AC : ac = false).
  { destruct ac; [|reflexivity]. exfalso. destruct (sum_pos w_hold rest ltac:(clear -HO; cbn in HO; lia)) as (h & I & P). destruct (RR h I) as [E|(-> & _)]; [|cbn in P; lia].
    destruct h as [[] []|? []|[]|? []]; try discriminate E; cbn in P; lia. }
  subst ac. constructor; cbn [state sgors crashed action ShutdownModel.connected conns closed gone].
  - cbn [forallb quiet andb]. apply forallb_forall. intros g I. destruct (RR g I) as [E|(_ & E)]; [exact E|discriminate].
  - auto.
  - split; [|reflexivity]. destruct (has 2 cl) eqn:E; [|reflexivity]. apply has_in in E. rewrite forallb_forall in ON. specialize (ON _ E). discriminate.
Qed.
Lemma disconnect_then_connect calls sched later : disconnecting_only calls -> publisher_stays sched -> (0 < calls_of calls)%nat -> at_rest (srun (sconnected calls) sched) -> publisher_stays later ->
  let s := srun (sconnected calls) sched in let t := srun (later_calls s [OConnect]) later in
  crashed t = false /\ terminations t = terminations s /\ closed t = closed s /\ (at_rest t -> returned t /\ up t /\ slog t = EEstablished 2 :: slog s).
Proof.
  intros H P T R L. destruct (good_run _ sched _ _ (good_init _ H) P) as ((m & G) & _). cbn zeta. pose proof (good_settled _ _ _ G R T) as Q.
  pose proof (connect_again _ later Q L) as K. cbn zeta in K. replace (S (conns (srun (sconnected calls) sched))) with 2%nat in K; [exact K|]. destruct G as [cn dg dd ac cm dt cl lg pc rest -> V ->]. reflexivity.
Qed.

Lemma lost_settled sched : let s := srun (sconnected []) sched in In 1%nat (gone s) -> at_rest s -> settled s /\ conns s = 1%nat.
Proof.
  cbn zeta. assert (I : In (srun (sconnected []) sched) states).
  { apply states_run. apply mem_in. pose proof states_sound as H. unfold sound in H. apply andb_prop in H as [H _]. exact H. }
  generalize dependent (srun (sconnected []) sched). intros s I G R. pose proof (proj1 (states_fair s I)) as F. destruct (fair_small s F) as (L & C). unfold fair in F. apply andb_prop in F as [F D].
  apply has_in in G. rewrite G in D. apply (stuck_rest s L) in R. rewrite R in D. apply andb_prop in D as [D _]. apply andb_prop in D as [D _]. apply andb_prop in D as [D E].
  unfold is_quiet in D. unfold is_down in E. clear I. split; [|exact C].
  apply andb_prop in D as [D D4]. apply andb_prop in D as [D D3]. apply andb_prop in D as [D1 D2]. apply andb_prop in E as [E E3]. apply andb_prop in E as [E1 E2].
  repeat (apply andb_prop in F as [F _]). constructor; [exact D1| |rewrite C]; clear - F D2 D3 D4 E1 E2; repeat split; apply Bool.negb_true_iff; assumption.
Qed.
Lemma lost_then_connect sched later : In 1%nat (gone (srun (sconnected []) sched)) -> at_rest (srun (sconnected []) sched) -> publisher_stays later ->
  let s := srun (sconnected []) sched in let t := srun (later_calls s [OConnect]) later in
  crashed t = false /\ terminations t = terminations s /\ closed t = closed s /\ (at_rest t -> returned t /\ up t /\ slog t = EEstablished 2 :: slog s).
Proof.
  intros G R L. cbn zeta. destruct (lost_settled sched G R) as (Q & C). pose proof (connect_again _ later Q L) as K. cbn zeta in K. rewrite C in K. exact K.
Qed.
