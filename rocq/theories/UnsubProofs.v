(** Proofs about Unsubscribe while a connection ends. *)
From Coq Require Import Arith Lia ZifyBool ZifyNat.
From Verif Require Import Base ConcModel ShutdownModel ShutdownSpec ShutdownProofs UnsubModel UnsubSpec.

Lemma set_in {A} (l : list A) k x y : In y (set_nth l k x) -> y = x \/ In y l.
Proof. revert k. induction l as [|z l IH]; intros [|k]; cbn; auto; intros [H|H]; auto. destruct (IH k H); auto. Qed.
Lemma set_keeps {A} (l : list A) k x z y : nth_error l k = Some z -> In y l -> y <> z -> In y (set_nth l k x).
Proof.
  revert k. induction l as [|w l IH]; intros [|k] N I D; try discriminate; cbn in *.
  - injection N as ->. destruct I as [I|I]; [congruence|auto].
  - destruct I as [I|I]; [auto|right; exact (IH k N I D)].
Qed.
Lemma set_there {A} (l : list A) k x z : nth_error l k = Some z -> In x (set_nth l k x).
Proof. revert k. induction l as [|w l IH]; intros [|k] N; try discriminate; cbn in *; [auto|right; exact (IH k N)]. Qed.

(** Before any Disconnect: connected, the reader reads, and the flag is set only while
    an Unsubscribe is about to clear it. *)
Definition waiting (pc : rdpc) : Prop := pc = RdNew \/ pc = RdLoop \/ pc = RdRead.
Definition quiet_state (calls : list (list uop)) (d : bool) (pc : rdpc) : sst :=
  state true d false false (Some 0%nat) None [] [EEstablished 1] pc (map (User UIdle) calls).
Definition quiet (calls : list (list uop)) (s : nst) : Prop :=
  exists d pc, under s = quiet_state calls d pc /\ waiting pc /\ (d = true -> exists n, In (Caller NBack n) (callers s)).
(** From the first Disconnect on *)
Definition ending (calls : list (list uop)) (s : nst) : Prop :=
  no_unsubscribe s /\ (exists m, good (calls_of calls) (under s) m) /\ (connected (under s) = true -> (0 < sum w_udisc (sgors (under s)))%nat).

Lemma idle_good calls pc : disconnecting_only calls -> waiting pc -> exists m, good (calls_of calls) (quiet_state calls false pc) m.
Proof.
  intros D W. pose proof (good_init _ D) as G. destruct W as [->|[->| ->]].
  - eexists. exact G.
  - destruct (good_step _ _ _ 0 (quiet_state calls false RdLoop) G eq_refl) as (m & G1 & _). eauto.
  - destruct (good_step _ _ _ 0 (quiet_state calls false RdLoop) G eq_refl) as (m & G1 & _). destruct (good_step _ _ _ 0 (quiet_state calls false RdRead) G1 eq_refl) as (m2 & G2 & _). eauto.
Qed.
Lemma quiet_call calls s k s' : quiet calls s -> call_step s k = Some s' -> quiet calls s'.
Proof.
  intros (d & pc & E & W & B) H. unfold call_step in H. rewrite E in H. cbn [quiet_state state crashed] in H. destruct (nth_error (callers s) k) as [[p n]|] eqn:N; [|discriminate].
  destruct p.
  - destruct n as [|n]; [discriminate|]. cbn [connected] in H. injection H as <-. exists d, pc. split; [reflexivity|]. split; [exact W|]. intros T. destruct (B T) as (m & I). exists m. apply (set_keeps _ _ _ _ _ N I). discriminate.
  - injection H as <-. exists true, pc. split; [reflexivity|]. split; [exact W|]. intros _. exists n. exact (set_there _ _ _ _ N).
  - injection H as <-. exists false, pc. split; [reflexivity|]. split; [exact W|]. discriminate.
Qed.
Lemma udisc_kept total s m i s' : good total s m -> sstep s i = Some s' -> (connected s = true -> (0 < sum w_udisc (sgors s))%nat) -> connected s' = true -> (0 < sum w_udisc (sgors s'))%nat.
Proof.
  intros [cn dg dd ac cm dt cl lg pc rest -> V ->] H K C. destruct V as [B HO CN LV BG PA FI CL OP ON ER CM NO DO TO SO].
  unfold sstep in H. destruct i as [|j]; cbn [state crashed sgors nth_error] in H.
  - destruct pc; cbn in H; repeat match type of H with context [if ?b then _ else _] => destruct b eqn:?; try discriminate H end; try discriminate FI; try discriminate H; injection H as <-; cbn in C |- *; apply K; assumption.
  - destruct (nth_error rest j) as [g|] eqn:N; [|discriminate]. pose proof (sum_in w_bad rest g (nth_error_In _ _ N)) as B'.
    destruct g as [u todo|c p|p|au p]; try (exfalso; clear -B B'; cbn in B'; lia).
    + destruct u as [|p| | | | | | ]; try (exfalso; clear -B B'; cbn in B'; lia).
      * destruct todo as [|[] todo]; try discriminate; [exfalso; clear -B B'; cbn in B'; lia|]. injection H as <-. cbn in C. specialize (K C). cbn in K |- *.
        match goal with |- context [set_nth rest j ?g'] => pose proof (sum_set w_udisc rest j _ g' N) as Q end. cbn [disconnecting state] in *. destruct dg; cbn in Q |- *; lia.
      * destruct p; cbn [disconnect_step disconnecting] in H.
        -- injection H as <-. cbn in C. specialize (K C). specialize (CN C). cbn in K |- *. destruct dg.
           ++ specialize (LV eq_refl). pose proof (le_live_disc rest). cbn [disconnecting state]. pose proof (sum_set w_pre rest j _ (User UIdle todo) N) as Q. cbn in Q.
              pose proof (le_pre_udisc (set_nth rest j (User UIdle todo))). lia.
           ++ cbn [disconnecting state]. pose proof (sum_set w_udisc rest j _ (User (UDisc DSet) todo) N) as Q. cbn in Q. lia.
        -- injection H as <-. cbn in C. specialize (K C). cbn in K |- *. pose proof (sum_set w_udisc rest j _ (User (UDisc DUnSet) todo) N) as Q. cbn in Q. lia.
        -- injection H as <-. discriminate C.
        -- injection H as <-. cbn in C. specialize (CN C). pose proof (sum_in w_start rest _ (nth_error_In _ _ N)) as Q. cbn in Q. lia.
    + pose proof (sum_in w_disc rest _ (nth_error_In _ _ N)) as Q. cbn in Q. exfalso. assert (T : connected s' = cn); [|rewrite C in T; specialize (CN (eq_sym T)); lia].
      destruct au; [exfalso; clear -B B'; cbn in B'; lia|]. clear - H. destruct p; cbn [trunning theld action cmd conns state] in H;
        repeat match type of H with context [if ?b then _ else _] => destruct b eqn:?; try discriminate H | context [match ?b with Some _ => _ | None => _ end] => destruct b eqn:?; try discriminate H end;
        try discriminate H; injection H as <-; reflexivity.
Qed.
Lemma phases calls s a s' : disconnecting_only calls -> quiet calls s \/ ending calls s -> (forall c, a <> NAct (Closes c)) -> begins_apart s a -> nact_step s a = Some s' -> quiet calls s' \/ ending calls s'.
Proof.
  intros D [Q|Q] ST AP H; destruct a as [[i|c]|k]; try (exfalso; exact (ST c eq_refl)); cbn [nact_step sact_step] in H.
  - destruct (sstep (under s) i) as [b|] eqn:T; [|discriminate]. injection H as <-. destruct Q as (d & pc & E & W & B).
    destruct i as [|j].
    + left. rewrite E in T. unfold sstep in T. cbn [quiet_state state crashed sgors nth_error connected closed gone has existsb orb] in T. destruct W as [->|[->| ->]]; try discriminate T; injection T as <-; eexists d, _; (split; [reflexivity|]); (split; [unfold waiting; auto|exact B]).
    + right. cbn [begins_apart] in AP. rewrite E in T, AP.
      unfold sstep in T. cbn [quiet_state state crashed sgors nth_error] in T, AP. destruct (nth_error (map (User UIdle) calls) j) as [g|] eqn:N; [|discriminate].
      assert (U : exists l, g = User UIdle l /\ Forall (eq ODisconnect) l).
      { apply nth_error_In in N. apply in_map_iff in N as (l & <- & I). exists l. split; [reflexivity|]. unfold disconnecting_only in D. rewrite List.Forall_forall in D. exact (D l I). }
      destruct U as (l & -> & F). specialize (AP l eq_refl). destruct l as [|o l]; [discriminate|]. inversion F; subst o. assert (d = false).
      { destruct d; [|reflexivity]. destruct (B eq_refl) as (n & I). unfold no_unsubscribe in AP. rewrite List.Forall_forall in AP. specialize (AP _ I). discriminate. }
      subst d. injection T as <-. split; [exact AP|]. split.
      * destruct (idle_good calls pc D W) as (m & G). assert (T : sstep (quiet_state calls false pc) (S j) = Some (goes (quiet_state calls false pc) (S j) (User (UDisc DTest) l))).
        { unfold sstep. cbn [quiet_state state crashed sgors nth_error]. rewrite N. reflexivity. }
        destruct (good_step _ _ _ _ _ G T) as (m' & G' & _). exists m'. exact G'.
      * intros _. cbn. pose proof (sum_set w_udisc _ j _ (User (UDisc DTest) l) N) as X. cbn in X. lia.
  - left. exact (quiet_call calls s k s' Q H).
  - destruct (sstep (under s) i) as [b|] eqn:T; [|discriminate]. injection H as <-. right. destruct Q as (NU & (m & G) & C). split; [exact NU|]. split.
    + destruct (good_step _ _ _ _ _ G T) as (m' & G' & _). exists m'. exact G'.
    + exact (udisc_kept _ _ _ _ _ G T C).
  - right. destruct Q as (NU & G & C). unfold call_step in H. destruct (crashed (under s)); [discriminate|]. destruct (nth_error (callers s) k) as [[p n]|] eqn:N; [|discriminate].
    pose proof NU as NU'. unfold no_unsubscribe in NU'. rewrite List.Forall_forall in NU'. pose proof (NU' _ (nth_error_In _ _ N)) as P. cbn in P. subst p. destruct n as [|n]; [discriminate|].
    cbn [begins_apart] in AP. specialize (AP _ N). destruct (connected (under s)) eqn:CE.
    + exfalso. specialize (C eq_refl). destruct (sum_pos _ _ C) as (g & I & P). destruct g as [u todo| | |]; cbn in P; try lia. destruct u as [|p| | | | | | ]; cbn in P; try lia. exact (AP p todo I).
    + injection H as <-. split; [|split; [exact G|cbn; rewrite CE; discriminate]]. unfold no_unsubscribe. cbn [callers]. apply List.Forall_forall. intros x I. apply set_in in I as [->|I]; [reflexivity|exact (NU' x I)].
Qed.
Lemma phases_run calls sched : disconnecting_only calls -> forall s, quiet calls s \/ ending calls s -> stays sched -> apart s sched -> quiet calls (nrun s sched) \/ ending calls (nrun s sched).
Proof.
  intros D. induction sched as [|a r IH]; intros s Q ST AP; [exact Q|]. inversion ST as [|? ? S1 S2]; subst. destruct AP as (A1 & A2). cbn [nrun]. apply IH; [|exact S2|exact A2].
  destruct (nact_step s a) as [s'|] eqn:T; [|exact Q]. exact (phases calls s a s' D Q S1 A1 T).
Qed.
Lemma quiet_init times calls : quiet calls (ninit times calls).
Proof. exists false, RdNew. split; [reflexivity|]. split; [left; reflexivity|discriminate]. Qed.
Lemma callers_done s : crashed (under s) = false -> nothing_left s -> unsubscribed s.
Proof.
  intros C R. unfold unsubscribed. apply List.Forall_forall. intros [p n] I. destruct (In_nth_error _ _ I) as (k & N). specialize (R (NCall k) ltac:(discriminate)). cbn [nact_step] in R. unfold call_step in R. rewrite C, N in R.
  destruct p; try discriminate. destruct n; [reflexivity|discriminate].
Qed.
Lemma under_rest s : nothing_left s -> at_rest (under s).
Proof. intros R i. specialize (R (NAct (Go i)) ltac:(discriminate)). cbn in R. destruct (sstep (under s) i); [discriminate|reflexivity]. Qed.

Lemma apart_shuts_down times calls sched : disconnecting_only calls -> stays sched -> apart (ninit times calls) sched ->
  let s := nrun (ninit times calls) sched in
  crashed (under s) = false /\ (terminations (under s) <= calls_of calls)%nat /\
  (nothing_left s -> unsubscribed s /\ returned (under s) /\ ((0 < calls_of calls)%nat -> down (under s) /\ In 1%nat (closed (under s)) /\ (1 <= terminations (under s))%nat)).
Proof.
  intros D ST AP s. pose proof (phases_run calls sched D _ (or_introl (quiet_init times calls)) ST AP) as P. fold s in P. clearbody s. destruct P as [(d & pc & E & W & B)|(NU & (m & G) & C)].
  - assert (CR : crashed (under s) = false) by (rewrite E; reflexivity). split; [exact CR|]. split; [rewrite E; cbn; lia|]. intros R. pose proof (under_rest s R) as AR. split; [exact (callers_done s CR R)|].
    assert (Z : forall l, In l calls -> l = []).
    { intros l I. destruct (In_nth_error _ _ I) as (j & N). specialize (AR (S j)). rewrite E in AR. unfold sstep in AR. cbn [quiet_state state crashed sgors nth_error] in AR. rewrite nth_error_map, N in AR. cbn [option_map] in AR. destruct l as [|[] l]; [reflexivity|discriminate|discriminate]. }
    split.
    + intros p todo I. rewrite E in I. cbn in I. destruct I as [I|I]; [discriminate|]. apply in_map_iff in I as (l & Q & I). injection Q as <- <-. split; [reflexivity|exact (Z l I)].
    + intros P. exfalso. clear -Z P. unfold calls_of in P. induction calls as [|l calls IH]; cbn in P; [lia|]. rewrite (Z l (or_introl eq_refl)) in P. cbn in P. apply IH; [intros x I; apply Z; right; exact I|exact P].
  - assert (CR : crashed (under s) = false) by (destruct G as [cn dg dd ac cm dt cl lg pc rest E V Em]; rewrite E; reflexivity). split; [exact CR|]. split.
    + destruct G as [cn dg dd ac cm dt cl lg pc rest E V Em]. rewrite E. change (terminations _) with (terms lg). rewrite (i_noted _ _ _ _ _ _ _ _ _ _ V).
      pose proof (i_total _ _ _ _ _ _ _ _ _ _ V). assert (sum w_noted rest <= sum w_disc rest)%nat by (apply sum_le; intros [| | |? []]; cbn; lia). lia.
    + intros R. destruct (good_rest _ _ _ G (under_rest s R)) as (R1 & R2). split; [exact (callers_done s CR R)|]. auto.
Qed.
Lemma quiet_run times sched : stays sched -> quiet [] (nrun (ninit times []) sched).
Proof.
  intros ST. generalize (quiet_init times []). generalize (ninit times []). induction ST as [|a r A ST IH]; intros s Q; [exact Q|]. cbn [nrun]. apply IH. destruct (nact_step s a) as [s'|] eqn:T; [|exact Q].
  destruct a as [[i|c]|k]; cbn [nact_step sact_step] in T; [|exfalso; exact (A c eq_refl)|exact (quiet_call [] s k s' Q T)].
  destruct Q as (d & pc & E & W & B). destruct (sstep (under s) i) as [b|] eqn:U; [|discriminate]. injection T as <-. rewrite E in U. unfold sstep in U. cbn [quiet_state state crashed sgors] in U.
  destruct i as [|[|i]]; try discriminate U. cbn [nth_error connected closed gone has existsb orb] in U. destruct W as [->|[->| ->]]; try discriminate U; injection U as <-; eexists d, _; (split; [reflexivity|]); (split; [unfold waiting; auto|exact B]).
Qed.
Lemma unsubscribe_stays times sched : stays sched -> let s := nrun (ninit times []) sched in
  connected (under s) = true /\ disconnected (under s) = false /\ crashed (under s) = false /\ closed (under s) = [] /\ terminations (under s) = 0%nat /\
  (nothing_left s -> unsubscribed s /\ up (under s)).
Proof.
  intros ST s. destruct (quiet_run times sched ST) as (d & pc & E & W & B). fold s in E, B. assert (CR : crashed (under s) = false) by (rewrite E; reflexivity).
  repeat (split; [rewrite E; reflexivity|]). intros R. pose proof (callers_done s CR R) as U. split; [exact U|]. rewrite E. split; [reflexivity|]. split; [|reflexivity]. cbn. destruct d; [|reflexivity].
  destruct (B eq_refl) as (n & I). unfold unsubscribed in U. rewrite List.Forall_forall in U. specialize (U _ I). discriminate.
Qed.
