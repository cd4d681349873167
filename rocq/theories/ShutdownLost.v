(** When the publisher closes the connection and nobody disconnects, only finitely many states can be reached: they are enumerated and checked. *)
From Coq Require Import Arith Lia.
From Verif Require Import Base ConcModel ShutdownModel ShutdownSpec.

Definition sst_eq_dec (a b : sst) : {a = b} + {a <> b}.
Proof. repeat decide equality. Defined.
Definition mem (s : sst) (l : list sst) : bool := existsb (fun t => if sst_eq_dec s t then true else false) l.
Lemma mem_in s l : mem s l = true -> In s l.
Proof. intros H. apply existsb_exists in H as (t & I & E). destruct (sst_eq_dec s t) as [->|]; [exact I|discriminate]. Qed.

Definition acts : list sact := [Closes 1; Go 0; Go 1; Go 2; Go 3; Go 4].
Definition nexts (s : sst) : list sst := flat_map (fun a => match sact_step s a with Some s' => [s'] | None => [] end) acts.
Fixpoint add_new (l seen front : list sst) : list sst * list sst :=
  match l with [] => (seen, front) | x :: l => if mem x seen then add_new l seen front else add_new l (x :: seen) (x :: front) end.
Fixpoint explore (n : nat) (seen front : list sst) : list sst :=
  match n, front with
  | S n, s :: r => let '(seen, front) := add_new (nexts s) seen r in explore n seen front
  | _, _ => seen
  end.
Definition states : list sst := explore 2000 [sconnected []] [sconnected []].

Definition stuck (s : sst) : bool := forallb (fun i => match sstep s i with None => true | _ => false end) [0; 1; 2; 3; 4]%nat.
(** Run the latest goroutine that can run. *)
Fixpoint plan (n : nat) (s : sst) : list sact :=
  match n with
  | O => []
  | S n => match find (fun i => match sstep s i with Some _ => true | None => false end) [4; 3; 2; 1; 0]%nat with
           | Some i => match sstep s i with Some s' => Go i :: plan n s' | None => [] end
           | None => []
           end
  end.
Definition quiet (g : sgor) : bool := match g with User UIdle [] | Reader _ RdEnd | Term TmEnd | Disc _ XEnd => true | _ => false end.
Definition is_quiet (s : sst) : bool := forallb quiet (sgors s) && negb (action s) && negb (has 2 (closed s)) && negb (has 2 (gone s)).
Definition is_down (s : sst) : bool := negb (connected s) && negb (disconnecting s) && disconnected s.
Definition fair (s : sst) : bool :=
  negb (crashed s) && (terminations s <=? 2)%nat && (length (sgors s) <=? 5)%nat && (conns s =? 1)%nat
  && forallb (fun c => (c =? 1)%nat) (closed s)
  && (if has 1 (gone s)
      then (if stuck s then is_quiet s && is_down s && has 1 (closed s) && (1 <=? terminations s)%nat else stuck (srun s (plan 60 s)))
      else connected s && (terminations s =? 0)%nat && (length (closed s) =? 0)%nat).
Definition sound (l : list sst) : bool := mem (sconnected []) l && forallb (fun s => fair s && forallb (fun s' => mem s' l) (nexts s)) l.
Lemma states_sound : sound states = true.
Proof. vm_compute. reflexivity. Qed.

Global Opaque states.
Lemma fair_small s : fair s = true -> (length (sgors s) <= 5)%nat /\ conns s = 1%nat.
Proof.
  unfold fair. intros F. apply andb_prop in F as [F _]. apply andb_prop in F as [F _]. apply andb_prop in F as [F C]. apply andb_prop in F as [_ L].
  apply Nat.leb_le in L. apply Nat.eqb_eq in C. auto.
Qed.
Lemma acts_go s s' i : (length (sgors s) <= 5)%nat -> sstep s i = Some s' -> In (Go i) acts.
Proof.
  intros L E. unfold sstep in E. destruct (crashed s); [discriminate|]. destruct (nth_error (sgors s) i) as [g|] eqn:G; [|discriminate]. clear E.
  assert (N : nth_error (sgors s) i <> None) by (rewrite G; discriminate). apply nth_error_Some in N. clear G.
  unfold acts. do 5 (destruct i as [|i]; [cbn; tauto|]). lia.
Qed.
Lemma acts_closes s s' c : conns s = 1%nat -> sact_step s (Closes c) = Some s' -> In (Closes c) acts.
Proof. intros C E. cbn [sact_step] in E. rewrite C in E. destruct c as [|[|c]]; [discriminate|left; reflexivity|discriminate]. Qed.

Lemma states_fair s : In s states -> fair s = true /\ forall a s', sact_step s a = Some s' -> In s' states.
Proof.
  intros I. pose proof states_sound as H. unfold sound in H. apply andb_prop in H as [_ H]. rewrite forallb_forall in H. specialize (H s I). apply andb_prop in H as [F N]. split; [exact F|].
  intros a s' E. rewrite forallb_forall in N. apply mem_in, N. unfold nexts. apply in_flat_map. exists a. rewrite E. split; [|left; reflexivity].
  destruct (fair_small s F) as [L C]. clear F N I. destruct a as [i|c]; cbn [sact_step] in E; [exact (acts_go s s' i L E)|exact (acts_closes s s' c C E)].
Qed.
Lemma states_run sched : forall s, In s states -> In (srun s sched) states.
Proof.
  induction sched as [|a sched IH]; intros s I; [exact I|]. cbn [srun]. destruct (sact_step s a) as [s'|] eqn:E; apply IH; [|exact I].
  exact (proj2 (states_fair s I) a s' E).
Qed.
Lemma stuck_rest s : (length (sgors s) <= 5)%nat -> stuck s = true <-> at_rest s.
Proof.
  intros L. unfold stuck, at_rest. rewrite forallb_forall. split; intros H i.
  - destruct (Nat.lt_ge_cases i 5) as [Q|Q].
    + specialize (H i). destruct (sstep s i); [|reflexivity]. enough (false = true) by discriminate. apply H. do 5 (destruct i as [|i]; [cbn; tauto|]). lia.
    + unfold sstep. destruct (crashed s); [reflexivity|]. assert (nth_error (sgors s) i = None) as -> by (apply nth_error_None; lia). reflexivity.
  - rewrite H. reflexivity.
Qed.
Lemma has_in n l : has n l = true <-> In n l.
Proof.
  unfold has. rewrite existsb_exists. split; [intros (x & I & E); apply Nat.eqb_eq in E; subst; exact I|]. intros I. exists n. split; [exact I|apply Nat.eqb_refl].
Qed.

Lemma publisher_leaves sched : let s := srun (sconnected []) sched in
  crashed s = false /\ (terminations s <= 2)%nat /\
  (~ In 1%nat (gone s) -> connected s = true /\ terminations s = 0%nat /\ closed s = []) /\
  (In 1%nat (gone s) -> at_rest s -> down s /\ In 1%nat (closed s) /\ (1 <= terminations s)%nat) /\
  (In 1%nat (gone s) -> exists more, at_rest (srun s more)).
Proof.
  cbn zeta. assert (I : In (srun (sconnected []) sched) states).
  { apply states_run. apply mem_in. pose proof states_sound as H. unfold sound in H. apply andb_prop in H as [H _]. exact H. }
  generalize dependent (srun (sconnected []) sched). intros s I. pose proof (proj1 (states_fair s I)) as F. unfold fair in F. repeat (apply andb_prop in F as [F ?]).
  apply Nat.leb_le in H2, H3. split; [destruct (crashed s); [discriminate|reflexivity]|]. split; [exact H3|]. split; [|split].
  - intros G. assert (has 1 (gone s) = false) as E by (destruct (has 1 (gone s)) eqn:E; [apply has_in in E; contradiction|reflexivity]). rewrite E in H.
    apply andb_prop in H as [H C]. apply andb_prop in H as [A B]. split; [exact A|]. split; [apply Nat.eqb_eq, B|]. destruct (closed s); [reflexivity|discriminate].
  - intros G R. apply has_in in G. rewrite G in H. apply (stuck_rest s H2) in R. rewrite R in H. apply andb_prop in H as [H C]. apply andb_prop in H as [A B]. apply andb_prop in A as [_ A].
    apply Nat.leb_le in C. apply has_in in B. split; [|split; assumption]. unfold is_down in A. apply andb_prop in A as [A A3]. apply andb_prop in A as [A1 A2]. unfold down. clear - A1 A2 A3.
    destruct (connected s), (disconnecting s); try discriminate. auto.
  - intros G. apply has_in in G. rewrite G in H. destruct (stuck s) eqn:R; [exists []; apply (stuck_rest s H2), R|]. exists (plan 60 s).
    pose proof (states_run (plan 60 s) s I) as I'. apply states_fair in I' as [F' _]. apply stuck_rest; [exact (proj1 (fair_small _ F'))|exact H].
Qed.
