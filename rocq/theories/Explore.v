(** Finite transition systems: the kernel computes the reachable states and checks that
    they are closed under steps; what holds of all of them holds after every schedule. *)
From stdpp Require Import pmap.
From Coq Require Import Lia.
From Verif Require Import Base Sched.

Section Explore.
Context {st act ev gh : Type}.
Context (st_dec : forall a b : st, {a = b} + {a <> b}) (gh_dec : forall a b : gh, {a = b} + {a <> b}) (key : st -> positive).
Context (step : st -> act -> option (st * option ev)) (acts : st -> list act).
(** The ghost: what is remembered of the events *)
Context (count : gh -> ev -> gh).

Notation node := (st * gh)%type.
Definition counted (g : gh) (o : option ev) : gh := match o with Some e => count g e | None => g end.
Definition node_dec (a b : node) : {a = b} + {a <> b}.
Proof. destruct a as [s x], b as [t y]. destruct (st_dec s t) as [->|N]; [|right; congruence]. destruct (gh_dec x y) as [->|N]; [left; reflexivity|right; congruence]. Defined.
Notation table := (Pmap (list node)).
Definition bucket (m : table) (s : node) : list node := match m !! key (fst s) with Some l => l | None => [] end.
Definition mem (s : node) (m : table) : bool := existsb (fun t => if node_dec s t then true else false) (bucket m s).
Definition add (s : node) (m : table) : table := <[ key (fst s) := s :: bucket m s ]> m.
Definition index (l : list node) : table := foldr add ∅ l.
Lemma mem_index s l : mem s (index l) = true -> In s l.
Proof.
  assert (G : forall t k, (exists b, index l !! k = Some b /\ In t b) -> In t l).
  { induction l as [|x l IH]; intros t k (b & B & I); cbn [index foldr] in B.
    - rewrite lookup_empty in B. discriminate.
    - change (foldr add ∅ l) with (index l) in B. unfold add in B. destruct (decide (key (fst x) = k)) as [E|E].
      + rewrite E, lookup_insert in B. injection B as <-. destruct I as [->|I]; [left; reflexivity|right].
        unfold bucket in I. destruct (index l !! key (fst x)) as [b'|] eqn:Q; [|destruct I]. apply (IH t (key (fst x))). eauto.
      + rewrite lookup_insert_ne in B by exact E. right. apply (IH t k). eauto. }
  intros H. unfold mem in H. apply existsb_exists in H as (t & I & E). destruct (node_dec s t) as [->|]; [|discriminate].
  unfold bucket in I. destruct (index l !! key (fst t)) as [b|] eqn:Q; [|destruct I]. apply (G t (key (fst t))). eauto.
Qed.

Definition nexts (ok : st -> act -> bool) (x : node) : list (node * option ev) :=
  flat_map (fun a => if ok (fst x) a then match step (fst x) a with Some (s', o) => [((s', counted (snd x) o), o)] | None => [] end else []) (acts (fst x)).
Fixpoint add_new (l : list (node * option ev)) (m : table) (all front : list node) : table * list node * list node :=
  match l with
  | [] => (m, all, front)
  | (x, _) :: l => if mem x m then add_new l m all front else add_new l (add x m) (x :: all) (x :: front)
  end.
Fixpoint explore (ok : st -> act -> bool) (n : nat) (m : table) (all front : list node) : list node :=
  match n, front with
  | S n, s :: r => let '(m, all, front) := add_new (nexts ok s) m all r in explore ok n m all front
  | _, _ => all
  end.
Definition explored (ok : st -> act -> bool) (bound : Z) (x : node) : list node := explore ok (Z.to_nat bound) (index [x]) [x] [x].

(** Closed under the actions that [ok] allows, which have only events of [evs], and [good] *)
Definition sound (ok : st -> act -> bool) (evs : ev -> bool) (good : node -> bool) (x : node) (l : list node) : bool :=
  let m := index l in
  mem x m && forallb (fun x => good x && forallb (fun y => mem (fst y) m && match snd y with Some e => evs e | None => true end) (nexts ok x)) l.
Lemma sound_good ok evs good x l : sound ok evs good x l = true -> In x l /\ forall y, In y l -> good y = true.
Proof.
  intros H. unfold sound in H. apply andb_prop in H as (H1 & H2). split; [apply mem_index, H1|]. intros y I.
  rewrite forallb_forall in H2. specialize (H2 y I). apply andb_prop in H2 as (H2 & _). exact H2.
Qed.
Definition ghost (g : gh) (new : list ev) : gh := fold_right (fun e g => count g e) g new.
Lemma sound_run ok evs good x l : (forall s a, step s a <> None -> In a (acts s)) -> sound ok evs good x l = true ->
  forall sched s g log, In (s, g) l -> always step ok s sched ->
  exists t new, run step s log sched = (t, new ++ log) /\ In (t, ghost g new) l /\ forall e, In e new -> evs e = true.
Proof.
  intros All S. unfold sound in S. apply andb_prop in S as (_ & S). rewrite forallb_forall in S.
  induction sched as [|a sched IH]; intros s g log I A; cbn [run]; [exists s, []; repeat split; [exact I|intros e []]|]. cbn [always] in A.
  destruct (step s a) as [[s' o]|] eqn:E; [|apply IH; assumption]. destruct A as (A1 & A2).
  specialize (S (s, g) I) as N. apply andb_prop in N as (_ & N). rewrite forallb_forall in N.
  assert (Q : In ((s', counted g o), o) (nexts ok (s, g))).
  { unfold nexts. apply in_flat_map. exists a. split; [apply All; cbn [fst]; congruence|]. cbn [fst snd]. rewrite A1, E. left. reflexivity. }
  specialize (N _ Q). apply andb_prop in N as (N1 & N2). cbn [fst snd] in N1, N2. apply mem_index in N1.
  destruct (IH s' (counted g o) (logged o log) N1 A2) as (t & new & R & J & F).
  destruct o as [e|]; cbn [logged counted] in R, J |- *; [|exists t, new; auto].
  exists t, (new ++ [e]). rewrite <- app_assoc. cbn [app]. split; [exact R|]. split; [unfold ghost; rewrite fold_right_app; exact J|].
  intros y X. apply in_app_or in X as [X|[<-|[]]]; [apply F, X|exact N2].
Qed.
Lemma run_state s sched : forall log log', fst (run step s log sched) = fst (run step s log' sched).
Proof. revert s. induction sched as [|a r IH]; intros s log log'; cbn [run]; [reflexivity|]. destruct (step s a) as [[s' o]|]; apply IH. Qed.

(** Concrete schedules *)
Fixpoint alwaysb (ok : st -> act -> bool) (s : st) (sched : list act) : bool :=
  match sched with
  | [] => true
  | a :: r => match step s a with Some (s', _) => ok s a && alwaysb ok s' r | None => alwaysb ok s r end
  end.
Lemma alwaysb_ok ok sched : forall s, alwaysb ok s sched = true -> always step ok s sched.
Proof.
  induction sched as [|a r IH]; intros s H; cbn [alwaysb always] in *; [exact I|]. destruct (step s a) as [[s' o]|]; [|apply IH, H].
  apply andb_prop in H as (H1 & H2). split; [exact H1|apply IH, H2].
Qed.
Definition stays (s : st) (a : act) : bool :=
  match step s a with Some (s', None) => if st_dec s s' then true else false | Some (_, Some _) => false | None => true end.
Lemma stays_run s a log : stays s a = true -> forall r, run step s log (a :: r) = run step s log r.
Proof.
  unfold stays. intros H r. cbn [run]. destruct (step s a) as [[s' [e|]]|]; [discriminate H| |reflexivity].
  destruct (st_dec s s') as [<-|]; [reflexivity|discriminate H].
Qed.
Lemma frozen_run ok s log : (forall s a, step s a <> None -> In a (acts s)) -> forallb (fun a => negb (ok a) || stays s a) (acts s) = true ->
  forall more, Forall (fun a => ok a = true) more -> run step s log more = (s, log).
Proof.
  intros All F. rewrite forallb_forall in F. induction more as [|a r IH]; intros N; [reflexivity|]. apply Forall_cons_iff in N as (N1 & N2).
  rewrite stays_run; [apply IH, N2|]. destruct (step s a) as [x|] eqn:E.
  - specialize (F a (All s a ltac:(congruence))). rewrite N1 in F. exact F.
  - unfold stays. rewrite E. reflexivity.
Qed.
End Explore.
