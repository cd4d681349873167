(** The states that can be reached, enumerated by the kernel and shown to be closed
    under steps. *)
From stdpp Require Import pmap gmap.
From Coq Require Import Arith ZArith Lia.
From Verif Require Import Base ReconnectModel ReconnectSpec.
#[local] Open Scope nat_scope.

Definition st_eq_dec (a b : st) : {a = b} + {a <> b}.
Proof. repeat decide equality. Defined.

(** A number for each state, to find it again quickly; different states may share it. *)
Definition tcode (t : tref) : N := match t with Ended => 0 | Slot i => N.of_nat (S i) end.
Definition ccode (p : cpc) : N := match p with CSet => 0 | CStop => 1 | CJoin => 2 | CWait t => 3 + tcode t end.
Definition dcode (p : dpc) : N := match p with DTest => 0 | DSet => 1 | DUnSet => 2 | DStart => 3 | DCancel p => 4 + ccode p end.
Definition gcode (g : gor) : N :=
  match g with
  | Free => 0 | User UIdle => 1 | User (UDisc p) => 2 + dcode p
  | Reader RdNew => 20 | Reader RdLoop => 21 | Reader (RdRead Cur) => 22 | Reader (RdRead Old) => 23 | Reader (RdRead Down) => 24
  | Reader RdErr => 25 | Reader RdTry => 26 | Reader RdStart => 27 | Reader RdLock => 28 | Reader RdSpawn => 29 | Reader RdEnd => 30
  | Term TmNew => 31 | Term (TmDisc p) => 32 + dcode p | Term TmUnlock => 50 | Term TmUnSet => 51
  | Disc a p => (if a then 100 else 150) +
      match p with
      | XNew => 0 | XCancel p => 1 + ccode p | XTerm => 11 | XTermWait => 12 | XLock => 13 | XClose => 14 | XTest => 15 | XJoin => 16 | XWait _ => 17
      | XNil => 18 | XNotify => 19 | XDone => 20 | XSync => 21 | XCalled => 22 | XAgain => 23 | XAgainWait _ => 24 | XStart => 25 | XReturn => 26
      | XRelease => 27 | XEnd => 28
      end
  | Recon p => 200 +
      match p with
      | RcNew => 0 | RcReset => 1 | RcTimer => 2 | RcSleep => 3 | RcStuck => 4 | RcTest => 5 | RcAssign => 6 | RcAssigning => 7 | RcUnCancel => 8
      | RcConnect => 9 | RcJoin => 10 | RcWait _ => 11 | RcLock => 12 | RcDial => 13 | RcUp => 14 | RcSet => 41 | RcStart => 42 | RcNotify => 15 | RcRetry => 16 | RcRetrySleep => 17
      | RcRetryTest => 18 | RcCallback => 19 | RcDisc p => 20 + dcode p | RcEnd => 40
      end
  end%N.
Definition key (s : st) : positive :=
  let b (x : bool) (n : N) := (if x then N.succ_double n else N.double n) in
  N.succ_pos (b (connected s) (b (disconnecting s) (b (disconnected s) (b (cancel s) (b (trunning s) (b (theld s)
    (fold_left (fun n g => n * 256 + gcode g)%N (gors s) 1%N))))))).

(** A state with the number of established less the number of terminated callbacks *)
Definition node : Type := (st * Z)%type.
Definition node_eq_dec (a b : node) : {a = b} + {a <> b}.
Proof. destruct a as [s x], b as [t y]. destruct (st_eq_dec s t) as [->|N]; [|right; congruence]. destruct (Z.eq_dec x y) as [->|N]; [left; reflexivity|right; congruence]. Defined.
Notation table := (Pmap (list node)).
Definition bucket (m : table) (s : node) : list node := match m !! key (fst s) with Some l => l | None => [] end.
Definition mem (s : node) (m : table) : bool := existsb (fun t => if node_eq_dec s t then true else false) (bucket m s).
Definition add (s : node) (m : table) : table := <[ key (fst s) := s :: bucket m s ]> m.
Definition index (l : list node) : table := foldr add ∅ l.
Lemma mem_index s l : mem s (index l) = true -> In s l.
Proof.
  assert (G : forall t k, (exists b, index l !! k = Some b /\ In t b) -> In t l).
  { induction l as [|x l IH]; intros t k (b & B & I); cbn [index foldr] in B.
    - rewrite lookup_empty in B. discriminate.
    - change (foldr add ∅ l) with (index l) in B. unfold add in B. destruct (decide (key (fst x) = k)) as [E|E].
      + rewrite E, lookup_insert in B. injection B as <-. destruct I as [->|I]; [left; reflexivity|right].
        unfold bucket in I. destruct (index l !! key (fst x)) as [b'|] eqn:Q; [|destruct I]. apply (IH t (key (fst x))). eauto.
      + rewrite lookup_insert_ne in B by exact E. right. apply (IH t k). eauto. }
  intros H. unfold mem in H. apply existsb_exists in H as (t & I & E). destruct (node_eq_dec s t) as [->|]; [|discriminate].
  unfold bucket in I. destruct (index l !! key (fst t)) as [b|] eqn:Q; [|destruct I]. apply (G t (key (fst t))). eauto.
Qed.

(** ** Exploration *)
Definition gain (o : option ev) : Z := match o with Some EEstablished => 1 | Some ETerminated => -1 | _ => 0 end.
Definition acts (s : st) : list act := Closes :: ClosesOld :: flat_map (fun i => [Go i; Refused i; Calls i]) (seq 0 (length (gors s))).
Definition nexts (ok : st -> act -> bool) (x : node) : list (node * option ev) :=
  flat_map (fun a => if ok (fst x) a then match act_step (fst x) a with Some (s', o) => [((s', (snd x + gain o)%Z), o)] | None => [] end else []) (acts (fst x)).
Fixpoint add_new (l : list (node * option ev)) (m : table) (all front : list node) : table * list node * list node :=
  match l with
  | [] => (m, all, front)
  | (x, _) :: l => if mem x m then add_new l m all front else add_new l (add x m) (x :: all) (x :: front)
  end.
Fixpoint explore (ok : st -> act -> bool) (n : nat) (m : table) (all front : list node) : list node :=
  match n, front with
  | S n, s :: r => let '(m, all, front) := add_new (nexts ok s) m all r in explore ok n m all front
  | _, _ => all
  end.
Definition explored (ok : st -> act -> bool) (s : st) : list node := let x := (s, 1%Z) in explore ok (Z.to_nat 10000) (index [x]) [x] [x].

(** Closed under the steps that [ok] allows, which have only events of [evs], and [good] *)
Definition sound (ok : st -> act -> bool) (evs : ev -> bool) (good : node -> bool) (s : st) (l : list node) : bool :=
  let m := index l in
  mem (s, 1%Z) m && forallb (fun x => good x && forallb (fun y => mem (fst y) m && match snd y with Some e => evs e | None => true end) (nexts ok x)) l.

Lemma step_slot s i b : step s i b <> None -> (i < length (gors s))%nat.
Proof.
  intros H. apply nth_error_Some. intros E. apply H. unfold step. destruct (crashed s); [reflexivity|]. rewrite E. reflexivity.
Qed.
Lemma acts_all s a : act_step s a <> None -> In a (acts s).
Proof.
  intros H. unfold acts. destruct a as [i|i| | |i]; cbn [act_step] in H; [| |left; reflexivity|right; left; reflexivity|]; right; right; apply in_flat_map; exists i.
  - apply step_slot in H. split; [apply in_seq; lia|left; reflexivity].
  - unfold dials in H. destruct (nth_error (gors s) i) eqn:E; [|congruence].
    split; [apply in_seq; enough (i < length (gors s))%nat by lia; apply nth_error_Some; congruence|right; left; reflexivity].
  - destruct (nth_error (gors s) i) eqn:E; [|congruence].
    split; [apply in_seq; enough (i < length (gors s))%nat by lia; apply nth_error_Some; congruence|right; right; left; reflexivity].
Qed.
Definition balance (log : list ev) : Z := (Z.of_nat (established log) - Z.of_nat (terminated log))%Z.
Lemma balance_logged o log : balance (logged o log) = (balance log + gain o)%Z.
Proof. destruct o as [[]|]; unfold balance, established, terminated; cbn [logged filter length gain]; lia. Qed.
Lemma sound_run ok evs good s0 l : sound ok evs good s0 l = true -> forall sched s log, In (s, balance log) l -> always ok s sched ->
  exists t new, run s log sched = (t, new ++ log) /\ In (t, balance (new ++ log)) l /\ forall e, In e new -> evs e = true.
Proof.
  intros S. unfold sound in S. apply andb_prop in S as (_ & S). rewrite forallb_forall in S.
  induction sched as [|a sched IH]; intros s log I A; cbn [run]; [exists s, []; repeat split; [exact I|intros e []]|]. cbn [always] in A.
  destruct (act_step s a) as [[s' o]|] eqn:E; [|apply IH; assumption]. destruct A as (A1 & A2).
  specialize (S (s, balance log) I) as N. apply andb_prop in N as (_ & N). rewrite forallb_forall in N.
  assert (Q : In ((s', (balance log + gain o)%Z), o) (nexts ok (s, balance log))).
  { unfold nexts. apply in_flat_map. exists a. split; [apply acts_all; cbn [fst]; congruence|]. cbn [fst snd]. rewrite A1, E. left. reflexivity. }
  specialize (N _ Q). apply andb_prop in N as (N1 & N2). cbn [fst snd] in N1, N2. apply mem_index in N1.
  destruct (IH s' (logged o log)) as (t & new & R & J & F); [rewrite balance_logged; exact N1|exact A2|].
  destruct o as [e|]; cbn [logged] in R, J |- *; [|exists t, new; auto].
  exists t, (new ++ [e]). rewrite <- app_assoc. cbn [app]. split; [exact R|]. split; [exact J|].
  intros x X. apply in_app_or in X as [X|[<-|[]]]; [apply F, X|exact N2].
Qed.

(** ** At rest *)
Definition stuck (s : st) : bool := forallb (fun i => match step s i true with None => true | _ => false end) (seq 0 (length (gors s))).
Lemma stuck_rest s : stuck s = true <-> at_rest s.
Proof.
  unfold stuck, at_rest. rewrite forallb_forall. split; intros H i.
  - destruct (step s i true) as [x|] eqn:E; [|reflexivity]. specialize (H i). rewrite E in H. enough (false = true) by discriminate. apply H, in_seq.
    enough (i < length (gors s))%nat by lia. apply (step_slot s i true). congruence.
  - rewrite H. reflexivity.
Qed.
Definition idle (g : gor) : bool := match g with Free | User UIdle => true | _ => false end.
Fixpoint one_reader (l : list gor) : bool :=
  match l with [] => false | Reader (RdRead Cur) :: r => forallb idle r | g :: r => idle g && one_reader r end.
Definition is_up (s : st) : bool :=
  connected s && negb (disconnecting s) && negb (disconnected s) && (match socket s with Open => true | _ => false end) && negb (action s) && one_reader (gors s).
Lemma idle_or g : idle g = true -> g = Free \/ g = User UIdle.
Proof. destruct g as [|[]| | | |]; cbn; try discriminate; auto. Qed.
Lemma one_reader_split l : one_reader l = true -> exists l1 l2, l = l1 ++ Reader (RdRead Cur) :: l2 /\ forall g, In g (l1 ++ l2) -> g = Free \/ g = User UIdle.
Proof.
  assert (A : forall r, forallb idle r = true -> forall g, In g r -> g = Free \/ g = User UIdle) by (intros r F g I; rewrite forallb_forall in F; apply idle_or, F, I).
  assert (B : forall g r, idle g && one_reader r = true -> (one_reader r = true -> exists l1 l2, r = l1 ++ Reader (RdRead Cur) :: l2 /\ forall g, In g (l1 ++ l2) -> g = Free \/ g = User UIdle) ->
    exists l1 l2, g :: r = l1 ++ Reader (RdRead Cur) :: l2 /\ forall g, In g (l1 ++ l2) -> g = Free \/ g = User UIdle).
  { intros g r H IH. apply andb_prop in H as (H1 & H2). destruct (IH H2) as (l1 & l2 & -> & F). exists (g :: l1), l2. split; [reflexivity|].
    intros x [<-|I]; [apply idle_or, H1|apply F, I]. }
  induction l as [|g r IH]; cbn [one_reader]; [discriminate|].
  destruct g as [|p|[| |[]| | | | | |]| | |]; intros H; try (apply B; [exact H|exact IH]).
  exists [], r. split; [reflexivity|]. apply A, H.
Qed.
Lemma is_up_up s : is_up s = true -> up s.
Proof.
  unfold is_up. intros H. repeat (apply andb_prop in H as (H & ?)). unfold up.
  destruct (connected s), (disconnecting s), (disconnected s), (socket s), (action s); try discriminate.
  repeat split. apply one_reader_split. assumption.
Qed.

(** ** A way to rest: the goroutines take turns. *)
Definition can_go (ok : st -> act -> bool) (s : st) (i : nat) : bool := ok s (Go i) && match step s i true with Some _ => true | None => false end.
Definition turns (c len : nat) : list nat := map (fun k => Nat.modulo (c + k) len) (seq 1 len).
Fixpoint plan (ok : st -> act -> bool) (n c : nat) (s : st) : list act :=
  match n with
  | O => []
  | S n => match find (can_go ok s) (turns c (length (gors s))) with
           | Some i => match step s i true with Some (s', _) => Go i :: plan ok n i s' | None => [] end
           | None => []
           end
  end.
Lemma plan_ok ok n : forall c s, own_steps (plan ok n c s) /\ always ok s (plan ok n c s).
Proof.
  unfold own_steps. induction n as [|n IH]; intros c s; cbn [plan]; [split; [constructor|exact I]|].
  destruct (find (can_go ok s) (turns c (length (gors s)))) as [i|] eqn:F; [|split; [constructor|exact I]].
  destruct (step s i true) as [[s' o]|] eqn:E; [|split; [constructor|exact I]]. destruct (IH i s') as (P & Q).
  split; [constructor; [eauto|exact P]|]. cbn [always act_step]. rewrite E. split; [|exact Q].
  apply find_some in F as (_ & F). unfold can_go in F. apply andb_prop in F as (F & _). exact F.
Qed.
Lemma run_state s sched : forall log log', fst (run s log sched) = fst (run s log' sched).
Proof. revert s. induction sched as [|a r IH]; intros s log log'; cbn [run]; [reflexivity|]. destruct (act_step s a) as [[s' o]|]; apply IH. Qed.

(** ** Reconnecting *)
Definition uncalled (ok : st -> act -> bool) (s : st) (a : act) : bool := ok s a && match a with Calls _ => false | _ => true end.
Lemma uncalled_always ok sched : forall s, no_calls sched -> always ok s sched -> always (uncalled ok) s sched.
Proof.
  unfold no_calls. induction sched as [|a r IH]; intros s N A; cbn [always] in *; [exact I|].
  apply Forall_cons_iff in N as (N1 & N2). destruct (act_step s a) as [[s' o]|]; [|apply IH; assumption].
  destruct A as (A1 & A2). split; [|apply IH; assumption]. unfold uncalled. rewrite A1. destruct a as [| | | |i]; try reflexivity. destruct (N1 i). reflexivity.
Qed.
Definition settles (ok : st -> act -> bool) (s : st) : bool := stuck (fst (run s [] (plan ok 200 0 s))).
Lemma settles_rest ok s log : settles ok s = true -> exists more, own_steps more /\ always ok s more /\ at_rest (fst (run s log more)).
Proof.
  intros H. exists (plan ok 200 0 s). destruct (plan_ok ok 200 0 s) as (P & Q). split; [exact P|]. split; [exact Q|].
  apply stuck_rest. rewrite (run_state s _ log []). exact H.
Qed.
Definition sane (x : node) : bool := negb (crashed (fst x)) && (-1 <=? snd x)%Z && (snd x <=? 1)%Z.
Definition recovers (x : node) : bool :=
  sane x && (if stuck (fst x) then is_up (fst x) && (snd x =? 1)%Z else true) && settles orderly (fst x).
Definition lost (b : bool) : list node := explored (uncalled orderly) (start b 1).
Definition undropped (e : ev) : bool := match e with EDropped => false | _ => true end.
Lemma recovery_sound b : sound (uncalled orderly) undropped recovers (start b 1) (lost b) = true.
Proof. destruct b; vm_compute; reflexivity. Qed.
Lemma sound_good ok evs good s0 l : sound ok evs good s0 l = true -> In (s0, 1%Z) l /\ forall x, In x l -> good x = true.
Proof.
  intros H. unfold sound in H. apply andb_prop in H as (H1 & H2). split; [apply mem_index, H1|]. intros x I.
  rewrite forallb_forall in H2. specialize (H2 x I). apply andb_prop in H2 as (H2 & _). exact H2.
Qed.
Lemma lost_run b sched s log : no_calls sched -> always orderly (start b 1) sched -> run (start b 1) [EEstablished] sched = (s, log) ->
  In (s, balance log) (lost b) /\ ~ In EDropped log.
Proof.
  intros N A R. pose proof (recovery_sound b) as S. destruct (sound_good _ _ _ _ _ S) as (I & _).
  destruct (sound_run _ _ _ _ _ S sched (start b 1) [EEstablished] I (uncalled_always _ _ _ N A)) as (t & new & R' & J & F).
  rewrite R in R'. injection R' as -> ->. split; [exact J|]. intros D. apply in_app_or in D as [D|[D|[]]]; [|discriminate D].
  specialize (F _ D). discriminate F.
Qed.
Lemma recovery b sched s log : no_calls sched -> always orderly (start b 1) sched -> run (start b 1) [EEstablished] sched = (s, log) ->
  crashed s = false /\ ~ In EDropped log /\ terminated log <= S (established log) /\ established log <= S (terminated log) /\
  (at_rest s -> up s /\ established log = S (terminated log)) /\
  exists more, own_steps more /\ always orderly s more /\ at_rest (fst (run s log more)).
Proof.
  intros N A R. destruct (lost_run b sched s log N A R) as (I & D). destruct (sound_good _ _ _ _ _ (recovery_sound b)) as (_ & G).
  specialize (G _ I). unfold recovers, sane in G. cbn [fst snd] in G. apply andb_prop in G as (G & G5). apply andb_prop in G as (G & G4).
  apply andb_prop in G as (G & G3). apply andb_prop in G as (G1 & G2). unfold balance in G2, G3, G4. apply Z.leb_le in G2, G3.
  split; [destruct (crashed s); [discriminate|reflexivity]|]. split; [exact D|]. split; [lia|]. split; [lia|]. split; [|apply settles_rest, G5].
  intros Q. apply stuck_rest in Q. rewrite Q in G4. apply andb_prop in G4 as (G4 & G6). apply Z.eqb_eq in G6. split; [apply is_up_up, G4|lia].
Qed.

(** ** Disconnecting *)
Definition is_down (s : st) : bool :=
  negb (connected s) && negb (disconnecting s) && disconnected s && (match socket s with Closed => true | _ => false end) && negb (action s) && forallb idle (gors s).
Lemma is_down_down s : is_down s = true -> down s.
Proof.
  unfold is_down. intros H. repeat (apply andb_prop in H as (H & ?)). unfold down.
  destruct (connected s), (disconnecting s), (disconnected s), (socket s), (action s); try discriminate.
  repeat split. rewrite forallb_forall in *. intros g I. apply idle_or. auto.
Qed.
Definition finishes (x : node) : bool :=
  sane x && (0 <=? snd x)%Z && (if stuck (fst x) then is_down (fst x) && (snd x =? 0)%Z else true) && settles late_close (fst x).
Definition called (s : st) : st := goes s 1 (User (UDisc DTest)).
Definition ends_only (e : ev) : bool := match e with ETerminated => true | _ => false end.
Definition finishing (s : st) : list node := explored (uncalled late_close) (called s).
Lemma finishing_sound b :
  forallb (fun x => if stuck (fst x) then match nth_error (gors (fst x)) 1 with Some (User UIdle) => sound (uncalled late_close) ends_only finishes (called (fst x)) (finishing (fst x)) | _ => false end else true) (lost b) = true.
Proof. destruct b; vm_compute; reflexivity. Qed.
Lemma only_terminated new : (forall e, In e new -> ends_only e = true) -> new = repeat ETerminated (length new).
Proof.
  induction new as [|e new IH]; intros F; [reflexivity|]. cbn [length repeat]. rewrite <- IH by (intros x X; apply F; right; exact X).
  specialize (F e (or_introl eq_refl)). destruct e; try discriminate F. reflexivity.
Qed.
Lemma balance_terminated n log : balance (repeat ETerminated n ++ log) = (balance log - Z.of_nat n)%Z.
Proof.
  induction n as [|n IH]; cbn [repeat app]; [lia|]. change (ETerminated :: repeat ETerminated n ++ log) with (logged (Some ETerminated) (repeat ETerminated n ++ log)).
  rewrite balance_logged, IH. cbn [gain]. lia.
Qed.
Lemma lost_user b x : In x (lost b) -> stuck (fst x) = true -> nth_error (gors (fst x)) 1 = Some (User UIdle).
Proof.
  intros I Q. pose proof (finishing_sound b) as F. rewrite forallb_forall in F. specialize (F _ I). cbn beta in F. rewrite Q in F.
  destruct (nth_error (gors (fst x)) 1) as [[|[]| | | |]|]; try discriminate F. reflexivity.
Qed.
Lemma finishing_run b before s log after t log' :
  no_calls before -> always orderly (start b 1) before -> run (start b 1) [EEstablished] before = (s, log) -> at_rest s ->
  no_calls after -> always late_close (called s) after -> run s log (Calls 1 :: after) = (t, log') ->
  crashed t = false /\ (log' = log \/ log' = ETerminated :: log) /\
  (at_rest t -> down t /\ log' = ETerminated :: log) /\
  exists more, own_steps more /\ at_rest (fst (run t log' more)).
Proof.
  intros N A R Q N' A' R'. destruct (lost_run b before s log N A R) as (I & _).
  destruct (recovery b before s log N A R) as (_ & _ & _ & _ & U & _). destruct (U Q) as (U1 & U2).
  assert (BL : balance log = 1%Z) by (unfold balance; lia). apply stuck_rest in Q.
  pose proof (lost_user b _ I Q) as N1. cbn [fst] in N1. pose proof (finishing_sound b) as F. rewrite forallb_forall in F. specialize (F _ I). cbn beta in F. cbn [fst] in F. rewrite Q, N1 in F.
  assert (E : act_step s (Calls 1) = Some (called s, None)).
  { cbn [act_step]. rewrite N1. destruct U1 as (_ & -> & _). reflexivity. }
  cbn [run] in R'. rewrite E in R'. cbn [logged] in R'. destruct (sound_good _ _ _ _ _ F) as (J & G).
  rewrite <- BL in J. destruct (sound_run _ _ _ _ _ F after (called s) log J (uncalled_always _ _ _ N' A')) as (t' & new & R2 & K & V).
  rewrite R' in R2. injection R2 as <- ->. specialize (G _ K). pose proof (only_terminated _ V) as W.
  rewrite W, balance_terminated, BL in G. unfold finishes, sane in G. cbn [fst snd] in G. apply andb_prop in G as (G & G6). apply andb_prop in G as (G & G5). apply andb_prop in G as (G & G4).
  apply andb_prop in G as (G & _). apply andb_prop in G as (G1 & _). apply Z.leb_le in G4.
  split; [destruct (crashed t); [discriminate|reflexivity]|]. split; [|split].
  - destruct new as [|e [|e' new]]; cbn [length] in *; [left; reflexivity| |lia]. right. rewrite W. reflexivity.
  - intros Q'. apply stuck_rest in Q'. rewrite Q' in G5. apply andb_prop in G5 as (G5 & G7). apply Z.eqb_eq in G7. split; [apply is_down_down, G5|].
    rewrite W. replace (length new) with 1 by lia. reflexivity.
  - destruct (settles_rest _ _ (new ++ log) G6) as (more & M1 & _ & M3). exists more. split; assumption.
Qed.
(** ** Concrete schedules *)
Lemma finishing_ends b before s log after t log' :
  no_calls before -> always orderly (start b 1) before -> run (start b 1) [EEstablished] before = (s, log) -> at_rest s ->
  no_calls after -> always late_close s (Calls 1 :: after) -> run s log (Calls 1 :: after) = (t, log') ->
  crashed t = false /\ (log' = log \/ log' = ETerminated :: log) /\
  (at_rest t -> down t /\ log' = ETerminated :: log) /\
  exists more, own_steps more /\ at_rest (fst (run t log' more)).
Proof.
  intros N A R Q N' A' R'. apply (finishing_run b before s log after t log' N A R Q N'); [|exact R'].
  destruct (lost_run b before s log N A R) as (I & _). destruct (recovery b before s log N A R) as (_ & _ & _ & _ & U & _). destruct (U Q) as (U1 & _).
  apply stuck_rest in Q. pose proof (lost_user b _ I Q) as N1. cbn [fst] in N1.
  cbn [always act_step] in A'. rewrite N1 in A'. destruct U1 as (_ & D & _). rewrite D in A'. exact (proj2 A').
Qed.
Definition no_callsb (l : list act) : bool := forallb (fun a => match a with Calls _ => false | _ => true end) l.
Lemma no_callsb_ok l : no_callsb l = true -> no_calls l.
Proof. unfold no_callsb, no_calls. rewrite forallb_forall. intros H. apply List.Forall_forall. intros a I i E. subst a. specialize (H _ I). discriminate H. Qed.
Definition own_stepsb (l : list act) : bool := forallb (fun a => match a with Go _ => true | _ => false end) l.
Lemma own_stepsb_ok l : own_stepsb l = true -> own_steps l.
Proof. unfold own_stepsb, own_steps. rewrite forallb_forall. intros H. apply List.Forall_forall. intros a I. specialize (H _ I). destruct a; try discriminate H. eauto. Qed.
Fixpoint alwaysb (ok : st -> act -> bool) (s : st) (sched : list act) : bool :=
  match sched with
  | [] => true
  | a :: r => match act_step s a with Some (s', _) => ok s a && alwaysb ok s' r | None => alwaysb ok s r end
  end.
Lemma alwaysb_ok ok sched : forall s, alwaysb ok s sched = true -> always ok s sched.
Proof.
  induction sched as [|a r IH]; intros s H; cbn [alwaysb always] in *; [exact I|]. destruct (act_step s a) as [[s' o]|]; [|apply IH, H].
  apply andb_prop in H as (H1 & H2). split; [exact H1|apply IH, H2].
Qed.
Definition stays (s : st) (a : act) : bool :=
  match act_step s a with Some (s', None) => if st_eq_dec s s' then true else false | Some (_, Some _) => false | None => true end.
Definition frozen (callers : bool) (s : st) : bool := forallb (fun a => match a with Calls _ => negb callers || stays s a | _ => stays s a end) (acts s).
Lemma stays_run s a log : stays s a = true -> forall r, run s log (a :: r) = run s log r.
Proof.
  unfold stays. intros H r. cbn [run]. destruct (act_step s a) as [[s' [e|]]|]; [discriminate H| |reflexivity].
  destruct (st_eq_dec s s') as [<-|]; [reflexivity|discriminate H].
Qed.
Lemma stays_none s a : act_step s a = None -> stays s a = true.
Proof. unfold stays. intros ->. reflexivity. Qed.
Lemma frozen_run s log : frozen false s = true -> forall more, no_calls more -> run s log more = (s, log).
Proof.
  intros F. unfold frozen in F. rewrite forallb_forall in F. induction more as [|a r IH]; intros N; [reflexivity|]. unfold no_calls in N. apply Forall_cons_iff in N as (N1 & N2).
  rewrite stays_run; [apply IH, N2|]. destruct (act_step s a) as [x|] eqn:E; [|apply stays_none, E]. specialize (F a). destruct a; try (apply F, acts_all; congruence). destruct (N1 i). reflexivity.
Qed.
Lemma frozen_all s log : frozen true s = true -> forall more, run s log more = (s, log).
Proof.
  intros F. unfold frozen in F. rewrite forallb_forall in F. induction more as [|a r IH]; [reflexivity|].
  rewrite stays_run; [exact IH|]. destruct (act_step s a) as [x|] eqn:E; [|apply stays_none, E]. specialize (F a). destruct a; apply F, acts_all; congruence.
Qed.
Fixpoint split_call (l : list act) : list act * list act :=
  match l with [] => ([], []) | Calls _ :: r => ([], r) | a :: r => let '(x, y) := split_call r in (a :: x, y) end.
