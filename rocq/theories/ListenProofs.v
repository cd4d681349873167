(** The states that a listening subscriber can reach, enumerated by the kernel and shown
    to be closed under steps. *)
From stdpp Require Import pmap.
From Coq Require Import Arith ZArith Lia.
From Verif Require Import Base Sched Explore ListenModel ListenSpec.
#[local] Open Scope nat_scope.

Definition st_eq_dec (a b : st) : {a = b} + {a <> b}.
Proof. repeat decide equality. Defined.
Definition ev_eq_dec (a b : ev) : {a = b} + {a <> b}.
Proof. repeat decide equality. Defined.

(** A number for each state, to find it again quickly; different states may share it. *)
Definition dcode (p : dpc) : N := match p with DTest => 0 | DSet => 1 | DUnSet => 2 | DListen => 3 | DStart => 4 end.
Definition gcode (g : gor) : N :=
  match g with
  | Free => 0 | User UIdle => 1 | User (UDisc p) => 2 + dcode p
  | User (UListen p) => 7 + match p with LTest => 0 | LJoin => 1 | LWait _ => 2 | LOpen => 3 | LThread => 4 | LSet => 5 | LStart => 6 end
  | Reader p => 20 + match p with RdNew => 0 | RdLoop => 1 | RdRead Cur => 2 | RdRead Old => 3 | RdRead Down => 4 | RdErr => 5 | RdTry => 6 | RdStart => 7 | RdLock => 8 | RdSpawn => 9 | RdEnd => 10 end
  | Term TmNew => 31 | Term (TmDisc p) => 32 + dcode p | Term TmUnlock => 37 | Term TmUnSet => 38
  | Disc a p => (if a then 40 else 60) +
      match p with
      | XNew => 0 | XTerm => 1 | XTermWait => 2 | XLock => 3 | XListener => 4 | XClose => 5 | XATest => 6 | XAJoin => 7 | XAWait _ => 8 | XANil => 9
      | XTest => 10 | XJoin => 11 | XWait _ => 12 | XNil => 13 | XNotify => 14 | XDone => 15 | XRelease => 16 | XEnd => 17
      end
  | Accept p => 80 +
      match p with
      | ANew => 0 | ALoop => 1 | ASock => 2 | AAccept Cur => 3 | AAccept Old => 4 | AAccept Down => 5 | ATest => 6 | ALock => 7 | AUse => 8 | AUp => 9
      | ASet => 10 | AStart => 11 | ANotify => 12 | AEnd => 13
      end
  end%N.
Definition key (s : st) : positive :=
  let b (x : bool) (n : N) := (if x then N.succ_double n else N.double n) in
  N.succ_pos (b (connected s) (b (disconnecting s) (b (disconnected s) (b (waiting s) (b (trunning s) (b (theld s)
    (fold_left (fun n g => n * 128 + gcode g)%N (gors s) 1%N))))))).
Definition acts (s : st) : list act :=
  Dials :: Closes :: ClosesOld :: flat_map (fun i => [Go i; CallsListen i; CallsDisconnect i]) (seq 0 (length (gors s))).
Lemma step_slot s i : step s i <> None -> (i < length (gors s))%nat.
Proof. intros H. apply nth_error_Some. intros E. apply H. unfold step. destruct (crashed s); [reflexivity|]. rewrite E. reflexivity. Qed.
Lemma acts_all s a : act_step s a <> None -> In a (acts s).
Proof.
  intros H. unfold acts. destruct a as [i| | | |i|i]; cbn [act_step] in H; [|left; reflexivity|right; left; reflexivity|right; right; left; reflexivity| |];
    right; right; right; apply in_flat_map; exists i.
  - apply step_slot in H. split; [apply in_seq; lia|left; reflexivity].
  - destruct (nth_error (gors s) i) eqn:E; [|congruence].
    split; [apply in_seq; enough (i < length (gors s))%nat by lia; apply nth_error_Some; congruence|right; left; reflexivity].
  - destruct (nth_error (gors s) i) eqn:E; [|congruence].
    split; [apply in_seq; enough (i < length (gors s))%nat by lia; apply nth_error_Some; congruence|right; right; left; reflexivity].
Qed.

(** ** At rest *)
Lemma resting_rest s : resting s = true <-> at_rest s.
Proof.
  unfold resting, at_rest. rewrite forallb_forall. split; intros H i.
  - destruct (step s i) as [x|] eqn:E; [|reflexivity]. specialize (H i). rewrite E in H. enough (false = true) by discriminate. apply H, in_seq.
    enough (i < length (gors s))%nat by lia. apply (step_slot s i). congruence.
  - rewrite H. reflexivity.
Qed.
Definition idle (g : gor) : bool := match g with Free | User UIdle => true | _ => false end.
Lemma idle_or g : idle g = true -> g = Free \/ g = User UIdle.
Proof. destruct g as [|[]| | | |]; cbn; try discriminate; auto. Qed.
Lemma idles l : forallb idle l = true -> others_idle l.
Proof. intros F g I. rewrite forallb_forall in F. apply idle_or, F, I. Qed.
Definition gor_eq_dec (g h : gor) : {g = h} + {g <> h}.
Proof. repeat decide equality. Defined.
Definition gor_eqb (g h : gor) : bool := if gor_eq_dec g h then true else false.
Lemma gor_eqb_eq g h : gor_eqb g h = true -> g = h.
Proof. unfold gor_eqb. destruct (gor_eq_dec g h) as [E|E]; [auto|discriminate]. Qed.
(** One goroutine of [l] is [g], and what is left *)
Fixpoint take (g : gor) (l : list gor) : option (list gor * list gor) :=
  match l with
  | [] => None
  | h :: r => if gor_eqb g h then Some ([], r) else match take g r with Some (a, b) => Some (h :: a, b) | None => None end
  end.
Lemma take_split g l a b : take g l = Some (a, b) -> l = a ++ g :: b.
Proof.
  revert a b. induction l as [|h r IH]; intros a b H; cbn [take] in H; [discriminate|]. destruct (gor_eqb g h) eqn:E.
  - apply gor_eqb_eq in E as ->. injection H as <- <-. reflexivity.
  - destruct (take g r) as [[x y]|]; [|discriminate]. injection H as <- <-. rewrite (IH x y eq_refl). reflexivity.
Qed.
Definition acc : gor := Accept (AAccept Cur).
Definition rdr : gor := Reader (RdRead Cur).
Definition sock_open (s : st) : bool := match socket s with Open => true | _ => false end.
Definition is_vacant (s : st) : bool :=
  listening s && negb (connected s) && negb (disconnecting s) && (match listener s with LOn => true | _ => false end) && negb (orphan s) &&
  negb (waiting s) && negb (sock_open s) && negb (action s) && match take acc (gors s) with Some (a, b) => forallb idle (a ++ b) | None => false end.
Definition is_serving (s : st) : bool :=
  listening s && connected s && negb (disconnecting s) && negb (disconnected s) && (match listener s with LOn => true | _ => false end) && negb (orphan s) &&
  negb (waiting s) && sock_open s && negb (action s) &&
  match take acc (gors s) with
  | Some (a, b) => match take rdr a with
                   | Some (c, d) => forallb idle (c ++ d ++ b)
                   | None => match take rdr b with Some (c, d) => forallb idle (a ++ c ++ d) | None => false end
                   end
  | None => false
  end.
Definition is_silent (s : st) : bool :=
  negb (listening s) && negb (connected s) && negb (disconnecting s) && (match listener s with LOn => false | _ => true end) && negb (orphan s) &&
  negb (sock_open s) && negb (action s) && forallb idle (gors s).
Ltac parts H := repeat (apply andb_prop in H as (H & ?)).
Lemma vacant_ok s : is_vacant s = true -> vacant s.
Proof.
  unfold is_vacant, vacant, sock_open. intros H. parts H.
  destruct (listening s), (connected s), (disconnecting s), (listener s), (orphan s), (waiting s), (socket s), (action s); try discriminate;
    (repeat (split; [congruence|])); destruct (take acc (gors s)) as [[a b]|] eqn:T; try discriminate; apply take_split in T; exists a, b; (split; [exact T|apply idles; assumption]).
Qed.
Lemma serving_ok s : is_serving s = true -> serving s.
Proof.
  unfold is_serving, serving, sock_open. intros H. parts H.
  destruct (listening s), (connected s), (disconnecting s), (disconnected s), (listener s), (orphan s), (waiting s), (socket s), (action s); try discriminate.
  repeat (split; [congruence|]). destruct (take acc (gors s)) as [[a b]|] eqn:T; [|discriminate]. apply take_split in T. rewrite T.
  destruct (take rdr a) as [[c d]|] eqn:U.
  - apply take_split in U as ->. exists c, d, b, rdr, acc. split; [rewrite <- app_assoc; reflexivity|]. split; [apply idles; assumption|right; split; reflexivity].
  - destruct (take rdr b) as [[c d]|] eqn:V; [|discriminate]. apply take_split in V as ->. exists a, c, d, acc, rdr.
    split; [reflexivity|]. split; [apply idles; assumption|left; split; reflexivity].
Qed.
Lemma silent_ok s : is_silent s = true -> silent s.
Proof.
  unfold is_silent, silent, sock_open. intros H. parts H.
  destruct (listening s), (connected s), (disconnecting s), (listener s), (orphan s), (socket s), (action s); try discriminate;
    (repeat (split; [congruence|])); apply idles; assumption.
Qed.

(** ** A way to rest: the goroutines take turns. *)
Definition can_go (ok : st -> act -> bool) (s : st) (i : nat) : bool := ok s (Go i) && match step s i with Some _ => true | None => false end.
Definition turns (c len : nat) : list nat := map (fun k => Nat.modulo (c + k) len) (seq 1 len).
Fixpoint plan (ok : st -> act -> bool) (n c : nat) (s : st) : list act :=
  match n with
  | O => []
  | S n => match find (can_go ok s) (turns c (length (gors s))) with
           | Some i => match step s i with Some (s', _) => Go i :: plan ok n i s' | None => [] end
           | None => []
           end
  end.
Lemma plan_ok ok n : forall c s, own_steps (plan ok n c s) /\ always ok s (plan ok n c s).
Proof.
  unfold own_steps. induction n as [|n IH]; intros c s; cbn [plan]; [split; [constructor|exact I]|].
  destruct (find (can_go ok s) (turns c (length (gors s)))) as [i|] eqn:F; [|split; [constructor|exact I]].
  destruct (step s i) as [[s' o]|] eqn:E; [|split; [constructor|exact I]]. destruct (IH i s') as (P & Q).
  split; [constructor; [eauto|exact P]|]. cbn [Sched.always act_step]. rewrite E. split; [|exact Q].
  apply find_some in F as (_ & F). unfold can_go in F. apply andb_prop in F as (F & _). exact F.
Qed.
Definition settles (ok : st -> act -> bool) (s : st) : bool := resting (fst (run s [] (plan ok 200 0 s))).
Lemma settles_rest ok s log : settles ok s = true -> exists more, own_steps more /\ always ok s more /\ at_rest (fst (run s log more)).
Proof.
  intros H. exists (plan ok 200 0 s). destruct (plan_ok ok 200 0 s) as (P & Q). split; [exact P|]. split; [exact Q|].
  apply resting_rest. rewrite (run_state act_step s _ log []). exact H.
Qed.

(** ** The life of a subscriber *)
Definition calm (s : st) (a : act) : bool := unhurried s a && in_turn s a.
Definition ask (b : bool) (e : ev) : bool := match e with EListen => true | EDisconnect _ => false | _ => b end.
Lemma ghost_asked log : ghost ask false log = asked log.
Proof. induction log as [|[] log IH]; cbn [ghost fold_right ask asked] in *; try reflexivity; exact IH. Qed.
Definition undropped (e : ev) : bool := match e with EDropped => false | _ => true end.
Definition user_there (s : st) : bool := match nth_error (gors s) 0 with Some (User UIdle) => true | _ => false end.
Definition well (x : st * bool) : bool :=
  let '(s, b) := x in
  negb (crashed s) && (if resting s then (if b then is_vacant s || is_serving s else is_silent s) && user_there s else true) && settles calm s.
Definition life : list (st * bool) := explored st_eq_dec bool_dec key act_step acts ask calm 20000 (start 1, false).
Lemma life_sound : sound st_eq_dec bool_dec key act_step acts ask calm undropped well (start 1, false) life = true.
Proof. vm_compute. reflexivity. Qed.
Lemma life_run sched s log : always calm (start 1) sched -> run (start 1) [] sched = (s, log) -> In (s, asked log) life /\ ~ In EDropped log.
Proof.
  intros A R. pose proof life_sound as S. destruct (sound_good _ _ _ _ _ _ _ _ _ _ _ S) as (I & _).
  destruct (sound_run _ _ _ _ _ _ _ _ _ _ _ acts_all S sched (start 1) false [] I A) as (t & new & R' & J & F).
  rewrite app_nil_r in R'. rewrite R in R'. injection R' as <- <-. rewrite ghost_asked in J. split; [exact J|].
  intros D. specialize (F _ D). discriminate F.
Qed.
Lemma life_good sched s log : always calm (start 1) sched -> run (start 1) [] sched = (s, log) ->
  crashed s = false /\ ~ In EDropped log /\ (at_rest s -> if asked log then vacant s \/ serving s else silent s) /\
  exists more, own_steps more /\ always calm s more /\ at_rest (fst (run s log more)).
Proof.
  intros A R. destruct (life_run sched s log A R) as (I & D). destruct (sound_good _ _ _ _ _ _ _ _ _ _ _ life_sound) as (_ & G).
  specialize (G _ I). unfold well in G. apply andb_prop in G as (G & G3). apply andb_prop in G as (G1 & G2).
  split; [destruct (crashed s); [discriminate|reflexivity]|]. split; [exact D|]. split; [|apply settles_rest, G3].
  intros Q. apply resting_rest in Q. rewrite Q in G2. apply andb_prop in G2 as (G2 & _). destruct (asked log); [|apply silent_ok, G2].
  apply orb_prop in G2 as [G2|G2]; [left; apply vacant_ok, G2|right; apply serving_ok, G2].
Qed.

(** ** The callbacks *)
Definition gain (z : Z) (e : ev) : Z := match e with EEstablished | EDisconnect false => z + 1 | ETerminated => z - 1 | _ => z end%Z.
Definition balance (log : list ev) : Z := (Z.of_nat (established log) + Z.of_nat (idle_calls log) - Z.of_nat (terminated log))%Z.
Lemma ghost_balance log : ghost gain 0%Z log = balance log.
Proof.
  induction log as [|e log IH]; [reflexivity|]. cbn [ghost fold_right]. change (fold_right _ _ log) with (ghost gain 0%Z log). rewrite IH.
  unfold balance, established, terminated, idle_calls, count. destruct e as [| | | | |[]]; cbn [filter length gain]; lia.
Qed.
Definition balanced (x : st * Z) : bool :=
  let '(s, z) := x in (if resting s then (z =? if connected s then 1 else 0)%Z else true) && (-1 <=? z)%Z && (z <=? 1)%Z.
Definition tidy : list (st * Z) := explored st_eq_dec Z.eq_dec key act_step acts gain orderly 20000 (start 1, 0%Z).
Lemma tidy_sound : sound st_eq_dec Z.eq_dec key act_step acts gain orderly undropped balanced (start 1, 0%Z) tidy = true.
Proof. vm_compute. reflexivity. Qed.
Lemma callbacks_balance sched s log : always orderly (start 1) sched -> run (start 1) [] sched = (s, log) ->
  terminated log <= S (established log + idle_calls log) /\ established log + idle_calls log <= S (terminated log) /\
  (at_rest s -> established log + idle_calls log = terminated log + if connected s then 1 else 0).
Proof.
  intros A R. pose proof tidy_sound as S. destruct (sound_good _ _ _ _ _ _ _ _ _ _ _ S) as (I & G).
  destruct (sound_run _ _ _ _ _ _ _ _ _ _ _ acts_all S sched (start 1) 0%Z [] I A) as (t & new & R' & J & _).
  rewrite app_nil_r in R'. rewrite R in R'. injection R' as <- <-. rewrite ghost_balance in J. specialize (G _ J). unfold balanced in G.
  apply andb_prop in G as (G & G3). apply andb_prop in G as (G1 & G2). apply Z.leb_le in G2, G3. unfold balance in G1, G2, G3.
  split; [lia|]. split; [lia|]. intros Q. apply resting_rest in Q. rewrite Q in G1. apply Z.eqb_eq in G1. destruct (connected s); lia.
Qed.

(** ** What an action at rest leads to *)
Definition only_go (ok : st -> act -> bool) (s : st) (a : act) : bool := ok s a && match a with Go _ => true | _ => false end.
Lemma only_go_always ok sched : forall s, own_steps sched -> always ok s sched -> always (only_go ok) s sched.
Proof.
  unfold own_steps. induction sched as [|a r IH]; intros s N A; cbn [Sched.always] in *; [exact I|].
  apply Forall_cons_iff in N as (N1 & N2). destruct (act_step s a) as [[s' o]|]; [|apply IH; assumption].
  destruct A as (A1 & A2). split; [|apply IH; assumption]. unfold only_go. rewrite A1. destruct N1 as (i & ->). reflexivity.
Qed.
Lemma always_true sched : forall s, always (fun _ _ => true) s sched.
Proof. induction sched as [|a r IH]; intros s; cbn [Sched.always]; [exact I|]. destruct (act_step s a) as [[s' o]|]; [split; [reflexivity|apply IH]|apply IH]. Qed.
Definition logs (l : list ev) (e : ev) : list ev := e :: l.
Lemma ghost_logs l log : ghost logs log l = l ++ log.
Proof. induction l as [|e l IH]; [reflexivity|]. cbn [ghost fold_right]. change (fold_right _ _ l) with (ghost logs log l). rewrite IH. reflexivity. Qed.
Definition evs_eq_dec : forall a b : list ev, {a = b} + {a <> b} := list_eq_dec ev_eq_dec.
Definition leads (post : st -> list ev -> bool) (x : st * list ev) : bool := let '(s, l) := x in negb (crashed s) && (if resting s then post s l else true).
Definition then_ (ok : st -> act -> bool) (x : st * list ev) : list (st * list ev) := explored st_eq_dec evs_eq_dec key act_step acts logs (only_go ok) 5000 x.
Definition reacts (a : act) (ok : st -> act -> bool) (post : st -> list ev -> bool) (s : st) : bool :=
  match act_step s a with
  | Some (s', o) => let x := (s', logged o []) in sound st_eq_dec evs_eq_dec key act_step acts logs (only_go ok) (fun _ => true) (leads post) x (then_ ok x)
  | None => false
  end.
Lemma reacts_run a ok post s log after t log' : reacts a ok post s = true ->
  own_steps after -> always ok s (a :: after) -> run s log (a :: after) = (t, log') -> at_rest t ->
  crashed t = false /\ exists new, log' = new ++ log /\ post t new = true.
Proof.
  unfold reacts. intros H N A R Q. cbn [Sched.always Sched.run] in A, R. destruct (act_step s a) as [[s' o]|] eqn:E; [|discriminate].
  destruct A as (_ & A). destruct (sound_good _ _ _ _ _ _ _ _ _ _ _ H) as (I & G).
  destruct (sound_run _ _ _ _ _ _ _ _ _ _ _ acts_all H after s' _ (logged o log) I (only_go_always _ _ _ N A)) as (t' & new & R' & J & _).
  rewrite R in R'. injection R' as <- ->. specialize (G _ J). rewrite ghost_logs in G. unfold leads in G. apply andb_prop in G as (G1 & G2).
  split; [destruct (crashed t); [discriminate|reflexivity]|]. exists (new ++ logged o []). apply resting_rest in Q. rewrite Q in G2.
  split; [|exact G2]. destruct o; cbn [logged]; rewrite <- ?app_assoc; [reflexivity|cbn [app]; reflexivity].
Qed.
Definition evsb (a b : list ev) : bool := if evs_eq_dec a b then true else false.
Lemma evsb_eq a b : evsb a b = true -> a = b.
Proof. unfold evsb. destruct (evs_eq_dec a b); [auto|discriminate]. Qed.
Definition anyhow (s : st) (a : act) : bool := true.
Definition dial_post (s t : st) (l : list ev) : bool := is_serving t && evsb l [if connected s then ERefused else EEstablished].
Definition loss_post (s t : st) (l : list ev) : bool := is_vacant t && evsb l [ETerminated].
Definition disc_post (s t : st) (l : list ev) : bool := is_silent t && evsb l [ETerminated; EDisconnect (connected s)].
Definition listen_post (s t : st) (l : list ev) : bool := is_vacant t && evsb l [EListen].
Definition again_post (s t : st) (l : list ev) : bool := (if st_eq_dec s t then true else false) && evsb l [EListen].
Definition responds (x : st * bool) : bool :=
  let '(s, b) := x in
  if resting s then
    (if b then reacts Dials anyhow (dial_post s) s else true) &&
    (if connected s then reacts Closes prompt (loss_post s) s else true) &&
    reacts (CallsDisconnect 0) anyhow (disc_post s) s &&
    (if b then reacts (CallsListen 0) anyhow (again_post s) s else reacts (CallsListen 0) anyhow (listen_post s) s)
  else true.
Lemma life_responds : forallb responds life = true.
Proof. vm_compute. reflexivity. Qed.
Lemma life_reacts sched s log : always calm (start 1) sched -> run (start 1) [] sched = (s, log) -> at_rest s ->
  (asked log = true -> reacts Dials anyhow (dial_post s) s = true) /\
  (connected s = true -> reacts Closes prompt (loss_post s) s = true) /\
  reacts (CallsDisconnect 0) anyhow (disc_post s) s = true /\
  (if asked log then reacts (CallsListen 0) anyhow (again_post s) s else reacts (CallsListen 0) anyhow (listen_post s) s) = true.
Proof.
  intros A R Q. destruct (life_run sched s log A R) as (I & _). pose proof life_responds as F. rewrite forallb_forall in F. specialize (F _ I). unfold responds in F.
  apply resting_rest in Q. rewrite Q in F. parts F. repeat split; [|intros H2| |].
  - intros H2. rewrite H2 in F. exact F.
  - rewrite H2 in H1. exact H1.
  - assumption.
  - destruct (asked log); assumption.
Qed.
Lemma dial_leads sched s log after t log' : always calm (start 1) sched -> run (start 1) [] sched = (s, log) -> at_rest s -> asked log = true ->
  own_steps after -> run s log (Dials :: after) = (t, log') -> at_rest t -> serving t /\ log' = (if connected s then ERefused else EEstablished) :: log.
Proof.
  intros A R Q K N R' Q'. destruct (life_reacts sched s log A R Q) as (F & _).
  destruct (reacts_run _ _ _ _ log after t log' (F K) N (always_true _ _) R' Q') as (_ & new & -> & P).
  unfold dial_post in P. apply andb_prop in P as (P1 & P2). apply evsb_eq in P2 as ->. split; [apply serving_ok, P1|reflexivity].
Qed.
Lemma loss_leads sched s log after t log' : always calm (start 1) sched -> run (start 1) [] sched = (s, log) -> at_rest s -> connected s = true ->
  own_steps after -> always prompt s (Closes :: after) -> run s log (Closes :: after) = (t, log') -> at_rest t -> vacant t /\ log' = ETerminated :: log.
Proof.
  intros A R Q K N O R' Q'. destruct (life_reacts sched s log A R Q) as (_ & F & _).
  destruct (reacts_run _ _ _ _ log after t log' (F K) N O R' Q') as (_ & new & -> & P).
  unfold loss_post in P. apply andb_prop in P as (P1 & P2). apply evsb_eq in P2 as ->. split; [apply vacant_ok, P1|reflexivity].
Qed.
Lemma disconnect_leads sched s log after t log' : always calm (start 1) sched -> run (start 1) [] sched = (s, log) -> at_rest s ->
  own_steps after -> run s log (CallsDisconnect 0 :: after) = (t, log') -> at_rest t -> silent t /\ log' = ETerminated :: EDisconnect (connected s) :: log.
Proof.
  intros A R Q N R' Q'. destruct (life_reacts sched s log A R Q) as (_ & _ & F & _).
  destruct (reacts_run _ _ _ _ log after t log' F N (always_true _ _) R' Q') as (_ & new & -> & P).
  unfold disc_post in P. apply andb_prop in P as (P1 & P2). apply evsb_eq in P2 as ->. split; [apply silent_ok, P1|reflexivity].
Qed.
Lemma listen_leads sched s log after t log' : always calm (start 1) sched -> run (start 1) [] sched = (s, log) -> at_rest s ->
  own_steps after -> run s log (CallsListen 0 :: after) = (t, log') -> at_rest t -> (if asked log then t = s else vacant t) /\ log' = EListen :: log.
Proof.
  intros A R Q N R' Q'. destruct (life_reacts sched s log A R Q) as (_ & _ & _ & F). destruct (asked log).
  - destruct (reacts_run _ _ _ _ log after t log' F N (always_true _ _) R' Q') as (_ & new & -> & P).
    unfold again_post in P. apply andb_prop in P as (P1 & P2). apply evsb_eq in P2 as ->. split; [|reflexivity]. destruct (st_eq_dec s t); [auto|discriminate].
  - destruct (reacts_run _ _ _ _ log after t log' F N (always_true _ _) R' Q') as (_ & new & -> & P).
    unfold listen_post in P. apply andb_prop in P as (P1 & P2). apply evsb_eq in P2 as ->. split; [apply vacant_ok, P1|reflexivity].
Qed.
