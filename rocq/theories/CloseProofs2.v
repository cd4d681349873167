(** Closing: what every call of Close comes to, and calls of Dial after it. *)
From Coq Require Import Arith Lia.
From Verif Require Import Base ConcModel ShutdownModel ShutdownSpec ShutdownProofs ShutdownLost ShutdownAgain CloseModel CloseSpec CloseProofs.

Lemma close_shuts_down n calls sched : disconnecting_only calls -> keeps_open sched ->
  let s := crun (cinit (repeat None n) 0 calls) sched in
  crashed (base s) = false /\ (terminations (base s) <= n + calls_of calls)%nat /\
  (cmoves (cinit (repeat None n) 0 calls) sched <= 20 * (n + calls_of calls) + 8 + 8 * n)%nat /\
  (forall k, waited_back s k -> over (base s)) /\
  (all_rest s -> (forall k, (k < n)%nat -> closed_back s k) /\ returned (base s) /\
    ((0 < n + calls_of calls)%nat -> down (base s) /\ In 1%nat (closed (base s)) /\ (1 <= terminations (base s))%nat)).
Proof.
  intros H KO. destruct (cinv_run _ sched _ _ (cinv_init n calls H) KO) as ((m & V) & M). pose proof (crun_closers (cinit (repeat None n) 0 calls) sched) as LEN.
  cbn zeta. set (s := crun _ sched) in *. clearbody s. pose proof V as [(mb & G & EM) NS AT TH HO DI]. destruct (terms_bound _ _ _ G) as (CR & TB).
  split; [exact CR|]. split; [exact TB|]. split; [exact M|]. split.
  - intros k (u & h & W). destruct (AT _ (nth_error_In _ _ W)) as (_ & X). cbn in X. destruct X as (t & X). exact (good_over _ _ _ t G X).
  - intros R. pose proof (rest_below _ _ _ V R) as RB. destruct (good_rest _ _ _ G RB) as (RT & D). split; [|split; [exact RT|exact D]].
    intros k K. assert (L : (k < length (closers s))%nat) by (rewrite LEN; cbn [cinit closers]; rewrite closers_len, repeat_length; exact K).
    destruct (nth_error (closers s) k) as [c|] eqn:N; [|apply nth_error_None in N; lia]. pose proof (good_settled _ _ _ G RB ltac:(lia)) as [Q _ _].
    destruct R as (_ & R2 & _). specialize (R2 k). unfold close_step in R2. rewrite CR, N in R2. destruct (AT c (nth_error_In _ _ N)) as (A1 & A2). unfold at_self, at_thread in A1, A2.
    unfold may_begin in R2. rewrite (HO c (nth_error_In _ _ N)) in R2. destruct c as [u h p]. cbn [cat self host] in *. destruct p; try discriminate R2.
    + destruct (disconnecting (base s)); discriminate R2.
    + destruct A1 as (p & _ & A1). unfold sstep in R2. rewrite CR, A1 in R2. discriminate R2.
    + destruct A2 as (a & p & T). rewrite forallb_forall in Q. pose proof (Q _ (nth_error_In _ _ T)) as E. destruct p; try discriminate E. unfold is_held in R2. rewrite T in R2. discriminate R2.
    + exists u, h, waited. exact N.
Qed.

(** ** Dial after Close *)
Definition still (s : cst) : Prop := disposing s = true /\ Forall (fun g => ~ dials g) (sgors (base s)).
Lemma forall_set {A} (P : A -> Prop) l i x : Forall P l -> P x -> Forall P (set_nth l i x).
Proof. intros H X. revert i. induction H as [|y l Y H IH]; intros [|i]; cbn; constructor; auto. Qed.
Lemma forall_nth {A} (P : A -> Prop) l i x : Forall P l -> nth_error l i = Some x -> P x.
Proof. intros H N. rewrite List.Forall_forall in H. apply H. exact (nth_error_In _ _ N). Qed.
Lemma still_step b i b' : Forall (fun g => ~ dials g) (sgors b) -> sstep b i = Some b' -> Forall (fun g => ~ dials g) (sgors b') /\ conns b' = conns b /\ established b' = established b.
Proof.
  intros F H. unfold sstep in H. destruct (crashed b) eqn:CR; [discriminate|]. destruct (nth_error (sgors b) i) as [g|] eqn:N; [|discriminate]. pose proof (forall_nth _ _ _ _ F N) as X.
  assert (K : forall t g' more, Some t = Some b' -> sgors t = set_nth (sgors b) i g' ++ more -> ~ dials g' -> Forall (fun g => ~ dials g) more -> conns t = conns b -> established t = established b ->
    Forall (fun g => ~ dials g) (sgors b') /\ conns b' = conns b /\ established b' = established b).
  { intros t g' more E GS D D2 C1 C2. injection E as <-. split; [|auto]. rewrite GS. apply List.Forall_app. split; [apply forall_set; assumption|exact D2]. }
  assert (D : forall au k ret p, (forall p, ~ dials (k p)) -> ~ dials ret -> Some (disconnect_step b i au k ret p) = Some b' ->
    Forall (fun g => ~ dials g) (sgors b') /\ conns b' = conns b /\ established b' = established b).
  { intros au k ret p KD RD E. destruct p.
    - apply (K _ (if disconnecting b then ret else k DSet) [] E); try (destruct b; reflexivity); [rewrite app_nil_r; destruct b; reflexivity|destruct (disconnecting b); auto|constructor].
    - apply (K _ (k DUnSet) [] E); try (destruct b; reflexivity); [rewrite app_nil_r; destruct b; reflexivity|auto|constructor].
    - apply (K _ (k DStart) [] E); try (destruct b; reflexivity); [rewrite app_nil_r; destruct b; reflexivity|auto|constructor].
    - apply (K _ ret [Disc au XNew] E); try (destruct b; reflexivity); [exact RD|]. repeat constructor. intros []. }
  Ltac nodial K H b g' := apply (K _ g' [] H); try (destruct b; reflexivity); [rewrite app_nil_r; destruct b; reflexivity|try (intros []; fail)|constructor].
  destruct g as [u todo|c p|p|au p].
  - destruct u; try (exfalso; apply X; exact Logic.I).
    + destruct todo as [|[] todo]; [discriminate|exfalso; apply X; left; reflexivity|].
      nodial K H b (User (if disconnecting b then UIdle else UDisc DTest) todo). intros Y. apply X. right. destruct (disconnecting b); exact Y.
    + refine (D _ _ _ _ _ _ H); [intros p' Y; apply X; exact Y|intros Y; apply X; exact Y].
  - destruct p; try discriminate H.
    + nodial K H b (Reader c RdLoop).
    + nodial K H b (Reader c (if connected b then RdRead else RdUnlock)).
    + destruct (_ || _); [|discriminate]. nodial K H b (Reader c RdErr).
    + nodial K H b (Reader c (if disconnecting b then RdLoop else RdTry)).
    + nodial K H b (Reader c (if trunning b then RdLoop else RdStart)).
    + nodial K H b (Reader c (if trunning b then RdLoop else RdLock)).
    + destruct (theld b); [discriminate|]. nodial K H b (Reader c RdSpawn).
    + apply (K _ (Reader c RdLoop) [Term TmNew] H); try (destruct b; reflexivity); [intros []|]. repeat constructor. intros [].
    + nodial K H b (Reader c RdUnSet).
    + nodial K H b (Reader c RdEnd).
  - destruct p; try discriminate H.
    + nodial K H b (Term (TmDisc DTest)).
    + refine (D _ _ _ _ _ _ H); [intros p' []|intros []].
    + nodial K H b (Term TmUnSet).
    + nodial K H b (Term TmEnd).
  - destruct p; try discriminate H.
    + nodial K H b (Disc au (if au then XClose else XTerm)).
    + nodial K H b (Disc au (if trunning b then XTermWait else XLock)).
    + destruct (theld b); [discriminate|]. nodial K H b (Disc au XLock).
    + destruct (action b); [discriminate|]. nodial K H b (Disc au XClose).
    + nodial K H b (Disc au XTest).
    + nodial K H b (Disc au (match cmd b with Some _ => XJoin | None => XNotify end)).
    + destruct (cmd b) as [t|]; [nodial K H b (Disc au (if is_running b t then XWait t else XNil))|]. injection H as <-. destruct b. auto.
    + destruct (is_held b i0); [discriminate|]. nodial K H b (Disc au XNil).
    + nodial K H b (Disc au XNotify).
    + nodial K H b (Disc au XDone).
    + nodial K H b (Disc au (if au then XUnlock else XRelease)).
    + nodial K H b (Disc au XUnlock).
    + nodial K H b (Disc au XUnSet).
    + nodial K H b (Disc au XEnd).
Qed.
Lemma still_cstep s a s' : still s -> cact_step s a = Some s' -> still s' /\ conns (base s') = conns (base s) /\ established (base s') = established (base s).
Proof.
  intros (DS & F) H. destruct a as [[i|c]|k|k]; cbn [cact_step sact_step] in H.
  - destruct (held_up s i); [discriminate|]. destruct (sstep (base s) i) as [b'|] eqn:ST; [|discriminate]. injection H as <-. destruct (still_step _ _ _ F ST) as (F' & C1 & C2). split; [split; assumption|auto].
  - destruct (_ && _); [|discriminate]. injection H as <-. unfold still. cbn [base disposing]. destruct (base s). auto.
  - unfold close_step in H. destruct (crashed (base s)); [discriminate|]. destruct (nth_error (closers s) k) as [c|]; [|discriminate].
    assert (K : forall p, still (CState (base s) (disposing s) (set_nth (closers s) k (Closer (self c) (host c) p)) (dialers s))) by (intros p; split; assumption).
    assert (G : forall g p, ~ dials g -> still (CState (goes (base s) (self c) g) (disposing s) (set_nth (closers s) k (Closer (self c) (host c) p)) (dialers s)) /\
      conns (goes (base s) (self c) g) = conns (base s) /\ established (goes (base s) (self c) g) = established (base s)).
    { intros g p D. split; [|destruct (base s); auto]. split; [exact DS|]. cbn [base]. replace (sgors (goes (base s) (self c) g)) with (set_nth (sgors (base s)) (self c) g) by (destruct (base s); reflexivity). apply forall_set; assumption. }
    destruct (cat c).
    + destruct (may_begin (base s) c); [|discriminate]. injection H as <-. split; [split; [reflexivity|exact F]|auto].
    + destruct (disconnecting (base s)); injection H as <-; apply G; intros [].
    + destruct (sstep (base s) (self c)) as [b'|] eqn:ST; [|discriminate]. injection H as <-. destruct (still_step _ _ _ F ST) as (F' & C1 & C2). split; [split; assumption|auto].
    + injection H as <-. auto.
    + injection H as <-. auto.
    + injection H as <-. auto.
    + destruct (is_held (base s) t); [discriminate|]. injection H as <-. auto.
    + discriminate.
  - unfold dial_step in H. destruct (crashed (base s)); [discriminate|]. destruct (nth_error (dialers s) k) as [[u []]|]; try discriminate. rewrite DS in H. injection H as <-. split; [split; [reflexivity|exact F]|auto].
Qed.
Lemma no_dial_after s more : disposing s = true -> Forall (fun g => ~ dials g) (sgors (base s)) ->
  conns (base (crun s more)) = conns (base s) /\ established (base (crun s more)) = established (base s).
Proof.
  intros D F. assert (S : still s) by (split; assumption). clear D F. revert s S. induction more as [|a more IH]; intros s S; [auto|]. cbn [crun].
  destruct (cact_step s a) as [s'|] eqn:E; [|exact (IH s S)]. destruct (still_cstep _ _ _ S E) as (S' & C1 & C2). destruct (IH s' S') as (I1 & I2). split; congruence.
Qed.
Definition marks (s : cst) : Prop := forall c, In c (closers s) -> cat c = CNew \/ disposing s = true.
Lemma marks_run s sched : marks s -> marks (crun s sched).
Proof.
  revert s. induction sched as [|a sched IH]; intros s M; [exact M|]. cbn [crun]. apply IH. destruct (cact_step s a) as [s'|] eqn:E; [|exact M].
  destruct a as [a|k|k]; cbn [cact_step] in E.
  - destruct (match a with Go i => held_up s i | Closes _ => false end); [discriminate|]. destruct (sact_step (base s) a); [|discriminate]. injection E as <-. exact M.
  - unfold close_step in E. destruct (crashed (base s)); [discriminate|]. destruct (nth_error (closers s) k) as [c|] eqn:N; [|discriminate]. pose proof (M c (nth_error_In _ _ N)) as MC.
    assert (K : forall b p, disposing s = true -> marks (CState b (disposing s) (set_nth (closers s) k (Closer (self c) (host c) p)) (dialers s))) by (intros b p D d I; right; exact D).
    destruct (cat c) eqn:CC; try (destruct MC as [MC|MC]; [discriminate MC|]).
    + destruct (may_begin (base s) c); [|discriminate]. injection E as <-. intros d I. right. reflexivity.
    + destruct (disconnecting (base s)); injection E as <-; apply K; exact MC.
    + destruct (sstep (base s) (self c)); [|discriminate]. injection E as <-. apply K; exact MC.
    + injection E as <-. apply K; exact MC.
    + injection E as <-. apply K; exact MC.
    + injection E as <-. apply K; exact MC.
    + destruct (is_held (base s) t); [discriminate|]. injection E as <-. apply K; exact MC.
    + discriminate.
  - unfold dial_step in E. destruct (crashed (base s)); [discriminate|]. destruct (nth_error (dialers s) k) as [[u []]|]; try discriminate. destruct (disposing s) eqn:D; injection E as <-; intros c I; specialize (M c I); rewrite D in M; exact M.
Qed.
Lemma begun_disposing hosts d calls sched k : let s := crun (cinit hosts d calls) sched in begun s k -> disposing s = true.
Proof.
  cbn zeta. intros (c & N & B). assert (M : marks (cinit hosts d calls)) by (intros x I; left; exact (proj1 (closers_in _ _ _ I))).
  destruct (marks_run _ sched M c (nth_error_In _ _ N)) as [E|E]; [contradiction|exact E].
Qed.
