(** Proofs for C146. *)
From Coq Require Import List Arith Bool Lia.
From Verif Require Import KeepModel KeepSpec.
Import ListNotations.

Lemma krun_app max l1 : forall s l2, krun max s (l1 ++ l2) = (fst (krun max (fst (krun max s l1)) l2), snd (krun max s l1) ++ snd (krun max (fst (krun max s l1)) l2)).
Proof.
  induction l1 as [|a l1 IH]; intros s l2; cbn [app krun fst snd]; [destruct (krun max s l2); reflexivity|].
  destruct (kstep max s a) as [s1 e1]. rewrite IH. destruct (krun max s1 l1) as [s2 e2]. cbn [fst snd]. rewrite app_assoc. reflexivity.
Qed.
Lemma krun_fst max l1 s l2 : fst (krun max s (l1 ++ l2)) = fst (krun max (fst (krun max s l1)) l2).
Proof. rewrite krun_app. reflexivity. Qed.
Lemma krun_inv max (I : kstate -> Prop) (A : kact -> Prop) (Q : kevent -> Prop) :
  (forall s a, I s -> A a -> I (fst (kstep max s a)) /\ Forall Q (snd (kstep max s a))) ->
  forall l s, I s -> (forall a, In a l -> A a) -> I (fst (krun max s l)) /\ Forall Q (snd (krun max s l)).
Proof.
  intros H. induction l as [|a l IH]; intros s J N; [split; [exact J|constructor]|]. cbn [krun].
  destruct (H s a J (N a (or_introl eq_refl))) as (J1 & Q1). destruct (kstep max s a) as [s1 e1]. cbn [fst snd] in *.
  destruct (IH s1 J1 (fun b B => N b (or_intror B))) as (J2 & Q2). destruct (krun max s1 l) as [s2 e2]. cbn [fst snd] in *. split; [exact J2|]. apply Forall_app. auto.
Qed.
Lemma none_counted e l : Forall (fun x => e x = false) l -> count e l = 0.
Proof. unfold count. induction 1 as [|x l H _ IH]; [reflexivity|]. cbn. rewrite H. exact IH. Qed.
Lemma count_app e a b : count e (a ++ b) = count e a + count e b.
Proof. unfold count. rewrite filter_app, app_length. reflexivity. Qed.

Ltac cases := repeat match goal with
  | |- context [match ?x with _ => _ end] => destruct x eqn:?
  | |- context [if ?x then _ else _] => destruct x eqn:?
  end.

(** Without automatic reconnection there is no callback and no thread. *)
Definition calm (s : kstate) : Prop := callback s = false /\ thread s = NoThread /\ joining s = 0.
Lemma calm_step max s a : calm s -> (forall ok, a <> ADial true ok) ->
  calm (fst (kstep max s a)) /\ (listening s = true -> a <> ADisconnect -> listening (fst (kstep max s a)) = true /\ Forall (fun e => is_dialled e = false) (snd (kstep max s a))).
Proof.
  intros (C & T & J) N. destruct s as [li co ca ce th at_ jo]. cbn [callback thread joining] in *. subst. unfold calm.
  destruct a as [auto ok|ok| | |ok|]; cbn [kstep thread listening connected callback cancel joining attempt andb].
  - assert (auto = false) as -> by (destruct auto; [exfalso; apply (N ok); reflexivity|reflexivity]).
    destruct (co || li) eqn:B; cbn; (split; [auto|]); intros -> _; [auto|]. rewrite orb_true_r in B. discriminate.
  - destruct (co || li) eqn:B; cbn; (split; [auto|]); intros -> _; [auto|]. rewrite orb_true_r in B. discriminate.
  - destruct (li && negb co) eqn:B; cbn; (split; [auto|]); intros L _; (split; [auto|]); repeat constructor.
  - destruct co; cbn; (split; [auto|]); intros L _; (split; [auto|]); repeat constructor.
  - cbn. split; [auto|]. intros; split; [auto|constructor].
  - cbn. split; [auto|]. intros _ X. contradiction X. reflexivity.
Qed.
Lemma plain_calm max l : forall s, calm s -> (forall ok, ~ In (ADial true ok) l) -> calm (fst (krun max s l)).
Proof.
  intros s J N. refine (proj1 (krun_inv max calm (fun a => forall ok, a <> ADial true ok) (fun _ => True) _ l s J _)).
  - intros s0 a J0 A. split; [apply calm_step; assumption|apply Forall_forall; auto].
  - intros a I ok ->. exact (N ok I).
Qed.
Lemma calm_keeps max l s : calm s -> listening s = true -> (forall ok, ~ In (ADial true ok) l) -> ~ In ADisconnect l ->
  listening (fst (krun max s l)) = true /\ Forall (fun e => is_dialled e = false) (snd (krun max s l)).
Proof.
  intros J L N D. destruct (krun_inv max (fun s => calm s /\ listening s = true) (fun a => (forall ok, a <> ADial true ok) /\ a <> ADisconnect) (fun e => is_dialled e = false)) with (l := l) (s := s) as ((_ & R) & Q); auto.
  - intros s0 a (J0 & L0) (A1 & A2). destruct (calm_step max s0 a J0 A1) as (K1 & K2). destruct (K2 L0 A2). auto.
  - intros a I. split; [intros ok ->; exact (N ok I)|intros ->; exact (D I)].
Qed.

(** Without a limit of attempts the thread never gives up. *)
Lemma endless_step s a : listening s = true -> a <> ADisconnect -> listening (fst (kstep None s a)) = true.
Proof.
  intros L D. destruct s as [li co ca ce th at_ jo]. cbn in L. subst li.
  destruct a as [auto ok|ok| | |ok|]; [| | | | |contradiction D; reflexivity]; destruct co; cbn; try reflexivity.
  - destruct (ca && negb ce); [destruct th|]; reflexivity.
  - destruct th; cbn; try reflexivity; destruct ce, ok, jo; reflexivity.
  - destruct th; cbn; try reflexivity; destruct ce, ok, jo; reflexivity.
Qed.
Lemma endless_keeps l s : listening s = true -> ~ In ADisconnect l -> listening (fst (krun None s l)) = true.
Proof.
  intros L D. refine (proj1 (krun_inv None (fun s => listening s = true) (fun a => a <> ADisconnect) (fun _ => True) _ l s L _)).
  - intros s0 a J A. split; [apply endless_step; assumption|apply Forall_forall; auto].
  - intros a I ->. exact (D I).
Qed.

(** A subscriber that listens dials nobody. *)
Definition shut (s : kstate) : Prop := thread s <> Passed /\ (listening s = true \/ connected s = false /\ thread s = NoThread).
Lemma shut_step max s a : shut s -> (forall auto ok, a <> ADial auto ok) -> shut (fst (kstep max s a)) /\ Forall (fun e => is_dialled e = false) (snd (kstep max s a)).
Proof.
  intros (P & H) N. destruct s as [li co ca ce th at_ jo]. cbn [thread listening connected] in *. unfold shut.
  destruct a as [auto ok|ok| | |ok|]; [contradiction (N auto ok eq_refl)| | | | |].
  - cbn [kstep connected listening]. destruct (co || li) eqn:B; cbn; [auto|]. apply orb_false_iff in B as (-> & ->). destruct H as [H|(_ & ->)]; [discriminate|]. split; [split; [discriminate|auto]|constructor].
  - cbn [kstep connected listening]. destruct (li && negb co) eqn:B; cbn; [split; [auto|repeat constructor]|auto].
  - destruct co; [|cbn; auto]. destruct H as [->|(H & _)]; [|discriminate]. cbn.
    destruct (ca && negb ce); [|cbn; split; [auto|repeat constructor]]. destruct th; cbn; try (split; [split; [discriminate|auto]|repeat constructor]); [|contradiction P; reflexivity].
    destruct max as [[|m]|]; cbn; (split; [split; [discriminate|auto]|repeat constructor]).
  - destruct th; cbn; [split; [auto|constructor]| | |contradiction P; reflexivity].
    + destruct H as [->|(_ & H)]; [|discriminate]. destruct ce; [|cbn; split; [split; [discriminate|auto]|constructor]].
      destruct jo; cbn; [split; [split; [discriminate|auto]|constructor]|]. destruct max as [[|m]|]; cbn; (split; [split; [discriminate|auto]|repeat constructor]).
    + destruct H as [->|(_ & H)]; [|discriminate]. rewrite orb_true_r. destruct (match max with Some m => m <=? at_ | None => false end); [|cbn; split; [split; [discriminate|auto]|repeat constructor]].
      unfold handleReconnect. cbn. destruct co; [|cbn; split; [split; [discriminate|auto]|repeat constructor]].
      destruct jo; cbn; [split; [split; [discriminate|auto]|repeat constructor]|]. destruct max as [[|m]|]; cbn; (split; [split; [discriminate|auto]|repeat constructor]).
  - cbn. split; [split; [discriminate|auto]|constructor].
Qed.
Lemma shut_keeps max l s : shut s -> (forall auto ok, ~ In (ADial auto ok) l) -> Forall (fun e => is_dialled e = false) (snd (krun max s l)).
Proof.
  intros J N. refine (proj2 (krun_inv max shut (fun a => forall auto ok, a <> ADial auto ok) _ _ l s J _)); [intros; apply shut_step; assumption|].
  intros a I auto ok ->. exact (N auto ok I).
Qed.

(** The attempts of the thread while the subscriber listens. *)
Fixpoint tries (n : nat) : list kact := match n with O => [] | S n => AReconnect false :: AReconnect false :: tries n end.
Lemma in_tries a n : In a (tries n) -> a = AReconnect false.
Proof. induction n as [|n IH]; cbn; [contradiction|]. intros [<-|[<-|H]]; auto. Qed.
Lemma refused max co jo : forall n k, (forall m, max = Some m -> k + n <= m) ->
  krun max (KState true co true false Waits k jo) (tries n) = (KState true co true false Waits (k + n) jo, repeat KRefused n).
Proof.
  induction n as [|n IH]; intros k H; [rewrite Nat.add_0_r; reflexivity|].
  change (tries (S n)) with ([AReconnect false; AReconnect false] ++ tries n). rewrite krun_app.
  assert (E : krun max (KState true co true false Waits k jo) [AReconnect false; AReconnect false] = (KState true co true false Waits (S k) jo, [KRefused])).
  { cbn [krun kstep thread cancel attempt at_thread listening connected callback joining]. rewrite orb_true_r.
    assert (match max with Some m => m <=? k | None => false end = false) as ->; [|reflexivity].
    destruct max as [m|]; [|reflexivity]. apply Nat.leb_gt. specialize (H m eq_refl). lia. }
  rewrite E. cbn [fst snd]. rewrite IH by (intros m M; specialize (H m M); lia). cbn [fst snd app repeat]. f_equal. f_equal. lia.
Qed.
Lemma gives_up m jo : krun (Some m) (KState true false true false Waits m jo) (tries 1) = (KState false false true true NoThread m 0, [KGaveUp]).
Proof. cbn [tries krun kstep thread cancel attempt at_thread listening connected callback joining]. rewrite Nat.leb_refl. reflexivity. Qed.
Lemma starts_again m : krun (Some m) (KState true true true false Waits m 0) (tries 1) = (KState true true true false NoThread m 0, [KStarted]).
Proof. cbn [tries krun kstep thread cancel attempt at_thread listening connected callback joining]. rewrite Nat.leb_refl. reflexivity. Qed.

(** With MaxRetries 0 no attempt is ever made. *)
Lemma zero_step s a : thread s = NoThread -> thread (fst (kstep (Some 0) s a)) = NoThread /\ (listening s = true -> a <> ADisconnect -> listening (fst (kstep (Some 0) s a)) = true).
Proof.
  intros T. destruct s as [li co ca ce th at_ jo]. cbn in T. subst th.
  destruct a as [auto ok|ok| | |ok|]; destruct li, co; cbn; try (split; [reflexivity|intros; try reflexivity; try discriminate; congruence]);
  destruct (ca && negb ce); split; auto.
Qed.
Lemma zero_run l : forall s, thread s = NoThread -> thread (fst (krun (Some 0) s l)) = NoThread.
Proof.
  intros s T. refine (proj1 (krun_inv (Some 0) (fun s => thread s = NoThread) (fun _ => True) (fun _ => True) _ l s T (fun _ _ => I))).
  intros s0 a J _. split; [apply zero_step, J|apply Forall_forall; auto].
Qed.
Lemma zero_keeps l s : thread s = NoThread -> listening s = true -> ~ In ADisconnect l -> listening (fst (krun (Some 0) s l)) = true.
Proof.
  intros T L D. destruct (krun_inv (Some 0) (fun s => thread s = NoThread /\ listening s = true) (fun a => a <> ADisconnect) (fun _ => True)) with (l := l) (s := s) as ((_ & R) & _); auto.
  - intros s0 a (J1 & J2) A. destruct (zero_step s0 a J1) as (K1 & K2). split; [auto|apply Forall_forall; auto].
  - intros a I ->. exact (D I).
Qed.
Lemma next_accepted max s : listening s = true -> connected s = true ->
  snd (krun max s [ALost; AAccept]) = [KTerminated; KAccepted] /\ connected (fst (krun max s [ALost])) = false /\
  listening (fst (krun max s [ALost; AAccept])) = true /\ connected (fst (krun max s [ALost; AAccept])) = true.
Proof.
  destruct s as [li co ca ce th at_ jo]. cbn [listening connected]. intros -> ->. cbn.
  destruct ca, ce, th, max as [[|m]|]; cbn; auto.
Qed.
