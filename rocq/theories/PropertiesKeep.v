(** A subscriber that listens keeps listening, and dials nobody, until it is told to
    stop (C146).  [max] is MaxRetries, None for -1; the histories are all of those the
    application, publishers, the network and the reconnect thread can make. *)
From Coq Require Import List Arith Bool Lia.
From Verif Require Import KeepModel KeepSpec KeepProofs.
Import ListNotations.

(** If it never dialled with AutoReconnect.  Missing: the rest, which is false of the code. *)
Theorem C146_plain_partial : forall max l later, plain (l ++ later) -> listens max l -> undisturbed later ->
  listens max (l ++ later) /\ count is_dialled (snd (krun max (fst (krun max new_state l)) later)) = 0.
Proof.
  intros max l later P L U. unfold listens in *. rewrite krun_fst.
  assert (C : calm (fst (krun max new_state l))) by (apply plain_calm; [repeat split|]; intros ok I; apply (P ok), in_or_app; auto).
  destruct (calm_keeps max later _ C L) as (K1 & K2); [intros ok I; apply (P ok), in_or_app; auto|exact U|]. split; [exact K1|apply none_counted, K2].
Qed.
Print Assumptions C146_plain_partial.

(** With MaxRetries -1 it keeps listening whatever it dialled. *)
Theorem C146_endless_partial : forall l later, listens None l -> undisturbed later -> listens None (l ++ later).
Proof. intros l later L U. unfold listens in *. rewrite krun_fst. apply endless_keeps; assumption. Qed.
Print Assumptions C146_endless_partial.

(** With MaxRetries 0 too. *)
Theorem C146_zero_partial : forall l later, listens (Some 0) l -> undisturbed later -> listens (Some 0) (l ++ later).
Proof. intros l later L U. unfold listens in *. rewrite krun_fst. apply zero_keeps; [apply zero_run; reflexivity|exact L|exact U]. Qed.
Print Assumptions C146_zero_partial.

(** As long as it listens, a publisher that is lost is reported and the next one is
    accepted, wherever the reconnect thread is. *)
Theorem C146_next : forall max l, let s := fst (krun max new_state l) in listens max l -> connected s = true ->
  snd (krun max s [ALost; AAccept]) = [KTerminated; KAccepted] /\ connected (fst (krun max s [ALost])) = false /\
  listens max (l ++ [ALost; AAccept]) /\ connected (fst (krun max new_state (l ++ [ALost; AAccept]))) = true.
Proof. intros max l s L C. unfold listens. rewrite krun_fst. apply next_accepted; assumption. Qed.
Print Assumptions C146_next.

(** And nobody is dialled, with any MaxRetries, unless the reconnect thread had already
    tested that the subscriber was not listening. *)
Theorem C146_dials_partial : forall max l later, listens max l -> thread (fst (krun max new_state l)) <> Passed -> (forall auto ok, ~ In (ADial auto ok) later) ->
  count is_dialled (snd (krun max (fst (krun max new_state l)) later)) = 0.
Proof. intros max l later L T N. apply none_counted, shut_keeps; [split; [exact T|left; exact L]|exact N]. Qed.
Print Assumptions C146_dials_partial.

(** With any other MaxRetries but 0: a subscriber that listens because Dial failed stops
    listening by itself after its publisher was lost. *)
Theorem C146_stops_refuted : forall m, exists l later, listens (Some (S m)) l /\ undisturbed later /\ In AAccept later /\ ~ listens (Some (S m)) (l ++ later).
Proof.
  intros m. exists [ADial true false; AListen true], ([AAccept; ALost] ++ tries (S m) ++ tries 1). split; [reflexivity|]. split.
  - intros I. rewrite !in_app_iff in I. destruct I as [I|[I|I]]; [cbn in I; intuition discriminate|apply in_tries in I; discriminate..].
  - split; [left; reflexivity|]. unfold listens. rewrite app_assoc, krun_fst, krun_fst.
    change (fst (krun (Some (S m)) new_state ([ADial true false; AListen true] ++ [AAccept; ALost]))) with (KState true false true false Waits 0 0).
    rewrite refused by (intros k [= <-]; lia). cbn [fst]. rewrite Nat.add_0_l, gives_up. discriminate.
Qed.
Print Assumptions C146_stops_refuted.

(** If another publisher had connected meanwhile, what is done for a new connection is
    done again for that one. *)
Theorem C146_twice_refuted : forall m, exists l later, listens (Some (S m)) l /\ undisturbed later /\ count is_accepted (snd (krun (Some (S m)) (fst (krun (Some (S m)) new_state l)) later)) = 2 /\
  In KStarted (snd (krun (Some (S m)) (fst (krun (Some (S m)) new_state l)) later)).
Proof.
  intros m. exists [ADial true false; AListen true], ([AAccept; ALost; AAccept] ++ tries (S m) ++ tries 1). split; [reflexivity|]. split.
  - intros I. rewrite !in_app_iff in I. destruct I as [I|[I|I]]; [cbn in I; intuition discriminate|apply in_tries in I; discriminate..].
  - rewrite krun_app. cbn [fst snd].
    change (krun (Some (S m)) (fst (krun (Some (S m)) new_state [ADial true false; AListen true])) [AAccept; ALost; AAccept]) with (KState true true true false Waits 0 0, [KAccepted; KTerminated; KAccepted]).
    cbn [fst snd]. rewrite krun_app. rewrite refused by (intros k [= <-]; lia). cbn [fst snd]. rewrite Nat.add_0_l, starts_again. cbn [snd].
    split; [|rewrite !in_app_iff; right; right; left; reflexivity]. rewrite !count_app. change (count is_accepted [KAccepted; KTerminated; KAccepted]) with 2. change (count is_accepted [KStarted]) with 0.
    rewrite none_counted; [reflexivity|]. clear. induction (S m) as [|n IH]; constructor; [reflexivity|exact IH].
Qed.
Print Assumptions C146_twice_refuted.

(** With MaxRetries -1: a subscriber that listens since its connection was lost, and has
    a publisher, goes on trying to reconnect, and each attempt is refused. *)
Theorem C146_noise_refuted : forall n, exists l later, listens None l /\ connected (fst (krun None new_state l)) = true /\ undisturbed later /\
  count is_refused (snd (krun None (fst (krun None new_state l)) later)) = n /\ connected (fst (krun None new_state (l ++ later))) = true.
Proof.
  intros n. exists [ADial true true; ALost; AListen true; AAccept], (tries n). split; [reflexivity|]. split; [reflexivity|]. split; [intros I; apply in_tries in I; discriminate|].
  rewrite krun_fst. change (fst (krun None new_state [ADial true true; ALost; AListen true; AAccept])) with (KState true true true false Waits 0 0).
  rewrite refused by discriminate. cbn [fst snd connected]. split; [|reflexivity]. clear. unfold count. induction n as [|n IH]; [reflexivity|]. cbn. rewrite IH. reflexivity.
Qed.
Print Assumptions C146_noise_refuted.

(** The dial that was under way is made: the subscriber listens and is connected by it. *)
Example C146_passed_example : exists l, listens None l /\ thread (fst (krun None new_state l)) = Passed /\
  snd (krun None (fst (krun None new_state l)) [AReconnect true]) = [KDialled; KStarted].
Proof. exists [ADial true true; ALost; AReconnect false; AReconnect false; AListen true]. repeat split. Qed.
(** The hypotheses are met: publishers come and go, none is dialled. *)
Example C146_nonvacuous :
  let l := [ADial false true; ADisconnect; AListen true] in let later := [AAccept; ALost; AReconnect true; AAccept; AListen true; ADial false true] in
  plain (l ++ later) /\ listens (Some 3) l /\ undisturbed later /\ count is_accepted (snd (krun (Some 3) new_state (l ++ later))) = 2 /\
  (let l := [ADial true true; ALost; AListen true] in listens (Some 3) l /\ thread (fst (krun (Some 3) new_state l)) = Waits).
Proof. cbn. split; [intros ok H; cbn in H; intuition discriminate|]. split; [reflexivity|]. split; [intros H; cbn in H; intuition discriminate|]. repeat split. Qed.
