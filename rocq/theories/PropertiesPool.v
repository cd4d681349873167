(** C127: a delivered slice of measurements is the application's until it gives it back. *)
From Coq Require Import Lia.
From Verif Require Import Base CompactModel SubscriberModel PoolModel PoolSpec PoolProofs.

(** Whatever decoding goroutines and the application do elsewhere, what the
    application sees in a slice it holds changes only when it changes it itself. *)
Theorem C127_kept : forall acts1 s held p acts2 s' held',
  steps pstart [] acts1 s held -> In p held -> steps s held acts2 s' held' ->
  (forall a, In a acts2 -> ~ concerns p a) ->
  view s' p = view s p /\ In p held'.
Proof. intros acts1 s held p acts2 s' held' H0 HP H NC. exact (kept s held acts2 s' held' p H (inv_steps _ _ _ _ _ H0 inv_start) HP NC). Qed.
Print Assumptions C127_kept.

(** The slice that the callback gets contains the measurements of the goroutine's own
    packet, followed by what the slice from the pool held there before (or zeros), and
    is none of the slices the application holds. *)
Theorem C127_delivered : forall acts1 s held t got count ms s1 ev acts2 s2 held2 s3 ev3,
  steps pstart [] acts1 s held -> pstep s (PGet t got count ms) = Some (s1, ev) ->
  steps s1 held acts2 s2 held2 -> ~ In (PCall t) acts2 -> pstep s2 (PCall t) = Some (s3, ev3) ->
  exists p, ev3 = [PDelivered t p (ms ++ skipn (length ms) (destination (given s got) (Z.of_nat count)))] /\ ~ In p held2.
Proof. exact delivered. Qed.
Print Assumptions C127_delivered.

(** In particular a packet with as many measurements as it announces is delivered as it is. *)
Theorem C127_full : forall acts1 s held t got ms s1 ev acts2 s2 held2 s3 ev3,
  steps pstart [] acts1 s held -> pstep s (PGet t got (length ms) ms) = Some (s1, ev) ->
  steps s1 held acts2 s2 held2 -> ~ In (PCall t) acts2 -> pstep s2 (PCall t) = Some (s3, ev3) ->
  exists p, ev3 = [PDelivered t p ms] /\ ~ In p held2.
Proof.
  intros acts1 s held t got ms s1 ev acts2 s2 held2 s3 ev3 H0 G H2 NC C.
  destruct (delivered _ _ _ _ _ _ _ _ _ _ _ _ _ _ H0 G H2 NC C) as (p & E & N). exists p. split; [|exact N]. rewrite E. do 2 f_equal.
  rewrite skipn_all2, app_nil_r; [reflexivity|]. unfold destination. destruct (given s got) as [l|]; [destruct (_ <? _)%Z|]; rewrite ?repeat_length, ?firstn_length, Nat2Z.id; lia.
Qed.
Print Assumptions C127_full.

(** Two packets are decoded at the same time; the second goes to a slice that the
    application gave back, while the application keeps the first. *)
Definition sample (v : Z) : measurement := mkMeas GuidModel.Empty v 0 0.
Definition before : list paction :=
  [PGet 0 None 2 [sample 1; sample 2]; PWrite 0; PWrite 0; PCall 0; PGet 0 None 1 [sample 3]; PWrite 0; PCall 0; PPut 0].
Definition after : list paction :=
  [PGet 0 (Some 0%nat) 2 [sample 4]; PGet 1 None 1 [sample 5]; PWrite 1; PWrite 0; PCall 1; PStore 2 0 (sample 6)].
Example C127_nonvacuous :
  exists s s', steps pstart [] before s [1%nat] /\ steps s [1%nat] after s' [2%nat; 1%nat] /\
    view s 1 = [sample 3] /\ view s' 1 = [sample 3] /\ view s' 2 = [sample 6] /\
    (forall a, In a after -> ~ concerns 1 a) /\
    exists s3, pstep s' (PCall 0) = Some (s3, [PDelivered 0 0 [sample 4; sample 2]]).
Proof.
  destruct (prun true pstart [] before) as [[[s h] ev]|] eqn:R; [|vm_compute in R; discriminate R].
  assert (E : Some (p_arrays s, p_slices s, p_pool s, h) = option_map (fun r => (p_arrays (fst (fst r)), p_slices (fst (fst r)), p_pool (fst (fst r)), snd (fst r))) (prun true pstart [] before)) by (rewrite R; reflexivity).
  vm_compute in E. injection E as E1 E2 E3 E4. subst h.
  destruct (prun true s [1%nat] after) as [[[s' h'] ev']|] eqn:R'.
  2: { exfalso. injection R as <- _. vm_compute in R'. discriminate R'. }
  exists s, s'. split; [exact (prun_steps _ _ _ _ _ _ R)|]. injection R as <- <-. vm_compute in R'. injection R' as <- <- <-.
  split; [eapply prun_steps; vm_compute; reflexivity|]. split; [reflexivity|]. split; [reflexivity|]. split; [reflexivity|].
  split; [|eexists; vm_compute; reflexivity]. unfold after. intros a H. cbn in H.
  repeat (destruct H as [<-|H]; [cbn; discriminate || tauto|]). destruct H.
Qed.

(** The rule is needed: an application that gives the same slice back twice gets it
    for two packets, and the second replaces what it holds of the first. *)
Definition twice : list paction :=
  [PGet 0 None 1 [sample 1]; PWrite 0; PCall 0; PPut 0; PPut 0; PGet 0 (Some 0%nat) 1 [sample 2]; PWrite 0; PCall 0].
Theorem C127_rule_needed :
  exists s held ev, prun false pstart [] twice = Some (s, held, ev ++ [PDelivered 0 0 [sample 2]]) /\ In 0%nat held /\
    exists s' held' ev', prun false s held [PGet 1 (Some 0%nat) 1 [sample 3]; PWrite 1] = Some (s', held', ev') /\ view s 0 = [sample 2] /\ view s' 0 = [sample 3].
Proof.
  eexists; eexists; exists [PDelivered 0 0 [sample 1]]. split; [vm_compute; reflexivity|]. split; [left; reflexivity|].
  do 3 eexists. split; [vm_compute; reflexivity|]. split; vm_compute; reflexivity.
Qed.
Print Assumptions C127_rule_needed.
