(** What asks the publisher for data (C145). *)
From Coq Require Import String Lia ZArith.
From stdpp Require Import gmap.
From Verif Require ConnectorModel.
From Verif Require Import Base BaseProofs FrameModel FrameSpec SubscriberModel SubscriberSpec SubscriberProofs SubscriberProofs4 SubscriberProofs5 SubscriberProofs6 SubscriberProofs7 SubscriberProofs8 SubscriberProofs9.
From Verif Require Import SessionModel SessionSpec SessionProofs SessionProofs2 SessionProofs3 SessionProofs4 SessionProofs5 SessionProofs6 SessionProofs7 QuietSpec QuietProofs PropertiesSubscriber PropertiesSession.
Open Scope list_scope.
Open Scope Z_scope.

(** From any point of any history, an Unsubscribe for instance, as long as the
    application neither subscribes nor connects: no frame asks for data if the two
    automatic steps are not both configured.  Missing: the same with both, which is
    false of the code. *)
Theorem C145_silent_partial : forall E st0 acts s ev later s' ev' f, history E st0 acts s ev -> history E st0 (acts ++ later) s' (ev ++ ev') ->
  forallb (fun a => negb (starts a)) later = true -> automatic s = false -> In f (frames ev') -> ~ asks_for_data f.
Proof.
  intros E st0 acts s ev later s' ev' f H (_ & B & R) N A F. apply Forall_app in B as (_ & B).
  apply srun_app in R as (s1 & e1 & e2 & R1 & R2 & X). destruct H as (Bc & Bp & R0). rewrite R0 in R1. injection R1 as <- <-. apply app_inv_head in X as <-.
  pose proof (quiet_run E st0 later acts s ev s' ev' (conj Bc (conj Bp R0)) B N R2 (or_introl A)) as Q. rewrite List.Forall_forall in Q. exact (Q f F).
Qed.
Print Assumptions C145_silent_partial.

(** With any configuration: none does as long as no metadata reaches the application. *)
Theorem C145_metadata : forall E st0 acts s ev later s' ev' f, history E st0 acts s ev -> history E st0 (acts ++ later) s' (ev ++ ev') ->
  forallb (fun a => negb (starts a)) later = true -> metadata_seen ev' = [] -> In f (frames ev') -> ~ asks_for_data f.
Proof.
  intros E st0 acts s ev later s' ev' f H (_ & B & R) N A F. apply Forall_app in B as (_ & B).
  apply srun_app in R as (s1 & e1 & e2 & R1 & R2 & X). destruct H as (Bc & Bp & R0). rewrite R0 in R1. injection R1 as <- <-. apply app_inv_head in X as <-.
  pose proof (quiet_run E st0 later acts s ev s' ev' (conj Bc (conj Bp R0)) B N R2 (or_intror A)) as Q. rewrite List.Forall_forall in Q. exact (Q f F).
Qed.
Print Assumptions C145_metadata.

(** Otherwise an Unsubscribe lasts until the next metadata: with both automatic steps,
    whatever is received then is followed by the subscription request again. *)
Theorem C145_again : forall E s s1 ev1 d s2 ev2, reached E s -> automatic s = true -> connected (sn_ds s) = true -> validated (sn_ds s) = true ->
  sact_step E s SUnsubscribe = Ok (s1, ev1) -> handleMetadataReceived E s1 d = Ok (s2, ev2) -> In (subscribe_request (subscription (sn_ds s))) (frames ev2).
Proof.
  intros E s s1 ev1 d s2 ev2 (st0 & acts & ev & H) A C V U M. pose proof (i_good _ _ _ (proj1 (history_inv _ _ _ _ _ H))) as G.
  cbn [sact_step] in U. apply lift_inv in U as (d1 & e & U & -> & _). destruct (low_Unsubscribe _ G _ _ U) as (G1 & C1 & F1 & _).
  apply fixed_fields in F1 as (_ & S1). assert (V1 : validated d1 = true) by exact (unsubscribe_validated _ _ _ G V U).
  apply handle_steps in M as (ds & _ & _ & ->); [|exact G1]. unfold automatic in A. cbn [sn_config sn_ds with_pending with_ds]. unfold may. cbn [sn_ds with_pending with_ds].
  rewrite A, C1, C, V1, orb_true_r, S1. cbn [andb]. apply in_or_app. right. left. reflexivity.
Qed.
Print Assumptions C145_again.

(** "After Unsubscribe the publisher is not asked for data until the application
    subscribes or connects" is false: under the default configuration a change of the
    publisher's configuration is enough. *)
Definition ex_unsubscribed : list sact :=
  [SListen (str ":1") None true; SAccept; SPacket None [0x80; 6; 0; 0; 0; 0]; SPacket None [0x80; 1; 0; 0; 0; 0; 9]; STask 0; SUnsubscribe].
Definition ex_changed : list sact := [SPacket None [0x8A; 0; 0; 0; 0; 0]; STask 0; SPacket None [0x80; 1; 0; 0; 0; 0; 9]; STask 0].
Theorem C145_silent_refuted : exists E st0 acts s ev later s' ev' f, history E st0 (acts ++ [SUnsubscribe]) s ev /\ history E st0 ((acts ++ [SUnsubscribe]) ++ later) s' (ev ++ ev') /\
  forallb (fun a => negb (starts a)) later = true /\ sn_config s = NewConfig /\ In f (frames ev') /\ asks_for_data f.
Proof.
  destruct (run_to ex_unsubscribed (fun s ev => sn_config s = NewConfig /\ match srun ex_senv s ex_changed with Ok (s', ev') => exists f, In f (frames ev') /\ asks_for_data f | _ => False end)) as (s & ev & H & C & K).
  - repeat constructor; cbn; lia.
  - vm_compute. split; [reflexivity|]. eexists. split; [right; left; reflexivity|reflexivity].
  - destruct (srun ex_senv s ex_changed) as [[s' ev']| |] eqn:R; try contradiction. destruct K as (f & F & A).
    exists ex_senv, ex_set, (firstn 5 ex_unsubscribed), s, ev, ex_changed, s', ev', f. split; [exact H|]. split; [|auto]. destruct H as (Bc & Bp & R0).
    split; [exact Bc|]. split; [apply Forall_app; split; [exact Bp|repeat constructor; cbn; lia]|]. apply srun_app. exists s, ev, ev'. auto.
Qed.
Print Assumptions C145_silent_refuted.

(** The hypotheses are met: a subscriber that asked for data and unsubscribed goes on
    receiving, without asking again ([ex_quick] requests no metadata), and one with the
    default configuration is connected and validated when it unsubscribes. *)
Example C145_nonvacuous :
  (exists s ev, history ex_senv ex_set [SDial (str "a:1") (Some ex_quick) [ConnectorModel.Accepts]; SPacket None [0x80; 6; 0; 0; 0; 0]; SSubscribe [] None; SUnsubscribe] s ev /\
     automatic s = false /\ map command_byte (frames ev) = [6; 2; 2; 3] /\
     match srun ex_senv s [SPacket None [0x8A; 0; 0; 0; 0; 0]; STask 0; SRequestMetadata; SPacket None [0x80; 1; 0; 0; 0; 0; 9]; STask 0] with
     | Ok (_, ev') => map command_byte (frames ev') = [1] | _ => False end) /\
  (exists s ev, history ex_senv ex_set (firstn 5 ex_unsubscribed) s ev /\ automatic s = true /\ connected (sn_ds s) = true /\ validated (sn_ds s) = true /\
     map command_byte (frames ev) = [6; 1; 2]).
Proof. split; runs. Qed.
