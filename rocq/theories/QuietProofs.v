(** Proofs for C145. *)
From Coq Require Import String Lia ZArith.
From stdpp Require Import gmap.
From Verif Require Import Base BaseProofs FrameModel FrameSpec SubscriberModel SubscriberSpec SubscriberProofs SubscriberProofs4 SubscriberProofs5 SubscriberProofs6 SubscriberProofs7 SubscriberProofs8 SubscriberProofs9.
From Verif Require Import SessionModel SessionSpec SessionProofs SessionProofs2 SessionProofs5 SessionProofs7 QuietSpec.
Open Scope list_scope.
Open Scope Z_scope.

Lemma command_frame c d : command_byte (frame c d) = c.
Proof. unfold command_byte, frame. rewrite app_nth2; rewrite be_put_length; [reflexivity|lia]. Qed.
Definition mute (f : bytes) : Prop := ~ asks_for_data f.
Lemma mute_confirms f : confirms f -> mute f.
Proof. unfold confirms, mute, asks_for_data. cbn. intros H K. rewrite K in H. intuition discriminate. Qed.

Lemma mute_lift s k P s' ev : low (sn_ds s) P k -> (forall f, P f -> mute f) -> lift s k = Ok (s', ev) -> Forall mute (frames ev).
Proof.
  intros L R H. apply lift_inv in H as (d & e & K & _ & ->). rewrite frames_user. destruct (L _ _ K) as (_ & _ & _ & L4 & _).
  eapply List.Forall_impl; [|exact L4]. exact R.
Qed.
Lemma mute_request s s' ev : good (sn_ds s) -> RequestMetadata s = Ok (s', ev) -> Forall mute (frames ev).
Proof. intros G. apply (mute_lift _ _ _ _ _ (low_send _ _ _ G)). intros f <-. unfold mute, asks_for_data. rewrite command_frame. discriminate. Qed.

Lemma quiet_step E a s s' ev : cbc_ok (se_env E) -> spacket_ok a -> good (sn_ds s) -> starts a = false -> sact_step E s a = Ok (s', ev) ->
  automatic s = false \/ metadata_seen ev = [] -> Forall mute (frames ev).
Proof.
  intros Bc Bp G N H M. destruct a as [a c d|a c ok| | |cn d|pool p|pool p|f u| | | |i]; try discriminate; cbn [sact_step] in H.
  - unfold Lost in H. destruct (negb _); [injection H as <- <-; constructor|]. apply andthen_inv in H as (s1 & e1 & e2 & H & X & ->).
    injection X as <- <-. rewrite app_nil_r. apply lift_inv in H as (d & e & K & _ & ->). injection K as <- <-. constructor.
  - destruct (connected (sn_ds s)) eqn:C; [|injection H as <- <-; constructor]. revert H. apply (mute_lift _ _ confirms); [|exact mute_confirms].
    pose proof (low_packet (se_env E) (APacket pool p) (sn_ds s) p eq_refl Bp Bc G) as Q. cbn [act] in Q. rewrite C in Q. exact Q.
  - destruct (connected (sn_ds s)) eqn:C; [|injection H as <- <-; constructor]. revert H. apply (mute_lift _ _ confirms); [|exact mute_confirms].
    pose proof (low_packet (se_env E) (AUdp pool p) (sn_ds s) p eq_refl Bp Bc G) as Q. cbn [act] in Q. rewrite C in Q. exact Q.
  - revert H. apply (mute_lift _ _ _ _ _ (low_Unsubscribe _ G)). intros f <-. unfold mute, asks_for_data. rewrite command_frame. discriminate.
  - revert H. apply mute_request, G.
  - unfold Disconnect in H. apply lift_inv in H as (d & e & K & _ & ->). injection K as <- <-. constructor.
  - destruct (nth_error _ i) as [k|]; [|injection H as <- <-; constructor]. set (s0 := with_pending s _) in H.
    assert (G0 : good (sn_ds s0)) by exact G. assert (C0 : automatic s0 = automatic s) by reflexivity. clearbody s0. destruct k as [d| |m]; cbn [run_task] in H.
    + apply handle_steps in H as (ds & H1 & _ & ->); [|exact G0]. destruct M as [M|M]; [|congruence].
      unfold automatic in C0, M. rewrite C0, M. cbn [andb]. constructor.
    + apply andthen_inv in H as (s1 & e1 & e2 & X & H & ->). injection X as <- <-. rewrite frames_app. cbn [frames flat_map app].
      destruct (c_AutoRequestMetadata _); [exact (mute_request _ _ _ G0 H)|injection H as <- <-; constructor].
    + injection H as <- <-. constructor.
Qed.
Lemma starts_config a : starts a = false -> config_of a = None. Proof. destruct a; try discriminate; reflexivity. Qed.

Lemma quiet_run E st0 l : forall acts s ev s' ev', history E st0 acts s ev -> Forall spacket_ok l -> forallb (fun a => negb (starts a)) l = true ->
  srun E s l = Ok (s', ev') -> automatic s = false \/ metadata_seen ev' = [] -> Forall mute (frames ev').
Proof.
  induction l as [|a l IH]; intros acts s ev s' ev' H B N R M; [injection R as <- <-; constructor|].
  apply srun_cons in R as (s1 & e1 & e2 & A & R & ->). apply Forall_cons_1 in B as [B1 B2]. cbn [forallb] in N. apply andb_true_iff in N as [N1 N2]. apply negb_true_iff in N1.
  pose proof (proj1 (history_inv _ _ _ _ _ H)) as I. pose proof H as (Bc & Bp & R0).
  assert (H1 : history E st0 (acts ++ [a]) s1 (ev ++ e1)).
  { split; [exact Bc|]. split; [apply Forall_app; split; [exact Bp|repeat constructor; exact B1]|]. apply srun_app. exists s, ev, e1. split; [exact R0|]. split; [|reflexivity].
    cbn [srun]. unfold andthen. rewrite A. cbn. rewrite app_nil_r. reflexivity. }
  assert (C : automatic s1 = automatic s).
  { unfold automatic. destruct (config_kept_step E a s (starts_config _ N1) s1 e1 A) as (Q & _). rewrite Q. reflexivity. }
  assert (M' : (automatic s = false \/ metadata_seen e1 = []) /\ (automatic s1 = false \/ metadata_seen e2 = [])).
  { destruct M as [M|M]; [rewrite C; auto|]. unfold metadata_seen in *. rewrite flat_map_app in M. apply app_eq_nil in M as (M1 & M2). auto. }
  destruct M' as (M1 & M2). rewrite frames_app. apply Forall_app. split; [exact (quiet_step E a s s1 e1 Bc B1 (i_good _ _ _ I) N1 A M1)|].
  exact (IH _ _ _ _ _ H1 B2 N2 R M2).
Qed.

Lemma unsubscribe_validated s s' ev : good s -> validated s = true -> Unsubscribe s = Ok (s', ev) -> validated s' = true.
Proof.
  intros G V H. unfold Unsubscribe in H. destruct (_ || _); [injection H as <- <-; exact V|]. apply send_len in H as (wb & _ & -> & _); [exact V|apply G].
Qed.
