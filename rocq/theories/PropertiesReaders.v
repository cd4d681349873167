(** Readers of measurements, made one after the other (C147); [A] are the measurements. *)
From Coq Require Import List Arith Lia.
From Verif Require Import ReadersModel ReadersSpec ReadersProofs.
Import ListNotations.

(** What a reader returns are the measurements received while it was the last one made,
    in order, none twice; all of them once the delivering goroutine has nothing to send.
    Missing: those received since, which is false of the code. *)
Theorem C147_latest_partial : forall A (l : list (ract A)) s r, rrun no_readers l = Some s ->
  (exists rest, returned r (got s) ++ rest = received r 0 l) /\ (sending s = None -> returned r (got s) = received r 0 l).
Proof.
  intros A l s r H. pose proof (run_received r l no_readers s I H) as K. cbn in K. split; [eexists; exact K|]. intros N. rewrite <- K. unfold left_for. rewrite N, app_nil_r. reflexivity.
Qed.
Print Assumptions C147_latest_partial.

(** Once another reader has been made, an earlier one returns nothing more, whatever is
    received. *)
Theorem C147_replaced_refuted : forall A (l later : list (ract A)) s s' r, rrun no_readers l = Some s -> S r < made s -> rrun s later = Some s' ->
  returned r (got s') = returned r (got s).
Proof.
  intros A l later s s' r H M H'. assert (S0 : sound s) by (eapply run_sound; [|exact H]; exact I). pose proof (run_received r later s s' S0 H') as K.
  assert (E : left_for r s = []). { unfold left_for. unfold sound in S0. destruct (sending s) as [[q b]|]; [|reflexivity]. rewrite (proj2 (Nat.eqb_neq q r)) by lia. reflexivity. }
  rewrite E, none_received, !app_nil_r in K by exact M.
  assert (X : forall a b c : list A, a ++ b = c -> length a >= length c -> a = c).
  { intros a b c <-. rewrite app_length. intros Y. destruct b; [rewrite app_nil_r; reflexivity|cbn in Y; lia]. }
  assert (P : exists g, got s' = got s ++ g).
  { clear - H'. revert s H'. induction later as [|a later IH]; intros s H'; [injection H' as <-; exists []; rewrite app_nil_r; reflexivity|]. cbn [rrun] in H'.
    destruct (rstep s a) as [s1|] eqn:S1; [|discriminate]. apply IH in H' as (g & G). destruct s as [k w h c]. destruct a as [|b|q|]; cbn in S1.
    - destruct w; [discriminate|]. injection S1 as <-. eauto.
    - destruct c; [discriminate|]. destruct w; [discriminate|]. destruct k, b; injection S1 as <-; eauto.
    - destruct w as [[q' [|m rest]]|]; try discriminate. destruct (q' =? q); [|discriminate]. injection S1 as <-. cbn in G. rewrite <- app_assoc in G. eauto.
    - destruct w; [discriminate|]. injection S1 as <-. eauto. }
  destruct P as (g & P). rewrite P, returned_app in K |- *. apply (X _ _ _ K). rewrite app_length. lia.
Qed.
Print Assumptions C147_replaced_refuted.

(** A reader cannot be given up: while a measurement waits to be read by it, no reader is
    made, no packet handled and no Disconnect completed, until that one is read. *)
Theorem C147_given_up_refuted : forall A (l : list (ract A)) s r b, rrun no_readers l = Some s -> sending s = Some (r, b) ->
  forall a, a <> Next r -> rstep s a = None.
Proof.
  intros A l s r b H W a N. destruct s as [k w g c]. cbn in W. subst w. destruct a as [|b'|q|]; cbn; try reflexivity; [destruct c; reflexivity|].
  destruct b as [|m b]; [reflexivity|]. destruct (r =? q) eqn:Q; [|reflexivity]. apply Nat.eqb_eq in Q as <-. contradiction N. reflexivity.
Qed.
Print Assumptions C147_given_up_refuted.

(** Reading what is left of the batch is enough for all of them to go on. *)
Theorem C147_read_on : forall A (l : list (ract A)) s r b, rrun no_readers l = Some s -> sending s = Some (r, b) ->
  exists s', rrun s (repeat (Next r) (length b)) = Some s' /\ returned r (got s') = returned r (got s) ++ b /\
    rstep s' Make <> None /\ rstep s' Shut <> None /\ (shut s = false -> forall b', rstep s' (Batch b') <> None).
Proof.
  intros A l s r b H W. assert (S0 : sound s) by (eapply run_sound; [|exact H]; exact I). unfold sound in S0. rewrite W in S0. destruct s as [k w g c]. cbn in W, S0. subst w.
  eexists. split; [apply reads_all, S0|]. split.
  - cbn [got]. rewrite returned_app. f_equal. unfold returned. clear. induction b as [|m b IH]; [reflexivity|]. cbn. rewrite Nat.eqb_refl. cbn. f_equal. exact IH.
  - split; [discriminate|]. split; [discriminate|]. cbn. intros -> b'. destruct k, b'; discriminate.
Qed.
Print Assumptions C147_read_on.

(** "A reader returns every measurement received since it was made" is false. *)
Theorem C147_since_refuted : forall A (m : A), exists l s, rrun no_readers l = Some s /\ sending s = None /\ since 0 0 l = [m] /\ returned 0 (got s) = [].
Proof. intros A m. exists [Make; Make; Batch [m]; Next 1]. eexists. split; [reflexivity|]. repeat split. Qed.
Print Assumptions C147_since_refuted.

(** The hypotheses are met. *)
Example C147_nonvacuous : exists s s', rrun no_readers [Batch [0]; Make; Batch [1; 2]; Next 0; Next 0; Make; Batch [3; 4]; Next 1] = Some s /\
  returned 0 (got s) = [1; 2] /\ returned 1 (got s) = [3] /\ made s = 2 /\ sending s = Some (1, [4]) /\ rrun s [Next 1; Batch [5]; Next 1; Shut] = Some s' /\ returned 1 (got s') = [3; 4; 5].
Proof. eexists _, _. split; [reflexivity|]. repeat split. Qed.
