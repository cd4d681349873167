(** Proofs for C147. *)
From Coq Require Import List Arith Lia.
From Verif Require Import ReadersModel ReadersSpec.
Import ListNotations.

Section proofs.
Context {A : Type}.
Implicit Types (s : rstate A) (l : list (ract A)).
(** What is still to be sent to [r]. *)
Definition left_for (r : nat) (s : rstate A) : list A := match sending s with Some (r', b) => if r' =? r then b else [] | None => [] end.
Definition sound (s : rstate A) : Prop := match sending s with Some (r, b) => made s = S r /\ b <> [] | None => True end.
Lemma returned_app r (a b : list (nat * A)) : returned r (a ++ b) = returned r a ++ returned r b.
Proof. unfold returned. rewrite filter_app, map_app. reflexivity. Qed.

Lemma step_sound s a s' : sound s -> rstep s a = Some s' -> sound s'.
Proof.
  unfold sound. intros H E. destruct s as [k w g c]. destruct a as [|b|r|]; cbn in *.
  - destruct w; [discriminate|]. injection E as <-. exact I.
  - destruct c; [discriminate|]. destruct w; [discriminate|]. destruct k as [|k], b as [|m b]; injection E as <-; cbn; auto. split; [reflexivity|discriminate].
  - destruct w as [[r' [|m rest]]|]; try discriminate. destruct (r' =? r); [|discriminate]. injection E as <-. cbn. destruct rest; [exact I|]. split; [apply H|discriminate].
  - destruct w; [discriminate|]. injection E as <-. exact I.
Qed.
Lemma run_sound l : forall s s', sound s -> rrun s l = Some s' -> sound s'.
Proof.
  induction l as [|a l IH]; intros s s' H E; [injection E as <-; exact H|]. cbn in E. destruct (rstep s a) as [s1|] eqn:S1; [|discriminate].
  eapply IH; [|exact E]. eapply step_sound; eauto.
Qed.
Lemma run_received r l : forall s s', sound s -> rrun s l = Some s' ->
  returned r (got s') ++ left_for r s' = returned r (got s) ++ left_for r s ++ received r (made s) l.
Proof.
  induction l as [|a l IH]; intros s s' H E; [injection E as <-; cbn; rewrite app_nil_r; reflexivity|].
  cbn [rrun] in E. destruct (rstep s a) as [s1|] eqn:S1; [|discriminate]. rewrite (IH s1 s' (step_sound _ _ _ H S1) E). clear IH E.
  destruct s as [k w g c]. destruct a as [|b|q|]; cbn [rstep made sending got shut received] in *.
  - destruct w; [discriminate|]. injection S1 as <-. reflexivity.
  - destruct c; [discriminate|]. destruct w; [discriminate|]. destruct k as [|k]; [injection S1 as <-; reflexivity|]. destruct b as [|m b]; injection S1 as <-; cbn; [destruct (k =? r); reflexivity|].
    unfold left_for. cbn. destruct (k =? r); reflexivity.
  - destruct w as [[q' [|m rest]]|]; try discriminate. destruct (q' =? q) eqn:Q; [|discriminate]. apply Nat.eqb_eq in Q as ->. injection S1 as <-. cbn [got made].
    rewrite returned_app. unfold left_for, returned. cbn [sending filter fst map snd]. destruct (q =? r) eqn:R; cbn [map snd].
    + rewrite <- !app_assoc. f_equal. cbn. f_equal. destruct rest; [reflexivity|]. rewrite R. reflexivity.
    + rewrite app_nil_r. f_equal. destruct rest; [reflexivity|]. rewrite R. reflexivity.
  - destruct w; [discriminate|]. injection S1 as <-. reflexivity.
Qed.
Lemma none_received r l : forall k, S r < k -> received (A := A) r k l = [].
Proof.
  induction l as [|a l IH]; intros k H; [reflexivity|]. destruct a; cbn; try (apply IH; lia). rewrite (proj2 (Nat.eqb_neq k (S r))) by lia. apply IH, H.
Qed.
Lemma reads_all r : forall (b : list A) k g c, b <> [] ->
  rrun (RState k (Some (r, b)) g c) (repeat (Next r) (length b)) = Some (RState k None (g ++ map (pair r) b) c).
Proof.
  induction b as [|m b IH]; intros k g c H; [contradiction H; reflexivity|]. cbn [length repeat rrun rstep sending made got shut]. rewrite Nat.eqb_refl.
  destruct b as [|m' b]; [reflexivity|]. rewrite IH by discriminate. rewrite <- app_assoc. reflexivity.
Qed.
End proofs.
