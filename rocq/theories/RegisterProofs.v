(** Proofs about which receiver is called. *)
From Coq Require Import List Bool.
From Verif Require Import RegisterModel RegisterSpec.
Import ListNotations.
Open Scope list_scope.

Lemma kind_eqb_spec a b : kind_eqb a b = true <-> a = b.
Proof. destruct a, b; cbn; split; congruence. Qed.
Lemma put_same {A} (m : kind -> A) k a : put m k a k = a.
Proof. unfold put. rewrite (proj2 (kind_eqb_spec k k) eq_refl). reflexivity. Qed.
Lemma put_other {A} (m : kind -> A) k a q : k <> q -> put m k a q = m q.
Proof. intros D. unfold put. destruct (kind_eqb k q) eqn:E; [apply kind_eqb_spec in E; congruence|reflexivity]. Qed.
Lemma after_snoc h c : after (h ++ [c]) = assign (after h) c.
Proof. unfold after. rewrite fold_left_app. reflexivity. Qed.
Definition kept (s : fields) (k : kind) : option receiver := if in_subscriber k then own s k else direct s k.
Lemma kept_registered k h r : registered k h r -> kept (after h) k = r.
Proof.
  induction 1 as [|h r|h q r0 r D _ IH|h r _ IH|h r _ IH].
  - destruct k; reflexivity.
  - rewrite after_snoc. unfold kept. cbn [assign]. destruct (in_subscriber k) eqn:E; cbn [own direct]; apply put_same.
  - rewrite after_snoc. rewrite <- IH. unfold kept. cbn [assign]. destruct (in_subscriber q) eqn:E, (in_subscriber k) eqn:E2; cbn [own direct]; try (apply put_other; exact D); reflexivity.
  - rewrite after_snoc. rewrite <- IH. unfold kept. cbn [assign own direct]. destruct k; reflexivity.
  - rewrite after_snoc. rewrite <- IH. unfold kept. cbn [assign own direct]. destruct k; reflexivity.
Qed.
Lemma registered_total k h : exists r, registered k h r.
Proof.
  induction h as [|c h (r & R)] using rev_ind; [eexists; constructor|]. destruct c as [q r0| |].
  - destruct (kind_eqb q k) eqn:E; [apply kind_eqb_spec in E; subst; eexists; apply r_now|]. exists r. apply r_other; [|exact R]. intros ->. rewrite (proj2 (kind_eqb_spec k k) eq_refl) in E. discriminate.
  - exists r. apply r_dial, R.
  - exists r. apply r_listen, R.
Qed.
Definition handled_kind (k : kind) : Prop := k = KMetadata \/ k = KStart \/ k = KConfig \/ k = KComplete.
Lemma handled_after k h : handled_kind k -> (In Dial h \/ In Listen h) -> handled (after h) k = true.
Proof.
  intros K. induction h as [|c h IH] using rev_ind; [intros [[]|[]]|]. intros I. rewrite after_snoc. destruct c as [q r| |]; cbn [assign].
  - assert (I' : In Dial h \/ In Listen h) by (destruct I as [I|I]; apply in_app_or in I as [I|[I|[]]]; try discriminate; auto).
    destruct (in_subscriber q); cbn [handled]; exact (IH I').
  - cbn [handled]. destruct K as [->|[->|[->| ->]]]; reflexivity.
  - cbn [handled]. destruct K as [->|[->|[->| ->]]]; reflexivity.
Qed.
Lemma established_after h : handled (after h) KEstablished = true <-> In Listen h.
Proof.
  induction h as [|c h IH] using rev_ind; [split; [discriminate|intros []]|]. rewrite after_snoc, in_app_iff. destruct c as [q r| |]; cbn [assign].
  - destruct (in_subscriber q); cbn [handled]; rewrite IH; cbn; intuition discriminate.
  - cbn [handled]. unfold put. cbn [kind_eqb]. rewrite IH. cbn. intuition discriminate.
  - cbn [handled]. unfold put. cbn [kind_eqb]. cbn. intuition.
Qed.
Lemma con_after h : In Dial h -> con_handled (after h) = true.
Proof.
  induction h as [|c h IH] using rev_ind; [intros []|]. rewrite after_snoc, in_app_iff. destruct c as [q r| |]; cbn [assign]; intros I.
  - destruct (in_subscriber q); cbn [con_handled]; apply IH; destruct I as [I|[I|[]]]; [exact I|discriminate|exact I|discriminate].
  - reflexivity.
  - cbn [con_handled]. apply IH. destruct I as [I|[I|[]]]; [exact I|discriminate].
Qed.
Lemma messages_after k h c h' : logger k -> (c = Dial \/ c = Listen) -> registers h' -> forall r, registered k h r -> direct (after (h ++ c :: h')) k = r.
Proof.
  intros L C R r G. induction h' as [|x h' IH] using rev_ind.
  - rewrite after_snoc. pose proof (kept_registered k h r G) as Q. unfold kept in Q. destruct C as [->| ->], L as [->| ->]; cbn in *; exact Q.
  - rewrite app_comm_cons, app_assoc, after_snoc. destruct (R x) as (q & r0 & ->); [apply in_or_app; right; left; reflexivity|].
    assert (R' : registers h') by (intros y Iy; apply R; apply in_or_app; left; exact Iy). specialize (IH R'). rewrite <- IH. cbn [assign].
    destruct (in_subscriber q) eqn:E; cbn [direct]; [reflexivity|]. apply put_other. intros ->. destruct L as [->| ->]; discriminate.
Qed.
Lemma con_error_after h h' : (forall c, In c h' -> c <> Dial) -> forall r, registered KError h r -> con_error (after (h ++ Dial :: h')) = r.
Proof.
  intros R r G. induction h' as [|x h' IH] using rev_ind.
  - rewrite after_snoc. pose proof (kept_registered KError h r G) as Q. unfold kept in Q. cbn in *. exact Q.
  - rewrite app_comm_cons, app_assoc, after_snoc. assert (R' : forall c, In c h' -> c <> Dial) by (intros y Iy; apply R; apply in_or_app; left; exact Iy). specialize (IH R'). rewrite <- IH.
    assert (N : x <> Dial) by (apply R; apply in_or_app; right; left; reflexivity). destruct x as [q r0| |]; cbn [assign]; [|congruence|reflexivity]. destruct (in_subscriber q); reflexivity.
Qed.
