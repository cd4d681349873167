(** Proofs about the three callback locks. *)
From Coq Require Import List Bool Arith Lia.
From Verif Require Import ConcModel ConcProofs LocksModel LocksSpec.
Import ListNotations.
Open Scope list_scope.

Lemma lock_eqb_spec a b : lock_eqb a b = true <-> a = b.
Proof. destruct a, b; cbn; split; congruence. Qed.
Lemma lock_eqb_refl a : lock_eqb a a = true.
Proof. destruct a; reflexivity. Qed.
Lemma has_in l w g : has l w g = true <-> In (l, w) (held g).
Proof.
  unfold has. rewrite existsb_exists. split.
  - intros ([k b] & I & E). cbn [fst snd] in E. apply andb_prop in E as (E1 & E2). apply lock_eqb_spec in E1. apply eqb_prop in E2. subst. exact I.
  - intros I. exists (l, w). split; [exact I|]. cbn [fst snd]. rewrite lock_eqb_refl, eqb_reflx. reflexivity.
Qed.
Lemma drop_in l w h p : In p (drop l w h) -> In p h.
Proof. induction h as [|q h IH]; cbn [drop]; [auto|]. destruct (_ && _); [right; assumption|]. intros [E|I]; [left; exact E|right; auto]. Qed.
Lemma existsb_nth {A} (f : A -> bool) s i g : nth_error s i = Some g -> f g = true -> existsb f s = true.
Proof. intros N F. apply existsb_exists. exists g. split; [exact (nth_error_In _ _ N)|exact F]. Qed.
Lemma existsb_false_nth {A} (f : A -> bool) s i g : existsb f s = false -> nth_error s i = Some g -> f g = false.
Proof. intros E N. destruct (f g) eqn:F; [|reflexivity]. rewrite (existsb_nth f s i g N F) in E. discriminate. Qed.

(** ** Exclusion *)
Definition writer (l : lock) (g : gor) : bool := has l true g || wants l g.
Record excl (s : list gor) : Prop := Excl {
  one : forall l i j gi gj, nth_error s i = Some gi -> nth_error s j = Some gj -> writer l gi = true -> writer l gj = true -> i = j;
  alone : forall l i j gi gj, nth_error s i = Some gi -> nth_error s j = Some gj -> has l true gi = true -> has l false gj = true -> False
}.
Lemma excl_init progs : excl (ginit progs).
Proof.
  assert (H : forall i g, nth_error (ginit progs) i = Some g -> held g = [] /\ announced g = false).
  { intros i g N. unfold ginit in N. rewrite nth_error_map in N. destruct (nth_error progs i); [|discriminate]. injection N as <-. auto. }
  split; intros l i j gi gj Ni Nj A B; destruct (H _ _ Ni) as (H1 & H2); exfalso; revert A; unfold writer, wants, has; rewrite H1, ?H2; cbn; discriminate.
Qed.
(** A goroutine that changed so that it is a writer, has a lock for writing or for
    reading only where it was before *)
Lemma excl_less s i g g' : excl s -> nth_error s i = Some g ->
  (forall l, writer l g' = true -> writer l g = true) -> (forall l w, has l w g' = true -> has l w g = true) -> excl (set_nth s i g').
Proof.
  intros [O A] N W R.
  assert (P : forall j gj, nth_error (set_nth s i g') j = Some gj -> exists gj0, nth_error s j = Some gj0 /\ (forall l, writer l gj = true -> writer l gj0 = true) /\ (forall l w, has l w gj = true -> has l w gj0 = true)).
  { intros j gj Nj. destruct (Nat.eq_dec i j) as [<-|D].
    - rewrite (set_nth_same _ _ _ _ N) in Nj. injection Nj as <-. eauto.
    - rewrite (set_nth_other _ _ _ _ D) in Nj. exists gj. auto. }
  split; intros l j k gj gk Nj Nk X Y; destruct (P _ _ Nj) as (a & Na & Wa & Ra); destruct (P _ _ Nk) as (b & Nb & Wb & Rb).
  - exact (O l j k a b Na Nb (Wa _ X) (Wb _ Y)).
  - exact (A l j k a b Na Nb (Ra _ _ X) (Rb _ _ Y)).
Qed.
Lemma has_cons k w h b r l v : has l v (Gor ((k, w) :: h) b r) = (lock_eqb k l && Bool.eqb w v) || has l v (Gor h b r).
Proof. reflexivity. Qed.
Lemma has_todo h b r b' r' l v : has l v (Gor h b r) = has l v (Gor h b' r').
Proof. reflexivity. Qed.
Lemma excl_step s i s' : excl s -> gstep s i = Some s' -> excl s'.
Proof.
  intros E. unfold gstep. destruct (nth_error s i) as [[h b t]|] eqn:N; [|discriminate]. cbn [todo held announced].
  destruct t as [|[k|k|k|k|f|f|w] r]; [discriminate| | | | | | |].
  - destruct (existsb _ s) eqn:Q; [discriminate|]. intros [= <-].
    assert (NW : forall j gj, nth_error s j = Some gj -> writer k gj = false) by (intros j gj Nj; exact (existsb_false_nth _ _ _ _ Q Nj)).
    destruct E as [O A]. split; intros l j j' gj gj' Nj Nj' X Y.
    + assert (P : forall m gm, nth_error (set_nth s i (Gor ((k, false) :: h) false r)) m = Some gm -> writer l gm = true -> exists g0, nth_error s m = Some g0 /\ writer l g0 = true).
      { intros m gm Nm Wm. destruct (Nat.eq_dec i m) as [<-|D]; [|rewrite (set_nth_other _ _ _ _ D) in Nm; eauto].
        rewrite (set_nth_same _ _ _ _ N) in Nm. injection Nm as <-. eexists. split; [exact N|]. unfold writer in *. rewrite has_cons in Wm. cbn [Bool.eqb] in Wm. rewrite andb_false_r in Wm.
        unfold wants in Wm. cbn [announced andb] in Wm. rewrite orb_false_r in Wm. cbn [orb] in Wm. rewrite (has_todo h b (RL k :: r) false r). rewrite Wm. reflexivity. }
      destruct (P _ _ Nj X) as (a & Na & Wa). destruct (P _ _ Nj' Y) as (c & Nc & Wc). exact (O l j j' a c Na Nc Wa Wc).
    + assert (X0 : exists g0, nth_error s j = Some g0 /\ has l true g0 = true).
      { destruct (Nat.eq_dec i j) as [<-|D]; [|rewrite (set_nth_other _ _ _ _ D) in Nj; eauto].
        rewrite (set_nth_same _ _ _ _ N) in Nj. injection Nj as <-. eexists. split; [exact N|]. rewrite has_cons in X. cbn [Bool.eqb] in X. rewrite andb_false_r in X. exact X. }
      destruct X0 as (g0 & N0 & X0). destruct (Nat.eq_dec i j') as [<-|D]; [|rewrite (set_nth_other _ _ _ _ D) in Nj'; exact (A l j j' g0 gj' N0 Nj' X0 Y)].
      rewrite (set_nth_same _ _ _ _ N) in Nj'. injection Nj' as <-. rewrite has_cons in Y. apply orb_prop in Y as [Y|Y]; [|exact (A l j i g0 _ N0 N X0 Y)].
      apply andb_prop in Y as (Y & _). apply lock_eqb_spec in Y. subst l. specialize (NW _ _ N0). unfold writer in NW. rewrite X0 in NW. discriminate.
  - destruct (has k false _); [|discriminate]. intros [= <-]. apply (excl_less s i _ _ E N).
    + intros l. unfold writer, wants. cbn [announced andb]. rewrite orb_false_r. intros H. apply has_in in H. cbn [held] in H. apply drop_in in H. apply orb_true_intro. left. apply has_in. exact H.
    + intros l w H. apply has_in in H. apply has_in. exact (drop_in _ _ _ _ H).
  - destruct b.
    + destruct (existsb _ s) eqn:Q; [discriminate|]. intros [= <-].
      assert (NR : forall j gj, nth_error s j = Some gj -> has k false gj = false) by (intros j gj Nj; exact (existsb_false_nth _ _ _ _ Q Nj)).
      assert (WK : writer k (Gor h true (WL k :: r)) = true) by (unfold writer, wants; cbn [announced todo andb]; rewrite lock_eqb_refl; apply orb_true_r).
      destruct E as [O A].
      assert (P : forall l m gm, nth_error (set_nth s i (Gor ((k, true) :: h) false r)) m = Some gm -> writer l gm = true -> exists g0, nth_error s m = Some g0 /\ writer l g0 = true).
      { intros l m gm Nm Wm. destruct (Nat.eq_dec i m) as [<-|D]; [|rewrite (set_nth_other _ _ _ _ D) in Nm; eauto].
        rewrite (set_nth_same _ _ _ _ N) in Nm. injection Nm as <-. eexists. split; [exact N|]. unfold writer in Wm. rewrite has_cons in Wm.
        apply orb_prop in Wm as [Wm|Wm]; [apply orb_prop in Wm as [Wm|Wm]|].
        - apply andb_prop in Wm as (Wm & _). apply lock_eqb_spec in Wm. subst l. exact WK.
        - unfold writer. rewrite (has_todo h true (WL k :: r) false r), Wm. reflexivity.
        - unfold wants in Wm. cbn [announced andb] in Wm. discriminate. }
      split; intros l j j' gj gj' Nj Nj' X Y.
      * destruct (P _ _ _ Nj X) as (a & Na & Wa). destruct (P _ _ _ Nj' Y) as (c & Nc & Wc). exact (O l j j' a c Na Nc Wa Wc).
      * assert (Y0 : exists g0, nth_error s j' = Some g0 /\ has l false g0 = true).
        { destruct (Nat.eq_dec i j') as [<-|D]; [|rewrite (set_nth_other _ _ _ _ D) in Nj'; eauto].
          rewrite (set_nth_same _ _ _ _ N) in Nj'. injection Nj' as <-. eexists. split; [exact N|]. rewrite has_cons in Y. cbn [Bool.eqb] in Y. rewrite andb_false_r in Y. exact Y. }
        destruct Y0 as (g0 & N0 & Y0). destruct (Nat.eq_dec i j) as [<-|D]; [|rewrite (set_nth_other _ _ _ _ D) in Nj; exact (A l j j' gj g0 Nj N0 X Y0)].
        rewrite (set_nth_same _ _ _ _ N) in Nj. injection Nj as <-. rewrite has_cons in X. apply orb_prop in X as [X|X]; [|exact (A l i j' _ g0 N N0 X Y0)].
        apply andb_prop in X as (X & _). apply lock_eqb_spec in X. subst l. rewrite (NR _ _ N0) in Y0. discriminate.
    + destruct (existsb _ s) eqn:Q; [discriminate|]. intros [= <-].
      assert (NW : forall j gj, nth_error s j = Some gj -> writer k gj = false) by (intros j gj Nj; exact (existsb_false_nth _ _ _ _ Q Nj)).
      destruct E as [O A].
      assert (P : forall l m gm, nth_error (set_nth s i (Gor h true (WL k :: r))) m = Some gm -> writer l gm = true -> (l = k /\ m = i) \/ exists g0, nth_error s m = Some g0 /\ writer l g0 = true).
      { intros l m gm Nm Wm. destruct (Nat.eq_dec i m) as [<-|D]; [|rewrite (set_nth_other _ _ _ _ D) in Nm; eauto].
        rewrite (set_nth_same _ _ _ _ N) in Nm. injection Nm as <-. unfold writer, wants in Wm. cbn [announced todo andb] in Wm.
        apply orb_prop in Wm as [Wm|Wm]; [|apply lock_eqb_spec in Wm; auto].
        right. eexists. split; [exact N|]. unfold writer. rewrite (has_todo h false (WL k :: r) true (WL k :: r)), Wm. reflexivity. }
      assert (R : forall l w m gm, nth_error (set_nth s i (Gor h true (WL k :: r))) m = Some gm -> has l w gm = true -> exists g0, nth_error s m = Some g0 /\ has l w g0 = true).
      { intros l w m gm Nm Wm. destruct (Nat.eq_dec i m) as [<-|D]; [|rewrite (set_nth_other _ _ _ _ D) in Nm; eauto].
        rewrite (set_nth_same _ _ _ _ N) in Nm. injection Nm as <-. eexists. split; [exact N|]. exact Wm. }
      split; intros l j j' gj gj' Nj Nj' X Y.
      * destruct (P _ _ _ Nj X) as [(-> & ->)|(a & Na & Wa)]; destruct (P _ _ _ Nj' Y) as [(L & M)|(c & Nc & Wc)].
        -- auto.
        -- rewrite (NW _ _ Nc) in Wc. discriminate.
        -- subst l. rewrite (NW _ _ Na) in Wa. discriminate.
        -- exact (O l j j' a c Na Nc Wa Wc).
      * destruct (R _ _ _ _ Nj X) as (a & Na & Wa). destruct (R _ _ _ _ Nj' Y) as (c & Nc & Wc). exact (A l j j' a c Na Nc Wa Wc).
  - destruct (has k true _); [|discriminate]. intros [= <-]. apply (excl_less s i _ _ E N).
    + intros l. unfold writer, wants. cbn [announced andb]. rewrite orb_false_r. intros H. apply has_in in H. cbn [held] in H. apply drop_in in H. apply orb_true_intro. left. apply has_in. exact H.
    + intros l w H. apply has_in in H. apply has_in. exact (drop_in _ _ _ _ H).
  - intros [= <-]. apply (excl_less s i _ _ E N); [|auto]. intros l. unfold writer, wants. cbn [announced andb]. rewrite orb_false_r. intros H. apply orb_true_intro. left. exact H.
  - intros [= <-]. apply (excl_less s i _ _ E N); [|auto]. intros l. unfold writer, wants. cbn [announced andb]. rewrite orb_false_r. intros H. apply orb_true_intro. left. exact H.  - destruct (nth_error s w) as [[hw bw [|aw rw]]|]; try discriminate. intros [= <-]. apply (excl_less s i _ _ E N); [|auto]. intros l. unfold writer, wants. cbn [announced andb]. rewrite orb_false_r. intros H. apply orb_true_intro. left. exact H.
Qed.

(** ** Order *)
Definition rank (l : lock) : nat := match l with Con => 0 | Ds => 1 | Sb => 2 end.
Definition above (h : list (lock * bool)) (k : lock) : Prop := Forall (fun p => rank (fst p) < rank k) h.
Fixpoint ordered (h : list (lock * bool)) (l : list act) : Prop :=
  match l with
  | [] => h = []
  | RL k :: r => above h k /\ ordered ((k, false) :: h) r
  | WL k :: r => above h k /\ ordered ((k, true) :: h) r
  | RU k :: r => In (k, false) h /\ ordered (drop k false h) r
  | WU k :: r => In (k, true) h /\ ordered (drop k true h) r
  | Use _ :: r | Assign _ :: r => ordered h r
  | Wait _ :: _ => False
  end.
Definition in_order (g : gor) : Prop := ordered (held g) (todo g).
Lemma ordered_step s i s' : Forall in_order s -> gstep s i = Some s' -> Forall in_order s'.
Proof.
  intros F. unfold gstep. destruct (nth_error s i) as [[h b t]|] eqn:N; [|discriminate]. cbn [todo held announced].
  pose proof (nth_error_Forall _ _ _ _ F N) as G. unfold in_order in G. cbn [held todo] in G.
  destruct t as [|[k|k|k|k|f|f|w] r]; [discriminate| | | | | | |]; cbn [ordered] in G.
  - destruct (existsb _ s); [discriminate|]. intros [= <-]. apply Forall_set; [exact F|]. exact (proj2 G).
  - destruct (has k false _); [|discriminate]. intros [= <-]. apply Forall_set; [exact F|]. exact (proj2 G).
  - destruct b; (destruct (existsb _ s); [discriminate|]); intros [= <-]; (apply Forall_set; [exact F|]); [exact (proj2 G)|exact G].
  - destruct (has k true _); [|discriminate]. intros [= <-]. apply Forall_set; [exact F|]. exact (proj2 G).
  - intros [= <-]. apply Forall_set; [exact F|]. exact G.
  - intros [= <-]. apply Forall_set; [exact F|]. exact G.  - destruct G.
Qed.
Definition moves (s : list gor) : Prop := exists i s', gstep s i = Some s'.
Definition next_above (n : nat) (g : gor) : Prop := match todo g with RL k :: _ | WL k :: _ => 3 <= rank k + n | _ => True end.
Lemma chase s : Forall in_order s -> forall n i g, nth_error s i = Some g -> todo g <> [] -> next_above n g -> moves s.
Proof.
  intros F. induction n as [|n IH]; intros i [h b t] N T A; unfold next_above in A; cbn [todo] in *.
  all: pose proof (nth_error_Forall _ _ _ _ F N) as G; unfold in_order in G; cbn [held todo] in G.
  all: assert (St : forall s', gstep s i = Some s' -> moves s) by (intros s' Q; exists i, s'; exact Q).
  all: unfold gstep in St; rewrite N in St; cbn [todo held announced] in St.
  all: destruct t as [|[k|k|k|k|f|f|w] r]; [congruence| | | | | | |]; cbn [ordered] in G.
  all: try (destruct G; fail).
  all: try (eapply St; reflexivity).
  all: try (destruct G as (I & _); rewrite (proj2 (has_in _ _ (Gor h b _)) I) in St; eapply St; reflexivity).
  - exfalso. destruct k; cbn in A; lia.
  - exfalso. destruct k; cbn in A; lia.
  - assert (H : forall g0 w, In g0 s -> has k w g0 = true -> moves s).
    { intros g0 w I0 H. apply has_in in H. apply In_nth_error in I0 as (j & Nj). pose proof (nth_error_Forall _ _ _ _ F Nj) as Gj. unfold in_order in Gj.
      assert (Tj : todo g0 <> []) by (intros Z0; rewrite Z0 in Gj; cbn [ordered] in Gj; rewrite Gj in H; destruct H).
      apply (IH j g0 Nj Tj). unfold next_above. destruct (todo g0) as [|[q|q|q|q|f|f|w0] r0]; auto; cbn [ordered] in Gj; destruct Gj as (Ab & _);
        unfold above in Ab; rewrite List.Forall_forall in Ab; specialize (Ab _ H); cbn [fst] in Ab; lia. }
    destruct (existsb _ s) eqn:Q in St; [|eapply St; reflexivity]. apply existsb_exists in Q as (g0 & I0 & W). apply orb_prop in W as [W|W]; [exact (H g0 true I0 W)|].
    unfold wants in W. apply andb_prop in W as (W1 & W2). destruct g0 as [h0 b0 t0]. cbn [announced todo] in W1, W2. subst b0.
    destruct t0 as [|[q|q|q|q|f|f|w0] r0]; try discriminate. apply lock_eqb_spec in W2. subst q.
    destruct (existsb (has k false) s) eqn:Q2; [apply existsb_exists in Q2 as (g1 & I1 & W1); exact (H g1 false I1 W1)|].
    apply In_nth_error in I0 as (j & Nj). exists j. unfold gstep. rewrite Nj. cbn [todo announced held]. rewrite Q2. eexists. reflexivity.
  - assert (H : forall g0 w, In g0 s -> has k w g0 = true -> moves s).
    { intros g0 w I0 H. apply has_in in H. apply In_nth_error in I0 as (j & Nj). pose proof (nth_error_Forall _ _ _ _ F Nj) as Gj. unfold in_order in Gj.
      assert (Tj : todo g0 <> []) by (intros Z0; rewrite Z0 in Gj; cbn [ordered] in Gj; rewrite Gj in H; destruct H).
      apply (IH j g0 Nj Tj). unfold next_above. destruct (todo g0) as [|[q|q|q|q|f|f|w0] r0]; auto; cbn [ordered] in Gj; destruct Gj as (Ab & _);
        unfold above in Ab; rewrite List.Forall_forall in Ab; specialize (Ab _ H); cbn [fst] in Ab; lia. }
    destruct b.
    + destruct (existsb _ s) eqn:Q in St; [|eapply St; reflexivity]. apply existsb_exists in Q as (g0 & I0 & W). exact (H g0 false I0 W).
    + destruct (existsb _ s) eqn:Q in St; [|eapply St; reflexivity]. apply existsb_exists in Q as (g0 & I0 & W). apply orb_prop in W as [W|W]; [exact (H g0 true I0 W)|].
      unfold wants in W. apply andb_prop in W as (W1 & W2). destruct g0 as [h0 b0 t0]. cbn [announced todo] in W1, W2. subst b0.
      destruct t0 as [|[q|q|q|q|f|f|w0] r0]; try discriminate. apply lock_eqb_spec in W2. subst q.
      destruct (existsb (has k false) s) eqn:Q2; [apply existsb_exists in Q2 as (g1 & I1 & W1); exact (H g1 false I1 W1)|].
      apply In_nth_error in I0 as (j & Nj). exists j. unfold gstep. rewrite Nj. cbn [todo announced held]. rewrite Q2. eexists. reflexivity.
Qed.
Definition cost (g : gor) : nat := 2 * length (todo g) - if announced g then 1 else 0.
Definition total (s : list gor) : nat := list_sum (map cost s).
Lemma total_set s : forall i g g', nth_error s i = Some g -> cost g' < cost g -> total (set_nth s i g') < total s.
Proof.
  unfold total. induction s as [|x s IH]; intros [|i] g g' N C; cbn [nth_error] in N; try discriminate; cbn [set_nth map list_sum fold_right].
  - injection N as ->. fold (list_sum (map cost s)). lia.
  - specialize (IH i g g' N C). unfold list_sum in IH. lia.
Qed.
Lemma total_step s i s' : gstep s i = Some s' -> total s' < total s.
Proof.
  unfold gstep. destruct (nth_error s i) as [[h b t]|] eqn:N; [|discriminate]. cbn [todo held announced].
  destruct t as [|[k|k|k|k|f|f|w] r]; [discriminate| | | | | | |].
  3: destruct b.
  all: try (destruct (existsb _ s); [discriminate|]). all: try (destruct (has _ _ _); [|discriminate]). all: try (destruct (nth_error s w) as [[hw bw [|aw rw]]|]; try discriminate).
  all: intros [= <-]; eapply total_set; [exact N|]; unfold cost; cbn [todo announced length]; try destruct b; lia.
Qed.
Lemma finished_dec s : finished s \/ exists i g, nth_error s i = Some g /\ todo g <> [].
Proof.
  induction s as [|g s IH]; [left; constructor|]. destruct (todo g) eqn:T.
  - destruct IH as [IH|(i & g0 & N & T0)]; [left; constructor; assumption|right; exists (S i), g0; auto].
  - right. exists 0, g. split; [reflexivity|]. rewrite T. discriminate.
Qed.
Lemma ordered_finishes : forall n s, total s <= n -> Forall in_order s -> exists more, finished (run gstep s more).
Proof.
  induction n as [|n IH]; intros s C F; (destruct (finished_dec s) as [D|(i & g & N & T)]; [exists []; exact D|]);
    assert (M : moves s) by (apply (chase s F 3 i g N T); unfold next_above; destruct (todo g) as [|[]]; auto; lia);
    destruct M as (j & s' & S'); pose proof (total_step _ _ _ S') as L; [lia|].
  destruct (IH s' ltac:(lia) (ordered_step _ _ _ F S')) as (more & D). exists (j :: more). cbn [run]. rewrite S'. exact D.
Qed.
Lemma run_keeps (P : list gor -> Prop) : (forall s i s', P s -> gstep s i = Some s' -> P s') -> forall sched s, P s -> P (run gstep s sched).
Proof. intros K. induction sched as [|i sched IH]; intros s H; [exact H|]. cbn [run]. apply IH. destruct (gstep s i) eqn:G; [exact (K _ _ _ H G)|exact H]. Qed.
Lemma ordered_completes progs sched : Forall (ordered []) progs -> exists more, finished (run gstep (ginit progs) (sched ++ more)).
Proof.
  intros F. assert (F0 : Forall in_order (ginit progs)) by (unfold ginit; rewrite List.Forall_forall in *; intros g I; apply in_map_iff in I as (p & <- & I); exact (F p I)).
  pose proof (run_keeps (Forall in_order) ordered_step sched _ F0) as F1. destruct (ordered_finishes _ _ (le_n _) F1) as (more & D). exists more. rewrite run_app. exact D.
Qed.

(** ** What the library does is in order *)
Lemma ordered_app a b : forall h, ordered h a -> ordered [] b -> ordered h (a ++ b).
Proof.
  induction a as [|x a IH]; intros h A B; [cbn [ordered] in A; subst; exact B|]. cbn [app]. destruct x; cbn [ordered] in *.
  all: try (destruct A as (A1 & A2); split; [exact A1|]; auto). all: auto.
Qed.
Fixpoint over (k : lock) (l : list act) : Prop :=
  match l with [] => True | RL q :: r | WL q :: r => rank k < rank q /\ over k r | _ :: r => over k r end.
Lemma drop_app l w h x : In (l, w) h -> drop l w (h ++ x) = drop l w h ++ x.
Proof.
  induction h as [|p h IH]; [intros []|]. intros I. cbn [app drop]. destruct (_ && _) eqn:E; [reflexivity|]. cbn [app]. f_equal. apply IH.
  destruct I as [->|I]; [|exact I]. cbn [fst snd] in E. rewrite lock_eqb_refl, eqb_reflx in E. discriminate.
Qed.
Lemma ordered_inside k w a rest : forall h, ordered h a -> over k a -> ordered [(k, w)] rest -> ordered (h ++ [(k, w)]) (a ++ rest).
Proof.
  induction a as [|x a IH]; intros h A O R; [cbn [ordered] in A; subst; exact R|]. cbn [app]. destruct x as [q|q|q|q|f|f|w0]; cbn [ordered over] in *.
  - destruct A as (A1 & A2), O as (O1 & O2). split; [apply Forall_app; split; [exact A1|constructor; [exact O1|constructor]]|]. exact (IH _ A2 O2 R).
  - destruct A as (A1 & A2). split; [apply in_or_app; left; exact A1|]. rewrite (drop_app _ _ _ _ A1). auto.
  - destruct A as (A1 & A2), O as (O1 & O2). split; [apply Forall_app; split; [exact A1|constructor; [exact O1|constructor]]|]. exact (IH _ A2 O2 R).
  - destruct A as (A1 & A2). split; [apply in_or_app; left; exact A1|]. rewrite (drop_app _ _ _ _ A1). auto.
  - auto.
  - auto.
  - destruct A.
Qed.
Lemma over_app k a b : over k a -> over k b -> over k (a ++ b).
Proof. induction a as [|x a IH]; [auto|]. cbn [app]. destruct x; cbn [over]; intuition. Qed.
Lemma times_ordered n l : ordered [] l -> ordered [] (times n l).
Proof. intros H. induction n as [|n IH]; [reflexivity|]. cbn [times]. apply ordered_app; assumption. Qed.
Lemma times_over k n l : over k l -> over k (times n l).
Proof. intros H. induction n as [|n IH]; [exact I|]. cbn [times]. apply over_app; assumption. Qed.
Ltac flat := cbn; unfold above; repeat first [solve [auto 8]|solve [cbn; lia]|split|constructor].
Lemma harmless_ordered l : harmless l -> ordered [] l /\ over Ds l.
Proof.
  induction 1 as [|f l _ (A & B)|f l _ (A & B)|l _ (A & B)]; [split; [reflexivity|exact I]| | |]; (split; [apply ordered_app; [flat|exact A]|apply over_app; [flat|exact B]]).
Qed.
Lemma ds_callback_ordered f body : ordered [] body -> over Ds body -> ordered [] (ds_callback f body).
Proof. intros A B. unfold ds_callback. cbn [ordered]. split; [constructor|]. apply (ordered_inside Ds false body [RU Ds] [] A B). flat. Qed.
Lemma connect_ordered auto n : ordered [] (connect auto n).
Proof. unfold connect. apply ordered_app; [destruct auto; flat|]. apply times_ordered. flat. Qed.
Lemma sb_callback_ordered f n : ordered [] (sb_callback f [] n).
Proof. unfold sb_callback. apply ordered_app; [flat|]. apply times_ordered. flat. Qed.
Lemma sb_callback_over f n : over Con (sb_callback f [] n).
Proof. unfold sb_callback. apply over_app; [flat|]. apply times_over. flat. Qed.
Lemma quiet_ordered l : quiet l -> ordered [] l.
Proof.
  induction 1 as [|a b _ A _ B|f|f|f| |f| | |f body H| | |f n|failed n|auto failed n|]; try (solve [flat]).
  - apply ordered_app; assumption.
  - destruct (harmless_ordered _ H). apply ds_callback_ordered; assumption.
  - apply sb_callback_ordered.
  - unfold reconnected. apply ordered_app; [apply connect_ordered|]. cbn [ordered]. split; [constructor|].
    apply (ordered_inside Con false (handle_connect [] n) [RU Con] []); [apply sb_callback_ordered|apply sb_callback_over|flat].
  - unfold dial. apply ordered_app; [flat|]. apply ordered_app; [apply connect_ordered|apply sb_callback_ordered].
Qed.

(** ** Guarded callbacks *)
Fixpoint guarded (h : list (lock * bool)) (l : list act) : Prop :=
  match l with
  | [] => True
  | RL k :: r => guarded ((k, false) :: h) r
  | WL k :: r => guarded ((k, true) :: h) r
  | RU k :: r => guarded (drop k false h) r
  | WU k :: r => guarded (drop k true h) r
  | Use f :: r => (exists w, In (owner f, w) h) /\ guarded h r
  | Assign f :: r => In (owner f, true) h /\ guarded h r
  | Wait _ :: r => guarded h r
  end.
Definition safe (g : gor) : Prop := guarded (held g) (todo g).
Lemma guarded_step s i s' : Forall safe s -> gstep s i = Some s' -> Forall safe s'.
Proof.
  intros F. unfold gstep. destruct (nth_error s i) as [[h b t]|] eqn:N; [|discriminate]. cbn [todo held announced].
  pose proof (nth_error_Forall _ _ _ _ F N) as G. unfold safe in G. cbn [held todo] in G.
  destruct t as [|[k|k|k|k|f|f|w] r]; [discriminate| | | | | | |]; cbn [guarded] in G.
  3: destruct b.
  all: try (destruct (existsb _ s); [discriminate|]). all: try (destruct (has _ _ _); [|discriminate]). all: try (destruct (nth_error s w) as [[hw bw [|aw rw]]|]; try discriminate).
  all: intros [= <-]; (apply Forall_set; [exact F|]); try exact G; exact (proj2 G).
Qed.
Lemma no_race s f : excl s -> Forall safe s -> ~ race s f.
Proof.
  intros [O A] F (i & j & gi & gj & ri & rj & D & Ni & Nj & Ti & Tj).
  pose proof (nth_error_Forall _ _ _ _ F Ni) as Gi. pose proof (nth_error_Forall _ _ _ _ F Nj) as Gj. unfold safe in Gi, Gj. rewrite Ti in Gi. destruct Gi as (Hi & _).
  assert (W : forall g, In (owner f, true) (held g) -> writer (owner f) g = true) by (intros g H; unfold writer; rewrite (proj2 (has_in _ _ _) H); reflexivity).
  assert (Hj : exists w, In (owner f, w) (held gj)) by (destruct Tj as [Tj|Tj]; rewrite Tj in Gj; [exact (proj1 Gj)|exists true; exact (proj1 Gj)]).
  destruct Hj as ([|] & Hj); [exact (D (O _ _ _ _ _ Ni Nj (W _ Hi) (W _ Hj)))|].
  exact (A _ _ _ _ _ Ni Nj (proj2 (has_in _ _ _) Hi) (proj2 (has_in _ _ _) Hj)).
Qed.
(** A piece of code that leaves the locks as they were *)
Definition guards (a : list act) : Prop := forall h rest, guarded h rest -> guarded h (a ++ rest).
Lemma guards_app a b : guards a -> guards b -> guards (a ++ b).
Proof. intros A B h rest R. rewrite <- app_assoc. apply A, B, R. Qed.
Lemma guards_times n a : guards a -> guards (times n a).
Proof. intros A. induction n as [|n IH]; [intros h rest R; exact R|]. cbn [times]. apply guards_app; assumption. Qed.
Lemma guards_in k f body : owner f = k -> guards body -> guards (RL k :: Use f :: body ++ [RU k]).
Proof.
  intros O B h rest R. cbn [app guarded]. split; [exists false; rewrite O; left; reflexivity|]. rewrite <- app_assoc. apply B. cbn [app guarded drop fst snd]. rewrite lock_eqb_refl. exact R.
Qed.
Lemma guards_flat_r k f : owner f = k -> guards [RL k; Use f; RU k].
Proof. intros O. apply (guards_in k f [] O). intros h rest R. exact R. Qed.
Lemma guards_flat_w k f : owner f = k -> guards [WL k; Assign f; WU k].
Proof. intros O h rest R. cbn [app guarded drop fst snd]. rewrite lock_eqb_refl. split; [left; congruence|exact R]. Qed.
Ltac gflat := intros h rest R; cbn; repeat (split; [first [eauto 12 | eexists; eauto 12]|]); exact R.
Lemma guards_dial : guards register_dial.
Proof. gflat. Qed.
Lemma guards_listen : guards register_listen.
Proof. gflat. Qed.
Lemma guards_connect auto n : guards (connect auto n).
Proof.
  unfold connect. apply guards_app; [destruct auto; [apply guards_flat_w; reflexivity|intros h rest R; exact R]|].
  apply guards_times. apply guards_flat_r. reflexivity.
Qed.
Lemma guards_sb_callback f body n : owner f = Sb -> guards body -> guards (sb_callback f body n).
Proof. intros O B. unfold sb_callback. apply guards_app; [apply guards_in; assumption|]. apply guards_times. apply guards_flat_r. reflexivity. Qed.
Lemma code_guards l : code l -> guards l.
Proof.
  induction 1 as [|a b _ A _ B|f O|f O|f O|f O| | |f body O _ B|last|body _ B|f body n O _ B|failed body n _ B|auto failed body n _ B|body n _ B].
  - intros h rest R. exact R.
  - apply guards_app; assumption.
  - apply guards_flat_r. exact O.
  - apply guards_flat_w. exact O.
  - apply guards_flat_w. exact O.
  - apply guards_flat_r. exact O.
  - apply guards_flat_r. reflexivity.
  - exact guards_listen.
  - apply guards_in; assumption.
  - apply guards_in; [reflexivity|]. destruct last; intros h rest R; exact R.
  - apply guards_in; [reflexivity|]. apply guards_in; [reflexivity|exact B].
  - apply guards_sb_callback; assumption.
  - unfold reconnected. apply guards_app; [apply guards_connect|]. apply guards_in; [reflexivity|]. apply guards_sb_callback; [reflexivity|exact B].
  - unfold dial. apply guards_app; [exact guards_dial|]. apply guards_app; [apply guards_connect|]. apply guards_sb_callback; [reflexivity|exact B].
  - unfold accepted. apply guards_app; [apply guards_flat_r; reflexivity|]. apply guards_in; [reflexivity|]. apply guards_sb_callback; [reflexivity|exact B].
Qed.
Lemma code_no_race progs sched f : Forall code progs -> ~ race (run gstep (ginit progs) sched) f.
Proof.
  intros F. apply no_race.
  - apply (run_keeps excl excl_step). apply excl_init.
  - apply (run_keeps (Forall safe) guarded_step). unfold ginit. rewrite List.Forall_forall in *. intros g I. apply in_map_iff in I as (p & <- & I). unfold safe. cbn [held todo].
    rewrite <- (app_nil_r p). apply code_guards; [exact (F p I)|exact Logic.I].
Qed.
(** A state where nothing can move is final *)
Lemma stuck_stays s : (forall i, gstep s i = None) -> forall sched, run gstep s sched = s.
Proof. intros K. induction sched as [|i sched IH]; [reflexivity|]. cbn [run]. rewrite K. exact IH. Qed.
