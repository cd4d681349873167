(** Proofs about the order in which receivers are called. *)
From Coq Require Import List Bool Arith Lia Permutation.
From Verif Require Import ConcModel ConcProofs RegisterModel HeardModel HeardSpec.
Import ListNotations.
Open Scope list_scope.

Lemma sequenced_direct e : sequenced e = direct_call (fst e).
Proof. destruct e as [[] n]; reflexivity. Qed.
Lemma remove_at_perm {A} (l : list A) : forall k e, nth_error l k = Some e -> Permutation l (e :: remove_at l k).
Proof.
  intros k e H. destruct (nth_error_split l k H) as (l1 & l2 & -> & <-). unfold remove_at.
  rewrite firstn_app, firstn_all, Nat.sub_diag, app_nil_r. rewrite skipn_app, skipn_all2 by lia. replace (S (length l1) - length l1) with 1 by lia. cbn [firstn skipn app].
  apply Permutation_sym, Permutation_middle.
Qed.
Lemma happenings_set e r : forall progs b i, nth_error progs i = Some (e :: r) -> Permutation (happenings b progs) ((b + i, e) :: happenings b (set_nth progs i r)).
Proof.
  induction progs as [|p progs IH]; intros b i H; [destruct i; discriminate|]. destruct i as [|i]; cbn [nth_error] in H.
  - injection H as ->. cbn [happenings set_nth map app]. rewrite Nat.add_0_r. reflexivity.
  - cbn [happenings set_nth]. specialize (IH (S b) i H). rewrite IH. replace (S b + i) with (b + S i) by lia. apply Permutation_sym, Permutation_middle.
Qed.

(** ** Nothing is lost and nothing is told twice *)
Definition kept (progs : list (list event)) (s : hstate) : Prop := Permutation (happenings 0 progs) (happenings 0 (sources s) ++ started s ++ heard s).
Lemma kept_step progs s m : kept progs s -> kept progs (hstep s m).
Proof.
  unfold kept. intros K. destruct m as [i|k]; cbn [hstep].
  - destruct (nth_error (sources s) i) as [[|e r]|] eqn:N; [exact K| |exact K]. rewrite K, (happenings_set e r _ 0 i N). cbn [Nat.add app].
    destruct (direct_call (fst e)); cbn [sources started heard].
    + rewrite !app_assoc. rewrite (Permutation_app_comm (_ ++ heard s) [(i, e)]). reflexivity.
    + rewrite <- app_assoc. cbn [app]. rewrite (app_assoc _ (started s)), (app_assoc _ (started s)). apply Permutation_middle.
  - destruct (nth_error (started s) k) as [e|] eqn:N; [|exact K]. cbn [sources started heard]. rewrite K. apply Permutation_app_head.
    apply (Permutation_trans (Permutation_app_tail (heard s) (remove_at_perm _ _ _ N))). rewrite app_assoc. apply (Permutation_cons_append (remove_at (started s) k ++ heard s) e).
Qed.
Lemma hrun_keeps (P : hstate -> Prop) : (forall s m, P s -> P (hstep s m)) -> forall ms s, P s -> P (fold_left hstep ms s).
Proof. intros K. induction ms as [|m ms IH]; intros s H; [exact H|]. cbn [fold_left]. apply IH, K, H. Qed.
Lemma happenings_none : forall progs b, (forall p, In p progs -> p = []) -> happenings b progs = [].
Proof. induction progs as [|p progs IH]; intros b H; [reflexivity|]. cbn [happenings]. rewrite (H p) by (left; reflexivity). rewrite IH; [reflexivity|intros q Q; apply H; right; exact Q]. Qed.

(** ** What is sequenced is in order *)
Lemma heard_of_app i a b : heard_of i (a ++ b) = heard_of i a ++ heard_of i b.
Proof. induction a as [|[j e] a IH]; [reflexivity|]. cbn [app heard_of]. rewrite IH. destruct (j =? i); reflexivity. Qed.
Lemma in_heard_of i e h : In e (heard_of i h) <-> In (i, e) h.
Proof.
  induction h as [|[j x] h IH]; [reflexivity|]. cbn [heard_of In]. destruct (Nat.eqb_spec j i) as [->|D]; cbn [In]; rewrite IH; [|split; [tauto|intros [E|E]; [injection E as -> _; congruence|exact E]]].
  split; (intros [E|E]; [left; congruence|right; exact E]).
Qed.
Lemma in_remove {A} (l : list A) k x : In x (remove_at l k) -> In x l.
Proof. unfold remove_at. intros H. apply in_app_or in H as [H|H]; [rewrite <- (firstn_skipn k l)|rewrite <- (firstn_skipn (S k) l)]; apply in_or_app; auto. Qed.
Definition told (p : list event) (i : nat) (e : event) (h : list (nat * event)) : Prop := exists a c, p = a ++ e :: c /\ forall x, In x a -> sequenced x = true -> In (i, x) h.
Definition along (progs : list (list event)) (s : hstate) : Prop :=
  (forall i e, In (i, e) (started s) -> sequenced e = false) /\
  (forall i p, nth_error progs i = Some p -> exists q d, nth_error (sources s) i = Some q /\ p = d ++ q /\ filter sequenced (heard_of i (heard s)) = filter sequenced d) /\
  (forall i p e, nth_error progs i = Some p -> In (i, e) (started s) -> told p i e (heard s)) /\
  (forall i p e h1 h2, nth_error progs i = Some p -> heard s = h1 ++ (i, e) :: h2 -> told p i e h1).
Lemma told_more p i e h x : told p i e h -> told p i e (h ++ x).
Proof. intros (a & c & E & H). exists a, c. split; [exact E|]. intros y I S. apply in_or_app. left. exact (H y I S). Qed.
Lemma snoc_mid {A} (l h1 h2 : list A) x y : l ++ [x] = h1 ++ y :: h2 -> (h1 = l /\ y = x /\ h2 = []) \/ (exists h3, l = h1 ++ y :: h3).
Proof.
  destruct h2 as [|z h2] using rev_ind; intros E; [left; apply app_inj_tail in E as (-> & ->); auto|].
  right. exists h2. rewrite app_comm_cons, app_assoc in E. apply app_inj_tail in E as (-> & _). reflexivity.
Qed.
Lemma along_step progs s m : along progs s -> along progs (hstep s m).
Proof.
  intros (A & B & C & D). destruct m as [i|k]; cbn [hstep].
  - destruct (nth_error (sources s) i) as [[|e r]|] eqn:N; [repeat split; assumption| |repeat split; assumption].
    assert (T : forall p, nth_error progs i = Some p -> told p i e (heard s)).
    { intros p P. destruct (B i p P) as (q & d & Q1 & -> & Q2). rewrite N in Q1. injection Q1 as <-. exists d, r. split; [reflexivity|].
      intros x I S. apply in_heard_of. assert (J : In x (filter sequenced d)) by (apply filter_In; auto). rewrite <- Q2 in J. apply filter_In in J. tauto. }
    rewrite <- sequenced_direct. destruct (sequenced e) eqn:Se; unfold along; cbn [sources started heard].
    + split; [exact A|]. split; [|split].
      * intros j p P. destruct (B j p P) as (q & d & Q1 & Q2 & Q3). destruct (Nat.eq_dec i j) as [<-|Dij].
        -- rewrite N in Q1. injection Q1 as <-. exists r, (d ++ [e]). split; [exact (set_nth_same _ _ _ _ N)|]. split; [rewrite Q2, <- app_assoc; reflexivity|].
           rewrite heard_of_app, !filter_app, Q3. cbn [heard_of]. rewrite Nat.eqb_refl. reflexivity.
        -- exists q, d. split; [rewrite (set_nth_other _ _ _ _ Dij); exact Q1|]. split; [exact Q2|]. rewrite heard_of_app. cbn [heard_of]. destruct (Nat.eqb_spec i j); [congruence|]. rewrite app_nil_r. exact Q3.
      * intros j p x P I. apply told_more. exact (C j p x P I).
      * intros j p x h1 h2 P E. apply snoc_mid in E as [(-> & E & _)|(h3 & E)]; [|exact (D j p x h1 h3 P E)]. injection E as -> ->. exact (T p P).
    + split; [|split; [|split]].
      * intros j x I. apply in_app_or in I as [I|[I|[]]]; [exact (A j x I)|]. injection I as _ <-. exact Se.
      * intros j p P. destruct (B j p P) as (q & d & Q1 & Q2 & Q3). destruct (Nat.eq_dec i j) as [<-|Dij].
        -- rewrite N in Q1. injection Q1 as <-. exists r, (d ++ [e]). split; [exact (set_nth_same _ _ _ _ N)|]. split; [rewrite Q2, <- app_assoc; reflexivity|].
           rewrite filter_app, Q3. cbn [filter]. rewrite Se, app_nil_r. reflexivity.
        -- exists q, d. split; [rewrite (set_nth_other _ _ _ _ Dij); exact Q1|]. auto.
      * intros j p x P I. apply in_app_or in I as [I|[I|[]]]; [exact (C j p x P I)|]. injection I as <- <-. exact (T p P).
      * exact D.
  - destruct (nth_error (started s) k) as [[j e]|] eqn:N; [|repeat split; assumption]. unfold along. cbn [sources started heard]. pose proof (nth_error_In _ _ N) as I0.
    split; [|split; [|split]].
    + intros i x I. exact (A i x (in_remove _ _ _ I)).
    + intros i p P. destruct (B i p P) as (q & d & Q1 & Q2 & Q3). exists q, d. split; [exact Q1|]. split; [exact Q2|]. rewrite heard_of_app, filter_app, Q3. cbn [heard_of].
      destruct (j =? i); cbn [filter]; [rewrite (A j e I0)|]; apply app_nil_r.
    + intros i p x P I. apply told_more. exact (C i p x P (in_remove _ _ _ I)).
    + intros i p x h1 h2 P E. apply snoc_mid in E as [(-> & E & _)|(h3 & E)]; [|exact (D i p x h1 h3 P E)]. injection E as -> ->. exact (C j p e P I0).
Qed.
Lemma along_init progs : along progs (HState progs [] []).
Proof.
  split; [intros i e []|]. split; [|split; [intros i p e _ []|intros i p e h1 h2 _ E; destruct h1; discriminate]].
  intros i p P. exists p, []. auto.
Qed.
Lemma split_unique {A} (e : A) : forall a c a' c', NoDup (a ++ e :: c) -> a ++ e :: c = a' ++ e :: c' -> a = a'.
Proof.
  induction a as [|x a IH]; intros c [|y a'] c' U E; cbn in *; [reflexivity| | |].
  - injection E as -> E. exfalso. inversion U as [|z l N M]. apply N. rewrite E. apply in_or_app. right. left. reflexivity.
  - injection E as -> E. exfalso. inversion U as [|z l N M]. apply N. apply in_or_app. right. left. reflexivity.
  - injection E as -> E. inversion U as [|z l N M]. f_equal. exact (IH c a' c' M E).
Qed.

(** ** Any order *)
Lemma all_happen : forall p st h, fold_left hstep (repeat (Happens 0) (length p)) (HState [p] st h) =
  HState [[]] (st ++ map (pair 0) (filter (fun e => negb (sequenced e)) p)) (h ++ map (pair 0) (filter sequenced p)).
Proof.
  induction p as [|e p IH]; intros st h; [cbn; rewrite !app_nil_r; reflexivity|]. cbn [length repeat fold_left]. cbn [hstep nth_error sources set_nth]. rewrite <- sequenced_direct.
  cbn [filter]. destruct (sequenced e); cbn [negb started heard map]; rewrite IH, <- app_assoc; reflexivity.
Qed.
Lemma any_order srcs : forall l' l h, Permutation l l' -> exists ms, fold_left hstep ms (HState srcs l h) = HState srcs [] (h ++ l').
Proof.
  induction l' as [|e l' IH]; intros l h P.
  - apply Permutation_sym, Permutation_nil in P. subst l. exists []. rewrite app_nil_r. reflexivity.
  - assert (I : In e l) by (apply (Permutation_in e (Permutation_sym P)); left; reflexivity).
    destruct (In_nth_error _ _ I) as (k & N). pose proof (remove_at_perm _ _ _ N) as R. rewrite R in P. apply Permutation_cons_inv in P.
    destruct (IH (remove_at l k) (h ++ [e]) P) as (ms & M). exists (Calls k :: ms). cbn [fold_left hstep started]. rewrite N. cbn [sources heard]. rewrite M, <- app_assoc. reflexivity.
Qed.
