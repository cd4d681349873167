(** Lemmas about slices and their pool. *)
From Coq Require Import Lia.
From Verif Require Import Base CompactModel SubscriberModel PoolModel PoolSpec.
Open Scope nat_scope.

Lemma set_at_length {A} (l : list A) n x : length (set_at l n x) = length l.
Proof. revert n. induction l as [|a l IH]; intros [|n]; cbn; congruence. Qed.
Lemma set_at_same {A} (l : list A) n x : n < length l -> nth_error (set_at l n x) n = Some x.
Proof. revert n. induction l as [|a l IH]; intros [|n] H; cbn in *; try lia; [reflexivity|]. apply IH. lia. Qed.
Lemma set_at_other {A} (l : list A) n m x : n <> m -> nth_error (set_at l n x) m = nth_error l m.
Proof. revert n m. induction l as [|a l IH]; intros [|n] [|m] H; cbn; try congruence; try reflexivity. apply IH. congruence. Qed.
Lemma nth_set_same {A} (l : list A) n x d : n < length l -> nth n (set_at l n x) d = x.
Proof. intros H. apply nth_error_nth, set_at_same, H. Qed.
Lemma nth_set_other {A} (l : list A) n m x d : n <> m -> nth m (set_at l n x) d = nth m l d.
Proof. revert n m. induction l as [|a l IH]; intros [|n] [|m] H; cbn; try congruence; try reflexivity. apply IH. congruence. Qed.
Lemma firstn_set {A} (l : list A) n k x : n <= k -> firstn n (set_at l k x) = firstn n l.
Proof. revert n k. induction l as [|a l IH]; intros [|n] [|k] H; cbn; try reflexivity; try lia. rewrite IH by lia. reflexivity. Qed.
Lemma skipn_set {A} (l : list A) n k x : k < n -> skipn n (set_at l k x) = skipn n l.
Proof. revert n k. induction l as [|a l IH]; intros [|n] [|k] H; cbn; try reflexivity; try lia. apply IH. lia. Qed.
Lemma firstn_set_next {A} (l : list A) k x : k < length l -> firstn (S k) (set_at l k x) = firstn k l ++ [x].
Proof. revert k. induction l as [|a l IH]; intros [|k] H; cbn in *; try lia; [reflexivity|]. f_equal. apply IH. lia. Qed.
Lemma drop_in {A} (l : list A) i x : In x (drop_at l i) -> In x l.
Proof. revert i. induction l as [|a l IH]; intros [|i] H; cbn in *; auto. destruct H; auto. right. exact (IH _ H). Qed.
Lemma drop_nodup {A} (l : list A) i : NoDup l -> NoDup (drop_at l i).
Proof.
  revert i. induction l as [|a l IH]; intros [|i] H; cbn; try constructor; inversion H; subst; auto.
  intros X. apply drop_in in X. contradiction.
Qed.
Lemma drop_gone {A} (l : list A) i x : NoDup l -> nth_error l i = Some x -> ~ In x (drop_at l i).
Proof.
  revert i. induction l as [|a l IH]; intros [|i] N E; cbn in *; try discriminate; inversion N; subst.
  - injection E as ->. assumption.
  - intros [->|X]; [|exact (IH i ltac:(assumption) E X)]. apply nth_error_In in E. contradiction.
Qed.
Lemma nodup_snoc {A} (l : list A) x : NoDup l -> ~ In x l -> NoDup (l ++ [x]).
Proof.
  induction 1 as [|a l N D IH]; intros H; cbn; [repeat constructor; auto|]. constructor.
  - intros X. apply in_app_or in X as [X|[<-|[]]]; [contradiction|]. apply H. left. reflexivity.
  - apply IH. intros X. apply H. right. exact X.
Qed.
Lemma nth_error_snoc {A} (l : list A) x n y : nth_error (l ++ [x]) n = Some y -> nth_error l n = Some y \/ (n = length l /\ y = x).
Proof.
  intros H. destruct (Nat.lt_ge_cases n (length l)) as [L|L]; [left; rewrite nth_error_app1 in H; assumption|].
  rewrite nth_error_app2 in H by exact L. destruct (n - length l) as [|k] eqn:E; cbn in H; [|destruct k; discriminate]. right. split; [lia|congruence].
Qed.
Lemma array_snoc s l : forall a, a < length (p_arrays s) -> nth a (p_arrays s ++ [l]) [] = array_of s a.
Proof. intros a H. apply app_nth1, H. Qed.
Lemma array_new s l : nth (length (p_arrays s)) (p_arrays s ++ [l]) [] = l.
Proof. rewrite app_nth2, Nat.sub_diag by lia. reflexivity. Qed.

Record inv (s : pstate) (held : list nat) : Prop := {
  i_nodup : NoDup (p_pool s);
  i_pool : forall p, In p (p_pool s) -> ~ In p held;
  i_fill : forall t p a k todo, p_workers s t = WFill p a k todo ->
    ~ In p (p_pool s) /\ ~ In p held /\ exists n, nth_error (p_slices s) p = Some (a, n) /\ k + length todo <= n;
  i_one : forall t u p a a' k k' l l', p_workers s t = WFill p a k l -> p_workers s u = WFill p a' k' l' -> t = u;
  i_inj : forall p q a n m, nth_error (p_slices s) p = Some (a, n) -> nth_error (p_slices s) q = Some (a, m) -> p = q;
  i_bound : forall p a n, nth_error (p_slices s) p = Some (a, n) -> a < length (p_arrays s) /\ n <= length (array_of s a);
  i_valid : forall p, In p (p_pool s) \/ In p held -> p < length (p_slices s) }.

Lemma inv_start : inv pstart [].
Proof. constructor; cbn; try (intros; contradiction); try discriminate; try (intros [|]; discriminate). - constructor. - intros p [[]|[]]. Qed.

Lemma set_worker_same s t w : set_worker s t w t = w.
Proof. unfold set_worker. rewrite Nat.eqb_refl. reflexivity. Qed.
Lemma set_worker_other s t w u : u <> t -> set_worker s t w u = p_workers s u.
Proof. intros H. unfold set_worker. destruct (u =? t) eqn:E; [apply Nat.eqb_eq in E; contradiction|reflexivity]. Qed.
Ltac worker t u := destruct (Nat.eq_dec u t) as [->|?]; [rewrite set_worker_same in *|rewrite set_worker_other in * by assumption].

Lemma inv_step s held a s' ev : inv s held -> allowed held a -> pstep s a = Some (s', ev) -> inv s' (held_after s held a ev).
Proof.
  intros [ND PO FI ON IJ BO VA] AL ST. destruct a as [t got count ms|t|t|p|l|p i m|i]; cbn [pstep] in ST.
  - (* PGet *)
    destruct (p_workers s t) eqn:W; [|discriminate ST]. destruct (_ <=? _) eqn:LE; [|discriminate ST]. apply Nat.leb_le in LE.
    destruct got as [i|].
    + destruct (nth_error (p_pool s) i) as [p|] eqn:P; [|discriminate ST]. destruct (nth_error (p_slices s) p) as [[a n]|] eqn:SL; [|discriminate ST].
      pose proof (nth_error_In _ _ P) as IP. assert (LP : p < length (p_slices s)) by (apply nth_error_Some; congruence).
      pose proof (BO _ _ _ SL) as [BA BN]. destruct (_ <? _) eqn:CAP.
      * injection ST as <- <-. cbn [held_after map app]. constructor; cbn [p_arrays p_slices p_pool p_workers].
        -- apply drop_nodup, ND.
        -- intros q H. apply drop_in in H. exact (PO q H).
        -- intros u q a1 k todo H. worker t u.
           ++ injection H as <- <- <- <-. split; [exact (drop_gone _ _ _ ND P)|]. split; [exact (PO p IP)|]. exists count. split; [apply set_at_same, LP|lia].
           ++ destruct (FI u q a1 k todo H) as (H1 & H2 & n1 & H3 & H4). split; [intros X; apply H1; eapply drop_in, X|]. split; [exact H2|]. exists n1. split; [|exact H4].
              rewrite set_at_other; [exact H3|]. intros <-. contradiction.
        -- intros u v q a1 a2 k k' l l' H1 H2. worker t u; worker t v; try reflexivity; try (eapply ON; eassumption); exfalso.
           ++ injection H1 as <- <- <- <-. destruct (FI _ _ _ _ _ H2) as (X & _). contradiction.
           ++ injection H2 as <- <- <- <-. destruct (FI _ _ _ _ _ H1) as (X & _). contradiction.
        -- intros q r b n1 n2 H1 H2. destruct (Nat.eq_dec q p) as [->|Nq], (Nat.eq_dec r p) as [->|Nr]; try reflexivity.
           ++ rewrite set_at_same in H1 by exact LP. rewrite set_at_other in H2 by congruence. injection H1 as <- <-. apply BO in H2. lia.
           ++ rewrite set_at_same in H2 by exact LP. rewrite set_at_other in H1 by congruence. injection H2 as <- <-. apply BO in H1. lia.
           ++ rewrite set_at_other in H1 by congruence. rewrite set_at_other in H2 by congruence. exact (IJ _ _ _ _ _ H1 H2).
        -- intros q b n1 H1. rewrite app_length. unfold array_of. cbn [p_arrays length]. destruct (Nat.eq_dec p q) as [<-|Nq].
           ++ rewrite set_at_same in H1 by exact LP. injection H1 as <- <-. rewrite array_new, repeat_length. lia.
           ++ rewrite set_at_other in H1 by congruence. destruct (BO _ _ _ H1). rewrite array_snoc by assumption. lia.
        -- intros q [H|H]; rewrite set_at_length; apply VA; [left; eapply drop_in, H|right; exact H].
      * apply Nat.ltb_ge in CAP. injection ST as <- <-. cbn [held_after map app]. constructor; cbn [p_arrays p_slices p_pool p_workers].
        -- apply drop_nodup, ND.
        -- intros q H. apply drop_in in H. exact (PO q H).
        -- intros u q a1 k todo H. worker t u.
           ++ injection H as <- <- <- <-. split; [exact (drop_gone _ _ _ ND P)|]. split; [exact (PO p IP)|]. exists count. split; [apply set_at_same, LP|lia].
           ++ destruct (FI u q a1 k todo H) as (H1 & H2 & n1 & H3 & H4). split; [intros X; apply H1; eapply drop_in, X|]. split; [exact H2|]. exists n1. split; [|exact H4].
              rewrite set_at_other; [exact H3|]. intros <-. contradiction.
        -- intros u v q a1 a2 k k' l l' H1 H2. worker t u; worker t v; try reflexivity; try (eapply ON; eassumption); exfalso.
           ++ injection H1 as <- <- <- <-. destruct (FI _ _ _ _ _ H2) as (X & _). contradiction.
           ++ injection H2 as <- <- <- <-. destruct (FI _ _ _ _ _ H1) as (X & _). contradiction.
        -- intros q r b n1 n2 H1 H2. destruct (Nat.eq_dec q p) as [->|Nq], (Nat.eq_dec r p) as [->|Nr]; try reflexivity.
           ++ rewrite set_at_same in H1 by exact LP. rewrite set_at_other in H2 by congruence. injection H1 as <- <-. exact (IJ _ _ _ _ _ SL H2).
           ++ rewrite set_at_same in H2 by exact LP. rewrite set_at_other in H1 by congruence. injection H2 as <- <-. exact (IJ _ _ _ _ _ H1 SL).
           ++ rewrite set_at_other in H1 by congruence. rewrite set_at_other in H2 by congruence. exact (IJ _ _ _ _ _ H1 H2).
        -- intros q b n1 H1. unfold array_of in *. cbn [p_arrays]. destruct (Nat.eq_dec p q) as [<-|Nq].
           ++ rewrite set_at_same in H1 by exact LP. injection H1 as <- <-. lia.
           ++ rewrite set_at_other in H1 by congruence. exact (BO _ _ _ H1).
        -- intros q [H|H]; rewrite set_at_length; apply VA; [left; eapply drop_in, H|right; exact H].
    + injection ST as <- <-. cbn [held_after map app]. constructor; cbn [p_arrays p_slices p_pool p_workers].
      * exact ND.
      * exact PO.
      * intros u q a1 k todo H. worker t u.
        -- injection H as <- <- <- <-. split; [intros X; specialize (VA _ (or_introl X)); lia|]. split; [intros X; specialize (VA _ (or_intror X)); lia|].
           exists count. rewrite nth_error_app2, Nat.sub_diag by lia. split; [reflexivity|lia].
        -- destruct (FI u q a1 k todo H) as (H1 & H2 & n1 & H3 & H4). split; [exact H1|]. split; [exact H2|]. exists n1. split; [|exact H4].
           rewrite nth_error_app1; [exact H3|]. apply nth_error_Some. congruence.
      * intros u v q a1 a2 k k' l l' H1 H2. worker t u; worker t v; try reflexivity; try (eapply ON; eassumption); exfalso.
        -- injection H1 as <- <- <- <-. destruct (FI _ _ _ _ _ H2) as (_ & _ & n1 & X & _). assert (length (p_slices s) < length (p_slices s)) by (apply nth_error_Some; congruence). lia.
        -- injection H2 as <- <- <- <-. destruct (FI _ _ _ _ _ H1) as (_ & _ & n1 & X & _). assert (length (p_slices s) < length (p_slices s)) by (apply nth_error_Some; congruence). lia.
      * intros q r b n1 n2 H1 H2. apply nth_error_snoc in H1 as [H1|[-> H1]], H2 as [H2|[-> H2]]; try reflexivity.
        -- exact (IJ _ _ _ _ _ H1 H2).
        -- injection H2 as -> ->. apply BO in H1. lia.
        -- injection H1 as -> ->. apply BO in H2. lia.
      * intros q b n1 H1. rewrite app_length. unfold array_of. cbn [p_arrays length]. apply nth_error_snoc in H1 as [H1|[-> H1]].
        -- destruct (BO _ _ _ H1). rewrite array_snoc by assumption. lia.
        -- injection H1 as -> ->. rewrite array_new, repeat_length. lia.
      * intros q H. rewrite app_length. specialize (VA q H). cbn. lia.
  - (* PWrite *)
    destruct (p_workers s t) as [|p a k [|m todo]] eqn:W; try discriminate ST. injection ST as <- <-. cbn [held_after map app].
    destruct (FI _ _ _ _ _ W) as (F1 & F2 & n & F3 & F4). destruct (BO _ _ _ F3) as [BA BN].
    constructor; cbn [p_arrays p_slices p_pool p_workers]; try assumption.
    + intros u q a1 k1 l H. worker t u; [|exact (FI _ _ _ _ _ H)]. injection H as <- <- <- <-. split; [exact F1|]. split; [exact F2|]. exists n. split; [exact F3|]. cbn [length] in F4. lia.
    + intros u v q a1 a2 k1 k2 l1 l2 H1 H2. worker t u; worker t v; try reflexivity.
      * injection H1 as <- <- <- <-. exact (ON _ _ _ _ _ _ _ _ _ W H2).
      * injection H2 as <- <- <- <-. exact (ON _ _ _ _ _ _ _ _ _ H1 W).
      * exact (ON _ _ _ _ _ _ _ _ _ H1 H2).
    + intros q b n1 H. rewrite set_at_length. destruct (BO _ _ _ H) as [H1 H2]. split; [exact H1|]. unfold array_of at 1. cbn [p_arrays].
      destruct (Nat.eq_dec a b) as [<-|NE]; [rewrite nth_set_same, set_at_length by exact BA; exact H2|rewrite nth_set_other by exact NE; exact H2].
  - (* PCall *)
    destruct (p_workers s t) as [|p a k [|m todo]] eqn:W; try discriminate ST. injection ST as <- <-. cbn [held_after map app].
    destruct (FI _ _ _ _ _ W) as (F1 & F2 & n & F3 & F4).
    constructor; cbn [p_arrays p_slices p_pool p_workers]; try assumption.
    + intros q H [<-|X]; [contradiction|exact (PO q H X)].
    + intros u q a1 k1 l H. worker t u; [discriminate H|]. destruct (FI _ _ _ _ _ H) as (H1 & H2 & H3). split; [exact H1|]. split; [|exact H3].
      intros [<-|X]; [|contradiction]. apply n0. exact (ON _ _ _ _ _ _ _ _ _ H W).
    + intros u v q a1 a2 k1 k2 l1 l2 H1 H2. worker t u; [discriminate H1|]. worker t v; [discriminate H2|]. exact (ON _ _ _ _ _ _ _ _ _ H1 H2).
    + intros q [H|[<-|H]]; [apply VA; left; exact H| |apply VA; right; exact H]. apply nth_error_Some. congruence.
  - (* PPut *)
    cbn [allowed] in AL. destruct (nth_error (p_slices s) p) as [[a n]|] eqn:SL; [|discriminate ST]. injection ST as <- <-. cbn [held_after].
    assert (LP : p < length (p_slices s)) by (apply nth_error_Some; congruence).
    assert (FH : forall q, In q (filter (fun q => negb (q =? p)) held) -> In q held /\ q <> p).
    { intros q H. apply filter_In in H as [H1 H2]. split; [exact H1|]. intros ->. rewrite Nat.eqb_refl in H2. discriminate. }
    constructor; cbn [p_arrays p_slices p_pool p_workers].
    + apply nodup_snoc; [exact ND|]. intros H. exact (PO _ H AL).
    + intros q H X. apply FH in X as [X1 X2]. apply in_app_or in H as [H|[<-|[]]]; [exact (PO q H X1)|contradiction].
    + intros u q a1 k l H. destruct (FI _ _ _ _ _ H) as (H1 & H2 & n1 & H3 & H4).
      assert (q <> p) by (intros ->; contradiction).
      split; [intros X; apply in_app_or in X as [X|[X|[]]]; [contradiction|congruence]|]. split; [intros X; apply FH in X; tauto|]. exists n1. split; [|exact H4].
      rewrite set_at_other by congruence. exact H3.
    + exact ON.
    + intros q r b n1 n2 H1 H2. destruct (Nat.eq_dec q p) as [->|Nq], (Nat.eq_dec r p) as [->|Nr]; try reflexivity.
      * rewrite set_at_same in H1 by exact LP. rewrite set_at_other in H2 by congruence. injection H1 as <- <-. exact (IJ _ _ _ _ _ SL H2).
      * rewrite set_at_same in H2 by exact LP. rewrite set_at_other in H1 by congruence. injection H2 as <- <-. exact (IJ _ _ _ _ _ H1 SL).
      * rewrite set_at_other in H1 by congruence. rewrite set_at_other in H2 by congruence. exact (IJ _ _ _ _ _ H1 H2).
    + intros q b n1 H1. unfold array_of in *. cbn [p_arrays]. destruct (Nat.eq_dec p q) as [<-|Nq].
      * rewrite set_at_same in H1 by exact LP. injection H1 as <- <-. destruct (BO _ _ _ SL). split; [assumption|lia].
      * rewrite set_at_other in H1 by congruence. exact (BO _ _ _ H1).
    + intros q H. rewrite set_at_length. destruct H as [H|H]; [apply in_app_or in H as [H|[<-|[]]]; [apply VA; left; exact H|exact LP]|apply VA; right; apply FH, H].
  - (* PNew *)
    injection ST as <- <-. cbn [held_after]. constructor; cbn [p_arrays p_slices p_pool p_workers].
    + exact ND.
    + intros q H [<-|X]; [specialize (VA _ (or_introl H)); lia|exact (PO q H X)].
    + intros u q a1 k l1 H. destruct (FI _ _ _ _ _ H) as (H1 & H2 & n1 & H3 & H4). assert (q < length (p_slices s)) by (apply nth_error_Some; congruence).
      split; [exact H1|]. split; [intros [X|X]; [lia|contradiction]|]. exists n1. split; [|exact H4]. rewrite nth_error_app1; [exact H3|assumption].
    + exact ON.
    + intros q r b n1 n2 H1 H2. apply nth_error_snoc in H1 as [H1|[-> H1]], H2 as [H2|[-> H2]]; try reflexivity.
      * exact (IJ _ _ _ _ _ H1 H2).
      * injection H2 as -> ->. apply BO in H1. lia.
      * injection H1 as -> ->. apply BO in H2. lia.
    + intros q b n1 H1. rewrite app_length. unfold array_of. cbn [p_arrays length]. apply nth_error_snoc in H1 as [H1|[-> H1]].
      * destruct (BO _ _ _ H1). rewrite array_snoc by assumption. lia.
      * injection H1 as -> ->. rewrite array_new. lia.
    + intros q H. rewrite app_length. cbn. destruct H as [H|[<-|H]]; [specialize (VA q (or_introl H)); lia|lia|specialize (VA q (or_intror H)); lia].
  - (* PStore *)
    destruct (nth_error (p_slices s) p) as [[a n]|] eqn:SL; [|discriminate ST]. destruct (_ <? _); [|discriminate ST]. injection ST as <- <-. cbn [held_after map app].
    destruct (BO _ _ _ SL) as [BA BN]. constructor; cbn [p_arrays p_slices p_pool p_workers]; try assumption.
    intros q b n1 H. rewrite set_at_length. destruct (BO _ _ _ H) as [H1 H2]. split; [exact H1|]. unfold array_of at 1. cbn [p_arrays].
    destruct (Nat.eq_dec a b) as [<-|NE]; [rewrite nth_set_same, set_at_length by exact BA; exact H2|rewrite nth_set_other by exact NE; exact H2].
  - (* PDrop *)
    injection ST as <- <-. cbn [held_after map app]. constructor; cbn [p_arrays p_slices p_pool p_workers]; try assumption.
    + apply drop_nodup, ND.
    + intros q H. apply PO. eapply drop_in, H.
    + intros u q a1 k l H. destruct (FI _ _ _ _ _ H) as (H1 & H2 & H3). split; [intros X; apply H1; eapply drop_in, X|]. split; assumption.
    + intros q [H|H]; apply VA; [left; eapply drop_in, H|right; exact H].
Qed.

Lemma inv_steps s held acts s' held' : steps s held acts s' held' -> inv s held -> inv s' held'.
Proof. induction 1 as [|s held a s1 ev acts s' held' AL ST _ IH]; intros H; [exact H|]. apply IH. eapply inv_step; eassumption. Qed.
Lemma steps_app s held acts s' held' acts2 s2 held2 : steps s held acts s' held' -> steps s' held' acts2 s2 held2 -> steps s held (acts ++ acts2) s2 held2.
Proof. induction 1 as [|s held a s1 ev acts s' held' AL ST _ IH]; intros G; [exact G|]. econstructor; [exact AL|exact ST|exact (IH G)]. Qed.

(** A slice outside the pool changes only by the goroutine that fills it or by the application itself. *)
Lemma unaffected s held act s' ev p a n :
  inv s held -> allowed held act -> pstep s act = Some (s', ev) ->
  nth_error (p_slices s) p = Some (a, n) -> ~ In p (p_pool s) -> ~ concerns p act ->
  (forall t, act = PWrite t -> forall b k l, p_workers s t <> WFill p b k l) ->
  nth_error (p_slices s') p = Some (a, n) /\ array_of s' a = array_of s a.
Proof.
  intros [ND PO FI ON IJ BO VA] AL ST SL NP NC NW. destruct (BO _ _ _ SL) as [BA BN].
  assert (LP : p < length (p_slices s)) by (apply nth_error_Some; congruence).
  destruct act as [t got count ms|t|t|q|l|q i m|i]; cbn [pstep] in ST.
  - destruct (p_workers s t) eqn:W; [|discriminate ST]. destruct (_ <=? _) eqn:LE; [|discriminate ST]. destruct got as [i|].
    + destruct (nth_error (p_pool s) i) as [q|] eqn:P; [|discriminate ST]. destruct (nth_error (p_slices s) q) as [[b m]|] eqn:SQ; [|discriminate ST].
      apply nth_error_In in P. assert (q <> p) by (intros ->; contradiction).
      destruct (_ <? _); injection ST as <- <-; unfold array_of; cbn [p_arrays p_slices]; (split; [rewrite set_at_other by assumption; exact SL|]); [apply array_snoc, BA|reflexivity].
    + injection ST as <- <-. unfold array_of. cbn [p_arrays p_slices]. split; [rewrite nth_error_app1; [exact SL|exact LP]|apply array_snoc, BA].
  - destruct (p_workers s t) as [|q b k [|m todo]] eqn:W; try discriminate ST. injection ST as <- <-. unfold array_of at 1. cbn [p_arrays p_slices]. split; [exact SL|].
    apply nth_set_other. intros ->. destruct (FI _ _ _ _ _ W) as (_ & _ & n1 & F & _). apply (NW t eq_refl a k (m :: todo)). rewrite W. f_equal. exact (IJ _ _ _ _ _ F SL).
  - destruct (p_workers s t) as [|q b k [|m todo]] eqn:W; try discriminate ST. injection ST as <- <-. split; [exact SL|reflexivity].
  - destruct (nth_error (p_slices s) q) as [[b m]|] eqn:SQ; [|discriminate ST]. injection ST as <- <-. split; [|reflexivity]. cbn [p_slices]. rewrite set_at_other; [exact SL|exact NC].
  - injection ST as <- <-. unfold array_of. cbn [p_arrays p_slices]. split; [rewrite nth_error_app1; [exact SL|exact LP]|apply array_snoc, BA].
  - destruct (nth_error (p_slices s) q) as [[b n1]|] eqn:SQ; [|discriminate ST]. destruct (_ <? _); [|discriminate ST]. injection ST as <- <-. unfold array_of at 1. cbn [p_arrays p_slices].
    split; [exact SL|]. apply nth_set_other. intros ->. apply NC. exact (IJ _ _ _ _ _ SQ SL).
  - injection ST as <- <-. split; [exact SL|reflexivity].
Qed.

Lemma kept s held acts s' held' p : steps s held acts s' held' -> inv s held -> In p held -> (forall a, In a acts -> ~ concerns p a) -> view s' p = view s p /\ In p held'.
Proof.
  induction 1 as [|s held a s1 ev acts s' held' AL ST STS IH]; intros V HP NC; [split; [reflexivity|exact HP]|].
  pose proof (inv_step _ _ _ _ _ V AL ST) as V1.
  assert (LP : p < length (p_slices s)) by (apply (i_valid _ _ V); right; exact HP).
  destruct (nth_error (p_slices s) p) as [[b n]|] eqn:SL; [|apply nth_error_None in SL; lia].
  assert (HP1 : In p (held_after s held a ev)).
  { assert (NCa : ~ concerns p a) by (apply NC; left; reflexivity).
    destruct a; cbn [held_after]; try (apply in_or_app; right; exact HP); [|right; exact HP].
    apply filter_In. split; [exact HP|]. cbn in NCa. apply Bool.negb_true_iff, Nat.eqb_neq. congruence. }
  destruct (unaffected _ _ _ _ _ _ _ _ V AL ST SL) as [SL1 AR1].
  - intros X. exact (i_pool _ _ V p X HP).
  - apply NC. left. reflexivity.
  - intros t -> b1 k l X. destruct (i_fill _ _ V _ _ _ _ _ X) as (_ & F & _). contradiction.
  - destruct (IH V1 HP1) as [E1 E2]; [intros c H; apply NC; right; exact H|]. split; [|exact E2]. rewrite E1. unfold view. rewrite SL, SL1, AR1. reflexivity.
Qed.

(** The goroutine [t] has the slice [p] with the array [a], which will hold [ms] followed by [rest]. *)
Definition filling (s : pstate) (t p a n : nat) (ms rest : list measurement) : Prop :=
  exists k todo, p_workers s t = WFill p a k todo /\ nth_error (p_slices s) p = Some (a, n) /\ k <= length (array_of s a) /\
    firstn k (array_of s a) ++ todo = ms /\ skipn (k + length todo) (array_of s a) = rest.
Lemma filling_step s held act s' ev t p a n ms rest :
  inv s held -> allowed held act -> pstep s act = Some (s', ev) -> act <> PCall t -> filling s t p a n ms rest -> filling s' t p a n ms rest.
Proof.
  intros V AL ST NC (k & todo & W & SL & LE & E1 & E2). destruct (i_fill _ _ V _ _ _ _ _ W) as (NP & NH & n1 & F3 & F4).
  destruct (i_bound _ _ V _ _ _ SL) as [BA BN]. rewrite SL in F3. injection F3 as <-.
  assert (D : act = PWrite t \/ act <> PWrite t) by (destruct act; try (right; discriminate); destruct (Nat.eq_dec t0 t) as [->|]; [left; reflexivity|right; congruence]).
  destruct D as [->|ND].
  - cbn [pstep] in ST. rewrite W in ST. destruct todo as [|m todo]; [discriminate ST|]. injection ST as ES <-. cbn [length] in F4, E2.
    assert (AR : array_of s' a = set_at (array_of s a) k m) by (rewrite <- ES; apply nth_set_same, BA). subst s'.
    exists (S k), todo. rewrite AR. cbn [p_workers p_slices]. rewrite set_worker_same.
    split; [reflexivity|]. split; [exact SL|]. split; [rewrite set_at_length; lia|]. split.
    + rewrite firstn_set_next by lia. rewrite <- app_assoc. exact E1.
    + rewrite skipn_set by lia. rewrite <- E2. f_equal. lia.
  - destruct (unaffected _ _ _ _ _ _ _ _ V AL ST SL NP) as [SL1 AR1].
    + intros X. destruct act; cbn in X, AL; try contradiction; subst; contradiction.
    + intros u -> b k1 l X. apply ND. f_equal. exact (i_one _ _ V _ _ _ _ _ _ _ _ _ X W).
    + exists k, todo. rewrite AR1. split; [|split; [exact SL1|split; [exact LE|split; assumption]]].
      destruct act as [u got count ms0|u|u|q|l|q i m|i]; cbn [pstep] in ST.
      * destruct (p_workers s u) eqn:Wu; [|discriminate ST]. assert (t <> u) by (intros ->; congruence). destruct (_ <=? _); [|discriminate ST]. destruct got as [i|].
        -- destruct (nth_error (p_pool s) i) as [q|]; [|discriminate ST]. destruct (nth_error (p_slices s) q) as [[b m]|]; [|discriminate ST].
           destruct (_ <? _); injection ST as <- <-; cbn [p_workers]; rewrite set_worker_other by assumption; exact W.
        -- injection ST as <- <-; cbn [p_workers]; rewrite set_worker_other by assumption; exact W.
      * assert (t <> u) by congruence. destruct (p_workers s u) as [|q b k1 [|m l]]; try discriminate ST. injection ST as <- <-. cbn [p_workers]. rewrite set_worker_other by assumption. exact W.
      * assert (t <> u) by congruence. destruct (p_workers s u) as [|q b k1 [|m l]]; try discriminate ST. injection ST as <- <-. cbn [p_workers]. rewrite set_worker_other by assumption. exact W.
      * destruct (nth_error (p_slices s) q) as [[b m]|]; [|discriminate ST]. injection ST as <- <-. exact W.
      * injection ST as <- <-. exact W.
      * destruct (nth_error (p_slices s) q) as [[b n2]|]; [|discriminate ST]. destruct (_ <? _); [|discriminate ST]. injection ST as <- <-. exact W.
      * injection ST as <- <-. exact W.
Qed.
Lemma filling_steps s held acts s' held' t p a n ms rest :
  steps s held acts s' held' -> inv s held -> ~ In (PCall t) acts -> filling s t p a n ms rest -> filling s' t p a n ms rest.
Proof.
  induction 1 as [|s held act s1 ev acts s' held' AL ST STS IH]; intros V NC F; [exact F|].
  apply IH; [eapply inv_step; eassumption|intros X; apply NC; right; exact X|]. eapply filling_step; try eassumption. intros ->. apply NC. left. reflexivity.
Qed.

Lemma filling_get s held t got count ms s' ev :
  inv s held -> pstep s (PGet t got count ms) = Some (s', ev) ->
  exists p a rest, filling s' t p a count ms rest /\
    ev = [] /\ forall l, l = ms ++ rest -> firstn count l = ms ++ skipn (length ms) (destination (given s got) (Z.of_nat count)) /\ count <= length l.
Proof.
  intros V ST. cbn [pstep] in ST. destruct (p_workers s t) eqn:W; [|discriminate ST]. destruct (_ <=? _) eqn:LE; [|discriminate ST]. apply Nat.leb_le in LE.
  assert (FR : forall A : list measurement, count <= length A -> forall l, l = ms ++ skipn (length ms) A ->
     firstn count l = ms ++ skipn (length ms) (firstn count A) /\ count <= length l).
  { intros A LA l ->. rewrite app_length, skipn_length. split; [|lia]. rewrite firstn_app, firstn_all2 by exact LE. f_equal. rewrite skipn_firstn_comm. reflexivity. }
  assert (FZ : forall l, l = ms ++ skipn (length ms) (repeat zeroMeas count) ->
     firstn count l = ms ++ skipn (length ms) (repeat zeroMeas count) /\ count <= length l).
  { intros l H. apply FR in H; [|rewrite repeat_length; lia]. rewrite (firstn_all2 (repeat _ _)) in H by (rewrite repeat_length; lia). exact H. }
  destruct got as [i|]; cbn [given].
  - destruct (nth_error (p_pool s) i) as [p|] eqn:P; [|discriminate ST]. destruct (nth_error (p_slices s) p) as [[a n]|] eqn:SL; [|discriminate ST].
    assert (LP : p < length (p_slices s)) by (apply nth_error_Some; congruence).
    unfold destination, len. destruct (length (array_of s a) <? count) eqn:CAP.
    + apply Nat.ltb_lt in CAP. injection ST as <- <-. exists p, (length (p_arrays s)), (skipn (length ms) (repeat zeroMeas count)). split; [|split; [reflexivity|]].
      * exists 0, ms. unfold array_of. cbn [p_workers p_slices p_arrays]. rewrite set_worker_same, set_at_same, array_new by exact LP. cbn. repeat split; lia.
      * rewrite (proj2 (Z.ltb_lt _ _)) by lia. rewrite Nat2Z.id. exact FZ.
    + apply Nat.ltb_ge in CAP. injection ST as <- <-. exists p, a, (skipn (length ms) (array_of s a)). split; [|split; [reflexivity|]].
      * exists 0, ms. unfold array_of. cbn [p_workers p_slices p_arrays]. rewrite set_worker_same, set_at_same by exact LP. cbn. repeat split; lia.
      * rewrite (proj2 (Z.ltb_ge _ _)) by lia. rewrite Nat2Z.id. apply FR, CAP.
  - injection ST as <- <-. exists (length (p_slices s)), (length (p_arrays s)), (skipn (length ms) (repeat zeroMeas count)). split; [|split; [reflexivity|]].
    + exists 0, ms. unfold array_of. cbn [p_workers p_slices p_arrays]. rewrite set_worker_same, array_new, nth_error_app2, Nat.sub_diag by lia. cbn. repeat split; lia.
    + unfold destination. rewrite Nat2Z.id. exact FZ.
Qed.
Lemma delivered acts1 s held t got count ms s1 ev acts2 s2 held2 s3 ev3 :
  steps pstart [] acts1 s held -> pstep s (PGet t got count ms) = Some (s1, ev) ->
  steps s1 held acts2 s2 held2 -> ~ In (PCall t) acts2 -> pstep s2 (PCall t) = Some (s3, ev3) ->
  exists p, ev3 = [PDelivered t p (ms ++ skipn (length ms) (destination (given s got) (Z.of_nat count)))] /\ ~ In p held2.
Proof.
  intros H0 G H2 NC C. pose proof (inv_steps _ _ _ _ _ H0 inv_start) as V. destruct (filling_get _ _ _ _ _ _ _ _ V G) as (p & a & rest & F & -> & R).
  pose proof (inv_step _ _ (PGet t got count ms) _ _ V Logic.I G) as V1. cbn [held_after map app] in V1.
  pose proof (inv_steps _ _ _ _ _ H2 V1) as V2.
  destruct (filling_steps _ _ _ _ _ _ _ _ _ _ _ H2 V1 NC F) as (k & todo & W & SL & LE & E1 & E2).
  cbn [pstep] in C. rewrite W in C. destruct todo; [|discriminate C]. injection C as <- <-. exists p. split; [|apply (i_fill _ _ V2 _ _ _ _ _ W)].
  do 2 f_equal. rewrite app_nil_r in E1. cbn [length] in E2. rewrite Nat.add_0_r in E2. unfold view. rewrite SL. apply R. rewrite <- E1, <- E2. symmetry. apply firstn_skipn.
Qed.

(** Computing examples. *)
Definition allowedb (held : list nat) (a : paction) : bool :=
  match a with PPut p | PStore p _ _ => existsb (Nat.eqb p) held | _ => true end.
Lemma allowedb_sound held a : allowedb held a = true -> allowed held a.
Proof. destruct a; cbn; trivial; intros H; apply existsb_exists in H as (x & H & E); apply Nat.eqb_eq in E; subst; exact H. Qed.
Fixpoint prun (checked : bool) (s : pstate) (held : list nat) (acts : list paction) : option (pstate * list nat * list pevent) :=
  match acts with
  | [] => Some (s, held, [])
  | a :: r =>
    if negb checked || allowedb held a
    then match pstep s a with
         | Some (s1, ev) => match prun checked s1 (held_after s held a ev) r with Some (s2, h, evs) => Some (s2, h, ev ++ evs) | None => None end
         | None => None
         end
    else None
  end.
Lemma prun_steps acts : forall s held s' held' evs, prun true s held acts = Some (s', held', evs) -> steps s held acts s' held'.
Proof.
  induction acts as [|a r IH]; cbn [prun]; intros s held s' held' evs H; [injection H as <- <- <-; constructor|].
  cbn [negb orb] in H. destruct (allowedb held a) eqn:A; [|discriminate H]. destruct (pstep s a) as [[s1 ev]|] eqn:P; [|discriminate H].
  destruct (prun true s1 _ r) as [[[s2 h] e2]|] eqn:R; [|discriminate H]. injection H as <- <- <-. econstructor; [apply allowedb_sound, A|exact P|eapply IH, R].
Qed.
