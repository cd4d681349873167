(** Proofs about documents that are loaded at the same time. *)
From Coq Require Import List Bool Arith ZArith Lia.
From Verif Require Import ConcModel ConcProofs DocsModel DocsSpec.
Import ListNotations.
Open Scope list_scope.

Lemma mfield_eqb_spec a b : mfield_eqb a b = true <-> a = b.
Proof. destruct a, b; cbn; split; congruence. Qed.
Definition at_key (a : assignment) (s : Z) (f : mfield) : bool := Z.eqb (fst (fst a)) s && mfield_eqb (snd (fst a)) f.
Lemma assign1_at k a s f : assign1 k a s f = if at_key a s f then Some (snd a) else k s f.
Proof. destruct a as [[s0 f0] v]. reflexivity. Qed.
(** The value after assignments, from the value before *)
Definition after (l : list assignment) (s : Z) (f : mfield) (o : option Z) : option Z := fold_left (fun acc a => if at_key a s f then Some (snd a) else acc) l o.
Lemma after_app l l' s f o : after (l ++ l') s f o = after l' s f (after l s f o).
Proof. apply fold_left_app. Qed.
Lemma after_row r s f o : after (row_assigns r) s f o = if Z.eqb (signal r) s then match values r f with Some v => Some v | None => o end else o.
Proof.
  unfold row_assigns.
  assert (G : forall fs o, after (flat_map (field_assigns r) fs) s f o =
     if existsb (mfield_eqb f) fs then if Z.eqb (signal r) s then match values r f with Some v => Some v | None => o end else o else o).
  { induction fs as [|g fs IH]; intros o'; [reflexivity|]. cbn [flat_map existsb]. rewrite after_app, IH.
    assert (K : after (field_assigns r g) s f o' = if mfield_eqb f g then if Z.eqb (signal r) s then match values r f with Some v => Some v | None => o' end else o' else o').
    { unfold field_assigns. destruct (mfield_eqb f g) eqn:E.
      - apply mfield_eqb_spec in E as ->. destruct (values r g); cbn [after fold_left]; [|destruct (Z.eqb (signal r) s); reflexivity]. unfold at_key; cbn [fst snd].
        replace (mfield_eqb g g) with true by (symmetry; apply mfield_eqb_spec; reflexivity). destruct (Z.eqb (signal r) s); reflexivity.
      - destruct (values r g); [|reflexivity]. cbn [after fold_left]. unfold at_key; cbn [fst snd].
        destruct (mfield_eqb g f) eqn:E2; [apply mfield_eqb_spec in E2 as ->; exfalso; destruct f; discriminate|]. rewrite andb_false_r. reflexivity. }
    rewrite K. destruct (mfield_eqb f g), (existsb (mfield_eqb f) fs), (Z.eqb (signal r) s), (values r f); reflexivity. }
  rewrite G. replace (existsb (mfield_eqb f) mfields) with true by (destruct f; reflexivity). reflexivity.
Qed.
Lemma after_doc d s f o : after (assigns d) s f o = match says d s f with Some v => Some v | None => o end.
Proof.
  unfold says. induction d as [|r d IH] using rev_ind; [reflexivity|]. unfold assigns in *. rewrite flat_map_app, after_app, fold_left_app, IH. cbn [flat_map fold_left]. rewrite app_nil_r, after_row.
  destruct (Z.eqb (signal r) s), (values r f); reflexivity.
Qed.
Lemma latest_snoc ds d s f : latest (ds ++ [d]) s f = match says d s f with Some v => Some v | None => latest ds s f end.
Proof. unfold latest. rewrite fold_left_app. reflexivity. Qed.

(** ** One by one *)
Lemma concat_empty {A} (l : list (list A)) : (forall x, In x l -> x = []) -> concat l = [].
Proof. induction l as [|x l IH]; intros H; [reflexivity|]. cbn [concat]. rewrite (H x) by (left; reflexivity). apply IH. intros y Y. apply H. right. exact Y. Qed.
Definition alone (s : mstate) : Prop := exists i, forall j l, nth_error (loading s) j = Some l -> j <> i -> l = [].
Lemma concat_set {A} (l : list (list A)) i (a : A) r : nth_error l i = Some (a :: r) -> (forall j x, nth_error l j = Some x -> j <> i -> x = []) -> concat l = a :: r /\ concat (set_nth l i r) = r.
Proof.
  revert i. induction l as [|x l IH]; intros i H K; [destruct i; discriminate|]. destruct i as [|i]; cbn [nth_error set_nth concat] in *.
  - injection H as ->. assert (E : concat l = []).
    { apply concat_empty. intros y Y. destruct (In_nth_error _ _ Y) as (j & J). exact (K (S j) y J ltac:(discriminate)). }
    rewrite E, !app_nil_r. auto.
  - pose proof (K 0 x eq_refl ltac:(discriminate)) as ->. apply IH; [exact H|]. intros j y J D. apply (K (S j) y J). congruence.
Qed.
Lemma one_keeps ms : one_by_one ms -> alone (mmrun ms) /\ forall s f, after (concat (loading (mmrun ms))) s f (known (mmrun ms) s f) = latest (arrived (mmrun ms)) s f.
Proof.
  induction 1 as [|ms d O (A & K) L|ms i O (A & K)]; unfold mmrun in *; rewrite ?fold_left_app; cbn [fold_left].
  - split; [exists 0; intros [] l; discriminate|reflexivity].
  - set (st := fold_left mmstep ms mnew) in *. cbn [mmstep known loading arrived]. split.
    + exists (length (loading st)). intros j l J D. cbn [loading] in J. destruct (Nat.lt_ge_cases j (length (loading st))) as [Q|Q].
      * rewrite nth_error_app1 in J by exact Q. apply L. exact (nth_error_In _ _ J).
      * rewrite nth_error_app2 in J by exact Q. destruct (j - length (loading st)) as [|x] eqn:E; [exfalso; apply D; lia|]. cbn in J. destruct x; discriminate.
    + intros s f. rewrite concat_app, (concat_empty (loading st) L). cbn [concat app]. rewrite app_nil_r, after_doc, latest_snoc. rewrite <- K, (concat_empty (loading st) L). reflexivity.
  - set (st := fold_left mmstep ms mnew) in *. cbn [mmstep]. destruct (nth_error (loading st) i) as [[|a r]|] eqn:N; [split; assumption| |split; assumption].
    destruct A as (k & A). assert (k = i) as -> by (destruct (Nat.eq_dec k i); [assumption|specialize (A i _ N ltac:(congruence)); discriminate]).
    destruct (concat_set _ _ _ _ N A) as (C1 & C2). cbn [known loading arrived]. split.
    + exists i. intros j l J D. cbn [loading] in J. rewrite set_nth_other in J by congruence. exact (A j l J D).
    + intros s f. rewrite C2. rewrite <- K, C1. rewrite assign1_at. reflexivity.
Qed.

(** ** Under any schedule *)
Definition halfway (st : mstate) : Prop :=
  (length (loading st) = length (arrived st)) /\
  (forall i l d, nth_error (loading st) i = Some l -> nth_error (arrived st) i = Some d -> exists before, assigns d = before ++ l) /\
  (forall s f, (known st s f = None /\ forall i l d, nth_error (loading st) i = Some l -> nth_error (arrived st) i = Some d -> after l s f None = says d s f) \/
     (exists i l d v, nth_error (loading st) i = Some l /\ nth_error (arrived st) i = Some d /\ after l s f (known st s f) = Some v /\ says d s f = Some v)).
Lemma after_none_or l s f o : after l s f o = match after l s f None with Some v => Some v | None => o end.
Proof.
  revert o. induction l as [|a l IH] using rev_ind; intros o; [reflexivity|]. rewrite !after_app, IH. cbn [after fold_left]. destruct (at_key a s f); reflexivity.
Qed.
Lemma says_after d s f : says d s f = after (assigns d) s f None.
Proof. rewrite after_doc. destruct (says d s f); reflexivity. Qed.
Lemma halfway_step st m : halfway st -> halfway (mmstep st m).
Proof.
  intros (L & P & K). destruct m as [d|i]; cbn [mmstep].
  - split; [cbn [loading arrived]; rewrite !app_length; cbn; lia|]. cbn [loading arrived known]. split.
    + intros i l e H1 H2. destruct (Nat.lt_ge_cases i (length (loading st))) as [Q|Q].
      * rewrite nth_error_app1 in H1 by exact Q. rewrite nth_error_app1 in H2 by lia. exact (P i l e H1 H2).
      * rewrite nth_error_app2 in H1 by exact Q. rewrite nth_error_app2 in H2 by lia. rewrite L in H1. destruct (i - length (arrived st)) as [|x]; [|destruct x; discriminate]. injection H1 as <-. injection H2 as <-. exists []. reflexivity.
    + intros s f. destruct (K s f) as [(N & H)|(i & l & e & v & H1 & H2 & H3 & H4)].
      * left. split; [exact N|]. intros i l e H1 H2. destruct (Nat.lt_ge_cases i (length (loading st))) as [Q|Q].
        -- rewrite nth_error_app1 in H1 by exact Q. rewrite nth_error_app1 in H2 by lia. exact (H i l e H1 H2).
        -- rewrite nth_error_app2 in H1 by exact Q. rewrite nth_error_app2 in H2 by lia. rewrite L in H1. destruct (i - length (arrived st)) as [|x]; [|destruct x; discriminate]. injection H1 as <-. injection H2 as <-. symmetry. apply says_after.
      * right. exists i, l, e, v. split; [|split; [|auto]]; (rewrite nth_error_app1; [assumption|apply nth_error_Some; congruence]).
  - destruct (nth_error (loading st) i) as [[|a r]|] eqn:N; [repeat split; assumption| |repeat split; assumption].
    assert (B : exists d, nth_error (arrived st) i = Some d).
    { destruct (nth_error (arrived st) i) as [d|] eqn:E; [exists d; reflexivity|]. exfalso. apply nth_error_None in E. assert (i < length (loading st)) by (apply nth_error_Some; congruence). lia. }
    destruct B as (d & Nd). destruct (P i _ _ N Nd) as (before & Pd).
    split; [cbn [loading arrived]; rewrite set_nth_length; exact L|]. cbn [loading arrived known]. split.
    + intros j l e H1 H2. destruct (Nat.eq_dec i j) as [<-|D].
      * rewrite (set_nth_same _ _ _ _ N) in H1. injection H1 as <-. rewrite Nd in H2. injection H2 as <-. exists (before ++ [a]). rewrite <- app_assoc. exact Pd.
      * rewrite (set_nth_other _ _ _ _ D) in H1. exact (P j l e H1 H2).
    + intros s f. rewrite assign1_at. destruct (at_key a s f) eqn:E.
      * right. exists i, r, d. destruct (after r s f (Some (snd a))) as [v|] eqn:V.
        -- exists v. split; [exact (set_nth_same _ _ _ _ N)|]. split; [exact Nd|]. split; [reflexivity|]. rewrite says_after, Pd, after_app. cbn [after fold_left]. rewrite E. exact V.
        -- exfalso. rewrite after_none_or in V. destruct (after r s f None); discriminate.
      * destruct (K s f) as [(Kn & H)|(j & l & e & v & H1 & H2 & H3 & H4)].
        -- left. split; [exact Kn|]. intros j l e H1 H2. destruct (Nat.eq_dec i j) as [<-|D].
           ++ rewrite (set_nth_same _ _ _ _ N) in H1. injection H1 as <-. rewrite <- (H i _ _ N H2). cbn [after fold_left]. rewrite E. reflexivity.
           ++ rewrite (set_nth_other _ _ _ _ D) in H1. exact (H j l e H1 H2).
        -- right. destruct (Nat.eq_dec i j) as [<-|D].
           ++ rewrite N in H1. injection H1 as <-. exists i, r, e, v. split; [exact (set_nth_same _ _ _ _ N)|]. split; [exact H2|]. split; [|exact H4]. cbn [after fold_left] in H3. rewrite E in H3. exact H3.
           ++ exists j, l, e, v. split; [rewrite (set_nth_other _ _ _ _ D); exact H1|]. auto.
Qed.
Lemma mm_keeps (P : mstate -> Prop) : (forall s m, P s -> P (mmstep s m)) -> forall ms s, P s -> P (fold_left mmstep ms s).
Proof. intros K. induction ms as [|m ms IH]; intros s H; [exact H|]. cbn [fold_left]. apply IH, K, H. Qed.
Lemma halfway_new : halfway mnew.
Proof. split; [reflexivity|]. split; [intros [] l d; discriminate|]. intros s f. left. split; [reflexivity|]. intros [] l d; discriminate. Qed.

(** ** The older document last *)
Lemma runs_all i : forall l st, nth_error (loading st) i = Some l ->
  let st' := fold_left mmstep (repeat (Assigns i) (length l)) st in
  loading st' = set_nth (loading st) i [] /\ arrived st' = arrived st /\ forall s f, known st' s f = after l s f (known st s f).
Proof.
  induction l as [|a l IH]; intros st N; cbn [length repeat fold_left].
  - split; [|auto]. revert i N. generalize (loading st). induction l as [|x l IH]; intros i N; [destruct i; discriminate|]. destruct i as [|i]; cbn [nth_error set_nth] in *; [congruence|f_equal; exact (IH i N)].
  - cbn [mmstep]. rewrite N. set (s1 := MState (assign1 (known st) a) (set_nth (loading st) i l) (arrived st)).
    assert (N1 : nth_error (loading s1) i = Some l) by exact (set_nth_same _ _ _ _ N). destruct (IH s1 N1) as (R1 & R2 & R3). split; [rewrite R1; cbn [s1 loading]; clear; generalize (loading st); intros q; revert i; induction q as [|x q IHq]; intros [|i]; cbn; try reflexivity; f_equal; apply IHq|].
    split; [exact R2|]. intros s f. rewrite R3. cbn [s1 known]. rewrite assign1_at. reflexivity.
Qed.
