From Coq Require Import Lia ZifyBool ZifyNat Wf_nat.
From Verif Require Import Base StrModel ReplaceModel ReplaceSpec.
Open Scope list_scope.
Open Scope Z_scope.

(** A template in which nothing follows a dollar sign that could stands for itself. *)
Lemma expand_plain f : forall r m, lone_dollars r -> (length r <= f)%nat -> expand f r m = r.
Proof.
  induction f as [|f IH]; intros r m N B; [destruct r; [reflexivity|cbn in B; lia]|]. destruct r as [|c r]; [reflexivity|].
  assert (N' : lone_dollars r) by (intros a x b ->; apply (N (c :: a) x b eq_refl)). cbn [length] in B.
  assert (E : expand (S f) (c :: r) m = c :: expand f r m).
  { destruct (Z.eq_dec c 36) as [->|C].
    - destruct r as [|x r]; [cbn [expand]; reflexivity|]. destruct (N [] x r eq_refl) as (A1 & A2 & A3 & A4 & A5 & A6).
      assert (T : template_extract (x :: r) = None).
      { assert (TC : template_char x = false) by (unfold template_char; lia). unfold template_extract.
        destruct x as [|p|p]; try (cbn [template_name]; rewrite TC; reflexivity). do 7 (destruct p as [p|p|]; try (cbn [template_name]; rewrite TC; reflexivity)). congruence. }
      cbn [expand]. rewrite T. destruct x as [|p|p]; try reflexivity. do 6 (destruct p as [p|p|]; try reflexivity). congruence.
    - cbn [expand]. destruct c as [|p|p]; try reflexivity. do 6 (destruct p as [p|p|]; try reflexivity). congruence. }
  rewrite E, IH; [reflexivity|exact N'|lia].
Qed.
Lemma Expand_plain r m : lone_dollars r -> Expand r m = r.
Proof. intros N. apply expand_plain; [exact N|lia]. Qed.

Lemma HasPrefixFold_spec s t : HasPrefixFold s t = true <-> exists m v, s = m ++ v /\ same_letters m t.
Proof.
  unfold same_letters. revert s. induction t as [|y t IH]; intros s.
  - split; [intros _; exists [], s; split; reflexivity|intros _; destruct s; reflexivity].
  - destruct s as [|x s].
    + split; [discriminate|]. intros (m & v & E & M). symmetry in E. apply app_eq_nil in E. destruct E as (-> & ->). discriminate M.
    + cbn [HasPrefixFold]. rewrite andb_true_iff, IH. split.
      * intros (A & m & v & -> & M). exists (x :: m), v. split; [reflexivity|]. cbn [map]. f_equal; [lia|exact M].
      * intros (m & v & E & M). destruct m as [|x' m]; [discriminate M|]. cbn [app] in E. injection E as <- ->. cbn [map] in M. injection M as M1 M2. split; [lia|]. exists m, v. auto.
Qed.
Lemma same_length m t : same_letters m t -> length m = length t.
Proof. unfold same_letters. intros H. apply (f_equal (@length Z)) in H. rewrite !map_length in H. exact H. Qed.

Lemma fold_skip s t r k : fold_from s t r k = fold_from (skipn k s) t r 0.
Proof. revert k. induction s as [|x s IH]; intros k; [destruct k; reflexivity|]. destruct k as [|k]; [reflexivity|]. cbn [fold_from skipn]. apply IH. Qed.
Lemma fold_prefix m t r v : t <> [] -> lone_dollars r -> same_letters m t -> fold_from (m ++ v) t r 0 = r ++ fold_from v t r 0.
Proof.
  intros N D M. pose proof (same_length _ _ M) as Len. destruct m as [|c m]; [destruct t; [contradiction|discriminate Len]|]. cbn [app fold_from].
  replace (HasPrefixFold (c :: m ++ v) t) with true by (symmetry; apply HasPrefixFold_spec; exists (c :: m), v; split; [reflexivity|exact M]).
  rewrite Expand_plain by exact D. f_equal. rewrite fold_skip, <- Len. cbn [length]. rewrite Nat.sub_succ, Nat.sub_0_r, skipn_app, skipn_all, Nat.sub_diag. reflexivity.
Qed.
Lemma fold_nonneg s t i : fold_occurs s t i -> 0 <= i.
Proof. intros (u & m & v & _ & <- & _). unfold len. lia. Qed.
Lemma fold_cons x s t i : fold_occurs (x :: s) t i -> (i = 0 /\ HasPrefixFold (x :: s) t = true) \/ fold_occurs s t (i - 1).
Proof.
  intros (u & m & v & E & L & M). destruct u as [|y u].
  - left. split; [exact (eq_sym L)|]. apply HasPrefixFold_spec. exists m, v. split; [exact E|exact M].
  - right. cbn [app] in E. injection E as <- ->. exists u, m, v. split; [reflexivity|]. split; [unfold len in *; cbn [length] in L; lia|exact M].
Qed.
Lemma fold_spec t r s : t <> [] -> lone_dollars r -> fold_replaced t r s (fold_from s t r 0).
Proof.
  intros N D. remember (length s) as n eqn:E. revert s E. induction n as [n IH] using (well_founded_induction lt_wf). intros s ->.
  destruct s as [|x s].
  - apply fold_none. intros i (u & m & v & E & _ & M). symmetry in E. apply app_eq_nil in E. destruct E as (_ & E). apply app_eq_nil in E. destruct E as (-> & _).
    apply same_length in M. destruct t; [contradiction|discriminate M].
  - destruct (HasPrefixFold (x :: s) t) eqn:P.
    + apply HasPrefixFold_spec in P as (m & v & V & M). rewrite V, (fold_prefix m t r v N D M).
      change (m ++ v) with ([] ++ m ++ v). change (r ++ fold_from v t r 0) with ([] ++ r ++ fold_from v t r 0). apply fold_first; [exact M| |].
      * intros i O. apply fold_nonneg in O. cbn. lia.
      * apply (IH (length v)); [|reflexivity]. rewrite V, app_length. apply same_length in M. destruct t; [contradiction|]. cbn in M. lia.
    + cbn [fold_from]. rewrite P. specialize (IH (length s) ltac:(cbn; lia) s eq_refl).
      destruct IH as [s NO|u m s z M F R].
      * apply fold_none. intros i O. apply fold_cons in O as [[_ H]|H]; [congruence|]. exact (NO _ H).
      * change (x :: u ++ m ++ s) with ((x :: u) ++ m ++ s). change (x :: u ++ r ++ z) with ((x :: u) ++ r ++ z). apply fold_first; [exact M| |exact R].
        intros i O. cbn [app] in O. apply fold_cons in O as [[_ H]|H]; [congruence|]. apply F in H. unfold len in *. cbn [length]. lia.
Qed.
Lemma fold_here (u m s t : bytes) : same_letters m t -> fold_occurs (u ++ m ++ s) t (len u).
Proof. intros M. exists u, m, s. auto. Qed.
Lemma fold_unique t r s z z' : t <> [] -> fold_replaced t r s z -> fold_replaced t r s z' -> z = z'.
Proof.
  intros N R. revert z'. induction R as [s NO|u m s z M F R IH]; intros z' R'.
  - inversion R' as [s0 NO' E1 E2|u m s1 z1 M F' R1 E1 E2]; subst; [reflexivity|]. exfalso. exact (NO _ (fold_here _ _ _ _ M)).
  - inversion R' as [s0 NO' E1 E2|u' m' s1 z1 M' F' R1 E1 E2]; subst; [exfalso; exact (NO' _ (fold_here _ _ _ _ M))|].
    assert (LE : len u = len u').
    { pose proof (F (len u') ltac:(rewrite <- E1; apply fold_here; exact M')). pose proof (F' (len u) ltac:(rewrite E1; apply fold_here; exact M)). lia. }
    assert (LM : length m' = length m) by (rewrite (same_length _ _ M), (same_length _ _ M'); reflexivity).
    assert (C : forall (a b c d : bytes), length a = length b -> a ++ c = b ++ d -> a = b /\ c = d).
    { clear. induction a as [|x a IH]; intros [|y b] c d H E; try discriminate; [auto|]. cbn [app] in E. injection E as -> E. injection H as H. destruct (IH b c d H E) as (-> & ->). auto. }
    destruct (C u' u _ _ ltac:(unfold len in LE; lia) E1) as (-> & E3). destruct (C m' m _ _ LM E3) as (-> & ->). rewrite (IH z1 R1). reflexivity.
Qed.
