(** The lexer takes the longest match: its patterns, [longest], [best_rule] and
    [tokens] against LexSpec. *)
From Coq Require Import String Lia ZifyBool ZifyNat.
From Verif Require Import Base StrModel ExprModel ParseModel LexModel LexSpec.
Open Scope list_scope.
Open Scope Z_scope.

Lemma match_void s : ~ matches RVoid s.
Proof. intro h. inversion h. Qed.
Lemma match_eps s : matches REps s <-> s = [].
Proof. split. intro h. inversion h. reflexivity. intros ->. constructor. Qed.
Lemma match_cat a b s : matches (RCat a b) s <-> exists u v, s = u ++ v /\ matches a u /\ matches b v.
Proof. split. intro h. inversion h. subst. eauto. intros (u & v & -> & h1 & h2). constructor; assumption. Qed.
Lemma match_alt a b s : matches (RAlt a b) s <-> matches a s \/ matches b s.
Proof. split. intro h. inversion h; subst; auto. intros [h | h]; [apply m_left | apply m_right]; assumption. Qed.
Lemma match_set p s : matches (RSet p) s <-> exists c, s = [c] /\ p c = true.
Proof. split. intro h. inversion h. subst. eauto. intros (c & -> & h). constructor. assumption. Qed.
Lemma match_star_cons a c s : matches (RStar a) (c :: s) <-> exists u v, s = u ++ v /\ matches a (c :: u) /\ matches (RStar a) v.
Proof.
  split.
  - intro h. remember (RStar a) as r eqn:Hr. remember (c :: s) as x eqn:Hx. revert Hr Hx. induction h; intros Hr Hx; try discriminate.
    injection Hr as ->. destruct u as [|d u].
    + cbn [app] in Hx. apply IHh2; [reflexivity | exact Hx].
    + cbn [app] in Hx. injection Hx as -> <-. eauto.
  - intros (u & v & -> & h1 & h2). change (c :: u ++ v) with ((c :: u) ++ v). constructor; assumption.
Qed.

Lemma cat_ok a b s : matches (cat a b) s <-> matches (RCat a b) s.
Proof.
  rewrite match_cat. destruct a, b; cbn [cat]; try (rewrite match_cat; reflexivity).
  all: split; intro h; try solve [destruct (match_void _ h)]; try solve [destruct h as (u & v & _ & h1 & h2); first [destruct (match_void _ h1) | destruct (match_void _ h2)]].
  all: try solve [exists [], s; repeat split; [constructor | assumption]].
  all: try solve [exists s, []; rewrite app_nil_r; repeat split; [assumption | constructor]].
  all: destruct h as (u & v & -> & h1 & h2).
  all: try solve [apply match_eps in h1; subst u; assumption].
  all: apply match_eps in h2; subst v; rewrite app_nil_r; assumption.
Qed.
Lemma alt_ok a b s : matches (alt a b) s <-> matches (RAlt a b) s.
Proof.
  rewrite match_alt. destruct a, b; cbn [alt]; try (rewrite match_alt; reflexivity).
  all: split; intro h; auto; destruct h as [h | h]; try assumption; destruct (match_void _ h).
Qed.
Lemma nullable_ok r : nullable r = true <-> matches r [].
Proof.
  induction r; cbn [nullable].
  - split; [discriminate | intro h; destruct (match_void _ h)].
  - split; [constructor | reflexivity].
  - split; [discriminate |]. rewrite match_set. intros (c & h & _). discriminate.
  - rewrite andb_true_iff, IHr1, IHr2, match_cat. split.
    + intros [h1 h2]. exists [], []. auto.
    + intros (u & v & h & h1 & h2). symmetry in h. apply app_eq_nil in h as [-> ->]. auto.
  - rewrite orb_true_iff, IHr1, IHr2, match_alt. reflexivity.
  - split; [constructor | reflexivity].
Qed.
Lemma deriv_ok c r : forall s, matches (deriv c r) s <-> matches r (c :: s).
Proof.
  induction r; intro s; cbn [deriv].
  - split; intro h; destruct (match_void _ h).
  - split; intro h. destruct (match_void _ h). apply match_eps in h. discriminate.
  - rewrite match_set. destruct (p c) eqn:E.
    + rewrite match_eps. split. intros ->. eauto. intros (d & h & _). injection h as _ ->. reflexivity.
    + split. intro h. destruct (match_void _ h). intros (d & h & hd). injection h as <- _. congruence.
  - assert (C : matches (cat (deriv c r1) r2) s <-> exists u v, s = u ++ v /\ matches r1 (c :: u) /\ matches r2 v).
    { rewrite cat_ok, match_cat. split; intros (u & v & h & h1 & h2); exists u, v; repeat split; auto; apply IHr1; assumption. }
    assert (N : matches (RCat r1 r2) (c :: s) <-> (nullable r1 = true /\ matches r2 (c :: s)) \/ (exists u v, s = u ++ v /\ matches r1 (c :: u) /\ matches r2 v)).
    { rewrite match_cat, nullable_ok. split.
      - intros (u & v & h & h1 & h2). destruct u as [|d u]; cbn [app] in h.
        + left. subst v. auto.
        + injection h as <- ->. right. eauto.
      - intros [[h1 h2] | (u & v & -> & h1 & h2)].
        + exists [], (c :: s). auto.
        + exists (c :: u), v. auto. }
    rewrite N. destruct (nullable r1).
    + rewrite alt_ok, match_alt, C, IHr2. split; [intros [h | h]; auto | intros [[_ h] | h]; auto].
    + rewrite C. split; [auto |]. intros [[h _] | h]; [discriminate | assumption].
  - rewrite alt_ok, !match_alt, IHr1, IHr2. reflexivity.
  - rewrite cat_ok, match_cat, match_star_cons. split; intros (u & v & h & h1 & h2); exists u, v; repeat split; auto; apply IHr; assumption.
Qed.

(** ** The longest prefix *)

Definition prefix_of (r : rx) (s : list Z) (m : nat) : Prop := (m <= length s)%nat /\ matches r (firstn m s).

Lemma longest_from_ok : forall s r n best,
  (exists m, prefix_of r s m /\ (forall k, prefix_of r s k -> (k <= m)%nat) /\ longest_from r s n best = Some (n + m)%nat) \/
  ((forall k, ~ prefix_of r s k) /\ longest_from r s n best = best).
Proof.
  induction s as [|c s IH]; intros r n best.
  - assert (E : longest_from r [] n best = if nullable r then Some n else best) by (destruct r; reflexivity).
    rewrite E. destruct (nullable r) eqn:N.
    + left. exists 0%nat. split; [|split].
      * split; [cbn [length]; lia |]. apply nullable_ok. assumption.
      * intros k [h _]. exact h.
      * f_equal. lia.
    + right. split; [|reflexivity]. intros k [h hm]. rewrite firstn_nil in hm. apply nullable_ok in hm. congruence.
  - assert (E : longest_from r (c :: s) n best = if match r with RVoid => true | _ => false end then best
                else longest_from (deriv c r) s (S n) (if nullable r then Some n else best)) by (destruct r; reflexivity).
    rewrite E. destruct (match r with RVoid => true | _ => false end) eqn:V.
    + right. split; [|reflexivity]. intros k [_ h]. destruct r; try discriminate. destruct (match_void _ h).
    + assert (P : forall k, prefix_of r (c :: s) (S k) <-> prefix_of (deriv c r) s k).
      { intro k. unfold prefix_of. cbn [firstn length]. rewrite deriv_ok. split; intros [h1 h2]; split; auto; lia. }
      destruct (IH (deriv c r) (S n) (if nullable r then Some n else best)) as [(m & h1 & h2 & ->) | [h1 ->]].
      * left. exists (S m). split; [apply P; exact h1 |]. split.
        -- intros [|k] hk; [lia |]. apply P in hk. apply h2 in hk. lia.
        -- f_equal. lia.
      * destruct (nullable r) eqn:N.
        -- left. exists 0%nat. split; [|split].
           ++ split; [cbn [length]; lia |]. apply nullable_ok. assumption.
           ++ intros [|k] hk; [lia |]. destruct (h1 k). apply P. exact hk.
           ++ f_equal. lia.
        -- right. split; [|reflexivity]. intros [|k] hk.
           ++ destruct hk as [_ hk]. apply nullable_ok in hk. congruence.
           ++ destruct (h1 k). apply P. exact hk.
Qed.
Lemma longest_some r s m : longest r s = Some m <-> prefix_of r s m /\ (forall k, prefix_of r s k -> (k <= m)%nat).
Proof.
  unfold longest. destruct (longest_from_ok s r 0 None) as [(n & h1 & h2 & ->) | [h ->]].
  - split.
    + intro e. injection e as <-. auto.
    + intros [h3 h4]. f_equal. specialize (h2 _ h3). specialize (h4 _ h1). lia.
  - split; [discriminate |]. intros [h1 _]. destruct (h _ h1).
Qed.
Lemma longest_none r s : longest r s = None <-> forall k, ~ prefix_of r s k.
Proof.
  unfold longest. destruct (longest_from_ok s r 0 None) as [(n & h1 & h2 & ->) | [h ->]].
  - split; [discriminate |]. intro h. destruct (h _ h1).
  - split; auto.
Qed.

(** ** The rule that wins *)

Definition wins (l : list (rx * action)) (s : list Z) (k : nat) (a : action) : Prop :=
  exists before r after, l = before ++ (r, a) :: after /\ prefix_of r s k /\
    (forall r' a' n, In (r', a') l -> prefix_of r' s n -> (n <= k)%nat) /\
    (forall r' a', In (r', a') before -> ~ prefix_of r' s k).
Lemma best_rule_ok l s :
  match best_rule l s with
  | Some (k, a) => wins l s k a
  | None => forall r a k, In (r, a) l -> ~ prefix_of r s k
  end.
Proof.
  induction l as [|[r a] l IH]; cbn [best_rule].
  - intros ? ? ? [].
  - destruct (longest r s) as [n|] eqn:E.
    + apply longest_some in E as [h1 h2]. destruct (best_rule l s) as [[m b]|].
      * destruct IH as (before & r' & after & -> & i1 & i2 & i3). destruct (Nat.ltb n m) eqn:C.
        -- apply Nat.ltb_lt in C. exists ((r, a) :: before), r', after. split; [reflexivity |]. split; [exact i1 |]. split.
           ++ intros q b' k [e | h] hk; [injection e as <- _; apply h2 in hk; lia | eapply i2; eassumption].
           ++ intros q b' [e | h] hk; [injection e as <- _; apply h2 in hk; lia | eapply i3; eassumption].
        -- apply Nat.ltb_ge in C. exists [], r, (before ++ (r', b) :: after). split; [reflexivity |]. split; [exact h1 |]. split.
           ++ intros q b' k [e | h] hk; [injection e as <- _; apply h2; exact hk |]. pose proof (i2 _ _ _ h hk). lia.
           ++ intros ? ? [].
      * exists [], r, l. split; [reflexivity |]. split; [exact h1 |]. split.
        -- intros q b' k [e | h] hk; [injection e as <- _; apply h2; exact hk |]. destruct (IH _ _ _ h hk).
        -- intros ? ? [].
    + pose proof (proj1 (longest_none r s) E) as N. destruct (best_rule l s) as [[m b]|].
      * destruct IH as (before & r' & after & -> & i1 & i2 & i3). exists ((r, a) :: before), r', after. split; [reflexivity |]. split; [exact i1 |]. split.
        -- intros q b' k [e | h] hk; [injection e as <- _; destruct (N _ hk) | eapply i2; eassumption].
        -- intros q b' [e | h] hk; [injection e as <- _; destruct (N _ hk) | eapply i3; eassumption].
      * intros q b' k [e | h] hk; [injection e as <- _; destruct (N _ hk) | destruct (IH _ _ _ h hk)].
Qed.
Lemma split_unique {A} (p : A -> Prop) (b1 : list A) : forall b2 x1 x2 a1 a2, b1 ++ x1 :: a1 = b2 ++ x2 :: a2 -> p x1 -> p x2 ->
  (forall y, In y b1 -> ~ p y) -> (forall y, In y b2 -> ~ p y) -> x1 = x2.
Proof.
  induction b1 as [|y b1 IH]; intros b2 x1 x2 a1 a2 e p1 p2 n1 n2; destruct b2 as [|z b2]; cbn [app] in e; injection e as e1 e2.
  - exact e1.
  - subst z. destruct (n2 _ (or_introl eq_refl) p1).
  - subst y. destruct (n1 _ (or_introl eq_refl) p2).
  - eapply IH; [exact e2 | exact p1 | exact p2 | |]; intros; [apply n1 | apply n2]; right; assumption.
Qed.
Lemma wins_unique l s k a k' a' : wins l s k a -> wins l s k' a' -> k = k' /\ a = a'.
Proof.
  intros (b & r & c & E & h1 & h2 & h3) (b' & r' & c' & E' & h1' & h2' & h3').
  assert (k = k').
  { apply Nat.le_antisymm.
    - eapply h2'; [rewrite E; apply in_or_app; right; left; reflexivity | exact h1].
    - eapply h2; [rewrite E'; apply in_or_app; right; left; reflexivity | exact h1']. }
  subst k'. split; [reflexivity |].
  enough (H : (r, a) = (r', a')) by (injection H; auto).
  eapply (split_unique (fun e => prefix_of (fst e) s k)); [rewrite <- E; exact E' | exact h1 | exact h1' | |].
  - intros [q z] hin. exact (h3 _ _ hin).
  - intros [q z] hin. exact (h3' _ _ hin).
Qed.
Lemma best_rule_wins l s k a : best_rule l s = Some (k, a) <-> wins l s k a.
Proof.
  pose proof (best_rule_ok l s) as H. split.
  - intro e. rewrite e in H. exact H.
  - intro W. destruct (best_rule l s) as [[m b]|].
    + destruct (wins_unique _ _ _ _ _ _ H W) as [-> ->]. reflexivity.
    + destruct W as (before & r & after & -> & h & _). destruct (H r a k); [apply in_or_app; right; left; reflexivity | exact h].
Qed.
Lemma wins_chosen s k a : wins rules s k a <-> chosen s k a.
Proof.
  unfold wins, chosen, prefix_of. split.
  - intros (b & r & c & h & [h1 h2] & h3 & h4). exists b, r, c. repeat split; auto.
    + intros r' a' n hin hl hm. eapply h3; eauto.
    + intros r' a' hin hm. eapply h4; eauto.
  - intros (b & r & c & h & h1 & h2 & h3 & h4). exists b, r, c. repeat split; auto.
    + intros r' a' n hin [hl hm]. eapply h3; eauto.
    + intros r' a' hin [hl hm]. eapply h4; eauto.
Qed.

(** Every text but the empty one has a winner, of at least one character. *)
Lemma rules_proper : forallb (fun e => negb (nullable (fst e))) rules = true.
Proof. vm_compute. reflexivity. Qed.
Lemma chosen_positive s k a : chosen s k a -> (1 <= k)%nat.
Proof.
  intros (b & r & c & h & _ & h2 & _). destruct k as [|k]; [|lia]. cbn [firstn] in h2. apply nullable_ok in h2.
  pose proof rules_proper as P. rewrite forallb_forall in P. specialize (P (r, a)). cbn [fst] in P. rewrite h2 in P.
  discriminate P. rewrite h. apply in_or_app. right. left. reflexivity.
Qed.
Lemma chosen_some c s : exists k a, best_rule rules (c :: s) = Some (k, a) /\ chosen (c :: s) k a.
Proof.
  pose proof (best_rule_ok rules (c :: s)) as H. destruct (best_rule rules (c :: s)) as [[k a]|].
  - exists k, a. split; [reflexivity |]. apply wins_chosen. exact H.
  - exfalso. apply (H UNEXPECTED_CHAR (utf8 TUnexpected) 1%nat).
    + unfold rules. apply in_or_app. right. apply in_or_app. right. cbn [In]. tauto.
    + split; [cbn [length]; lia |]. cbn [firstn]. constructor. reflexivity.
Qed.

(** ** Comments *)

Lemma comment_step c s : (forall r, c :: s <> 42 :: 47 :: r) -> comment_rest (c :: s) = comment_rest s.
Proof.
  intro h. cbn [comment_rest]. destruct (Z.eq_dec c 42) as [->|n].
  - destruct s as [|d s]; [reflexivity |]. destruct (Z.eq_dec d 47) as [->|n'].
    + destruct (h s). reflexivity.
    + destruct d as [|p|p]; try reflexivity. do 7 (try (destruct p; try reflexivity)). congruence.
  - destruct c as [|p|p]; try reflexivity. do 7 (try (destruct p; try reflexivity)). congruence.
Qed.
Lemma comment_length : forall s, (length (comment_rest s) <= length s)%nat.
Proof.
  fix IH 1. intro s. destruct s as [|c s]; [cbn; lia |].
  destruct (list_eq_dec Z.eq_dec (firstn 2 (c :: s)) [42; 47]) as [e|n].
  - destruct s as [|d s]; [discriminate |]. injection e as -> ->. cbn [comment_rest length]. lia.
  - rewrite comment_step. specialize (IH s). cbn [length]. lia.
    intros r e. rewrite e in n. apply n. reflexivity.
Qed.
Lemma closes_cons c s : closes s -> closes (c :: s).
Proof. intros (u & v & ->). exists (c :: u), v. reflexivity. Qed.
Lemma comment_closed : forall b r, ~ closes b -> comment_rest (b ++ 42 :: 47 :: r) = r.
Proof.
  induction b as [|c b IH]; intros r h; [reflexivity |]. cbn [app]. rewrite comment_step.
  - apply IH. intro k. apply h. apply closes_cons. exact k.
  - intros r' e. destruct b as [|d b]; cbn [app] in e.
    + injection e as -> e. discriminate.
    + injection e as -> -> e. apply h. exists [], b. reflexivity.
Qed.
Lemma comment_open : forall b, ~ closes b -> comment_rest b = [].
Proof.
  induction b as [|c b IH]; intro h; [reflexivity |]. rewrite comment_step.
  - apply IH. intro k. apply h. apply closes_cons. exact k.
  - intros r e. apply h. exists [], r. exact e.
Qed.
Lemma comment_cases : forall s, (~ closes s) \/ exists b r, s = b ++ 42 :: 47 :: r /\ ~ closes b.
Proof.
  induction s as [|c s IH].
  - left. intros (u & v & e). destruct u; discriminate.
  - destruct (list_eq_dec Z.eq_dec (firstn 2 (c :: s)) [42; 47]) as [e|n].
    + right. destruct s as [|d s]; [discriminate |]. injection e as -> ->. exists [], s. split; [reflexivity |].
      intros (u & v & e). destruct u; discriminate.
    + destruct IH as [h | (b & r & -> & h)].
      * left. intros ([|d u] & v & e); cbn [app] in e.
        -- injection e as -> ->. apply n. reflexivity.
        -- injection e as -> ->. apply h. exists u, v. reflexivity.
      * right. exists (c :: b), r. split; [reflexivity |]. intros ([|d u] & v & e); cbn [app] in e.
        -- injection e as -> ->. apply n. reflexivity.
        -- injection e as -> ->. apply h. exists u, v. reflexivity.
Qed.

(** ** The tokens *)

Lemma tokens_fuel_step n s : s <> [] -> (forall r, s <> 47 :: 42 :: r) ->
  tokens_fuel (S n) s =
  match best_rule rules s with
  | Some (k, a) => let rest := tokens_fuel n (skipn k s) in match a (firstn k s) with Some t => t :: rest | None => rest end
  | None => []
  end.
Proof.
  intros h1 h2. cbn [tokens_fuel]. destruct s as [|c s]; [congruence |].
  destruct (Z.eq_dec c 47) as [->|n1].
  - destruct s as [|d s]; [reflexivity |]. destruct (Z.eq_dec d 42) as [->|n2].
    + destruct (h2 s). reflexivity.
    + destruct d as [|p|p]; try reflexivity. do 7 (try (destruct p; try reflexivity)). congruence.
  - destruct c as [|p|p]; try reflexivity. do 7 (try (destruct p; try reflexivity)). congruence.
Qed.
Lemma slash_star s : {r | s = 47 :: 42 :: r} + {forall r, s <> 47 :: 42 :: r}.
Proof.
  destruct s as [|c [|d s]]; try (right; intros r e; discriminate).
  destruct (Z.eq_dec c 47) as [->|]; [|right; intros r e; congruence].
  destruct (Z.eq_dec d 42) as [->|]; [|right; intros r e; congruence].
  left. exists s. reflexivity.
Qed.
Lemma tokens_lexes : forall n s, (length s <= n)%nat -> lexes s (tokens_fuel n s).
Proof.
  induction n as [|n IH]; intros s h.
  - destruct s; [constructor | cbn [length] in h; lia].
  - destruct s as [|c s]; [constructor |]. destruct (slash_star (c :: s)) as [[r e]|ns].
    + rewrite e in *. cbn [tokens_fuel]. destruct (comment_cases r) as [o | (b & t & -> & o)].
      * rewrite comment_open by exact o. replace (tokens_fuel n []) with (@nil token) by (destruct n; reflexivity).
        apply lexes_open_comment. exact o.
      * rewrite comment_closed by exact o. apply lexes_comment; [exact o |]. apply IH.
        cbn [length] in h. rewrite app_length in h. cbn [length] in h. lia.
    + rewrite tokens_fuel_step by (try discriminate; exact ns). destruct (chosen_some c s) as (k & a & -> & ck).
      cbn zeta. pose proof (chosen_positive _ _ _ ck) as kp.
      assert (L : lexes (skipn k (c :: s)) (tokens_fuel n (skipn k (c :: s)))) by (apply IH; rewrite skipn_length; cbn [length] in *; lia).
      destruct (a (firstn k (c :: s))) as [t|] eqn:A.
      * eapply lexes_token; eassumption.
      * eapply lexes_hidden; eassumption.
Qed.
Lemma chosen_unique s k a k' a' : chosen s k a -> chosen s k' a' -> k = k' /\ a = a'.
Proof. intros h1 h2. apply wins_chosen in h1, h2. eapply wins_unique; eassumption. Qed.
Lemma closed_unique : forall b b' r r', b ++ 42 :: 47 :: r = b' ++ 42 :: 47 :: r' -> ~ closes b -> ~ closes b' -> r = r'.
Proof.
  intros b b' r r' e h h'. rewrite <- (comment_closed b r h), <- (comment_closed b' r' h'), e. reflexivity.
Qed.
Lemma chosen_nil k a : ~ chosen [] k a.
Proof.
  intro C. pose proof (chosen_positive _ _ _ C) as P. destruct C as (? & ? & ? & ? & l & _). cbn [length] in l. lia.
Qed.
Lemma lexes_unique s ts : lexes s ts -> forall ts', lexes s ts' -> ts = ts'.
Proof.
  induction 1 as [|b r ts nb H IH|b nb|s k a t ts ns C A H IH|s k a ts ns C A H IH]; intros ts' H'; inversion H'; subst.
  all: try reflexivity.
  all: try match goal with C : chosen [] _ _ |- _ => destruct (chosen_nil _ _ C) end.
  all: try match goal with ns : forall r, 47 :: 42 :: _ <> 47 :: 42 :: r |- _ => destruct (ns _ eq_refl) end.
  all: try match goal with nb : ~ closes (?b ++ 42 :: 47 :: ?r) |- _ => destruct nb; exists b, r; reflexivity end.
  all: try match goal with C : chosen ?s _ _, C' : chosen ?s _ _ |- _ => destruct (chosen_unique _ _ _ _ _ C C') as [? ?]; subst end.
  all: try congruence.
  all: try match goal with e : _ ++ 42 :: 47 :: _ = _ ++ 42 :: 47 :: _ |- _ => apply closed_unique in e; [subst | assumption | assumption] end.
  - apply IH. assumption.
  - f_equal; [congruence |]. apply IH. assumption.
  - apply IH. assumption.
Qed.
Lemma tokens_iff s ts : tokens s = ts <-> lexes s ts.
Proof.
  split.
  - intros <-. apply tokens_lexes. reflexivity.
  - intro h. eapply lexes_unique; [|exact h]. apply tokens_lexes. reflexivity.
Qed.
