(** Every layout of a list of tokens is read as those tokens. *)
From Coq Require Import String Lia ZifyBool ZifyNat.
From Verif Require Import Base StrModel ExprModel ParseModel LexModel LexSpec LexProofs LexProofs2.
Open Scope list_scope.
Open Scope Z_scope.

Lemma rule_at n r a : nth_error rules n = Some (r, a) -> rules = firstn n rules ++ (r, a) :: skipn (S n) rules.
Proof.
  generalize rules. induction n as [|n IH]; intros [|e l] h; try discriminate; cbn [nth_error] in h.
  - injection h as ->. reflexivity.
  - cbn [firstn skipn app]. f_equal. apply IH. exact h.
Qed.
Lemma checked (f : rx -> bool) (l : list (rx * action)) e : forallb (fun e => f (fst e)) l = true -> In e l -> f (fst e) = true.
Proof. intros h i. rewrite forallb_forall in h. exact (h e i). Qed.
Lemma before_heads l n h y : forallb (fun e => cannot_start l (fst e)) (firstn n rules) = true -> In h l ->
  forall e, In e (firstn n rules) -> ~ matches (fst e) (h :: y).
Proof. intros c i e hin. eapply cannot_start_ok; [|exact i]. exact (checked (cannot_start l) _ _ c hin). Qed.

(** ** Keywords *)

Definition symbol_rules : list (rx * action) := map (fun e => (text (fst e), fun _ => Some (TSym (snd e)))) symbols.
Definition keyword_rules : list (rx * action) := map (fun e => (word (fst e), fun _ => Some (snd e))) keywords.
Lemma in_lit w w' x : any_case w x -> any_case w' x -> Forall (fun c => 65 <= c <= 90) (lit w) -> Forall (fun c => 65 <= c <= 90) (lit w') -> lit w = lit w'.
Proof.
  unfold any_case. generalize (lit w), (lit w'). intros l l' h. revert l'. induction h as [|c y l x hc h IH]; intros l' h' f f'; inversion h'; subst; [reflexivity |].
  inversion f; inversion f'; subst. f_equal; [lia |]. apply IH; assumption.
Qed.
Definition uppers (w : string) : bool := forallb (fun c => (65 <=? c) && (c <=? 90)) (lit w) && negb (String.eqb w "").
Lemma uppers_ok w : uppers w = true -> Forall (fun c => 65 <= c <= 90) (lit w) /\ w <> EmptyString.
Proof.
  unfold uppers. rewrite andb_true_iff. intros [h n]. split.
  - rewrite forallb_forall in h. apply Forall_forall. intros c i. apply h in i. lia.
  - intros ->. discriminate.
Qed.
Lemma keywords_upper : forallb (fun e => uppers (fst e)) keywords = true.
Proof. vm_compute. reflexivity. Qed.
Lemma lit_inj w : forall w', lit w = lit w' -> w = w'.
Proof.
  induction w as [|a w IH]; intros [|b w'] h; try discriminate; [reflexivity |]. unfold lit in h. cbn [map list_ascii_of_string] in h. injection h as h1 h2. f_equal.
  - apply N2Z.inj in h1. rewrite <- (Ascii.ascii_N_embedding a), <- (Ascii.ascii_N_embedding b). f_equal. exact h1.
  - apply IH. exact h2.
Qed.
Fixpoint distinct (l : list string) : bool := match l with [] => true | w :: l => negb (existsb (String.eqb w) l) && distinct l end.
Lemma distinct_ok l : distinct l = true -> NoDup l.
Proof.
  induction l as [|w l IH]; cbn [distinct]; intro h; [constructor |]. apply andb_true_iff in h as [h1 h2]. constructor; [|apply IH; exact h2].
  intro i. apply negb_true_iff in h1. rewrite <- not_true_iff_false in h1. apply h1. apply existsb_exists. exists w. split; [exact i | apply String.eqb_refl].
Qed.
Lemma keywords_nodup : NoDup (map fst keywords).
Proof. apply distinct_ok. vm_compute. reflexivity. Qed.
Lemma keyword_in k : In (keyword_text k, TKey k) keywords.
Proof. apply (find_some (fun e => String.eqb (fst e) (keyword_text k)) keywords). destruct k; vm_compute; reflexivity. Qed.
Lemma function_in f : In (function_text f, TFunc f) keywords.
Proof. apply (find_some (fun e => String.eqb (fst e) (function_text f)) keywords). destruct f; vm_compute; reflexivity. Qed.
Lemma keyword_match w t x : In (w, t) keywords -> (matches (word w) x <-> any_case w x).
Proof. intro i. apply match_word. apply (uppers_ok w). exact (proj1 (forallb_forall _ _) keywords_upper _ i). Qed.
Lemma symbols_heads : forallb (fun e => cannot_start all_letters (fst e)) symbol_rules = true.
Proof. vm_compute. reflexivity. Qed.
Lemma keyword_upper w t : In (w, t) keywords -> uppers w = true.
Proof. exact (proj1 (forallb_forall _ _) keywords_upper (w, t)). Qed.
Lemma keywords_word w x before : uppers w = true -> (forall t', ~ In (w, t') before) -> (forall e, In e before -> In e keywords) -> any_case w x ->
  forall e, In e (map (fun e => (word (fst e), fun _ : list Z => Some (snd e))) before) -> ~ matches (fst e) x.
Proof.
  intros i n sub a e hin m. apply in_map_iff in hin as ([w' t'] & <- & hin). cbn [fst snd] in m.
  pose proof (sub _ hin) as i'. apply (keyword_match _ _ _ i') in m.
  assert (w = w').
  { apply lit_inj. eapply in_lit; [exact a | exact m | |].
    - apply uppers_ok. exact i.
    - apply uppers_ok. exact (keyword_upper _ _ i'). }
  subst w'. exact (n _ hin).
Qed.
Lemma keyword_wins w t x s : In (w, t) keywords -> any_case w x -> (exists h y, x = h :: y /\ latin h) ->
  (forall e c z s', In e rules -> s = c :: s' -> ~ matches (fst e) (x ++ c :: z)) ->
  exists a, chosen (x ++ s) (length x) a /\ a x = Some t.
Proof.
  intros i a (h & y & E & lh) nx. destruct (in_split _ _ i) as (b & f & K).
  exists (fun _ => Some t). split; [|reflexivity].
  eapply (choose (symbol_rules ++ map (fun e => (word (fst e), fun _ => Some (snd e))) b) (word w)).
  - change rules with (symbol_rules ++ map (fun e => (word (fst e), fun _ : list Z => Some (snd e))) keywords ++ skipn 85 rules). rewrite K.
    rewrite map_app. cbn [map fst snd]. rewrite <- !app_assoc. reflexivity.
  - apply (keyword_match _ _ _ i). exact a.
  - intros e hin. apply in_app_or in hin as [hin|hin].
    + rewrite E. eapply cannot_start_ok; [exact (checked (cannot_start all_letters) _ _ symbols_heads hin) |]. apply in_letters. exact lh.
    + eapply keywords_word; [exact (keyword_upper _ _ i) | | | exact a | exact hin].
      * intros t' it. pose proof keywords_nodup as N. rewrite K, map_app in N. cbn [map fst] in N. apply NoDup_remove_2 in N.
        apply N. apply in_or_app. left. apply (in_map fst) in it. exact it.
      * intros e' ie. rewrite K. apply in_or_app. left. exact ie.
  - exact nx.
Qed.
Definition reserved_word (w : string) : Prop := (exists k, w = keyword_text k) \/ (exists f, w = function_text f).
Definition all_keywords : list keyword := [KAnd; KAsc; KBinary; KBy; KDesc; KFilter; KIn; KIs; KLike; KNot; KNull; KOr; KOrder; KTop; KWhere; KXor].
Definition all_functions : list func :=
  [FAbs; FCeiling; FCoalesce; FConvert; FContains; FDateAdd; FDateDiff; FDatePart; FEndsWith; FFloor; FIIf; FIndexOf; FIsDate; FIsInteger; FIsGuid; FIsNull; FIsNumeric; FLastIndexOf; FLen; FLower; FMaxOf; FMinOf; FNthIndexOf; FNow; FPower; FRegExMatch; FRegExVal; FReplace; FReverse; FRound; FSplit; FSqrt; FStartsWith; FStrCount; FStrCmp; FSubStr; FTrim; FTrimLeft; FTrimRight; FUpper; FUtcNow].
Lemma keywords_reserved : Forall (fun e => reserved_word (fst e)) keywords.
Proof.
  apply Forall_forall. intros e i.
  assert (H : forallb (fun e => existsb (fun k => String.eqb (fst e) (keyword_text k)) all_keywords || existsb (fun f => String.eqb (fst e) (function_text f)) all_functions) keywords = true)
    by (vm_compute; reflexivity).
  rewrite forallb_forall in H. specialize (H e i). apply orb_true_iff in H as [H|H]; apply existsb_exists in H as (k & _ & H); apply String.eqb_eq in H.
  - left. exists k. exact H.
  - right. exists k. exact H.
Qed.
Lemma no_keyword x e : ~ reserved x -> In e keyword_rules -> ~ matches (fst e) x.
Proof.
  intros n i m. apply in_map_iff in i as ([w t] & <- & i). cbn [fst] in m. apply (keyword_match _ _ _ i) in m. apply n.
  pose proof keywords_reserved as R. rewrite Forall_forall in R. destruct (R _ i) as [(k & e)|(f & e)]; cbn [fst] in e; subst w.
  - left. exists k. exact m.
  - right. left. exists f. exact m.
Qed.
