(** Spelled-out tokens are read back: the rule that wins on a spelling. *)
From Coq Require Import String Lia ZifyBool ZifyNat.
From Verif Require Import Base StrModel ExprModel ParseModel LexModel LexSpec LexProofs.
Open Scope list_scope.
Open Scope Z_scope.

(** ** What patterns cannot match *)

Fixpoint no_char (c : Z) (r : rx) : bool :=
  match r with
  | RVoid | REps => true
  | RSet p => negb (p c)
  | RCat a b | RAlt a b => no_char c a && no_char c b
  | RStar a => no_char c a
  end.
Lemma no_char_ok c r s : matches r s -> no_char c r = true -> ~ In c s.
Proof.
  induction 1; cbn [no_char]; intros h k.
  - destruct k.
  - destruct k as [->|[]]. rewrite H in h. discriminate.
  - apply andb_true_iff in h as [h1 h2]. apply in_app_or in k as [k|k]; [apply IHmatches1 | apply IHmatches2]; assumption.
  - apply andb_true_iff in h as [h1 h2]. apply IHmatches; assumption.
  - apply andb_true_iff in h as [h1 h2]. apply IHmatches; assumption.
  - destruct k.
  - apply in_app_or in k as [k|k]; [apply IHmatches1 | apply IHmatches2]; assumption.
Qed.
Definition void (r : rx) : bool := match r with RVoid => true | _ => false end.
Definition cannot_start (l : list Z) (r : rx) : bool := forallb (fun c => void (deriv c r)) l.
Lemma cannot_start_ok l r c s : cannot_start l r = true -> In c l -> ~ matches r (c :: s).
Proof.
  intros h i k. unfold cannot_start in h. rewrite forallb_forall in h. specialize (h c i). apply deriv_ok in k.
  destruct (deriv c r); try discriminate. destruct (match_void _ k).
Qed.
Definition is_set (r : rx) : bool := match r with RSet _ => true | _ => false end.
Lemma is_set_ok r a b s : is_set r = true -> ~ matches r (a :: b :: s).
Proof. destruct r; try discriminate. intros _ h. apply match_set in h as (c & e & _). discriminate. Qed.
Lemma is_set_app r x c s : is_set r = true -> x <> [] -> ~ matches r (x ++ c :: s).
Proof.
  intros h n k. destruct x as [|a x]; [congruence |]. destruct x as [|b x]; cbn [app] in k; eapply is_set_ok; eassumption.
Qed.
Definition zrange (a : Z) (n : nat) : list Z := map (fun i => a + Z.of_nat i) (List.seq 0 n).
Lemma in_zrange a n c : a <= c < a + Z.of_nat n -> In c (zrange a n).
Proof. intro h. unfold zrange. apply in_map_iff. exists (Z.to_nat (c - a)). split; [lia |]. apply in_seq. lia. Qed.

Definition all_digits : list Z := zrange 48 10.
Definition all_letters : list Z := zrange 97 26 ++ zrange 65 26.
Lemma in_digits c : digit c -> In c all_digits.
Proof. intro h. apply in_zrange. unfold digit in h. lia. Qed.
Lemma in_letters c : latin c -> In c all_letters.
Proof. intro h. unfold all_letters. apply in_or_app. destruct h as [h|h]; [left|right]; apply in_zrange; lia. Qed.
Lemma in_hex c : hex c -> In c (all_digits ++ all_letters).
Proof. intro h. apply in_or_app. destruct h as [h|h]; [left; apply in_digits; exact h | right; apply in_letters; unfold latin; lia]. Qed.

(** ** What they match *)

Lemma star_set p s : matches (RStar (RSet p)) s <-> Forall (fun c => p c = true) s.
Proof.
  induction s as [|c s IH]; [split; constructor |]. rewrite match_star_cons. split.
  - intros (u & v & -> & h & k). apply match_set in h as (d & e & hd). injection e as <- ->. cbn [app] in *. constructor; [exact hd |]. apply IH. exact k.
  - intro h. inversion h; subst. exists [], s. repeat split; [constructor; assumption |]. apply IH. assumption.
Qed.
Lemma plus_set p s : matches (plus (RSet p)) s <-> s <> [] /\ Forall (fun c => p c = true) s.
Proof.
  unfold plus. rewrite match_cat. split.
  - intros (u & v & -> & h & k). apply match_set in h as (d & -> & hd). apply star_set in k. split; [discriminate |]. constructor; assumption.
  - intros [n h]. destruct s as [|c s]; [congruence |]. inversion h; subst. exists [c], s. repeat split; [constructor; assumption |]. apply star_set. assumption.
Qed.
Lemma times_set p n : forall s, matches (times (S n) (RSet p)) s <-> length s = S n /\ Forall (fun c => p c = true) s.
Proof.
  induction n as [|n IH]; intro s.
  - cbn [times]. rewrite match_set. split.
    + intros (c & -> & h). split; [reflexivity |]. constructor; [exact h | constructor].
    + intros [l h]. destruct s as [|c [|d s]]; try discriminate. inversion h; subst. eauto.
  - change (times (S (S n)) (RSet p)) with (RCat (RSet p) (times (S n) (RSet p))). rewrite match_cat. split.
    + intros (u & v & -> & h & k). apply match_set in h as (c & -> & h). apply IH in k as [k1 k2]. split; [cbn [app length]; lia |]. constructor; assumption.
    + intros [l h]. destruct s as [|c s]; [discriminate |]. inversion h; subst. exists [c], s. repeat split; [constructor; assumption |].
      apply IH. split; [|assumption]. cbn [length] in l. lia.
Qed.
Lemma match_one c s : matches (one c) s <-> s = [c].
Proof. unfold one. rewrite match_set. split. intros (d & -> & h). f_equal. lia. intros ->. exists c. split; [reflexivity | lia]. Qed.
Lemma match_opt r s : matches (opt r) s <-> s = [] \/ matches r s.
Proof. unfold opt. rewrite match_alt, match_eps. reflexivity. Qed.
Lemma seq_cons r l s : l <> [] -> matches (seq (r :: l)) s <-> exists u v, s = u ++ v /\ matches r u /\ matches (seq l) v.
Proof. intro n. destruct l; [congruence |]. apply match_cat. Qed.
Lemma match_text w s : w <> EmptyString -> matches (text w) s <-> s = lit w.
Proof.
  unfold text. enough (H : forall l s, l <> [] -> matches (seq (map one l)) s <-> s = l).
  { intro n. apply H. destruct w; [congruence | discriminate]. }
  clear w s. induction l as [|c l IH]; intros s n; [congruence |]. destruct l as [|d l].
  - cbn [map seq]. apply match_one.
  - cbn [map]. rewrite seq_cons by discriminate. split.
    + intros (u & v & -> & h & k). apply match_one in h as ->. apply (IH v) in k; [|discriminate]. rewrite k. reflexivity.
    + intros ->. exists [c], (d :: l). repeat split; [apply match_one; reflexivity |]. apply (IH (d :: l)); [discriminate | reflexivity].
Qed.
Lemma match_letter c s : matches (letter c) s <-> exists y, s = [y] /\ (y = c \/ y = c + 32).
Proof. unfold letter. rewrite match_set. split; intros (y & -> & h); exists y; (split; [reflexivity |]); lia. Qed.
Lemma match_word w s : w <> EmptyString -> matches (word w) s <-> any_case w s.
Proof.
  unfold word, any_case. enough (H : forall l s, l <> [] -> matches (seq (map letter l)) s <-> Forall2 (fun c y => y = c \/ y = c + 32) l s).
  { intro n. apply H. destruct w; [congruence | discriminate]. }
  clear w s. induction l as [|c l IH]; intros s n; [congruence |]. destruct l as [|d l].
  - cbn [map seq]. rewrite match_letter. split.
    + intros (y & -> & h). constructor; [exact h | constructor].
    + intro h. inversion h as [|? y ? s' hy hs]; subst. inversion hs; subst. eauto.
  - cbn [map]. rewrite seq_cons by discriminate. split.
    + intros (u & v & -> & h & k). apply match_letter in h as (y & -> & h). constructor; [exact h |]. apply IH; [discriminate | exact k].
    + intro h. inversion h as [|? y ? s' hy hs]; subst. exists [y], s'. repeat split; [apply match_letter; eauto |]. apply IH; [discriminate | exact hs].
Qed.

(** ** The winner on a text that begins with [x] *)

Lemma firstn_exact {A} (x s : list A) : firstn (length x) (x ++ s) = x.
Proof. rewrite firstn_app, firstn_all, Nat.sub_diag. cbn [firstn]. apply app_nil_r. Qed.
Lemma skipn_exact {A} (x s : list A) : skipn (length x) (x ++ s) = s.
Proof. rewrite skipn_app, skipn_all, Nat.sub_diag. reflexivity. Qed.
Lemma choose before r a after x s : rules = before ++ (r, a) :: after -> matches r x ->
  (forall e, In e before -> ~ matches (fst e) x) ->
  (forall e c z s', In e rules -> s = c :: s' -> ~ matches (fst e) (x ++ c :: z)) ->
  chosen (x ++ s) (length x) a.
Proof.
  intros E m nb nx. exists before, r, after. split; [exact E |]. split; [rewrite app_length; lia |]. rewrite firstn_exact. split; [exact m |]. split.
  - intros r' a' n hin hl hm. destruct (Nat.le_gt_cases n (length x)) as [|g]; [assumption |]. exfalso.
    rewrite firstn_app in hm. rewrite firstn_all2 in hm by lia. destruct s as [|c s]; [rewrite app_length in hl; cbn [length] in hl; lia |].
    destruct (n - length x)%nat as [|j] eqn:J; [lia |]. cbn [firstn] in hm. exact (nx (r', a') c _ s hin eq_refl hm).
  - intros r' a' hin. exact (nb (r', a') hin).
Qed.

(** ** No token goes on with a separator *)

Definition breakers : list Z := [32; 9; 10; 11; 13; 40; 41; 44; 59].
Definition safe (r : rx) : bool := forallb (fun c => no_char c r || is_set r) breakers.
Lemma safe_ok r x c z : safe r = true -> In c breakers -> x <> [] -> ~ matches r (x ++ c :: z).
Proof.
  intros h i n m. unfold safe in h. rewrite forallb_forall in h. specialize (h c i). apply orb_true_iff in h as [h|h].
  - eapply no_char_ok; [exact m | exact h |]. apply in_or_app. right. left. reflexivity.
  - eapply is_set_app; eassumption.
Qed.
Definition plain_name : rx := seq [RSet is_name_start; RStar (RSet is_name)].
Lemma rules_split : rules = firstn 86 rules ++ (IDENTIFIER, utf8 TIdent) :: firstn 5 (skipn 87 rules) ++
  (STRING_LITERAL, utf8 TStr) :: (DATETIME_LITERAL, utf8 TDate) :: (SINGLE_LINE_COMMENT, fun _ => None) :: skipn 95 rules.
Proof. reflexivity. Qed.
Lemma safe_rules : forallb (fun e => safe (fst e)) (firstn 86 rules ++ firstn 5 (skipn 87 rules) ++ skipn 95 rules) = true.
Proof. vm_compute. reflexivity. Qed.
Lemma rules_cases e : In e rules -> safe (fst e) = true \/ fst e = IDENTIFIER \/ fst e = STRING_LITERAL \/ fst e = DATETIME_LITERAL \/ fst e = SINGLE_LINE_COMMENT.
Proof.
  pose proof safe_rules as H. rewrite forallb_forall in H. rewrite rules_split. intro h. apply in_app_or in h as [h|[<-|h]].
  - left. apply H. apply in_or_app. left. exact h.
  - auto.
  - apply in_app_or in h as [h|[<-|[<-|[<-|h]]]]; auto 6.
    + left. apply H. apply in_or_app. right. apply in_or_app. left. exact h.
    + left. apply H. apply in_or_app. right. apply in_or_app. right. exact h.
Qed.

(** The first character of a spelling *)
Lemma symbol_head s : exists h y, lit (symbol_text s) = h :: y /\ In h [59; 45; 43; 44; 40; 41; 33; 126; 61; 60; 62; 38; 124; 94; 42; 47; 37] /\ (h = 45 \/ h = 47 -> y = []).
Proof. destruct s; cbn; eexists _, _; (split; [reflexivity |]); (split; [tauto |]); intro; first [reflexivity | lia]. Qed.
Lemma any_case_head w h y : any_case w (h :: y) -> forall c v, lit w = c :: v -> h = c \/ h = c + 32.
Proof. unfold any_case. intros f c v e. rewrite e in f. inversion f; subst. assumption. Qed.
Lemma keyword_head k x : any_case (keyword_text k) x -> exists h y, x = h :: y /\ latin h.
Proof.
  intro f. unfold any_case in f. destruct k; cbn in f; inversion f as [|? h ? y hh]; subst; exists h, y; (split; [reflexivity |]); unfold latin; lia.
Qed.
Lemma function_head k x : any_case (function_text k) x -> exists h y, x = h :: y /\ latin h.
Proof.
  intro f. unfold any_case in f. destruct k; cbn in f; inversion f as [|? h ? y hh]; subst; exists h, y; (split; [reflexivity |]); unfold latin; lia.
Qed.
Lemma bool_head x : any_case "TRUE" x \/ any_case "FALSE" x -> exists h y, x = h :: y /\ latin h.
Proof.
  intro f. unfold any_case in f. destruct f as [f|f]; cbn in f; inversion f as [|? h ? y hh]; subst; exists h, y; (split; [reflexivity |]); unfold latin; lia.
Qed.
Lemma digits_head x : digits x -> exists h y, x = h :: y /\ digit h.
Proof. intros [n f]. destruct x as [|h y]; [congruence |]. inversion f; subst. eauto. Qed.
Lemma hexes_head n x : hexes (S n) x -> exists h y, x = h :: y /\ hex h /\ hexes n y.
Proof. intros [l f]. destruct x as [|h y]; [discriminate |]. inversion f; subst. exists h, y. unfold hexes. auto. Qed.

(** How a spelling that begins with [`], ['], [#], [-] or [/] looks *)
Inductive head_kind : Z -> list Z -> Prop :=
| hk_backtick x : ~ In 96 x -> head_kind 96 (x ++ [96])
| hk_bracket x : ~ In 93 x -> head_kind 91 (x ++ [93])
| hk_quote x : quoted x -> head_kind 39 (x ++ [39])
| hk_date x : ~ In 35 x -> head_kind 35 (x ++ [35])
| hk_minus : head_kind 45 []
| hk_slash : head_kind 47 []
| hk_key d y : d <> 45 -> head_kind 45 (d :: y)
| hk_other h y : ~ In h [96; 91; 39; 35; 45; 47] -> head_kind h y.
Lemma quoted_plain x : Forall (fun c => c <> 39) x -> quoted x.
Proof. induction 1; constructor; assumption. Qed.
Lemma hex_not c : hex c -> ~ In c [96; 91; 39; 35; 45; 93; 123; 125].
Proof. unfold hex, digit. cbn [In]. lia. Qed.
Lemma guid_shape_chars x : guid_shape x -> Forall (fun c => hex c \/ c = 45) x.
Proof.
  assert (D : forall p, dash p -> Forall (fun c => hex c \/ c = 45) p) by (intros p [->| ->]; repeat constructor; auto).
  assert (X : forall n p, hexes n p -> Forall (fun c => hex c \/ c = 45) p) by (intros n p [_ f]; eapply Forall_impl; [|exact f]; auto).
  intros (a & p & b & q & c & r & d & s & e & -> & h). decompose [and] h. repeat (apply Forall_app; split); eauto.
Qed.
Lemma guid_shape_quoted x : guid_shape x -> quoted x.
Proof. intro h. apply guid_shape_chars in h. apply quoted_plain. eapply Forall_impl; [|exact h]. unfold hex, digit. cbn beta. lia. Qed.
Lemma spelled_head t x : spelled t x -> exists h y, x = h :: y /\ head_kind h y.
Proof.
  assert (L : forall h y, latin h \/ h = 95 \/ digit h \/ hex h \/ In h [46; 123; 34] -> head_kind h y).
  { intros h y k. apply hk_other. unfold latin, digit, hex, digit in k. cbn [In] in *. lia. }
  intro h. inversion h; subst; clear h.
  - destruct (symbol_head s) as (h & y & -> & k & m). exists h, y. split; [reflexivity |]. destruct (Z.eq_dec h 45) as [->|n].
    + rewrite m by auto. constructor.
    + destruct (Z.eq_dec h 47) as [->|n']; [rewrite m by auto; constructor |]. apply hk_other. cbn [In] in *. lia.
  - destruct (keyword_head _ _ H) as (h & y & -> & kk). eexists _, _. split; [reflexivity | apply L; tauto].
  - destruct (function_head _ _ H) as (h & y & -> & k). eexists _, _. split; [reflexivity | apply L; tauto].
  - destruct (bool_head _ H) as (h & y & -> & k). eexists _, _. split; [reflexivity | apply L; tauto].
  - exists c, x0. split; [reflexivity |]. apply L. unfold name_start in H. tauto.
  - eexists _, _. split; [reflexivity |]. constructor. assumption.
  - eexists _, _. split; [reflexivity |]. constructor. assumption.
  - destruct (digits_head _ H) as (h & y & -> & k). eexists _, _. split; [reflexivity | apply L; tauto].
  - eexists _, _. split; [reflexivity |]. apply L. unfold digit. lia.
  - destruct (digits_head _ H) as (h & y & -> & k). eexists _, _. split; [reflexivity | apply L; tauto].
  - destruct (digits_head _ H) as (h & y & -> & k). eexists _, _. split; [reflexivity | apply L; tauto].
  - eexists _, _. split; [reflexivity |]. apply L. cbn [In]. tauto.
  - destruct H as (a & b & c & d & e & -> & ha & _). destruct (hexes_head _ _ ha) as (h & y & -> & k & _). eexists _, _. split; [reflexivity | apply L; tauto].
  - eexists _, _. split; [reflexivity |]. apply L. cbn [In]. tauto.
  - eexists _, _. split; [reflexivity |]. constructor. apply guid_shape_quoted. assumption.
  - eexists _, _. split; [reflexivity |]. destruct (Z.eq_dec c 45) as [->|n].
    + destruct x0 as [|d' x0]; cbn [app]; apply hk_key; [discriminate |]. specialize (H2 eq_refl). cbn [hd] in H2. exact H2.
    + apply hk_other. unfold acronym, latin, digit in H. cbn [In] in *. lia.
  - eexists _, _. split; [reflexivity |]. apply L. cbn [In]. tauto.
  - eexists _, _. split; [reflexivity |]. constructor. assumption.
  - eexists _, _. split; [reflexivity |]. constructor. assumption.
Qed.

(** Text that is closed by a character it does not contain *)
Lemma closed_once (q : Z) y c z w : ~ In q y -> ~ In q w -> y ++ q :: c :: z <> w ++ [q].
Proof.
  revert w. induction y as [|d y IH]; intros w h1 h2 e; destruct w as [|f w]; cbn [app] in e.
  - discriminate.
  - injection e as e1 e2. subst f. apply h2. left. reflexivity.
  - injection e as e1 e2. subst d. apply h1. left. reflexivity.
  - injection e as e1 e2. eapply IH; [| |exact e2]; intro k; [apply h1 | apply h2]; right; exact k.
Qed.
Lemma matches_closed p q s : matches (seq [one p; plus (but q); one q]) s -> exists w, s = p :: w ++ [q] /\ w <> [] /\ ~ In q w.
Proof.
  intro h. rewrite seq_cons in h by discriminate. destruct h as (u & v & -> & h1 & h). apply match_one in h1 as ->.
  rewrite seq_cons in h by discriminate. destruct h as (w & v' & -> & h1 & h). cbn [seq] in h. apply match_one in h as ->.
  apply plus_set in h1 as [n f]. exists w. repeat split; [exact n |]. intro k. rewrite Forall_forall in f. apply f in k. lia.
Qed.
Lemma matches_quoted s : matches (RStar (RAlt (but 39) (seq [one 39; one 39]))) s -> quoted s.
Proof.
  intro h. remember (RStar (RAlt (but 39) (seq [one 39; one 39]))) as r eqn:R. revert R. induction h; intro R; try discriminate.
  - constructor.
  - injection R as ->. specialize (IHh2 eq_refl). clear IHh1 h2. apply match_alt in h1 as [h|h].
    + apply match_set in h as (c & -> & h). cbn [app]. apply q_char; [lia | exact IHh2].
    + apply match_cat in h. destruct h as (a & b & -> & h1 & h2). cbn [seq] in h2. apply match_one in h1 as ->. apply match_one in h2 as ->.
      cbn [app]. apply q_quote. exact IHh2.
Qed.
Lemma quoted_once y c z : quoted y -> c <> 39 -> forall w, quoted w -> y ++ 39 :: c :: z <> w ++ [39].
Proof.
  intros h n. induction h as [|d y hd hy IH|y hy IH]; intros w hw e; destruct hw as [|f w hf hw|w hw]; cbn [app] in e; try discriminate.
  all: injection e; intros; subst; try congruence; eapply IH; eauto.
Qed.
Lemma head_once h y c z : head_kind h y -> In c breakers -> forall r, In r [IDENTIFIER; STRING_LITERAL; DATETIME_LITERAL; SINGLE_LINE_COMMENT] -> ~ matches r ((h :: y) ++ c :: z).
Proof.
  intros k b r hr m. cbn [app] in m.
  assert (bc : c <> 96 /\ c <> 93 /\ c <> 39 /\ c <> 35 /\ c <> 45) by (cbn [In breakers] in b; lia).
  cbn [In] in hr. destruct hr as [<-|[<-|[<-|[<-|[]]]]].
  - apply match_alt in m as [m|m]; [|apply match_alt in m as [m|m]].
    + apply matches_closed in m as (w & e & _ & n). injection e as -> e. inversion k; subst.
      * rewrite <- app_assoc in e. cbn [app] in e. exact (closed_once _ _ _ _ _ H n e).
      * cbn [In] in H. tauto.
    + apply matches_closed in m as (w & e & _ & n). injection e as -> e. inversion k; subst.
      * rewrite <- app_assoc in e. cbn [app] in e. exact (closed_once _ _ _ _ _ H n e).
      * cbn [In] in H. tauto.
    + assert (P : safe plain_name = true) by (vm_compute; reflexivity). apply (safe_ok _ (h :: y) c z P b); [discriminate | exact m].
  - unfold STRING_LITERAL in m. rewrite seq_cons in m by discriminate. destruct m as (u & v & e & h1 & m). apply match_one in h1 as ->.
    rewrite seq_cons in m by discriminate. destruct m as (w & v' & -> & h1 & m). cbn [seq] in m. apply match_one in m as ->. apply matches_quoted in h1.
    cbn [app] in e. injection e as -> e. inversion k; subst.
    + rewrite <- app_assoc in e. cbn [app] in e. apply (quoted_once _ c z H (proj1 (proj2 (proj2 bc))) _ h1 e).
    + cbn [In] in H. tauto.
  - apply matches_closed in m as (w & e & _ & n). injection e as -> e. inversion k; subst.
    + rewrite <- app_assoc in e. cbn [app] in e. exact (closed_once _ _ _ _ _ H n e).
    + cbn [In] in H. tauto.
  - unfold SINGLE_LINE_COMMENT in m. rewrite seq_cons in m by discriminate. destruct m as (u & v & e & h1 & m). apply match_one in h1 as ->.
    rewrite seq_cons in m by discriminate. destruct m as (w & v' & -> & h1 & m). apply match_one in h1 as ->. cbn [app] in e. injection e as -> e.
    inversion k; subst; cbn [app] in e.
    + injection e. intros. lia.
    + injection e. intros. lia.
    + cbn [In] in H. tauto.
Qed.
Lemma no_longer t x c z e : spelled t x -> In c breakers -> In e rules -> ~ matches (fst e) (x ++ c :: z).
Proof.
  intros h b i. destruct (spelled_head _ _ h) as (hd & y & -> & k). destruct (rules_cases _ i) as [s|s].
  - apply safe_ok; [exact s | exact b | discriminate].
  - eapply head_once; [exact k | exact b |]. cbn [In]. intuition.
Qed.
