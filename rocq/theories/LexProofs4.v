(** Every layout of a list of tokens is read as those tokens. *)
From Coq Require Import String Lia ZifyBool ZifyNat.
From Verif Require Import Base StrModel ExprModel ParseModel LexModel LexSpec LexProofs LexProofs2 LexProofs3.
Open Scope list_scope.
Open Scope Z_scope.

Definition stops (x s : list Z) : Prop := forall e c z s', In e rules -> s = c :: s' -> ~ matches (fst e) (x ++ c :: z).
Definition reads (x s : list Z) (t : token) : Prop := exists a, chosen (x ++ s) (length x) a /\ a x = Some t.

Lemma rule_reads n r f x s : nth_error rules n = Some (r, utf8 f) -> matches r x -> (forall e, In e (firstn n rules) -> ~ matches (fst e) x) -> stops x s ->
  reads x s (f (encode_runes x)).
Proof.
  intros h m nb nx. exists (utf8 f). split; [|reflexivity]. eapply choose; [exact (rule_at _ _ _ h) | exact m | exact nb | exact nx].
Qed.

(** ** Symbols *)
Lemma symbol_in s : In (symbol_text s, s) symbols.
Proof. apply (find_some (fun e => String.eqb (fst e) (symbol_text s)) symbols). destruct s; vm_compute; reflexivity. Qed.
Lemma symbols_nodup : NoDup (map fst symbols).
Proof. apply distinct_ok. vm_compute. reflexivity. Qed.
Lemma symbols_nonempty w s : In (w, s) symbols -> w <> EmptyString.
Proof.
  assert (H : forallb (fun e => negb (String.eqb (fst e) "")) symbols = true) by (vm_compute; reflexivity).
  intros i ->. rewrite forallb_forall in H. specialize (H _ i). discriminate.
Qed.
Lemma symbol_reads k s : stops (lit (symbol_text k)) s -> reads (lit (symbol_text k)) s (TSym k).
Proof.
  intro nx. pose proof (symbol_in k) as i. destruct (in_split _ _ i) as (b & f & K).
  exists (fun _ => Some (TSym k)). split; [|reflexivity].
  eapply (choose (map (fun e => (text (fst e), fun _ => Some (TSym (snd e)))) b) (text (symbol_text k))).
  - change rules with (map (fun e => (text (fst e), fun _ : list Z => Some (TSym (snd e)))) symbols ++ skipn 28 rules). rewrite K.
    rewrite map_app. cbn [map fst snd]. rewrite <- !app_assoc. reflexivity.
  - apply match_text; [exact (symbols_nonempty _ _ i) | reflexivity].
  - intros e hin m. apply in_map_iff in hin as ([w' t'] & <- & hin). cbn [fst] in m.
    assert (i' : In (w', t') symbols) by (rewrite K; apply in_or_app; left; exact hin).
    apply match_text in m; [|exact (symbols_nonempty _ _ i')]. apply lit_inj in m. subst w'.
    pose proof symbols_nodup as N. rewrite K, map_app in N. cbn [map fst] in N. apply NoDup_remove_2 in N.
    apply N. apply in_or_app. left. apply (in_map fst) in hin. exact hin.
  - exact nx.
Qed.

(** ** Words *)
Lemma bool_reads x s : any_case "TRUE" x \/ any_case "FALSE" x -> stops x s -> reads x s (TBool (encode_runes x)).
Proof.
  intros h nx. apply (rule_reads 85 (RAlt (word "TRUE") (word "FALSE"))); [reflexivity | | | exact nx].
  - apply match_alt. rewrite !match_word by discriminate. exact h.
  - intros e hin. change (firstn 85 rules) with (symbol_rules ++ map (fun e => (word (fst e), fun _ : list Z => Some (snd e))) keywords) in hin.
    apply in_app_or in hin as [hin|hin].
    + destruct (bool_head _ h) as (c & y & -> & l). eapply cannot_start_ok; [exact (checked (cannot_start all_letters) _ _ symbols_heads hin) |]. apply in_letters. exact l.
    + assert (N : forall w t, In (w, t) keywords -> negb (String.eqb w "TRUE" || String.eqb w "FALSE") = true).
      { intros w t i. assert (H : forallb (fun e => negb (String.eqb (fst e) "TRUE" || String.eqb (fst e) "FALSE")) keywords = true) by (vm_compute; reflexivity).
        rewrite forallb_forall in H. exact (H _ i). }
      destruct h as [h|h]; (eapply keywords_word; [ | | | exact h | exact hin]); [reflexivity | | auto | reflexivity | | auto].
      all: intros t' i; apply N in i; discriminate.
Qed.
Lemma name_reads c x s : name_start c -> Forall name_char x -> ~ reserved (c :: x) -> stops (c :: x) s -> reads (c :: x) s (TIdent (encode_runes (c :: x))).
Proof.
  intros hc hx nr nx. apply (rule_reads 86 IDENTIFIER); [reflexivity | | | exact nx].
  - apply m_right. apply m_right. apply (m_cat _ _ [c] x).
    + constructor. unfold is_name_start, between. unfold name_start, latin in hc. lia.
    + apply star_set. eapply Forall_impl; [|exact hx]. intro d. unfold name_char, name_start, latin, digit, is_name, is_name_start, is_digit, between. lia.
  - intros e hin. change (firstn 86 rules) with (symbol_rules ++ keyword_rules ++ [(RAlt (word "TRUE") (word "FALSE"), utf8 TBool)]) in hin.
    apply in_app_or in hin as [hin|hin]; [|apply in_app_or in hin as [hin|[<-|[]]]].
    + assert (H : forallb (fun e => cannot_start (95 :: all_letters) (fst e)) symbol_rules = true) by (vm_compute; reflexivity).
      eapply cannot_start_ok; [exact (checked (cannot_start (95 :: all_letters)) _ _ H hin) |]. destruct hc as [hc| ->]; [right; apply in_letters; exact hc | left; reflexivity].
    + apply no_keyword; assumption.
    + cbn [fst]. rewrite match_alt, !match_word by discriminate. intro k. apply nr. unfold reserved. tauto.
Qed.

(** ** The other rules *)
Lemma closed_reads p q x : x <> [] -> ~ In q x -> matches (seq [one p; plus (but q); one q]) (p :: x ++ [q]).
Proof.
  intros n h. apply (m_cat _ _ [p]); [apply match_one; reflexivity |]. apply m_cat; [|apply match_one; reflexivity].
  apply plus_set. split; [exact n |]. apply Forall_forall. intros c i. destruct (Z.eqb_spec c q); [subst; contradiction | reflexivity].
Qed.
Lemma backtick_reads x s : x <> [] -> ~ In 96 x -> stops (96 :: x ++ [96]) s -> reads (96 :: x ++ [96]) s (TIdent (encode_runes (96 :: x ++ [96]))).
Proof.
  intros n h nx. apply (rule_reads 86 IDENTIFIER); [reflexivity | | | exact nx].
  - apply m_left. apply closed_reads; assumption.
  - apply (before_heads [96; 91]); [vm_compute; reflexivity | left; reflexivity].
Qed.
Lemma bracket_reads x s : x <> [] -> ~ In 93 x -> stops (91 :: x ++ [93]) s -> reads (91 :: x ++ [93]) s (TIdent (encode_runes (91 :: x ++ [93]))).
Proof.
  intros n h nx. apply (rule_reads 86 IDENTIFIER); [reflexivity | | | exact nx].
  - apply m_right. apply m_left.
    apply (m_cat _ _ [91]); [apply match_one; reflexivity |]. apply m_cat; [|apply match_one; reflexivity].
    apply plus_set. split; [exact n |]. apply Forall_forall. intros c i. destruct (Z.eqb_spec c 93); [subst; contradiction | reflexivity].
  - apply (before_heads [96; 91]); [vm_compute; reflexivity | right; left; reflexivity].
Qed.
Lemma digit_ok c : digit c <-> is_digit c = true.
Proof. unfold digit, is_digit, between. lia. Qed.
Lemma hex_ok c : hex c <-> is_hex c = true.
Proof. unfold hex, digit, is_hex, is_digit, between. lia. Qed.
Lemma digits_ok x : digits x <-> matches (plus DIGIT) x.
Proof.
  unfold DIGIT. rewrite plus_set. unfold digits. split; intros [n f]; (split; [exact n |]); (eapply Forall_impl; [|exact f]); intros c h; apply digit_ok; exact h.
Qed.
Lemma digit_before n : n = 87%nat -> forall h y, digit h -> forall e, In e (firstn n rules) -> ~ matches (fst e) (h :: y).
Proof.
  intros -> h y d. apply (before_heads all_digits); [vm_compute; reflexivity | apply in_digits; exact d].
Qed.
Lemma integer_reads x s : digits x -> stops x s -> reads x s (TInt (encode_runes x)).
Proof.
  intros h nx. apply (rule_reads 87 INTEGER_LITERAL); [reflexivity | | | exact nx].
  - apply m_left. apply digits_ok. exact h.
  - destruct (digits_head _ h) as (d & y & -> & k). apply digit_before; [reflexivity | exact k].
Qed.
Lemma hexadecimal_reads m x s : m = 88 \/ m = 120 -> x <> [] -> Forall hex x -> stops (48 :: m :: x) s -> reads (48 :: m :: x) s (TInt (encode_runes (48 :: m :: x))).
Proof.
  intros hm n h nx. apply (rule_reads 87 INTEGER_LITERAL); [reflexivity | | | exact nx].
  - apply m_right. apply (m_cat _ _ [48]); [apply match_one; reflexivity |]. apply (m_cat _ _ [m]); [apply match_letter; exists m; split; [reflexivity | lia] |].
    apply plus_set. split; [exact n |]. eapply Forall_impl; [|exact h]. intros c k. apply hex_ok. exact k.
  - apply digit_before; [reflexivity | unfold digit; lia].
Qed.
Lemma exponent_ok e : exponent e -> matches EXPONENT e.
Proof.
  intros (c & sign & d & -> & hc & hs & hd). apply (m_cat _ _ [c]); [apply match_letter; exists c; split; [reflexivity | lia] |].
  apply m_cat; [|apply digits_ok; exact hd]. apply match_opt. destruct hs as [->|[->| ->]]; [left; reflexivity | |]; right; constructor; reflexivity.
Qed.
Lemma not_integer i c r : i = [] \/ digits i -> ~ digit c -> c <> 88 -> c <> 120 -> ~ matches INTEGER_LITERAL (i ++ c :: r).
Proof.
  intros hi nd n1 n2 m. apply match_alt in m as [m|m].
  - apply digits_ok in m as [_ f]. apply Forall_app in f as [_ f]. inversion f; subst. contradiction.
  - apply match_cat in m as (u & v & e & h1 & m). apply match_one in h1 as ->. apply match_cat in m as (w & v' & -> & h1 & _).
    apply match_letter in h1 as (y & -> & hy). cbn [app] in e. destruct i as [|d1 [|d2 i]]; cbn [app] in e.
    + injection e as -> _. apply nd. unfold digit. lia.
    + injection e as _ -> _. lia.
    + injection e as _ -> _. destruct hi as [hi|[_ f]]; [discriminate |]. inversion f as [|? ? _ f']; subst. inversion f'; subst. unfold digit in *. lia.
Qed.
Lemma number_before i c r : i = [] \/ digits i -> ~ digit c -> c <> 88 -> c <> 120 -> (i = [] -> c = 46) ->
  forall e, In e (firstn 88 rules) -> ~ matches (fst e) (i ++ c :: r).
Proof.
  intros hi nd n1 n2 h0 e hin. change (firstn 88 rules) with (firstn 87 rules ++ [(INTEGER_LITERAL, utf8 TInt)]) in hin. apply in_app_or in hin as [hin|[<-|[]]].
  - destruct hi as [->|hi].
    + cbn [app]. rewrite h0 by reflexivity. eapply (before_heads [46] 87); [vm_compute; reflexivity | left; reflexivity | exact hin].
    + destruct (digits_head _ hi) as (h & y & -> & k). cbn [app]. eapply digit_before; [reflexivity | exact k | exact hin].
  - apply not_integer; assumption.
Qed.
Lemma fraction_reads i f e s : digits i -> Forall digit f -> e = [] \/ exponent e -> stops (i ++ 46 :: f ++ e) s ->
  reads (i ++ 46 :: f ++ e) s (TNum (encode_runes (i ++ 46 :: f ++ e))).
Proof.
  intros hi hf he nx. apply (rule_reads 88 NUMERIC_LITERAL); [reflexivity | | | exact nx].
  - apply m_left. apply m_cat; [apply digits_ok; exact hi |]. change (46 :: f ++ e) with ((46 :: f) ++ e). apply m_cat.
    + apply match_opt. right. apply (m_cat _ _ [46]); [apply match_one; reflexivity |]. apply star_set. eapply Forall_impl; [|exact hf]. intros c k. apply digit_ok. exact k.
    + apply match_opt. destruct he as [->|he]; [left; reflexivity | right; apply exponent_ok; exact he].
  - apply number_before; [right; exact hi | unfold digit; lia | lia | lia |]. intros ->. destruct hi as [n _]. congruence.
Qed.
Lemma exponent_reads i e s : digits i -> exponent e -> stops (i ++ e) s -> reads (i ++ e) s (TNum (encode_runes (i ++ e))).
Proof.
  intros hi he nx. apply (rule_reads 88 NUMERIC_LITERAL); [reflexivity | | | exact nx].
  - apply m_left. apply m_cat; [apply digits_ok; exact hi |]. apply (m_cat _ _ []).
    + apply match_opt. left. reflexivity.
    + apply match_opt. right. apply exponent_ok. exact he.
  - destruct he as (c & sign & d & -> & hc & _). apply number_before; [right; exact hi | unfold digit; lia | lia | lia |]. intros ->. destruct hi as [n _]. congruence.
Qed.
Lemma point_reads f e s : digits f -> e = [] \/ exponent e -> stops (46 :: f ++ e) s -> reads (46 :: f ++ e) s (TNum (encode_runes (46 :: f ++ e))).
Proof.
  intros hf he nx. apply (rule_reads 88 NUMERIC_LITERAL); [reflexivity | | | exact nx].
  - apply m_right. apply (m_cat _ _ [46]); [apply match_one; reflexivity |]. apply m_cat; [apply digits_ok; exact hf |].
    apply match_opt. destruct he as [->|he]; [left; reflexivity | right; apply exponent_ok; exact he].
  - apply (number_before [] 46 (f ++ e)); [left; reflexivity | unfold digit; lia | lia | lia | reflexivity].
Qed.

(** GUIDs *)
Lemma hexes_ok n x : hexes (S n) x <-> matches (times (S n) HEX_DIGIT) x.
Proof.
  unfold HEX_DIGIT. rewrite times_set. unfold hexes. split; intros [l f]; (split; [exact l |]); (eapply Forall_impl; [|exact f]); intros c h; apply hex_ok; exact h.
Qed.
Lemma dash_ok x : dash x <-> matches (opt (one 45)) x.
Proof. rewrite match_opt, match_one. reflexivity. Qed.
Lemma guid_ok x : guid_shape x <-> matches GUID_VALUE x.
Proof.
  unfold GUID_VALUE. split.
  - intros (a & p & b & q & c & r & d & s & e & -> & ha & hb & hc & hd & he & hp & hq & hr & hs).
    apply m_cat; [apply hexes_ok; exact ha |]. apply m_cat; [apply dash_ok; exact hp |]. apply m_cat; [apply hexes_ok; exact hb |].
    apply m_cat; [apply dash_ok; exact hq |]. apply m_cat; [apply hexes_ok; exact hc |]. apply m_cat; [apply dash_ok; exact hr |].
    apply m_cat; [apply hexes_ok; exact hd |]. apply m_cat; [apply dash_ok; exact hs |]. apply hexes_ok. exact he.
  - intro m. apply match_cat in m as (a & ? & -> & ha & m). apply match_cat in m as (p & ? & -> & hp & m). apply match_cat in m as (b & ? & -> & hb & m).
    apply match_cat in m as (q & ? & -> & hq & m). apply match_cat in m as (c & ? & -> & hc & m). apply match_cat in m as (r & ? & -> & hr & m).
    apply match_cat in m as (d & ? & -> & hd & m). apply match_cat in m as (s & e & -> & hs & he).
    exists a, p, b, q, c, r, d, s, e. split; [reflexivity |].
    repeat split; first [apply dash_ok; assumption | apply hexes_ok; assumption | idtac].
    all: match goal with h : matches (times (S ?n) _) ?x |- _ ?x => idtac | _ => idtac end.
    all: try (apply (proj2 (hexes_ok _ _)); assumption).
    all: match goal with h : matches (times _ _) ?x |- length ?x = _ => apply (proj2 (hexes_ok _ _)) in h; apply h | h : matches (times _ _) ?x |- Forall _ ?x => apply (proj2 (hexes_ok _ _)) in h; apply h end.
Qed.
Fixpoint rejects (heads chars : list Z) (r : rx) : bool :=
  match r with
  | RAlt a b => rejects heads chars a && rejects heads chars b
  | _ => cannot_start heads r || existsb (fun c => no_char c r) chars
  end.
Lemma rejects_ok heads chars r h y : rejects heads chars r = true -> In h heads -> (forall c, In c chars -> In c (h :: y)) -> ~ matches r (h :: y).
Proof.
  intros k i f m.
  assert (B : forall r, cannot_start heads r || existsb (fun c => no_char c r) chars = true -> ~ matches r (h :: y)).
  { clear r k m. intros r k m. apply orb_true_iff in k as [k|k].
    - eapply cannot_start_ok; eassumption.
    - apply existsb_exists in k as (c & ic & k). eapply no_char_ok; [exact m | exact k | apply f; exact ic]. }
  induction r; cbn [rejects] in k; try (eapply B; eassumption).
  apply andb_true_iff in k as [k1 k2]. apply match_alt in m as [m|m]; auto.
Qed.
Fixpoint at_most (c : Z) (r : rx) : option nat :=
  match r with
  | RVoid | REps => Some 0%nat
  | RSet p => Some (if p c then 1 else 0)%nat
  | RCat a b => match at_most c a, at_most c b with Some m, Some n => Some (m + n)%nat | _, _ => None end
  | RAlt a b => match at_most c a, at_most c b with Some m, Some n => Some (Nat.max m n)%nat | _, _ => None end
  | RStar a => match at_most c a with Some O => Some O | _ => None end
  end.
Lemma at_most_ok c r s : matches r s -> forall n, at_most c r = Some n -> (count_occ Z.eq_dec s c <= n)%nat.
Proof.
  induction 1; cbn [at_most]; intros n h.
  - cbn. lia.
  - injection h as <-. cbn [count_occ]. destruct (Z.eq_dec c0 c) as [->|]; [rewrite H |]; lia.
  - rewrite count_occ_app. destruct (at_most c a) as [i|]; [|discriminate]. destruct (at_most c b) as [j|]; [|discriminate]. injection h as <-.
    specialize (IHmatches1 _ eq_refl). specialize (IHmatches2 _ eq_refl). lia.
  - destruct (at_most c a) as [i|]; [|discriminate]. destruct (at_most c b) as [j|]; [|discriminate]. injection h as <-. specialize (IHmatches _ eq_refl). lia.
  - destruct (at_most c a) as [i|]; [|discriminate]. destruct (at_most c b) as [j|]; [|discriminate]. injection h as <-. specialize (IHmatches _ eq_refl). lia.
  - cbn. lia.
  - rewrite count_occ_app. cbn [at_most] in IHmatches2. destruct (at_most c a) as [[|i]|]; try discriminate. injection h as <-.
    specialize (IHmatches1 _ eq_refl). specialize (IHmatches2 _ eq_refl). lia.
Qed.
Lemma count_dash a b : count_occ Z.eq_dec (a ++ 45 :: b) 45 = (count_occ Z.eq_dec a 45%Z + S (count_occ Z.eq_dec b 45%Z))%nat.
Proof. rewrite count_occ_app. cbn [count_occ]. destruct (Z.eq_dec 45 45); [reflexivity | congruence]. Qed.
Lemma guid_reads x s : guid_text x -> stops x s -> reads x s (TGuid (encode_runes x)).
Proof.
  intros (a & b & c & d & e & -> & ha & hb & hc & hd & he) nx. apply (rule_reads 89 GUID_LITERAL); [reflexivity | | | exact nx].
  - apply m_right. apply m_right. apply guid_ok. exists a, [45], b, [45], c, [45], d, [45], e. unfold dash. cbn [app]. auto 16.
  - intros r hin. change (firstn 89 rules) with (firstn 88 rules ++ [(NUMERIC_LITERAL, utf8 TNum)]) in hin. apply in_app_or in hin as [hin|[<-|[]]].
    + destruct (hexes_head _ _ ha) as (h & y & -> & hh & _). cbn [app].
      assert (H : forallb (fun e => rejects (all_digits ++ all_letters) [45] (fst e)) (firstn 88 rules) = true) by (vm_compute; reflexivity).
      eapply rejects_ok; [exact (checked (rejects _ _) _ _ H hin) | apply in_hex; exact hh |].
      intros z [<-|[]]. right. apply in_or_app. right. left. reflexivity.
    + intro m. cbn [fst] in m. pose proof (at_most_ok 45 _ _ m 1 eq_refl) as C.
      rewrite !count_dash in C. lia.
Qed.
Lemma guid_braces_reads x s : guid_shape x -> stops (123 :: x ++ [125]) s -> reads (123 :: x ++ [125]) s (TGuid (encode_runes (123 :: x ++ [125]))).
Proof.
  intros h nx. apply (rule_reads 89 GUID_LITERAL); [reflexivity | | | exact nx].
  - apply m_right. apply m_left. apply (m_cat _ _ [123]); [apply match_one; reflexivity |]. apply m_cat; [apply guid_ok; exact h | apply match_one; reflexivity].
  - apply (before_heads [123]); [vm_compute; reflexivity | left; reflexivity].
Qed.
Lemma guid_quotes_reads x s : guid_shape x -> stops (39 :: x ++ [39]) s -> reads (39 :: x ++ [39]) s (TGuid (encode_runes (39 :: x ++ [39]))).
Proof.
  intros h nx. apply (rule_reads 89 GUID_LITERAL); [reflexivity | | | exact nx].
  - apply m_left. apply (m_cat _ _ [39]); [apply match_one; reflexivity |]. apply m_cat; [apply guid_ok; exact h | apply match_one; reflexivity].
  - apply (before_heads [39]); [vm_compute; reflexivity | left; reflexivity].
Qed.

(** Keys, tags, strings and dates *)
Definition all_acronyms : list Z := all_letters ++ all_digits ++ [45; 33; 95; 46; 64; 35; 36].
Lemma in_acronyms c : acronym c -> In c all_acronyms.
Proof.
  intros [h|[h|h]]; unfold all_acronyms; apply in_or_app.
  - left. apply in_letters. exact h.
  - right. apply in_or_app. left. apply in_digits. exact h.
  - right. apply in_or_app. right. exact h.
Qed.
Lemma acronym_ok c : acronym c -> is_acronym c = true.
Proof. unfold acronym, latin, digit, is_acronym, is_digit, between. cbn [In]. lia. Qed.
Lemma measurement_reads c x d s : acronym c -> Forall acronym x -> digits d -> stops (c :: x ++ 58 :: d) s ->
  reads (c :: x ++ 58 :: d) s (TMeasurement (encode_runes (c :: x ++ 58 :: d))).
Proof.
  intros hc hx hd nx. apply (rule_reads 90 MEASUREMENT_KEY_LITERAL); [reflexivity | | | exact nx].
  - apply (m_cat _ _ (c :: x)).
    + apply plus_set. split; [discriminate |]. constructor; [apply acronym_ok; exact hc |]. eapply Forall_impl; [|exact hx]. intros z k. apply acronym_ok. exact k.
    + apply (m_cat _ _ [58]); [apply match_one; reflexivity |]. apply digits_ok. exact hd.
  - intros e hin. assert (H : forallb (fun e => rejects all_acronyms [58] (fst e)) (firstn 90 rules) = true) by (vm_compute; reflexivity).
    eapply rejects_ok; [exact (checked (rejects _ _) _ _ H hin) | apply in_acronyms; exact hc |].
    intros z [<-|[]]. right. apply in_or_app. right. left. reflexivity.
Qed.
Lemma tag_reads x s : x <> [] -> Forall acronym x -> stops (34 :: x ++ [34]) s -> reads (34 :: x ++ [34]) s (TTag (encode_runes (34 :: x ++ [34]))).
Proof.
  intros n h nx. apply (rule_reads 91 POINT_TAG_LITERAL); [reflexivity | | | exact nx].
  - apply (m_cat _ _ [34]); [apply match_one; reflexivity |]. apply m_cat; [|apply match_one; reflexivity].
    apply plus_set. split; [exact n |]. eapply Forall_impl; [|exact h]. intros z k. apply acronym_ok. exact k.
  - apply (before_heads [34]); [vm_compute; reflexivity | left; reflexivity].
Qed.
Lemma quoted_ok x : quoted x -> matches (RStar (RAlt (but 39) (seq [one 39; one 39]))) x.
Proof.
  induction 1 as [|c x n h IH|x h IH].
  - constructor.
  - apply (m_again _ [c]); [|exact IH]. apply m_left. constructor. lia.
  - apply (m_again _ [39; 39]); [|exact IH]. apply m_right. apply (m_cat _ _ [39] [39]); apply match_one; reflexivity.
Qed.
Lemma string_reads x s : quoted x -> ~ guid_shape x -> stops (39 :: x ++ [39]) s -> reads (39 :: x ++ [39]) s (TStr (encode_runes (39 :: x ++ [39]))).
Proof.
  intros h g nx. apply (rule_reads 92 STRING_LITERAL); [reflexivity | | | exact nx].
  - apply (m_cat _ _ [39]); [apply match_one; reflexivity |]. apply m_cat; [apply quoted_ok; exact h | apply match_one; reflexivity].
  - intros e hin. change (firstn 92 rules) with (firstn 89 rules ++ (GUID_LITERAL, utf8 TGuid) :: firstn 2 (skipn 90 rules)) in hin. apply in_app_or in hin as [hin|[<-|hin]].
    + eapply (before_heads [39] 89); [vm_compute; reflexivity | left; reflexivity | exact hin].
    + cbn [fst]. intro m. apply match_alt in m as [m|m].
      * apply g. apply match_cat in m as (u & v & e & h1 & m). apply match_one in h1 as ->. apply match_cat in m as (y & w & -> & h1 & m). apply match_one in m as ->.
        cbn [app] in e. injection e as e. apply app_inj_tail in e as [-> _]. apply guid_ok. exact h1.
      * assert (C : cannot_start [39] (RAlt (seq [one 123; GUID_VALUE; one 125]) GUID_VALUE) = true) by (vm_compute; reflexivity).
        eapply cannot_start_ok; [exact C | left; reflexivity | exact m].
    + assert (H : forallb (fun e => cannot_start [39] (fst e)) (firstn 2 (skipn 90 rules)) = true) by (vm_compute; reflexivity).
      eapply cannot_start_ok; [exact (checked (cannot_start [39]) _ _ H hin) | left; reflexivity].
Qed.
Lemma date_reads x s : x <> [] -> ~ In 35 x -> stops (35 :: x ++ [35]) s -> reads (35 :: x ++ [35]) s (TDate (encode_runes (35 :: x ++ [35]))).
Proof.
  intros n h nx. apply (rule_reads 93 DATETIME_LITERAL); [reflexivity | | | exact nx].
  - apply closed_reads; assumption.
  - intros e hin. change (firstn 93 rules) with (firstn 90 rules ++ (MEASUREMENT_KEY_LITERAL, utf8 TMeasurement) :: firstn 2 (skipn 91 rules)) in hin.
    apply in_app_or in hin as [hin|[<-|hin]].
    + eapply (before_heads [35] 90); [vm_compute; reflexivity | left; reflexivity | exact hin].
    + cbn [fst]. intro m. apply match_cat in m as (u & v & e & h1 & m). apply match_cat in m as (y & d & -> & h2 & m). apply digits_ok in m as [nd fd].
      destruct (exists_last nd) as (d' & z & ->). apply Forall_app in fd as [_ fd]. inversion fd; subst.
      change (35 :: x ++ [35]) with ((35 :: x) ++ [35]) in e. rewrite !app_assoc in e. apply app_inj_tail in e as [_ <-]. unfold digit in *. lia.
    + assert (H : forallb (fun e => cannot_start [35] (fst e)) (firstn 2 (skipn 91 rules)) = true) by (vm_compute; reflexivity).
      eapply cannot_start_ok; [exact (checked (cannot_start [35]) _ _ H hin) | left; reflexivity].
Qed.

Lemma spelled_reads t x s : spelled t x -> stops x s -> reads x s t.
Proof.
  intros h nx. inversion h; subst; clear h.
  - apply symbol_reads. exact nx.
  - apply (keyword_wins (keyword_text k)); [apply keyword_in | assumption | eapply keyword_head; eassumption | exact nx].
  - apply (keyword_wins (function_text f)); [apply function_in | assumption | eapply function_head; eassumption | exact nx].
  - apply bool_reads; assumption.
  - apply name_reads; assumption.
  - apply backtick_reads; assumption.
  - apply bracket_reads; assumption.
  - apply integer_reads; assumption.
  - apply hexadecimal_reads; assumption.
  - apply fraction_reads; assumption.
  - apply exponent_reads; assumption.
  - apply point_reads; assumption.
  - apply guid_reads; assumption.
  - apply guid_braces_reads; assumption.
  - apply guid_quotes_reads; assumption.
  - apply measurement_reads; assumption.
  - apply tag_reads; assumption.
  - apply string_reads; assumption.
  - apply date_reads; assumption.
Qed.

(** ** Separators *)
Lemma punctuation_alone : forallb (fun e => cannot_start [40; 41; 44; 59] (fst e) || is_set (fst e)) rules = true.
Proof. vm_compute. reflexivity. Qed.
Lemma separated_stops t x s : spelled t x -> separated t s -> stops x s.
Proof.
  intros h [p|[->|(c & r & -> & k)]] e d z s' hin E.
  - assert (P : exists q, x = [q] /\ In q [40; 41; 44; 59]).
    { unfold punctuation in p. cbn [In] in p. destruct p as [<-|[<-|[<-|[<-|[]]]]]; inversion h; subst; cbn; eauto 10. }
    destruct P as (q & -> & iq). pose proof (checked (fun r => cannot_start [40; 41; 44; 59] r || is_set r) _ _ punctuation_alone hin) as C.
    cbn beta in C. apply orb_true_iff in C as [C|C]; [eapply cannot_start_ok | apply is_set_ok]; eassumption.
  - discriminate.
  - injection E as <- <-. eapply no_longer; [exact h | | exact hin]. unfold space in k. cbn [In] in k. unfold breakers. cbn [In]. lia.
Qed.
Lemma no_comment t x s r : spelled t x -> separated t s -> x ++ s <> 47 :: 42 :: r.
Proof.
  intros h k e. destruct (spelled_head _ _ h) as (hd & y & -> & hk). cbn [app] in e. injection e as -> e. inversion hk; subst.
  - cbn [app] in e. subst s. destruct k as [p|[k|(c & s & E & k)]].
    + unfold punctuation in p. cbn [In] in p. destruct p as [<-|[<-|[<-|[<-|[]]]]]; inversion h.
    + discriminate.
    + injection E as <- _. unfold space in k. cbn [In] in k. lia.
  - cbn [In] in H. tauto.
Qed.
Lemma hidden_space c s ts : space c -> lexes s ts -> lexes (c :: s) ts.
Proof.
  intros h l. assert (C : chosen ([c] ++ s) 1 (fun _ => None)).
  { eapply (choose (firstn 95 rules) SPACES _ (skipn 96 rules) [c]).
    - reflexivity.
    - constructor. unfold space in h. cbn [In] in h. unfold is_space. lia.
    - eapply (before_heads [32; 9; 10; 11; 13] 95); [vm_compute; reflexivity | exact h].
    - intros e d z s' hin _. assert (H : forallb (fun e => cannot_start [32; 9; 10; 11; 13] (fst e) || is_set (fst e)) rules = true) by (vm_compute; reflexivity).
      pose proof (checked (fun r => cannot_start [32; 9; 10; 11; 13] r || is_set r) _ _ H hin) as K. cbn beta in K.
      apply orb_true_iff in K as [K|K]; [eapply cannot_start_ok | apply is_set_ok]; eassumption. }
  eapply lexes_hidden; [|exact C | reflexivity | exact l]. intros r e. injection e as -> _. unfold space in h. cbn [In] in h. lia.
Qed.
Definition not_after_dashes (r : rx) : bool := void (deriv 32 (deriv 45 (deriv 45 r))).
Lemma not_after_dashes_ok r s : not_after_dashes r = true -> ~ matches r (45 :: 45 :: 32 :: s).
Proof. intros h m. do 3 apply deriv_ok in m. unfold not_after_dashes in h. destruct (deriv _ _); try discriminate. destruct (match_void _ m). Qed.
Lemma hidden_line b c s ts : ~ In 10 b -> ~ In 13 b -> c = 10 \/ c = 13 -> lexes s ts -> lexes ((45 :: 45 :: 32 :: b) ++ c :: s) ts.
Proof.
  intros h1 h2 h3 l. assert (C : chosen ((45 :: 45 :: 32 :: b) ++ c :: s) (length (45 :: 45 :: 32 :: b)) (fun _ => None)).
  { eapply (choose (firstn 94 rules) SINGLE_LINE_COMMENT _ (skipn 95 rules)).
    - reflexivity.
    - apply (m_cat _ _ [45]); [apply match_one; reflexivity |]. apply (m_cat _ _ [45]); [apply match_one; reflexivity |]. apply star_set.
      constructor; [reflexivity |]. apply Forall_forall. intros d i. destruct (Z.eqb_spec d 13); [subst; contradiction |]. destruct (Z.eqb_spec d 10); [subst; contradiction |]. reflexivity.
    - intros e hin. apply not_after_dashes_ok. assert (H : forallb (fun e => not_after_dashes (fst e)) (firstn 94 rules) = true) by (vm_compute; reflexivity).
      exact (checked not_after_dashes _ _ H hin).
    - intros e d z s' hin E m. injection E as <- _.
      assert (H : forallb (fun e => not_after_dashes (fst e) || (no_char 10 (fst e) && no_char 13 (fst e))) rules = true) by (vm_compute; reflexivity).
      pose proof (checked (fun r => not_after_dashes r || (no_char 10 r && no_char 13 r)) _ _ H hin) as K. cbn beta in K.
      apply orb_true_iff in K as [K|K].
      + eapply not_after_dashes_ok; [exact K | exact m].
      + apply andb_true_iff in K as [K1 K2]. assert (I : In c ((45 :: 45 :: 32 :: b) ++ c :: z)) by (apply in_or_app; right; left; reflexivity).
        destruct h3 as [->| ->]; [exact (no_char_ok _ _ _ m K1 I) | exact (no_char_ok _ _ _ m K2 I)]. }
  eapply lexes_hidden; [|exact C | reflexivity |].
  - intros r e. discriminate.
  - rewrite skipn_exact. apply hidden_space; [|exact l]. unfold space. cbn [In]. lia.
Qed.
Lemma layout_lexes ts s : layout ts s -> lexes s ts.
Proof.
  induction 1 as [|g ts s hg h IH|t x ts s hx hs h IH].
  - constructor.
  - destruct hg as [c hc|b c h1 h2 h3|b hb].
    + apply hidden_space; assumption.
    + change ((45 :: 45 :: 32 :: b ++ [c]) ++ s) with (45 :: 45 :: 32 :: (b ++ [c]) ++ s). rewrite <- app_assoc. cbn [app]. apply (hidden_line b c); assumption.
    + change ((47 :: 42 :: b ++ [42; 47]) ++ s) with (47 :: 42 :: (b ++ [42; 47]) ++ s). rewrite <- app_assoc. cbn [app]. apply lexes_comment; assumption.
  - destruct (spelled_reads t x s hx) as (a & C & A); [eapply separated_stops; eassumption |].
    eapply lexes_token; [intro r; eapply no_comment; eassumption | exact C | rewrite firstn_exact; exact A | rewrite skipn_exact; exact IH].
Qed.
Lemma layout_tokens ts s : layout ts s -> tokens s = ts.
Proof. intro h. apply tokens_iff. apply layout_lexes. exact h. Qed.
