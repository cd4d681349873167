From Coq Require Import Lia ZifyBool ZifyNat.
From Verif Require Import Base BaseProofs FormatModel FormatSpec FormatProofs SignalModel SignalSpec.

Ltac ifs := repeat match goal with
  | H : context [if ?b then _ else _] |- _ => destruct b eqn:?
  | |- context [if ?b then _ else _] => destruct b eqn:?
  end.

Lemma is_space_white r : is_space r = true <-> white r.
Proof. unfold is_space, white. lia. Qed.

Lemma trim_left_white w s : Forall white w -> trim_left (w ++ s) = trim_left s.
Proof.
  induction 1 as [|r w Hr Hw IH]; [reflexivity|]. cbn [app trim_left].
  apply is_space_white in Hr. rewrite Hr. exact IH.
Qed.

Lemma trim_left_stop r s : ~ white r -> trim_left (r :: s) = r :: s.
Proof.
  intros H. cbn [trim_left]. destruct (is_space r) eqn:E; [|reflexivity].
  apply is_space_white in E. contradiction.
Qed.

Lemma trim_left_spec s : exists w, s = w ++ trim_left s /\ Forall white w.
Proof.
  induction s as [|r s (w & E & H)]; [exists []; auto|]. cbn [trim_left].
  destruct (is_space r) eqn:Sp; [|exists []; auto].
  exists (r :: w). split; [cbn; f_equal; exact E|]. constructor; [apply is_space_white, Sp|exact H].
Qed.

Lemma trim_spec s : exists w1 w2, s = w1 ++ TrimSpace s ++ w2 /\ Forall white w1 /\ Forall white w2.
Proof.
  unfold TrimSpace. destruct (trim_left_spec s) as (w1 & E1 & H1).
  destruct (trim_left_spec (rev (trim_left s))) as (w2 & E2 & H2).
  exists w1, (rev w2). repeat split; [|exact H1|apply Forall_rev, H2].
  rewrite <- rev_app_distr, <- E2, rev_involutive. exact E1.
Qed.

Lemma trim_two w1 a b w2 : Forall white w1 -> Forall white w2 -> ~ white a -> ~ white b ->
  TrimSpace (w1 ++ [a; b] ++ w2) = [a; b].
Proof.
  intros H1 H2 Ha Hb. unfold TrimSpace. rewrite trim_left_white by exact H1.
  cbn [app]. rewrite trim_left_stop by exact Ha.
  replace (rev (a :: b :: w2)) with (rev w2 ++ [b; a]) by (cbn; rewrite <- app_assoc; reflexivity).
  rewrite trim_left_white by (apply Forall_rev, H2). rewrite trim_left_stop by exact Hb. reflexivity.
Qed.

Lemma upper_white r : white r -> upper_rune r = r.
Proof. unfold white, upper_rune. intros; ifs; lia. Qed.
Lemma upper_white_all w : Forall white w -> map upper_rune w = w.
Proof. induction 1; cbn [map]; [reflexivity|]. rewrite upper_white by assumption. f_equal; assumption. Qed.
Lemma white_upper r : white (upper_rune r) -> white r.
Proof. unfold white, upper_rune. intros; ifs; lia. Qed.

(** Letters of the acronyms. *)
Definition cap (c : Z) : Prop := (65 <= c <= 90 /\ c <> 73) \/ c = 63.

Lemma upper_variant r c : 65 <= c <= 90 -> letter_variant r c -> upper_rune r = c.
Proof. unfold letter_variant, upper_rune. intros; ifs; lia. Qed.
Lemma variant_upper r c : 65 <= c <= 90 -> c <> 73 -> upper_rune r = c -> letter_variant r c.
Proof. unfold letter_variant, upper_rune. intros; ifs; lia. Qed.

Lemma runes_eqb_eq a b : runes_eqb a b = true <-> a = b.
Proof.
  revert b. induction a as [|x a IH]; intros [|y b]; cbn [runes_eqb]; split; intros H; try discriminate; auto.
  - apply andb_true_iff in H. destruct H as [H1 H2]. apply Z.eqb_eq in H1. apply IH in H2. congruence.
  - injection H as -> ->. rewrite Z.eqb_refl. cbn. apply IH. reflexivity.
Qed.

(** The parser in terms of the trimmed, upper-cased text. *)
Lemma parse_table a k : In (k, a) acronyms -> forall s,
  TrimSpace (map upper_rune s) = a -> ParseSignalKindAcronym s = k.
Proof.
  intros I s E. unfold ParseSignalKindAcronym. rewrite E. clear E.
  cbn in I. repeat (destruct I as [I|I]; [injection I as <- <-; reflexivity|]). contradiction.
Qed.

Lemma parse_known s k : ParseSignalKindAcronym s = k -> k <> kUnknown ->
  In (k, TrimSpace (map upper_rune s)) acronyms.
Proof.
  intros E N. unfold ParseSignalKindAcronym in E. cbv zeta in E.
  set (a := TrimSpace (map upper_rune s)) in *. clearbody a.
  repeat match type of E with
  | (if runes_eqb a ?l then _ else _) = _ =>
      destruct (runes_eqb a l) eqn:Q;
      [apply runes_eqb_eq in Q; subst; cbn; tauto|clear Q]
  end. congruence.
Qed.

Lemma acronyms_caps k a : In (k, a) acronyms -> exists x y, a = [x; y] /\
  (65 <= x <= 90 /\ x <> 73) /\ (65 <= y <= 90 /\ y <> 73).
Proof.
  intros I. cbn in I.
  repeat (destruct I as [I|I]; [injection I as <- <-; eexists _, _; split; [reflexivity|]; lia|]).
  contradiction.
Qed.

Lemma parse_spelling k a s : In (k, a) acronyms -> spelling s a -> ParseSignalKindAcronym s = k.
Proof.
  intros I (w1 & m & w2 & -> & H1 & H2 & F). apply (parse_table a k I).
  destruct (acronyms_caps k a I) as (x & y & -> & Hx & Hy).
  inversion F as [|r1 ? m1 ? V1 F1]; subst. inversion F1 as [|r2 ? m2 ? V2 F2]; subst.
  inversion F2; subst. rewrite !map_app. cbn [map].
  rewrite !upper_white_all by assumption.
  rewrite (upper_variant r1 x), (upper_variant r2 y) by (auto; lia).
  apply trim_two; auto; unfold white; lia.
Qed.

Lemma map_split {A B} (f : A -> B) s a b c : map f s = a ++ b ++ c ->
  exists x y z, s = x ++ y ++ z /\ map f x = a /\ map f y = b /\ map f z = c.
Proof.
  intros E. apply map_eq_app in E. destruct E as (x & r & -> & Ex & E).
  apply map_eq_app in E. destruct E as (y & z & -> & Ey & Ez).
  exists x, y, z. auto.
Qed.

Lemma parse_only s k : ParseSignalKindAcronym s = k -> k <> kUnknown ->
  exists a, In (k, a) acronyms /\ spelling s a.
Proof.
  intros E N. pose proof (parse_known s k E N) as I. eexists; split; [exact I|].
  destruct (trim_spec (map upper_rune s)) as (w1 & w2 & S & H1 & H2).
  destruct (acronyms_caps _ _ I) as (x & y & A & Hx & Hy). rewrite A in *.
  destruct (map_split upper_rune s w1 [x; y] w2 S) as (u & m & v & -> & Eu & Em & Ev).
  exists u, m, v. split; [reflexivity|].
  assert (W : forall l w, map upper_rune l = w -> Forall white w -> Forall white l).
  { clear. intros l w <-. induction l as [|r l IH]; cbn; intros H; constructor.
    - inversion H; subst. apply white_upper. assumption.
    - apply IH. inversion H; assumption. }
  split; [eapply W; eassumption|]. split; [eapply W; eassumption|].
  destruct m as [|r1 [|r2 [|]]]; try discriminate Em. injection Em as E1 E2.
  constructor; [apply variant_upper; lia|]. constructor; [apply variant_upper; lia|constructor].
Qed.

Lemma acronym_table k : 0 <= k <= 10 -> In (k, Acronym k) acronyms.
Proof.
  intros H.
  assert (k = 0 \/ k = 1 \/ k = 2 \/ k = 3 \/ k = 4 \/ k = 5 \/ k = 6 \/ k = 7 \/ k = 8 \/ k = 9 \/ k = 10)
    as C by lia.
  repeat (destruct C as [->|C]; [cbn; tauto|]). subst. cbn; tauto.
Qed.

Lemma acronym_parses k : 0 <= k <= 11 -> ParseSignalKindAcronym (Acronym k) = k.
Proof.
  intros H.
  assert (k = 0 \/ k = 1 \/ k = 2 \/ k = 3 \/ k = 4 \/ k = 5 \/ k = 6 \/ k = 7 \/ k = 8 \/ k = 9 \/ k = 10 \/ k = 11)
    as C by lia.
  repeat (destruct C as [->|C]; [reflexivity|]). subst. reflexivity.
Qed.

(** ** Signal references *)

Lemma split_on_app l sep t : forall cur, ~ In sep t ->
  split_on (l ++ sep :: t) sep cur = split_on l sep cur ++ [t].
Proof.
  induction l as [|c l IH]; intros cur H; cbn [app split_on].
  - rewrite Z.eqb_refl, split_on_none by exact H. reflexivity.
  - destruct (c =? sep); [rewrite IH by exact H; reflexivity|apply IH, H].
Qed.

Lemma split_on_nonempty l sep cur : split_on l sep cur <> [].
Proof. revert cur. induction l as [|c l IH]; intros; cbn [split_on]; [discriminate|]. destruct (c =? sep); [discriminate|apply IH]. Qed.

Lemma join_split l sep : forall cur, join (split_on l sep cur) sep = rev cur ++ l.
Proof.
  induction l as [|c l IH]; intros cur; cbn [split_on].
  - cbn. rewrite app_nil_r. reflexivity.
  - destruct (Z.eqb_spec c sep) as [->|].
    + cbn [join]. specialize (IH []). destruct (split_on l sep []) eqn:E; [exfalso; eapply split_on_nonempty; eassumption|].
      rewrite IH. reflexivity.
    + rewrite IH. cbn [rev]. rewrite <- app_assoc. reflexivity.
Qed.

Lemma last_dash s : after_last_dash s = None /\ ~ In 45 s \/
  exists a t, s = a ++ 45 :: t /\ ~ In 45 t /\ after_last_dash s = Some (length t).
Proof.
  induction s as [|b s IH]; [left; cbn; auto|]. cbn [after_last_dash].
  destruct IH as [[E N]|(a & t & -> & N & E)].
  - rewrite E. destruct (Z.eqb_spec b 45) as [->|].
    + right. exists [], s. auto.
    + left. split; [reflexivity|]. intros [->|I]; [congruence|contradiction].
  - right. rewrite E. exists (b :: a), t. auto.
Qed.

Lemma idx_last {A} (l : list A) x : idx (l ++ [x]) (len (l ++ [x]) - 1) = Ok x.
Proof.
  unfold idx, len. rewrite app_length. cbn [length].
  replace (Z.of_nat (length l + 1) - 1 <? 0) with false by lia.
  replace (Z.to_nat (Z.of_nat (length l + 1) - 1)) with (length l) by lia.
  rewrite nth_error_app2 by lia. rewrite Nat.sub_diag. reflexivity.
Qed.

Lemma reference_split a t : ~ In 45 t ->
  ParseSignalReference (a ++ 45 :: t) =
  match t with
  | b1 :: b2 :: num => Ok (a, ParseSignalKindAcronym (runes2 b1 b2), Atoi num)
  | _ => Panic
  end.
Proof.
  intros N. unfold ParseSignalReference. rewrite split_on_app by exact N.
  set (P := split_on a 45 []).
  assert (LP : (0 < length P)%nat).
  { unfold P. destruct (split_on a 45 []) eqn:E; [exfalso; eapply split_on_nonempty; eassumption|cbn; lia]. }
  assert (L : 1 < len (P ++ [t])) by (unfold len; rewrite app_length; cbn [length]; lia).
  replace (1 <? len (P ++ [t])) with true by lia. rewrite idx_last. cbn [bind].
  destruct t as [|b1 [|b2 num]]; [reflexivity|reflexivity|].
  unfold slice, slice_from.
  assert (L2 : len (b1 :: b2 :: num) = len num + 2) by (unfold len; cbn [length]; lia).
  assert (L0 : 0 <= len num) by (unfold len; lia).
  rewrite L2. replace ((0 <? 0) || (2 <? 0) || (len num + 2 <? 2)) with false by lia. cbn [bind].
  replace ((2 <? 0) || (len num + 2 <? 2)) with false by lia. cbn [bind].
  change (Z.to_nat (2 - 0)) with 2%nat. change (Z.to_nat 0) with 0%nat. change (Z.to_nat 2) with 2%nat.
  cbn [skipn firstn].
  replace (Z.to_nat (len (P ++ [b1 :: b2 :: num]) - 1)) with (length P)
    by (unfold len; rewrite app_length; cbn [length]; lia).
  rewrite firstn_app, firstn_all2, Nat.sub_diag by lia. cbn [firstn]. rewrite app_nil_r.
  unfold P. rewrite join_split. reflexivity.
Qed.

Lemma reference_no_dash s : ~ In 45 s -> ParseSignalReference s = Ok ([], kAngle, 0).
Proof. intros N. unfold ParseSignalReference. rewrite split_on_none by exact N. reflexivity. Qed.

Lemma reference_panic_iff s : ParseSignalReference s = Panic <->
  exists n, after_last_dash s = Some n /\ (n < 2)%nat.
Proof.
  destruct (last_dash s) as [[E N]|(a & t & -> & N & E)]; rewrite E.
  - rewrite reference_no_dash by exact N. split; [discriminate|]. intros (n & H & _). discriminate.
  - rewrite reference_split by exact N. destruct t as [|b1 [|b2 num]].
    + split; [intros _; exists 0%nat; split; [reflexivity|lia]|reflexivity].
    + split; [intros _; exists 1%nat; split; [reflexivity|lia]|reflexivity].
    + split; [discriminate|]. intros (n & H & L). injection H as <-. cbn [length] in L. lia.
Qed.

Lemma digits_value_dec l : digits_value l = dec_value l.
Proof.
  unfold digits_value, dec_value. generalize 0. induction l as [|b l IH]; intros z; cbn [fold_left]; [reflexivity|].
  rewrite IH. f_equal. lia.
Qed.

Lemma forallb_digits l : Forall is_digit l -> forallb digit_byte l = true.
Proof. induction 1 as [|b l H F IH]; [reflexivity|]. cbn [forallb]. rewrite IH. unfold digit_byte, is_digit in *. lia. Qed.

Lemma Atoi_digits l x : is_decimal_of x l -> 0 <= x < 2 ^ 63 -> Atoi l = x.
Proof.
  intros (D & V & N & _) R. unfold Atoi. destruct l as [|b l]; [contradiction|].
  assert (B : is_digit b) by (inversion D; assumption). unfold is_digit in B.
  pose proof (forallb_digits _ D) as F.
  replace (b =? 45) with false by lia. replace (b =? 43) with false by lia.
  rewrite F, digits_value_dec, V. lia.
Qed.

Lemma runes2_ascii a b : 0 <= a < 128 -> 0 <= b < 128 -> runes2 a b = [a; b].
Proof. intros. unfold runes2. replace (0xC2 <=? a) with false by lia. cbn [andb]. replace (a <? 128) with true by lia. replace (b <? 128) with true by lia. reflexivity. Qed.

Lemma reference_ok source k acr m n : In (k, acr) acronyms -> Forall2 letter_variant m acr ->
  Forall (fun r => r < 128) m -> 0 <= n < 2 ^ 63 ->
  ParseSignalReference (reference source m n) = Ok (source, k, n).
Proof.
  intros I F A R. destruct (acronyms_caps k acr I) as (x & y & -> & Hx & Hy).
  assert (Sp : spelling m [x; y]) by (exists [], m, []; rewrite app_nil_r; auto).
  inversion F as [|r1 ? m1 ? V1 F1]; subst. inversion F1 as [|r2 ? m2 ? V2 F2]; subst. inversion F2; subst.
  inversion A as [|? ? A1 A']; subst. inversion A' as [|? ? A2 _]; subst.
  unfold letter_variant in V1, V2.
  pose proof (FormatUint_decimal n ltac:(unfold is_u64; lia)) as D.
  unfold reference. cbn [app]. rewrite reference_split.
  - rewrite runes2_ascii by lia. rewrite (parse_spelling k [x; y]) by assumption.
    rewrite (Atoi_digits _ n D) by lia. reflexivity.
  - destruct D as (D & _). intros [H|[H|H]]; [lia|lia|].
    rewrite List.Forall_forall in D. specialize (D 45 H). unfold is_digit in D. lia.
Qed.

Lemma digits_nonneg s v : 0 <= v -> forallb digit_byte s = true -> 0 <= fold_left (fun v b => v * 10 + (b - 48)) s v.
Proof.
  revert v. induction s as [|b s IH]; intros v V H; cbn in *; [exact V|].
  apply andb_true_iff in H as [D H]. apply IH; [|exact H]. unfold digit_byte in D. lia.
Qed.
Lemma Atoi_range s : is_i64 (Atoi s).
Proof.
  unfold Atoi, is_i64. destruct (match s with [] => _ | _ => _ end) as [neg d].
  destruct d as [|b d]; [lia|]. destruct (forallb digit_byte (b :: d)) eqn:F; [|lia].
  pose proof (digits_nonneg (b :: d) 0 ltac:(lia) F) as N. fold (digits_value (b :: d)) in N. destruct neg; lia.
Qed.
Lemma reference_position s source k n : ParseSignalReference s = Ok (source, k, n) -> is_i64 n.
Proof.
  unfold ParseSignalReference. intros E.
  repeat match type of E with
  | context [if ?b then _ else _] => destruct b
  | bind ?x _ = _ => destruct x as [?| |]; cbn [bind] in E
  | context [match ?l with [] => _ | _ :: _ => _ end] => destruct l
  end; try discriminate E; injection E as <- <- <-; try apply Atoi_range; unfold is_i64; lia.
Qed.

Lemma digits_forallb l : forallb digit_byte l = true -> Forall is_digit l.
Proof.
  induction l as [|b l IH]; [constructor|]. cbn [forallb]. intros H. apply andb_true_iff in H as [D H].
  constructor; [unfold digit_byte in D; unfold is_digit; lia|exact (IH H)].
Qed.

Lemma Atoi_written t : ~ In 45 t -> written_position t (Atoi t).
Proof.
  intros N. unfold Atoi.
  assert (X : forall d, (t = d \/ t = 43 :: d) -> (forall d', number_text t d' -> d' = d) ->
    written_position t (match d with [] => 0 | _ => if forallb digit_byte d then Z.min (2 ^ 63 - 1) (digits_value d) else 0 end)).
  { intros d E U. destruct (forallb digit_byte d) eqn:F.
    - destruct d as [|b d].
      + right. split; [reflexivity|]. intros (d' & Q). pose proof (U d' Q). subst d'. apply (proj1 (proj2 Q)). reflexivity.
      + left. exists (b :: d). split; [split; [exact E|]; split; [discriminate|apply digits_forallb; exact F]|].
        rewrite digits_value_dec. reflexivity.
    - right. split; [destruct d; reflexivity|]. intros (d' & Q). pose proof (U d' Q). subst d'.
      pose proof (forallb_digits d (proj2 (proj2 Q))) as F'. rewrite F' in F. discriminate F. }
  destruct t as [|b t].
  - apply (X []); [left; reflexivity|]. intros d' ([Q|Q] & _); [symmetry; exact Q|discriminate Q].
  - destruct (b =? 45) eqn:B; [exfalso; apply N; left; lia|]. destruct (b =? 43) eqn:P.
    + assert (b = 43) by lia. subst b. cbv iota. apply (X t); [right; reflexivity|].
      intros d' ([Q|Q] & _ & D); [|injection Q as Q; symmetry; exact Q].
      subst d'. inversion D as [|? ? D1 _]. unfold is_digit in D1. lia.
    + apply (X (b :: t)); [left; reflexivity|]. intros d' ([Q|Q] & _); [symmetry; exact Q|].
      injection Q as Q _. lia.
Qed.

Lemma kind_written b1 b2 : is_u8 b1 -> is_u8 b2 -> written_kind b1 b2 (ParseSignalKindAcronym (runes2 b1 b2)).
Proof.
  intros H1 H2. unfold is_u8 in *.
  assert (A : forall k acr, In (k, acr) acronyms -> Forall2 letter_variant [b1; b2] acr ->
    ParseSignalKindAcronym (runes2 b1 b2) = k).
  { intros k acr I F. destruct (acronyms_caps k acr I) as (x & y & -> & Hx & Hy).
    inversion F as [|? ? ? ? V1 F1]; subst. inversion F1 as [|? ? ? ? V2 F2]; subst.
    unfold letter_variant in V1, V2. rewrite runes2_ascii by lia. apply (parse_spelling k [x; y]); [exact I|].
    exists [], [b1; b2], []. split; [reflexivity|]. split; [constructor|]. split; [constructor|exact F]. }
  destruct (Z.eq_dec (ParseSignalKindAcronym (runes2 b1 b2)) kUnknown) as [E|N].
  - right. split; [exact E|]. intros (k & acr & I & F). pose proof (A k acr I F) as Q.
    rewrite E in Q. subst k. cbn in I. intuition discriminate.
  - left. destruct (parse_only _ _ eq_refl N) as (acr & I & w1 & m & w2 & S & W1 & W2 & F).
    exists acr. split; [exact I|]. destruct (acronyms_caps _ acr I) as (x & y & -> & Hx & Hy).
    inversion F as [|r1 ? m1 ? V1 F1]; subst. inversion F1 as [|r2 ? m2 ? V2 F2]; subst. inversion F2; subst.
    assert (LS : (length (runes2 b1 b2) <= 2)%nat) by (unfold runes2; destruct (_ && _); cbn; lia).
    rewrite S in LS. rewrite !app_length in LS. cbn [length] in LS.
    destruct w1; cbn [length] in LS; [|lia]. destruct w2; cbn [length] in LS; [|lia]. cbn [app] in S.
    unfold runes2 in S. destruct (_ && _); [discriminate S|]. injection S as S1 S2.
    unfold letter_variant in V1, V2.
    destruct (b1 <? 128) eqn:L1; [|lia]. destruct (b2 <? 128) eqn:L2; [|lia]. subst. exact F.
Qed.

Lemma reference_written s t : ~ In 45 t -> bytes_ok t -> (2 <= length t)%nat ->
  exists k n, ParseSignalReference (s ++ 45 :: t) = Ok (s, k, n) /\
    written_kind (nth 0 t 0) (nth 1 t 0) k /\ written_position (skipn 2 t) n.
Proof.
  intros N B L. rewrite reference_split by exact N. destruct t as [|b1 [|b2 t]]; cbn [length] in L; try lia.
  inversion B as [|? ? B1 B']; subst. inversion B' as [|? ? B2 _]; subst.
  eexists _, _. split; [reflexivity|]. split; [apply kind_written; assumption|].
  cbn [skipn]. apply Atoi_written. intros Q. apply N. right; right. exact Q.
Qed.

Lemma acronym_unknown k : ~ (0 <= k <= 10) -> Acronym k = [63; 63].
Proof.
  intros N. unfold Acronym.
  repeat match goal with |- context [k =? ?x] => replace (k =? x) with false by (symmetry; apply Z.eqb_neq; unfold kAngle, kMagnitude, kFrequency, kDfDt, kStatus, kDigital, kAnalog, kCalculation, kStatistic, kAlarm, kQuality; lia) end.
  reflexivity.
Qed.
