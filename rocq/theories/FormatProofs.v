(** Lemmas about the number formatting model. *)
From Coq Require Import Lia Zify ZifyBool ZifyNat.
From Verif Require Import Base BaseProofs FormatModel FormatSpec.
Ltac Zify.zify_post_hook ::= Z.div_mod_to_equations.

(** The decimal text of the standard library. *)
Lemma fold_dec_shift l : forall a, fold_left (fun a c => 10 * a + (c - 48)) l a =
  a * 10 ^ len l + dec_value l.
Proof.
  unfold dec_value. induction l as [|c l IH]; intros a; cbn [fold_left].
  - unfold len. cbn [length]. change (10 ^ Z.of_nat 0) with 1. lia.
  - rewrite (IH (10 * a + (c - 48))), (IH (10 * 0 + (c - 48))).
    unfold len. cbn [length]. rewrite Nat2Z.inj_succ, Z.pow_succ_r by lia. ring.
Qed.

Lemma dec_value_cons c l : dec_value (c :: l) = (c - 48) * 10 ^ len l + dec_value l.
Proof. unfold dec_value at 1. cbn [fold_left]. rewrite fold_dec_shift. f_equal. Qed.

Lemma dec_digits_ok fuel : forall x acc, 0 <= x -> (0 < fuel)%nat -> x < 10 ^ Z.of_nat fuel ->
  Forall is_digit acc ->
  Forall is_digit (dec_digits fuel x acc) /\
  dec_value (dec_digits fuel x acc) = x * 10 ^ len acc + dec_value acc /\
  dec_digits fuel x acc <> [] /\
  (x = 0 \/ hd 0 (dec_digits fuel x acc) <> 48) /\
  (length (dec_digits fuel x acc) > length acc)%nat /\
  (x = 0 -> length (dec_digits fuel x acc) = S (length acc)).
Proof.
  induction fuel as [|f IH]; intros x acc Hx Hf Hb Hacc; [lia|]. cbn [dec_digits].
  destruct (Z.ltb_spec x 10) as [L|L].
  - split; [constructor; [unfold is_digit; lia|exact Hacc]|].
    rewrite dec_value_cons. split; [f_equal; f_equal; lia|].
    split; [discriminate|]. split; [cbn [hd]; lia|]. cbn [length]. lia.
  - rewrite Nat2Z.inj_succ, Z.pow_succ_r in Hb by lia.
    assert (Hf' : (0 < f)%nat).
    { destruct f; [|lia]. change (10 ^ Z.of_nat 0) with 1 in Hb. lia. }
    destruct (IH (x / 10) ((48 + x mod 10) :: acc)) as (H1 & H2 & H3 & H4 & H5 & H6); try lia.
    { constructor; [unfold is_digit; lia|exact Hacc]. }
    split; [exact H1|]. split.
    + rewrite H2, dec_value_cons. unfold len. cbn [length].
      rewrite Nat2Z.inj_succ, Z.pow_succ_r by lia.
      replace (48 + x mod 10 - 48) with (x mod 10) by lia.
      rewrite (Z.div_mod x 10) at 3 by lia. ring.
    + split; [exact H3|]. cbn [length] in H5, H6. split; [|lia].
      right. destruct H4 as [H4|H4]; [lia|exact H4].
Qed.

Lemma FormatUint_decimal x : is_u64 x -> is_decimal_of x (FormatUint x).
Proof.
  intros Hx. unfold is_u64 in Hx.
  destruct (dec_digits_ok 20 x []) as (H1 & H2 & H3 & H4 & H5 & H6); try lia.
  { constructor. }
  unfold FormatUint, is_decimal_of. split; [exact H1|]. split.
  - rewrite H2. unfold dec_value, len. cbn. lia.
  - split; [exact H3|]. destruct H4 as [H4|H4]; [left; exact (H6 H4)|right; exact H4].
Qed.

(** Reversed grouping with a digit counter. *)
Fixpoint grp (s : Z) (k : Z) (l : bytes) : bytes :=
  match l with
  | [] => []
  | c :: r => c :: match r with
                   | [] => []
                   | _ => if k + 1 =? 3 then s :: grp s 0 r else grp s (k + 1) r
                   end
  end.

Lemma grp_cons s k c d r : grp s k (c :: d :: r) =
  c :: if k + 1 =? 3 then s :: grp s 0 (d :: r) else grp s (k + 1) (d :: r).
Proof. reflexivity. Qed.

Lemma grp_length s l : forall k, 0 <= k < 3 -> l <> [] ->
  len (grp s k l) = len l + (len l - 1 + k) / 3.
Proof.
  unfold len. induction l as [|c r IH]; intros k Hk Hne; [congruence|].
  destruct r as [|d r].
  - cbn [grp length]. lia.
  - rewrite grp_cons. destruct (Z.eqb_spec (k + 1) 3) as [E|E].
    + specialize (IH 0 ltac:(lia) ltac:(discriminate)). cbn [length] in *. lia.
    + specialize (IH (k + 1) ltac:(lia) ltac:(discriminate)). cbn [length] in *. lia.
Qed.

Lemma upd_ok {A} (l : list A) (i : nat) c : (i < length l)%nat ->
  upd l (Z.of_nat i) c = Ok (firstn i l ++ c :: skipn (S i) l).
Proof.
  intros H. unfold upd, len.
  replace ((Z.of_nat i <? 0) || (Z.of_nat (length l) <=? Z.of_nat i)) with false by lia.
  rewrite Nat2Z.id. reflexivity.
Qed.

Lemma idx_ok {A} (l : list A) (i : nat) a : nth_error l i = Some a -> idx l (Z.of_nat i) = Ok a.
Proof.
  intros H. unfold idx. replace (Z.of_nat i <? 0) with false by lia. rewrite Nat2Z.id, H. reflexivity.
Qed.

Lemma firstn_S_nth {A} (l : list A) i a : nth_error l i = Some a -> firstn (S i) l = firstn i l ++ [a].
Proof.
  revert i. induction l as [|x l IH]; intros [|i] H; cbn in H |- *; try discriminate.
  - injection H as ->. reflexivity.
  - f_equal. apply IH. exact H.
Qed.

Lemma upd_firstn {A} (l : list A) (i : nat) c d : (d <= i)%nat -> (i < length l)%nat ->
  firstn d (firstn i l ++ c :: skipn (S i) l) = firstn d l.
Proof.
  intros H Hl. rewrite firstn_app, firstn_firstn, firstn_length_le by lia.
  replace (d - i)%nat with 0%nat by lia. rewrite firstn_O, app_nil_r. f_equal. lia.
Qed.
Lemma upd_skipn {A} (l : list A) (i : nat) c : (i < length l)%nat ->
  skipn i (firstn i l ++ c :: skipn (S i) l) = c :: skipn (S i) l.
Proof.
  intros H. rewrite skipn_app, firstn_length_le, Nat.sub_diag by lia.
  rewrite skipn_all2 by (rewrite firstn_length_le; lia). reflexivity.
Qed.
Lemma upd_length {A} (l : list A) (i : nat) c : (i < length l)%nat ->
  length (firstn i l ++ c :: skipn (S i) l) = length l.
Proof. intros H. rewrite app_length, firstn_length_le by lia. cbn [length]. rewrite skipn_length. lia. Qed.

Lemma fmt_loop_ok inp s d : forall i j k out,
  (i < length inp)%nat -> 0 <= k < 3 ->
  (d + length (grp s k (rev (firstn (S i) inp))) = S j)%nat -> (j < length out)%nat ->
  fmt_loop inp out s i (Z.of_nat j) k =
  Ok (firstn d out ++ rev (grp s k (rev (firstn (S i) inp))) ++ skipn (S j) out).
Proof.
  induction i as [|i IH]; intros j k out Hi Hk Hlen Hj.
  - destruct inp as [|a inp]; [cbn in Hi; lia|].
    cbn [firstn rev app grp length] in Hlen |- *.
    cbn [fmt_loop]. rewrite (idx_ok _ 0%nat a) by reflexivity. cbn [bind].
    rewrite upd_ok by exact Hj. cbn [bind]. replace d with j by lia. reflexivity.
  - destruct (nth_error inp (S i)) as [a|] eqn:Ea; [|apply nth_error_None in Ea; lia].
    assert (Hi' : (i < length inp)%nat) by lia.
    rewrite (firstn_S_nth _ _ _ Ea), rev_app_distr in Hlen |- *. cbn [rev app] in Hlen |- *.
    destruct (rev (firstn (S i) inp)) as [|b r] eqn:Er.
    { apply (f_equal (@length Z)) in Er. rewrite rev_length, firstn_length_le in Er by lia.
      cbn [length] in Er. lia. }
    rewrite grp_cons in Hlen |- *.
    cbn [fmt_loop]. rewrite (idx_ok _ (S i) a Ea). cbn [bind].
    rewrite upd_ok by exact Hj. cbn [bind].
    destruct (Z.eqb_spec (k + 1) 3) as [E|E].
    + cbn [length] in Hlen.
      assert (Hp : (0 < length (grp s 0 (b :: r)))%nat) by (cbn [grp length]; lia).
      set (out1 := firstn j out ++ a :: skipn (S j) out).
      assert (Hl1 : length out1 = length out) by (apply upd_length; exact Hj).
      replace (Z.of_nat j - 1) with (Z.of_nat (j - 1)) by lia.
      rewrite upd_ok by lia. cbn [bind].
      set (out2 := firstn (j - 1) out1 ++ s :: skipn (S (j - 1)) out1).
      assert (Hl2 : length out2 = length out1) by (apply upd_length; lia).
      replace (Z.of_nat (j - 1) - 1) with (Z.of_nat (j - 2)) by lia.
      rewrite (IH (j - 2)%nat 0 out2) by (rewrite ?Hl2, ?Hl1; lia).
      f_equal. unfold out2 at 1. rewrite upd_firstn by lia. unfold out1 at 1.
      rewrite upd_firstn by lia. f_equal. cbn [rev]. rewrite <- !app_assoc. f_equal.
      replace (S (j - 2)) with (j - 1)%nat by lia.
      unfold out2. rewrite upd_skipn by lia. cbn [app]. f_equal.
      replace (S (j - 1)) with j by lia. unfold out1. apply upd_skipn. exact Hj.
    + cbn [length] in Hlen.
      assert (Hp : (0 < length (grp s (k + 1) (b :: r)))%nat) by (cbn [grp length]; lia).
      set (out1 := firstn j out ++ a :: skipn (S j) out).
      assert (Hl1 : length out1 = length out) by (apply upd_length; exact Hj).
      replace (Z.of_nat j - 1) with (Z.of_nat (j - 1)) by lia.
      rewrite (IH (j - 1)%nat (k + 1) out1) by (rewrite ?Hl1; lia).
      f_equal. unfold out1 at 1. rewrite upd_firstn by lia. f_equal. cbn [rev].
      rewrite <- !app_assoc. f_equal. replace (S (j - 1)) with j by lia.
      unfold out1. apply upd_skipn. exact Hj.
Qed.

(** The grouped text. *)
Definition group (s : Z) (l : bytes) : bytes := rev (grp s 0 (rev l)).

Lemma group_length s l : l <> [] -> len (group s l) = len l + (len l - 1) / 3.
Proof.
  intros H. unfold group, len. rewrite rev_length.
  assert (Hr : rev l <> []).
  { intros E. apply H. rewrite <- (rev_involutive l), E. reflexivity. }
  pose proof (grp_length s (rev l) 0 ltac:(lia) Hr) as G. unfold len in G.
  rewrite rev_length in G. lia.
Qed.

Lemma formatNumber_ok inp out s d : inp <> [] ->
  (length out = d + length (group s inp))%nat ->
  formatNumber inp out s = Ok (firstn d out ++ group s inp).
Proof.
  intros Hne Hl. unfold formatNumber. destruct (length inp) as [|n] eqn:En.
  { destruct inp; [congruence|discriminate]. }
  unfold group in *. rewrite rev_length in Hl.
  assert (Hf : firstn (S n) inp = inp) by (rewrite <- En; apply firstn_all).
  assert (Hpos : (0 < length (grp s 0 (rev inp)))%nat).
  { destruct (rev inp) eqn:Er; [|cbn [grp length]; lia].
    apply (f_equal (@length Z)) in Er. rewrite rev_length in Er. cbn in Er. lia. }
  replace (len out - 1) with (Z.of_nat (length out - 1)) by (unfold len; lia).
  rewrite (fmt_loop_ok inp s d n (length out - 1) 0 out) by (rewrite ?Hf; lia).
  rewrite Hf. rewrite (skipn_all2 out) by lia. rewrite app_nil_r. reflexivity.
Qed.

Lemma make_bytes_ok n : make_bytes (Z.of_nat n) = Ok (repeat 0 n).
Proof. unfold make_bytes. replace (Z.of_nat n <? 0) with false by lia. rewrite Nat2Z.id. reflexivity. Qed.

Lemma group_unsigned s l : l <> [] -> group_signed false l s = Ok (group s l).
Proof.
  intros Hne. pose proof (group_length s l Hne) as G.
  assert (Hl : 0 < len l) by (unfold len; destruct l; [congruence|cbn [length]; lia]).
  unfold group_signed. rewrite Z.quot_div_nonneg by lia.
  rewrite <- G. unfold len at 1. rewrite make_bytes_ok. cbn [bind].
  rewrite (formatNumber_ok l _ s 0) by (rewrite ?repeat_length; auto). reflexivity.
Qed.

Lemma group_negative s l : l <> [] -> group_signed true (45 :: l) s = Ok (45 :: group s l).
Proof.
  intros Hne. pose proof (group_length s l Hne) as G.
  assert (Hl : 0 < len l) by (unfold len; destruct l; [congruence|cbn [length]; lia]).
  unfold group_signed.
  replace (len (45 :: l)) with (len l + 1) by (unfold len; cbn [length]; lia).
  replace (len l + 1 - 1) with (len l) by lia.
  rewrite Z.quot_div_nonneg by lia.
  replace (len l + 1 + (len l - 1) / 3) with (Z.of_nat (S (length (group s l)))) by (unfold len in *; lia).
  rewrite make_bytes_ok. cbn [bind].
  replace (slice_from (45 :: l) 1) with (Ok l)
    by (unfold slice_from, len; cbn [length]; replace ((1 <? 0) || (Z.of_nat (S (length l)) <? 1)) with false by lia; reflexivity).
  cbn [bind].
  assert (U : forall o : bytes, (0 < length o)%nat -> upd o 0 45 = Ok (firstn 0 o ++ 45 :: skipn 1 o)) by (intros o Ho; exact (upd_ok o 0 45 Ho)).
  rewrite U by (rewrite repeat_length; lia). cbn [bind].
  rewrite (formatNumber_ok l _ s 1) by
    (try exact Hne; cbn [repeat firstn skipn app length]; rewrite repeat_length; reflexivity).
  reflexivity.
Qed.

(** Properties of the grouped text. *)
Lemma without_rev s l : without s (rev l) = rev (without s l).
Proof.
  unfold without. induction l as [|c l IH]; [reflexivity|].
  cbn [rev filter]. rewrite filter_app, IH. cbn [filter]. destruct (negb (c =? s)); cbn [rev]; [reflexivity|].
  rewrite app_nil_r. reflexivity.
Qed.
Lemma without_id s l : ~ In s l -> without s l = l.
Proof.
  unfold without. induction l as [|c l IH]; intros H; [reflexivity|].
  cbn [filter]. destruct (Z.eqb_spec c s) as [->|]; [exfalso; apply H; left; reflexivity|].
  cbn [negb]. f_equal. apply IH. intros Hi. apply H. right. exact Hi.
Qed.
Lemma without_grp s l : forall k, ~ In s l -> without s (grp s k l) = l.
Proof.
  induction l as [|c r IH]; intros k H; [reflexivity|].
  destruct r as [|d r].
  - cbn [grp]. apply without_id. exact H.
  - rewrite grp_cons. unfold without in *. cbn [filter].
    destruct (Z.eqb_spec c s) as [->|]; [exfalso; apply H; left; reflexivity|]. cbn [negb].
    assert (H' : ~ In s (d :: r)) by (intros Hi; apply H; right; exact Hi).
    f_equal. destruct (k + 1 =? 3).
    + cbn [filter]. rewrite Z.eqb_refl. cbn [negb]. apply IH. exact H'.
    + apply IH. exact H'.
Qed.
Lemma without_group s l : ~ In s l -> without s (group s l) = l.
Proof.
  intros H. unfold group. rewrite without_rev, without_grp, rev_involutive; [reflexivity|].
  intros Hi. apply H. apply in_rev. exact Hi.
Qed.

Lemma grp_positions s l : forall k p, 0 <= k < 3 -> ~ In s l -> (p < length (grp s k l))%nat ->
  (nth p (grp s k l) 0 = s <-> ((Z.of_nat p + k) mod 4 = 3)).
Proof.
  induction l as [|c r IH]; intros k p Hk H Hp; [cbn in Hp; lia|].
  assert (Hc : c <> s) by (intros ->; apply H; left; reflexivity).
  destruct r as [|d r].
  - cbn [grp length] in Hp. replace p with 0%nat by lia. cbn [grp nth]. lia.
  - assert (H' : ~ In s (d :: r)) by (intros Hi; apply H; right; exact Hi).
    rewrite grp_cons in Hp |- *. destruct p as [|p]; [cbn [nth]; lia|].
    cbn [nth]. cbn [length] in Hp.
    destruct (Z.eqb_spec (k + 1) 3) as [E|E].
    + destruct p as [|p]; [cbn [nth]; lia|]. cbn [nth]. cbn [length] in Hp.
      rewrite IH by (try exact H'; lia). lia.
    + rewrite IH by (try exact H'; lia). lia.
Qed.

Lemma grp_last s l : forall k, last (grp s k l) 0 = last l 0.
Proof.
  induction l as [|c r IH]; intros k; [reflexivity|].
  destruct r as [|d r]; [reflexivity|]. rewrite grp_cons.
  destruct (k + 1 =? 3).
  - specialize (IH 0). cbn [grp] in *. cbn [last] in *. exact IH.
  - specialize (IH (k + 1)). cbn [grp] in *. cbn [last] in *. exact IH.
Qed.
Lemma hd_rev (l : bytes) : hd 0 (rev l) = last l 0.
Proof.
  induction l as [|c l IH]; [reflexivity|]. cbn [rev].
  destruct l as [|d l]; [reflexivity|].
  rewrite <- (app_nil_r (rev (d :: l) ++ [c])). cbn [last].
  change (last (d :: l) 0) with (last (d :: l) 0) in IH.
  destruct (rev (d :: l)) as [|e q] eqn:E.
  - apply (f_equal (@length Z)) in E. rewrite rev_length in E. discriminate.
  - cbn [app hd]. cbn [hd] in IH. exact IH.
Qed.
Lemma last_rev (l : bytes) : last (rev l) 0 = hd 0 l.
Proof. rewrite <- hd_rev, rev_involutive. reflexivity. Qed.

Lemma group_grouped s l : ~ In s l -> l <> [] -> grouped_by_three s (group s l).
Proof.
  intros H Hne. split.
  - intros p Hp. unfold group in *. rewrite rev_involutive. rewrite rev_length in Hp.
    rewrite grp_positions by (try lia; rewrite <- in_rev; exact H). lia.
  - unfold group. rewrite hd_rev, grp_last, last_rev. destruct l; [congruence|].
    cbn [hd]. intros ->. apply H. left. reflexivity.
Qed.

Lemma digits_not_sep s l : ~ is_digit s -> Forall is_digit l -> ~ In s l.
Proof. intros H HF Hi. rewrite Forall_forall in HF. apply H, HF, Hi. Qed.

Lemma UInt64With_ok x s : is_u64 x -> ~ is_digit s -> exists out,
  UInt64With x s = Ok out /\ is_decimal_of x (without s out) /\ grouped_by_three s out.
Proof.
  intros Hx Hs. pose proof (FormatUint_decimal x Hx) as D.
  pose proof D as (D1 & D2 & D3 & D4).
  pose proof (digits_not_sep s _ Hs D1) as Hn.
  exists (group s (FormatUint x)). split; [exact (group_unsigned s _ D3)|].
  split; [rewrite without_group by exact Hn; exact D|apply group_grouped; assumption].
Qed.

Lemma Int64With_ok x s : is_i64 x -> ~ is_digit s -> s <> 45 -> exists out,
  Int64With x s = Ok ((if x <? 0 then [45] else []) ++ out) /\
  is_decimal_of (Z.abs x) (without s out) /\ grouped_by_three s out.
Proof.
  intros Hx Hs Hm. unfold is_i64 in Hx.
  assert (Hu : is_u64 (Z.abs x)) by (unfold is_u64; lia).
  pose proof (FormatUint_decimal _ Hu) as D.
  pose proof D as (D1 & D2 & D3 & D4).
  pose proof (digits_not_sep s _ Hs D1) as Hn.
  exists (group s (FormatUint (Z.abs x))). split.
  - unfold Int64With, FormatInt. destruct (Z.ltb_spec x 0) as [L|L].
    + replace (Z.abs x) with (- x) in * by lia. apply group_negative. exact D3.
    + replace (Z.abs x) with x in * by lia. apply group_unsigned. exact D3.
  - split; [rewrite without_group by exact Hn; exact D|apply group_grouped; assumption].
Qed.

(** Floats. *)
Lemma split_on_none l sep : forall cur, ~ In sep l -> split_on l sep cur = [rev cur ++ l].
Proof.
  induction l as [|c l IH]; intros cur H; cbn [split_on]; [rewrite app_nil_r; reflexivity|].
  destruct (Z.eqb_spec c sep) as [->|]; [exfalso; apply H; left; reflexivity|].
  rewrite IH by (intros Hi; apply H; right; exact Hi). cbn [rev]. rewrite <- app_assoc. reflexivity.
Qed.
Lemma split_on_one l sep f : forall cur, ~ In sep l -> ~ In sep f ->
  split_on (l ++ sep :: f) sep cur = [rev cur ++ l; f].
Proof.
  induction l as [|c l IH]; intros cur H Hf; cbn [app split_on].
  - rewrite Z.eqb_refl, split_on_none by exact Hf. rewrite app_nil_r. reflexivity.
  - destruct (Z.eqb_spec c sep) as [->|]; [exfalso; apply H; left; reflexivity|].
    rewrite IH by (try exact Hf; intros Hi; apply H; right; exact Hi).
    cbn [rev]. rewrite <- app_assoc. reflexivity.
Qed.
Lemma replace_first_one l a b f : ~ In a l -> replace_first (l ++ a :: f) a b = l ++ b :: f.
Proof.
  induction l as [|c l IH]; intros H; cbn [app replace_first]; [rewrite Z.eqb_refl; reflexivity|].
  destruct (Z.eqb_spec c a) as [->|]; [exfalso; apply H; left; reflexivity|].
  f_equal. apply IH. intros Hi. apply H. right. exact Hi.
Qed.
Lemma replace_first_none l a b : ~ In a l -> replace_first l a b = l.
Proof.
  induction l as [|c l IH]; intros H; cbn [replace_first]; [reflexivity|].
  destruct (Z.eqb_spec c a) as [->|]; [exfalso; apply H; left; reflexivity|].
  f_equal. apply IH. intros Hi. apply H. right. exact Hi.
Qed.

Definition sign (neg : bool) : bytes := if neg then [45] else [].

Lemma group_signed_ok neg l s : l <> [] -> group_signed neg (sign neg ++ l) s = Ok (sign neg ++ group s l).
Proof. intros H. destruct neg; [apply group_negative|apply group_unsigned]; exact H. Qed.

Lemma FloatWith_ok neg digits frac dec s :
  Forall is_digit digits -> digits <> [] -> Forall is_digit frac ->
  ~ is_digit dec -> dec <> 45 -> ~ is_digit s -> s <> 45 ->
  exists g, without s g = digits /\ grouped_by_three s g /\
    FloatWith neg (sign neg ++ digits ++ 46 :: frac) dec s = Ok (sign neg ++ g ++ dec :: frac) /\
    FloatWith neg (sign neg ++ digits) dec s = Ok (sign neg ++ g).
Proof.
  intros Hd Hne Hf Hdec Hdec' Hs Hs'. exists (group s digits).
  pose proof (digits_not_sep s _ Hs Hd) as Hn.
  split; [apply without_group; exact Hn|]. split; [apply group_grouped; assumption|].
  assert (P : forall c, ~ is_digit c -> c <> 45 -> ~ In c (sign neg ++ digits)).
  { intros c Hc Hc' Hi. apply in_app_or in Hi as [Hi|Hi].
    - destruct neg; cbn in Hi; [destruct Hi; lia|exact Hi].
    - exact (digits_not_sep c _ Hc Hd Hi). }
  assert (D46 : ~ is_digit 46) by (unfold is_digit; lia).
  assert (R : forall r, r = 46 :: frac \/ r = [] ->
     (if negb (dec =? 46) then replace_first (sign neg ++ digits ++ r) 46 dec else sign neg ++ digits ++ r)
     = sign neg ++ digits ++ match r with [] => [] | _ :: q => dec :: q end).
  { intros r Hr. destruct (Z.eqb_spec dec 46) as [->|E]; cbn [negb].
    - destruct Hr as [->| ->]; reflexivity.
    - rewrite app_assoc. destruct Hr as [->| ->].
      + rewrite replace_first_one by (apply P; [exact D46|lia]). rewrite <- app_assoc. reflexivity.
      + rewrite app_nil_r, replace_first_none by (apply P; [exact D46|lia]).
        rewrite app_nil_r. reflexivity. }
  split.
  - unfold FloatWith. rewrite (R (46 :: frac)) by auto.
    rewrite app_assoc, split_on_one by (try (apply P; assumption); exact (digits_not_sep _ _ Hdec Hf)).
    cbn [rev app]. rewrite group_signed_ok by exact Hne. cbn [bind]. rewrite <- app_assoc. reflexivity.
  - unfold FloatWith. pose proof (R [] ltac:(auto)) as R0. rewrite !app_nil_r in R0. rewrite R0.
    rewrite split_on_none by (apply P; assumption). cbn [bind].
    rewrite group_signed_ok by exact Hne. cbn [bind]. rewrite app_nil_r. reflexivity.
Qed.
