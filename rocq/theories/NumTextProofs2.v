(** Reading numbers: the grammar (C123, C124). *)
From Coq Require Import Reals Lia Lra ZifyBool String.
From Verif Require Import Base GuidModel FormatModel FormatSpec FormatProofs NumModel GoTextModel GoTextProofs GoTextProofs2 NumTextModel NumTextSpec NumTextProofs.
From Flocq Require Import Core.Core IEEE754.BinarySingleNaN.
Open Scope list_scope.
Open Scope Z_scope.

Definition dec_from (a : Z) (l : bytes) : Z := a * 10 ^ len l + dec_value l.
Lemma dec_from_cons a c l : dec_from a (c :: l) = dec_from (a * 10 + (c - 48)) l.
Proof. unfold dec_from. rewrite dec_value_cons. unfold len. cbn [length]. rewrite Nat2Z.inj_succ, Z.pow_succ_r by lia. lia. Qed.
Lemma digit_test c : is_digit c -> ((48 <=? c) && (c <=? 57)) = true. Proof. unfold is_digit. lia. Qed.
Lemma xvalue_digit c : is_digit c -> xvalue c = c - 48.
Proof. intros D. unfold xvalue. rewrite digit_test by exact D. reflexivity. Qed.
Lemma scan_digits w : Forall is_digit w -> forall r m k dot dg,
  scan_mantissa false (w ++ r) m k dot dg = scan_mantissa false r (dec_from m w) (k + if dot then len w else 0) dot (dg || negb (len w =? 0)).
Proof.
  induction 1 as [|c w D F IH]; intros r m k dot dg.
  - unfold dec_from, len. cbn [app length]. change (dec_value []) with 0. f_equal; [lia|destruct dot; cbn; lia|destruct dg; reflexivity].
  - cbn [app scan_mantissa]. assert (E1 : (c =? 95) = false) by (unfold is_digit in D; lia). assert (E2 : (c =? 46) = false) by (unfold is_digit in D; lia).
    rewrite E1, E2, (digit_test c D). cbn [orb]. rewrite IH, xvalue_digit, dec_from_cons by exact D. unfold len in *. cbn [length]. f_equal; [destruct dot; lia|].
    destruct dg; cbn [orb]; [reflexivity|]. symmetry. apply Bool.negb_true_iff. lia.
Qed.
Lemma scan_stop e x m k dot dg : exponent_text e x -> scan_mantissa false x m k dot dg = (m, k, dg, x).
Proof. intros [[_ ->]|(c & neg & sg & d & C & _ & _ & _ & -> & _)]; [reflexivity|]. destruct C as [-> | ->]; reflexivity. Qed.
Lemma len_zero (l : bytes) : (len l =? 0) = true -> l = [].
Proof. unfold len. destruct l; [reflexivity|cbn [length]; lia]. Qed.
Lemma scan_number m k p e x : point_text m k p -> exponent_text e x -> scan_mantissa false (p ++ x) 0 0 false false = (m, k, true, x).
Proof.
  intros (w & f & W & F & N & P & -> & ->) X. destruct P as [-> | [-> ->]].
  - rewrite <- app_assoc. rewrite (scan_digits w W). cbn [app scan_mantissa Z.eqb Pos.eqb]. rewrite (scan_digits f F), (scan_stop e x) by exact X. cbn [orb].
    assert (G : negb (len w =? 0) || negb (len f =? 0) = true).
    { destruct (len w =? 0) eqn:A; [|reflexivity]. destruct (len f =? 0) eqn:B; [|reflexivity]. apply len_zero in A, B. subst. contradiction. }
    rewrite G. unfold dec_from. rewrite dec_value_app. rewrite !Z.add_0_l. reflexivity.
  - rewrite (scan_digits w W), (scan_stop e x) by exact X. rewrite app_nil_r in *. 
    assert (G : negb (len w =? 0) = true) by (destruct (len w =? 0) eqn:A; [apply len_zero in A; contradiction|reflexivity]).
    rewrite G. unfold dec_from. rewrite !Z.mul_0_l, !Z.add_0_l. reflexivity.
Qed.
Lemma scan_exponent_digits d : Forall is_digit d -> forall e, 0 <= e -> dec_from e d < 100000 -> scan_exponent d e = (dec_from e d, []).
Proof.
  induction 1 as [|c d D F IH]; intros e E B; [unfold dec_from, len; cbn; change (dec_value []) with 0; f_equal; lia|].
  cbn [scan_exponent]. assert (E1 : (c =? 95) = false) by (unfold is_digit in D; lia). rewrite E1, (digit_test c D).
  rewrite dec_from_cons in *. unfold is_digit in D.
  assert (P : 0 < 10 ^ len d) by (apply Z.pow_pos_nonneg; unfold len; lia). pose proof (dec_value_bound d F).
  assert (L : (e <? 10000) = true) by (unfold dec_from in B; nia). rewrite L. apply IH; lia.
Qed.
Lemma split_sign_text neg sg r : sign_text neg sg -> (forall c, hd_error r = Some c -> c <> 43 /\ c <> 45) -> split_sign (sg ++ r) = (neg, r).
Proof.
  intros S H. destruct neg; cbn in S; [subst; reflexivity|]. destruct S as [-> | ->]; [|reflexivity]. cbn [app]. destruct r as [|c r]; [reflexivity|].
  specialize (H c eq_refl). unfold split_sign. destruct c as [|q|q]; try reflexivity.
  do 7 (try (destruct q as [q|q|]; try reflexivity)); lia.
Qed.
Lemma digits_head d : Forall is_digit d -> forall c, hd_error d = Some c -> c <> 43 /\ c <> 45.
Proof. intros F c E. destruct F as [|x d D F]; [discriminate|]. injection E as <-. unfold is_digit in D. lia. Qed.
Lemma lower_E : lower 69 = 101 /\ lower 101 = 101. Proof. split; reflexivity. Qed.
Lemma read_exponent_text e x : exponent_text e x -> Z.abs e < 100000 -> read_exponent false x = Some e.
Proof.
  intros [[-> ->]|(c & neg & sg & d & C & S & N & F & -> & E)] B; [reflexivity|].
  assert (V : dec_value d < 100000) by (destruct neg; lia).
  unfold read_exponent. replace (lower c =? 101) with true by (destruct C as [-> | ->]; reflexivity).
  rewrite (split_sign_text neg sg d S (digits_head d F)). destruct d as [|a d]; [contradiction|].
  assert (A : is_digit a) by (inversion F; assumption). rewrite (digit_test a A).
  rewrite scan_exponent_digits; [|exact F|lia|unfold dec_from; lia]. f_equal. rewrite E. unfold dec_from. rewrite Z.mul_0_l, Z.add_0_l. reflexivity.
Qed.

(** Which bytes occur *)
Definition plain (c : Z) : Prop := is_digit c \/ c = 46 \/ c = 69 \/ c = 101 \/ c = 43 \/ c = 45.
Lemma digits_plain l : Forall is_digit l -> Forall plain l.
Proof. intros F. eapply Forall_impl; [|exact F]. intros c D. left. exact D. Qed.
Lemma sign_plain neg l : sign_text neg l -> Forall plain l.
Proof. destruct neg; cbn; [intros -> | intros [-> | ->]]; repeat constructor; unfold plain; lia. Qed.
Lemma exponent_plain e x : exponent_text e x -> Forall plain x.
Proof.
  intros [[_ ->]|(c & neg & sg & d & C & S & N & F & -> & E)]; [constructor|]. constructor; [unfold plain; lia|].
  apply Forall_app. split; [eapply sign_plain; exact S|apply digits_plain; exact F].
Qed.
Lemma point_plain m k p : point_text m k p -> Forall plain p.
Proof.
  intros (w & f & W & F & _ & [-> | [_ ->]] & _); [|apply digits_plain; exact W]. apply Forall_app. split; [apply digits_plain; exact W|].
  constructor; [unfold plain; lia|apply digits_plain; exact F].
Qed.
Lemma point_head m k p x : point_text m k p -> exists c r, p ++ x = c :: r /\ (is_digit c \/ c = 46).
Proof.
  intros (w & f & W & F & N & P & _). destruct w as [|c w].
  - destruct P as [-> | [-> ->]]; [|contradiction]. cbn. eauto.
  - destruct P as [-> | [_ ->]]; cbn; inversion W; subst; eauto.
Qed.
Lemma no_hex r : Forall plain r -> hex_prefix r = (false, r).
Proof.
  unfold hex_prefix. intros F. destruct r as [|a r]; [reflexivity|]. destruct r as [|c r]; [destruct a as [|q|q]; try reflexivity; do 7 (try (destruct q as [q|q|]; try reflexivity))|]. destruct r as [|b r]; [destruct a as [|q|q]; try reflexivity; do 7 (try (destruct q as [q|q|]; try reflexivity))|].
  assert (L : (lower c =? 120) = false).
  { inversion F as [|? ? ? F']; subst. inversion F' as [|? ? C]; subst. destruct C as [C|[->|[->|[->|[->| ->]]]]]; try reflexivity.
    unfold is_digit in C. assert (E : c = 48 \/ c = 49 \/ c = 50 \/ c = 51 \/ c = 52 \/ c = 53 \/ c = 54 \/ c = 55 \/ c = 56 \/ c = 57) by lia.
    repeat destruct E as [-> |E]; try reflexivity. subst. reflexivity. }
  destruct a as [|q|q]; try reflexivity; do 7 (try (destruct q as [q|q|]; try reflexivity)). rewrite L. reflexivity.
Qed.
Lemma no_underscore r : Forall plain r -> existsb (Z.eqb 95) r = false.
Proof.
  intros F. apply Bool.not_true_iff_false. intros E. apply existsb_exists in E as (c & I & E). rewrite List.Forall_forall in F. specialize (F c I).
  unfold plain, is_digit in F. lia.
Qed.
Lemma bytes_eqb_head a r b s : a <> b -> bytes_eqb (a :: r) (b :: s) = false.
Proof. intros N. cbn [bytes_eqb]. assert (E : (a =? b) = false) by lia. rewrite E. reflexivity. Qed.
Lemma uuid_lower_plain c : is_digit c \/ c = 46 \/ c = 43 \/ c = 45 -> uuid_lower c = c.
Proof. intros H. unfold uuid_lower. assert (E : ((65 <=? c) && (c <=? 90)) = false) by (unfold is_digit in H; lia). rewrite E. reflexivity. Qed.
Lemma not_special neg sg c r : sign_text neg sg -> is_digit c \/ c = 46 -> special (sg ++ c :: r) = None.
Proof.
  intros S C. unfold special. rewrite (split_sign_text neg sg (c :: r) S).
  - cbn [map]. rewrite uuid_lower_plain by tauto.
    change (byte_text "inf"%string) with [105; 110; 102]. change (byte_text "infinity"%string) with [105; 110; 102; 105; 110; 105; 116; 121]. change (byte_text "nan"%string) with [110; 97; 110].
    rewrite !bytes_eqb_head by (unfold is_digit in C; lia). cbn [orb].
    assert (H : exists a t, sg ++ c :: r = a :: t /\ (is_digit a \/ a = 46 \/ a = 43 \/ a = 45)).
    { destruct neg; cbn in S; [subst; cbn; eauto 8|]. destruct S as [-> | ->]; cbn; [exists c, r|exists 43, (c :: r)]; (split; [reflexivity|tauto]). }
    destruct H as (a & t & -> & A). cbn [map]. rewrite uuid_lower_plain by exact A. rewrite bytes_eqb_head by (unfold is_digit in A; lia). reflexivity.
  - intros d E. injection E as <-. unfold is_digit in C. lia.
Qed.

Lemma ParseFloat_number prec emax neg m k e s : number_text neg m k e s -> Z.abs e < 100000 ->
  ParseFloat prec emax s = (let f := round_scaled prec emax neg m 10 (e - k) in match f with S754_infinity _ => FRange f | _ => FValue f end).
Proof.
  intros (sg & p & x & S & P & X & ->) B. unfold ParseFloat. destruct (point_head m k p x P) as (c & r & E & C).
  rewrite E, (not_special neg sg c r S C). rewrite (split_sign_text neg sg (c :: r) S); [|intros d H; injection H as <-; unfold is_digit in C; lia].
  rewrite <- E. assert (F : Forall plain (p ++ x)) by (apply Forall_app; split; [eapply point_plain; exact P|eapply exponent_plain; exact X]).
  rewrite (no_hex (p ++ x) F). rewrite (scan_number m k p e x P X), (no_underscore _ F), (read_exponent_text e x X B). reflexivity.
Qed.
Lemma point_positive m k p : point_text m k p -> 0 <= m.
Proof. intros (w & f & W & F & _ & _ & -> & _). apply dec_value_bound. apply Forall_app. auto. Qed.
Lemma ParseFloat_rounds prec emax neg m k e s : 0 < prec -> prec < emax -> number_text neg m k e s -> Z.abs e < 100000 -> let r := number_value neg m k e in
  ((Rabs (nearest_in prec emax r) < bpow radix2 emax)%R -> exists f, ParseFloat prec emax s = FValue f /\ is_nearest prec emax neg r f) /\
  ((bpow radix2 emax <= Rabs (nearest_in prec emax r))%R -> ParseFloat prec emax s = FRange (S754_infinity neg)).
Proof.
  intros P PE T B r. rewrite (ParseFloat_number prec emax neg m k e s T B). destruct T as (sg & p & x & _ & PT & _). pose proof (point_positive _ _ _ PT) as M.
  destruct (scaled_correct prec emax P PE neg m (e - k) M) as [A O]. cbv zeta. split; intros H.
  - specialize (A H). exists (round_scaled prec emax neg m 10 (e - k)). split; [|exact A]. destruct A as (_ & _ & A). destruct (round_scaled prec emax neg m 10 (e - k)); try contradiction; reflexivity.
  - rewrite (O H). reflexivity.
Qed.
