(** Reading numbers: only texts of the grammar are read (C123); decimals (C124). *)
From Coq Require Import Lia ZifyBool String.
From Verif Require Import Base GuidModel FormatModel FormatSpec FormatProofs NumModel GoTextModel GoTextProofs GoTextProofs2 NumTextModel NumTextSpec NumTextProofs2.
Open Scope list_scope.
Open Scope Z_scope.

Lemma split_sign_inv s neg r : split_sign s = (neg, r) -> exists sg, sign_text neg sg /\ s = sg ++ r.
Proof.
  assert (D : split_sign s = (false, s) \/ (exists t, s = 43 :: t /\ split_sign s = (false, t)) \/ (exists t, s = 45 :: t /\ split_sign s = (true, t))).
  { destruct s as [|a s]; [left; reflexivity|]. destruct a as [|q|q]; try (left; reflexivity).
    do 7 (try (destruct q as [q|q|]; try (left; reflexivity))); eauto. }
  intros E. destruct D as [D|[(t & -> & D)|(t & -> & D)]]; rewrite D in E; injection E as <- <-.
  - exists []. split; [left; reflexivity|reflexivity].
  - exists [43]. split; [right; reflexivity|reflexivity].
  - exists [45]. split; reflexivity.
Qed.
Lemma scan_dot_inv s : ~ In 95 s -> forall m k dg m' k' dg' rest, scan_mantissa false s m k true dg = (m', k', dg', rest) ->
  exists f, Forall is_digit f /\ s = f ++ rest /\ m' = dec_from m f /\ k' = k + len f /\ dg' = dg || negb (len f =? 0).
Proof.
  induction s as [|c s IH]; intros U m k dg m' k' dg' rest E.
  - cbn in E. injection E as <- <- <- <-. exists []. split; [constructor|]. split; [reflexivity|]. unfold dec_from, len. cbn. change (dec_value []) with 0. repeat split; try lia. destruct dg; reflexivity.
  - cbn [scan_mantissa] in E. assert (E1 : (c =? 95) = false) by (assert (c <> 95) by (intros ->; apply U; left; reflexivity); lia). rewrite E1 in E.
    assert (Stop : (m, k, dg, c :: s) = (m', k', dg', rest) -> exists f, Forall is_digit f /\ c :: s = f ++ rest /\ m' = dec_from m f /\ k' = k + len f /\ dg' = dg || negb (len f =? 0)).
    { intros H. injection H as <- <- <- <-. exists []. split; [constructor|]. split; [reflexivity|]. unfold dec_from, len. cbn. change (dec_value []) with 0. repeat split; try lia. destruct dg; reflexivity. }
    destruct (c =? 46); [exact (Stop E)|]. destruct ((48 <=? c) && (c <=? 57)) eqn:D; cbn [orb andb] in E; [|exact (Stop E)].
    assert (DC : is_digit c) by (unfold is_digit; lia). apply IH in E; [|intros I; apply U; right; exact I]. destruct E as (f & F & -> & -> & -> & ->).
    exists (c :: f). split; [constructor; assumption|]. split; [reflexivity|]. rewrite (xvalue_digit c DC), dec_from_cons. split; [reflexivity|]. unfold len. cbn [length]. split; [lia|].
    cbn [orb]. destruct dg; cbn [orb]; [reflexivity|]. symmetry. apply Bool.negb_true_iff. lia.
Qed.
Lemma scan_inv s : ~ In 95 s -> forall m dg m' k' dg' rest, scan_mantissa false s m 0 false dg = (m', k', dg', rest) ->
  exists w f p, Forall is_digit w /\ Forall is_digit f /\ s = p ++ rest /\ (p = w ++ 46 :: f \/ f = [] /\ p = w) /\ m' = dec_from m (w ++ f) /\ k' = len f /\ dg' = dg || negb (len (w ++ f) =? 0).
Proof.
  induction s as [|c s IH]; intros U m dg m' k' dg' rest E.
  - cbn in E. injection E as <- <- <- <-. exists [], [], []. do 2 (split; [constructor|]). split; [reflexivity|]. split; [right; auto|]. unfold dec_from, len. cbn. change (dec_value []) with 0. repeat split; try lia. destruct dg; reflexivity.
  - cbn [scan_mantissa] in E. assert (E1 : (c =? 95) = false) by (assert (c <> 95) by (intros ->; apply U; left; reflexivity); lia). rewrite E1 in E.
    destruct (Z.eqb_spec c 46) as [-> |N].
    + apply scan_dot_inv in E; [|intros I; apply U; right; exact I]. destruct E as (f & F & -> & -> & -> & ->).
      exists [], f, (46 :: f). split; [constructor|]. split; [exact F|]. split; [reflexivity|]. split; [left; reflexivity|]. cbn [app]. repeat split; lia.
    + destruct ((48 <=? c) && (c <=? 57)) eqn:D; cbn [orb andb] in E.
      * assert (DC : is_digit c) by (unfold is_digit; lia). apply IH in E; [|intros I; apply U; right; exact I]. destruct E as (w & f & p & W & F & -> & P & -> & -> & ->).
        exists (c :: w), f, (c :: p). split; [constructor; assumption|]. split; [exact F|]. split; [reflexivity|]. split; [destruct P as [-> | [-> ->]]; [left|right]; auto|].
        cbn [app]. rewrite (xvalue_digit c DC), dec_from_cons. split; [reflexivity|]. split; [reflexivity|]. cbn [orb]. destruct dg; cbn [orb]; [reflexivity|]. symmetry. apply Bool.negb_true_iff. unfold len. cbn [length]. lia.
      * injection E as <- <- <- <-. exists [], [], []. do 2 (split; [constructor|]). split; [reflexivity|]. split; [right; auto|]. unfold dec_from, len. cbn. change (dec_value []) with 0. repeat split; try lia. destruct dg; reflexivity.
Qed.
Lemma lower_inv c v : lower c = v -> c = v \/ c = Z.lxor v 32.
Proof.
  unfold lower. intros <-. assert (T32 : forall i, i <> 5 -> Z.testbit 32 i = false) by (intros i N; change 32 with (2 ^ 5); apply Z.pow2_bits_false; lia).
  destruct (Z.testbit c 5) eqn:T; [left|right]; apply Z.bits_inj'; intros i I; rewrite ?Z.lxor_spec, Z.lor_spec; (destruct (Z.eqb_spec i 5) as [-> |N]; [rewrite T; reflexivity|]);
    rewrite (T32 i N); destruct (Z.testbit c i); reflexivity.
Qed.
Lemma scan_exponent_inv d : ~ In 95 d -> forall e e', scan_exponent d e = (e', []) -> Forall is_digit d.
Proof.
  induction d as [|c d IH]; intros U e e' E; [constructor|]. cbn [scan_exponent] in E.
  assert (E1 : (c =? 95) = false) by (assert (c <> 95) by (intros ->; apply U; left; reflexivity); lia). rewrite E1 in E.
  destruct ((48 <=? c) && (c <=? 57)) eqn:D; [|discriminate]. constructor; [unfold is_digit; lia|]. eapply IH; [intros I; apply U; right; exact I|exact E].
Qed.
Lemma read_exponent_inv x e : ~ In 95 x -> read_exponent false x = Some e -> exists e', exponent_text e' x.
Proof.
  intros U E. destruct x as [|c x]; [exists 0; left; auto|]. cbn [read_exponent] in E. destruct (lower c =? 101) eqn:L; [|discriminate].
  assert (C : c = 69 \/ c = 101).
  { apply Z.eqb_eq in L. apply lower_inv in L. cbn in L. lia. }
  destruct (split_sign x) as [neg d] eqn:S. apply split_sign_inv in S as (sg & S & ->). destruct d as [|a d]; [discriminate|].
  destruct ((48 <=? a) && (a <=? 57)); [|discriminate]. destruct (scan_exponent (a :: d) 0) as [v rest] eqn:SE. destruct rest; [|discriminate].
  apply scan_exponent_inv in SE; [|intros I; apply U; right; apply in_or_app; right; exact I].
  exists (if neg then - dec_value (a :: d) else dec_value (a :: d)). right. exists c, neg, sg, (a :: d). repeat split; auto. discriminate.
Qed.
Lemma hex_prefix_no r : ~ In 88 r -> ~ In 120 r -> hex_prefix r = (false, r).
Proof.
  intros X1 X2. unfold hex_prefix. destruct r as [|a r]; [reflexivity|]. destruct r as [|c r]; [destruct a as [|q|q]; try reflexivity; do 7 (try (destruct q as [q|q|]; try reflexivity))|].
  destruct r as [|b r]; [destruct a as [|q|q]; try reflexivity; do 7 (try (destruct q as [q|q|]; try reflexivity))|].
  assert (L : (lower c =? 120) = false).
  { apply Z.eqb_neq. intros L. apply lower_inv in L. cbn in L.
    assert (N1 : c <> 88) by (intros ->; apply X1; right; left; reflexivity). assert (N2 : c <> 120) by (intros ->; apply X2; right; left; reflexivity). lia. }
  destruct a as [|q|q]; try reflexivity; do 7 (try (destruct q as [q|q|]; try reflexivity)). rewrite L. reflexivity.
Qed.
Lemma same_letters_lower a b : Forall (fun y => 97 <= y <= 122) b -> (map uuid_lower a = b <-> same_letters a b).
Proof.
  intros F. split.
  - revert a. induction F as [|y b Y F IH]; intros a E; destruct a as [|x a]; try discriminate; [constructor|]. injection E as E1 E2. constructor; [|apply IH; exact E2].
    unfold uuid_lower in E1. destruct ((65 <=? x) && (x <=? 90)) eqn:T; lia.
  - intros S. induction S as [|x y a b H S IH]; [reflexivity|]. inversion F; subst. cbn [map]. rewrite IH by assumption. f_equal. unfold uuid_lower. destruct ((65 <=? x) && (x <=? 90)) eqn:T; lia.
Qed.
Lemma letters_ok s : Forall (fun y => 97 <= y <= 122) (byte_text s) -> forall a, bytes_eqb (map uuid_lower a) (byte_text s) = true <-> same_letters a (byte_text s).
Proof. intros F a. rewrite bytes_eqb_spec. apply same_letters_lower. exact F. Qed.
Lemma letters_inf : Forall (fun y => 97 <= y <= 122) (byte_text "inf"). Proof. change (byte_text "inf") with [105; 110; 102]. repeat (apply Forall_cons; [lia|]). apply Forall_nil. Qed.
Lemma letters_infinity : Forall (fun y => 97 <= y <= 122) (byte_text "infinity"). Proof. change (byte_text "infinity") with [105; 110; 102; 105; 110; 105; 116; 121]. repeat (apply Forall_cons; [lia|]). apply Forall_nil. Qed.
Lemma letters_nan : Forall (fun y => 97 <= y <= 122) (byte_text "nan"). Proof. change (byte_text "nan") with [110; 97; 110]. repeat (apply Forall_cons; [lia|]). apply Forall_nil. Qed.
Lemma same_head r b s : same_letters r (b :: s) -> exists a t, r = a :: t /\ (a = b \/ 97 <= b <= 122 /\ a = b - 32).
Proof. intros H. inversion H; subst. eauto. Qed.
Lemma special_iff s f : special s = Some f <-> (exists neg, f = S754_infinity neg /\ infinity_text neg s) \/ (f = S754_nan /\ nan_text s).
Proof.
  unfold special. split.
  - destruct (split_sign s) as [neg r] eqn:S. apply split_sign_inv in S as (sg & S & ES).
    destruct (bytes_eqb (map uuid_lower r) (byte_text "inf") || bytes_eqb (map uuid_lower r) (byte_text "infinity")) eqn:T.
    + intros E. injection E as <-. left. exists neg. split; [reflexivity|]. exists sg, r. split; [exact S|]. split; [exact ES|]. apply Bool.orb_true_iff in T as [T|T]; [left; exact (proj1 (letters_ok _ letters_inf r) T)|right; exact (proj1 (letters_ok _ letters_infinity r) T)].
    + destruct (bytes_eqb (map uuid_lower s) (byte_text "nan")) eqn:N; [|discriminate]. intros E. injection E as <-. right. split; [reflexivity|]. apply (letters_ok _ letters_nan). exact N.
  - intros [(neg & -> & sg & r & S & -> & H)|[-> N]].
    + assert (HD : exists a t, r = a :: t /\ (a = 105 \/ a = 73)).
      { destruct H as [H|H];
          apply same_head in H as (a & t & -> & A); exists a, t; (split; [reflexivity|lia]). }
      destruct HD as (a & t & ER & A). rewrite (split_sign_text neg sg r S) by (intros c C; rewrite ER in C; injection C as <-; lia).
      destruct H as [H|H]; [apply (letters_ok _ letters_inf r) in H|apply (letters_ok _ letters_infinity r) in H]; rewrite H; rewrite ?Bool.orb_true_r; reflexivity.
    + pose proof N as H. unfold nan_text in H. apply same_head in H as (a & t & ES & A). rewrite ES in *.
      assert (SS : split_sign (a :: t) = (false, a :: t)) by (apply (split_sign_text false [] (a :: t)); [left; reflexivity|intros c C; injection C as <-; lia]).
      rewrite SS. assert (NI : forall w, bytes_eqb (map uuid_lower (a :: t)) (105 :: w) = false).
      { intros w. cbn [map]. apply bytes_eqb_head. unfold uuid_lower. destruct ((65 <=? a) && (a <=? 90)) eqn:T; lia. }
      change (byte_text "inf") with (105 :: [110; 102]). change (byte_text "infinity") with (105 :: [110; 102; 105; 110; 105; 116; 121]). rewrite !NI. cbn [orb].
      apply (letters_ok _ letters_nan) in N. rewrite N. reflexivity.
Qed.
(** Without underscores, and without the letter of hexadecimal numbers *)
Lemma ParseFloat_only prec emax s : ~ In 95 s -> ~ In 88 s -> ~ In 120 s -> ParseFloat prec emax s <> FSyntax ->
  (exists neg m k e, number_text neg m k e s) \/ (exists neg, infinity_text neg s) \/ nan_text s.
Proof.
  intros U X1 X2 N. unfold ParseFloat in N. destruct (special s) as [f|] eqn:SP.
  - right. apply special_iff in SP as [(neg & _ & H)|[_ H]]; [left; eauto|right; exact H].
  - left. destruct (split_sign s) as [neg r] eqn:S. apply split_sign_inv in S as (sg & S & ->).
    assert (IR : forall c, In c r -> In c (sg ++ r)) by (intros c I; apply in_or_app; right; exact I).
    rewrite (hex_prefix_no r (fun I => X1 (IR _ I)) (fun I => X2 (IR _ I))) in N.
    destruct (scan_mantissa false r 0 0 false false) as [[[m k] dg] rest] eqn:SM. apply scan_inv in SM; [|intros I; exact (U (IR _ I))].
    destruct SM as (w & f & p & W & F & -> & P & -> & -> & ->).
    destruct (negb (len (w ++ f) =? 0)) eqn:NE; [|contradiction]. cbn [orb negb] in N.
    destruct (existsb (Z.eqb 95) (p ++ rest) && negb (underscoreOK (p ++ rest))); [contradiction|].
    destruct (read_exponent false rest) as [e|] eqn:RE; [|contradiction]. apply read_exponent_inv in RE as (e' & X); [|intros I; apply U, IR, in_or_app; right; exact I].
    exists neg, (dec_value (w ++ f)), (len f), e', sg, p, rest. split; [exact S|]. split; [|split; [exact X|reflexivity]].
    exists w, f. split; [exact W|]. split; [exact F|]. split; [intros E; rewrite E in NE; discriminate|]. auto.
Qed.
