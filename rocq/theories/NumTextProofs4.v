(** Decimals: their texts (C124) and division (C125). *)
From Coq Require Import Lia ZifyBool String.
From Verif Require Import Base GuidModel FormatModel FormatSpec FormatProofs NumModel GoTextModel GoTextProofs GoTextProofs2 NumTextModel NumTextSpec NumTextProofs2 NumTextProofs3.
Open Scope list_scope.
Open Scope Z_scope.

Lemma split_at_none p s : (forall c, In c s -> p c = false) -> split_at p s = (s, None).
Proof. induction s as [|c s IH]; intros H; [reflexivity|]. cbn. rewrite (H c (or_introl eq_refl)), IH by (intros x I; apply H; right; exact I). reflexivity. Qed.
Lemma split_at_some p a c b : (forall x, In x a -> p x = false) -> p c = true -> split_at p (a ++ c :: b) = (a, Some b).
Proof. induction a as [|x a IH]; intros H C; cbn [app split_at]; [rewrite C; reflexivity|]. rewrite (H x (or_introl eq_refl)), IH; [reflexivity|intros y I; apply H; right; exact I|exact C]. Qed.
Lemma split_at_inv p s : forall a b, split_at p s = (a, b) -> (forall x, In x a -> p x = false) /\ match b with None => s = a | Some r => exists c, p c = true /\ s = a ++ c :: r end.
Proof.
  induction s as [|c s IH]; intros a b E; cbn in E; [injection E as <- <-; split; [intros x []|reflexivity]|]. destruct (p c) eqn:C.
  - injection E as <- <-. split; [intros x []|]. exists c. auto.
  - destruct (split_at p s) as [a' b'] eqn:S. injection E as <- <-. destruct (IH a' b' eq_refl) as [H1 H2]. split; [intros x [<-|I]; auto|]. destruct b' as [r|]; [|subst; reflexivity].
    destruct H2 as (d & D & ->). exists d. auto.
Qed.
Lemma fold_dec l : forall a, fold_left (fun a c => a * 10 + (c - 48)) l a = dec_from a l.
Proof. induction l as [|c l IH]; intros a; [unfold dec_from, len; cbn; change (dec_value []) with 0; lia|]. cbn [fold_left]. rewrite IH, dec_from_cons. reflexivity. Qed.
Lemma digits_test l : forallb (fun c => (48 <=? c) && (c <=? 57)) l = true <-> Forall is_digit l.
Proof. rewrite forallb_forall, List.Forall_forall. split; intros H c I; specialize (H c I); unfold is_digit in *; lia. Qed.
Lemma read_integer_text neg sg d : sign_text neg sg -> Forall is_digit d -> d <> [] -> read_integer (sg ++ d) = Some (if neg then - dec_value d else dec_value d).
Proof.
  intros S F N. unfold read_integer. rewrite (split_sign_text neg sg d S (digits_head d F)). destruct d as [|c d]; [contradiction|].
  rewrite (proj2 (digits_test _) F). rewrite fold_dec. unfold dec_from. rewrite Z.mul_0_l, Z.add_0_l. reflexivity.
Qed.
Lemma read_integer_inv s n : read_integer s = Some n -> exists neg sg d, sign_text neg sg /\ Forall is_digit d /\ d <> [] /\ s = sg ++ d /\ n = if neg then - dec_value d else dec_value d.
Proof.
  unfold read_integer. destruct (split_sign s) as [neg r] eqn:S. apply split_sign_inv in S as (sg & S & ->). destruct r as [|c r]; [discriminate|].
  destruct (forallb (fun c0 => (48 <=? c0) && (c0 <=? 57)) (c :: r)) eqn:F; [|discriminate]. rewrite fold_dec. unfold dec_from. rewrite Z.mul_0_l, Z.add_0_l. intros E. injection E as <-.
  exists neg, sg, (c :: r). apply digits_test in F. repeat split; auto. discriminate.
Qed.
Lemma sign_of_digits neg sg : sign_text neg sg -> forall c, In c sg -> c = 43 \/ c = 45.
Proof. destruct neg; cbn; [intros -> c [<-|[]]; auto|]. intros [-> | ->] c I; [destruct I|destruct I as [<-|[]]; auto]. Qed.

Lemma parse_decimal_text neg m k e s : number_text neg m k e s -> in_int32 e = true -> in_int32 (e - k) = true ->
  parse_decimal s = Some (Dec (if neg then - m else m) (e - k)).
Proof.
  intros (sg & p & x & S & (w & f & W & F & N & P & -> & ->) & X & ->) B1 B2. unfold parse_decimal.
  assert (NE : forall c, In c (sg ++ p) -> is_E c = false).
  { intros c I. unfold is_E. apply in_app_or in I as [I|I]; [destruct (sign_of_digits neg sg S c I) as [-> | ->]; reflexivity|].
    assert (D : is_digit c \/ c = 46).
    { destruct P as [-> | [_ ->]]; [|left; rewrite List.Forall_forall in W; auto]. rewrite List.Forall_forall in W, F. apply in_app_or in I as [I|[<-|I]]; auto. }
    unfold is_digit in D. lia. }
  assert (SE : exists ex, split_at is_E (sg ++ p ++ x) = (sg ++ p, ex) /\ match ex with None => Some 0 | Some t => read_integer t end = Some e).
  { destruct X as [[-> ->]|(c & neg' & sg' & d & C & S' & ND & FD & -> & ->)].
    - exists None. rewrite app_nil_r. split; [apply split_at_none; exact NE|reflexivity].
    - exists (Some (sg' ++ d)). split; [|apply read_integer_text; assumption]. rewrite app_assoc. apply split_at_some; [exact NE|]. unfold is_E. lia. }
  destruct SE as (ex & -> & ->). rewrite B1. cbn [negb].
  assert (SP : exists point, split_at (Z.eqb 46) (sg ++ p) = (sg ++ w, point) /\ match point with Some f => f | None => [] end = f).
  { assert (NP : forall c, In c (sg ++ w) -> (46 =? c) = false).
    { intros c I. apply in_app_or in I as [I|I]; [destruct (sign_of_digits neg sg S c I) as [-> | ->]; reflexivity|]. rewrite List.Forall_forall in W. specialize (W c I). unfold is_digit in W. lia. }
    destruct P as [-> | [-> ->]].
    - exists (Some f). split; [rewrite app_assoc; apply split_at_some; [exact NP|reflexivity]|reflexivity].
    - exists None. split; [apply split_at_none; exact NP|reflexivity]. }
  destruct SP as (point & -> & ->).
  assert (NF : existsb (Z.eqb 46) f = false).
  { apply Bool.not_true_iff_false. intros H. apply existsb_exists in H as (c & I & H). rewrite List.Forall_forall in F. specialize (F c I). unfold is_digit in F. lia. }
  rewrite NF. rewrite <- app_assoc. rewrite (read_integer_text neg sg (w ++ f) S); [|apply Forall_app; auto|exact N]. rewrite B2. reflexivity.
Qed.
(** Nothing else is read, except a sign after a leading point. *)
Lemma parse_decimal_only s d : parse_decimal s = Some d -> exists (neg : bool) m k e, d = Dec (if neg then - m else m) (e - k) /\
  (number_text neg m k e s \/ exists sg f x, sg <> [] /\ sign_text neg sg /\ Forall is_digit f /\ f <> [] /\ m = dec_value f /\ k = len (sg ++ f) /\ exponent_text e x /\ s = 46 :: sg ++ f ++ x).
Proof.
  unfold parse_decimal. destruct (split_at is_E s) as [v ex] eqn:S1. apply split_at_inv in S1 as [H1 H2].
  destruct (match ex with None => Some 0 | Some t => read_integer t end) as [e|] eqn:EX; [|discriminate]. destruct (in_int32 e) eqn:B1; [|discriminate]. cbn [negb].
  assert (XT : exists x, exponent_text e x /\ s = v ++ x).
  { destruct ex as [t|]; [|injection EX as <-; exists (@nil Z); rewrite app_nil_r; split; [left; auto|exact H2]]. destruct H2 as (c & C & ->). exists (c :: t). split; [|reflexivity].
    right. apply read_integer_inv in EX as (neg & sg & dd & S & F & N & -> & ->). exists c, neg, sg, dd. unfold is_E in C. repeat split; auto. lia. }
  destruct XT as (x & X & ->). clear H2 EX.
  destruct (split_at (Z.eqb 46) v) as [whole point] eqn:S2. apply split_at_inv in S2 as [H3 H4]. set (f := match point with Some f => f | None => [] end).
  destruct (existsb (Z.eqb 46) f) eqn:NF; [discriminate|]. destruct (read_integer (whole ++ f)) as [n|] eqn:RI; [|discriminate].
  destruct (in_int32 (e - len f)) eqn:B2; [|discriminate]. intros E. injection E as <-.
  apply read_integer_inv in RI as (neg & sg & dd & S & F & N & E & ->). exists neg, (dec_value dd), (len f), e. split; [reflexivity|].
  assert (PV : v = whole ++ 46 :: f \/ f = [] /\ v = whole).
  { destruct point as [g|]; unfold f; [|right; auto]. destruct H4 as (c & C & ->). left. f_equal. f_equal. lia. }
  destruct whole as [|a whole].
  - cbn [app] in E. destruct sg as [|b sg].
    + left. exists (@nil Z), v, x. split; [exact S|]. split; [|split; [exact X|reflexivity]]. exists (@nil Z), f. split; [constructor|]. cbn [app] in *. rewrite E in *. auto.
    + right. exists (b :: sg), dd, x. split; [discriminate|]. split; [exact S|]. split; [exact F|]. split; [exact N|]. split; [reflexivity|]. split; [rewrite E; reflexivity|]. split; [exact X|].
      destruct PV as [-> | [Z _]]; [|rewrite E in Z; discriminate]. rewrite E. cbn [app]. rewrite <- app_assoc. reflexivity.
  - left.
    assert (W : exists w, a :: whole = sg ++ w /\ dd = w ++ f).
    { destruct neg; cbn in S; [subst sg; injection E as -> E; exists whole; auto|]. destruct S as [-> | ->]; [exists (a :: whole); auto|injection E as -> E; exists whole; auto]. }
    destruct W as (w & EW & ->). apply Forall_app in F as [FW FF].
    exists sg, (match point with Some _ => w ++ 46 :: f | None => w end), x. split; [exact S|].
    destruct point as [g|].
    + destruct H4 as (c & C & ->). assert (c = 46) by lia. subst c. split; [|split; [exact X|rewrite EW, <- !app_assoc; reflexivity]]. exists w, f. repeat split; auto.
    + subst v. split; [|split; [exact X|rewrite EW, <- !app_assoc; reflexivity]]. exists w, f. repeat split; auto.
Qed.
