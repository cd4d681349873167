(** Addresses. *)
From Coq Require Import String Lia ZArith.
From stdpp Require Import gmap.
From Verif Require ConnectorModel.
From Verif Require Import Base BaseProofs GuidModel FormatModel FormatSpec FormatProofs CalModel ExprModel TableModel XmlModel XmlSpec.
From Verif Require Import CompactModel CacheModel FrameModel FrameSpec SubscriberModel SubscriberSpec SessionModel SessionSpec.
Open Scope list_scope.
Open Scope Z_scope.

Lemma has_false x s : has x s = false <-> ~ In x s.
Proof.
  unfold has. rewrite <- Bool.not_true_iff_false, existsb_exists. split; intros H I; apply H.
  - exists x. rewrite Z.eqb_refl. auto.
  - destruct I as (y & I & Q). apply Z.eqb_eq in Q. subst. exact I.
Qed.
Lemma has_true x s : has x s = true <-> In x s.
Proof.
  unfold has. rewrite existsb_exists. split; [intros (y & I & Q); apply Z.eqb_eq in Q; subst; exact I|].
  intros I. exists x. rewrite Z.eqb_refl. auto.
Qed.
Lemma last_colon_none s : last_colon s = None <-> ~ In 58 s.
Proof.
  induction s as [|c r IH]; cbn [last_colon In]; [tauto|].
  destruct (last_colon r) as [[a b]|]; [split; [discriminate|intros H; exfalso]|].
  - assert (Q : ~ (Some (a, b) = None)) by discriminate. rewrite IH in Q. apply Q. tauto.
  - assert (N : ~ In 58 r) by (apply IH; reflexivity). destruct (Z.eqb_spec c 58) as [->|D]; split; intros H; try discriminate; try reflexivity; [tauto|].
    intros [Q|Q]; tauto.
Qed.
Lemma last_colon_some s a b : last_colon s = Some (a, b) <-> s = a ++ 58 :: b /\ ~ In 58 b.
Proof.
  revert a b. induction s as [|c r IH]; intros a b; cbn [last_colon].
  - split; [discriminate|]. intros (Q & _). destruct a; discriminate.
  - destruct (last_colon r) as [[a' b']|] eqn:L.
    + specialize (IH a' b') as (I1 & _). destruct (I1 eq_refl) as (-> & N). split.
      * intros [= <- <-]. split; [reflexivity|exact N].
      * intros (Q & N'). destruct a as [|c' a]; cbn in Q; [exfalso; injection Q as _ Q; apply N'; rewrite <- Q; apply in_or_app; right; left; reflexivity|].
        injection Q as -> Q. assert (R : Some (a', b') = Some (a, b)); [|injection R as -> ->; reflexivity].
        assert (F : forall (x y u v : bytes), x ++ 58 :: y = u ++ 58 :: v -> ~ In 58 y -> ~ In 58 v -> x = u /\ y = v).
        { clear. induction x as [|k x IHx]; intros y u v H Hy Hv; destruct u as [|k' u]; cbn in H.
          - injection H as ->. auto.
          - exfalso. injection H as <- H. apply Hy. rewrite H. apply in_or_app. right; left; reflexivity.
          - exfalso. injection H as -> H. apply Hv. rewrite <- H. apply in_or_app. right; left; reflexivity.
          - injection H as -> H. destruct (IHx _ _ _ H Hy Hv) as (-> & ->). auto. }
        destruct (F _ _ _ _ Q N N') as (-> & ->). reflexivity.
    + apply last_colon_none in L. destruct (Z.eqb_spec c 58) as [->|D]; split.
      * intros [= <- <-]. auto.
      * intros (Q & N). destruct a as [|c' a]; cbn in Q; [injection Q as ->; reflexivity|]. exfalso. injection Q as _ Q. apply L. rewrite Q. apply in_or_app. right; left; reflexivity.
      * discriminate.
      * intros (Q & N). exfalso. destruct a as [|c' a]; cbn in Q; [injection Q as -> _; contradiction|]. injection Q as _ Q. apply L. rewrite Q. apply in_or_app. right; left; reflexivity.
Qed.
Lemma first_of_none x s : first_of x s = None <-> ~ In x s.
Proof.
  induction s as [|c r IH]; cbn [first_of In]; [tauto|]. destruct (Z.eqb_spec c x) as [->|D]; [split; [discriminate|tauto]|].
  destruct (first_of x r) as [[a b]|]; split; intros H; try discriminate; try reflexivity; [|].
  - assert (Q : ~ (Some (a, b) = None)) by discriminate. rewrite IH in Q. tauto.
  - intros [Q|Q]; [contradiction|]. exact (proj1 IH H Q).
Qed.
Lemma first_of_some x s a b : first_of x s = Some (a, b) -> s = a ++ x :: b /\ ~ In x a.
Proof.
  revert a b. induction s as [|c r IH]; intros a b; cbn [first_of]; [discriminate|].
  destruct (Z.eqb_spec c x) as [->|D]; [intros [= <- <-]; auto|].
  destruct (first_of x r) as [[a' b']|]; [|discriminate]. intros [= <- <-]. destruct (IH a' b' eq_refl) as (-> & N). split; [reflexivity|].
  intros [Q|Q]; [contradiction|exact (N Q)].
Qed.
Lemma first_of_app x a b : ~ In x a -> first_of x (a ++ x :: b) = Some (a, b).
Proof.
  induction a as [|c a IH]; intros N; cbn [app first_of]; [rewrite Z.eqb_refl; reflexivity|].
  destruct (Z.eqb_spec c x) as [->|D]; [exfalso; apply N; left; reflexivity|]. rewrite IH; [reflexivity|]. intros Q. apply N. right. exact Q.
Qed.

Lemma none_of_cons c l s : none_of (c :: l) s <-> ~ In c s /\ none_of l s.
Proof.
  unfold none_of. split.
  - intros H. split; [intros I; apply (H c I); left; reflexivity|]. intros d I Q. apply (H d I). right. exact Q.
  - intros (H1 & H2) d I [<-|Q]; [exact (H1 I)|exact (H2 d I Q)].
Qed.
Lemma none_of_nil s : none_of [] s. Proof. intros c _ []. Qed.
Lemma none3 s : none_of [colon; opening; closing] s <-> ~ In 58 s /\ ~ In 91 s /\ ~ In 93 s.
Proof. rewrite !none_of_cons. unfold colon, opening, closing. pose proof (none_of_nil s). tauto. Qed.
Lemma none2 s : none_of [opening; closing] s <-> ~ In 91 s /\ ~ In 93 s.
Proof. rewrite !none_of_cons. unfold colon, opening, closing. pose proof (none_of_nil s). tauto. Qed.

Ltac notin := repeat rewrite in_app_iff in *; cbn [In] in *; intuition (try discriminate; try congruence).

Lemma SplitHostPort_spec a h p : SplitHostPort a = Some (h, p) <-> host_port a h p.
Proof.
  unfold host_port. rewrite none3, none3, none2. unfold SplitHostPort. split.
  - destruct (last_colon a) as [[before port]|] eqn:L; [|discriminate]. apply last_colon_some in L as (A & Np).
    assert (Plain : (if has 58 before then None else if has 91 a || has 93 a then None else Some (before, port)) = Some (h, p) ->
      (~ In 58 p /\ ~ In 91 p /\ ~ In 93 p) /\ ((~ In 58 h /\ ~ In 91 h /\ ~ In 93 h) /\ a = h ++ [colon] ++ p \/ (~ In 91 h /\ ~ In 93 h) /\ a = [opening] ++ h ++ [closing; colon] ++ p)).
    { destruct (has 58 before) eqn:H1; [discriminate|]. destruct (has 91 a) eqn:H2; [discriminate|]. destruct (has 93 a) eqn:H3; [discriminate|]. cbn.
      intros [= <- <-]. apply has_false in H1, H2, H3. subst a. split; [notin|]. left. split; [notin|reflexivity]. }
    destruct a as [|c rest]; [destruct before; discriminate|].
    destruct (Z.eq_dec c 91) as [->|Nc].
    + destruct (first_of 93 rest) as [[host tail]|] eqn:F; [|discriminate]. apply first_of_some in F as (-> & Nh).
      destruct (len before =? len host + 2) eqn:Lb; [|discriminate]. cbn [negb]. destruct (has 91 (host ++ 93 :: tail)) eqn:H1; [discriminate|]. destruct (has 93 tail) eqn:H2; [discriminate|]. cbn.
      intros [= <- <-]. apply has_false in H1, H2. apply Z.eqb_eq in Lb. unfold len in Lb.
      assert (B : before = 91 :: host ++ [93] /\ tail = 58 :: port).
      { replace (91 :: host ++ 93 :: tail) with ((91 :: host ++ [93]) ++ tail) in A by (cbn; rewrite <- app_assoc; reflexivity).
        assert (F : forall (x y u v : bytes), x ++ y = u ++ v -> length x = length u -> x = u /\ y = v).
        { clear. induction x as [|k x IHx]; intros y [|k' u] v H Q; cbn in *; try lia; [auto|]. injection H as -> H. destruct (IHx y u v H ltac:(lia)) as (-> & ->). auto. }
        destruct (F _ _ _ _ A) as (B1 & B2); [cbn [length]; rewrite app_length; cbn [length]; lia|]. auto. }
      destruct B as (-> & ->). split; [notin|]. right. split; [notin|reflexivity].
    + assert (R : match c with 91 => match first_of 93 rest with Some (host, tail) => if negb (len before =? len host + 2) then None else if has 91 rest || has 93 tail then None else Some (host, port) | None => None end
        | _ => if has 58 before then None else if has 91 (c :: rest) || has 93 (c :: rest) then None else Some (before, port) end
        = if has 58 before then None else if has 91 (c :: rest) || has 93 (c :: rest) then None else Some (before, port)).
      { destruct c as [|q|q]; try reflexivity. repeat (destruct q as [q|q|]; try reflexivity). contradiction. }
      rewrite R. exact Plain.
  - intros (Np & [(Nh & ->)|(Nh & ->)]).
    + change (h ++ [colon] ++ p) with (h ++ 58 :: p). replace (last_colon (h ++ 58 :: p)) with (Some (h, p)) by (symmetry; apply last_colon_some; tauto).
      assert (H1 : has 58 h = false) by (apply has_false; tauto). assert (H2 : has 91 (h ++ 58 :: p) = false) by (apply has_false; notin). assert (H3 : has 93 (h ++ 58 :: p) = false) by (apply has_false; notin).
      rewrite H1, H2, H3. destruct h as [|c h]; [reflexivity|]. cbn [app]. assert (Nc : c <> 91) by notin.
      destruct c as [|q|q]; try reflexivity. repeat (destruct q as [q|q|]; try reflexivity). contradiction.
    + change ([opening] ++ h ++ [closing; colon] ++ p) with (91 :: h ++ 93 :: 58 :: p).
      replace (last_colon (91 :: h ++ 93 :: 58 :: p)) with (Some (91 :: h ++ [93], p)).
      2:{ symmetry. apply last_colon_some. split; [cbn; rewrite <- app_assoc; reflexivity|tauto]. }
      rewrite first_of_app by tauto. replace (len (91 :: h ++ [93]) =? len h + 2) with true by (unfold len; cbn [length]; rewrite app_length; cbn [length]; lia).
      cbn [negb]. assert (H2 : has 91 (h ++ 93 :: 58 :: p) = false) by (apply has_false; notin). assert (H3 : has 93 (58 :: p) = false) by (apply has_false; notin).
      rewrite H2, H3. reflexivity.
Qed.

Lemma digit_byte_spec l : forallb digit_byte l = true <-> Forall is_digit l.
Proof. rewrite forallb_forall, List.Forall_forall. unfold digit_byte, is_digit. split; intros H x I; specialize (H x I); lia. Qed.
Lemma digits_val_spec l : forall a, digits_val a l = fold_left (fun a c => 10 * a + (c - 48)) l a.
Proof. induction l as [|b l IH]; intros a; cbn; [reflexivity|apply IH]. Qed.
Lemma dec_value_nonneg l : forall a, 0 <= a -> Forall is_digit l -> a <= fold_left (fun a c => 10 * a + (c - 48)) l a.
Proof. induction l as [|b l IH]; intros a A F; cbn; [lia|]. inversion F as [|? ? D F']; subst. unfold is_digit in D. specialize (IH (10 * a + (b - 48)) ltac:(lia) F'). lia. Qed.
Lemma Atoi_port text port : (Atoi text = Some port /\ 1 <= port <= 65535) <-> port_text text port.
Proof.
  unfold port_text. split.
  - intros (H & R). unfold Atoi in H.
    assert (K : forall (neg : bool) (d : bytes), match d with [] => None | _ => if forallb digit_byte d then let v := if neg then - digits_val 0 d else digits_val 0 d in if (- 2 ^ 63 <=? v) && (v <? 2 ^ 63) then Some v else None else None end = Some port ->
       neg = false /\ d <> [] /\ Forall is_digit d /\ dec_value d = port).
    { clear H. intros neg d H. destruct d as [|b d]; [discriminate|]. destruct (forallb digit_byte (b :: d)) eqn:F; [|discriminate]. apply digit_byte_spec in F.
      cbv zeta in H. destruct (_ && _); [|discriminate]. 
      assert (P : 0 <= digits_val 0 (b :: d)) by (rewrite digits_val_spec; apply dec_value_nonneg; [lia|exact F]).
      assert (Q : (if neg then - digits_val 0 (b :: d) else digits_val 0 (b :: d)) = port) by congruence. clear H.
      destruct neg; [exfalso; lia|]. split; [reflexivity|]. split; [discriminate|]. split; [exact F|]. rewrite digits_val_spec in Q. exact Q. }
    destruct text as [|b t]; [discriminate|].
    destruct (Z.eqb_spec b 45) as [->|D1]; [apply (K true t) in H as (Q & _); discriminate|].
    destruct (Z.eqb_spec b 43) as [->|D2].
    + apply (K false t) in H as (_ & H1 & H2 & H3). exists t. split; [right; reflexivity|]. auto.
    + apply (K false (b :: t)) in H as (_ & H1 & H2 & H3). exists (b :: t). split; [left; reflexivity|]. auto.
  - intros (d & T & N & F & V & R). split; [|exact R].
    assert (K : match d with [] => None | _ => if forallb digit_byte d then let v := digits_val 0 d in if (- 2 ^ 63 <=? v) && (v <? 2 ^ 63) then Some v else None else None end = Some port).
    { destruct d as [|b d]; [contradiction|]. rewrite (proj2 (digit_byte_spec _) F). cbv zeta. rewrite digits_val_spec. fold (dec_value (b :: d)). rewrite V.
      replace ((- 2 ^ 63 <=? port) && (port <? 2 ^ 63)) with true by lia. reflexivity. }
    unfold Atoi. destruct T as [->| ->].
    + destruct d as [|b t]; [contradiction|]. inversion F as [|? ? D F']; subst. unfold is_digit in D. replace (b =? 45) with false by lia. replace (b =? 43) with false by lia. exact K.
    + cbn [app]. exact K.
Qed.

Lemma parse_address_spec a h p : parse_address a = Some (h, p) <-> address_of a h p.
Proof.
  unfold parse_address, address_of. split.
  - destruct (SplitHostPort a) as [[host port]|] eqn:S; [|discriminate]. apply SplitHostPort_spec in S.
    destruct (Atoi port) as [n|] eqn:T; [|discriminate]. destruct ((n <? 1) || (65535 <? n)) eqn:R; [discriminate|]. intros [= <- <-].
    exists port. split; [exact S|]. apply Atoi_port. split; [exact T|lia].
  - intros (text & H & T). apply SplitHostPort_spec in H. rewrite H. apply Atoi_port in T as (-> & R). replace ((p <? 1) || (65535 <? p)) with false by lia. reflexivity.
Qed.
Lemma parse_address_none a : parse_address a = None <-> forall h p, ~ address_of a h p.
Proof.
  split.
  - intros H h p Q. apply parse_address_spec in Q. congruence.
  - intros H. destruct (parse_address a) as [[h p]|] eqn:Q; [|reflexivity]. apply parse_address_spec in Q. exfalso. exact (H h p Q).
Qed.

(** Go's FormatInt of a port. *)
Lemma FormatInt_port p : 0 <= p < 2 ^ 63 -> is_decimal_of p (FormatInt p).
Proof.
  intros R. unfold FormatInt. replace (p <? 0) with false by lia. apply FormatUint_decimal. unfold is_u64. lia.
Qed.
(** An address is read in one way. *)
Lemma host_port_unique a h1 p1 h2 p2 : host_port a h1 p1 -> host_port a h2 p2 -> h1 = h2 /\ p1 = p2.
Proof. rewrite <- !SplitHostPort_spec. intros -> [= -> ->]. auto. Qed.
Lemma colon_host_unreachable host port h p : In colon host -> ~ In opening host -> ~ host_port (host ++ [colon] ++ port) h p.
Proof.
  intros C O.
  intros (Np & [(Nh & Q)|(Nh & Q)]).
  - rewrite none3 in Np, Nh. assert (L1 : last_colon (h ++ [colon] ++ p) = Some (h, p)) by (apply last_colon_some; split; [reflexivity|tauto]).
    destruct (in_split _ _ C) as (x & y & ->). 
    assert (I : exists u v, (x ++ colon :: y) ++ [colon] ++ port = u ++ 58 :: v /\ ~ In 58 v /\ In 58 u).
    { clear - port. assert (K : forall z, exists u v, colon :: z = u ++ 58 :: v /\ ~ In 58 v).
      { intros z. destruct (last_colon (colon :: z)) as [[u v]|] eqn:L; [exists u, v; apply last_colon_some; exact L|]. apply last_colon_none in L. exfalso. apply L. left. reflexivity. }
      destruct (K port) as (u & v & E & N). exists ((x ++ colon :: y) ++ u), v. split; [cbn [app]; rewrite E, <- !app_assoc; reflexivity|]. split; [exact N|]. apply in_or_app. left. apply in_or_app. right. left. reflexivity. }
    destruct I as (u & v & E & N & I). assert (L2 : last_colon ((x ++ colon :: y) ++ [colon] ++ port) = Some (u, v)) by (apply last_colon_some; auto).
    rewrite Q, L1 in L2. injection L2 as -> ->. tauto.
  - destruct host as [|c host]; [destruct C|]. cbn in Q. injection Q as -> _. apply O. left. reflexivity.
Qed.
