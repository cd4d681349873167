(** Lemmas about the texts of identifiers. *)
From Coq Require Import Lia.
From Verif Require Import Base GuidModel FormatModel NumModel GoTextModel GoTextSpec.
Open Scope list_scope.
Open Scope Z_scope.

Lemma xvalue_digit c : (exists v, hex_value c v) <-> xvalue c <> 255.
Proof.
  unfold hex_value, xvalue.
  destruct (Z.leb_spec 48 c), (Z.leb_spec c 57), (Z.leb_spec 97 c), (Z.leb_spec c 102), (Z.leb_spec 65 c), (Z.leb_spec c 70); cbn [andb]; split; intros H'; try lia;
    try (destruct H' as (v & H'); lia); try (eexists; lia).
  all: first [exists (c - 48); lia | exists (c - 87); lia | exists (c - 55); lia].
Qed.
Lemma hex_value_xvalue c v : hex_value c v -> xvalue c = v /\ 0 <= v < 16.
Proof.
  unfold hex_value, xvalue. intros H.
  destruct (Z.leb_spec 48 c), (Z.leb_spec c 57), (Z.leb_spec 97 c), (Z.leb_spec c 102), (Z.leb_spec 65 c), (Z.leb_spec c 70); cbn [andb]; lia.
Qed.
Lemma lor_nibbles a b : 0 <= a < 16 -> 0 <= b < 16 -> Z.lor (u8 (a * 16)) b = 16 * a + b.
Proof.
  intros A B.
  assert (E : forallb (fun x => forallb (fun y => Z.lor (u8 (x * 16)) y =? 16 * x + y) (map Z.of_nat (seq 0 16))) (map Z.of_nat (seq 0 16)) = true) by (vm_compute; reflexivity).
  rewrite forallb_forall in E. assert (I : forall n, 0 <= n < 16 -> In n (map Z.of_nat (seq 0 16))).
  { intros n N. apply in_map_iff. exists (Z.to_nat n). split; [lia|]. apply in_seq. lia. }
  specialize (E a (I a A)). rewrite forallb_forall in E. specialize (E b (I b B)). apply Z.eqb_eq in E. exact E.
Qed.
Lemma xtob_true c1 c2 v : xtob c1 c2 = (v, true) <-> exists v1 v2, hex_value c1 v1 /\ hex_value c2 v2 /\ v = 16 * v1 + v2.
Proof.
  unfold xtob. split.
  - intros H. injection H as E K. apply andb_prop in K as [K1 K2]. apply Bool.negb_true_iff, Z.eqb_neq in K1, K2.
    destruct (proj2 (xvalue_digit c1) K1) as (v1 & V1). destruct (proj2 (xvalue_digit c2) K2) as (v2 & V2).
    exists v1, v2. split; [exact V1|]. split; [exact V2|]. destruct (hex_value_xvalue _ _ V1) as [E1 B1]. destruct (hex_value_xvalue _ _ V2) as [E2 B2].
    rewrite E1, E2 in E. rewrite <- E. apply lor_nibbles; assumption.
  - intros (v1 & v2 & V1 & V2 & ->). destruct (hex_value_xvalue _ _ V1) as [E1 B1]. destruct (hex_value_xvalue _ _ V2) as [E2 B2]. rewrite E1, E2.
    f_equal; [apply lor_nibbles; assumption|]. destruct (Z.eqb_spec v1 255); [lia|]. destruct (Z.eqb_spec v2 255); [lia|]. reflexivity.
Qed.
Definition pair_at (s : bytes) (i : nat) (v : Z) : Prop := exists v1 v2, hex_value (nth i s 0) v1 /\ hex_value (nth (S i) s 0) v2 /\ v = 16 * v1 + v2.
Lemma xtob_at_true keep s places : forall g, xtob_at keep s places = (g, true) <-> Forall2 (pair_at s) places g.
Proof.
  induction places as [|i r IH]; intros g.
  - cbn [xtob_at]. split; [intros H; injection H as <-; constructor|]. intros H. inversion H. reflexivity.
  - cbn [xtob_at]. destruct (xtob (nth i s 0) (nth (S i) s 0)) as [v ok] eqn:X. destruct ok.
    + destruct (xtob_at keep s r) as [g' k] eqn:E. split.
      * intros H. injection H as <- ->. constructor; [apply xtob_true in X; exact X|]. apply IH. reflexivity.
      * intros H. inversion H as [|? w ? g2 P F]; subst. apply IH in F. injection F as -> ->. apply xtob_true in P. rewrite X in P. injection P as ->. reflexivity.
    + split; [discriminate|]. intros H. inversion H as [|? w ? g2 P F]; subst. apply xtob_true in P. rewrite X in P. discriminate.
Qed.

Lemma hex_pairs_length s g : hex_pairs s g -> length s = (2 * length g)%nat.
Proof. induction 1; cbn [length]; lia. Qed.
Lemma hex_pairs_cons c1 c2 s v l : hex_pairs (c1 :: c2 :: s) (v :: l) <-> (exists v1 v2, hex_value c1 v1 /\ hex_value c2 v2 /\ v = 16 * v1 + v2) /\ hex_pairs s l.
Proof.
  split.
  - intros H. inversion H; subst. split; [eauto 6|assumption].
  - intros [(v1 & v2 & V1 & V2 & ->) H]. constructor; assumption.
Qed.
Ltac explode l := match type of l with list _ => repeat (destruct l as [|? l]; try discriminate) end.
Lemma dashed_length g s : dashed g s -> length s = 36%nat /\ length g = 16%nat.
Proof.
  intros (g1 & g2 & g3 & g4 & g5 & s1 & s2 & s3 & s4 & s5 & -> & -> & L1 & L2 & L3 & L4 & L5 & H1 & H2 & H3 & H4 & H5).
  apply hex_pairs_length in H1, H2, H3, H4, H5. repeat (rewrite app_length; cbn [length]). lia.
Qed.
Lemma parse_dashed_true s g : length s = 36%nat -> (parse_dashed s = (g, true) <-> dashed g s).
Proof.
  intros L. unfold parse_dashed. split.
  - destruct ((nth 8 s 0 =? 45) && (nth 13 s 0 =? 45) && (nth 18 s 0 =? 45) && (nth 23 s 0 =? 45)) eqn:D; [|discriminate].
    intros H. apply xtob_at_true in H. apply andb_prop in D as [D D4]. apply andb_prop in D as [D D3]. apply andb_prop in D as [D1 D2].
    apply Z.eqb_eq in D1, D2, D3, D4. unfold dashed_places in H.
    do 36 (destruct s as [|? s]; [discriminate|]). destruct s; [|discriminate]. cbn [nth] in D1, D2, D3, D4. subst.
    repeat (match goal with X : Forall2 _ (_ :: _) _ |- _ => inversion X; clear X; subst end).
    match goal with X : Forall2 _ [] _ |- _ => inversion X; clear X; subst end.
    repeat match goal with X : pair_at _ _ _ |- _ => unfold pair_at in X; cbn [nth] in X end.
    match goal with |- dashed [?b0; ?b1; ?b2; ?b3; ?b4; ?b5; ?b6; ?b7; ?b8; ?b9; ?b10; ?b11; ?b12; ?b13; ?b14; ?b15]
        [?c0; ?c1; ?c2; ?c3; ?c4; ?c5; ?c6; ?c7; _; ?d0; ?d1; ?d2; ?d3; _; ?e0; ?e1; ?e2; ?e3; _; ?f0; ?f1; ?f2; ?f3; _; ?h0; ?h1; ?h2; ?h3; ?h4; ?h5; ?h6; ?h7; ?h8; ?h9; ?h10; ?h11] =>
      exists [b0; b1; b2; b3], [b4; b5], [b6; b7], [b8; b9], [b10; b11; b12; b13; b14; b15],
        [c0; c1; c2; c3; c4; c5; c6; c7], [d0; d1; d2; d3], [e0; e1; e2; e3], [f0; f1; f2; f3], [h0; h1; h2; h3; h4; h5; h6; h7; h8; h9; h10; h11] end.
    split; [reflexivity|]. split; [reflexivity|]. do 5 (split; [reflexivity|]).
    repeat split; repeat (apply hex_pairs_cons; split; [assumption|]); constructor.
  - intros (g1 & g2 & g3 & g4 & g5 & s1 & s2 & s3 & s4 & s5 & -> & -> & L1 & L2 & L3 & L4 & L5 & H1 & H2 & H3 & H4 & H5). clear L.
    pose proof (hex_pairs_length _ _ H1) as M1. pose proof (hex_pairs_length _ _ H2) as M2. pose proof (hex_pairs_length _ _ H3) as M3.
    pose proof (hex_pairs_length _ _ H4) as M4. pose proof (hex_pairs_length _ _ H5) as M5. rewrite L1 in M1. rewrite L2 in M2. rewrite L3 in M3. rewrite L4 in M4. rewrite L5 in M5.
    cbn in M1, M2, M3, M4, M5.
    do 4 (destruct g1 as [|? g1]; [discriminate|]). destruct g1; [|discriminate].
    do 2 (destruct g2 as [|? g2]; [discriminate|]). destruct g2; [|discriminate].
    do 2 (destruct g3 as [|? g3]; [discriminate|]). destruct g3; [|discriminate].
    do 2 (destruct g4 as [|? g4]; [discriminate|]). destruct g4; [|discriminate].
    do 6 (destruct g5 as [|? g5]; [discriminate|]). destruct g5; [|discriminate].
    do 8 (destruct s1 as [|? s1]; [discriminate|]). destruct s1; [|discriminate].
    do 4 (destruct s2 as [|? s2]; [discriminate|]). destruct s2; [|discriminate].
    do 4 (destruct s3 as [|? s3]; [discriminate|]). destruct s3; [|discriminate].
    do 4 (destruct s4 as [|? s4]; [discriminate|]). destruct s4; [|discriminate].
    do 12 (destruct s5 as [|? s5]; [discriminate|]). destruct s5; [|discriminate].
    cbn [app nth Z.eqb Pos.eqb andb]. apply xtob_at_true. unfold dashed_places.
    repeat match goal with X : hex_pairs (_ :: _) (_ :: _) |- _ => apply hex_pairs_cons in X as [? X] end.
    repeat (constructor; [unfold pair_at; cbn [nth]; assumption|]). constructor.
Qed.
Lemma xtob_at_digits keep s : length s = 32%nat -> forall g, xtob_at keep s raw_places = (g, true) <-> length g = 16%nat /\ hex_pairs s g.
Proof.
  intros L g. rewrite xtob_at_true. unfold raw_places. do 32 (destruct s as [|? s]; [discriminate|]). destruct s; [|discriminate]. split.
  - intros H. repeat (match goal with X : Forall2 _ (_ :: _) _ |- _ => inversion X; clear X; subst end).
    match goal with X : Forall2 _ [] _ |- _ => inversion X; clear X; subst end.
    repeat match goal with X : pair_at _ _ _ |- _ => unfold pair_at in X; cbn [nth] in X end.
    split; [reflexivity|]. repeat (apply hex_pairs_cons; split; [assumption|]). constructor.
  - intros [G H]. do 16 (destruct g as [|? g]; [discriminate|]). destruct g; [|discriminate].
    repeat match goal with X : hex_pairs (_ :: _) (_ :: _) |- _ => apply hex_pairs_cons in X as [? X] end.
    repeat (constructor; [unfold pair_at; cbn [nth]; assumption|]). constructor.
Qed.

Lemma bytes_eqb_spec a : forall b, bytes_eqb a b = true <-> a = b.
Proof.
  induction a as [|x a IH]; destruct b as [|y b]; cbn [bytes_eqb]; split; intros H; try reflexivity; try discriminate.
  - apply andb_prop in H as [H1 H2]. apply Z.eqb_eq in H1. apply IH in H2. subst. reflexivity.
  - injection H as -> ->. rewrite Z.eqb_refl. apply IH. reflexivity.
Qed.
Lemma urn_lower p : map uuid_lower p = urn_uuid <-> urn_prefix p.
Proof.
  unfold urn_prefix. change urn_uuid with [117; 114; 110; 58; 117; 117; 105; 100; 58].
  assert (G : forall q p, Forall (fun d => 58 <= d /\ (d <= 64 \/ 97 <= d)) q -> (map uuid_lower p = q <-> Forall2 (fun c d => c = d \/ 97 <= d <= 122 /\ c = d - 32) p q)).
  { clear p. induction q as [|d q IH]; intros p F.
    - destruct p; split; intros H; try discriminate; try reflexivity; try constructor. inversion H.
    - apply List.Forall_cons_iff in F as [D F]. destruct p as [|c p]; split; intros H; try discriminate; try (inversion H; fail).
      + injection H as H1 H2. constructor; [|apply IH; assumption]. unfold uuid_lower in H1. destruct (Z.leb_spec 65 c), (Z.leb_spec c 90); cbn [andb] in H1; lia.
      + inversion H as [|? ? ? ? H1 H2]; subst. cbn [map]. f_equal; [|apply IH; assumption]. unfold uuid_lower. destruct (Z.leb_spec 65 c), (Z.leb_spec c 90); cbn [andb]; lia. }
  apply G. repeat constructor; lia.
Qed.
Lemma urn_length p : urn_prefix p -> length p = 9%nat.
Proof. intros H. unfold urn_prefix in H. repeat (match goal with X : Forall2 _ _ (_ :: _) |- _ => inversion X; clear X; subst end). match goal with X : Forall2 _ _ [] |- _ => inversion X; clear X; subst end. reflexivity. Qed.

Lemma Forall2_impl_in {A B} (P Q : A -> B -> Prop) l m : (forall a b, In a l -> P a b -> Q a b) -> Forall2 P l m -> Forall2 Q l m.
Proof. intros H F. induction F as [|a b l m P1 F IH]; constructor; [apply H; [left; reflexivity|exact P1]|]. apply IH. intros x y I. apply H. right. exact I. Qed.
Theorem guid_Parse_true s g : guid_Parse s = (g, true) <-> id_text g s.
Proof.
  unfold guid_Parse, uuid_Parse, len. split.
  - destruct (Z.eqb_spec (Z.of_nat (length s)) 36) as [E|E1]; [|destruct (Z.eqb_spec (Z.of_nat (length s)) 45) as [E|E2];
      [|destruct (Z.eqb_spec (Z.of_nat (length s)) 38) as [E|E3]; [|destruct (Z.eqb_spec (Z.of_nat (length s)) 32) as [E|E4]; [|discriminate]]]].
    + intros H. apply it_dashed. apply parse_dashed_true; [lia|exact H].
    + destruct (bytes_eqb _ _) eqn:U; [|discriminate]. intros H. rewrite <- (firstn_skipn 9 s). apply it_urn.
      * apply urn_lower. apply bytes_eqb_spec. exact U.
      * apply parse_dashed_true; [rewrite skipn_length; lia|exact H].
    + intros H. destruct s as [|a s]; [discriminate|]. cbn [length] in E. assert (N : s <> []) by (intros ->; discriminate).
      destruct (exists_last N) as (m & b & ->). rewrite app_length in E. cbn [length] in E. apply it_enclosed. apply parse_dashed_true; [lia|].
      revert H. cbn [skipn]. unfold parse_dashed.
      assert (NT : forall i, (i < 36)%nat -> nth i (m ++ [b]) 0 = nth i m 0) by (intros i I; apply app_nth1; lia).
      rewrite !NT by lia. destruct (_ && _); [|discriminate]. rewrite !xtob_at_true. intros F. eapply Forall2_impl_in; [|exact F].
      intros i v I P. unfold pair_at in *. rewrite !NT in P; [exact P| |].
      * unfold dashed_places in I. cbn in I. lia.
      * unfold dashed_places in I. cbn in I. lia.
    + intros H. apply xtob_at_digits in H as [G H]; [|lia]. apply it_digits; assumption.
  - intros [t D|a t b D|p t U D|t G H].
    + pose proof (dashed_length _ _ D) as [L _]. rewrite L. cbn [Z.of_nat Z.eqb Pos.of_succ_nat Pos.succ Pos.eqb]. apply parse_dashed_true; assumption.
    + pose proof (dashed_length _ _ D) as [L _]. cbn [length]. rewrite app_length, L. cbn [length Nat.add Z.of_nat Pos.of_succ_nat Pos.succ Z.eqb Pos.eqb skipn].
      assert (NT : forall i, (i < 36)%nat -> nth i (t ++ [b]) 0 = nth i t 0) by (intros i I; apply app_nth1; lia).
      apply parse_dashed_true in D; [|exact L]. revert D. unfold parse_dashed. rewrite !NT by lia. destruct (_ && _); [|discriminate].
      rewrite !xtob_at_true. intros F. eapply Forall2_impl_in; [|exact F].
      intros i v I P. unfold pair_at in *. rewrite !NT; [exact P| |]; unfold dashed_places in I; cbn in I; lia.
    + pose proof (dashed_length _ _ D) as [L _]. pose proof (urn_length _ U) as P. rewrite app_length, L, P. cbn [Nat.add Z.of_nat Pos.of_succ_nat Pos.succ Z.eqb Pos.eqb].
      rewrite firstn_app, P, Nat.sub_diag, firstn_O, app_nil_r, <- P, firstn_all. rewrite skipn_app, skipn_all, Nat.sub_diag. cbn [app skipn].
      rewrite (proj2 (bytes_eqb_spec _ _) (proj2 (urn_lower p) U)). apply parse_dashed_true; assumption.
    + pose proof (hex_pairs_length _ _ H) as L. rewrite G in L. rewrite L. cbn [Nat.mul Nat.add Z.of_nat Pos.of_succ_nat Pos.succ Z.eqb Pos.eqb].
      apply xtob_at_digits; [exact L|]. split; assumption.
Qed.

Lemma hex_digit_value n : 0 <= n < 16 -> hex_value (hex_digit n) n.
Proof. intros B. unfold hex_value, hex_digit. destruct (Z.ltb_spec n 10); lia. Qed.
Lemma hex_text_pairs l : bytes_ok l -> hex_pairs (hex_text l) l.
Proof.
  induction 1 as [|b l B F IH]; [constructor|]. cbn [hex_text flat_map app]. unfold is_u8 in B.
  assert (M : 0 <= b / 16 < 16) by (split; [apply Z.div_pos; lia|apply Z.div_lt_upper_bound; lia]). assert (R : 0 <= b mod 16 < 16) by (apply Z.mod_pos_bound; lia).
  apply hex_pairs_cons. split; [|exact IH]. exists (b / 16), (b mod 16). split; [apply hex_digit_value; exact M|]. split; [apply hex_digit_value; exact R|].
  apply Z.div_mod. lia.
Qed.
Lemma hex_text_lower l : bytes_ok l -> Forall (fun c => 48 <= c <= 57 \/ 97 <= c <= 102) (hex_text l).
Proof.
  induction 1 as [|b l B F IH]; [constructor|]. cbn [hex_text flat_map app]. unfold is_u8 in B.
  assert (M : 0 <= b / 16 < 16) by (split; [apply Z.div_pos; lia|apply Z.div_lt_upper_bound; lia]). assert (R : 0 <= b mod 16 < 16) by (apply Z.mod_pos_bound; lia).
  constructor; [|constructor; [|exact IH]]; unfold hex_digit; [destruct (Z.ltb_spec (b / 16) 10)|destruct (Z.ltb_spec (b mod 16) 10)]; lia.
Qed.
Lemma uuid_String_dashed g : guid_ok g -> dashed g (uuid_String g).
Proof.
  intros [L B]. unfold uuid_String.
  exists (firstn 4 g), (firstn 2 (skipn 4 g)), (firstn 2 (skipn 6 g)), (firstn 2 (skipn 8 g)), (firstn 6 (skipn 10 g)).
  exists (hex_text (firstn 4 g)), (hex_text (firstn 2 (skipn 4 g))), (hex_text (firstn 2 (skipn 6 g))), (hex_text (firstn 2 (skipn 8 g))), (hex_text (firstn 6 (skipn 10 g))).
  assert (P : forall n m, bytes_ok (firstn n (skipn m g))).
  { intros n m. unfold bytes_ok in *. rewrite List.Forall_forall in *. intros x I. apply B. rewrite <- (firstn_skipn m g). apply in_or_app. right.
    rewrite <- (firstn_skipn n (skipn m g)). apply in_or_app. left. exact I. }
  do 16 (destruct g as [|? g]; [discriminate|]). destruct g; [|discriminate].
  split; [reflexivity|]. split; [reflexivity|]. do 5 (split; [reflexivity|]).
  split; [apply hex_text_pairs; exact (P 4%nat 0%nat)|]. repeat split; apply hex_text_pairs; [exact (P 2%nat 4%nat)|exact (P 2%nat 6%nat)|exact (P 2%nat 8%nat)|exact (P 6%nat 10%nat)].
Qed.
Lemma guid_round_trip g : guid_ok g -> guid_Parse (guid_String g) = (g, true).
Proof. intros O. apply guid_Parse_true. unfold guid_String. apply it_enclosed. apply uuid_String_dashed. exact O. Qed.
