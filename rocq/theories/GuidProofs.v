(** Lemmas about the Guid model. *)
From Coq Require Import Lia ZifyBool.
From Verif Require Import Base BaseProofs GuidModel GuidSpec.

Lemma list16 (g : bytes) : length g = 16%nat ->
  exists x0 x1 x2 x3 x4 x5 x6 x7 x8 x9 xa xb xc xd xe xf,
  g = [x0;x1;x2;x3;x4;x5;x6;x7;x8;x9;xa;xb;xc;xd;xe;xf].
Proof.
  intros H.
  do 16 (destruct g as [|? g]; [discriminate H|]; apply eq_add_S in H).
  destruct g; [|discriminate H].
  repeat eexists.
Qed.

Lemma bytes_eqb_spec a b : bytes_eqb a b = true <-> a = b.
Proof.
  revert b. induction a as [|x a IH]; intros [|y b]; cbn; try (split; congruence).
  rewrite andb_true_iff, Z.eqb_eq, IH. split; [intros [-> ->]; reflexivity | intros [= -> ->]; auto].
Qed.

Lemma lex_eq a b : lex a b = Eq <-> a = b.
Proof.
  revert b. induction a as [|x a IH]; intros [|y b]; cbn; try (split; congruence).
  destruct (Z.compare_spec x y); try (split; [discriminate|intros [= ? ?]; lia]).
  subst. rewrite IH. split; [intros ->; reflexivity | intros [= ->]; reflexivity].
Qed.

Lemma lex_antisym a b : lex b a = CompOpp (lex a b).
Proof.
  revert b. induction a as [|x a IH]; intros [|y b]; cbn; try reflexivity.
  rewrite (Z.compare_antisym x y). destruct (x ?= y); cbn; auto.
Qed.

Lemma lex_trans a b c : lex a b = Lt -> lex b c = Lt -> lex a c = Lt.
Proof.
  revert b c. induction a as [|x a IH]; intros [|y b] [|z c]; cbn; try congruence.
  intros H1 H2.
  destruct (Z.compare_spec x y) as [->|Hxy|Hxy]; try discriminate;
  destruct (Z.compare_spec y z) as [->|Hyz|Hyz]; try discriminate.
  - eauto.
  - reflexivity.
  - destruct (Z.compare_spec x z); try lia; reflexivity.
  - destruct (Z.compare_spec x z); try lia; reflexivity.
Qed.

(** Comparing a prefix as a big-endian number agrees with lexicographic order. *)
Lemma lex_app a1 a2 b1 b2 : length a1 = length b1 ->
  lex (a1 ++ a2) (b1 ++ b2) = match lex a1 b1 with Eq => lex a2 b2 | c => c end.
Proof.
  revert b1. induction a1 as [|x a IH]; intros [|y b] H; try discriminate H; cbn; [reflexivity|].
  destruct (x ?= y); auto.
Qed.

Lemma be_val_lex a b : bytes_ok a -> bytes_ok b -> length a = length b ->
  (be_val a ?= be_val b) = lex a b.
Proof.
  intros Ha. revert b. induction Ha as [|x a Hx Ha IH]; intros [|y b] Hb Hl; try discriminate Hl; [reflexivity|].
  inversion Hb as [|? ? Hy Hb']; subst. cbn [be_val lex]. cbn [length] in Hl.
  assert (Hl' : length a = length b) by lia.
  pose proof (be_val_bound a Ha) as B1. pose proof (be_val_bound b Hb') as B2.
  unfold len in *. rewrite <- Hl' in *.
  set (p := 2 ^ (8 * Z.of_nat (length a))) in *.
  destruct (Z.compare_spec x y) as [->|Hlt|Hgt].
  - rewrite Z.add_compare_mono_l. apply IH; assumption.
  - apply Z.compare_lt_iff. nia.
  - apply Z.compare_gt_iff. nia.
Qed.

Lemma cmp_bytes_lex a b : length a = length b -> cmp_bytes a b = sign_of (lex a b).
Proof.
  revert b. induction a as [|x a IH]; intros [|y b] H; try discriminate H; cbn; [reflexivity|].
  cbn [length] in H. destruct (Z.compare_spec x y) as [->|Hlt|Hgt].
  - rewrite Z.eqb_refl. apply IH. lia.
  - destruct (Z.eqb_spec x y); [lia|]. unfold cmp_result.
    destruct (Z.ltb_spec x y); [reflexivity|lia].
  - destruct (Z.eqb_spec x y); [lia|]. unfold cmp_result.
    destruct (Z.ltb_spec x y); [lia|reflexivity].
Qed.

Lemma cmp_result_compare x y : x <> y -> cmp_result x y = sign_of (x ?= y).
Proof.
  intros H. unfold cmp_result. destruct (Z.compare_spec x y), (Z.ltb_spec x y); try lia; reflexivity.
Qed.

Lemma firstn_skipn_len {A} n m (l : list A) : (m + n <= length l)%nat ->
  length (firstn n (skipn m l)) = n.
Proof. intros. rewrite firstn_length, skipn_length. lia. Qed.

Lemma guid_split (g : bytes) : length g = 16%nat ->
  g = firstn 4 g ++ firstn 2 (skipn 4 g) ++ firstn 2 (skipn 6 g) ++ firstn 8 (skipn 8 g).
Proof.
  intros H. destruct (list16 g H) as (?&?&?&?&?&?&?&?&?&?&?&?&?&?&?&?&->). reflexivity.
Qed.

Lemma bytes_ok_firstn n l : bytes_ok l -> bytes_ok (firstn n l).
Proof.
  intros H. rewrite <- (firstn_skipn n l) in H. apply bytes_ok_app in H. tauto.
Qed.
Lemma bytes_ok_skipn n l : bytes_ok l -> bytes_ok (skipn n l).
Proof.
  intros H. rewrite <- (firstn_skipn n l) in H. apply bytes_ok_app in H. tauto.
Qed.

Lemma Compare_lex a b : guid_ok a -> guid_ok b -> Compare a b = sign_of (lex a b).
Proof.
  intros [La Oa] [Lb Ob].
  rewrite (guid_split a La) at 2. rewrite (guid_split b Lb) at 2.
  rewrite !lex_app by (rewrite ?firstn_length, ?skipn_length; lia).
  unfold Compare, Components.
  rewrite <- !be_val_lex by
    (try (rewrite ?firstn_length, ?skipn_length; lia);
     auto using bytes_ok_firstn, bytes_ok_skipn).
  rewrite be_val_lex with (a := firstn 8 _) by
    (try (rewrite ?firstn_length, ?skipn_length; lia);
     auto using bytes_ok_firstn, bytes_ok_skipn).
  rewrite cmp_bytes_lex by (rewrite ?firstn_length, ?skipn_length; lia).
  repeat match goal with
  | |- context [negb (?x =? ?y)] =>
      let E := fresh in destruct (Z.eqb_spec x y) as [E|E]; cbn [negb];
      [rewrite E, Z.compare_refl |
       rewrite cmp_result_compare by exact E;
       destruct (Z.compare_spec x y); [contradiction|reflexivity|reflexivity]]
  end.
  reflexivity.
Qed.

Lemma swap_model_spec g : length g = 16%nat -> swapGuidEndianness g = swap_fields g.
Proof.
  intros H. destruct (list16 g H) as (?&?&?&?&?&?&?&?&?&?&?&?&?&?&?&?&->). reflexivity.
Qed.

Lemma swap_first16 g : (16 <= length g)%nat -> swapGuidEndianness g = swap_fields (firstn 16 g).
Proof.
  intros H. rewrite <- swap_model_spec by (rewrite firstn_length; lia).
  unfold swapGuidEndianness.
  assert (E : forall i, (i < 16)%nat -> nth i (firstn 16 g) 0 = nth i g 0).
  { intros i Hi. rewrite <- (firstn_skipn 16 g) at 2. rewrite app_nth1; [reflexivity|].
    rewrite firstn_length. lia. }
  rewrite !E by lia. reflexivity.
Qed.

Lemma swap_fields_invol g : length g = 16%nat -> swap_fields (swap_fields g) = g.
Proof.
  intros H. destruct (list16 g H) as (?&?&?&?&?&?&?&?&?&?&?&?&?&?&?&?&->). reflexivity.
Qed.

Lemma swap_fields_length g : length g = 16%nat -> length (swap_fields g) = 16%nat.
Proof.
  intros H. destruct (list16 g H) as (?&?&?&?&?&?&?&?&?&?&?&?&?&?&?&?&->). reflexivity.
Qed.

Lemma swap_fields_ok g : guid_ok g -> guid_ok (swap_fields g).
Proof.
  intros [H O]. split; [apply swap_fields_length; exact H|].
  unfold swap_fields. rewrite !bytes_ok_app. unfold bytes_ok in *.
  repeat split; try apply Forall_rev; auto using bytes_ok_firstn, bytes_ok_skipn.
  all: try (apply bytes_ok_firstn; auto using bytes_ok_skipn).
  all: apply bytes_ok_skipn; exact O.
Qed.

Lemma FromBytes_cases data sw :
  (16 <= len data -> FromBytes data sw =
     Ok (if sw then swap_fields (firstn 16 data) else firstn 16 data)) /\
  (len data < 16 -> FromBytes data sw = Err).
Proof.
  unfold FromBytes. split; intros H; destruct (Z.ltb_spec (len data) 16); try lia; try reflexivity.
  unfold len in *. destruct sw; [|reflexivity].
  rewrite swap_first16 by lia.
  rewrite firstn_all2; [reflexivity|].
  rewrite swap_fields_length; [lia|]. rewrite firstn_length. lia.
Qed.

Lemma FromBytes_ToBytes g sw rest : length g = 16%nat ->
  FromBytes (ToBytes g sw ++ rest) sw = Ok g.
Proof.
  intros H.
  assert (L : length (ToBytes g sw) = 16%nat) by
    (unfold ToBytes; destruct sw; [rewrite swap_model_spec by exact H; apply swap_fields_length; exact H | exact H]).
  rewrite (proj1 (FromBytes_cases _ _)) by (unfold len; rewrite app_length; lia).
  rewrite firstn_app, L, Nat.sub_diag, firstn_O, app_nil_r, firstn_all2 by lia.
  unfold ToBytes. destruct sw; [|reflexivity].
  rewrite swap_model_spec by exact H. rewrite swap_fields_invol by exact H. reflexivity.
Qed.

Lemma FromBytes_ToBytes_other g sw rest : length g = 16%nat ->
  FromBytes (ToBytes g sw ++ rest) (negb sw) = Ok (swap_fields g).
Proof.
  intros H.
  assert (L : length (ToBytes g sw) = 16%nat) by
    (unfold ToBytes; destruct sw; [rewrite swap_model_spec by exact H; apply swap_fields_length; exact H | exact H]).
  rewrite (proj1 (FromBytes_cases _ _)) by (unfold len; rewrite app_length; lia).
  rewrite firstn_app, L, Nat.sub_diag, firstn_O, app_nil_r, firstn_all2 by lia.
  unfold ToBytes. destruct sw; cbn [negb]; [|reflexivity].
  rewrite swap_model_spec by exact H. reflexivity.
Qed.

Lemma Compare_total_order a b c : guid_ok a -> guid_ok b -> guid_ok c ->
  (Compare a b = 0 <-> a = b) /\
  Compare b a = - Compare a b /\
  (Compare a b = -1 \/ Compare a b = 0 \/ Compare a b = 1) /\
  (Compare a b <= 0 -> Compare b c <= 0 -> Compare a c <= 0).
Proof.
  intros Ha Hb Hc. rewrite !Compare_lex by assumption.
  split; [|split; [|split]].
  - rewrite <- lex_eq. destruct (lex a b); cbn; split; congruence.
  - rewrite (lex_antisym a b). destruct (lex a b); reflexivity.
  - destruct (lex a b); cbn; auto.
  - destruct (lex a b) eqn:E1, (lex b c) eqn:E2; cbn; try lia; intros _ _.
    + apply lex_eq in E1; subst. rewrite E2. cbn; lia.
    + apply lex_eq in E1; subst. rewrite E2. cbn; lia.
    + apply lex_eq in E2; subst. rewrite E1. cbn; lia.
    + rewrite (lex_trans a b c E1 E2). cbn; lia.
Qed.

Lemma Empty_ok : guid_ok Empty.
Proof. split; [reflexivity|]. repeat constructor; unfold is_u8; lia. Qed.
Lemma zeros_iff (g : bytes) : Forall (eq 0) g <-> g = repeat 0 (length g).
Proof.
  induction g as [|b g IH]; cbn [length repeat]; [split; [reflexivity|constructor]|]. split.
  - intros H. inversion H as [|? ? H1 H2]; subst. f_equal. apply IH, H2.
  - intros H. injection H as H1 H2. subst b. constructor; [reflexivity|]. apply IH. exact H2.
Qed.
Lemma IsZero_iff g : guid_ok g -> (IsZero g = true <-> Forall (eq 0) g).
Proof.
  intros (L & _). unfold IsZero. rewrite bytes_eqb_spec, zeros_iff, L. reflexivity.
Qed.
Lemma be_val_nonneg (g : bytes) : bytes_ok g -> 0 <= be_val g.
Proof.
  induction 1 as [|b g H F IH]; cbn [be_val]; [lia|]. unfold is_u8 in H.
  pose proof (Z.pow_nonneg 2 (8 * len g)). unfold len in *. nia.
Qed.
Lemma Empty_least g : guid_ok g -> Compare Empty g <= 0.
Proof.
  intros H. pose proof (Compare_lex Empty g Empty_ok H) as E.
  rewrite (eq_trans E (f_equal sign_of (eq_sym (be_val_lex _ _ (proj2 Empty_ok) (proj2 H) (eq_trans (proj1 Empty_ok) (eq_sym (proj1 H))))))).
  change (be_val Empty) with 0. pose proof (be_val_nonneg g (proj2 H)). destruct (Z.compare_spec 0 (be_val g)); cbn; lia.
Qed.
