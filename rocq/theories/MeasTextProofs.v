(** Lemmas about the texts of measurements. *)
From Coq Require Import Lia String Ascii QArith.
From Verif Require Import Base GuidModel FormatModel FormatSpec FormatProofs NumModel CompactModel StampModel StampSpec StampProofs GoTextModel GoTextSpec GoTextProofs GoTextProofs2 MeasTextModel MeasTextSpec.
Open Scope list_scope.
Open Scope Z_scope.

Definition tail (l : list bytes) : bytes := flat_map (fun n => 44 :: n) l.
Lemma comma_separated_tail a l : comma_separated (a :: l) = a ++ tail l.
Proof.
  revert a. induction l as [|b l IH]; intros a; [cbn; rewrite app_nil_r; reflexivity|].
  cbn [comma_separated tail flat_map]. change (match l with [] => b | _ :: _ => b ++ 44 :: comma_separated l end) with (comma_separated (b :: l)).
  rewrite IH. reflexivity.
Qed.
Lemma fold_flags w l : Forall (fun f => snd f <> []) l -> forall image, image <> [] ->
  fold_left (addFlag w) l image = image ++ tail (map snd (filter (fun f => 0 <? Z.land (fst f) w) l)).
Proof.
  induction 1 as [|f l N F IH]; intros image I; [cbn; rewrite app_nil_r; reflexivity|].
  cbn [fold_left filter].
  replace (addFlag w image f) with (if 0 <? Z.land (fst f) w then (if 0 <? len image then image ++ [44] else image) ++ snd f else image) by reflexivity.
  destruct (0 <? Z.land (fst f) w).
  - replace (0 <? len image) with true by (symmetry; apply Z.ltb_lt; unfold len; destruct image; [contradiction|cbn [List.length]; lia]).
    rewrite IH by (intros E; apply app_eq_nil in E as [E _]; apply app_eq_nil in E as [_ E]; discriminate). cbn [map tail flat_map]. rewrite <- !app_assoc. reflexivity.
  - apply IH. exact I.
Qed.
Lemma fold_flags_start w l : Forall (fun f => snd f <> []) l ->
  fold_left (addFlag w) l [] = comma_separated (map snd (filter (fun f => 0 <? Z.land (fst f) w) l)).
Proof.
  induction 1 as [|f l N F IH]; [reflexivity|]. cbn [fold_left filter].
  replace (addFlag w [] f) with (if 0 <? Z.land (fst f) w then (if 0 <? len ([] : bytes) then [] ++ [44] else []) ++ snd f else []) by reflexivity. destruct (0 <? Z.land (fst f) w).
  - cbn [len List.length Z.of_nat Z.ltb Z.compare app]. cbn [map]. rewrite comma_separated_tail. apply fold_flags; assumption.
  - exact IH.
Qed.
Definition flag_name (i : nat) : bytes := ascii_bytes (nth i flag_names EmptyString).
Lemma flag_table_names : flag_table = map (fun i => (2 ^ Z.of_nat i, flag_name i)) (seq 0 32).
Proof. vm_compute. reflexivity. Qed.
Lemma land_bit w i : 0 <= w -> (0 <? Z.land (2 ^ Z.of_nat i) w) = Z.testbit w (Z.of_nat i).
Proof.
  intros W. destruct (Z.testbit w (Z.of_nat i)) eqn:T.
  - apply Z.ltb_lt. assert (N : 0 <= Z.land (2 ^ Z.of_nat i) w) by (apply Z.land_nonneg; right; exact W).
    assert (Z.land (2 ^ Z.of_nat i) w <> 0); [|lia]. intros E. assert (B : Z.testbit (Z.land (2 ^ Z.of_nat i) w) (Z.of_nat i) = true).
    { rewrite Z.land_spec, T, Z.pow2_bits_true by lia. reflexivity. } rewrite E, Z.bits_0 in B. discriminate.
  - apply Z.ltb_ge. replace (Z.land (2 ^ Z.of_nat i) w) with 0; [lia|]. symmetry. apply Z.bits_inj'. intros n N. rewrite Z.land_spec, Z.bits_0, Z.pow2_bits_eqb by lia.
    destruct (Z.eqb_spec (Z.of_nat i) n) as [<-|]; [rewrite T|]; reflexivity.
Qed.
Lemma filter_map_commute {A B} (f : A -> B) (p : B -> bool) (q : A -> bool) l : (forall a, p (f a) = q a) -> filter p (map f l) = map f (filter q l).
Proof. intros H. induction l as [|a l IH]; [reflexivity|]. cbn [map filter]. rewrite H, IH. destruct (q a); reflexivity. Qed.
Lemma StateFlags_text w : 0 <= w -> StateFlags_String w = flags_text w.
Proof.
  intros W. unfold StateFlags_String, flags_text. destruct (w =? 0); [reflexivity|].
  rewrite fold_flags_start.
  - rewrite flag_table_names. rewrite (filter_map_commute _ _ (fun i => Z.testbit w (Z.of_nat i))) by (intros i; apply land_bit; exact W).
    rewrite map_map. unfold names_of. apply f_equal. apply map_ext. intros i. unfold flag_name. cbn [snd]. apply eq_refl.
  - rewrite flag_table_names. apply List.Forall_forall. intros x I. apply in_map_iff in I as (i & <- & I). cbn [snd].
    assert (A : forallb (fun i => negb (len (flag_name i) =? 0)) (seq 0 32) = true) by (vm_compute; reflexivity).
    rewrite forallb_forall in A. specialize (A i I). intros E. rewrite E in A. discriminate.
Qed.

(** Texts without a byte, ended by it *)
Lemma cut (c : Z) (a : bytes) : forall b r s, ~ In c a -> ~ In c b -> a ++ c :: r = b ++ c :: s -> a = b /\ r = s.
Proof.
  induction a as [|x a IH]; intros b r s A B E.
  - destruct b as [|y b]; [injection E as ->; auto|]. injection E as -> _. exfalso. apply B. left. reflexivity.
  - destruct b as [|y b]; [injection E as -> _; exfalso; apply A; left; reflexivity|]. injection E as -> E.
    destruct (IH b r s) as [-> ->]; [intros I; apply A; right; exact I|intros I; apply B; right; exact I|exact E|]. auto.
Qed.
Lemma tail_head a b l m : ~ In 44 a -> ~ In 44 b -> a ++ tail l = b ++ tail m -> a = b /\ tail l = tail m.
Proof.
  intros A B E. destruct l as [|x l], m as [|y m]; cbn [tail flat_map] in *.
  - rewrite !app_nil_r in E. auto.
  - rewrite app_nil_r in E. exfalso. apply A. rewrite E. apply in_or_app. right. left. reflexivity.
  - rewrite app_nil_r in E. exfalso. apply B. rewrite <- E. apply in_or_app. right. left. reflexivity.
  - apply cut in E as [-> E]; auto. split; [reflexivity|]. cbn [app]. f_equal. exact E.
Qed.
Lemma tail_injective l : forall m, Forall (fun n => ~ In 44 n) l -> Forall (fun n => ~ In 44 n) m -> tail l = tail m -> l = m.
Proof.
  induction l as [|a l IH]; intros m L M E; destruct m as [|b m]; try discriminate; [reflexivity|].
  apply List.Forall_cons_iff in L as [A L]. apply List.Forall_cons_iff in M as [B M].
  change (44 :: a ++ tail l = 44 :: b ++ tail m) in E. injection E as E. apply tail_head in E as [-> E]; [|assumption..]. f_equal. apply IH; assumption.
Qed.
Lemma separated_injective l m : Forall (fun n => ~ In 44 n /\ n <> []) l -> Forall (fun n => ~ In 44 n /\ n <> []) m -> comma_separated l = comma_separated m -> l = m.
Proof.
  intros L M E.
  assert (W : forall k, Forall (fun n => ~ In 44 n /\ n <> []) k -> Forall (fun n : bytes => ~ In 44 n) k) by (intros k K; eapply Forall_impl; [|exact K]; intros x [X _]; exact X).
  destruct l as [|a l], m as [|b m]; [reflexivity|..].
  - rewrite comma_separated_tail in E. apply List.Forall_cons_iff in M as [[_ N] _]. destruct b; [contradiction|discriminate].
  - rewrite comma_separated_tail in E. apply List.Forall_cons_iff in L as [[_ N] _]. destruct a; [contradiction|discriminate].
  - rewrite !comma_separated_tail in E. pose proof (W _ L) as WL. pose proof (W _ M) as WM. apply List.Forall_cons_iff in WL as [A WL]. apply List.Forall_cons_iff in WM as [B WM].
    apply tail_head in E as [-> E]; [|assumption..]. f_equal. apply tail_injective; assumption.
Qed.
Lemma flag_name_ok i : (i < 32)%nat -> ~ In 44 (flag_name i) /\ flag_name i <> [] /\ flag_name i <> ascii_bytes "Normal" /\ ~ In 41 (flag_name i).
Proof.
  intros L. assert (A : forallb (fun i => negb (existsb (Z.eqb 44) (flag_name i)) && negb (len (flag_name i) =? 0) && negb (bytes_eqb (flag_name i) (ascii_bytes "Normal")) && negb (existsb (Z.eqb 41) (flag_name i))) (seq 0 32) = true) by (vm_compute; reflexivity).
  rewrite forallb_forall in A. specialize (A i ltac:(apply in_seq; lia)). apply andb_prop in A as [A A4]. apply andb_prop in A as [A A3]. apply andb_prop in A as [A1 A2].
  apply Bool.negb_true_iff in A1, A2, A3, A4. split; [|split; [|split]].
  - intros I. assert (existsb (Z.eqb 44) (flag_name i) = true) by (apply existsb_exists; exists 44; split; [exact I|reflexivity]). congruence.
  - intros E. rewrite E in A2. discriminate.
  - intros E. assert (bytes_eqb (flag_name i) (ascii_bytes "Normal") = true) by (apply bytes_eqb_spec; exact E). congruence.
  - intros I. assert (existsb (Z.eqb 41) (flag_name i) = true) by (apply existsb_exists; exists 41; split; [exact I|reflexivity]). congruence.
Qed.
Lemma flag_name_injective i j : (i < 32)%nat -> (j < 32)%nat -> flag_name i = flag_name j -> i = j.
Proof.
  intros I J E. assert (A : forallb (fun i => forallb (fun j => (i =? j)%nat || negb (bytes_eqb (flag_name i) (flag_name j))) (seq 0 32)) (seq 0 32) = true) by (vm_compute; reflexivity).
  rewrite forallb_forall in A. specialize (A i ltac:(apply in_seq; lia)). rewrite forallb_forall in A. specialize (A j ltac:(apply in_seq; lia)).
  rewrite (proj2 (bytes_eqb_spec _ _) E) in A. rewrite Bool.orb_false_r in A. apply Nat.eqb_eq in A. exact A.
Qed.
Definition set_bits (w : Z) : list nat := filter (fun i => Z.testbit w (Z.of_nat i)) (seq 0 32).
Lemma set_bits_in w i : In i (set_bits w) <-> (i < 32)%nat /\ Z.testbit w (Z.of_nat i) = true.
Proof. unfold set_bits. rewrite filter_In, in_seq. split; intros [A B]; (split; [lia|exact B]). Qed.
Lemma names_ok w : Forall (fun n => ~ In 44 n /\ n <> []) (map flag_name (set_bits w)).
Proof. apply List.Forall_forall. intros x I. apply in_map_iff in I as (i & <- & I). apply set_bits_in in I as [L _]. destruct (flag_name_ok i L) as (A & B & _). auto. Qed.
Lemma map_injective_in {A B} (f : A -> B) l : forall m, (forall x y, In x l -> In y m -> f x = f y -> x = y) -> map f l = map f m -> l = m.
Proof.
  induction l as [|a l IH]; intros m H E; destruct m as [|b m]; try discriminate; [reflexivity|]. injection E as E1 E2.
  f_equal; [apply H; [left; reflexivity|left; reflexivity|exact E1]|]. apply IH; [|exact E2]. intros x y X Y. apply H; right; assumption.
Qed.
Lemma u32_bits v w : is_u32 v -> is_u32 w -> set_bits v = set_bits w -> v = w.
Proof.
  intros V W E. apply Z.bits_inj'. intros n N. destruct (Z_lt_ge_dec n 32) as [L|G].
  - rewrite <- (Z2Nat.id n N). destruct (Z.testbit v (Z.of_nat (Z.to_nat n))) eqn:A, (Z.testbit w (Z.of_nat (Z.to_nat n))) eqn:B; try reflexivity; exfalso.
    + assert (I : In (Z.to_nat n) (set_bits v)) by (apply set_bits_in; split; [lia|exact A]). rewrite E in I. apply set_bits_in in I as [_ I]. congruence.
    + assert (I : In (Z.to_nat n) (set_bits w)) by (apply set_bits_in; split; [lia|exact B]). rewrite <- E in I. apply set_bits_in in I as [_ I]. congruence.
  - assert (H : forall x, is_u32 x -> Z.testbit x n = false).
    { intros x X. unfold is_u32 in X. destruct (Z.eq_dec x 0) as [->|P]; [apply Z.bits_0|]. apply Z.bits_above_log2; [lia|]. apply Z.log2_lt_pow2; [lia|]. eapply Z.lt_le_trans; [apply X|]. apply Z.pow_le_mono_r; lia. }
    rewrite !H by assumption. reflexivity.
Qed.
Lemma flags_text_injective v w : is_u32 v -> is_u32 w -> flags_text v = flags_text w -> v = w.
Proof.
  intros V W. unfold flags_text, names_of.
  assert (N : forall x, is_u32 x -> x <> 0 -> comma_separated (map flag_name (set_bits x)) <> ascii_bytes "Normal").
  { intros x X Z E. destruct (set_bits x) as [|i l] eqn:SB.
    - apply Z. apply (u32_bits x 0 X); [unfold is_u32; lia|]. rewrite SB. reflexivity.
    - assert (I : In i (set_bits x)) by (rewrite SB; left; reflexivity). apply set_bits_in in I as [I _]. destruct (flag_name_ok i I) as (_ & _ & NN & _).
      cbn [map] in E. rewrite comma_separated_tail in E. destruct l as [|j l]; cbn [map tail flat_map] in E; [rewrite app_nil_r in E; contradiction|].
      assert (C : In 44 (ascii_bytes "Normal")) by (rewrite <- E; apply in_or_app; right; left; reflexivity). vm_compute in C. intuition discriminate. }
  destruct (Z.eqb_spec v 0) as [->|A], (Z.eqb_spec w 0) as [->|B]; intros E; try reflexivity.
  - exfalso. apply (N w W B). symmetry. exact E.
  - exfalso. apply (N v V A). exact E.
  - apply (u32_bits v w V W). apply (map_injective_in flag_name).
    + intros x y X Y. apply set_bits_in in X as [X _]. apply set_bits_in in Y as [Y _]. apply flag_name_injective; assumption.
    + apply separated_injective; [apply names_ok|apply names_ok|exact E].
Qed.

(** ** No blank in the parts *)
Definition dense (l : bytes) : Prop := ~ In 32 l.
Lemma dense_app a b : dense a -> dense b -> dense (a ++ b).
Proof. intros A B I. apply in_app_or in I as [I|I]; [exact (A I)|exact (B I)]. Qed.
Lemma dense_cons c b : c <> 32 -> dense b -> dense (c :: b).
Proof. intros A B [I|I]; [exact (A I)|exact (B I)]. Qed.
Lemma dense_nil : dense []. Proof. intros []. Qed.
Lemma digits_dense l : Forall is_digit l -> dense l.
Proof. intros F I. rewrite List.Forall_forall in F. specialize (F 32 I). unfold is_digit in F. lia. Qed.
Lemma short_time_dense t : dense (Ticks_ShortTime t).
Proof.
  destruct (Format_shows_tod (TicksModel.ToTime t)) as (x & ct & ft & _ & _ & (a & b & c & (_ & A & _) & (_ & B & _) & (_ & C & _) & ->) & F & E).
  unfold Ticks_ShortTime. rewrite E. apply dense_app.
  - repeat apply dense_app; try (apply digits_dense; assumption); apply dense_cons; try apply dense_nil; discriminate.
  - destruct F as [[-> _]|(ds & -> & _ & _ & D & _)]; [apply dense_nil|]. apply dense_cons; [discriminate|]. apply digits_dense. exact D.
Qed.
Lemma fixed_text_dense n prec t : fixed_text n prec t -> dense t.
Proof.
  intros (w & f & (W & _) & _ & F & _ & ->). apply dense_app; [apply digits_dense; exact W|]. destruct (prec =? 0)%nat; [apply dense_nil|]. apply dense_cons; [discriminate|]. apply digits_dense. exact F.
Qed.
Lemma float_dense f prec : dense (FormatFloat f prec).
Proof.
  destruct f as [s|s| |s m e].
  - destruct (FormatFloat_ok (S754_zero s) prec Logic.I) as (n & t & _ & T & _ & ->). apply dense_app; [destruct s; [apply dense_cons; [discriminate|]|]; apply dense_nil|exact (fixed_text_dense _ _ _ T)].
  - destruct s; intros I; vm_compute in I; intuition discriminate.
  - intros I; vm_compute in I; intuition discriminate.
  - destruct (FormatFloat_ok (S754_finite s m e) prec Logic.I) as (n & t & _ & T & _ & ->). apply dense_app; [destruct s; [apply dense_cons; [discriminate|]|]; apply dense_nil|exact (fixed_text_dense _ _ _ T)].
Qed.
Lemma guid_String_length g : guid_ok g -> List.length (guid_String g) = 38%nat.
Proof. intros O. pose proof (uuid_String_dashed g O) as D. apply dashed_length in D as [L _]. unfold guid_String. cbn [List.length]. rewrite app_length, L. reflexivity. Qed.
Lemma guid_String_injective g h : guid_ok g -> guid_ok h -> guid_String g = guid_String h -> g = h.
Proof. intros G H E. pose proof (guid_round_trip g G) as A. rewrite E, (guid_round_trip h H) in A. injection A as ->. reflexivity. Qed.
Lemma app_inv_length {A} (a : list A) : forall b r s, List.length a = List.length b -> a ++ r = b ++ s -> a = b /\ r = s.
Proof.
  induction a as [|x a IH]; intros b r s L E; destruct b as [|y b]; try discriminate; [auto|]. injection E as -> E. injection L as L.
  destruct (IH b r s L E) as [-> ->]. auto.
Qed.
Lemma measurement_text_injective id1 id2 v1 v2 t1 t2 f1 f2 : guid_ok id1 -> guid_ok id2 -> is_u32 f1 -> is_u32 f2 ->
  measurement_text id1 v1 t1 f1 = measurement_text id2 v2 t2 f2 ->
  id1 = id2 /\ Ticks_ShortTime t1 = Ticks_ShortTime t2 /\ FormatFloat v1 3 = FormatFloat v2 3 /\ f1 = f2.
Proof.
  intros G1 G2 F1 F2. unfold measurement_text.
  change (byte_text " @ ") with [32; 64; 32]. change (byte_text " = ") with [32; 61; 32]. change (byte_text " (") with [32; 40]. change (byte_text ")") with [41].
  intros E. apply app_inv_length in E as [E1 E]; [|rewrite !guid_String_length by assumption; reflexivity].
  cbn [app] in E. injection E as E. apply cut in E as [E2 E]; [|apply short_time_dense..]. injection E as E. apply cut in E as [E3 E]; [|apply float_dense..]. injection E as E.
  apply app_inv_tail in E. split; [apply guid_String_injective; assumption|]. split; [exact E2|]. split; [exact E3|].
  unfold is_u32 in *. rewrite !StateFlags_text in E by lia. apply flags_text_injective; assumption.
Qed.

(** ** What the parts determine *)
Lemma fixed_text_injective n m prec t : fixed_text n prec t -> fixed_text m prec t -> n = m.
Proof.
  intros (w & f & (W & _) & L & F & V & ->) (w' & f' & (W' & _) & L' & F' & V' & E). subst n m. destruct prec as [|k].
  - cbn [Nat.eqb] in E. rewrite !app_nil_r in E. subst. destruct f; [|discriminate]. destruct f'; [|discriminate]. reflexivity.
  - cbn [Nat.eqb] in E.
    assert (N : forall l, Forall is_digit l -> ~ In 46 l) by (intros l D I; rewrite List.Forall_forall in D; specialize (D 46 I); unfold is_digit in D; lia).
    apply cut in E as [-> ->]; [reflexivity|apply N; assumption..].
Qed.
Lemma minus_digit s s' t t' : (exists c r, t = c :: r /\ is_digit c) -> (exists c r, t' = c :: r /\ is_digit c) -> minus s ++ t = minus s' ++ t' -> s = s' /\ t = t'.
Proof.
  intros (c & r & -> & D) (c' & r' & -> & D'). unfold is_digit in *. destruct s, s'; cbn [minus app]; intros E; try (injection E as E1 E2); subst; auto; exfalso; lia.
Qed.
Lemma fixed_text_digit n prec t : fixed_text n prec t -> exists c r, t = c :: r /\ is_digit c.
Proof.
  intros (w & f & (W & _ & NE & _) & _ & _ & _ & ->). destruct w as [|c w]; [contradiction|]. exists c, (w ++ (if (prec =? 0)%nat then [] else 46 :: f)). split; [reflexivity|].
  apply List.Forall_cons_iff in W as [W _]. exact W.
Qed.
Lemma FormatFloat_determines f g prec : finite f -> FormatFloat f prec = FormatFloat g prec ->
  finite g /\ negative f = negative g /\ exists n, nearest_even (magnitude f * inject_Z (10 ^ Z.of_nat prec)) n /\ nearest_even (magnitude g * inject_Z (10 ^ Z.of_nat prec)) n.
Proof.
  intros F E. destruct (FormatFloat_ok f prec F) as (n & t & N & T & _ & EF).
  assert (G : finite g).
  { destruct (fixed_text_digit _ _ _ T) as (c & r & -> & D). unfold is_digit in D. rewrite EF in E.
    destruct g as [s|s| |s m e]; try exact Logic.I; exfalso; destruct (negative f); cbn [minus app FormatFloat] in E; change (byte_text "Inf") with [73; 110; 102] in E; change (byte_text "NaN") with [78; 97; 78] in E;
      try destruct s; cbn [app] in E; injection E; intros; subst; lia. }
  destruct (FormatFloat_ok g prec G) as (m & t' & M & T' & _ & EG). rewrite EF, EG in E.
  apply minus_digit in E as [E1 E2]; [|exact (fixed_text_digit _ _ _ T)|exact (fixed_text_digit _ _ _ T')]. subst t'.
  rewrite (fixed_text_injective _ _ _ _ T T') in N. split; [exact G|]. split; [exact E1|]. exists m. auto.
Qed.
