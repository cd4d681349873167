(** Laws of the string functions (C55, C59). *)
From Coq Require Import Lia ZifyBool ZifyNat.
From Verif Require Import Base BaseProofs GuidSpec StrModel ExprSpec.
Open Scope Z_scope.

Lemma HasPrefix_spec s t : HasPrefix s t = true <-> exists v, s = t ++ v.
Proof.
  revert s. induction t as [|y t IH]; intros s; cbn.
  - destruct s as [|x s]; (split; [intros _; eexists; reflexivity|reflexivity]).
  - destruct s as [|x s]; cbn.
    + split; [discriminate|]. intros (v & E). discriminate E.
    + rewrite andb_true_iff, IH. split.
      * intros [E (v & ->)]. exists v. f_equal. lia.
      * intros (v & E). injection E as -> ->. split; [lia|]. exists v. reflexivity.
Qed.
Lemma HasSuffix_spec s t : HasSuffix s t = true <-> exists u, s = u ++ t.
Proof.
  unfold HasSuffix. rewrite HasPrefix_spec. split.
  - intros (v & E). exists (rev v). rewrite <- (rev_involutive s), E, rev_app_distr, rev_involutive. reflexivity.
  - intros (u & ->). exists (rev u). rewrite rev_app_distr. reflexivity.
Qed.

(** ** Occurrences *)
Lemma occurs_nonneg s t i : occurs_at s t i -> 0 <= i /\ i + len t <= len s.
Proof. intros (u & v & -> & <-). unfold len. rewrite !app_length. lia. Qed.
Lemma occurs_0 s t : occurs_at s t 0 <-> HasPrefix s t = true.
Proof.
  rewrite HasPrefix_spec. split.
  - intros (u & v & -> & E). destruct u; [exists v; reflexivity|unfold len in E; cbn in E; lia].
  - intros (v & ->). exists [], v. split; reflexivity.
Qed.
Lemma occurs_cons x s t i : occurs_at (x :: s) t i <-> (i = 0 /\ HasPrefix (x :: s) t = true) \/ occurs_at s t (i - 1).
Proof.
  split.
  - intros H. destruct (Z.eq_dec i 0) as [-> |N]; [left; split; [reflexivity|apply occurs_0, H]|].
    right. destruct H as (u & v & E & L). destruct u as [|y u]; [unfold len in L; cbn in L; lia|].
    injection E as -> ->. exists u, v. split; [reflexivity|]. unfold len in *. cbn in L. lia.
  - intros [[-> H]|H]; [apply occurs_0, H|]. destruct H as (u & v & -> & L).
    exists (x :: u), v. split; [reflexivity|]. unfold len in *. cbn. lia.
Qed.
Lemma occurs_nil t i : occurs_at [] t i <-> i = 0 /\ t = [].
Proof.
  split.
  - intros (u & v & E & L). destruct u; [|discriminate]. destruct t; [|discriminate]. split; [unfold len in L; cbn in L; lia|reflexivity].
  - intros [-> ->]. exists [], []. split; reflexivity.
Qed.

Lemma Index_spec s t :
  (Index s t = -1 /\ forall i, ~ occurs_at s t i) \/
  (occurs_at s t (Index s t) /\ forall i, occurs_at s t i -> Index s t <= i).
Proof.
  induction s as [|x s IH]; cbn [Index].
  - destruct (HasPrefix [] t) eqn:P.
    + right. split; [apply occurs_0, P|]. intros i H. apply occurs_nonneg in H. lia.
    + left. split; [reflexivity|]. intros i H. apply occurs_nil in H as [-> ->]. discriminate P.
  - destruct (HasPrefix (x :: s) t) eqn:P.
    + right. split; [apply occurs_0, P|]. intros i H. apply occurs_nonneg in H. lia.
    + cbv zeta. destruct IH as [[-> IH]|[IH1 IH2]].
      * left. split; [reflexivity|]. intros i H. apply occurs_cons in H as [[_ H]|H]; [congruence|]. eapply IH, H.
      * pose proof (occurs_nonneg _ _ _ IH1). destruct (Index s t =? -1) eqn:Q; [lia|].
        right. split.
        -- apply occurs_cons. right. replace (Index s t + 1 - 1) with (Index s t) by lia. exact IH1.
        -- intros i H'. apply occurs_cons in H' as [[_ H']|H']; [congruence|]. apply IH2 in H'. lia.
Qed.
Lemma LastIndex_spec s t :
  (LastIndex s t = -1 /\ forall i, ~ occurs_at s t i) \/
  (occurs_at s t (LastIndex s t) /\ forall i, occurs_at s t i -> i <= LastIndex s t).
Proof.
  induction s as [|x s IH]; cbn [LastIndex].
  - destruct (HasPrefix [] t) eqn:P.
    + right. split; [apply occurs_0, P|]. intros i H. apply occurs_nil in H. lia.
    + left. split; [reflexivity|]. intros i H. apply occurs_nil in H as [-> ->]. discriminate P.
  - cbv zeta. destruct IH as [[-> IH]|[IH1 IH2]].
    + cbn [Z.eqb negb]. change (negb (-1 =? -1)) with false. cbn iota.
      destruct (HasPrefix (x :: s) t) eqn:P.
      * right. split; [apply occurs_0, P|]. intros i H. apply occurs_cons in H as [[-> _]|H]; [reflexivity|].
        exfalso. eapply IH, H.
      * left. split; [reflexivity|]. intros i H. apply occurs_cons in H as [[_ H]|H]; [congruence|]. eapply IH, H.
    + pose proof (occurs_nonneg _ _ _ IH1). destruct (negb (LastIndex s t =? -1)) eqn:Q; [|lia].
      right. split.
      * apply occurs_cons. right. replace (LastIndex s t + 1 - 1) with (LastIndex s t) by lia. exact IH1.
      * intros i H'. apply occurs_cons in H' as [[-> _]|H']; [lia|]. apply IH2 in H'. lia.
Qed.

Lemma Contains_spec s t : Contains s t = true <-> exists u v, s = u ++ t ++ v.
Proof.
  unfold Contains. destruct (Index_spec s t) as [[-> H]|[H1 H2]].
  - split; [discriminate|]. intros (u & v & ->). exfalso. apply (H (len u)). exists u, v. auto.
  - split.
    + intros _. destruct H1 as (u & v & E & _). eauto.
    + intros _. apply occurs_nonneg in H1. lia.
Qed.

(** ** Byte strings as an order *)
Lemma str_eqb_spec s t : str_eqb s t = true <-> s = t.
Proof.
  revert t. induction s as [|x s IH]; intros [|y t]; cbn; try (split; congruence).
  rewrite andb_true_iff, IH, Z.eqb_eq. split; [intros [-> ->]; reflexivity|]. intros E; injection E; auto.
Qed.
Lemma str_ltb_lex s t : str_ltb s t = match lex s t with Lt => true | _ => false end.
Proof.
  revert t. induction s as [|x s IH]; intros [|y t]; cbn; auto.
  destruct (Z.compare_spec x y) as [-> |H|H].
  - rewrite Z.ltb_irrefl. apply IH.
  - destruct (Z.ltb_spec x y); [reflexivity|lia].
  - destruct (Z.ltb_spec x y); [lia|]. destruct (Z.ltb_spec y x); [reflexivity|lia].
Qed.
Lemma str_compare_lex s t : str_compare s t = sign_of (lex s t).
Proof.
  unfold str_compare. rewrite str_ltb_lex.
  destruct (str_eqb s t) eqn:E.
  - apply str_eqb_spec in E as ->. induction t as [|x t IH]; cbn; [reflexivity|]. rewrite Z.compare_refl. exact IH.
  - destruct (lex s t) eqn:Q; try reflexivity. exfalso.
    revert t E Q. induction s as [|x s IH]; intros [|y t]; cbn; try discriminate.
    destruct (Z.compare_spec x y) as [-> |H|H]; try discriminate. rewrite Z.eqb_refl. cbn. apply IH.
Qed.

(** ** Count *)
(** The head piece of a decomposition can be taken apart. *)
Lemma joined_cons t p rest : rest <> [] -> joined t (p :: rest) = p ++ t ++ joined t rest.
Proof. destruct rest; [congruence|reflexivity]. Qed.

(** More room never loses occurrences. *)
Lemma disjoint_drop t x s k : t <> [] -> disjoint_occurrences (x :: s) t k ->
  0 <= k /\ (HasPrefix (x :: s) t = false -> disjoint_occurrences s t k).
Proof.
  intros T (pieces & E & L). split; [destruct pieces; [cbn in E; discriminate|unfold len in L; cbn in L; lia]|].
  intros P. destruct pieces as [|p rest]; [discriminate|].
  destruct rest as [|q rest].
  - cbn in E. subst p. exists [s]. split; [reflexivity|exact L].
  - rewrite joined_cons in E by discriminate.
    destruct p as [|y p].
    + exfalso. cbn in E. assert (HasPrefix (x :: s) t = true) by (apply HasPrefix_spec; eauto). congruence.
    + injection E as -> ->. exists (p :: q :: rest). split; [rewrite joined_cons by discriminate; reflexivity|exact L].
Qed.

Lemma disjoint_prefix w s t k : 0 <= k -> disjoint_occurrences s t k -> disjoint_occurrences (w ++ s) t k.
Proof.
  intros K (pieces & -> & L). destruct pieces as [|p rest]; [unfold len in L; cbn in L; lia|].
  exists ((w ++ p) :: rest). split; [|exact L].
  destruct rest; [reflexivity|]. rewrite !joined_cons by discriminate. apply app_assoc.
Qed.
Lemma disjoint_head s t v k : 1 <= k -> s = t ++ v -> disjoint_occurrences s t k -> disjoint_occurrences v t (k - 1).
Proof.
  intros K -> (pieces & E & L). destruct pieces as [|p [|q rest]]; [unfold len in L; cbn in L; lia|unfold len in L; cbn in L; lia|].
  rewrite joined_cons in E by discriminate.
  assert (W : exists w, v = w ++ joined t (q :: rest)).
  { exists (firstn (length v - length (joined t (q :: rest))) v).
    pose proof (f_equal (@rev Z) E) as R. pose proof (f_equal (@length Z) E) as LE. rewrite !app_length in LE.
    rewrite <- (firstn_skipn (length v - length (joined t (q :: rest))) v) at 1. f_equal.
    set (n := length (joined t (q :: rest))) in *.
    assert (skipn (length (t ++ v) - n) (t ++ v) = skipn (length (p ++ t ++ joined t (q :: rest)) - n) (p ++ t ++ joined t (q :: rest))) as S by (rewrite E; reflexivity).
    rewrite app_length, !skipn_app in S.
    rewrite (skipn_all2 t) in S by lia.
    rewrite !app_length in S.
    rewrite (skipn_all2 p) in S by lia.
    rewrite (skipn_all2 t) in S by lia.
    cbn [app] in S.
    replace (length t + length v - n - length t)%nat with (length v - n)%nat in S by lia.
    rewrite S. replace (length p + (length t + length (joined t (q :: rest))) - n - length p - length t)%nat with 0%nat by (unfold n; lia).
    reflexivity. }
  destruct W as (w & ->). apply disjoint_prefix; [lia|].
  exists (q :: rest). split; [reflexivity|]. unfold len in *. cbn in *. lia.
Qed.
Lemma count_skip s t k : count_from s t k = count_from (skipn k s) t 0.
Proof. revert k. induction s as [|x s IH]; intros [|k]; cbn [count_from skipn]; auto. Qed.
Lemma Count_cons x s t : t <> [] -> Count (x :: s) t = if HasPrefix (x :: s) t then 1 + Count (skipn (length t) (x :: s)) t else Count s t.
Proof.
  intros T. unfold Count. destruct t as [|y t]; [congruence|]. cbn [count_from].
  destruct (HasPrefix (x :: s) (y :: t)); [|reflexivity]. rewrite count_skip. cbn [length skipn].
  replace (S (length t) - 1)%nat with (length t) by lia. reflexivity.
Qed.
Lemma Count_spec s t : t <> [] ->
  disjoint_occurrences s t (Count s t) /\ forall k, disjoint_occurrences s t k -> k <= Count s t.
Proof.
  intros T. remember (length s) as n eqn:N. revert s N. induction n as [n IH] using (well_founded_induction lt_wf).
  intros s N. destruct s as [|x s].
  - assert (C : Count [] t = 0) by (destruct t; [congruence|reflexivity]). rewrite C. split.
    + exists [[]]. split; reflexivity.
    + intros k (pieces & E & L). destruct pieces as [|p [|q r]].
      * unfold len in L. cbn in L. lia.
      * unfold len in L. cbn in L. lia.
      * rewrite joined_cons in E by discriminate. destruct p; [|discriminate]. destruct t; [congruence|discriminate].
  - rewrite Count_cons by exact T. destruct (HasPrefix (x :: s) t) eqn:P.
    + apply HasPrefix_spec in P as (v & E). rewrite E. rewrite skipn_app, skipn_all, Nat.sub_diag. cbn [app skipn].
      assert (LV : (length v < n)%nat).
      { apply (f_equal (@length Z)) in E. rewrite app_length in E. cbn in E, N. destruct t; [congruence|cbn in E; lia]. }
      destruct (IH _ LV v eq_refl) as [(pieces & Ev & Lv) U]. split.
      * exists ([] :: pieces). split.
        -- destruct pieces; [|rewrite joined_cons by discriminate; cbn [app]; rewrite <- Ev; reflexivity].
           exfalso. assert (0 <= Count v t); [|unfold len in Lv; cbn in Lv; lia].
           apply U. exists [v]. split; reflexivity.
        -- unfold len in *. cbn [length]. lia.
      * intros k Hk. destruct (Z_lt_le_dec k 1) as [Q|Q].
        -- assert (0 <= Count v t) by (apply U; exists [v]; split; reflexivity). lia.
        -- pose proof (U _ (disjoint_head _ _ _ _ Q eq_refl Hk)). lia.
    + assert (LS : (length s < n)%nat) by (cbn in N; lia).
      destruct (IH _ LS s eq_refl) as [D U]. split.
      * apply (disjoint_prefix [x]); [|exact D]. apply U. exists [s]. split; reflexivity.
      * intros k Hk. apply U. eapply disjoint_drop; eassumption.
Qed.

(** ** All occurrences *)
Lemma occurs_skip s t k i : 0 <= i -> (k <= length s)%nat ->
  (occurs_at (skipn k s) t i <-> occurs_at s t (i + Z.of_nat k)).
Proof.
  intros Hi. revert s i Hi. induction k as [|k IH]; intros s i Hi K.
  - cbn [skipn]. replace (i + Z.of_nat 0) with i by lia. reflexivity.
  - destruct s as [|x s]; [cbn in K; lia|]. cbn [skipn]. cbn in K. rewrite IH by lia.
    rewrite occurs_cons. replace (i + Z.of_nat (S k) - 1) with (i + Z.of_nat k) by lia.
    split; [auto|]. intros [[E _]|H]; [lia|exact H].
Qed.
Lemma nth_map_lt f (l : list Z) k : (k < length l)%nat -> nth k (map f l) 0 = f (nth k l 0).
Proof. intros H. rewrite (nth_indep _ 0 (f 0)) by (rewrite map_length; exact H). apply map_nth. Qed.

Lemma occurrences_exist s t : exists ps, occurrences s t ps.
Proof.
  induction s as [|x s [ps [I M]]].
  - destruct t as [|y t].
    + exists [0]. split; [|intros; cbn in *; lia]. intros i. rewrite occurs_nil. cbn. intuition auto.
    + exists []. split; [|intros; cbn in *; lia]. intros i. rewrite occurs_nil. cbn. intuition congruence.
  - destruct (HasPrefix (x :: s) t) eqn:P.
    + exists (0 :: map (fun p => p + 1) ps). split.
      * intros i. rewrite occurs_cons, <- I. cbn [In]. rewrite in_map_iff. split.
        -- intros [<- |(p & <- & H)]; [auto|]. right. replace (p + 1 - 1) with p by lia. exact H.
        -- intros [[-> _]|H]; [auto|]. right. exists (i - 1). split; [lia|exact H].
      * intros j k J K. destruct k as [|k]; [lia|]. cbn [length] in K. rewrite map_length in K. cbn [nth].
        rewrite nth_map_lt by lia. destruct j as [|j]; cbn [nth].
        -- assert (In (nth k ps 0) ps) as H by (apply nth_In; lia). apply I, occurs_nonneg in H. lia.
        -- rewrite nth_map_lt by lia. specialize (M j k). lia.
    + exists (map (fun p => p + 1) ps). split.
      * intros i. rewrite occurs_cons, <- I, in_map_iff. split.
        -- intros (p & <- & H). right. replace (p + 1 - 1) with p by lia. exact H.
        -- intros [[-> H]|H]; [congruence|]. exists (i - 1). split; [lia|exact H].
      * intros j k J K. rewrite map_length in K. rewrite !nth_map_lt by lia. specialize (M j k). lia.
Qed.

Lemma occurrences_nil s t : occurrences s t [] -> Index s t = -1.
Proof.
  intros [I _]. destruct (Index_spec s t) as [[E _]|[O _]]; [exact E|]. apply I in O. destruct O.
Qed.
Lemma occurrences_cons s t p ps : occurrences s t (p :: ps) ->
  Index s t = p /\ 0 <= p <= len s /\
  (p + 1 <= len s -> occurrences (skipn (Z.to_nat (p + 1)) s) t (map (fun q => q - (p + 1)) ps)).
Proof.
  intros [I M]. assert (O : occurs_at s t p) by (apply I; left; reflexivity).
  pose proof (occurs_nonneg _ _ _ O) as B. unfold len in B. pose proof (Nat2Z.is_nonneg (length t)).
  assert (MH : forall q, In q ps -> p < q).
  { intros q Hq. apply (In_nth _ _ 0) in Hq as (k & K & <-). specialize (M 0%nat (S k)). cbn in M. lia. }
  split; [|split; [unfold len; lia|]].
  - destruct (Index_spec s t) as [[_ N]|[O' Mn]]; [exfalso; eapply N, O|].
    pose proof (Mn p O). assert (In (Index s t) (p :: ps)) as [E|E] by (apply I, O'); [auto|]. apply MH in E. lia.
  - intros P. unfold len in P. split.
    + intros i. rewrite in_map_iff. split.
      * intros (q & <- & Hq). pose proof (MH q Hq). apply occurs_skip; [lia|lia|].
        replace (q - (p + 1) + Z.of_nat (Z.to_nat (p + 1))) with q by lia. apply I. right. exact Hq.
      * intros Hi. pose proof (occurs_nonneg _ _ _ Hi) as [Hi0 _].
        apply occurs_skip in Hi; [|lia|lia]. apply I in Hi. destruct Hi as [Hi|Hi]; [lia|].
        eexists; split; [|exact Hi]. lia.
    + intros j k J K. rewrite map_length in K. rewrite !nth_map_lt by lia.
      specialize (M (S j) (S k)). cbn [nth length] in M. lia.
Qed.
