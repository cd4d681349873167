(** The list of signal IDs of a parser holds the set without repetition (C79). *)
From Coq Require Import String QArith Permutation Lia ZifyBool ZifyNat.
From Verif Require Import Base BaseProofs GuidModel GuidSpec StrModel NumModel ExprModel StrProofs ExprSpec ExprProofs2 TableModel TableSpec TableProofs TableProofs2 TableProofs3 TableProofs4 TableProofs5.
Close Scope Q_scope.
Open Scope Z_scope.

Definition listed (s : fstate) : Prop :=
  match fs_idset s with
  | Some set => 2 <= fs_count s /\ NoDup (fs_ids s) /\ forall x, In x (fs_ids s) <-> In x set
  | None => fs_count s <= 1
  end.
Lemma NoDup_app_snoc {A} (l : list A) x : NoDup l -> ~ In x l -> NoDup (l ++ [x]).
Proof.
  induction 1 as [|y l Y N IH]; cbn; intros X; [constructor; auto; constructor|].
  constructor; [rewrite in_app_iff; cbn; intuition|]. apply IH. intuition.
Qed.
(** s' has at most one ID more. *)
Definition one_more (s s' : fstate) : Prop :=
  fs_count s' = fs_count s /\ listed s' /\ (fs_idset s' = None <-> fs_idset s = None) /\ len (fs_ids s') <= len (fs_ids s) + 1.

Lemma more_same s : listed s -> one_more s s.
Proof. intros I. repeat split; auto. lia. Qed.

Lemma add_id_listed s g s' : listed s -> add_id s g = Ok s' -> one_more s s'.
Proof.
  intros I. unfold add_id. destruct (IsZero g); [intros [= <-]; apply more_same, I|]. unfold listed in I.
  destruct (Z.ltb_spec 1 (fs_count s)) as [C|C].
  - destruct (fs_idset s) as [set|] eqn:S; cbn [set_add bind]; [|discriminate]. destruct I as (I0 & N & I).
    destruct (existsb (Equal g) set) eqn:X; cbn [bind]; intros H; injection H as <-; unfold one_more, listed; cbn [fs_count fs_idset fs_ids].
    + split; [reflexivity|]. split; [auto|]. split; [rewrite S; split; discriminate|lia].
    + assert (G : ~ In g set).
      { intros Y. assert (existsb (Equal g) set = true) by (apply existsb_exists; exists g; split; [exact Y|apply Equal_iff; reflexivity]). congruence. }
      split; [reflexivity|]. split.
      * split; [exact I0|]. split.
        -- apply NoDup_app_snoc; [exact N|]. rewrite I. exact G.
        -- intros x. rewrite in_app_iff. cbn [In]. rewrite I. tauto.
      * split; [rewrite S; split; discriminate|]. rewrite len_app. cbn. lia.
  - intros H. injection H as <-. unfold one_more, listed; cbn [fs_count fs_idset fs_ids]. destruct (fs_idset s); [lia|].
    split; [reflexivity|]. split; [lia|]. split; [tauto|]. rewrite len_app. cbn. lia.
Qed.

Lemma add_row_ids p s r s' : add_row p s r = Ok s' -> fs_count s' = fs_count s /\ fs_idset s' = fs_idset s /\ fs_ids s' = fs_ids s.
Proof.
  unfold add_row. destruct (negb _); [intros [= <-]; auto|]. destruct (1 <? _).
  - destruct (set_add _ _ _) as [[set a]| |]; cbn [bind]; try discriminate. intros H. injection H as <-. auto.
  - intros H. injection H as <-. auto.
Qed.
Lemma add_row_listed p s r s' : listed s -> add_row p s r = Ok s' -> one_more s s'.
Proof.
  intros I H. apply add_row_ids in H as (A & B & C). unfold one_more, listed in *. rewrite A, B, C. repeat split; auto. lia.
Qed.

Lemma matched_listed depth D p t s r i s' : listed s -> addMatchedRow depth D p t s r i = Ok s' -> one_more s s'.
Proof.
  intros I. unfold addMatchedRow. destruct (add_row p s r) as [s1| |] eqn:A; cbn [bind]; try discriminate.
  pose proof (add_row_ids _ _ _ _ A) as (C & S & E). pose proof (add_row_listed _ _ _ _ I A) as M.
  destruct (p_track_ids p); [|intros [= <-]; exact M]. destruct (signal_id depth D t r i) as [[g|]| |]; cbn [bind]; try discriminate; [|intros [= <-]; exact M].
  intros H. apply add_id_listed in H; [|apply M]. destruct H as (C' & L' & S' & N'). unfold one_more. rewrite C', S', <- C, S, <- E. repeat split; auto.
Qed.

Lemma identifier_listed depth D p s x s' : p_track_rows p = true \/ p_track_ids p = true ->
  listed s -> identifier depth D p s x = Ok s' -> one_more s s'.
Proof.
  intros T I. unfold identifier.
  destruct (match x with SGuidLiteral g => if p_track_ids p then add_id s g else Ok s | _ => Ok s end) as [s1| |] eqn:A; cbn [bind]; try discriminate.
  assert (M : one_more s s1).
  { destruct x; try (injection A as <-; apply more_same, I).
    destruct (p_track_ids p); [|injection A as <-; apply more_same, I]. eapply add_id_listed; eassumption. }
  assert (Z : forall s2, Ok s1 = Ok s2 -> one_more s s2) by (intros s2 [= <-]; exact M).
  assert (R : forall r s2, (exists g, x = SGuidLiteral g) -> add_row p s1 r = Ok s2 -> one_more s s2).
  { intros r s2 _ H. apply add_row_ids in H as (C & S & E). destruct M as (C' & L' & S' & N'). unfold one_more, listed in *. rewrite C, S, E. auto. }
  assert (F : forall t col text i s2, (forall g, x <> SGuidLiteral g) -> mapMatchedFieldRow depth D p t s1 col text i = Ok s2 -> one_more s s2).
  { intros t col text i s2 NG. unfold mapMatchedFieldRow. destruct (ColumnByName D t col); [|apply Z].
    destruct (map_field_loop _ _ _ _ _ _) as [[r|]| |]; cbn [bind]; try discriminate; [|apply Z].
    assert (s1 = s) as ->. { destruct x; try congruence. exfalso. eapply NG; reflexivity. }
    apply matched_listed. exact I. }
  destruct (match x with SGuidLiteral _ => negb (p_track_rows p) | _ => false end); [apply Z|]. destruct (p_dataset p); [|apply Z].
  destruct (DataSetTable D d (p_primary p)); [|apply Z]. destruct (map_get (p_fields p) (p_primary p)) as [[f|]|]; try apply Z.
  destruct (ColumnByName D d0 (f_signal_id f)); [|apply Z]. destruct x; try apply Z.
  - destruct (IsZero g); [apply Z|]. destruct (map_guid_loop _ _ _ _ _ _) as [[r|]| |]; cbn [bind]; try discriminate; [|apply Z].
    apply R. eauto.
  - apply F. discriminate.
  - apply F. discriminate.
Qed.

Definition visiting (s : fstate) : Prop := 0 <= fs_count s /\ listed s /\ (fs_idset s = None -> len (fs_ids s) <= fs_count s).
Lemma visit_listed depth D p s x s' : p_track_ids p = true -> visiting s -> visit depth D p s x = Ok s' ->
  visiting s' /\ fs_count s' = fs_count s + 1.
Proof.
  intros T (C & I & N). unfold visit. cbn [fs_count]. set (s0 := FState (fs_count s + 1) _ _ _ _ _).
  assert (V : listed (if fs_count s + 1 =? 2 then initializeSetOperations p s0 else s0) /\
              fs_count (if fs_count s + 1 =? 2 then initializeSetOperations p s0 else s0) = fs_count s + 1 /\
              (fs_idset (if fs_count s + 1 =? 2 then initializeSetOperations p s0 else s0) = None -> len (fs_ids (if fs_count s + 1 =? 2 then initializeSetOperations p s0 else s0)) <= fs_count s)).
  { unfold s0, listed in *. destruct (Z.eqb_spec (fs_count s + 1) 2) as [E|E].
    - unfold initializeSetOperations. cbn [fs_rowset fs_idset fs_rows fs_ids fs_count fs_trees]. rewrite T.
      destruct (fs_idset s) as [set|]; [lia|]. specialize (N eq_refl). split; [|split; [reflexivity|discriminate]].
      split; [lia|]. destruct (set_of_spec Equal (fs_ids s) Equal_iff) as [_ S]. split; [|intros y; rewrite S; reflexivity].
      destruct (fs_ids s) as [|a [|b l]]; [constructor|constructor; [auto|constructor]|unfold len in N; cbn [List.length] in N; lia].
    - cbn [fs_count fs_idset fs_ids]. destruct (fs_idset s) as [set|]; [split; [split; [lia|apply I]|split; [reflexivity|discriminate]]|].
      split; [lia|]. auto. }
  destruct V as (V1 & V2 & V3). set (s1 := if fs_count s + 1 =? 2 then _ else _) in *. clearbody s1.
  assert (ID : forall s2, identifier depth D p s1 x = Ok s2 -> visiting s2 /\ fs_count s2 = fs_count s + 1).
  { intros s2 H. apply identifier_listed in H; [|auto|exact V1]. destruct H as (A & B & E & F). split; [|congruence].
    unfold visiting. rewrite A, V2. split; [lia|]. split; [exact B|]. intros X. apply E in X. specialize (V3 X). lia. }
  assert (TR : forall e, visiting (add_tree s1 e) /\ fs_count (add_tree s1 e) = fs_count s + 1).
  { intros e. split; [|exact V2]. unfold visiting. change (fs_count (add_tree s1 e)) with (fs_count s1). rewrite V2. split; [lia|].
    split; [exact V1|]. intros X. specialize (V3 X). change (fs_ids (add_tree s1 e)) with (fs_ids s1). lia. }
  destruct x; try apply ID.
  - destruct (filter_tree _ _ _ _ _ _) as [e| |]; cbn [bind]; try discriminate. intros H. injection H as <-. apply TR.
  - intros H. injection H as <-. apply TR.
Qed.
Lemma visit_all_listed depth D p l : p_track_ids p = true -> forall s s', visiting s -> visit_all depth D p s l = Ok s' ->
  visiting s' /\ fs_count s' = fs_count s + len l.
Proof.
  intros T. induction l as [|x l IH]; cbn [visit_all]; intros s s' V.
  - intros [= <-]. split; [exact V|]. cbn. lia.
  - destruct (visit depth D p s x) as [s1| |] eqn:X; cbn [bind]; try discriminate. intros H. apply (visit_listed _ _ _ _ _ _ T V) in X as [V1 C1].
    apply (IH _ _ V1) in H as [V2 C2]. split; [exact V2|]. rewrite C2, C1. unfold len. cbn [List.length]. lia.
Qed.
Lemma trees_listed depth D p limit sort l : forall s s', listed s -> evaluate_trees depth D p limit sort s l = Ok s' ->
  listed s' /\ fs_count s' = fs_count s.
Proof.
  assert (R : forall t i rows s s', listed s -> add_matched depth D p t i s rows = Ok s' -> listed s' /\ fs_count s' = fs_count s).
  { intros t i. induction rows as [|r rows IH]; cbn [add_matched]; intros s s' I; [intros [= <-]; auto|].
    destruct (addMatchedRow depth D p t s r i) as [s1| |] eqn:A; cbn [bind]; try discriminate. intros H.
    apply (matched_listed _ _ _ _ _ _ _ _ I) in A as (C & L & _). apply (IH _ _ L) in H as [H1 H2]. split; [exact H1|congruence]. }
  induction l as [|e l IH]; cbn [evaluate_trees]; intros s s' I; [intros [= <-]; auto|].
  destruct (evaluate_tree depth D p limit sort s e) as [s1| |] eqn:A; cbn [bind]; try discriminate. intros H.
  assert (X : listed s1 /\ fs_count s1 = fs_count s).
  { unfold evaluate_tree in A. repeat (match type of A with bind ?m _ = _ => destruct m; cbn [bind] in A; try discriminate end). eapply R; eassumption. }
  destruct X as [L C]. apply (IH _ _ L) in H as [H1 H2]. split; [exact H1|congruence].
Qed.

Lemma evaluate_listed depth D p l limit sort s : p_track_ids p = true -> EvaluateStatements depth D p l limit sort = Ok s ->
  exists set, fs_idset (initializeSetOperations p s) = Some set /\ (forall g, In g (fs_ids s) <-> In g set) /\ (2 <= len l -> NoDup (fs_ids s)).
Proof.
  intros T. unfold EvaluateStatements. destruct (p_dataset p); [|discriminate]. destruct (negb _ && negb _); [discriminate|].
  destruct (visit_all depth D p (FState 0 [] None [] None []) l) as [s1| |] eqn:V; cbn [recovered bind]; try discriminate. intros H.
  apply (visit_all_listed _ _ _ _ T) in V; [|unfold visiting, listed; cbn; split; [lia|split; [lia|intros _; unfold len; cbn; lia]]].
  destruct V as [(_ & L & _) C]. apply (trees_listed _ _ _ _ _ _ _ _ L) in H as [L' C']. cbn [fs_count] in C.
  unfold initializeSetOperations. cbn [fs_idset]. rewrite T. unfold listed in L'. destruct (fs_idset s) as [set|].
  - exists set. destruct L' as (_ & N & I). auto.
  - exists (set_of Equal (fs_ids s)). destruct (set_of_spec Equal (fs_ids s) Equal_iff) as [_ S]. split; [reflexivity|]. split; [intros g; rewrite S; reflexivity|]. lia.
Qed.
