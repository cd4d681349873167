(** Links, paths, and selecting a node by its path. *)
From Coq Require Import Lia ZifyBool ZifyNat String Sorting.Sorted.
From Verif Require Import Base GuidModel FormatModel StrModel CalModel NumModel ExprModel ExprSpec StrProofs TableModel TableSpec TableProofs3 XmlModel XmlSpec XmlProofs XmlProofs2.
Open Scope list_scope.
Open Scope Z_scope.

Lemma element_at_snoc s i : forall e, element_at e (s ++ [i]) = match element_at e s with Some p => nth_error (x_children p) i | None => None end.
Proof.
  induction s as [|j s IH]; intros e; cbn [app element_at]; [destruct (nth_error _ _); reflexivity|].
  destruct (nth_error (x_children e) j); [apply IH|reflexivity].
Qed.
Lemma loaded_links e : exists d, LoadXml NewXmlDocument (Some e) = Ok d /\ MaxDepth d = height e /\
  forall a f, element_at e a = Some f -> let n := d_node d a in
    n_name n = x_local f /\ n_space n = x_space f /\ n_level n = Z.of_nat (length a) /\ n_owned n = true /\
    n_parent n = parent_of a /\ n_prev n = sibling_before a /\ n_next n = sibling_after e a /\
    forall name, map_get (n_items n) name = match named_children f a name with [] => None | m => Some m end /\
                 map_get (n_item n) name = hd_error (named_children f a name).
Proof.
  destruct (LoadXml NewXmlDocument (Some e)) as [d| |] eqn:E; [|discriminate|discriminate]. destruct (LoadXml_fresh e d E) as (H1 & H2 & H3).
  exists d. split; [reflexivity|]. split; [unfold MaxDepth; lia|]. intros a f A n.
  destruct (tree_ok_at (d_node d) e a [] 0 None None None f H2 A) as (pa & pr & nx & [N _] & Q). cbn [app] in *. fold n in N. destruct N as [N1 N2 N3 N4 N5 N6 N7 N8].
  split; [exact N1|]. split; [exact N2|]. split; [lia|]. split; [exact N7|]. unfold parent_of, sibling_before, sibling_after.
  destruct (rev a) as [|i r] eqn:R.
  - destruct Q as (-> & -> & ->). repeat split; auto; apply N8.
  - destruct Q as (-> & -> & p & Ep & ->). split; [exact N3|]. split; [rewrite N4; unfold prev_of; destruct i; reflexivity|]. split; [|exact N8].
    rewrite N5. unfold next_of. rewrite element_at_snoc, Ep. destruct (Nat.ltb_spec (S i) (length (x_children p))) as [L|L].
    + destruct (nth_error (x_children p) (S i)) eqn:G; [reflexivity|]. apply nth_error_None in G. lia.
    + destruct (nth_error (x_children p) (S i)) eqn:G; [|reflexivity]. assert (nth_error (x_children p) (S i) <> None) as G' by congruence. apply nth_error_Some in G'. lia.
Qed.

(** ** Path *)
Lemma names_down_snoc s i : forall e f, element_at e (s ++ [i]) = Some f -> names_down e (s ++ [i]) = names_down e s ++ [x_local f].
Proof.
  induction s as [|j s IH]; intros e f H; cbn [app element_at names_down] in *.
  - destruct (nth_error (x_children e) i); [|discriminate]. injection H as ->. reflexivity.
  - destruct (nth_error (x_children e) j); [|discriminate]. rewrite (IH _ _ H). reflexivity.
Qed.
Lemma path_names e d : LoadXml NewXmlDocument (Some e) = Ok d -> forall a f, element_at e a = Some f -> forall fuel, (length a < fuel)%nat ->
  ancestor_names fuel d (Some a) = Some (names_down e a).
Proof.
  intros Ld. destruct (loaded_links e) as (d' & Ld' & _ & H). rewrite Ld in Ld'. injection Ld' as <-.
  induction a as [|i a IH] using rev_ind; intros f A fuel Lf; destruct fuel as [|fuel]; try lia; cbn [ancestor_names].
  - destruct (H [] f A) as (N & _ & _ & _ & P & _). rewrite P, N. cbn in A. injection A as ->. destruct fuel; reflexivity.
  - destruct (H (a ++ [i]) f A) as (N & _ & _ & _ & P & _). rewrite P, N. unfold parent_of. rewrite rev_app_distr. cbn [rev app]. rewrite rev_involutive.
    rewrite app_length in Lf. cbn [length] in Lf. assert (exists p, element_at e a = Some p) as (p & Ep).
    { rewrite element_at_snoc in A. destruct (element_at e a) as [p|]; [eauto|discriminate]. }
    pose proof (IH p Ep fuel ltac:(lia)) as Q. unfold addr in *. rewrite Q. rewrite (names_down_snoc a i e f A). reflexivity.
Qed.
Lemma loaded_path e d a f : LoadXml NewXmlDocument (Some e) = Ok d -> element_at e a = Some f -> forall fuel, (length a < fuel)%nat ->
  Path fuel d a = Some (47 :: flat_map (fun n => 47 :: n) (names_down e a)).
Proof. intros L A fuel Lf. unfold Path. rewrite (path_names e d L a f A fuel Lf). reflexivity. Qed.

Definition plain (n : bytes) : path_step := PathStep (Named n) NoCondition.
Lemma path_text_plain n l : 47 :: path_text (map plain (n :: l)) = flat_map (fun n => 47 :: n) (n :: l).
Proof.
  revert n. induction l as [|m l IH]; intros n.
  - cbn. rewrite !app_nil_r. reflexivity.
  - change (47 :: path_text (map plain (n :: m :: l))) with (47 :: step_text (plain n) ++ 47 :: path_text (map plain (m :: l))).
    rewrite IH. unfold step_text. cbn [plain step_name step_condition name_text condition_text flat_map]. rewrite app_nil_r. reflexivity.
Qed.
Lemma leads_names : forall a pre e f, element_at e a = Some f -> leads pre e (map plain (tl (names_down e a))) (pre ++ a) f.
Proof.
  induction a as [|i a IH]; intros pre e f H; cbn [element_at names_down tl] in *.
  - injection H as <-. rewrite app_nil_r. constructor.
  - destruct (nth_error (x_children e) i) as [c|] eqn:E; [|discriminate]. specialize (IH (pre ++ [i]) c f H). rewrite <- app_assoc in IH. cbn [app] in IH.
    assert (Q : names_down c a = x_local c :: tl (names_down c a)) by (destruct a; reflexivity). rewrite Q. cbn [map].
    eapply leads_down; [exact E| |exact IH]. split; [reflexivity|exact I].
Qed.
Lemma select_path e d a f fuel : LoadXml NewXmlDocument (Some e) = Ok d -> element_at e a = Some f -> a <> [] -> (length a < fuel)%nat ->
  Forall (fun n => good_name (Named n)) (tl (names_down e a)) ->
  exists path r, Path fuel d a = Some path /\ DocumentSelectNodes e path = Ok r /\ In (a, f) r /\
    forall b g, In (b, g) r <-> element_at e b = Some g /\ names_down e b = names_down e a.
Proof.
  intros L A Na Lf G. rewrite (loaded_path e d a f L A fuel Lf).
  assert (Q : names_down e a = x_local e :: tl (names_down e a)) by (destruct a; reflexivity).
  assert (exists n l, tl (names_down e a) = n :: l) as (n & l & T).
  { destruct a as [|i a]; [congruence|]. cbn [names_down tl element_at] in *. destruct (nth_error (x_children e) i) as [c|]; [|discriminate]. destruct a; cbn [names_down]; eauto. }
  eexists. set (steps := map plain (n :: l)).
  assert (Gs : Forall good_step steps).
  { unfold steps. rewrite <- T. rewrite List.Forall_forall in *. intros s Hs. apply in_map_iff in Hs as (m & <- & Hm). split; [apply G, Hm|exact I]. }
  destruct (SelectNodes_spec [] e steps ltac:(discriminate) Gs) as (r & R1 & _ & _ & R2). exists r. split; [reflexivity|]. split.
  - rewrite Q, T. unfold DocumentSelectNodes. cbn [flat_map]. change (flat_map (fun n0 => 47 :: n0)) with (flat_map (cons 47)).
    assert (PT : 47 :: n ++ flat_map (cons 47) l = 47 :: path_text steps) by (symmetry; apply path_text_plain).
    cbn [app] in *. rewrite PT.
    replace (HasPrefix (47 :: 47 :: x_local e ++ 47 :: path_text steps) [47; 47]) with true by (symmetry; apply HasPrefix_spec; eexists; reflexivity).
    cbn [skipn]. replace (HasPrefix (x_local e ++ 47 :: path_text steps) (x_local e ++ [47])) with true.
    2: { symmetry. apply HasPrefix_spec. exists (path_text steps). rewrite <- app_assoc. reflexivity. }
    cbn [andb]. replace (skipn (3 + length (x_local e)) (47 :: 47 :: x_local e ++ 47 :: path_text steps)) with (path_text steps); [exact R1|].
    change (3 + length (x_local e))%nat with (S (S (S (length (x_local e))))). cbn [skipn].
    replace (S (length (x_local e))) with (length (x_local e) + 1)%nat by lia.
    clear. induction (x_local e) as [|b s IH]; [reflexivity|]. exact IH.
  - assert (X : forall b g, In (b, g) r <-> element_at e b = Some g /\ names_down e b = names_down e a).
    { intros b g. rewrite R2. rewrite Q, T. unfold steps. clear. change b with ([] ++ b) at 1. generalize (@nil nat) as pre. generalize (n :: l) as names. clear.
      intros names. revert e b. induction names as [|m names IH]; intros e b pre; cbn [map].
      - split.
        + intros H. inversion H as [E1 E2|]; subst. assert (b = []) as -> by (apply (app_inv_head pre); rewrite app_nil_r; congruence). split; [reflexivity|reflexivity].
        + intros (H1 & H2). destruct b as [|i b]; cbn [element_at names_down] in *.
          * injection H1 as <-. rewrite app_nil_r. constructor.
          * destruct (nth_error (x_children e) i) as [c|]; [|discriminate]. destruct b; discriminate.
      - split.
        + intros H. inversion H as [|s rest i c b0 f0 H1 H2 H3]; subst.
          assert (exists b', b = i :: b') as (b' & ->).
          { assert (K : forall st p q x y, leads p x st q y -> exists z, q = p ++ z).
            { clear. intros st. induction st as [|s st J]; intros p q x y H; inversion H; subst; [exists []; rewrite app_nil_r; reflexivity|].
              match goal with H : leads _ _ st _ _ |- _ => destruct (J _ _ _ _ H) as (z & ->) end. exists (i :: z). rewrite <- app_assoc. reflexivity. }
            destruct (K _ _ _ _ _ H3) as (z & Ez). rewrite <- app_assoc in Ez. apply app_inv_head in Ez. exists z. exact Ez. }
          change (i :: b') with ([i] ++ b') in H3. rewrite app_assoc in H3. apply IH in H3 as (K1 & K2). cbn [element_at names_down]. rewrite H1.
          split; [exact K1|]. f_equal. rewrite K2. f_equal. destruct H2 as (H2 & _). exact H2.
        + intros (H1 & H2). destruct b as [|i b]; [discriminate|]. cbn [element_at names_down] in *. destruct (nth_error (x_children e) i) as [c|] eqn:E; [|discriminate].
          injection H2 as H2. assert (x_local c = m) as Hm by (destruct b; cbn [names_down] in H2; congruence).
          eapply leads_down; [exact E| |].
          * split; [exact Hm|exact I].
          * change (i :: b) with ([i] ++ b). rewrite app_assoc. apply IH. split; [exact H1|]. rewrite H2, Hm. reflexivity. }
    split; [apply X; auto|exact X].
Qed.

(** ** No panic without an empty predicate *)
Lemma index_byte_nth c s : -1 < index_byte c s -> nth_error s (Z.to_nat (index_byte c s)) = Some c /\ index_byte c s < len s.
Proof.
  induction s as [|b s IH]; cbn [index_byte]; [lia|]. destruct (Z.eqb_spec b c) as [->|N]; [intros _; split; [reflexivity|unfold len; cbn [length]; lia]|].
  cbv zeta. destruct (index_byte c s =? -1) eqn:E; [lia|].
  assert (G : -1 <= index_byte c s). { clear. induction s as [|x s IH]; cbn [index_byte]; [lia|]. destruct (x =? c); [lia|]. cbv zeta. destruct (_ =? -1); lia. }
  intros _. destruct IH as (I1 & I2); [lia|]. unfold len in *. cbn [length]. split; [|lia].
  replace (Z.to_nat (index_byte c s + 1)) with (S (Z.to_nat (index_byte c s))) by lia. exact I1.
Qed.
Lemma step_match_total expr e : ~ empty_predicate expr -> exists b, step_match expr e = Ok b.
Proof.
  intros N. unfold step_match. destruct (_ && _) eqn:E; [|eauto]. apply andb_prop in E as (E & _). apply andb_prop in E as (E & E3). apply andb_prop in E as (E1 & E2).
  destruct (index_byte_nth 91 expr) as (A1 & A2); [lia|]. destruct (index_byte_nth 93 expr) as (B1 & B2); [lia|].
  destruct (firstn _ _) as [|b p] eqn:P; [|destruct b as [|q|q]; try (eexists; reflexivity); do 7 (destruct q as [q|q|]; try (eexists; reflexivity))].
  exfalso. apply N. set (i := Z.to_nat (index_byte 91 expr)) in *. apply (f_equal (@length Z)) in P. rewrite firstn_length, skipn_length in P. unfold len in *. cbn [length] in P.
  assert (Q : index_byte 93 expr = index_byte 91 expr + 1) by lia. rewrite Q in B1. replace (Z.to_nat (index_byte 91 expr + 1)) with (S i) in B1 by lia.
  destruct (nth_error_split expr i A1) as (a & r & -> & La). rewrite nth_error_app2 in B1 by lia. replace (S i - length a)%nat with 1%nat in B1 by lia. cbn in B1.
  destruct r as [|x r]; [discriminate|]. injection B1 as ->. exists a, r. reflexivity.
Qed.
Lemma step_results_total expr : ~ empty_predicate expr -> forall nodes, exists r, step_results expr nodes = Ok r.
Proof.
  intros N. induction nodes as [|n l (r & IH)]; [eexists; reflexivity|]. cbn [step_results]. destruct (step_match_total expr (snd n) N) as (b & ->). rewrite IH. cbn [bind]. eauto.
Qed.
Lemma select_steps_total : forall exprs nodes, Forall (fun s => ~ empty_predicate s) exprs -> exists r, select_steps nodes exprs = Ok r.
Proof.
  induction exprs as [|x l IH]; intros nodes F; cbn [select_steps]; [eauto|]. inversion F; subst. destruct (step_results_total x H1 nodes) as (r & ->). cbn [bind].
  destruct r; [eauto|]. destruct l as [|y l]; [eauto|]. apply IH. assumption.
Qed.
Lemma split_substring sep s : Forall (fun p => exists a b, s = a ++ p ++ b) (split_byte sep s).
Proof.
  assert (G : forall s, match split_byte sep s with p :: l => (exists b, s = p ++ b) /\ Forall (fun p => exists a b, s = a ++ p ++ b) l | [] => True end).
  { clear s. induction s as [|b s IH]; cbn [split_byte]; [split; [exists []; reflexivity|constructor]|]. 
    assert (K : forall l, Forall (fun p => exists a c, s = a ++ p ++ c) l -> Forall (fun p => exists a c, b :: s = a ++ p ++ c) l).
    { intros l F. eapply Forall_impl; [|exact F]. intros p (a & c & ->). exists (b :: a), c. reflexivity. }
    destruct (b =? sep).
    - split; [exists (b :: s); reflexivity|]. apply K. destruct (split_byte sep s) as [|p l]; [constructor|]. destruct IH as ((c & Ec) & F). constructor; [exists [], c; exact Ec|exact F].
    - destruct (split_byte sep s) as [|p l]; [split; [exists s; reflexivity|constructor]|]. destruct IH as ((c & Ec) & F). split; [exists c; rewrite Ec at 1; reflexivity|apply K, F]. }
  specialize (G s). destruct (split_byte sep s) as [|p l]; [constructor|]. destruct G as ((b & Eb) & F). constructor; [exists [], b; exact Eb|exact F].
Qed.
Lemma SelectNodes_total n path : ~ empty_predicate path -> exists r, SelectNodes n path = Ok r.
Proof.
  intros N. apply select_steps_total. eapply Forall_impl; [|apply split_substring]. intros p (a & b & E) (c & d & ->). apply N. exists (a ++ c), (d ++ b).
  rewrite E. rewrite <- !app_assoc. reflexivity.
Qed.
