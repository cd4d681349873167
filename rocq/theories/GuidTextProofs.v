(** Lemmas about GUIDs in filter expressions (C117). *)
From Coq Require Import Lia.
From Verif Require Import Base GuidModel StrModel NumModel GoTextModel ExprModel ExprSpec ExprProofs2 TableModel LexModel LexSpec ParseModel TextModel TextSpec TextProofs2 TextProofs3 GoTextSpec GoTextProofs.
Open Scope list_scope.
Open Scope Z_scope.

Lemma hex_hex_value c : hex c <-> exists v, hex_value c v.
Proof. unfold hex, digit, hex_value. split; [|intros (v & H); lia]. intros [H|[H|H]]; [exists (c - 48)|exists (c - 97 + 10)|exists (c - 65 + 10)]; lia. Qed.
Lemma hexes_pairs n : forall x, hexes (2 * n) x -> exists g, length g = n /\ hex_pairs x g.
Proof.
  induction n as [|n IH]; intros x [L F].
  - destruct x; [|discriminate]. exists []. split; [reflexivity|constructor].
  - destruct x as [|a [|b x]]; [discriminate|cbn in L; lia|]. apply List.Forall_cons_iff in F as [A F]. apply List.Forall_cons_iff in F as [B F].
    destruct (IH x) as (g & G & H); [split; [cbn in L; lia|exact F]|]. apply hex_hex_value in A as (v & A). apply hex_hex_value in B as (w & B).
    exists (16 * v + w :: g). split; [cbn; lia|constructor; assumption].
Qed.
Lemma pairs_hexes x g : hex_pairs x g -> hexes (2 * length g) x.
Proof.
  intros H. split; [apply hex_pairs_length; exact H|]. induction H as [|c1 c2 v1 v2 s l H1 H2 H IH]; [constructor|].
  constructor; [apply hex_hex_value; eauto|]. constructor; [apply hex_hex_value; eauto|exact IH].
Qed.
Lemma guid_text_dashed x : guid_text x <-> exists g, dashed g x.
Proof.
  split.
  - intros (a & b & c & d & e & -> & A & B & C & D & E).
    apply (hexes_pairs 4) in A as (g1 & L1 & A). apply (hexes_pairs 2) in B as (g2 & L2 & B). apply (hexes_pairs 2) in C as (g3 & L3 & C).
    apply (hexes_pairs 2) in D as (g4 & L4 & D). apply (hexes_pairs 6) in E as (g5 & L5 & E).
    exists (g1 ++ g2 ++ g3 ++ g4 ++ g5), g1, g2, g3, g4, g5, a, b, c, d, e. split; [reflexivity|]. split; [reflexivity|].
    do 5 (split; [assumption|]). split; [exact A|]. split; [exact B|]. split; [exact C|]. split; [exact D|exact E].
  - intros (g & g1 & g2 & g3 & g4 & g5 & a & b & c & d & e & _ & -> & L1 & L2 & L3 & L4 & L5 & A & B & C & D & E).
    apply pairs_hexes in A, B, C, D, E. rewrite L1 in A. rewrite L2 in B. rewrite L3 in C. rewrite L4 in D. rewrite L5 in E.
    exists a, b, c, d, e. split; [reflexivity|]. split; [exact A|]. split; [exact B|]. split; [exact C|]. split; [exact D|exact E].
Qed.
Lemma dash_length p : dash p -> (length p <= 1)%nat. Proof. intros [->| ->]; cbn; lia. Qed.
Lemma shape_length x : guid_shape x -> (32 <= length x <= 36)%nat.
Proof.
  intros (a & p & b & q & c & r & d & s & e & -> & [A _] & [B _] & [C _] & [D _] & [E _] & P & Q & R & S).
  apply dash_length in P, Q, R, S. rewrite !app_length. lia.
Qed.
Lemma shape_chars x : guid_shape x -> Forall (fun c => hex c \/ c = 45) x.
Proof.
  assert (H : forall n y, hexes n y -> Forall (fun c => hex c \/ c = 45) y) by (intros n y [_ F]; eapply Forall_impl; [|exact F]; auto).
  assert (D : forall p, dash p -> Forall (fun c => hex c \/ c = 45) p) by (intros p [->| ->]; repeat constructor; auto).
  intros (a & p & b & q & c & r & d & s & e & -> & A & B & C & D1 & E & P & Q & R & S).
  repeat (apply Forall_app; split); eauto.
Qed.
Lemma shape_ascii x : guid_shape x -> is_ascii x.
Proof.
  intros G. apply shape_chars in G. unfold is_ascii. eapply Forall_impl; [|exact G]. intros c [H|H]; unfold hex, digit in *; lia.
Qed.
Lemma not_hex_first c x g : ~ hex c -> ~ dashed g (c :: x) /\ ~ hex_pairs (c :: x) g \/ g = [] /\ ~ dashed g (c :: x).
Proof.
  intros N. left. split.
  - intros D. assert (T : guid_text (c :: x)) by (apply guid_text_dashed; eauto). destruct T as (a & b & ? & ? & ? & E & [L F] & _).
    destruct a as [|y a]; [discriminate|]. injection E as -> _. apply List.Forall_cons_iff in F as [F _]. contradiction.
  - intros H. apply pairs_hexes in H as [_ F]. apply List.Forall_cons_iff in F as [F _]. contradiction.
Qed.
Lemma parse_guid_some s g : parse_guid s = Some g <-> id_text g s.
Proof.
  rewrite <- guid_Parse_true. unfold parse_guid. destruct (guid_Parse s) as [h [|]]; split; intros H; try discriminate; [injection H as ->; reflexivity|injection H as ->; reflexivity].
Qed.
(** In braces: exactly with all dashes. *)
Lemma braces_parse x g : guid_shape x -> (parse_guid (123 :: x ++ [125]) = Some g <-> dashed g x).
Proof.
  intros G. pose proof (shape_length x G) as L. rewrite parse_guid_some. split.
  - intros H. remember (123 :: x ++ [125]) as t eqn:T. destruct H as [t D|a s b D|p s U D|t LG H].
    + subst t. exfalso. destruct (not_hex_first 123 (x ++ [125]) g) as [[N _]|[_ N]]; [unfold hex, digit; lia|exact (N D)|exact (N D)].
    + injection T as _ T. apply app_inj_tail in T as [-> _]. exact D.
    + exfalso. apply (f_equal (@length Z)) in T. rewrite app_length, (urn_length _ U) in T. apply dashed_length in D as [D _]. rewrite D in T. cbn [length] in T. rewrite app_length in T. cbn [length] in T. lia.
    + subst t. exfalso. destruct (not_hex_first 123 (x ++ [125]) g) as [[_ N]|[-> _]]; [unfold hex, digit; lia|exact (N H)|discriminate].
  - intros D. apply it_enclosed. exact D.
Qed.
(** In quotes: with all dashes or with none. *)
Lemma quotes_parse x g : guid_shape x -> (parse_guid x = Some g <-> dashed g x \/ length g = 16%nat /\ hex_pairs x g).
Proof.
  intros G. pose proof (shape_length x G) as L. rewrite parse_guid_some. split.
  - intros H. clear G. revert L. destruct H as [t D|a s b D|p s U D|t LG H]; intros L; [left; exact D| | |right; auto]; exfalso.
    + apply dashed_length in D as [D _]. cbn [length] in L. rewrite app_length, D in L. cbn in L. lia.
    + rewrite app_length, (urn_length _ U) in L. apply dashed_length in D as [D _]. lia.
  - intros [D|[LG H]]; [apply it_dashed; exact D|apply it_digits; assumption].
Qed.
Lemma written_guid t x : spelled t x -> is_ascii x -> written [t] x.
Proof.
  intros S A. exists x. split; [symmetry; apply encode_ascii; exact A|]. split.
  - unfold is_ascii in A. eapply Forall_impl; [|exact A]. intros c C. cbn in C. unfold valid_rune. lia.
  - rewrite <- (app_nil_r x). apply layout_token; [exact S|right; left; reflexivity|constructor].
Qed.
Lemma unquote_braces x : unquote 39 (123 :: x) = 123 :: x.
Proof. reflexivity. Qed.
Lemma bad_guid (D : dlib) s g : Tokens s = [TGuid g] -> s <> [] -> parse_guid (unquote 39 g) = None -> EvaluateExpression D s = Some Err.
Proof.
  intros T N P. unfold EvaluateExpression, ExpressionTrees, parse_text, statements_of. rewrite T. destruct s as [|c s]; [contradiction|].
  replace (Parse [TGuid g]) with (Some [QGuid g]) by reflexivity. cbn [bind listen listen_statement]. rewrite P. reflexivity.
Qed.
