(** Proofs about trimming text and the date functions (C92, C93). *)
From Coq Require Import Lia ZifyBool ZifyNat QArith String.
From Verif Require Import Base GuidModel FormatModel StrModel CalModel CalSpec NumModel ExprModel ExprSpec FuncSpec ExprProofs
  ExprPanic StrProofs ExprPanic2 ExprProofs2 ExprProofs5 ExprProofs6 CalProofs FuncProofs.
Close Scope Q_scope.
Open Scope list_scope.
Open Scope Z_scope.

(** ** Trimming *)

Lemma drop_while_spec {A} (p : A -> bool) l :
  exists u, l = u ++ drop_while p l /\ Forall (fun x => p x = true) u /\
    forall x r, drop_while p l = x :: r -> p x = false.
Proof.
  induction l as [|x l IH]; cbn [drop_while].
  - exists []. split; [reflexivity|]. split; [constructor|]. discriminate.
  - destruct (p x) eqn:P.
    + destruct IH as (u & E & F & N). exists (x :: u). split; [cbn; f_equal; exact E|]. split; [constructor; assumption|exact N].
    + exists []. split; [reflexivity|]. split; [constructor|]. intros y r Y. injection Y as <- <-. exact P.
Qed.
Lemma drop_while_map {A B} (f : A -> B) p l : drop_while p (map f l) = map f (drop_while (fun x => p (f x)) l).
Proof. induction l as [|x l IH]; [reflexivity|]. cbn [map drop_while]. destruct (p (f x)); [exact IH|reflexivity]. Qed.
Lemma drop_while_unique {A} (p : A -> bool) u w : Forall (fun x => p x = true) u ->
  (forall x r, w = x :: r -> p x = false) -> drop_while p (u ++ w) = w.
Proof.
  intros F N. induction u as [|x u IH]; cbn [app drop_while].
  - destruct w as [|x w]; [reflexivity|]. cbn [drop_while]. rewrite (N x w eq_refl). reflexivity.
  - apply Forall_cons_iff in F as [P F]. rewrite P. apply IH, F.
Qed.

Lemma concat_encode rs : concat (map snd (map (fun r => (r, encode_rune r)) rs)) = encode_runes rs.
Proof. unfold encode_runes. rewrite map_map. cbn [snd]. rewrite flat_map_concat_map. reflexivity. Qed.
Lemma trim_left_text p s rs : text_of s rs -> trim_left_by p s = encode_runes (drop_while p rs).
Proof.
  intros [V ->]. unfold trim_left_by. rewrite (decode_runes rs V), drop_while_map. cbn [fst]. apply concat_encode.
Qed.
Lemma trim_right_text p s rs : text_of s rs -> trim_right_by p s = encode_runes (rev (drop_while p (rev rs))).
Proof.
  intros [V ->]. unfold trim_right_by. rewrite (decode_runes rs V), <- map_rev, drop_while_map, <- map_rev. cbn [fst]. apply concat_encode.
Qed.
Lemma drop_while_forall {A} (P : A -> Prop) p l : Forall P l -> Forall P (drop_while p l).
Proof. destruct (drop_while_spec p l) as (u & E & _ & _). rewrite E at 1. intros F. apply Forall_app in F as [_ F]. exact F. Qed.
Lemma text_left p s rs : text_of s rs -> text_of (trim_left_by p s) (drop_while p rs).
Proof. intros T. split; [apply drop_while_forall, T|apply trim_left_text, T]. Qed.
Lemma text_right p s rs : text_of s rs -> text_of (trim_right_by p s) (rev (drop_while p (rev rs))).
Proof. intros T. split; [apply Forall_rev, drop_while_forall, Forall_rev, T|apply trim_right_text, T]. Qed.
Lemma ascii_text s : is_ascii s -> text_of s s.
Proof.
  intros A. split; [|symmetry; apply encode_ascii, A]. eapply Forall_impl; [|exact A]. cbn. unfold valid_rune. lia.
Qed.

Lemma trim_parts (p : Z -> bool) u w v :
  Forall (fun x => p x = true) u -> Forall (fun x => p x = true) v ->
  (forall x r, w = x :: r -> p x = false) -> (forall x r, w = r ++ [x] -> p x = false) ->
  rev (drop_while p (rev (drop_while p (u ++ w ++ v)))) = w.
Proof.
  intros U V F L. destruct w as [|c w0] eqn:W.
  - cbn [app]. replace (u ++ v) with ((u ++ v) ++ []) by apply app_nil_r.
    rewrite drop_while_unique; [reflexivity|apply Forall_app; auto|discriminate].
  - rewrite (drop_while_unique p u ((c :: w0) ++ v)) by (auto; intros x r E; injection E as <- _; apply (F c w0 eq_refl)).
    rewrite rev_app_distr. rewrite drop_while_unique; [apply rev_involutive|apply Forall_rev, V|].
    intros x r E. apply (L x (rev r)). rewrite <- (rev_involutive (c :: w0)), E. reflexivity.
Qed.

(** ** Interval names *)

Lemma blank_space c : blank c -> rune_is_space c = true.
Proof. unfold blank, rune_is_space. lia. Qed.
Lemma ascii_space c : 0 <= c < 128 -> rune_is_space c = true -> blank c.
Proof. unfold blank, rune_is_space. lia. Qed.
Lemma blank_ascii s : Forall blank s -> is_ascii s.
Proof. apply Forall_impl. unfold blank. lia. Qed.
Lemma blank_upper c : blank c -> ascii_upper c = c.
Proof. unfold blank, ascii_upper. intros H. destruct ((97 <=? c) && (c <=? 122)) eqn:E; lia. Qed.

Lemma spells_trim s name : Forall (fun c => ~ blank c) (lit name) -> spells s name ->
  is_ascii (str_TrimSpace s) /\ map ascii_upper (str_TrimSpace s) = lit name.
Proof.
  intros N (u & w & v & -> & U & V & A & E).
  assert (NB : Forall (fun c => ~ blank c) w).
  { rewrite <- E in N. clear E A. induction w as [|c w IH]; constructor.
    - cbn [map] in N. apply Forall_cons_iff in N as [N _]. intros B. apply N. rewrite blank_upper by exact B. exact B.
    - apply IH. cbn [map] in N. apply Forall_cons_iff in N as [_ N]. exact N. }
  enough (T : str_TrimSpace (u ++ w ++ v) = w) by (rewrite T; auto).
  assert (AS : is_ascii (u ++ w ++ v)).
  { unfold is_ascii in *. apply Forall_app. split; [apply blank_ascii, U|]. apply Forall_app. split; [exact A|apply blank_ascii, V]. }
  unfold str_TrimSpace. rewrite (trim_right_text _ _ _ (text_left _ _ _ (ascii_text _ AS))).
  rewrite trim_parts; [apply encode_ascii, A| | | |].
  - eapply Forall_impl; [|exact U]. apply blank_space.
  - eapply Forall_impl; [|exact V]. apply blank_space.
  - intros x r X. subst w. unfold is_ascii in A. apply Forall_cons_iff in A as [A _]. apply Forall_cons_iff in NB as [NB _].
    destruct (rune_is_space x) eqn:S; [|reflexivity]. exfalso. apply NB, ascii_space; assumption.
  - intros x r X. subst w. unfold is_ascii in A. apply Forall_app in A as [_ A]. apply Forall_app in NB as [_ NB].
    apply Forall_cons_iff in A as [A _]. apply Forall_cons_iff in NB as [NB _].
    destruct (rune_is_space x) eqn:S; [|reflexivity]. exfalso. apply NB, ascii_space; assumption.
Qed.
Lemma interval_spells L s name : ascii_tables L -> Forall (fun c => ~ blank c) (lit name) -> spells s name ->
  ParseTimeInterval L s = match find (fun p => str_eqb (lit name) (fst p)) interval_names with Some (_, i) => Ok i | None => Err end.
Proof.
  intros AT N S. destruct (spells_trim s name N S) as [A E]. unfold ParseTimeInterval.
  rewrite (ToUpper_ascii L _ AT A), E. reflexivity.
Qed.
Lemma letters_solid s : forallb (fun c => 65 <=? c) s = true -> Forall (fun c => ~ blank c) s.
Proof.
  intros F. apply Forall_forall. intros c C. pose proof (proj1 (forallb_forall _ _) F c C) as H. cbv beta in H. unfold blank. lia.
Qed.
Definition interval_by_name (name : string) : interval :=
  match find (fun p => str_eqb (lit name) (fst p)) interval_names with Some (_, i) => i | None => TYear end.
Lemma interval_known L s name : ascii_tables L -> In name interval_list -> spells s name ->
  ParseTimeInterval L s = Ok (interval_by_name name).
Proof.
  intros AT I S.
  assert (N : Forall (fun c => ~ blank c) (lit name) /\ exists p, find (fun p => str_eqb (lit name) (fst p)) interval_names = Some (p, interval_by_name name)).
  { clear S. cbn in I. repeat destruct I as [<- | I]; try contradiction;
      (split; [apply letters_solid; reflexivity|eexists; reflexivity]). }
  destruct N as [N [p P]]. rewrite (interval_spells L s name AT N S), P. reflexivity.
Qed.
Lemma interval_unknown L s : ascii_tables L -> is_ascii s ->
  (forall name, In name interval_list -> ~ spells s name) -> ParseTimeInterval L s = Err.
Proof.
  intros AT A N. unfold ParseTimeInterval.
  destruct (find (fun p => str_eqb (ToUpper L (str_TrimSpace s)) (fst p)) interval_names) as [[n i]|] eqn:F; [|reflexivity].
  exfalso. apply find_some in F as [I E]. cbn [fst] in E. apply str_eqb_spec in E.
  pose proof (ascii_text s A) as T.
  destruct (drop_while_spec rune_is_space s) as (u & S1 & U & N1).
  destruct (drop_while_spec rune_is_space (rev (drop_while rune_is_space s))) as (v & S2 & V & N2).
  assert (TR : str_TrimSpace s = rev (drop_while rune_is_space (rev (drop_while rune_is_space s)))).
  { unfold str_TrimSpace. rewrite (trim_right_text _ _ _ (text_left _ _ _ T)). apply encode_ascii.
    unfold is_ascii. apply Forall_rev, drop_while_forall, Forall_rev, drop_while_forall, A. }
  assert (S3 : drop_while rune_is_space s = str_TrimSpace s ++ rev v).
  { rewrite TR, <- rev_app_distr, <- S2, rev_involutive. reflexivity. }
  assert (AA : is_ascii (str_TrimSpace s)).
  { rewrite TR. unfold is_ascii. apply Forall_rev, drop_while_forall, Forall_rev, drop_while_forall, A. }
  rewrite (ToUpper_ascii L _ AT AA) in E.
  assert (SP : forall name, n = lit name -> spells s name).
  { intros name ->. exists u, (str_TrimSpace s), (rev v). split; [rewrite <- S3; exact S1|].
    assert (AU : is_ascii u) by (rewrite S1 in A; unfold is_ascii in *; apply Forall_app in A as [A _]; exact A).
    assert (AV : is_ascii (rev v)).
    { rewrite S1 in A. unfold is_ascii in *. apply Forall_app in A as [_ A]. rewrite S3 in A. apply Forall_app in A as [_ A]. exact A. }
    split; [|split; [|split; [exact AA|exact E]]].
    - apply Forall_forall. intros c C. apply ascii_space; [apply (proj1 (Forall_forall _ _) AU c C)|apply (proj1 (Forall_forall _ _) U c C)].
    - apply Forall_forall. intros c C. apply ascii_space; [apply (proj1 (Forall_forall _ _) AV c C)|].
      apply in_rev in C. apply (proj1 (Forall_forall _ _) V c C). }
  assert (X : exists name, In name interval_list /\ n = lit name).
  { cbn in I. repeat destruct I as [I | I]; try contradiction; injection I as <- _;
      [exists "YEAR"%string|exists "MONTH"%string|exists "DAYOFYEAR"%string|exists "DAY"%string|exists "WEEK"%string
      |exists "WEEKDAY"%string|exists "HOUR"%string|exists "MINUTE"%string|exists "SECOND"%string|exists "MILLISECOND"%string];
      (split; [cbn; tauto|reflexivity]). }
  destruct X as (name & I' & ->). apply (N name I'), SP. reflexivity.
Qed.
