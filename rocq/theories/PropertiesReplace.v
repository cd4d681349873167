(** The function Replace without regard to letter case, and of the empty text (C93). *)
From Coq Require Import Lia ZifyBool ZifyNat QArith String.
From Verif Require Import Base GuidModel FormatModel StrModel ReplaceModel ReplaceSpec ReplaceProofs CalModel NumModel ExprModel ExprSpec FuncSpec ExprProofs ExprProofs2 ExprProofs5 ExprProofs6 StrProofs FuncProofs FuncProofs6 PropertiesExpr.
Close Scope Q_scope.
Open Scope list_scope.
Open Scope Z_scope.

Lemma all_ascii_spec s : is_ascii s -> all_ascii s = true.
Proof. unfold is_ascii, all_ascii. intros A. apply forallb_forall. intros c C. eapply List.Forall_forall in A; [|exact C]. cbn beta in A. lia. Qed.
Lemma replace_fold_eval L row x y z b s t r : Evaluate L row x = Ok (vStr s) -> Evaluate L row y = Ok (vStr t) -> Evaluate L row z = Ok (vStr r) ->
  Evaluate L row b = Ok (vBool true) -> is_ascii s -> is_ascii t -> is_ascii r ->
  Evaluate L row (EFunction FReplace [x; y; z; b]) = Ok (vStr (ReplaceFold s t r)).
Proof.
  intros X Y Z0 B A1 A2 A3. unfold Evaluate. cbn [evaluateAs map evaluateFunction].
  rewrite (Evaluate_as _ _ _ VString _ X), (Evaluate_as _ _ _ VString _ Y), (Evaluate_as _ _ _ VString _ Z0), (Evaluate_as _ _ _ VBoolean _ B) by discriminate. cbn [bind].
  unfold fn_replace. cbn -[replace_fold]. unfold replace_fold. rewrite !all_ascii_spec by assumption. reflexivity.
Qed.

(** With TRUE as fourth argument, Replace replaces the occurrences of a text in any
    letter case, from left to right.  Missing for the full property: a replacement with
    a dollar sign before a letter, digit, underscore, brace or dollar sign (see below), and texts beyond ASCII. *)
Theorem C93_replace_fold_partial : forall L row x y z b s t r, t <> [] ->
  Evaluate L row x = Ok (vStr s) -> Evaluate L row y = Ok (vStr t) -> Evaluate L row z = Ok (vStr r) -> Evaluate L row b = Ok (vBool true) ->
  is_ascii s -> is_ascii t -> is_ascii r -> lone_dollars r ->
  exists w, fold_replaced t r s w /\ (forall w', fold_replaced t r s w' -> w' = w) /\ Evaluate L row (EFunction FReplace [x; y; z; b]) = Ok (vStr w).
Proof.
  intros L row x y z b s t r N X Y Z0 B A1 A2 A3 D. exists (fold_from s t r 0). split; [apply fold_spec; assumption|].
  split; [intros w' R; apply (fold_unique t r s w' _ N R), fold_spec; assumption|].
  rewrite (replace_fold_eval L row x y z b s t r X Y Z0 B A1 A2 A3). destruct t; [contradiction|reflexivity].
Qed.
(** A dollar sign in the replacement is taken for the beginning of a name: what follows
    it goes, or becomes the occurrence itself; two are one.  Regarding letter case it
    stays what it is. *)
Theorem C93_replace_dollar_refuted : forall L row,
  Evaluate L row (EFunction FReplace [text "Price: X"; text "x"; text "$5"; EValue (vBool true)]) = Ok (vStr (lit "Price: ")) /\
  Evaluate L row (EFunction FReplace [text "Price: X"; text "x"; text "$0.50"; EValue (vBool true)]) = Ok (vStr (lit "Price: X.50")) /\
  Evaluate L row (EFunction FReplace [text "Price: X"; text "x"; text "$$"; EValue (vBool true)]) = Ok (vStr (lit "Price: $")) /\
  Evaluate L row (EFunction FReplace [text "Price: X"; text "x"; text "$_a-${b}!"; EValue (vBool true)]) = Ok (vStr (lit "Price: -!")) /\
  fold_replaced (lit "x") (lit "$5") (lit "Price: X") (lit "Price: $5") /\
  Evaluate L row (EFunction FReplace [text "Price: X"; text "X"; text "$5"; EValue (vBool false)]) = Ok (vStr (lit "Price: $5")).
Proof.
  intros L row. split; [vm_compute; reflexivity|]. split; [vm_compute; reflexivity|]. split; [vm_compute; reflexivity|]. split; [vm_compute; reflexivity|]. split; [|vm_compute; reflexivity].
  change (lit "Price: X") with (lit "Price: " ++ lit "X" ++ []). change (lit "Price: $5") with (lit "Price: " ++ lit "$5" ++ []). apply fold_first; [reflexivity| |].
  - intros i (u & m & v & E & <- & M). unfold same_letters in M. destruct m as [|c [|? ?]]; try discriminate M.
    assert (K : nth (length u) (lit "Price: X") 0 = c) by (change (lit "Price: X") with (lit "Price: " ++ lit "X" ++ []); rewrite E, app_nth2, Nat.sub_diag by lia; reflexivity).
    unfold len. change (length (lit "Price: ")) with 7%nat. clear E. destruct (length u) as [|[|[|[|[|[|[|k]]]]]]]; [exfalso; subst c; discriminate M..|lia].
  - apply fold_none. intros i (u & m & v & E & _ & M). symmetry in E. apply app_eq_nil in E. destruct E as (_ & E). apply app_eq_nil in E. destruct E as (-> & _). discriminate M.
Qed.
(** The empty text occurs before every character and at the end, whatever the
    language. *)
Theorem C93_replace_empty : forall L row x y z s r rs,
  Evaluate L row x = Ok (vStr s) -> Evaluate L row y = Ok (vStr []) -> Evaluate L row z = Ok (vStr r) -> text_of s rs ->
  Evaluate L row (EFunction FReplace [x; y; z]) = Ok (vStr (concat (map (fun c => r ++ encode_runes [c]) rs) ++ r)).
Proof.
  intros L row x y z s r rs X Y Z0 (V & ->). unfold Evaluate. cbn [evaluateAs map evaluateFunction].
  rewrite (Evaluate_as _ _ _ VString _ X), (Evaluate_as _ _ _ VString _ Y), (Evaluate_as _ _ _ VString _ Z0) by discriminate. cbn [bind].
  unfold fn_replace.
  assert (E : ReplaceAll (encode_runes rs) [] r = concat (map (fun c => r ++ encode_runes [c]) rs) ++ r).
  { unfold ReplaceAll. f_equal. clear -V. unfold encode_runes. induction V as [|c rs C V IH]; [reflexivity|]. cbn [flat_map map concat]. rewrite (decode_encode _ _ C). cbn [flat_map snd].
    rewrite app_nil_r, IH. reflexivity. }
  rewrite <- E. reflexivity.
Qed.
Theorem C93_replace_empty_fold_partial : forall L row x y z b s r,
  Evaluate L row x = Ok (vStr s) -> Evaluate L row y = Ok (vStr []) -> Evaluate L row z = Ok (vStr r) -> Evaluate L row b = Ok (vBool true) ->
  is_ascii s -> is_ascii r -> lone_dollars r ->
  Evaluate L row (EFunction FReplace [x; y; z; b]) = Ok (vStr (interspersed r s)).
Proof.
  intros L row x y z b s r X Y Z0 B A1 A3 D. rewrite (replace_fold_eval L row x y z b s [] r X Y Z0 B A1 (List.Forall_nil _) A3). cbn [ReplaceFold]. rewrite (Expand_plain r [] D). f_equal. f_equal. f_equal. f_equal.
  clear. induction s as [|c s IH]; [reflexivity|]. cbn [flat_map interspersed]. rewrite <- IH, <- !app_assoc. reflexivity.
Qed.
Print Assumptions C93_replace_fold_partial.
Print Assumptions C93_replace_dollar_refuted.
Print Assumptions C93_replace_empty.
Print Assumptions C93_replace_empty_fold_partial.
Example C93_lone_dollars : lone_dollars (lit "$ (US$)").
Proof.
  intros a c b E. do 7 (destruct a as [|? a]; [try discriminate E; injection E as <- <-; lia|cbn [app] in E; injection E as _ E]). destruct a; discriminate E.
Qed.
Example C93_replace_example : forall L row,
  Evaluate L row (EFunction FReplace [text "aAbAAa"; text "Aa"; text "x"; EValue (vBool true)]) = Ok (vStr (lit "xbxa")) /\
  Evaluate L row (EFunction FReplace [text "ab"; text ""; text "-"; EValue (vBool true)]) = Ok (vStr (lit "-a-b-")) /\
  Evaluate L row (EFunction FReplace [text "5 eur"; text "EUR"; text "$ (US$)"; EValue (vBool true)]) = Ok (vStr (lit "5 $ (US$)")) /\
  Evaluate L row (EFunction FReplace [text "ab"; text ""; text "-"]) = Ok (vStr (lit "-a-b-")).
Proof. intros. repeat split; vm_compute; reflexivity. Qed.
