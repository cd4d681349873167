(** Filter expressions: exactly when evaluating one operation panics (C48).
    [function_crash] is defined in PanicSpec.v from the values of the arguments. *)
From Coq Require Import Lia String.
From Verif Require Import Base GuidModel FormatModel StrModel CalModel NumModel ExprModel ExprSpec ExprPanic ExprPanic2
  PanicSpec ExprPanic3 ExprPanic4 PropertiesExpr.
Open Scope list_scope.
Open Scope Z_scope.

(** A function whose arguments have values panics in exactly the cases listed.
    Texts are shorter than 2^60 bytes. *)
Theorem C48_function_panics_iff : forall L row f args vals,
  Forall2 (fun e v => Evaluate L row e = Ok v) args vals -> Forall well_typed vals -> Forall (short_text L) vals ->
  (Evaluate L row (EFunction f args) = Panic <-> function_crash L f vals).
Proof. intros L row f args vals E W H. exact (function_iff L row f args vals (conj E (conj W H))). Qed.

(** An IN list panics exactly when, before a match, a Boolean meets an Int32. *)
Theorem C48_in_panics_iff : forall L row e args n m v vals,
  Evaluate L row e = Ok v -> well_typed v ->
  Forall2 (fun a w => Evaluate L row a = Ok w) args vals -> Forall well_typed vals ->
  (Evaluate L row (EInList e args n m) = Panic <->
   exists before next after, vals = before ++ next :: after /\ bool_int32 v next /\
     Evaluate L None (EInList (EValue v) (map EValue before) false m) = Ok vFalse).
Proof. exact in_iff. Qed.

(** The unary operators never do. *)
Theorem C48_unary_never_panics : forall L row u e v,
  Evaluate L row e = Ok v -> well_typed v -> Evaluate L row (EUnary u e) <> Panic.
Proof.
  intros L row u e v E W. unfold Evaluate in *. cbn [evaluateAs]. rewrite E. cbn [bind]. apply unary_np, W.
Qed.

(** Delimiters that overlap, an empty delimiter, an empty text to look for and a
    length near 2^63 make text functions panic. *)
Theorem C48_text_functions_refuted : forall L row,
  Evaluate L row (EFunction FSplit [text "aaaa"; text "aa"; num 2]) = Panic /\
  Evaluate L row (EFunction FSplit [text "ab"; text ""; num 2]) = Panic /\
  Evaluate L row (EFunction FNthIndexOf [text "ab"; text ""; num 2]) = Panic /\
  Evaluate L row (EFunction FSubStr [text "ab"; num 1; EValue (vInt64 (2 ^ 63 - 1))]) = Panic.
Proof. intros L row. repeat split; reflexivity. Qed.

(** The cases occur, and so does their absence. *)
Example C48_function_nonvacuous :
  function_crash example_lib FSplit [vStr (lit "aaaa"); vStr (lit "aa"); vInt32 2] /\
  function_crash example_lib FMaxOf [vInt32 3; vInt32 4; vBool true] /\
  function_crash example_lib FConvert [vBool true; vStr (lit "System.Int32")] /\
  Evaluate example_lib None (EFunction FSplit [text "ab--cd"; text "--"; num 1]) = Ok (vStr (lit "cd")) /\
  Forall (short_text example_lib) [vStr (lit "ab--cd"); vInt32 1].
Proof.
  split; [|split; [|split; [|split; [reflexivity|]]]].
  - apply (fc_split example_lib (lit "aaaa") (lit "aa") (vInt32 2) 2 [] false).
    + apply whole_int, int_of_32. unfold is_i32. lia.
    + constructor.
    + right. split; [discriminate|]. exists [0; 1; 2], 1, 2. split; [|split; [|split]].
      * split.
        -- intros i. cbn [In cased]. split.
           ++ intros [<-|[<-|[<-|[]]]]; [exists [], (lit "aa")|exists (lit "a"), (lit "a")|exists (lit "aa"), []]; split; reflexivity.
           ++ intros (u & v & E & <-). apply (f_equal (@length Z)) in E. rewrite !app_length in E. unfold len. cbn in E. lia.
        -- intros j k J K. cbn in K. assert (k = 1 \/ k = 2)%nat as [-> | ->] by lia; [assert (j = 0)%nat as -> by lia; reflexivity|].
           assert (j = 0 \/ j = 1)%nat as [-> | ->] by lia; reflexivity.
      * left. split; [unfold len; cbn; lia|reflexivity].
      * left. split; [unfold len; cbn; lia|reflexivity].
      * right. left. unfold len. cbn. lia.
  - apply (fc_extreme example_lib FMaxOf [vInt32 3; vInt32 4] (vBool true) [] (vInt32 4)).
    + auto.
    + right. split; [unfold len; cbn; lia|reflexivity].
    + split; [discriminate|]. split; [discriminate|]. auto.
  - apply fc_convert_bool. right. reflexivity.
  - apply Forall_cons; [|apply Forall_cons; [|apply Forall_nil]]; intros s E; [|discriminate E].
    injection E as <-. vm_compute. split; reflexivity.
Qed.

Print Assumptions C48_function_panics_iff.
Print Assumptions C48_in_panics_iff.
Print Assumptions C48_unary_never_panics.
Print Assumptions C48_text_functions_refuted.
