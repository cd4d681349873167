(** Split (C59).  [L] stands for the behaviour of other packages. *)
From Coq Require Import Lia ZifyBool ZifyNat String.
From Verif Require Import Base BaseProofs GuidModel ExprModel ExprSpec ExprProofs SplitSpec SplitProofs PropertiesExpr.
Open Scope list_scope.
Open Scope Z_scope.

(** Of pieces separated by a delimiter that does not overlap itself: what Split
    gives for every index. *)
Theorem C59_split_exact : forall L row x y z s d v i ps pieces,
  Evaluate L row x = Ok (vStr s) -> Evaluate L row y = Ok (vStr d) -> Evaluate L row z = Ok v -> whole v i ->
  d <> [] -> len s < 2 ^ 31 -> occurrences s d ps -> s = joined d pieces -> len pieces = len ps + 1 ->
  Evaluate L row (EFunction FSplit [x; y; z]) = Ok (vStr (split_piece d pieces i)).
Proof. exact split_exact. Qed.
Example C59_split_exact_nonvacuous :
  occurrences (lit ",a,b") (lit ",") [0; 2] /\ lit ",a,b" = joined (lit ",") [[]; lit "a"; lit "b"] /\
  split_piece (lit ",") [[]; lit "a"; lit "b"] 1 = lit ",a" /\ split_piece (lit ",") [[]; lit "a"; lit "b"] 2 = lit "b".
Proof.
  repeat split; try reflexivity.
  - intros [<-|[<-|[]]]; [exists [], (lit "a,b")|exists (lit ",a"), (lit "b")]; split; reflexivity.
  - intros (u & w & E & <-). destruct u as [|c1 [|c2 [|c3 [|c4 [|c5 u]]]]]; cbn in E; try discriminate E; cbn; auto.
  - intros j k J K. cbn in K. destruct j as [|j]; destruct k as [|[|k]]; try lia. cbn. lia.
Qed.

(** A text that does not contain the delimiter has no piece at all. *)
Theorem C59_split_absent_refuted : forall L row x y z s d v i,
  Evaluate L row x = Ok (vStr s) -> Evaluate L row y = Ok (vStr d) -> Evaluate L row z = Ok v -> whole v i ->
  d <> [] -> len s < 2 ^ 31 -> (forall p, ~ occurs_at s d p) ->
  Evaluate L row (EFunction FSplit [x; y; z]) = Ok (vStr []).
Proof.
  intros L row x y z s d v i X Y Z W D B N.
  rewrite (split_exact L row x y z s d v i [] [s] X Y Z W D B); [|split; [intros p; split; [intros []|apply N]|intros j k J K; cbn in K; lia]|reflexivity|reflexivity].
  unfold split_piece. destruct s; match goal with |- context [if ?b then _ else _] => destruct b end; reflexivity.
Qed.

Print Assumptions C59_split_exact.
Print Assumptions C59_split_absent_refuted.
