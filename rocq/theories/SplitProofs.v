(** What Split comes to when no two delimiters overlap (C59). *)
From Coq Require Import Lia ZifyBool ZifyNat QArith String Permutation.
From Verif Require Import Base BaseProofs GuidModel GuidSpec GuidProofs FormatModel StrModel CalModel NumModel ExprModel ExprSpec ExprProofs ExprPanic StrProofs ExprPanic2 ExprProofs2 ExprProofs3 ExprProofs5 ExprProofs6 SplitSpec.
Close Scope Q_scope.
Open Scope list_scope.
Open Scope Z_scope.

Lemma split_range L row x y z s d v i ps pieces :
  Evaluate L row x = Ok (vStr s) -> Evaluate L row y = Ok (vStr d) -> Evaluate L row z = Ok v -> whole v i ->
  d <> [] -> len s < 2 ^ 31 -> occurrences s d ps -> s = joined d pieces -> len pieces = len ps + 1 ->
  let js := joins d pieces in
  let first := if (1 <=? i) && (i <=? len js) then nth (Z.to_nat (i - 1)) js 0 else -1 in
  let second := if (0 <=? i) && (i <? len js) then nth (Z.to_nat i) js 0 else -1 in
  Evaluate L row (EFunction FSplit [x; y; z]) =
    match (if (first <=? 0) && (second <=? 0) then None
           else if first <=? 0 then Some (0, second)
           else if second <=? 0 then Some (first + len d, len s)
           else Some (first + len d, second)) with
    | None => Ok vEmptyString
    | Some (lo, hi) => let* piece := slice s lo hi in NewValueExpression VString (GStr piece)
    end.
Proof.
  intros X Y Z W D B OC -> LE js first second. unfold Evaluate. cbn [evaluateAs map evaluateFunction].
  destruct (whole_value v i (-1) W) as (IV & IT & IN & I64 & NN).
  rewrite (Evaluate_as _ _ _ VString _ X) by discriminate. rewrite (Evaluate_as _ _ _ VString _ Y) by discriminate.
  rewrite (Evaluate_as _ _ _ VInt32 _ Z) by exact NN. cbn [bind].
  unfold fn_split. cbn [is_str vStr ve_type vtype_eqb negb IsNull ve_value]. rewrite IT. cbn [negb].
  fold (IsNull v). rewrite IN. rewrite (ic_value L (NullValue VBoolean) false) by auto. cbn [bind stringValue ve_value vStr].
  rewrite IV. cbn [bind fold_if]. unfold splitNthIndex.
  pose proof (joins_occurrences d pieces ps D OC LE) as OJ. fold js in OJ.
  assert (I1 : is_i64 (i64 (i - 1))) by (unfold i64, is_i64; pose proof (Z.mod_pos_bound (i - 1 + 2 ^ 63) (2 ^ 64)); lia).
  rewrite (find_nth _ d _ js OJ D I1 B), (find_nth _ d i js OJ D I64 B). cbn [bind].
  assert (F : nth_occurrence js (i64 (i - 1)) = first).
  { unfold nth_occurrence, first. pose proof (occ_bound _ _ _ OJ). unfold is_i64 in I64.
    destruct (Z.eq_dec i (- 2 ^ 63)) as [-> |N].
    - change (i64 (- 2 ^ 63 - 1)) with (2 ^ 63 - 1). replace (2 ^ 63 - 1 <? len js) with false by lia. reflexivity.
    - rewrite i64_id by (unfold is_i64; lia). destruct ((1 <=? i) && (i <=? len js)) eqn:Q.
      + replace ((0 <=? i - 1) && (i - 1 <? len js)) with true by lia. reflexivity.
      + replace ((0 <=? i - 1) && (i - 1 <? len js)) with false by lia. reflexivity. }
  rewrite F. reflexivity.
Qed.

Lemma split_exact L row x y z s d v i ps pieces :
  Evaluate L row x = Ok (vStr s) -> Evaluate L row y = Ok (vStr d) -> Evaluate L row z = Ok v -> whole v i ->
  d <> [] -> len s < 2 ^ 31 -> occurrences s d ps -> s = joined d pieces -> len pieces = len ps + 1 ->
  Evaluate L row (EFunction FSplit [x; y; z]) = Ok (vStr (split_piece d pieces i)).
Proof.
  intros X Y Z W D B OC E LE. unfold split_piece.
  pose proof (split_range L row x y z s d v i ps pieces X Y Z W D B OC E LE) as R. cbv zeta in R.
  assert (LD : 0 < len d) by (destruct d; [congruence|unfold len; cbn; lia]).
  assert (LP : length pieces <> 0%nat) by (unfold len in LE; lia).
  destruct pieces as [|p [|q rest]]; [cbn in LP; lia| |].
  - (* no delimiter *)
    rewrite R. cbn [joins len length]. replace (len (@nil BinNums.Z)) with 0 by reflexivity. replace ((1 <=? i) && (i <=? 0)) with false by lia. replace ((0 <=? i) && (i <? 0)) with false by lia.
    change (-1 <=? 0) with true. cbn [andb]. destruct p; match goal with |- context [if ?b then _ else _] => destruct b end; reflexivity.
  - destruct p as [|c p].
    + (* a delimiter at the beginning *)
      match type of LE with len ?l = _ => set (pieces := l) in * end. set (js := joins d pieces) in *.
      assert (LJ : length js = (length pieces - 1)%nat) by apply joins_length.
      assert (J0 : nth 0 js 0 = 0) by (unfold js, pieces; rewrite joins_cons by discriminate; reflexivity).
      pose proof (joins_increase d pieces D) as M. fold js in M.
      assert (JP : forall k, (0 < k < length js)%nat -> 0 < nth k js 0) by (intros k K; specialize (M 0%nat k ltac:(lia) ltac:(lia)); lia).
      assert (PP : 2 <= len pieces) by (clear; unfold pieces, len; cbn [length]; lia). assert (LL : len js = len pieces - 1) by (clear - LJ PP; unfold len in *; lia).
      rewrite R. clear R.
      destruct ((0 <=? i) && (i <? len pieces)) eqn:Q; cycle 1.
      { replace ((1 <=? i) && (i <=? len js)) with false by lia. replace ((0 <=? i) && (i <? len js)) with false by lia. reflexivity. }
      destruct (Z.eqb_spec i 1) as [-> |N1].
      * change ((1 <=? 1) && (1 <=? len js)) with (1 <=? len js). change ((0 <=? 1) && (1 <? len js)) with (1 <? len js). replace (1 <=? len js) with true by lia. change (Z.to_nat (1 - 1)) with 0%nat. rewrite J0. change (0 <=? 0) with true. cbn [andb].
        destruct (Z.ltb_spec 2 (len pieces)) as [H|H].
        -- replace (1 <? len js) with true by lia. change (Z.to_nat 1) with 1%nat. pose proof (JP 1%nat ltac:(unfold len in *; lia)) as P1. replace (nth 1 js 0 <=? 0) with false by lia.
           destruct (nth_piece d pieces 1 ltac:(unfold len in *; lia) D) as (A & B' & C & F). fold js in A, B', C, F. rewrite J0 in *. replace (1 <? length js)%nat with true in * by (unfold len in *; lia).
           unfold slice. rewrite E in *. replace ((0 <? 0) || (nth 1 js 0 <? 0) || (len (joined d pieces) <? nth 1 js 0)) with false by lia. cbn [bind NewValueExpression]. f_equal. f_equal. unfold vStr. f_equal. f_equal.
           change (joined d pieces) with (d ++ joined d (q :: rest)) in *. cbn [Z.to_nat skipn]. rewrite Z.sub_0_r. rewrite Z.add_0_l in *.
           rewrite <- F. rewrite skipn_app, skipn_all2 by (unfold len; lia). replace (Z.to_nat (len d) - length d)%nat with 0%nat by (unfold len; lia). cbn [app skipn].
           rewrite firstn_app. rewrite firstn_all2 by (unfold len in *; lia). f_equal. replace (Z.to_nat (nth 1 js 0 - len d)) with (Nat.sub (Z.to_nat (nth 1 js 0)) (Datatypes.length d)) by (unfold len; lia). reflexivity.
        -- replace (1 <? len js) with false by lia. reflexivity.
      * destruct (Z.eq_dec i 0) as [-> |N0].
        { change ((1 <=? 0) && (0 <=? len js)) with false. replace ((0 <=? 0) && (0 <? len js)) with true by lia. change (Z.to_nat 0) with 0%nat. rewrite J0. reflexivity. }
        replace ((1 <=? i) && (i <=? len js)) with true by lia.
        pose proof (JP (Z.to_nat (i - 1)) ltac:(unfold len in *; lia)) as JF. replace (nth (Z.to_nat (i - 1)) js 0 <=? 0) with false by lia. cbn [andb].
        destruct (nth_piece d pieces (Z.to_nat i) ltac:(unfold len in *; lia) D) as (A & B' & C & F). fold js in A, B', C, F.
        assert (SI : Z.to_nat i = S (Z.to_nat (i - 1))) by lia. rewrite SI in A, B', C, F. cbv iota in A, B', C, F. rewrite <- SI in B', C, F.
        assert (HI : (if (if (0 <=? i) && (i <? len js) then nth (Z.to_nat i) js 0 else -1) <=? 0
                      then Some (nth (Z.to_nat (i - 1)) js 0 + len d, len s)
                      else Some (nth (Z.to_nat (i - 1)) js 0 + len d, if (0 <=? i) && (i <? len js) then nth (Z.to_nat i) js 0 else -1))
                   = Some (nth (Z.to_nat (i - 1)) js 0 + len d, if (Z.to_nat i <? length js)%nat then nth (Z.to_nat i) js 0 else len s)).
        { destruct ((0 <=? i) && (i <? len js)) eqn:Q2.
          - replace (Z.to_nat i <? length js)%nat with true by (unfold len in *; lia).
            pose proof (JP (Z.to_nat i) ltac:(unfold len in *; lia)). replace (nth (Z.to_nat i) js 0 <=? 0) with false by lia. reflexivity.
          - replace (Z.to_nat i <? length js)%nat with false by (unfold len in *; lia). reflexivity. }
        rewrite HI, E. set (lo := nth (Z.to_nat (i - 1)) js 0 + len d) in *.
        set (hi := if (Z.to_nat i <? length js)%nat then nth (Z.to_nat i) js 0 else len (joined d pieces)) in *.
        unfold slice. replace ((lo <? 0) || (hi <? lo) || (len (joined d pieces) <? hi)) with false by lia.
        cbn [bind NewValueExpression]. rewrite F. reflexivity.
    + rewrite (split_eval L row x y z s d v i ps ((c :: p) :: q :: rest) X Y Z W D B OC E LE); [|cbn; lia|discriminate]. reflexivity.
Qed.
