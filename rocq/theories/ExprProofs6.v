(** UTF-8, Reverse and Split (C59). *)
From Coq Require Import Lia ZifyBool ZifyNat QArith String Permutation.
From Verif Require Import Base BaseProofs GuidModel GuidSpec GuidProofs FormatModel StrModel CalModel NumModel ExprModel ExprSpec ExprProofs ExprPanic StrProofs ExprPanic2 ExprProofs2 ExprProofs3 ExprProofs5.
Close Scope Q_scope.
Open Scope list_scope.
Open Scope Z_scope.

(** ** UTF-8 *)
Lemma decode_encode r rest : valid_rune r = true -> decode (encode_rune r ++ rest) = (r, encode_rune r) :: decode rest.
Proof.
  intros V. unfold encode_rune. rewrite V. cbn [negb]. unfold valid_rune in V.
  destruct (r <? 128) eqn:R1.
  { cbn [app decode]. rewrite R1. reflexivity. }
  destruct (r <? 2048) eqn:R2.
  { pose proof (Z.div_mod r 64 ltac:(lia)). pose proof (Z.mod_pos_bound r 64 ltac:(lia)).
    set (q := r / 64) in *. set (m := r mod 64) in *. cbn [app decode].
    replace (192 + q <? 128) with false by lia. replace ((194 <=? 192 + q) && (192 + q <=? 223)) with true by lia.
    unfold is_cont. replace ((128 <=? 128 + m) && (128 + m <=? 191)) with true by lia.
    repeat f_equal; lia. }
  destruct (r <? 65536) eqn:R3.
  { pose proof (Z.div_mod r 64 ltac:(lia)). pose proof (Z.mod_pos_bound r 64 ltac:(lia)).
    replace (r / 4096) with (r / 64 / 64) by (rewrite Z.div_div by lia; reflexivity).
    set (q := r / 64) in *. set (m := r mod 64) in *.
    pose proof (Z.div_mod q 64 ltac:(lia)). pose proof (Z.mod_pos_bound q 64 ltac:(lia)).
    set (q2 := q / 64) in *. set (m2 := q mod 64) in *. cbn [app decode].
    replace (224 + q2 <? 128) with false by lia. replace ((194 <=? 224 + q2) && (224 + q2 <=? 223)) with false by lia.
    replace ((224 <=? 224 + q2) && (224 + q2 <=? 239)) with true by lia.
    unfold is_cont.
    match goal with |- (if ?c then _ else _) = _ => replace c with true end.
    - repeat f_equal; lia.
    - symmetry. destruct (224 + q2 =? 224) eqn:A; destruct (224 + q2 =? 237) eqn:B; lia. }
  { pose proof (Z.div_mod r 64 ltac:(lia)). pose proof (Z.mod_pos_bound r 64 ltac:(lia)).
    replace (r / 4096) with (r / 64 / 64) by (rewrite Z.div_div by lia; reflexivity).
    replace (r / 262144) with (r / 64 / 64 / 64) by (rewrite !Z.div_div by lia; reflexivity).
    set (q := r / 64) in *. set (m := r mod 64) in *.
    pose proof (Z.div_mod q 64 ltac:(lia)). pose proof (Z.mod_pos_bound q 64 ltac:(lia)).
    set (q2 := q / 64) in *. set (m2 := q mod 64) in *.
    pose proof (Z.div_mod q2 64 ltac:(lia)). pose proof (Z.mod_pos_bound q2 64 ltac:(lia)).
    set (q3 := q2 / 64) in *. set (m3 := q2 mod 64) in *. cbn [app decode].
    replace (240 + q3 <? 128) with false by lia. replace ((194 <=? 240 + q3) && (240 + q3 <=? 223)) with false by lia.
    replace ((224 <=? 240 + q3) && (240 + q3 <=? 239)) with false by lia.
    replace ((240 <=? 240 + q3) && (240 + q3 <=? 244)) with true by lia.
    unfold is_cont.
    match goal with |- (if ?c then _ else _) = _ => replace c with true end.
    - repeat f_equal; lia.
    - symmetry. destruct (240 + q3 =? 240) eqn:A; destruct (240 + q3 =? 244) eqn:B; lia. }
Qed.
Lemma decode_runes rs : Forall (fun r => valid_rune r = true) rs ->
  decode (encode_runes rs) = map (fun r => (r, encode_rune r)) rs.
Proof.
  induction 1 as [|r rs V _ IH]; [reflexivity|]. cbn [encode_runes flat_map map].
  rewrite decode_encode by exact V. f_equal. exact IH.
Qed.
Lemma runes_encode rs : Forall (fun r => valid_rune r = true) rs -> runes_of (encode_runes rs) = rs.
Proof. intros V. unfold runes_of. rewrite decode_runes by exact V. rewrite map_map. apply map_id. Qed.

Lemma reverse_eval L row x rs : Evaluate L row x = Ok (vStr (encode_runes rs)) -> Forall (fun r => valid_rune r = true) rs ->
  Evaluate L row (EFunction FReverse [x]) = Ok (vStr (encode_runes (rev rs))).
Proof.
  intros X V. unfold Evaluate. cbn [evaluateAs map evaluateFunction].
  rewrite (Evaluate_as _ _ _ VString _ X) by discriminate. cbn [bind]. unfold fn_reverse, fn_string_map.
  cbn [is_str vStr ve_type vtype_eqb negb IsNull ve_value stringValue bind NewValueExpression].
  rewrite runes_encode by exact V. reflexivity.
Qed.
Lemma reverse_twice L row x s : Evaluate L row x = Ok (vStr s) -> utf8 s ->
  Evaluate L row (EFunction FReverse [EFunction FReverse [x]]) = Ok (vStr s).
Proof.
  intros X (rs & V & ->).
  assert (V' : Forall (fun r => valid_rune r = true) (rev rs)) by (apply Forall_rev, V).
  rewrite (reverse_eval L row (EFunction FReverse [x]) (rev rs)); [rewrite rev_involutive; reflexivity| |exact V'].
  apply reverse_eval; assumption.
Qed.

(** ** Split *)
Fixpoint joins (d : bytes) (pieces : list bytes) : list Z :=
  match pieces with
  | [] => []
  | [_] => []
  | p :: rest => len p :: map (fun q => q + (len p + len d)) (joins d rest)
  end.
Lemma joins_cons d p rest : rest <> [] -> joins d (p :: rest) = len p :: map (fun q => q + (len p + len d)) (joins d rest).
Proof. destruct rest; [congruence|reflexivity]. Qed.
Lemma joins_length d pieces : length (joins d pieces) = (length pieces - 1)%nat.
Proof.
  induction pieces as [|p rest IH]; [reflexivity|]. destruct rest as [|q rest]; [reflexivity|].
  rewrite joins_cons by discriminate. cbn [length]. rewrite map_length, IH. cbn. lia.
Qed.
Lemma joins_occur d pieces i : In i (joins d pieces) -> occurs_at (joined d pieces) d i.
Proof.
  revert i. induction pieces as [|p rest IH]; [intros i []|]. destruct rest as [|q rest]; [intros i []|].
  intros i. rewrite joins_cons, joined_cons by discriminate. intros [<-|I].
  - exists p, (joined d (q :: rest)). auto.
  - apply in_map_iff in I as (j & <- & I). apply IH in I as (u & v & E & U). rewrite E.
    exists (p ++ d ++ u), v. split; [rewrite !app_assoc; reflexivity|]. unfold len in *. rewrite !app_length. lia.
Qed.
Lemma joins_nonneg d pieces i : In i (joins d pieces) -> 0 <= i.
Proof. intros I. apply joins_occur, occurs_nonneg in I. lia. Qed.
Lemma joins_increase d pieces : d <> [] -> forall j k, (j < k)%nat -> (k < length (joins d pieces))%nat ->
  nth j (joins d pieces) 0 < nth k (joins d pieces) 0.
Proof.
  intros D. assert (LD : 0 < len d) by (destruct d; [congruence|unfold len; cbn; lia]).
  induction pieces as [|p rest IH]; [cbn; lia|]. destruct rest as [|q rest]; [cbn; lia|].
  rewrite joins_cons by discriminate. intros j k J K. cbn [length] in K. rewrite map_length in K.
  destruct k as [|k]; [lia|]. cbn [nth]. rewrite nth_map_lt by lia.
  assert (P : 0 <= nth k (joins d (q :: rest)) 0) by (apply (joins_nonneg d (q :: rest)), nth_In; lia).
  destruct j as [|j]; cbn [nth]; [lia|]. rewrite nth_map_lt by lia. specialize (IH j k). lia.
Qed.
Lemma increasing_nodup (l : list Z) : (forall j k, (j < k)%nat -> (k < length l)%nat -> nth j l 0 < nth k l 0) -> NoDup l.
Proof.
  intros M. apply (NoDup_nth l 0). intros i j I J E.
  destruct (Nat.lt_trichotomy i j) as [H|[H|H]]; [|exact H|]; exfalso.
  - specialize (M i j). lia.
  - specialize (M j i). lia.
Qed.
Lemma joins_occurrences d pieces ps : d <> [] -> occurrences (joined d pieces) d ps -> len pieces = len ps + 1 ->
  occurrences (joined d pieces) d (joins d pieces).
Proof.
  intros D [I M] LE. split; [|apply joins_increase, D].
  intros i. split; [apply joins_occur|].
  assert (Inc : incl ps (joins d pieces)).
  { apply NoDup_length_incl.
    - apply increasing_nodup, joins_increase, D.
    - rewrite joins_length. unfold len in LE. lia.
    - intros j J. apply I, joins_occur, J. }
  intros O. apply Inc, I, O.
Qed.

Lemma nth_piece d pieces i : (i < length pieces)%nat -> d <> [] ->
  let js := joins d pieces in let s := joined d pieces in
  let lo := match i with O => 0 | S k => nth k js 0 + len d end in
  let hi := if (i <? length js)%nat then nth i js 0 else len s in
  0 <= lo /\ lo <= hi /\ hi <= len s /\ firstn (Z.to_nat (hi - lo)) (skipn (Z.to_nat lo) s) = nth i pieces [].
Proof.
  intros H D. cbv zeta. assert (LD : 0 < len d) by (destruct d; [congruence|unfold len; cbn; lia]).
  revert i H. induction pieces as [|p rest IH]; intros i H; [cbn in H; lia|].
  destruct rest as [|q rest].
  - cbn in H. assert (i = 0)%nat by lia. subst i. cbn [joins joined length nth].
    change ((0 <? 0)%nat) with false. cbv iota. repeat split; unfold len; try lia. cbn [skipn Z.to_nat].
    rewrite Z.sub_0_r, Nat2Z.id. apply firstn_all.
  - rewrite joins_cons, joined_cons by discriminate. set (rs := q :: rest) in *. set (js := joins d rs) in *.
    assert (LJ : length js = (length rs - 1)%nat) by apply joins_length.
    destruct i as [|i].
    + cbn [length nth Nat.ltb Nat.leb]. repeat split; try (unfold len; rewrite ?app_length; lia).
      cbn [skipn Z.to_nat]. rewrite Z.sub_0_r. unfold len. rewrite Nat2Z.id.
      rewrite firstn_app, firstn_all, Nat.sub_diag, firstn_O, app_nil_r. reflexivity.
    + cbn [length] in H. specialize (IH i ltac:(lia)). destruct IH as (A & B & C & E).
      cbn [nth length]. rewrite map_length.
      change (S i <? S (length js))%nat with (i <? length js)%nat.
      set (lo' := match i with O => 0 | S k => nth k js 0 + len d end) in *.
      set (hi' := if (i <? length js)%nat then nth i js 0 else len (joined d rs)) in *.
      assert (LO : match i with O => len p | S m => nth m (map (fun q0 => q0 + (len p + len d)) js) 0 end + len d = lo' + (len p + len d)).
      { unfold lo'. destruct i as [|k]; [lia|]. rewrite nth_map_lt by lia. lia. }
      assert (HI : (if (i <? length js)%nat then nth i (map (fun q0 => q0 + (len p + len d)) js) 0 else len (p ++ d ++ joined d rs)) = hi' + (len p + len d)).
      { unfold hi'. destruct (Nat.ltb_spec i (length js)); [rewrite nth_map_lt by lia; lia|]. unfold len. rewrite !app_length. lia. }
      rewrite LO, HI. repeat split; try (unfold len in *; rewrite ?app_length; lia).
      rewrite <- E. replace (hi' + (len p + len d) - (lo' + (len p + len d))) with (hi' - lo') by lia. f_equal.
      replace (Z.to_nat (lo' + (len p + len d))) with (length (p ++ d) + Z.to_nat lo')%nat by (rewrite app_length; unfold len in *; lia).
      rewrite app_assoc, skipn_app. rewrite skipn_all2 by lia. cbn [app]. f_equal. lia.
Qed.

Lemma split_eval L row x y z s d v i ps pieces :
  Evaluate L row x = Ok (vStr s) -> Evaluate L row y = Ok (vStr d) -> Evaluate L row z = Ok v -> whole v i ->
  d <> [] -> len s < 2 ^ 31 -> occurrences s d ps -> s = joined d pieces -> len pieces = len ps + 1 ->
  (2 <= length pieces)%nat -> nth 0 pieces [] <> [] ->
  Evaluate L row (EFunction FSplit [x; y; z]) =
    Ok (vStr (if (0 <=? i) && (i <? len pieces) then nth (Z.to_nat i) pieces [] else [])).
Proof.
  intros X Y Z W D B OC -> LE P2 P0. unfold Evaluate. cbn [evaluateAs map evaluateFunction].
  destruct (whole_value v i (-1) W) as (IV & IT & IN & I64 & NN).
  rewrite (Evaluate_as _ _ _ VString _ X) by discriminate. rewrite (Evaluate_as _ _ _ VString _ Y) by discriminate.
  rewrite (Evaluate_as _ _ _ VInt32 _ Z) by exact NN. cbn [bind].
  unfold fn_split. cbn [is_str vStr ve_type vtype_eqb negb IsNull ve_value]. rewrite IT. cbn [negb].
  fold (IsNull v). rewrite IN. rewrite (ic_value L (NullValue VBoolean) false) by auto. cbn [bind stringValue ve_value vStr].
  rewrite IV. cbn [bind fold_if]. unfold splitNthIndex.
  pose proof (joins_occurrences d pieces ps D OC LE) as OJ. set (js := joins d pieces) in *.
  assert (LJ : length js = (length pieces - 1)%nat) by apply joins_length.
  assert (I1 : is_i64 (i64 (i - 1))) by (unfold i64, is_i64; pose proof (Z.mod_pos_bound (i - 1 + 2 ^ 63) (2 ^ 64)); lia).
  rewrite (find_nth _ d _ js OJ D I1 B), (find_nth _ d i js OJ D I64 B). cbn [bind].
  assert (J0 : 0 < nth 0 js 0).
  { unfold js. destruct pieces as [|p [|q rest]]; cbn in P2; try lia. rewrite joins_cons by discriminate. cbn [nth] in *.
    destruct p; [congruence|unfold len; cbn; lia]. }
  assert (JP : forall k, (k < length js)%nat -> 0 < nth k js 0).
  { intros k K. destruct k as [|k]; [exact J0|]. destruct OJ as [_ M]. specialize (M 0%nat (S k)). lia. }
  assert (F : nth_occurrence js (i64 (i - 1)) = if (1 <=? i) && (i <=? len js) then nth (Z.to_nat (i - 1)) js 0 else -1).
  { unfold nth_occurrence. pose proof (occ_bound _ _ _ OJ). unfold is_i64 in I64.
    destruct (Z.eq_dec i (- 2 ^ 63)) as [-> |N].
    - change (i64 (- 2 ^ 63 - 1)) with (2 ^ 63 - 1). replace (2 ^ 63 - 1 <? len js) with false by lia. reflexivity.
    - rewrite i64_id by (unfold is_i64; lia). destruct ((1 <=? i) && (i <=? len js)) eqn:Q.
      + replace ((0 <=? i - 1) && (i - 1 <? len js)) with true by lia. reflexivity.
      + replace ((0 <=? i - 1) && (i - 1 <? len js)) with false by lia. reflexivity. }
  rewrite F. unfold nth_occurrence.
  assert (LL : len js = len pieces - 1) by (unfold len; lia).
  destruct ((0 <=? i) && (i <? len pieces)) eqn:Q.
  - destruct (nth_piece d pieces (Z.to_nat i) ltac:(unfold len in *; lia) D) as (A & B' & C & E). fold js in A, B', C, E.
    destruct (Z.eq_dec i 0) as [-> |N].
    + cbn [Z.leb andb Z.compare Z.ltb Z.to_nat]. change (1 <=? 0) with false. cbn [andb].
      replace (0 <? len js) with true by (unfold len in *; lia). replace (nth 0 js 0 <=? 0) with false by lia.
      change (0 <=? 0) with true. change (-1 <=? 0) with true. cbn [andb].
      cbn [Z.to_nat] in *. replace (0 <? length js)%nat with true in * by lia.
      unfold slice. replace ((0 <? 0) || (nth 0 js 0 <? 0) || (len (joined d pieces) <? nth 0 js 0)) with false by lia.
      cbn [bind NewValueExpression Z.to_nat] in *. rewrite E. reflexivity.
    + replace ((1 <=? i) && (i <=? len js)) with true by lia.
      assert (SI : Z.to_nat i = S (Z.to_nat (i - 1))) by lia. 
      pose proof (JP (Z.to_nat (i - 1)) ltac:(unfold len in *; lia)) as JF.
      replace (nth (Z.to_nat (i - 1)) js 0 <=? 0) with false by lia. cbn [andb].
      rewrite SI in A, B', C, E. cbv iota in A, B', C, E. rewrite <- SI in B', C, E.
      assert (HI : (if (if (0 <=? i) && (i <? len js) then nth (Z.to_nat i) js 0 else -1) <=? 0
                    then Some (nth (Z.to_nat (i - 1)) js 0 + len d, len (joined d pieces))
                    else Some (nth (Z.to_nat (i - 1)) js 0 + len d, if (0 <=? i) && (i <? len js) then nth (Z.to_nat i) js 0 else -1))
                 = Some (nth (Z.to_nat (i - 1)) js 0 + len d, if (Z.to_nat i <? length js)%nat then nth (Z.to_nat i) js 0 else len (joined d pieces))).
      { destruct ((0 <=? i) && (i <? len js)) eqn:Q2.
        - replace (Z.to_nat i <? length js)%nat with true by (unfold len in *; lia).
          pose proof (JP (Z.to_nat i) ltac:(unfold len in *; lia)). replace (nth (Z.to_nat i) js 0 <=? 0) with false by lia. reflexivity.
        - replace (Z.to_nat i <? length js)%nat with false by (unfold len in *; lia). reflexivity. }
      rewrite HI. set (lo := nth (Z.to_nat (i - 1)) js 0 + len d) in *.
      set (hi := if (Z.to_nat i <? length js)%nat then nth (Z.to_nat i) js 0 else len (joined d pieces)) in *.
      unfold slice. replace ((lo <? 0) || (hi <? lo) || (len (joined d pieces) <? hi)) with false by lia.
      cbn [bind NewValueExpression]. rewrite E. reflexivity.
  - replace ((1 <=? i) && (i <=? len js)) with false by lia. replace ((0 <=? i) && (i <? len js)) with false by lia.
    reflexivity.
Qed.
