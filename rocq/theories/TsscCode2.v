(** Adaptive coding along a history of commands (C22). *)
From stdpp Require Import list.
From Coq Require Import Lia ZArith ZifyBool ZifyNat.
From Verif Require Import Base BaseProofs FormatModel FormatProofs TsscModel TsscSpec TsscCode.
Open Scope Z_scope.
Ltac Zify.zify_post_hook ::= Z.div_mod_to_equations.

(** ** Histories *)
Lemma total_bits_app s a b : total_bits s (a ++ b) = total_bits s a + total_bits s b.
Proof. induction a as [|x a IH]; cbn; [reflexivity|]. fold (total_bits s (a ++ b)) (total_bits s a). lia. Qed.

Lemma zsum_set l i v : (i < length l)%nat ->
  zsum (firstn i l ++ v :: skipn (S i) l) = zsum l - nth i l 0 + v.
Proof.
  revert i. induction l as [|a l IH]; intros i Hi; cbn in Hi; [lia|].
  destruct i as [|i].
  { change (v + zsum l = a + zsum l - a + v). lia. }
  change (a + zsum (firstn i l ++ v :: skipn (S i) l) = zsum (a :: l) - nth i l 0 + v).
  rewrite IH by lia. cbn. fold (zsum l). lia.
Qed.
Lemma freq_set l i v x : (i < length l)%nat ->
  freq (firstn i l ++ v :: skipn (S i) l) x = if x =? Z.of_nat i then v else freq l x.
Proof.
  intros Hi. unfold freq. destruct (x <? 0) eqn:E0; [destruct (x =? Z.of_nat i) eqn:E; [lia|reflexivity]|].
  destruct (x =? Z.of_nat i) eqn:E.
  - replace (Z.to_nat x) with i by lia. rewrite app_nth2; rewrite take_length; [|lia].
    replace (i - i `min` length l)%nat with 0%nat by lia. reflexivity.
  - destruct (Nat.lt_ge_cases (Z.to_nat x) i) as [G|G].
    + rewrite app_nth1 by (rewrite take_length; lia).
      rewrite <- (firstn_skipn i l) at 2. rewrite app_nth1 by (rewrite take_length; lia). reflexivity.
    + rewrite app_nth2; rewrite take_length; [|lia].
      replace (Z.to_nat x - i `min` length l)%nat with (S (Z.to_nat x - S i)) by lia. cbn [nth].
      rewrite <- (firstn_skipn (S i) l) at 2. rewrite app_nth2; rewrite take_length; [|lia]. f_equal. lia.
Qed.

(** [seg]: the commands counted since the coding last changed. *)
Record coder_ok (c : coder) (seg : list Z) : Prop := {
  k_len : length (commandStats c) = 32%nat;
  k_nn : Forall (fun y => 0 <= y) (commandStats c);
  k_sum : zsum (commandStats c) = len seg;
  k_sent : commandsSentSinceLastChange c = len seg;
  k_cost : forall short, (length short <= 3)%nat -> stat_cost short (commandStats c) = total_bits short seg;
  k_codes : codes_ok c;
  k_start : startupMode c = 0 \/ startupMode c = 1 \/ startupMode c = 2;
  k_seg : (length seg < segment (Z.to_nat (startupMode c)))%nat }.

Lemma freq_repeat n x : freq (repeat 0 n) x = 0.
Proof.
  unfold freq. destruct (x <? 0); [reflexivity|]. generalize (Z.to_nat x). induction n as [|n IH]; intros [|k]; cbn; auto.
Qed.
Lemma zsum_repeat n : zsum (repeat 0 n) = 0.
Proof. induction n as [|n IH]; cbn; [reflexivity|]. exact IH. Qed.
Lemma cost_zero short n : (length short <= 3)%nat -> stat_cost short (repeat 0 n) = 0.
Proof.
  intros H. destruct short as [|x [|y [|z [|w s]]]]; cbn [stat_cost]; [..|cbn in H; lia]; rewrite zsum_repeat, ?freq_repeat; try lia.
  - destruct (y =? x); lia.
  - destruct (y =? x), (z =? x), (z =? y); cbn [orb]; lia.
Qed.

Lemma coder_ok_fresh c :
  commandStats c = repeat 0 32 -> commandsSentSinceLastChange c = 0 -> codes_ok c ->
  (startupMode c = 0 \/ startupMode c = 1 \/ startupMode c = 2) -> coder_ok c [].
Proof.
  intros H1 H2 H3 H4. split; rewrite ?H1; auto.
  - cbn. repeat (constructor; [lia|]). constructor.
  - intros short Hs. apply cost_zero. exact Hs.
  - cbn [length]. destruct H4 as [H4|[H4|H4]]; rewrite H4; apply Nat.ltb_lt; reflexivity.
Qed.
Lemma newCoder_ok : coder_ok newCoder [].
Proof.
  apply coder_ok_fresh; try reflexivity; [|left; reflexivity].
  unfold codes_ok, is_code, newCoder, Value1, Value2, Value3. cbn [mode mode21 mode31 mode301 mode41 mode401 mode4001]. lia.
Qed.

Lemma stat_cost_add l code l' short : (length short <= 3)%nat ->
  zsum l' = zsum l + 1 -> (forall x, freq l' x = freq l x + if x =? code then 1 else 0) ->
  stat_cost short l' = stat_cost short l + code_len short code.
Proof.
  intros H Hz Hf. destruct short as [|x [|y [|z [|w s]]]]; cbn [stat_cost code_len]; [..|cbn in H; lia]; rewrite Hz, ?Hf.
  - lia.
  - rewrite (Z.eqb_sym code x). destruct (x =? code); lia.
  - rewrite (Z.eqb_sym code x), (Z.eqb_sym code y).
    destruct (Z.eqb_spec y x), (Z.eqb_spec x code), (Z.eqb_spec y code); subst; lia.
  - rewrite (Z.eqb_sym code x), (Z.eqb_sym code y), (Z.eqb_sym code z).
    destruct (Z.eqb_spec y x), (Z.eqb_spec z x), (Z.eqb_spec z y), (Z.eqb_spec x code), (Z.eqb_spec y code), (Z.eqb_spec z code);
      subst; cbn [orb]; try lia; congruence.
Qed.

Lemma segment_le n : (segment n <= 101)%nat.
Proof. destruct n as [|[|n]]; cbn [segment]; lia. Qed.

(** One command: the coding either stays as it is, or (at the end of a segment)
    becomes a cheapest one for the segment. *)
Lemma updated_ok c seg code :
  coder_ok c seg -> is_code code ->
  exists c', updatedCodeStatistics c code = Ok c' /\
    if (length seg + 1 =? segment (Z.to_nat (startupMode c)))%nat
    then coder_ok c' [] /\ startupMode c' = Z.min 2 (startupMode c + 1) /\
         forall short, (length short <= 3)%nat -> total_bits (shorts c') (seg ++ [code]) <= total_bits short (seg ++ [code])
    else coder_ok c' (seg ++ [code]) /\ startupMode c' = startupMode c /\ shorts c' = shorts c.
Proof.
  intros [Hlen Hnn Hsum Hsent Hcost Hcodes Hst Hseg] Hcode.
  unfold updatedCodeStatistics. cbv zeta. unfold is_code in Hcode.
  assert (L : len (commandStats c) = 32) by (unfold len; rewrite Hlen; reflexivity).
  assert (Hseg' : (length seg <= 100)%nat) by (pose proof (segment_le (Z.to_nat (startupMode c))); lia).
  assert (F1 : freq (commandStats c) code <= zsum (commandStats c)) by (apply freq_total; assumption).
  assert (F0 : 0 <= freq (commandStats c) code) by (apply freq_nonneg; assumption).
  assert (LS : len seg = Z.of_nat (length seg)) by reflexivity.
  assert (FE : nth (Z.to_nat code) (commandStats c) 0 = freq (commandStats c) code).
  { unfold freq. destruct (code <? 0) eqn:E; [lia|reflexivity]. }
  assert (I : idx (commandStats c) code = Ok (freq (commandStats c) code)).
  { rewrite <- (Z2Nat.id code) at 1 by lia. apply idx_ok. rewrite <- FE. apply nth_error_nth'. lia. }
  rewrite I. cbn [bind].
  assert (U : u8 (freq (commandStats c) code + 1) = freq (commandStats c) code + 1).
  { unfold u8. rewrite Z.mod_small; lia. }
  rewrite U.
  set (v := freq (commandStats c) code + 1) in *.
  set (l' := firstn (Z.to_nat code) (commandStats c) ++ v :: skipn (S (Z.to_nat code)) (commandStats c)).
  assert (UP : upd (commandStats c) code v = Ok l').
  { rewrite <- (Z2Nat.id code) at 1 by lia. apply upd_ok. lia. }
  rewrite UP. cbn [bind].
  assert (L' : length l' = 32%nat).
  { subst l'. rewrite app_length, take_length. cbn [length]. rewrite skipn_length. lia. }
  assert (NN' : Forall (fun y => 0 <= y) l').
  { subst l'. apply Forall_app; split; [apply Forall_take; assumption|].
    constructor; [lia|]. apply Forall_drop. assumption. }
  assert (SUM' : zsum l' = zsum (commandStats c) + 1).
  { subst l'. rewrite zsum_set by lia. rewrite FE. lia. }
  assert (FR : forall x, freq l' x = freq (commandStats c) x + if x =? code then 1 else 0).
  { intros x. subst l'. rewrite freq_set by lia. rewrite Z2Nat.id by lia.
    destruct (Z.eqb_spec x code); [subst x; lia|lia]. }
  assert (COST' : forall short, (length short <= 3)%nat -> stat_cost short l' = total_bits short (seg ++ [code])).
  { intros short Hs. rewrite (stat_cost_add (commandStats c) code l') by assumption.
    rewrite total_bits_app, Hcost by assumption. cbn. lia. }
  rewrite Hsent. rewrite (i32_id (len seg + 1)) by lia.
  assert (AD : forall st, (st = 0 \/ st = 1 \/ st = 2) -> exists c',
     adaptCommands (mkCoder l' (len seg + 1) (mode c) (mode21 c) (mode31 c) (mode301 c) (mode41 c) (mode401 c) (mode4001 c) st) = Ok c' /\
     coder_ok c' [] /\ startupMode c' = st /\
     forall short, (length short <= 3)%nat -> total_bits (shorts c') (seg ++ [code]) <= total_bits short (seg ++ [code])).
  { intros st Hst'.
    destruct (adaptCommands_best (mkCoder l' (len seg + 1) (mode c) (mode21 c) (mode31 c) (mode301 c) (mode41 c) (mode401 c) (mode4001 c) st))
      as (c' & A1 & A2 & A3 & A4 & A5 & A6); cbn [commandStats]; try assumption; [lia|].
    cbn [commandStats startupMode] in *.
    exists c'. split; [assumption|]. split; [apply coder_ok_fresh; auto; rewrite A5; exact Hst'|]. split; [assumption|].
    intros short Hs. rewrite <- !COST'; auto. unfold shorts. destruct (mode c' =? 1), (mode c' =? 2), (mode c' =? 3); cbn; lia. }
  assert (KEEP : (length seg + 1 =? segment (Z.to_nat (startupMode c)))%nat = false ->
    coder_ok (mkCoder l' (len seg + 1) (mode c) (mode21 c) (mode31 c) (mode301 c) (mode41 c) (mode401 c) (mode4001 c) (startupMode c)) (seg ++ [code])).
  { intros NE. split; cbn [commandStats commandsSentSinceLastChange startupMode]; auto.
    - rewrite SUM', len_app. change (len [code]) with 1. lia.
    - rewrite len_app. change (len [code]) with 1. lia.
    - rewrite app_length. cbn [length]. lia. }
  cbn [startupMode]. unfold set_startup.
  cbn [commandStats commandsSentSinceLastChange mode mode21 mode31 mode301 mode41 mode401 mode4001 startupMode].
  destruct Hst as [H|[H|H]]; rewrite H in *; cbn [Z.eqb andb Pos.eqb];
    [change (segment (Z.to_nat 0)) with 6%nat in *|change (segment (Z.to_nat 1)) with 21%nat in *|change (segment (Z.to_nat 2)) with 101%nat in *].
  - destruct (5 <? len seg + 1) eqn:E.
    + replace (length seg + 1 =? 6)%nat with true by lia.
      change (i32 (0 + 1)) with 1. destruct (AD 1 ltac:(auto)) as (c' & D1 & D2 & D3 & D4).
      exists c'. split; [exact D1|]. split; [exact D2|]. split; [exact D3|exact D4].
    + replace (length seg + 1 =? 6)%nat with false in * by lia.
      eexists. split; [reflexivity|]. split; [apply KEEP; reflexivity|]. split; reflexivity.
  - destruct (20 <? len seg + 1) eqn:E.
    + replace (length seg + 1 =? 21)%nat with true by lia.
      change (i32 (1 + 1)) with 2. destruct (AD 2 ltac:(auto)) as (c' & D1 & D2 & D3 & D4).
      exists c'. split; [exact D1|]. split; [exact D2|]. split; [exact D3|exact D4].
    + replace (length seg + 1 =? 21)%nat with false in * by lia.
      eexists. split; [reflexivity|]. split; [apply KEEP; reflexivity|]. split; reflexivity.
  - destruct (100 <? len seg + 1) eqn:E.
    + replace (length seg + 1 =? 101)%nat with true by lia.
      destruct (AD 2 ltac:(auto)) as (c' & D1 & D2 & D3 & D4).
      exists c'. split; [exact D1|]. split; [exact D2|]. split; [exact D3|exact D4].
    + replace (length seg + 1 =? 101)%nat with false in * by lia.
      eexists. split; [reflexivity|]. split; [apply KEEP; reflexivity|]. split; reflexivity.
Qed.

(** Histories up to a segment boundary. *)
Lemma history_app c a b : code_history c (a ++ b) = let* c' := code_history c a in code_history c' b.
Proof.
  revert c. induction a as [|x a IH]; intros c; cbn; [reflexivity|].
  destruct (updatedCodeStatistics c x) as [c'| |]; cbn; [apply IH|reflexivity|reflexivity].
Qed.

Lemma history_within c seg codes :
  coder_ok c seg -> Forall is_code codes ->
  (length seg + length codes < segment (Z.to_nat (startupMode c)))%nat ->
  exists c', code_history c codes = Ok c' /\ coder_ok c' (seg ++ codes) /\ startupMode c' = startupMode c /\ shorts c' = shorts c.
Proof.
  revert c seg. induction codes as [|x codes IH]; intros c seg Hc Hx Hlen.
  - exists c. rewrite app_nil_r. split; [reflexivity|]. auto.
  - inversion Hx as [|? ? Hx1 Hx2]; subst. cbn [length] in Hlen.
    destruct (updated_ok c seg x Hc Hx1) as (c1 & U & V).
    replace (length seg + 1 =? segment (Z.to_nat (startupMode c)))%nat with false in V by lia.
    destruct V as (V1 & V2 & V3).
    destruct (IH c1 (seg ++ [x]) V1 Hx2) as (c' & W1 & W2 & W3 & W4).
    { rewrite V2, app_length. cbn [length]. lia. }
    exists c'. cbn [code_history]. rewrite U. cbn [bind]. split; [exact W1|].
    rewrite <- app_assoc in W2. split; [exact W2|]. rewrite W3, W4. auto.
Qed.

Lemma history_segment c codes :
  coder_ok c [] -> Forall is_code codes -> length codes = segment (Z.to_nat (startupMode c)) ->
  exists c', code_history c codes = Ok c' /\ coder_ok c' [] /\ startupMode c' = Z.min 2 (startupMode c + 1) /\ forall short, (length short <= 3)%nat -> total_bits (shorts c') codes <= total_bits short codes.
Proof.
  intros Hc Hx Hlen.
  destruct (exists_last (l := codes)) as (l & x & E).
  { intros ->. cbn in Hlen. destruct (Z.to_nat (startupMode c)) as [|[|]]; discriminate. }
  subst codes. rewrite app_length in Hlen. cbn [length] in Hlen.
  apply Forall_app in Hx as [Hl Hx]. inversion Hx as [|? ? Hx1 _]; subst.
  destruct (history_within c [] l Hc Hl) as (c1 & H1 & H2 & H3 & H4); [cbn [length]; lia|]. cbn [app] in H2.
  destruct (updated_ok c1 l x H2 Hx1) as (c' & U & V).
  rewrite H3 in V. replace (length l + 1 =? segment (Z.to_nat (startupMode c)))%nat with true in V by lia.
  destruct V as (V1 & V2 & V3).
  exists c'. rewrite history_app, H1. cbn [bind code_history]. rewrite U. cbn [bind]. auto.
Qed.

Lemma history_boundary n codes :
  Forall is_code codes -> length codes = boundary n ->
  exists c, code_history newCoder codes = Ok c /\ coder_ok c [] /\ startupMode c = Z.min 2 (Z.of_nat n).
Proof.
  revert codes. induction n as [|n IH]; intros codes Hx Hlen.
  - cbn in Hlen. destruct codes; [|discriminate]. exists newCoder. split; [reflexivity|]. split; [apply newCoder_ok|reflexivity].
  - cbn [boundary] in Hlen.
    destruct (IH (firstn (boundary n) codes)) as (c & H1 & H2 & H3).
    { apply Forall_take. exact Hx. }
    { rewrite take_length. lia. }
    destruct (history_segment c (skipn (boundary n) codes)) as (c' & K1 & K2 & K3 & _).
    { exact H2. }
    { apply Forall_drop. exact Hx. }
    { rewrite skipn_length, H3. destruct n as [|[|n]]; cbn [segment] in *.
      - change (Z.to_nat _) with 0%nat. cbn [segment]. lia.
      - change (Z.to_nat _) with 1%nat. cbn [segment]. lia.
      - replace (Z.to_nat (Z.min 2 (Z.of_nat (S (S n))))) with 2%nat by lia. cbn [segment]. lia. }
    exists c'. rewrite <- (firstn_skipn (boundary n) codes), history_app, H1. cbn [bind].
    split; [exact K1|]. split; [exact K2|]. rewrite K3, H3. lia.
Qed.

Lemma segment_min n : segment (Z.to_nat (Z.min 2 (Z.of_nat n))) = segment n.
Proof.
  destruct n as [|[|n]]; [reflexivity|reflexivity|].
  replace (Z.to_nat (Z.min 2 (Z.of_nat (S (S n))))) with 2%nat by lia. reflexivity.
Qed.

(** Every history is a boundary plus a part of the next segment. *)
Lemma history_any codes : Forall is_code codes ->
  exists c seg, code_history newCoder codes = Ok c /\ coder_ok c seg.
Proof.
  induction codes as [|x l IH] using rev_ind; intros H.
  - exists newCoder, []. split; [reflexivity|apply newCoder_ok].
  - apply Forall_app in H as [Hl Hx]. inversion Hx as [|? ? Hx1 _]; subst.
    destruct (IH Hl) as (c & seg & H1 & H2).
    destruct (updated_ok c seg x H2 Hx1) as (c' & U & V).
    exists c', (if (length seg + 1 =? segment (Z.to_nat (startupMode c)))%nat then [] else seg ++ [x]).
    rewrite history_app, H1. cbn [bind code_history]. rewrite U. split; [reflexivity|].
    destruct (length seg + 1 =? segment (Z.to_nat (startupMode c)))%nat; apply V.
Qed.

(** C22, in terms of histories. *)
Lemma adapt_optimal n pre seg :
  Forall is_code (pre ++ seg) -> length pre = boundary n -> length seg = segment n ->
  exists c, code_history newCoder (pre ++ seg) = Ok c /\ forall short, (length short <= 3)%nat -> total_bits (shorts c) seg <= total_bits short seg.
Proof.
  intros Hx Hp Hs. apply Forall_app in Hx as [Hx1 Hx2].
  destruct (history_boundary n pre Hx1 Hp) as (c & H1 & H2 & H3).
  destruct (history_segment c seg H2 Hx2) as (c' & K1 & _ & _ & K4).
  { rewrite H3, segment_min. exact Hs. }
  exists c'. rewrite history_app, H1. cbn [bind]. split; [exact K1|exact K4].
Qed.
Lemma adapt_stable n pre part :
  Forall is_code (pre ++ part) -> length pre = boundary n -> (length part < segment n)%nat ->
  exists c c', code_history newCoder pre = Ok c /\ code_history newCoder (pre ++ part) = Ok c' /\ shorts c' = shorts c.
Proof.
  intros Hx Hp Hs. apply Forall_app in Hx as [Hx1 Hx2].
  destruct (history_boundary n pre Hx1 Hp) as (c & H1 & H2 & H3).
  destruct (history_within c [] part H2 Hx2) as (c' & K1 & K2 & K3 & K4).
  { rewrite H3, segment_min. cbn [length]. exact Hs. }
  exists c, c'. rewrite history_app, H1. cbn [bind]. auto.
Qed.
Lemma coder_counters codes c :
  Forall is_code codes -> code_history newCoder codes = Ok c ->
  0 <= commandsSentSinceLastChange c <= 100 /\ Forall (fun n => 0 <= n <= 100) (commandStats c) /\ zsum (commandStats c) = commandsSentSinceLastChange c.
Proof.
  intros Hx H. destruct (history_any codes Hx) as (c' & seg & H1 & H2). rewrite H in H1.
  assert (c' = c) by congruence. subst c'. destruct H2 as [Hlen Hnn Hsum Hsent Hcost Hcodes Hst Hseg].
  pose proof (segment_le (Z.to_nat (startupMode c))) as SL.
  unfold len in *. split; [lia|]. split; [|lia].
  apply Forall_forall. intros y Hy.
  destruct (In_nth _ _ 0 Hy) as (k & Hk & E).
  pose proof (freq_total (commandStats c) (Z.of_nat k) Hnn) as F. pose proof (freq_nonneg (commandStats c) (Z.of_nat k) Hnn) as G.
  unfold freq in F, G. replace (Z.of_nat k <? 0) with false in F, G by lia. rewrite Nat2Z.id, E in *. lia.
Qed.
