(** Lemmas about the shared vocabulary. *)
From Coq Require Import Lia ZifyBool ZifyNat.
From Verif Require Import Base.
Ltac Zify.zify_post_hook ::= Z.div_mod_to_equations.

Lemma be_put_length n x : length (be_put n x) = n.
Proof. induction n as [|k IH]; cbn [be_put length]; [reflexivity | rewrite IH; reflexivity]. Qed.

Lemma be_put_ok n x : bytes_ok (be_put n x).
Proof.
  induction n as [|k IH]; cbn [be_put]; constructor; [|exact IH].
  unfold is_u8. apply Z.mod_pos_bound. reflexivity.
Qed.

Lemma be_val_put n x : be_val (be_put n x) = x mod 2 ^ (8 * Z.of_nat n).
Proof.
  induction n as [|k IH]; cbn [be_put be_val].
  - change (8 * Z.of_nat 0) with 0. rewrite Z.mod_1_r. reflexivity.
  - rewrite IH. unfold len. rewrite be_put_length.
    replace (8 * Z.of_nat (S k)) with (8 * Z.of_nat k + 8) by lia.
    rewrite Z.pow_add_r by lia.
    set (p := 2 ^ (8 * Z.of_nat k)).
    assert (Hp : 0 < p) by (apply Z.pow_pos_nonneg; lia).
    change (2 ^ 8) with 256.
    rewrite (Z.rem_mul_r x p 256) by lia. lia.
Qed.

Lemma be_val_bound l : bytes_ok l -> 0 <= be_val l < 2 ^ (8 * len l).
Proof.
  induction 1 as [|b r Hb Hr IH]; cbn [be_val].
  - cbn. lia.
  - unfold len in *. cbn [length]. unfold is_u8 in Hb. change (2 ^ 8) with 256 in Hb.
    replace (8 * Z.of_nat (S (length r))) with (8 * Z.of_nat (length r) + 8) by lia.
    rewrite Z.pow_add_r by lia. change (2 ^ 8) with 256.
    set (p := 2 ^ (8 * Z.of_nat (length r))) in *.
    nia.
Qed.

Lemma be_put_val l : bytes_ok l -> be_put (length l) (be_val l) = l.
Proof.
  induction 1 as [|b r Hb Hr IH]; cbn [be_val be_put length]; [reflexivity|].
  pose proof (be_val_bound r Hr) as Hbd. unfold len in *.
  set (p := 2 ^ (8 * Z.of_nat (length r))) in *.
  unfold is_u8 in Hb. change (2 ^ 8) with 256 in *.
  f_equal.
  - rewrite Z.add_comm, Z.div_add by lia. rewrite Z.div_small by lia. apply Z.mod_small. lia.
  - transitivity (be_put (length r) (be_val r)); [|exact IH].
    clear IH. revert Hbd. generalize (be_val r) as v. intros v Hbd. subst p.
    assert (H : forall k, (k <= length r)%nat ->
       be_put k (b * 2 ^ (8 * Z.of_nat (length r)) + v) = be_put k v).
    { induction k as [|k IHk]; intros Hk; cbn [be_put]; [reflexivity|].
      f_equal; [|apply IHk; lia].
      replace (8 * Z.of_nat (length r)) with
        (8 * Z.of_nat k + 8 * (Z.of_nat (length r) - Z.of_nat k)) by lia.
      rewrite Z.pow_add_r by lia.
      set (q := 2 ^ (8 * Z.of_nat k)). assert (0 < q) by (apply Z.pow_pos_nonneg; lia).
      replace (8 * (Z.of_nat (length r) - Z.of_nat k)) with
        (8 * (Z.of_nat (length r) - Z.of_nat k - 1) + 8) by lia.
      rewrite Z.pow_add_r by lia. change (2 ^ 8) with 256.
      set (m := 2 ^ (8 * (Z.of_nat (length r) - Z.of_nat k - 1))).
      replace (b * (q * (m * 256)) + v) with (v + (b * m * 256) * q) by lia.
      rewrite Z.div_add by lia. rewrite Z.mod_add by lia. reflexivity. }
    apply H. lia.
Qed.

Lemma be_get_put n x rest : be_get n (be_put n x ++ rest) = Ok (x mod 2 ^ (8 * Z.of_nat n)).
Proof.
  unfold be_get. rewrite app_length, be_put_length.
  destruct (Nat.ltb_spec (n + length rest) n); [lia|].
  rewrite firstn_app, be_put_length, Nat.sub_diag. cbn [firstn].
  rewrite app_nil_r, firstn_all2 by (rewrite be_put_length; lia).
  rewrite be_val_put. reflexivity.
Qed.

Lemma be_get_ok n l : (n <= length l)%nat -> be_get n l = Ok (be_val (firstn n l)).
Proof. unfold be_get. intros H. destruct (Nat.ltb_spec (length l) n); [lia|reflexivity]. Qed.

Lemma be_get_panic n l : (length l < n)%nat -> be_get n l = Panic.
Proof. unfold be_get. intros H. destruct (Nat.ltb_spec (length l) n); [reflexivity|lia]. Qed.

Lemma u64_small x : is_u64 x -> u64 x = x.
Proof. unfold is_u64, u64. intros. apply Z.mod_small. assumption. Qed.
Lemma u32_small x : is_u32 x -> u32 x = x.
Proof. unfold is_u32, u32. intros. apply Z.mod_small. assumption. Qed.
Lemma i32_small x : is_i32 x -> i32 x = x.
Proof. unfold is_i32, i32. intros. rewrite Z.mod_small; lia. Qed.
Lemma i64_small x : is_i64 x -> i64 x = x.
Proof. unfold is_i64, i64. intros. rewrite Z.mod_small; lia. Qed.
Lemma u64_range x : is_u64 (u64 x).
Proof. unfold is_u64, u64. apply Z.mod_pos_bound. reflexivity. Qed.
Lemma u32_range x : is_u32 (u32 x).
Proof. unfold is_u32, u32. apply Z.mod_pos_bound. reflexivity. Qed.
Lemma i64_range x : is_i64 (i64 x).
Proof. unfold is_i64, i64. lia. Qed.
Lemma i32_range x : is_i32 (i32 x).
Proof. unfold is_i32, i32. lia. Qed.

Lemma bytes_ok_app l1 l2 : bytes_ok (l1 ++ l2) <-> bytes_ok l1 /\ bytes_ok l2.
Proof. apply Forall_app. Qed.

Lemma len_app {A} (l1 l2 : list A) : len (l1 ++ l2) = len l1 + len l2.
Proof. unfold len. rewrite app_length. lia. Qed.
Lemma len_nonneg {A} (l : list A) : 0 <= len l.
Proof. unfold len. lia. Qed.
