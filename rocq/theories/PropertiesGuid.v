(** Property theorems for sttp/guid (C04, C05). *)
From Coq Require Import Lia.
From Verif Require Import Base BaseProofs GuidModel GuidSpec GuidProofs GuidMemModel GuidMemProofs.

(** C04: Compare is the sign of the lexicographic comparison of the 16 bytes,
    equivalently of the 128-bit big-endian numbers. *)
Theorem C04_compare_is_lexicographic : forall a b : guid,
  guid_ok a -> guid_ok b ->
  Compare a b = sign_of (lex a b) /\ Compare a b = sign_of (be_val a ?= be_val b).
Proof.
  exact (fun a b Ha Hb => conj (Compare_lex a b Ha Hb)
    (eq_trans (Compare_lex a b Ha Hb) (f_equal sign_of (eq_sym
      (be_val_lex a b (proj2 Ha) (proj2 Hb) (eq_trans (proj1 Ha) (eq_sym (proj1 Hb)))))))).
Qed.
Print Assumptions C04_compare_is_lexicographic.

Theorem C04_compare_total_order : forall a b c : guid,
  guid_ok a -> guid_ok b -> guid_ok c ->
  (Compare a b = 0 <-> a = b) /\
  Compare b a = - Compare a b /\
  (Compare a b = -1 \/ Compare a b = 0 \/ Compare a b = 1) /\
  (Compare a b <= 0 -> Compare b c <= 0 -> Compare a c <= 0).
Proof. exact Compare_total_order. Qed.
Print Assumptions C04_compare_total_order.

Theorem C04_equal_iff : forall a b : guid, Equal a b = true <-> a = b.
Proof. exact bytes_eqb_spec. Qed.
Print Assumptions C04_equal_iff.

(** The empty Guid: sixteen zero bytes, the only one IsZero accepts, below all others. *)
Theorem C04_empty : guid_ok Empty /\
  forall g : guid, guid_ok g -> (IsZero g = true <-> Forall (eq 0) g) /\ Compare Empty g <= 0.
Proof. exact (conj Empty_ok (fun g H => conj (IsZero_iff g H) (Empty_least g H))). Qed.
Print Assumptions C04_empty.

Definition g1 : guid := [1;2;3;4;5;6;7;8;9;10;11;12;13;14;15;16].
Definition g2 : guid := [1;2;3;4;5;6;7;8;9;10;11;12;13;14;15;17].
Example C04_nonvacuous : guid_ok g1 /\ guid_ok g2 /\ Compare g1 g2 = -1.
Proof.
  unfold guid_ok, bytes_ok, g1, g2, is_u8. repeat split; repeat constructor; lia.
Qed.

(** C05 *)
Theorem C05_bytes_round_trip : forall (g : guid) (swap : bool) (rest : bytes),
  length g = 16%nat -> FromBytes (ToBytes g swap ++ rest) swap = Ok g.
Proof. exact FromBytes_ToBytes. Qed.
Print Assumptions C05_bytes_round_trip.

Theorem C05_opposite_order_swaps_fields : forall (g : guid) (swap : bool) (rest : bytes),
  length g = 16%nat ->
  FromBytes (ToBytes g swap ++ rest) (negb swap) = Ok (swap_fields g) /\
  swap_fields (swap_fields g) = g.
Proof. exact (fun g sw r H => conj (FromBytes_ToBytes_other g sw r H) (swap_fields_invol g H)). Qed.
Print Assumptions C05_opposite_order_swaps_fields.

Theorem C05_error_iff_short : forall (data : bytes) (swap : bool),
  (16 <= len data -> FromBytes data swap =
     Ok (if swap then swap_fields (firstn 16 data) else firstn 16 data)) /\
  (len data < 16 -> FromBytes data swap = Err).
Proof. exact FromBytes_cases. Qed.
Print Assumptions C05_error_iff_short.

(** Statement by statement over memory: FromBytes reads what the slice contains and
    changes no slice, also not the one it is given. *)
Theorem C05_argument_unmodified : forall h s swap, (g_array s < length h)%nat -> in_heap h s ->
  exists h', FromBytesMem h s swap = Ok (h', FromBytes (contents h s) swap) /\
    forall t, (g_array t < length h)%nat -> contents h' t = contents h t.
Proof. exact from_bytes_memory. Qed.
Print Assumptions C05_argument_unmodified.

(** The bytes ToBytes returns are the caller's own: writing to them changes nothing else. *)
Theorem C05_result_owned : forall h g swap, length g = 16%nat ->
  exists h' s, ToBytesMem h g swap = Ok (h', s) /\ contents h' s = ToBytes g swap /\
    (forall t, (g_array t < length h)%nat -> contents h' t = contents h t) /\
    (forall i v, (i < 16)%nat -> exists h'', save h' s i v = Ok h'' /\
       forall t, (g_array t < length h)%nat -> contents h'' t = contents h t).
Proof. exact to_bytes_memory. Qed.
Print Assumptions C05_result_owned.

Example C05_memory_nonvacuous :
  let h := [[7; 7] ++ g1 ++ [9]] in let s := GSlice 0 2 17 in
  in_heap h s /\ contents h s = g1 ++ [9] /\
  FromBytesMem h s true = Ok (h ++ [[4;3;2;1;6;5;8;7;9;10;11;12;13;14;15;16]], Ok [4;3;2;1;6;5;8;7;9;10;11;12;13;14;15;16]).
Proof. cbv zeta. split; [unfold in_heap; cbn; lia|]. split; reflexivity. Qed.

Example C05_nonvacuous :
  ToBytes g1 true = [4;3;2;1;6;5;8;7;9;10;11;12;13;14;15;16] /\
  FromBytes (ToBytes g1 true ++ [99]) true = Ok g1 /\ FromBytes [1;2;3] false = Err.
Proof. repeat split. Qed.
