(** * C72: laws of byte orders and of the permutations of bits *)

From Coq Require Import ZArith List Bool Lia.
Import ListNotations.
From Verif Require Import M_Prim M_Words M_Intr M_UintApi M_IntApi M_Ops Spec Spec_Bits Spec_ByteLaws P_Words P_ByteLaws T_Base.
Open Scope Z_scope.

(** C72, U256: writing in one byte order and reading in the other swaps the bytes. *)
Theorem C72_u256_orders : forall c x,
  wf_u x ->
  u_from_be_bytes c (u_to_le_bytes c x) = u_swap_bytes x /\
  u_from_le_bytes c (u_to_be_bytes c x) = u_swap_bytes x /\
  u_to_be_bytes c (u_swap_bytes x) = u_to_le_bytes c x /\
  u_to_le_bytes c (u_swap_bytes x) = u_to_be_bytes c x /\
  u_to_be_bytes c x = rev (u_to_le_bytes c x) /\
  u_from_be c (u_to_be c x) = x /\ u_from_le c (u_to_le c x) = x /\
  u_to_be c (u_from_be c x) = x /\ u_to_le c (u_from_le c x) = x /\
  u_to_be c (u_to_le c x) = u_swap_bytes x.
Proof. exact u_order_laws. Qed.
Print Assumptions C72_u256_orders.

Example C72_u256_orders_case : let x := uof devB (258) in wf_u x /\
  u_from_be_bytes devB (u_to_le_bytes devB x) = uof devB (513 * 2 ^ 240) /\ x <> u_swap_bytes x.
Proof. split; [apply wf_uof|]. split; [vm_compute; reflexivity|]. vm_compute. discriminate. Qed.

(** C72, U256: shifts and rotations by whole bytes move the bytes. *)
Theorem C72_u256_moves : forall c x k,
  wf_u x -> (k < 32)%nat -> exists l r p q,
  u_wrapping_shl c x (8 * Z.of_nat k) = Ret l /\ u_to_be_bytes c l = push_back k 0 (u_to_be_bytes c x) /\
  u_wrapping_shr c x (8 * Z.of_nat k) = Ret r /\ u_to_be_bytes c r = push_front k 0 (u_to_be_bytes c x) /\
  u_rotate_left c x (8 * Z.of_nat k) = Ret p /\ u_to_be_bytes c p = turn k (u_to_be_bytes c x) /\
  u_rotate_right c x (8 * Z.of_nat k) = Ret q /\ u_to_be_bytes c q = turn (32 - k) (u_to_be_bytes c x).
Proof. exact u_byte_moves. Qed.
Print Assumptions C72_u256_moves.

Example C72_u256_moves_case : let x := uof relL (2 ^ 248) in let r := uof relL (2 ^ 232) in
  u_wrapping_shr relL x (8 * Z.of_nat 2) = Ret r /\ u_to_be_bytes relL x = [1] ++ repeat 0 31 /\
  u_to_be_bytes relL r = [0; 0; 1] ++ repeat 0 29.
Proof. split; [vm_compute; reflexivity|]. split; vm_compute; reflexivity. Qed.

(** C72, U256: the bitwise operators act byte by byte. *)
Theorem C72_u256_logic : forall c x y,
  wf_u x -> wf_u y ->
  u_to_be_bytes c (u_op_and x y) = bytewise Z.land (u_to_be_bytes c x) (u_to_be_bytes c y) /\
  u_to_be_bytes c (u_op_or x y) = bytewise Z.lor (u_to_be_bytes c x) (u_to_be_bytes c y) /\
  u_to_be_bytes c (u_op_xor x y) = bytewise Z.lxor (u_to_be_bytes c x) (u_to_be_bytes c y) /\
  u_to_be_bytes c (u_op_not x) = map (fun b => 255 - b) (u_to_be_bytes c x).
Proof. exact u_byte_logic. Qed.
Print Assumptions C72_u256_logic.

Example C72_u256_logic_case :
  u_to_be_bytes mixB (u_op_xor (uof mixB 65535) (uof mixB 4080)) = repeat 0 30 ++ [240; 15] /\
  u_to_be_bytes mixB (u_op_not (uof mixB 1)) = repeat 255 31 ++ [254].
Proof. split; vm_compute; reflexivity. Qed.

(** C72, U256: swap_bytes, reverse_bits and the rotations keep the number of ones, commute as permutations do, and distribute over the bitwise operators. *)
Theorem C72_u256_permutations : forall c x y n k,
  wf_u x -> wf_u y -> 0 <= n <= 256 -> (k <= 32)%nat ->
  u_count_ones c (u_swap_bytes x) = u_count_ones c x /\ u_count_ones c (u_reverse_bits x) = u_count_ones c x /\
  (let! r := u_rotate_left c x n in u_count_ones c r) = u_count_ones c x /\
  (let! r := u_rotate_right c x n in u_count_ones c r) = u_count_ones c x /\
  u_swap_bytes (u_reverse_bits x) = u_reverse_bits (u_swap_bytes x) /\
  (let! r := u_rotate_left c x (8 * Z.of_nat k) in Ret (u_swap_bytes r)) = u_rotate_right c (u_swap_bytes x) (8 * Z.of_nat k) /\
  (let! r := u_rotate_left c x n in Ret (u_reverse_bits r)) = u_rotate_right c (u_reverse_bits x) n /\
  u_swap_bytes (u_op_and x y) = u_op_and (u_swap_bytes x) (u_swap_bytes y) /\
  u_swap_bytes (u_op_or x y) = u_op_or (u_swap_bytes x) (u_swap_bytes y) /\
  u_swap_bytes (u_op_xor x y) = u_op_xor (u_swap_bytes x) (u_swap_bytes y) /\
  u_swap_bytes (u_op_not x) = u_op_not (u_swap_bytes x) /\
  u_reverse_bits (u_op_and x y) = u_op_and (u_reverse_bits x) (u_reverse_bits y) /\
  u_reverse_bits (u_op_or x y) = u_op_or (u_reverse_bits x) (u_reverse_bits y) /\
  u_reverse_bits (u_op_xor x y) = u_op_xor (u_reverse_bits x) (u_reverse_bits y) /\
  u_reverse_bits (u_op_not x) = u_op_not (u_reverse_bits x).
Proof. exact u_permutation_laws. Qed.
Print Assumptions C72_u256_permutations.

Example C72_u256_permutations_case : let x := uof dev (6) in wf_u x /\
  u_count_ones dev (u_swap_bytes x) = Ret 2 /\ u_swap_bytes x <> x /\
  u_swap_bytes (u_reverse_bits x) <> x.
Proof. split; [apply wf_uof|]. split; [vm_compute; reflexivity|]. split; vm_compute; discriminate. Qed.

(** C72, I256: writing in one byte order and reading in the other swaps the bytes. *)
Theorem C72_i256_orders : forall c x,
  wf_i x ->
  i_from_be_bytes c (i_to_le_bytes c x) = i_swap_bytes x /\
  i_from_le_bytes c (i_to_be_bytes c x) = i_swap_bytes x /\
  i_to_be_bytes c (i_swap_bytes x) = i_to_le_bytes c x /\
  i_to_le_bytes c (i_swap_bytes x) = i_to_be_bytes c x /\
  i_to_be_bytes c x = rev (i_to_le_bytes c x) /\
  i_from_be c (i_to_be c x) = x /\ i_from_le c (i_to_le c x) = x /\
  i_to_be c (i_from_be c x) = x /\ i_to_le c (i_from_le c x) = x /\
  i_to_be c (i_to_le c x) = i_swap_bytes x.
Proof. exact i_order_laws. Qed.
Print Assumptions C72_i256_orders.

Example C72_i256_orders_case : let x := iof devB (-258) in wf_i x /\
  i_from_be_bytes devB (i_to_le_bytes devB x) = iof devB (65278 * 2 ^ 240 + (2 ^ 240 - 1)) /\ x <> i_swap_bytes x.
Proof. split; [apply wf_iof|]. split; [vm_compute; reflexivity|]. vm_compute. discriminate. Qed.

(** C72, I256: shifts and rotations by whole bytes move the bytes. *)
Theorem C72_i256_moves : forall c x k,
  wf_i x -> (k < 32)%nat -> exists l r p q,
  i_wrapping_shl c x (8 * Z.of_nat k) = Ret l /\ i_to_be_bytes c l = push_back k 0 (i_to_be_bytes c x) /\
  i_wrapping_shr c x (8 * Z.of_nat k) = Ret r /\ i_to_be_bytes c r = push_front k (if i_is_negative c x then 255 else 0) (i_to_be_bytes c x) /\
  i_rotate_left c x (8 * Z.of_nat k) = Ret p /\ i_to_be_bytes c p = turn k (i_to_be_bytes c x) /\
  i_rotate_right c x (8 * Z.of_nat k) = Ret q /\ i_to_be_bytes c q = turn (32 - k) (i_to_be_bytes c x).
Proof. exact i_byte_moves. Qed.
Print Assumptions C72_i256_moves.

Example C72_i256_moves_case : let x := iof relL (- 2 ^ 255) in let r := iof relL (- 2 ^ 239) in
  i_wrapping_shr relL x (8 * Z.of_nat 2) = Ret r /\ i_to_be_bytes relL x = [128] ++ repeat 0 31 /\
  i_to_be_bytes relL r = [255; 255; 128] ++ repeat 0 29.
Proof. split; [vm_compute; reflexivity|]. split; vm_compute; reflexivity. Qed.

(** C72, I256: the bitwise operators act byte by byte. *)
Theorem C72_i256_logic : forall c x y,
  wf_i x -> wf_i y ->
  i_to_be_bytes c (i_op_and x y) = bytewise Z.land (i_to_be_bytes c x) (i_to_be_bytes c y) /\
  i_to_be_bytes c (i_op_or x y) = bytewise Z.lor (i_to_be_bytes c x) (i_to_be_bytes c y) /\
  i_to_be_bytes c (i_op_xor x y) = bytewise Z.lxor (i_to_be_bytes c x) (i_to_be_bytes c y) /\
  i_to_be_bytes c (i_op_not x) = map (fun b => 255 - b) (i_to_be_bytes c x).
Proof. exact i_byte_logic. Qed.
Print Assumptions C72_i256_logic.

Example C72_i256_logic_case :
  i_to_be_bytes mixB (i_op_xor (iof mixB 65535) (iof mixB 4080)) = repeat 0 30 ++ [240; 15] /\
  i_to_be_bytes mixB (i_op_not (iof mixB 1)) = repeat 255 31 ++ [254].
Proof. split; vm_compute; reflexivity. Qed.

(** C72, I256: swap_bytes, reverse_bits and the rotations keep the number of ones, commute as permutations do, and distribute over the bitwise operators. *)
Theorem C72_i256_permutations : forall c x y n k,
  wf_i x -> wf_i y -> 0 <= n <= 256 -> (k <= 32)%nat ->
  i_count_ones c (i_swap_bytes x) = i_count_ones c x /\ i_count_ones c (i_reverse_bits x) = i_count_ones c x /\
  (let! r := i_rotate_left c x n in i_count_ones c r) = i_count_ones c x /\
  (let! r := i_rotate_right c x n in i_count_ones c r) = i_count_ones c x /\
  i_swap_bytes (i_reverse_bits x) = i_reverse_bits (i_swap_bytes x) /\
  (let! r := i_rotate_left c x (8 * Z.of_nat k) in Ret (i_swap_bytes r)) = i_rotate_right c (i_swap_bytes x) (8 * Z.of_nat k) /\
  (let! r := i_rotate_left c x n in Ret (i_reverse_bits r)) = i_rotate_right c (i_reverse_bits x) n /\
  i_swap_bytes (i_op_and x y) = i_op_and (i_swap_bytes x) (i_swap_bytes y) /\
  i_swap_bytes (i_op_or x y) = i_op_or (i_swap_bytes x) (i_swap_bytes y) /\
  i_swap_bytes (i_op_xor x y) = i_op_xor (i_swap_bytes x) (i_swap_bytes y) /\
  i_swap_bytes (i_op_not x) = i_op_not (i_swap_bytes x) /\
  i_reverse_bits (i_op_and x y) = i_op_and (i_reverse_bits x) (i_reverse_bits y) /\
  i_reverse_bits (i_op_or x y) = i_op_or (i_reverse_bits x) (i_reverse_bits y) /\
  i_reverse_bits (i_op_xor x y) = i_op_xor (i_reverse_bits x) (i_reverse_bits y) /\
  i_reverse_bits (i_op_not x) = i_op_not (i_reverse_bits x).
Proof. exact i_permutation_laws. Qed.
Print Assumptions C72_i256_permutations.

Example C72_i256_permutations_case : let x := iof dev (-6) in wf_i x /\
  i_count_ones dev (i_swap_bytes x) = Ret 254 /\ i_swap_bytes x <> x /\
  i_swap_bytes (i_reverse_bits x) <> x.
Proof. split; [apply wf_iof|]. split; [vm_compute; reflexivity|]. split; vm_compute; discriminate. Qed.

