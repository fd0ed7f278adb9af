(** * C19 - C24, C46: rotations, bit counting, byte order, comparison, hashing, bitwise operators *)

From Coq Require Import ZArith String List Bool Lia.
Import ListNotations.
From Verif Require Import M_Prim M_Words M_Intr M_Ops M_UintApi M_IntApi Spec Spec_Bits P_BitsApi P_Count P_Bytes T_Base.
Open Scope Z_scope.

(** C19: rotations, for amounts up to 256 in every build and for every u32 amount
    when overflow checks are off or with the llvm intrinsics (missing: larger amounts with overflow checks and
    the native intrinsics, for
    which the claim is false, see below). *)
Theorem C19_rotation_partial : forall c x y n,
  wf_u x -> wf_i y -> 0 <= n < 2 ^ 32 ->
  llvm c = true \/ overflow_checks c = false \/ n <= 256 ->
  (exists r, u_rotate_left c x n = Ret r /\ wf_u r /\ u_rotate_right c r n = Ret x /\
     forall i, 0 <= i < 256 -> Z.testbit (uval c r) i = Z.testbit (uval c x) ((i - n) mod 256)) /\
  (exists r, u_rotate_right c x n = Ret r /\ wf_u r /\ u_rotate_left c r n = Ret x /\
     forall i, 0 <= i < 256 -> Z.testbit (uval c r) i = Z.testbit (uval c x) ((i + n) mod 256)) /\
  (exists r, i_rotate_left c y n = Ret r /\ wf_i r /\ i_rotate_right c r n = Ret y /\
     forall i, 0 <= i < 256 -> Z.testbit (ival c r) i = Z.testbit (ival c y) ((i - n) mod 256)) /\
  (exists r, i_rotate_right c y n = Ret r /\ wf_i r /\ i_rotate_left c r n = Ret y /\
     forall i, 0 <= i < 256 -> Z.testbit (ival c r) i = Z.testbit (ival c y) ((i + n) mod 256)).
Proof. exact rotation_family. Qed.
Print Assumptions C19_rotation_partial.

Example C19_case : wf_u (uof dev (2 ^ 255 + 1)) /\ wf_i (iof dev (-2)) /\
  u_rotate_left dev (uof dev (2 ^ 255 + 1)) 2 = Ret (uof dev 6) /\
  i_rotate_right dev (iof dev (-2)) 1 = Ret (iof dev MAXI) /\
  u_rotate_left rel (uof rel 1) 258 = Ret (uof rel 4) /\ u_rotate_right devL (uof devL 1) 511 = Ret (uof devL 2).
Proof. vm_compute. intuition congruence. Qed.

(** C19 claims that rotations never panic.  With overflow checks and the native
    intrinsics they do, for every value and every amount above 256. *)

(** The refutation: *)
Theorem C19_rotation_refuted : forall c x y n,
  wf_u x -> wf_i y -> llvm c = false -> overflow_checks c = true -> 256 < n < 2 ^ 32 ->
  Forall (eq (Panic "attempt to subtract with overflow")) [u_rotate_left c x n; u_rotate_right c x n] /\
  Forall (eq (Panic "attempt to subtract with overflow")) [i_rotate_left c y n; i_rotate_right c y n].
Proof. exact rotation_panics. Qed.
Print Assumptions C19_rotation_refuted.

Example C19_refuted_case : wf_u (uof dev 1) /\ wf_i (iof dev 1) /\ llvm dev = false /\ overflow_checks dev = true /\ 256 < 257 < 2 ^ 32 /\
  u_rotate_left dev (uof dev 1) 257 = Panic "attempt to subtract with overflow".
Proof. vm_compute. intuition congruence. Qed.

(** C20: population count; [ones 256 v] counts the set bits among bits 0 .. 255. *)
Theorem C20_count_ones : forall c x y,
  wf_u x -> wf_i y ->
  u_count_ones c x = Ret (ones 256 (uval c x)) /\ u_count_zeros c x = Ret (256 - ones 256 (uval c x)) /\
  i_count_ones c y = Ret (ones 256 (ival c y)) /\ i_count_zeros c y = Ret (256 - ones 256 (ival c y)).
Proof. exact count_family. Qed.
Print Assumptions C20_count_ones.

Example C20_count_case : wf_u (uof dev (2 ^ 200 + 7)) /\ wf_i (iof dev (-8)) /\
  u_count_ones dev (uof dev (2 ^ 200 + 7)) = Ret 4 /\ i_count_zeros devB (iof devB (-8)) = Ret 3.
Proof. vm_compute. intuition congruence. Qed.

(** C20: leading and trailing runs. *)
Theorem C20_runs : forall c x y,
  wf_u x -> wf_i y ->
  (exists k, u_leading_zeros c x = Ret k /\ run_top false (uval c x) k) /\
  (exists k, u_leading_ones c x = Ret k /\ run_top true (uval c x) k) /\
  (exists k, u_trailing_zeros c x = Ret k /\ run_bottom false (uval c x) k) /\
  (exists k, u_trailing_ones c x = Ret k /\ run_bottom true (uval c x) k) /\
  (exists k, i_leading_zeros c y = Ret k /\ run_top false (ival c y) k) /\
  (exists k, i_leading_ones c y = Ret k /\ run_top true (ival c y) k) /\
  (exists k, i_trailing_zeros c y = Ret k /\ run_bottom false (ival c y) k) /\
  (exists k, i_trailing_ones c y = Ret k /\ run_bottom true (ival c y) k).
Proof. exact runs_family. Qed.
Print Assumptions C20_runs.

Example C20_runs_case : wf_u (uof dev (2 ^ 200)) /\ wf_i (iof dev (-8)) /\
  u_leading_zeros dev (uof dev (2 ^ 200)) = Ret 55 /\ u_trailing_zeros dev (uof dev (2 ^ 200)) = Ret 200 /\
  i_leading_ones dev (iof dev (-8)) = Ret 253 /\ u_trailing_zeros dev (uof dev 0) = Ret 256 /\
  i_trailing_ones dev (iof dev (-1)) = Ret 256.
Proof. vm_compute. intuition congruence. Qed.

(** C20: a run length is unique, so the counts above are determined. *)
Theorem C20_run_unique : forall v k k',
  (forall b, run_top b v k -> run_top b v k' -> k = k') /\ (forall b, run_bottom b v k -> run_bottom b v k' -> k = k').
Proof. exact run_unique. Qed.
Print Assumptions C20_run_unique.

Example C20_unique_case : run_top false 5 253 /\ run_bottom true 5 1.
Proof.
  split; (split; [lia|split]).
  - intros i Hi. apply Z.bits_above_log2; [lia|]. change (Z.log2 5) with 2. lia.
  - reflexivity.
  - intros i Hi. replace i with 0 by lia. reflexivity.
  - reflexivity.
Qed.

(** C21: reverse_bits and swap_bytes. *)
Theorem C21_permutations : forall c x y,
  wf_u x -> wf_i y ->
  (wf_u (u_reverse_bits x) /\ u_reverse_bits (u_reverse_bits x) = x /\
   forall i, 0 <= i < 256 -> Z.testbit (uval c (u_reverse_bits x)) i = Z.testbit (uval c x) (255 - i)) /\
  (wf_u (u_swap_bytes x) /\ u_swap_bytes (u_swap_bytes x) = x /\
   forall i, 0 <= i < 32 -> byte (uval c (u_swap_bytes x)) i = byte (uval c x) (31 - i)) /\
  (wf_i (i_reverse_bits y) /\ i_reverse_bits (i_reverse_bits y) = y /\
   forall i, 0 <= i < 256 -> Z.testbit (ival c (i_reverse_bits y)) i = Z.testbit (ival c y) (255 - i)) /\
  (wf_i (i_swap_bytes y) /\ i_swap_bytes (i_swap_bytes y) = y /\
   forall i, 0 <= i < 32 -> byte (ival c (i_swap_bytes y)) i = byte (ival c y) (31 - i)).
Proof. exact permutation_family. Qed.
Print Assumptions C21_permutations.

Example C21_case : wf_u (uof dev 1) /\ wf_i (iof dev 1) /\
  u_reverse_bits (uof dev 1) = uof dev (2 ^ 255) /\ i_reverse_bits (iof dev 1) = iof dev MINI /\
  u_swap_bytes (uof dev 1) = uof dev (2 ^ 248) /\ u_swap_bytes (uof devB 1) = uof devB (2 ^ 248).
Proof. vm_compute. intuition congruence. Qed.

(** C21: conversions to and from a given byte order. *)
Theorem C21_endian : forall c x y,
  (if big_endian c then u_to_be c x = x /\ u_from_be c x = x /\
                        u_to_le c x = u_swap_bytes x /\ u_from_le c x = u_swap_bytes x
   else u_to_le c x = x /\ u_from_le c x = x /\
        u_to_be c x = u_swap_bytes x /\ u_from_be c x = u_swap_bytes x) /\
  (if big_endian c then i_to_be c y = y /\ i_from_be c y = y /\
                        i_to_le c y = i_swap_bytes y /\ i_from_le c y = i_swap_bytes y
   else i_to_le c y = y /\ i_from_le c y = y /\
        i_to_be c y = i_swap_bytes y /\ i_from_be c y = i_swap_bytes y).
Proof. exact endian_family. Qed.
Print Assumptions C21_endian.

Example C21_endian_case : big_endian dev = false /\ big_endian devB = true /\
  u_to_be dev (uof dev 1) = uof dev (2 ^ 248) /\ u_to_be devB (uof devB 1) = uof devB 1.
Proof. vm_compute. intuition congruence. Qed.

(** C22: byte arrays of U256. *)
Theorem C22_u256_bytes : forall c x l,
  wf_u x -> is_bytes 32 l ->
  u_to_le_bytes c x = digits_le (uval c x) /\
  u_to_be_bytes c x = rev (digits_le (uval c x)) /\
  u_to_ne_bytes c x = (if big_endian c then u_to_be_bytes c x else u_to_le_bytes c x) /\
  u_from_le_bytes c l = uof c (value_le l) /\
  u_from_be_bytes c l = uof c (value_le (rev l)) /\
  u_from_ne_bytes c l = (if big_endian c then u_from_be_bytes c l else u_from_le_bytes c l) /\
  u_from_le_bytes c (u_to_le_bytes c x) = x /\ u_to_le_bytes c (u_from_le_bytes c l) = l /\
  u_from_be_bytes c (u_to_be_bytes c x) = x /\ u_to_be_bytes c (u_from_be_bytes c l) = l /\
  u_from_ne_bytes c (u_to_ne_bytes c x) = x /\ u_to_ne_bytes c (u_from_ne_bytes c l) = l.
Proof. exact u_bytes_family. Qed.
Print Assumptions C22_u256_bytes.

Example C22_u256_case : wf_u (uof dev (2 ^ 248 + 513)) /\
  is_bytes 32 (u_to_be_bytes dev (uof dev (2 ^ 248 + 513))) /\
  u_to_be_bytes dev (uof dev (2 ^ 248 + 513)) = 1 :: repeat 0 29 ++ [2; 1] /\
  u_to_ne_bytes dev (uof dev 513) = [1; 2] ++ repeat 0 30.
Proof. vm_compute. intuition (try congruence). repeat constructor; discriminate. Qed.

(** C22: byte arrays of I256 (two's complement). *)
Theorem C22_i256_bytes : forall c x l,
  wf_i x -> is_bytes 32 l ->
  i_to_le_bytes c x = digits_le (ival c x) /\
  i_to_be_bytes c x = rev (digits_le (ival c x)) /\
  i_to_ne_bytes c x = (if big_endian c then i_to_be_bytes c x else i_to_le_bytes c x) /\
  i_from_le_bytes c l = iof c (value_le l) /\
  i_from_be_bytes c l = iof c (value_le (rev l)) /\
  i_from_ne_bytes c l = (if big_endian c then i_from_be_bytes c l else i_from_le_bytes c l) /\
  i_from_le_bytes c (i_to_le_bytes c x) = x /\ i_to_le_bytes c (i_from_le_bytes c l) = l /\
  i_from_be_bytes c (i_to_be_bytes c x) = x /\ i_to_be_bytes c (i_from_be_bytes c l) = l /\
  i_from_ne_bytes c (i_to_ne_bytes c x) = x /\ i_to_ne_bytes c (i_from_ne_bytes c l) = l.
Proof. exact i_bytes_family. Qed.
Print Assumptions C22_i256_bytes.

Example C22_i256_case : wf_i (iof dev (-2)) /\ is_bytes 32 (i_to_le_bytes dev (iof dev (-2))) /\
  i_to_le_bytes dev (iof dev (-2)) = 254 :: repeat 255 31.
Proof. vm_compute. intuition (try congruence). repeat constructor; discriminate. Qed.

(** C23: comparison of U256. *)
Theorem C23_u256_cmp : forall c a b,
  wf_u a -> wf_u b -> let x := uval c a in let y := uval c b in
  u_cmp c a b = (x ?= y) /\ u_eq c a b = (x =? y) /\
  u_lt c a b = (x <? y) /\ u_le c a b = (x <=? y) /\ u_gt c a b = (y <? x) /\ u_ge c a b = (y <=? x) /\
  uval c (u_max c a b) = Z.max x y /\ uval c (u_min c a b) = Z.min x y /\ (a = b <-> x = y).
Proof. exact u_cmp_family. Qed.
Print Assumptions C23_u256_cmp.

Example C23_u256_case : wf_u (uof dev (2 ^ 128)) /\ wf_u (uof dev (2 ^ 128 - 1)) /\
  u_cmp dev (uof dev (2 ^ 128)) (uof dev (2 ^ 128 - 1)) = Gt /\ u_lt devB (uof devB 1) (uof devB (2 ^ 128)) = true.
Proof. vm_compute. intuition congruence. Qed.

(** C23: comparison of I256. *)
Theorem C23_i256_cmp : forall c a b,
  wf_i a -> wf_i b -> let x := ival c a in let y := ival c b in
  i_cmp c a b = (x ?= y) /\ i_eq c a b = (x =? y) /\
  i_lt c a b = (x <? y) /\ i_le c a b = (x <=? y) /\ i_gt c a b = (y <? x) /\ i_ge c a b = (y <=? x) /\
  ival c (i_max c a b) = Z.max x y /\ ival c (i_min c a b) = Z.min x y /\ (a = b <-> x = y).
Proof. exact i_cmp_family. Qed.
Print Assumptions C23_i256_cmp.

Example C23_i256_case : wf_i (iof dev (-1)) /\ wf_i (iof dev (2 ^ 127)) /\
  i_cmp dev (iof dev (-1)) (iof dev (2 ^ 127)) = Lt /\ i_lt dev (iof dev 1) (iof dev (2 ^ 127)) = true /\
  i_max dev (iof dev (-1)) (iof dev (2 ^ 127)) = iof dev (2 ^ 127).
Proof. vm_compute. intuition congruence. Qed.

(** C23: comparison of U256 with u128. *)
Theorem C23_u256_cmp_prim : forall c a p,
  wf_u a -> 0 <= p < 2 ^ 128 -> let x := uval c a in
  u_eq_prim c a p = (x =? p) /\ prim_eq_u c p a = (p =? x) /\
  u_cmp_prim c a p = (x ?= p) /\ prim_cmp_u c p a = (p ?= x).
Proof. exact u_cmp_prim_family. Qed.
Print Assumptions C23_u256_cmp_prim.

Example C23_u256_prim_case : wf_u (uof dev (2 ^ 128)) /\ 0 <= 2 ^ 128 - 1 < 2 ^ 128 /\ prim_cmp_u dev (2 ^ 128 - 1) (uof dev (2 ^ 128)) = Lt.
Proof. vm_compute. intuition congruence. Qed.

(** C23: comparison of I256 with i128. *)
Theorem C23_i256_cmp_prim : forall c a p,
  wf_i a -> - 2 ^ 127 <= p < 2 ^ 127 -> let x := ival c a in
  i_eq_prim c a p = (x =? p) /\ prim_eq_i c p a = (p =? x) /\
  i_cmp_prim c a p = (x ?= p) /\ prim_cmp_i c p a = (p ?= x).
Proof. exact i_cmp_prim_family. Qed.
Print Assumptions C23_i256_cmp_prim.

Example C23_i256_prim_case : wf_i (iof dev (2 ^ 127)) /\ - 2 ^ 127 <= -1 < 2 ^ 127 /\
  i_cmp_prim dev (iof dev (2 ^ 127)) (-1) = Gt /\ i_eq_prim dev (iof dev (-1)) (-1) = true.
Proof. vm_compute. intuition congruence. Qed.

(** C24: equal values drive every hasher identically; different values can be told
    apart by some hasher (so the data fed differs). *)
Theorem C24_hash : forall c,
  (forall a b, wf_u a -> wf_u b ->
     (u_eq c a b = true -> forall S wu w (h : S), u_hash wu w c a h = u_hash wu w c b h) /\
     (u_eq c a b = false -> exists S wu w (h : S), u_hash wu w c a h <> u_hash wu w c b h)) /\
  (forall a b, wf_i a -> wf_i b ->
     (i_eq c a b = true -> forall S wu w (h : S), i_hash wu w c a h = i_hash wu w c b h) /\
     (i_eq c a b = false -> exists S wu w (h : S), i_hash wu w c a h <> i_hash wu w c b h)).
Proof. exact hash_family. Qed.
Print Assumptions C24_hash.

Example C24_case : wf_u (uof dev 1) /\ wf_u (uof dev (2 ^ 128)) /\ u_eq dev (uof dev 1) (uof dev (2 ^ 128)) = false /\
  u_mem_bytes dev (uof dev 1) <> u_mem_bytes dev (uof dev (2 ^ 128)).
Proof. vm_compute. intuition congruence. Qed.

(** C46: bitwise operators of U256. *)
Theorem C46_u256_bitwise : forall c a b i,
  wf_u a -> wf_u b -> 0 <= i < 256 ->
  let bit x := Z.testbit (uval c x) i in
  bit (u_op_and a b) = bit a && bit b /\ bit (u_op_and_assign a b) = bit a && bit b /\
  bit (u_op_or a b) = bit a || bit b /\ bit (u_op_or_assign a b) = bit a || bit b /\
  bit (u_op_xor a b) = xorb (bit a) (bit b) /\ bit (u_op_xor_assign a b) = xorb (bit a) (bit b) /\
  bit (u_op_not a) = negb (bit a) /\
  Forall wf_u [u_op_and a b; u_op_or a b; u_op_xor a b; u_op_not a;
               u_op_and_assign a b; u_op_or_assign a b; u_op_xor_assign a b].
Proof. exact u_bitwise. Qed.
Print Assumptions C46_u256_bitwise.

Example C46_u256_case : wf_u (uof dev 12) /\ wf_u (uof dev 10) /\ u_op_xor (uof dev 12) (uof dev 10) = uof dev 6 /\
  u_op_not (uof dev 0) = uof dev MAXU.
Proof. vm_compute. intuition congruence. Qed.

(** C46: bitwise operators of I256. *)
Theorem C46_i256_bitwise : forall c a b i,
  wf_i a -> wf_i b -> 0 <= i < 256 ->
  let bit x := Z.testbit (ival c x) i in
  bit (i_op_and a b) = bit a && bit b /\ bit (i_op_and_assign a b) = bit a && bit b /\
  bit (i_op_or a b) = bit a || bit b /\ bit (i_op_or_assign a b) = bit a || bit b /\
  bit (i_op_xor a b) = xorb (bit a) (bit b) /\ bit (i_op_xor_assign a b) = xorb (bit a) (bit b) /\
  bit (i_op_not a) = negb (bit a) /\
  Forall wf_i [i_op_and a b; i_op_or a b; i_op_xor a b; i_op_not a;
               i_op_and_assign a b; i_op_or_assign a b; i_op_xor_assign a b].
Proof. exact i_bitwise. Qed.
Print Assumptions C46_i256_bitwise.

Example C46_i256_case : wf_i (iof dev (-4)) /\ wf_i (iof dev (2 ^ 200 + 7)) /\
  i_op_and (iof dev (-4)) (iof dev (2 ^ 200 + 7)) = iof dev (2 ^ 200 + 4) /\ i_op_not (iof dev 0) = iof dev (-1).
Proof. vm_compute. intuition congruence. Qed.

(** C46: the forms with a primitive operand convert it first. *)
Theorem C46_mixed : forall c x y p q (fu : u256 -> u256 -> u256) (fi : i256 -> i256 -> i256),
  0 <= p < 2 ^ 128 -> - 2 ^ 127 <= q < 2 ^ 127 ->
  u_rhs_prim (fun _ => fu) c x p = fu x (uof c p) /\ u_lhs_prim (fun _ => fu) c p x = fu (uof c p) x /\
  i_rhs_prim (fun _ => fi) c y q = fi y (iof c q) /\ i_lhs_prim (fun _ => fi) c q y = fi (iof c q) y.
Proof.
  intros. destruct (P_Forms.u_prim_forms (fun _ => fu) c x p) as [-> ->]; [assumption|].
  destruct (P_Forms.i_prim_forms (fun _ => fi) c y q) as [-> ->]; auto.
Qed.
Print Assumptions C46_mixed.
Example C46_mixed_case : 0 <= 6 < 2 ^ 128 /\ - 2 ^ 127 <= -1 < 2 ^ 127 /\
  u_rhs_prim (fun _ => u_op_and) dev (uof dev 12) 6 = uof dev 4 /\
  i_rhs_prim (fun _ => i_op_xor) dev (iof dev 12) (-1) = iof dev (-13).
Proof. vm_compute. intuition congruence. Qed.

