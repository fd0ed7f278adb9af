(** * C57 - C61: laws relating the operations to each other *)

From Coq Require Import ZArith String List Bool Lia.
Import ListNotations.
From Verif Require Import M_Prim M_Words M_Intr M_Div M_Mul M_Ops M_UintApi M_IntApi.
From Verif Require Import Spec P_Words P_Laws T_Base.
Open Scope Z_scope.

(** C57: wrapping arithmetic on U256 is a commutative ring; subtraction is addition of the negative, and the
    negative is the complement plus one. Multiplication never panics. *)
Theorem C57_u256_ring : forall c a b d,
  wf_u a -> wf_u b -> wf_u d ->
  u_wrapping_add c a b = u_wrapping_add c b a /\
  u_wrapping_add c (u_wrapping_add c a b) d = u_wrapping_add c a (u_wrapping_add c b d) /\
  u_wrapping_add c a (U256_ZERO) = a /\
  u_wrapping_add c a (u_wrapping_neg c a) = U256_ZERO /\
  u_wrapping_sub c a b = u_wrapping_add c a (u_wrapping_neg c b) /\
  u_wrapping_neg c a = u_wrapping_add c (u_op_not a) (U256_ONE c) /\
  (exists p, u_wrapping_mul c a b = Ret p) /\
  u_wrapping_mul c a b = u_wrapping_mul c b a /\
  (let! p := u_wrapping_mul c a b in u_wrapping_mul c p d) = (let! p := u_wrapping_mul c b d in u_wrapping_mul c a p) /\
  u_wrapping_mul c a (U256_ONE c) = Ret a /\
  u_wrapping_mul c a U256_ZERO = Ret U256_ZERO /\
  u_wrapping_mul c a (u_wrapping_add c b d) =
    (let! p := u_wrapping_mul c a b in let! q := u_wrapping_mul c a d in Ret (u_wrapping_add c p q)) /\
  u_wrapping_mul c a (u_wrapping_neg c b) = (let! p := u_wrapping_mul c a b in Ret (u_wrapping_neg c p)).
Proof. exact u_ring. Qed.
Print Assumptions C57_u256_ring.

Example C57_u256_ring_case :
  wf_u (uof devB MAXU) /\ u_wrapping_add devB (uof devB MAXU) (uof devB 3) = uof devB 2 /\
  u_wrapping_mul devB (uof devB MAXU) (uof devB MAXU) = Ret (uof devB 1) /\
  u_wrapping_neg devB (uof devB 1) = uof devB MAXU.
Proof. split; [apply wf_uof|]. vm_compute. auto. Qed.

(** C57: the same for I256. *)
Theorem C57_i256_ring : forall c a b d,
  wf_i a -> wf_i b -> wf_i d ->
  i_wrapping_add c a b = i_wrapping_add c b a /\
  i_wrapping_add c (i_wrapping_add c a b) d = i_wrapping_add c a (i_wrapping_add c b d) /\
  i_wrapping_add c a (I256_ZERO) = a /\
  i_wrapping_add c a (i_wrapping_neg c a) = I256_ZERO /\
  i_wrapping_sub c a b = i_wrapping_add c a (i_wrapping_neg c b) /\
  i_wrapping_neg c a = i_wrapping_add c (i_op_not a) (I256_ONE c) /\
  (exists p, i_wrapping_mul c a b = Ret p) /\
  i_wrapping_mul c a b = i_wrapping_mul c b a /\
  (let! p := i_wrapping_mul c a b in i_wrapping_mul c p d) = (let! p := i_wrapping_mul c b d in i_wrapping_mul c a p) /\
  i_wrapping_mul c a (I256_ONE c) = Ret a /\
  i_wrapping_mul c a I256_ZERO = Ret I256_ZERO /\
  i_wrapping_mul c a (i_wrapping_add c b d) =
    (let! p := i_wrapping_mul c a b in let! q := i_wrapping_mul c a d in Ret (i_wrapping_add c p q)) /\
  i_wrapping_mul c a (i_wrapping_neg c b) = (let! p := i_wrapping_mul c a b in Ret (i_wrapping_neg c p)).
Proof. exact i_ring. Qed.
Print Assumptions C57_i256_ring.

Example C57_i256_ring_case :
  wf_i (iof dev MINI) /\ i_wrapping_neg dev (iof dev MINI) = iof dev MINI /\
  i_wrapping_mul dev (iof dev MINI) (iof dev (-1)) = Ret (iof dev MINI) /\
  i_wrapping_add dev (iof dev MAXI) (iof dev 1) = iof dev MINI.
Proof. split; [apply wf_iof|]. vm_compute. auto. Qed.

(** C57: the power laws hold for wrapping_pow on U256. *)
Theorem C57_u256_powers : forall c a b m n,
  wf_u a -> wf_u b -> 0 <= m -> 0 <= n -> m + n < 2 ^ 32 ->
  u_wrapping_pow c a 0 = Ret (U256_ONE c) /\ u_wrapping_pow c a 1 = Ret a /\
  u_wrapping_pow c a (m + n) =
    (let! p := u_wrapping_pow c a m in let! q := u_wrapping_pow c a n in u_wrapping_mul c p q) /\
  (let! p := u_wrapping_mul c a b in u_wrapping_pow c p n) =
    (let! p := u_wrapping_pow c a n in let! q := u_wrapping_pow c b n in u_wrapping_mul c p q).
Proof. exact u_pow_laws. Qed.
Print Assumptions C57_u256_powers.

Example C57_u256_powers_case :
  0 <= 200 /\ 0 <= 100 /\ 200 + 100 < 2 ^ 32 /\
  u_wrapping_pow rel (uof rel 3) 300 = (let! p := u_wrapping_pow rel (uof rel 3) 200 in
    let! q := u_wrapping_pow rel (uof rel 3) 100 in u_wrapping_mul rel p q) /\
  u_wrapping_pow rel (uof rel 3) 300 = Ret (uof rel (3 ^ 300)).
Proof. split; [lia|]. split; [lia|]. split; [lia|]. split; vm_compute; reflexivity. Qed.

(** C57: and on I256. *)
Theorem C57_i256_powers : forall c a b m n,
  wf_i a -> wf_i b -> 0 <= m -> 0 <= n -> m + n < 2 ^ 32 ->
  i_wrapping_pow c a 0 = Ret (I256_ONE c) /\ i_wrapping_pow c a 1 = Ret a /\
  i_wrapping_pow c a (m + n) =
    (let! p := i_wrapping_pow c a m in let! q := i_wrapping_pow c a n in i_wrapping_mul c p q) /\
  (let! p := i_wrapping_mul c a b in i_wrapping_pow c p n) =
    (let! p := i_wrapping_pow c a n in let! q := i_wrapping_pow c b n in i_wrapping_mul c p q).
Proof. exact i_pow_laws. Qed.
Print Assumptions C57_i256_powers.

Example C57_i256_powers_case :
  i_wrapping_pow devB (iof devB (-7)) 151 = (let! p := i_wrapping_pow devB (iof devB (-7)) 100 in
    let! q := i_wrapping_pow devB (iof devB (-7)) 51 in i_wrapping_mul devB p q).
Proof. vm_compute. reflexivity. Qed.

(** C58: for a divisor other than zero, quotient times divisor plus remainder is the dividend, without
    overflow on the way, and the remainder is less than the divisor. *)
Theorem C58_u256_division : forall c a b,
  wf_u a -> wf_u b -> b <> U256_ZERO -> exists q r m,
  u_wrapping_div c a b = Ret q /\ u_wrapping_rem c a b = Ret r /\ u_div_rem c a b = Ret (q, r) /\
  u_checked_mul c q b = Ret (Some m) /\ u_checked_add c m r = Some a /\ u_lt c r b = true.
Proof. exact u_division. Qed.
Print Assumptions C58_u256_division.

Example C58_u256_division_case :
  uof dev 7 <> U256_ZERO /\ u_wrapping_div dev (uof dev (2 ^ 200 + 3)) (uof dev 7) = Ret (uof dev ((2 ^ 200 + 3) / 7)) /\
  u_wrapping_rem dev (uof dev (2 ^ 200 + 3)) (uof dev 7) = Ret (uof dev 0).
Proof. split; [discriminate|]. split; vm_compute; reflexivity. Qed.

(** C58: dividing a product that did not overflow by one factor gives the other factor. *)
Theorem C58_u256_cancel : forall c a b p,
  wf_u a -> wf_u b -> b <> U256_ZERO -> u_checked_mul c a b = Ret (Some p) ->
  u_wrapping_div c p b = Ret a /\ u_wrapping_rem c p b = Ret U256_ZERO.
Proof. exact u_cancel. Qed.
Print Assumptions C58_u256_cancel.

Example C58_u256_cancel_case :
  u_checked_mul dev (uof dev (2 ^ 130 + 1)) (uof dev 12345) = Ret (Some (uof dev (12345 * 2 ^ 130 + 12345))) /\
  u_wrapping_div dev (uof dev (12345 * 2 ^ 130 + 12345)) (uof dev 12345) = Ret (uof dev (2 ^ 130 + 1)).
Proof. split; vm_compute; reflexivity. Qed.

(** C58: signed division: quotient times divisor plus remainder is the dividend (modulo 2^256, for the one quotient
    that overflows), the remainder is smaller in magnitude than the divisor and has the sign of the dividend. *)
Theorem C58_i256_division : forall c a b,
  wf_i a -> wf_i b -> b <> I256_ZERO -> exists q r,
  i_wrapping_div c a b = Ret q /\ i_wrapping_rem c a b = Ret r /\ i_wrapping_div_rem c a b = Ret (q, r) /\
  (let! m := i_wrapping_mul c q b in Ret (i_wrapping_add c m r)) = Ret a /\
  u_lt c (i_unsigned_abs c r) (i_unsigned_abs c b) = true /\
  (r = I256_ZERO \/ i_signum c r = i_signum c a).
Proof. exact i_division. Qed.
Print Assumptions C58_i256_division.

Example C58_i256_division_case :
  i_wrapping_div_rem dev (iof dev (-7)) (iof dev 2) = Ret (iof dev (-3), iof dev (-1)) /\
  i_wrapping_div_rem dev (iof dev MINI) (iof dev (-1)) = Ret (iof dev MINI, iof dev 0).
Proof. split; vm_compute; reflexivity. Qed.

(** C58: signed products that did not overflow cancel too. *)
Theorem C58_i256_cancel : forall c a b p,
  wf_i a -> wf_i b -> b <> I256_ZERO -> i_checked_mul c a b = Ret (Some p) ->
  i_wrapping_div c p b = Ret a /\ i_wrapping_rem c p b = Ret I256_ZERO.
Proof. exact i_cancel. Qed.
Print Assumptions C58_i256_cancel.

Example C58_i256_cancel_case :
  i_checked_mul devB (iof devB (2 ^ 254)) (iof devB (-2)) = Ret (Some (iof devB MINI)) /\
  i_wrapping_div devB (iof devB MINI) (iof devB (-2)) = Ret (iof devB (2 ^ 254)).
Proof. split; vm_compute; reflexivity. Qed.

(** C58: Euclidean division: the same identity with a remainder between zero and the magnitude of the divisor. *)
Theorem C58_i256_euclid : forall c a b,
  wf_i a -> wf_i b -> b <> I256_ZERO -> exists q r,
  i_wrapping_div_euclid c a b = Ret q /\ i_wrapping_rem_euclid c a b = Ret r /\
  (let! m := i_wrapping_mul c q b in Ret (i_wrapping_add c m r)) = Ret a /\
  u_lt c (i_as_u256 r) (i_unsigned_abs c b) = true.
Proof. exact i_euclid. Qed.
Print Assumptions C58_i256_euclid.

Example C58_i256_euclid_case :
  i_wrapping_div_euclid dev (iof dev (-7)) (iof dev (-2)) = Ret (iof dev 4) /\
  i_wrapping_rem_euclid dev (iof dev (-7)) (iof dev (-2)) = Ret (iof dev 1) /\
  i_wrapping_rem_euclid dev (iof dev (-7)) (iof dev MINI) = Ret (iof dev (2 ^ 255 - 7)).
Proof. repeat split; vm_compute; reflexivity. Qed.

(** C59: Boolean laws of the bitwise operators on U256 and how they add up to addition and subtraction. *)
Theorem C59_u256_bitwise : forall c a b d,
  wf_u a -> wf_u b -> wf_u d ->
  u_op_not (u_op_not a) = a /\
  u_op_not (u_op_and a b) = u_op_or (u_op_not a) (u_op_not b) /\
  u_op_not (u_op_or a b) = u_op_and (u_op_not a) (u_op_not b) /\
  u_op_and a (u_op_or b d) = u_op_or (u_op_and a b) (u_op_and a d) /\
  u_op_and a (u_op_xor b d) = u_op_xor (u_op_and a b) (u_op_and a d) /\
  u_op_xor (u_op_xor a b) b = a /\
  u_op_xor a b = u_op_and (u_op_or a b) (u_op_not (u_op_and a b)) /\
  u_wrapping_add c a b = u_wrapping_add c (u_op_or a b) (u_op_and a b) /\
  (exists t, u_wrapping_shl c (u_op_and a b) 1 = Ret t /\ u_wrapping_add c a b = u_wrapping_add c (u_op_xor a b) t) /\
  u_wrapping_sub c a b = u_wrapping_sub c (u_op_and a (u_op_not b)) (u_op_and (u_op_not a) b).
Proof. exact u_bit_laws. Qed.
Print Assumptions C59_u256_bitwise.

Example C59_u256_bitwise_case :
  u_op_xor (uof dev 12) (uof dev 10) = uof dev 6 /\
  u_op_not (u_op_and (uof dev 12) (uof dev (2 ^ 255 + 10))) = uof dev (MAXU - 8).
Proof. split; vm_compute; reflexivity. Qed.

(** C59: the same for I256. *)
Theorem C59_i256_bitwise : forall c a b d,
  wf_i a -> wf_i b -> wf_i d ->
  i_op_not (i_op_not a) = a /\
  i_op_not (i_op_and a b) = i_op_or (i_op_not a) (i_op_not b) /\
  i_op_not (i_op_or a b) = i_op_and (i_op_not a) (i_op_not b) /\
  i_op_and a (i_op_or b d) = i_op_or (i_op_and a b) (i_op_and a d) /\
  i_op_and a (i_op_xor b d) = i_op_xor (i_op_and a b) (i_op_and a d) /\
  i_op_xor (i_op_xor a b) b = a /\
  i_op_xor a b = i_op_and (i_op_or a b) (i_op_not (i_op_and a b)) /\
  i_wrapping_add c a b = i_wrapping_add c (i_op_or a b) (i_op_and a b) /\
  (exists t, i_wrapping_shl c (i_op_and a b) 1 = Ret t /\ i_wrapping_add c a b = i_wrapping_add c (i_op_xor a b) t) /\
  i_wrapping_sub c a b = i_wrapping_sub c (i_op_and a (i_op_not b)) (i_op_and (i_op_not a) b).
Proof. exact i_bit_laws. Qed.
Print Assumptions C59_i256_bitwise.

Example C59_i256_bitwise_case :
  i_op_not (iof devB 5) = iof devB (-6) /\ i_op_xor (iof devB (-1)) (iof devB 5) = iof devB (-6).
Proof. split; vm_compute; reflexivity. Qed.

(** C59: shifting is multiplying and dividing by a power of two, and shifts add up. *)
Theorem C59_u256_shifts : forall c a m n,
  wf_u a -> 0 <= m -> 0 <= n -> m + n < 256 ->
  u_wrapping_shl c a n = (let! p := u_wrapping_pow c (u_new c 2) n in u_wrapping_mul c a p) /\
  u_wrapping_shr c a n = (let! p := u_wrapping_pow c (u_new c 2) n in u_wrapping_div c a p) /\
  (let! t := u_wrapping_shl c a m in u_wrapping_shl c t n) = u_wrapping_shl c a (m + n) /\
  (let! t := u_wrapping_shr c a m in u_wrapping_shr c t n) = u_wrapping_shr c a (m + n) /\
  (exists t, u_wrapping_shl c a n = Ret t) /\ (exists t, u_wrapping_shr c a n = Ret t).
Proof. exact u_shift_laws. Qed.
Print Assumptions C59_u256_shifts.

Example C59_u256_shifts_case :
  0 <= 100 /\ 0 <= 155 /\ 100 + 155 < 256 /\
  u_wrapping_shl dev (uof dev 3) 255 = Ret (uof dev (2 ^ 255)) /\ u_wrapping_shr devL (uof devL MAXU) 255 = Ret (uof devL 1).
Proof. split; [lia|]. split; [lia|]. split; [lia|]. split; vm_compute; reflexivity. Qed.

(** C59: the right shift of I256 is Euclidean division by a power of two, as long as the power of two is an I256. *)
Theorem C59_i256_shifts : forall c a m n,
  wf_i a -> 0 <= m -> 0 <= n -> m + n < 256 ->
  i_wrapping_shl c a n = (let! p := i_wrapping_pow c (i_new c 2) n in i_wrapping_mul c a p) /\
  (n < 255 -> i_wrapping_shr c a n = (let! p := i_wrapping_pow c (i_new c 2) n in i_wrapping_div_euclid c a p)) /\
  (let! t := i_wrapping_shl c a m in i_wrapping_shl c t n) = i_wrapping_shl c a (m + n) /\
  (let! t := i_wrapping_shr c a m in i_wrapping_shr c t n) = i_wrapping_shr c a (m + n) /\
  (exists t, i_wrapping_shl c a n = Ret t) /\ (exists t, i_wrapping_shr c a n = Ret t).
Proof. exact i_shift_laws. Qed.
Print Assumptions C59_i256_shifts.

Example C59_i256_shifts_case :
  i_wrapping_shr dev (iof dev (-7)) 1 = Ret (iof dev (-4)) /\ i_wrapping_shr dev (iof dev MINI) 255 = Ret (iof dev (-1)).
Proof. split; vm_compute; reflexivity. Qed.

(** C59: a rotation is the union of two shifts, rotations add up modulo 256, and left and right undo each other. *)
Theorem C59_u256_rotations : forall c a m n,
  wf_u a -> 0 <= m <= 256 -> 0 <= n <= 256 ->
  (0 < n < 256 -> u_rotate_left c a n =
     (let! x := u_wrapping_shl c a n in let! y := u_wrapping_shr c a (256 - n) in Ret (u_op_or x y))) /\
  u_rotate_left c a n = u_rotate_right c a (256 - n) /\
  (let! t := u_rotate_left c a m in u_rotate_left c t n) = u_rotate_left c a ((m + n) mod 256) /\
  (let! t := u_rotate_left c a m in u_rotate_right c t m) = Ret a.
Proof. exact u_rotate_laws. Qed.
Print Assumptions C59_u256_rotations.

Example C59_u256_rotations_case :
  u_rotate_left dev (uof dev (2 ^ 255 + 1)) 200 = Ret (uof dev (2 ^ 200 + 2 ^ 199)) /\
  (let! t := u_rotate_left dev (uof dev 1) 200 in u_rotate_left dev t 100) = Ret (uof dev (2 ^ 44)).
Proof. split; vm_compute; reflexivity. Qed.

(** C59: the same for I256, where the shift to the right that fills with zeros is that of U256. *)
Theorem C59_i256_rotations : forall c a m n,
  wf_i a -> 0 <= m <= 256 -> 0 <= n <= 256 ->
  (0 < n < 256 -> i_rotate_left c a n =
     (let! x := i_wrapping_shl c a n in let! y := u_wrapping_shr c (i_as_u256 a) (256 - n) in Ret (i_op_or x (u_as_i256 y)))) /\
  i_rotate_left c a n = i_rotate_right c a (256 - n) /\
  (let! t := i_rotate_left c a m in i_rotate_left c t n) = i_rotate_left c a ((m + n) mod 256) /\
  (let! t := i_rotate_left c a m in i_rotate_right c t m) = Ret a.
Proof. exact i_rotate_laws. Qed.
Print Assumptions C59_i256_rotations.

Example C59_i256_rotations_case :
  i_rotate_left dev (iof dev (-2)) 8 = Ret (iof dev (-257)) /\
  (let! t := i_rotate_left dev (iof dev 3) 200 in i_rotate_left dev t 55) = Ret (iof dev (1 - 2 ^ 255)).
Proof. split; vm_compute; reflexivity. Qed.

(** C59: counts of bits: a set union law, zeros are the ones of the complement, and reversal swaps the ends. *)
Theorem C59_u256_counts : forall c a b,
  wf_u a -> wf_u b ->
  (let! x := u_count_ones c a in let! y := u_count_ones c b in Ret (x + y)) =
    (let! x := u_count_ones c (u_op_and a b) in let! y := u_count_ones c (u_op_or a b) in Ret (x + y)) /\
  u_count_zeros c a = u_count_ones c (u_op_not a) /\
  u_leading_zeros c a = u_trailing_zeros c (u_reverse_bits a) /\
  u_leading_ones c a = u_trailing_ones c (u_reverse_bits a) /\
  (exists k, u_count_ones c a = Ret k) /\ (exists k, u_leading_zeros c a = Ret k) /\ (exists k, u_leading_ones c a = Ret k).
Proof. exact u_count_laws. Qed.
Print Assumptions C59_u256_counts.

Example C59_u256_counts_case :
  u_count_ones dev (uof dev (2 ^ 200 + 7)) = Ret 4 /\ u_leading_zeros dev (uof dev (2 ^ 200)) = Ret 55 /\
  u_trailing_zeros dev (u_reverse_bits (uof dev (2 ^ 200))) = Ret 55.
Proof. repeat split; vm_compute; reflexivity. Qed.

(** C59: the same for I256. *)
Theorem C59_i256_counts : forall c a b,
  wf_i a -> wf_i b ->
  (let! x := i_count_ones c a in let! y := i_count_ones c b in Ret (x + y)) =
    (let! x := i_count_ones c (i_op_and a b) in let! y := i_count_ones c (i_op_or a b) in Ret (x + y)) /\
  i_count_zeros c a = i_count_ones c (i_op_not a) /\
  i_leading_zeros c a = i_trailing_zeros c (i_reverse_bits a) /\
  i_leading_ones c a = i_trailing_ones c (i_reverse_bits a) /\
  (exists k, i_count_ones c a = Ret k) /\ (exists k, i_leading_zeros c a = Ret k) /\ (exists k, i_leading_ones c a = Ret k).
Proof. exact i_count_laws. Qed.
Print Assumptions C59_i256_counts.

Example C59_i256_counts_case :
  i_count_zeros devB (iof devB (-9)) = Ret 1 /\ i_leading_ones devB (iof devB (-9)) = Ret 252 /\
  i_trailing_ones devB (i_reverse_bits (iof devB (-9))) = Ret 252.
Proof. repeat split; vm_compute; reflexivity. Qed.

(** C60: the cast from U256 to I256 is undone by the cast back and carries wrapping and bitwise operations over. *)
Theorem C60_cast_operations : forall c a b,
  wf_u a -> wf_u b ->
  i_as_u256 (u_as_i256 a) = a /\
  u_as_i256 (u_wrapping_add c a b) = i_wrapping_add c (u_as_i256 a) (u_as_i256 b) /\
  u_as_i256 (u_wrapping_sub c a b) = i_wrapping_sub c (u_as_i256 a) (u_as_i256 b) /\
  (let! p := u_wrapping_mul c a b in Ret (u_as_i256 p)) = i_wrapping_mul c (u_as_i256 a) (u_as_i256 b) /\
  u_as_i256 (u_wrapping_neg c a) = i_wrapping_neg c (u_as_i256 a) /\
  u_as_i256 (u_op_not a) = i_op_not (u_as_i256 a) /\
  u_as_i256 (u_op_and a b) = i_op_and (u_as_i256 a) (u_as_i256 b) /\
  u_as_i256 (u_op_or a b) = i_op_or (u_as_i256 a) (u_as_i256 b) /\
  u_as_i256 (u_op_xor a b) = i_op_xor (u_as_i256 a) (u_as_i256 b) /\
  u_as_i256 (u_swap_bytes a) = i_swap_bytes (u_as_i256 a) /\
  u_as_i256 (u_reverse_bits a) = i_reverse_bits (u_as_i256 a).
Proof. exact cast_laws. Qed.
Print Assumptions C60_cast_operations.

Example C60_cast_case :
  u_as_i256 (uof dev MAXU) = iof dev (-1) /\
  i_wrapping_mul dev (u_as_i256 (uof dev MAXU)) (u_as_i256 (uof dev 5)) = Ret (u_as_i256 (uof dev (MAXU - 4))).
Proof. split; vm_compute; reflexivity. Qed.

(** C60: and left shifts, powers and rotations. *)
Theorem C60_cast_shifts : forall c a n,
  wf_u a -> 0 <= n < 2 ^ 32 ->
  (let! t := u_wrapping_shl c a n in Ret (u_as_i256 t)) = i_wrapping_shl c (u_as_i256 a) n /\
  (let! t := u_wrapping_pow c a n in Ret (u_as_i256 t)) = i_wrapping_pow c (u_as_i256 a) n /\
  (n <= 256 -> (let! t := u_rotate_left c a n in Ret (u_as_i256 t)) = i_rotate_left c (u_as_i256 a) n).
Proof. exact cast_shift_laws. Qed.
Print Assumptions C60_cast_shifts.

Example C60_shift_case :
  i_rotate_left dev (u_as_i256 (uof dev (2 ^ 254))) 1 = Ret (u_as_i256 (uof dev (2 ^ 255))) /\
  i_wrapping_shl dev (u_as_i256 (uof dev 3)) 511 = Ret (iof dev MINI).
Proof. split; vm_compute; reflexivity. Qed.

(** C60: the order of I256 is the order of U256 after the sign bit is flipped. *)
Theorem C60_cast_order : forall c a b,
  wf_i a -> wf_i b ->
  let flip x := u_op_xor (i_as_u256 x) (i_as_u256 (I256_MIN c)) in
  i_cmp c a b = u_cmp c (flip a) (flip b).
Proof. exact cast_order. Qed.
Print Assumptions C60_cast_order.

Example C60_order_case :
  i_cmp dev (iof dev (-1)) (iof dev 1) = Lt /\ u_cmp dev (i_as_u256 (iof dev (-1))) (i_as_u256 (iof dev 1)) = Gt.
Proof. split; vm_compute; reflexivity. Qed.

(** C61: checked addition and subtraction undo each other and fail exactly by the order; the saturating forms and
    abs_diff in terms of max and min. *)
Theorem C61_u256_checked : forall c a b d,
  wf_u a -> wf_u b -> wf_u d ->
  (u_checked_add c a b = Some d <-> u_checked_sub c d b = Some a) /\
  (u_checked_sub c a b = None <-> u_lt c a b = true) /\
  (u_checked_add c a b = None <-> u_lt c (u_op_not a) b = true) /\
  u_saturating_sub c a b = u_wrapping_sub c (u_max c a b) b /\
  u_saturating_add c a b = u_wrapping_add c a (u_min c (u_op_not a) b) /\
  u_abs_diff c a b = Ret (u_wrapping_sub c (u_max c a b) (u_min c a b)).
Proof. exact u_checked_laws. Qed.
Print Assumptions C61_u256_checked.

Example C61_u256_checked_case :
  u_checked_add dev (uof dev (MAXU - 1)) (uof dev 1) = Some (uof dev MAXU) /\
  u_checked_add dev (uof dev MAXU) (uof dev 1) = None /\ u_checked_sub dev (uof dev 4) (uof dev 5) = None /\
  u_saturating_sub dev (uof dev 4) (uof dev 5) = uof dev 0 /\ u_abs_diff dev (uof dev 4) (uof dev 9) = Ret (uof dev 5).
Proof. repeat split; vm_compute; reflexivity. Qed.

(** C61: the same for I256. The difference of two numbers fails to be an I256 exactly when the distance exceeds
    the largest I256, apart from the least I256 itself. *)
Theorem C61_i256_checked : forall c a b d,
  wf_i a -> wf_i b -> wf_i d ->
  (i_checked_add c a b = Some d <-> i_checked_sub c d b = Some a) /\
  i_abs_diff c a b = u_wrapping_sub c (i_as_u256 (i_max c a b)) (i_as_u256 (i_min c a b)) /\
  (i_checked_sub c a b = None <-> u_lt c (i_as_u256 (I256_MAX c)) (i_abs_diff c a b) = true /\
     (i_lt c b a = true \/ i_wrapping_sub c a b <> I256_MIN c)).
Proof. exact i_checked_laws. Qed.
Print Assumptions C61_i256_checked.

Example C61_i256_checked_case :
  i_checked_sub dev (iof dev MINI) (iof dev 1) = None /\ i_checked_sub dev (iof dev MINI) (iof dev 0) = Some (iof dev MINI) /\
  u_lt dev (i_as_u256 (I256_MAX dev)) (i_abs_diff dev (iof dev MINI) (iof dev 0)) = true /\
  i_checked_sub dev (iof dev 0) (iof dev MINI) = None.
Proof. repeat split; vm_compute; reflexivity. Qed.

(** C61: saturating addition and subtraction respect the order. *)
Theorem C61_u256_monotone : forall c a b d,
  wf_u a -> wf_u b -> wf_u d -> u_le c a b = true ->
  u_le c (u_saturating_add c a d) (u_saturating_add c b d) = true /\
  u_le c (u_saturating_sub c a d) (u_saturating_sub c b d) = true /\
  u_le c (u_saturating_sub c d b) (u_saturating_sub c d a) = true.
Proof. exact u_monotone. Qed.
Print Assumptions C61_u256_monotone.

Example C61_u256_monotone_case :
  u_le dev (uof dev 3) (uof dev (MAXU - 1)) = true /\
  u_saturating_add dev (uof dev (MAXU - 1)) (uof dev 9) = uof dev MAXU.
Proof. split; vm_compute; reflexivity. Qed.

(** C61: the same for I256. *)
Theorem C61_i256_monotone : forall c a b d,
  wf_i a -> wf_i b -> wf_i d -> i_le c a b = true ->
  i_le c (i_saturating_add c a d) (i_saturating_add c b d) = true /\
  i_le c (i_saturating_sub c a d) (i_saturating_sub c b d) = true /\
  i_le c (i_saturating_sub c d b) (i_saturating_sub c d a) = true.
Proof. exact i_monotone. Qed.
Print Assumptions C61_i256_monotone.

Example C61_i256_monotone_case :
  i_le dev (iof dev MINI) (iof dev (-3)) = true /\ i_saturating_sub dev (iof dev MINI) (iof dev 9) = iof dev MINI.
Proof. split; vm_compute; reflexivity. Qed.

