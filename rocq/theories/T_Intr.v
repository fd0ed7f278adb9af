(** * C49, C50: words and constants; the public intrinsics module *)

From Coq Require Import ZArith List String Bool Lia.
Import ListNotations.
From Verif Require Import M_Prim M_Words M_Llvm M_Intr M_Div M_Mul M_Misc Spec Spec_Bits P_Words P_Intrinsics T_Base.
Open Scope Z_scope.

(** C49 for U256: new, from_words, low, high, into_words and writing through low_mut
    and high_mut. *)
Theorem C49_u256_words : forall c x v w,
  wf_u x -> 0 <= v < 2 ^ 128 -> 0 <= w < 2 ^ 128 ->
  u_new c v = uof c v /\
  u_from_words c v w = uof c (v * 2 ^ 128 + w) /\
  u_low c x = uval c x mod 2 ^ 128 /\ u_high c x = uval c x / 2 ^ 128 /\
  u_into_words c x = (uval c x / 2 ^ 128, uval c x mod 2 ^ 128) /\
  u_set_low c x v = uof c (uval c x / 2 ^ 128 * 2 ^ 128 + v) /\
  u_set_high c x v = uof c (v * 2 ^ 128 + uval c x mod 2 ^ 128).
Proof. exact u_words. Qed.
Print Assumptions C49_u256_words.

Example C49_u256_words_case :
  let x := uof devB (7 * 2 ^ 128 + 9) in
  wf_u x /\ u_low devB x = 9 /\ u_high devB x = 7 /\ uw0 x = 7 /\ uw0 (uof dev (7 * 2 ^ 128 + 9)) = 9 /\
  u_set_low devB x 5 = uof devB (7 * 2 ^ 128 + 5) /\ u_set_high dev (uof dev 9) 3 = uof dev (3 * 2 ^ 128 + 9).
Proof. vm_compute. intuition congruence. Qed.

(** C49 for I256: the high word carries the sign, the low word is the low 128 bits
    read as a signed number. *)
Theorem C49_i256_words : forall c x v w,
  wf_i x -> - 2 ^ 127 <= v < 2 ^ 127 -> - 2 ^ 127 <= w < 2 ^ 127 ->
  i_new c v = iof c v /\
  i_from_words c v w = iof c (v * 2 ^ 128 + w mod 2 ^ 128) /\
  i_low c x = wrap_i 128 (ival c x) /\ i_high c x = ival c x / 2 ^ 128 /\
  i_into_words c x = (ival c x / 2 ^ 128, wrap_i 128 (ival c x)) /\
  i_set_low c x v = iof c (ival c x / 2 ^ 128 * 2 ^ 128 + v mod 2 ^ 128) /\
  i_set_high c x v = iof c (v * 2 ^ 128 + ival c x mod 2 ^ 128).
Proof. exact i_words. Qed.
Print Assumptions C49_i256_words.

Example C49_i256_words_case :
  let x := iof dev (-1) in
  wf_i x /\ i_low dev x = -1 /\ i_high dev x = -1 /\ i_set_low dev x 5 = iof dev (- 2 ^ 128 + 5) /\
  i_set_high dev x 0 = iof dev (2 ^ 128 - 1) /\ i_into_words devB (iof devB (2 ^ 127)) = (0, - 2 ^ 127).
Proof. vm_compute. intuition congruence. Qed.

(** C49: the associated constants and the Default values. *)
Theorem C49_constants : forall c,
  U256_ZERO = uof c 0 /\ U256_ONE c = uof c 1 /\ U256_MIN = uof c 0 /\ U256_MAX = uof c MAXU /\ u_default = uof c 0 /\
  I256_ZERO = iof c 0 /\ I256_ONE c = iof c 1 /\ I256_MINUS_ONE c = iof c (-1) /\
  I256_MIN c = iof c MINI /\ I256_MAX c = iof c MAXI /\ i_default = iof c 0 /\
  U256_BITS = 256 /\ I256_BITS = 256.
Proof. exact constants. Qed.
Print Assumptions C49_constants.

Example C49_constants_case : ival devB (I256_MIN devB) = - 2 ^ 255 /\ ival dev (I256_MIN dev) = - 2 ^ 255 /\ I256_MIN dev <> I256_MIN devB.
Proof. split; [|split]; vm_compute; congruence. Qed.

(** C50: unsigned addition, subtraction and multiplication, in place and out of place,
    and the variants reporting overflow. *)
Theorem C50_unsigned_arithmetic : forall c a b,
  wf_u a -> wf_u b ->
  let x := uval c a in let y := uval c b in
  add2 c a b = uof c (x + y) /\ add3 c a b = uof c (x + y) /\ uaddc c a b = (uof c (x + y), MAXU <? x + y) /\
  sub2 c a b = uof c (x - y) /\ sub3 c a b = uof c (x - y) /\ usubc c a b = (uof c (x - y), x <? y) /\
  mul2 c a b = Ret (uof c (x * y)) /\ mul3 c a b = Ret (uof c (x * y)) /\
  umulc c a b = Ret (uof c (x * y), MAXU <? x * y).
Proof. exact u_arith. Qed.
Print Assumptions C50_unsigned_arithmetic.

Example C50_unsigned_arithmetic_case :
  let a := uof dev MAXU in let b := uof dev (2 ^ 130 + 3) in
  wf_u a /\ wf_u b /\ uaddc dev a b = (uof dev (2 ^ 130 + 2), true) /\ usubc dev b a = (uof dev (2 ^ 130 + 4), true) /\
  umulc dev b b = Ret (uof dev (3 * 2 ^ 131 + 9), true) /\ umulc dev b (uof dev 3) = Ret (uof dev (3 * 2 ^ 130 + 9), false).
Proof. vm_compute. intuition congruence. Qed.

(** C50: the same for signed numbers. *)
Theorem C50_signed_arithmetic : forall c a b,
  wf_i a -> wf_i b ->
  let x := ival c a in let y := ival c b in
  iadd2 c a b = iof c (x + y) /\ iadd3 c a b = iof c (x + y) /\ iaddc c a b = (iof c (x + y), negb (in_i 256 (x + y))) /\
  isub2 c a b = iof c (x - y) /\ isub3 c a b = iof c (x - y) /\ isubc c a b = (iof c (x - y), negb (in_i 256 (x - y))) /\
  imul2 c a b = Ret (iof c (x * y)) /\ imul3 c a b = Ret (iof c (x * y)) /\
  imulc c a b = Ret (iof c (x * y), negb (in_i 256 (x * y))).
Proof. exact i_arith. Qed.
Print Assumptions C50_signed_arithmetic.

Example C50_signed_arithmetic_case :
  let a := iof dev MINI in let b := iof dev (-1) in
  wf_i a /\ wf_i b /\ iaddc dev a b = (iof dev MAXI, true) /\ isubc dev a b = (iof dev (MINI + 1), false) /\
  imulc dev a b = Ret (iof dev MINI, true) /\ imulc dev b b = Ret (iof dev 1, false).
Proof. vm_compute. intuition congruence. Qed.

(** C50: the 128 by 128 to 256 bit product is exact. *)
Theorem C50_wide_multiplication : forall c a b,
  0 <= a < 2 ^ 128 -> 0 <= b < 2 ^ 128 ->
  exists r, umulddi3 c a b = Ret r /\ wf_u r /\ uval c r = a * b.
Proof. exact wide_mul. Qed.
Print Assumptions C50_wide_multiplication.

Example C50_wide_multiplication_case :
  let m := 2 ^ 128 - 1 in 0 <= m < 2 ^ 128 /\ umulddi3 dev m m = Ret (uof dev (2 ^ 256 - 2 ^ 129 + 1)).
Proof. vm_compute. intuition congruence. Qed.

(** C50: unsigned division with and without the remainder; a zero divisor panics, it is
    not undefined behaviour. *)
Theorem C50_unsigned_division : forall c a b,
  wf_u a -> wf_u b ->
  let x := uval c a in let y := uval c b in
  (y <> 0 ->
    udivmod4 c a b true = Ret (uof c (x / y), Some (uof c (x mod y))) /\ udivmod4 c a b false = Ret (uof c (x / y), None) /\
    udiv2 c a b = Ret (uof c (x / y)) /\ udiv3 c a b = Ret (uof c (x / y)) /\
    urem2 c a b = Ret (uof c (x mod y)) /\ urem3 c a b = Ret (uof c (x mod y))) /\
  (y = 0 ->
    (forall want, udivmod4 c a b want = Panic "attempt to divide by zero") /\
    Forall (eq (Panic "attempt to divide by zero")) [udiv2 c a b; udiv3 c a b; urem2 c a b; urem3 c a b]).
Proof. exact u_division. Qed.
Print Assumptions C50_unsigned_division.

Example C50_unsigned_division_case :
  let a := uof dev MAXU in let b := uof dev (2 ^ 200 + 1) in
  wf_u a /\ wf_u b /\ uval dev b <> 0 /\ uval dev (uof dev 0) = 0 /\
  udivmod4 dev a b true = Ret (uof dev (2 ^ 56 - 1), Some (uof dev (2 ^ 200 - 2 ^ 56))) /\
  urem2 dev a (uof dev 0) = Panic "attempt to divide by zero".
Proof. vm_compute. intuition congruence. Qed.

(** C50: signed division truncates towards zero, the remainder has the sign of the
    dividend, and MIN / -1 wraps to MIN with remainder 0. *)
Theorem C50_signed_division : forall c a b,
  wf_i a -> wf_i b ->
  let x := ival c a in let y := ival c b in
  (y <> 0 ->
    idivmod4 c a b true = Ret (iof c (Z.quot x y), Some (iof c (Z.rem x y))) /\ idivmod4 c a b false = Ret (iof c (Z.quot x y), None) /\
    idiv2 c a b = Ret (iof c (Z.quot x y)) /\ idiv3 c a b = Ret (iof c (Z.quot x y)) /\
    irem2 c a b = Ret (iof c (Z.rem x y)) /\ irem3 c a b = Ret (iof c (Z.rem x y))) /\
  (y = 0 ->
    (forall want, idivmod4 c a b want = Panic "attempt to divide by zero") /\
    Forall (eq (Panic "attempt to divide by zero")) [idiv2 c a b; idiv3 c a b; irem2 c a b; irem3 c a b]).
Proof. exact i_division. Qed.
Print Assumptions C50_signed_division.

Example C50_signed_division_case :
  let a := iof dev (-7) in let b := iof dev 2 in
  wf_i a /\ wf_i b /\ ival dev b <> 0 /\ idivmod4 dev a b true = Ret (iof dev (-3), Some (iof dev (-1))) /\
  idivmod4 dev (iof dev MINI) (iof dev (-1)) true = Ret (iof dev MINI, Some (iof dev 0)) /\
  idiv3 dev a (iof dev 0) = Panic "attempt to divide by zero".
Proof. vm_compute. intuition congruence. Qed.

(** C50: the shift functions, for amounts below 256. *)
Theorem C50_shifts : forall c a b n,
  wf_u a -> wf_i b -> 0 <= n < 256 ->
  let x := uval c a in let y := ival c b in
  shl2 c a n = Ret (uof c (x * 2 ^ n)) /\ shl3 c a n = Ret (uof c (x * 2 ^ n)) /\
  shr2 c a n = Ret (uof c (x / 2 ^ n)) /\ shr3 c a n = Ret (uof c (x / 2 ^ n)) /\
  ishl2 c b n = Ret (iof c (y * 2 ^ n)) /\ ishl3 c b n = Ret (iof c (y * 2 ^ n)) /\
  sar2 c b n = Ret (iof c (y / 2 ^ n)) /\ sar3 c b n = Ret (iof c (y / 2 ^ n)).
Proof. exact shift_functions. Qed.
Print Assumptions C50_shifts.

Example C50_shifts_case :
  let a := uof dev (2 ^ 200 + 5) in let b := iof dev (- 2 ^ 200 - 5) in
  wf_u a /\ wf_i b /\ 0 <= 130 < 256 /\ shl3 dev a 130 = Ret (uof dev (5 * 2 ^ 130)) /\
  shr2 dev a 130 = Ret (uof dev (2 ^ 70)) /\ sar2 dev b 130 = Ret (iof dev (- 2 ^ 70 - 1)).
Proof. vm_compute. intuition congruence. Qed.

(** C50: the rotation functions (with overflow checks the native ones need an amount
    of at most 256, see C19). *)
Theorem C50_rotations : forall c a b n,
  wf_u a -> wf_i b -> 0 <= n < 2 ^ 32 ->
  llvm c = true \/ overflow_checks c = false \/ n <= 256 ->
  (exists r, rol3 c a n = Ret r /\ wf_u r /\
     forall i, 0 <= i < 256 -> Z.testbit (uval c r) i = Z.testbit (uval c a) ((i - n) mod 256)) /\
  (exists r, ror3 c a n = Ret r /\ wf_u r /\
     forall i, 0 <= i < 256 -> Z.testbit (uval c r) i = Z.testbit (uval c a) ((i + n) mod 256)) /\
  (exists r, irol3 c b n = Ret r /\ wf_i r /\
     forall i, 0 <= i < 256 -> Z.testbit (ival c r) i = Z.testbit (ival c b) ((i - n) mod 256)) /\
  (exists r, iror3 c b n = Ret r /\ wf_i r /\
     forall i, 0 <= i < 256 -> Z.testbit (ival c r) i = Z.testbit (ival c b) ((i + n) mod 256)).
Proof. exact rotate_functions. Qed.
Print Assumptions C50_rotations.

Example C50_rotations_case :
  let b := iof dev (MINI + 1) in
  wf_i b /\ 0 <= 1 < 2 ^ 32 /\ 1 <= 256 /\ irol3 dev b 1 = Ret (iof dev 3) /\ iror3 dev b 1 = Ret (iof dev (- 2 ^ 254)).
Proof. vm_compute. intuition congruence. Qed.

(** C50: leading and trailing zero bits. *)
Theorem C50_counts : forall c a b,
  wf_u a -> wf_i b ->
  (exists k, ctlz c a = Ret k /\ run_top false (uval c a) k) /\ (exists k, cttz c a = Ret k /\ run_bottom false (uval c a) k) /\
  (exists k, ictlz c b = Ret k /\ run_top false (ival c b) k) /\ (exists k, icttz c b = Ret k /\ run_bottom false (ival c b) k).
Proof. exact count_functions. Qed.
Print Assumptions C50_counts.

Example C50_counts_case :
  wf_u (uof dev (5 * 2 ^ 130)) /\ ctlz dev (uof dev (5 * 2 ^ 130)) = Ret 123 /\ cttz dev (uof dev 0) = Ret 256 /\
  ictlz dev (iof dev (-1)) = Ret 0 /\ icttz dev (iof dev MINI) = Ret 255.
Proof. vm_compute. intuition congruence. Qed.

