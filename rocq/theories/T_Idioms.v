(** * C78: well-known expressions written with the operators compute what they are known for *)

From Coq Require Import ZArith String List Bool Lia.
From Verif Require Import M_Prim M_Words M_Intr M_Div M_Mul M_Ops M_UintApi M_IntApi M_Convert.
From Verif Require Import Spec Spec_Idioms P_Words P_Idioms T_Base.
Open Scope Z_scope.

(** C78: the averages that cannot overflow do not overflow: rounding down and up, unsigned and signed, in every
    build. *)
Theorem C78_averages : forall c a b x y, wf_u a -> wf_u b -> wf_i x -> wf_i y ->
  average c a b = Ret (uof c ((uval c a + uval c b) / 2)) /\
  average_up c a b = Ret (uof c ((uval c a + uval c b + 1) / 2)) /\
  iaverage c x y = Ret (iof c ((ival c x + ival c y) / 2)) /\
  iaverage_up c x y = Ret (iof c ((ival c x + ival c y + 1) / 2)).
Proof.
  intros c a b x y Ha Hb Hx Hy. destruct (averages c a b Ha Hb). destruct (iaverages c x y Hx Hy). auto.
Qed.
Print Assumptions C78_averages.
Example C78_averages_case :
  average dev (uof dev MAXU) (uof dev (MAXU - 3)) = Ret (uof dev (MAXU - 2)) /\
  average_up devB (uof devB MAXU) (uof devB (MAXU - 3)) = Ret (uof devB (MAXU - 1)) /\
  iaverage devL (iof devL MINI) (iof devL (MINI + 3)) = Ret (iof devL (MINI + 1)) /\
  iaverage_up rel (iof rel MINI) (iof rel MAXI) = Ret (iof rel 0).
Proof. vm_compute. auto. Qed.

(** C78: [a & -a] is the highest power of two that divides [a], [trailing_zeros] is its exponent, [a & (a - 1)]
    takes it away. *)
Theorem C78_lowest_bit : forall c a, wf_u a -> 0 < uval c a ->
  exists k, 0 <= k < 256 /\ u_trailing_zeros c a = Ret k /\ (2 ^ k | uval c a) /\ ~ (2 ^ (k + 1) | uval c a) /\
    lowest_bit c a = uof c (2 ^ k) /\ drop_lowest c a = Ret (uof c (uval c a - 2 ^ k)).
Proof. exact lowest_bits. Qed.
Print Assumptions C78_lowest_bit.
Example C78_lowest_bit_case :
  0 < uval devB (uof devB (5 * 2 ^ 200)) /\ lowest_bit devB (uof devB (5 * 2 ^ 200)) = uof devB (2 ^ 200) /\
  u_trailing_zeros devB (uof devB (5 * 2 ^ 200)) = Ret 200 /\
  drop_lowest devB (uof devB (5 * 2 ^ 200)) = Ret (uof devB (2 ^ 202)).
Proof. vm_compute. auto. Qed.

(** C78: [a & (a - 1) == 0] exactly for the powers of two. *)
Theorem C78_power_test : forall c a, wf_u a -> 0 < uval c a ->
  drop_lowest c a = Ret U256_ZERO <-> exists k, 0 <= k /\ uval c a = 2 ^ k.
Proof. exact power_test. Qed.
Print Assumptions C78_power_test.
Example C78_power_test_case :
  drop_lowest dev (uof dev (2 ^ 255)) = Ret U256_ZERO /\ drop_lowest dev (uof dev (2 ^ 255 + 2 ^ 128)) <> Ret U256_ZERO.
Proof. split; [vm_compute; reflexivity|vm_compute; discriminate]. Qed.

(** C78: masks take remainders by powers of two and align downwards; aligning upwards is right when the aligned
    number is in range, and otherwise panics with debug assertions and gives zero without. *)
Theorem C78_masks : forall c a k, wf_u a -> 0 <= k < 256 ->
  mask c k = Ret (uof c (2 ^ k - 1)) /\
  low_bits c a k = Ret (uof c (uval c a mod 2 ^ k)) /\
  align_down c a k = Ret (uof c (uval c a / 2 ^ k * 2 ^ k)) /\
  (uval c a <= 2 ^ 256 - 2 ^ k -> align_up c a k = Ret (uof c ((uval c a + 2 ^ k - 1) / 2 ^ k * 2 ^ k))) /\
  (2 ^ 256 - 2 ^ k < uval c a -> align_up c a k =
     if debug_assertions c then Panic "attempt to add with overflow" else Ret U256_ZERO).
Proof. exact masks. Qed.
Print Assumptions C78_masks.
Example C78_masks_case :
  low_bits devB (uof devB (7 * 2 ^ 130 + 9)) 131 = Ret (uof devB (2 ^ 130 + 9)) /\
  align_up relL (uof relL (2 ^ 130 + 1)) 130 = Ret (uof relL (2 ^ 131)) /\
  align_up dev (uof dev MAXU) 4 = Panic "attempt to add with overflow" /\
  align_up rel (uof rel MAXU) 4 = Ret U256_ZERO.
Proof. vm_compute. auto. Qed.

(** C78: a quotient rounded up never overflows. *)
Theorem C78_ceil_div : forall c a b, wf_u a -> wf_u b -> uval c b <> 0 ->
  ceil_div c a b = Ret (uof c ((uval c a + uval c b - 1) / uval c b)).
Proof. exact ceil_divs. Qed.
Print Assumptions C78_ceil_div.
Example C78_ceil_div_case :
  ceil_div dev (uof dev MAXU) (uof dev 2) = Ret (uof dev (2 ^ 255)) /\
  ceil_div mixB (uof mixB (2 ^ 200)) (uof mixB (2 ^ 100)) = Ret (uof mixB (2 ^ 100)).
Proof. vm_compute. auto. Qed.

(** C78: the branch-free minimum and the exchange by three exclusive ors. *)
Theorem C78_select : forall c a b, wf_u a -> wf_u b ->
  select_min c a b = uof c (Z.min (uval c a) (uval c b)) /\ xor_swap a b = (b, a).
Proof. exact selects. Qed.
Print Assumptions C78_select.
Example C78_select_case :
  select_min devB (uof devB (2 ^ 128)) (uof devB (2 ^ 128 - 1)) = uof devB (2 ^ 128 - 1) /\
  select_min relL (uof relL 3) (uof relL MAXU) = uof relL 3.
Proof. vm_compute. auto. Qed.

(** C78: the branch-free absolute value, which for [MIN] panics with debug assertions and gives [MIN] without; and
    the comparison of signs. *)
Theorem C78_signs : forall c x y, wf_i x -> wf_i y ->
  (ival c x <> MINI -> branchless_abs c x = Ret (iof c (Z.abs (ival c x)))) /\
  (ival c x = MINI -> branchless_abs c x =
     if debug_assertions c then Panic "attempt to subtract with overflow" else Ret x) /\
  signs_differ c x y = xorb (ival c x <? 0) (ival c y <? 0).
Proof. intros c x y Hx Hy. destruct (abses c x Hx). split; [|split]; auto using signs. Qed.
Print Assumptions C78_signs.
Example C78_signs_case :
  branchless_abs devB (iof devB (MINI + 1)) = Ret (iof devB MAXI) /\
  branchless_abs dev (iof dev MINI) = Panic "attempt to subtract with overflow" /\
  branchless_abs relL (iof relL MINI) = Ret (iof relL MINI) /\
  signs_differ dev (iof dev (-1)) (iof dev MAXI) = true /\ signs_differ dev (iof dev (-1)) (iof dev MINI) = false.
Proof. vm_compute. auto 6. Qed.

(** C78: the tests for overflow made after a wrapping addition agree with the numbers and with
    [overflowing_add]. *)
Theorem C78_overflow_tests : forall c a b x y, wf_u a -> wf_u b -> wf_i x -> wf_i y ->
  carries c a b = (2 ^ 256 <=? uval c a + uval c b) /\ snd (u_overflowing_add c a b) = carries c a b /\
  overflows c x y = negb (in_i 256 (ival c x + ival c y)) /\ snd (i_overflowing_add c x y) = overflows c x y.
Proof.
  intros c a b x y Ha Hb Hx Hy. destruct (carry_test c a b Ha Hb). destruct (overflow_test c x y Hx Hy). auto.
Qed.
Print Assumptions C78_overflow_tests.
Example C78_overflow_tests_case :
  carries dev (uof dev MAXU) (uof dev 1) = true /\ carries dev (uof dev MAXU) (uof dev 0) = false /\
  overflows devB (iof devB MINI) (iof devB (-1)) = true /\ overflows devB (iof devB MINI) (iof devB MAXI) = false.
Proof. vm_compute. auto. Qed.
