(** * Arithmetic operators, on numbers *)

From Coq Require Import ZArith List String Bool Lia ZifyBool.
From Verif Require Import M_Prim M_Words M_Intr M_Div M_Mul M_Ops M_UintApi M_IntApi Spec
  P_Words P_AddSub P_Bits P_Mul P_Div P_DivKnuth P_IntDiv.
Open Scope Z_scope.

(** the shape of every operator outcome: panic in debug when out of range *)
Definition dbg {A} (c : cfg) (ok : bool) (msg : string) (v : A) : res A :=
  if debug_assertions c && negb ok then Panic msg else Ret v.

Lemma in_u_256 v : in_u 256 v = (0 <=? v) && (v <? 2 ^ 256). Proof. reflexivity. Qed.
Lemma in_i_256 v : in_i 256 v = (- 2 ^ 255 <=? v) && (v <? 2 ^ 255). Proof. reflexivity. Qed.

Lemma u_op_add_of c a b : 0 <= a < 2 ^ 256 -> 0 <= b < 2 ^ 256 ->
  u_op_add c (uof c a) (uof c b) =
  dbg c (in_u 256 (a + b)) "attempt to add with overflow" (uof c (a + b)).
Proof.
  intros. unfold u_op_add, dbg. rewrite uaddc_of, add3_of, in_u_256 by lia.
  replace (2 ^ 256 <=? a + b) with (negb ((0 <=? a + b) && (a + b <? 2 ^ 256))) by lia.
  destruct (debug_assertions c); [|reflexivity]. reflexivity.
Qed.
Lemma u_op_sub_of c a b : 0 <= a < 2 ^ 256 -> 0 <= b < 2 ^ 256 ->
  u_op_sub c (uof c a) (uof c b) =
  dbg c (in_u 256 (a - b)) "attempt to subtract with overflow" (uof c (a - b)).
Proof.
  intros. unfold u_op_sub, dbg. rewrite usubc_of, sub3_of, in_u_256 by lia.
  replace (a <? b) with (negb ((0 <=? a - b) && (a - b <? 2 ^ 256))) by lia.
  destruct (debug_assertions c); reflexivity.
Qed.
Lemma u_op_mul_of c a b : 0 <= a < 2 ^ 256 -> 0 <= b < 2 ^ 256 ->
  u_op_mul c (uof c a) (uof c b) =
  dbg c (in_u 256 (a * b)) "attempt to multiply with overflow" (uof c (a * b)).
Proof.
  intros. unfold u_op_mul, dbg. rewrite umulc_of, mul3_of, in_u_256 by lia. cbn [bind].
  replace (2 ^ 256 <=? a * b) with (negb ((0 <=? a * b) && (a * b <? 2 ^ 256))) by nia.
  destruct (debug_assertions c); reflexivity.
Qed.
Lemma i_op_add_of c a b : - 2 ^ 255 <= a < 2 ^ 255 -> - 2 ^ 255 <= b < 2 ^ 255 ->
  i_op_add c (iof c a) (iof c b) =
  dbg c (in_i 256 (a + b)) "attempt to add with overflow" (iof c (a + b)).
Proof.
  intros. unfold i_op_add, dbg. rewrite iaddc_of, iadd3_of by lia.
  destruct (debug_assertions c); reflexivity.
Qed.
Lemma i_op_sub_of c a b : - 2 ^ 255 <= a < 2 ^ 255 -> - 2 ^ 255 <= b < 2 ^ 255 ->
  i_op_sub c (iof c a) (iof c b) =
  dbg c (in_i 256 (a - b)) "attempt to subtract with overflow" (iof c (a - b)).
Proof.
  intros. unfold i_op_sub, dbg. rewrite isubc_of, isub3_of by lia.
  destruct (debug_assertions c); reflexivity.
Qed.
Lemma i_op_mul_of c a b : - 2 ^ 255 <= a < 2 ^ 255 -> - 2 ^ 255 <= b < 2 ^ 255 ->
  i_op_mul c (iof c a) (iof c b) =
  dbg c (in_i 256 (a * b)) "attempt to multiply with overflow" (iof c (a * b)).
Proof.
  intros. unfold i_op_mul, dbg. rewrite imulc_of, imul3_of by lia. cbn [bind].
  destruct (debug_assertions c); reflexivity.
Qed.
Lemma i_op_neg_dbg c a : - 2 ^ 255 <= a < 2 ^ 255 ->
  i_op_neg c (iof c a) = dbg c (in_i 256 (- a)) "attempt to negate with overflow" (iof c (- a)).
Proof.
  intros. rewrite i_op_neg_of, in_i_256 by lia. unfold dbg.
  replace (negb ((- 2 ^ 255 <=? - a) && (- a <? 2 ^ 255))) with (a =? - 2 ^ 255) by lia.
  reflexivity.
Qed.

(** ** Assignment forms agree with the plain operators *)
Lemma u_op_add_assign_of c a b : u_op_add_assign c (uof c a) (uof c b) = u_op_add c (uof c a) (uof c b).
Proof. unfold u_op_add_assign, u_op_add. destruct (debug_assertions c); [reflexivity|]. rewrite add2_eq. reflexivity. Qed.
Lemma u_op_sub_assign_of c a b : u_op_sub_assign c (uof c a) (uof c b) = u_op_sub c (uof c a) (uof c b).
Proof. unfold u_op_sub_assign, u_op_sub. destruct (debug_assertions c); [reflexivity|]. rewrite sub2_eq. reflexivity. Qed.
Lemma u_op_mul_assign_of c a b : u_op_mul_assign c (uof c a) (uof c b) = u_op_mul c (uof c a) (uof c b).
Proof. unfold u_op_mul_assign, u_op_mul. destruct (debug_assertions c); reflexivity. Qed.
Lemma i_op_add_assign_of c a b : i_op_add_assign c (iof c a) (iof c b) = i_op_add c (iof c a) (iof c b).
Proof. unfold i_op_add_assign, i_op_add. destruct (debug_assertions c); [reflexivity|]. rewrite iadd2_of, iadd3_of. reflexivity. Qed.
Lemma i_op_sub_assign_of c a b : i_op_sub_assign c (iof c a) (iof c b) = i_op_sub c (iof c a) (iof c b).
Proof. unfold i_op_sub_assign, i_op_sub. destruct (debug_assertions c); [reflexivity|]. rewrite isub2_of, isub3_of. reflexivity. Qed.
Lemma i_op_mul_assign_of c a b : i_op_mul_assign c (iof c a) (iof c b) = i_op_mul c (iof c a) (iof c b).
Proof. unfold i_op_mul_assign, i_op_mul. destruct (debug_assertions c); reflexivity. Qed.

(** division assignment: only the panic message for a zero divisor can differ *)
Lemma u_op_div_assign_of c a b : 0 <= a < 2 ^ 256 -> 0 <= b < 2 ^ 256 ->
  u_op_div_assign c (uof c a) (uof c b) =
  if b =? 0 then Panic "attempt to divide by zero" else Ret (uof c (a / b)).
Proof.
  intros. unfold u_op_div_assign. destruct (debug_assertions c).
  - apply u_op_div_of; lia.
  - unfold udiv2, res_map. destruct (Z.eqb_spec b 0) as [->|].
    + rewrite udivmod4_zero by lia. reflexivity.
    + rewrite udivmod4_ok by lia. reflexivity.
Qed.
Lemma u_op_rem_assign_of c a b : 0 <= a < 2 ^ 256 -> 0 <= b < 2 ^ 256 ->
  u_op_rem_assign c (uof c a) (uof c b) =
  if b =? 0 then Panic (if debug_assertions c
                        then "attempt to calculate the remainder with a divisor of zero"
                        else "attempt to divide by zero")
  else Ret (uof c (a mod b)).
Proof.
  intros. unfold u_op_rem_assign. destruct (debug_assertions c).
  - apply u_op_rem_of; lia.
  - unfold urem2. destruct (Z.eqb_spec b 0) as [->|].
    + rewrite udivmod4_zero by lia. reflexivity.
    + rewrite udivmod4_ok by lia. reflexivity.
Qed.
Lemma i_op_div_assign_of c a b : - 2 ^ 255 <= a < 2 ^ 255 -> - 2 ^ 255 <= b < 2 ^ 255 ->
  i_op_div_assign c (iof c a) (iof c b) =
  if b =? 0 then Panic "attempt to divide by zero" else Ret (iof c (Z.quot a b)).
Proof.
  intros. unfold i_op_div_assign. destruct (debug_assertions c).
  - apply i_op_div_of; lia.
  - unfold idiv2, res_map. destruct (Z.eqb_spec b 0) as [->|].
    + rewrite idivmod4_zero by lia. reflexivity.
    + rewrite idivmod4_ok by lia. reflexivity.
Qed.
Lemma i_op_rem_assign_of c a b : - 2 ^ 255 <= a < 2 ^ 255 -> - 2 ^ 255 <= b < 2 ^ 255 ->
  i_op_rem_assign c (iof c a) (iof c b) =
  if b =? 0 then Panic (if debug_assertions c
                        then "attempt to calculate the remainder with a divisor of zero"
                        else "attempt to divide by zero")
  else Ret (iof c (Z.rem a b)).
Proof.
  intros. unfold i_op_rem_assign. destruct (debug_assertions c).
  - apply i_op_rem_of; lia.
  - unfold irem2. destruct (Z.eqb_spec b 0) as [->|].
    + rewrite idivmod4_zero by lia. reflexivity.
    + rewrite idivmod4_ok by lia. reflexivity.
Qed.

(** ** Unsigned methods *)
Lemma none_if_flag_eq {A} (x : A) b : none_if_flag (x, b) = if b then None else Some x.
Proof. reflexivity. Qed.

Lemma u_overflowing_add_of c a b : 0 <= a < 2 ^ 256 -> 0 <= b < 2 ^ 256 ->
  u_overflowing_add c (uof c a) (uof c b) = (uof c (a + b), negb (in_u 256 (a + b))).
Proof. intros. unfold u_overflowing_add. rewrite uaddc_of, in_u_256 by lia. f_equal. lia. Qed.
Lemma u_overflowing_sub_of c a b : 0 <= a < 2 ^ 256 -> 0 <= b < 2 ^ 256 ->
  u_overflowing_sub c (uof c a) (uof c b) = (uof c (a - b), negb (in_u 256 (a - b))).
Proof. intros. unfold u_overflowing_sub. rewrite usubc_of, in_u_256 by lia. f_equal. lia. Qed.
Lemma u_overflowing_mul_of c a b : 0 <= a < 2 ^ 256 -> 0 <= b < 2 ^ 256 ->
  u_overflowing_mul c (uof c a) (uof c b) = Ret (uof c (a * b), negb (in_u 256 (a * b))).
Proof. intros. unfold u_overflowing_mul. rewrite umulc_of, in_u_256 by lia. do 2 f_equal. nia. Qed.
Lemma u_overflowing_neg_of c a : 0 <= a < 2 ^ 256 ->
  u_overflowing_neg c (uof c a) = (uof c (- a), negb (in_u 256 (- a))).
Proof.
  intros. unfold u_overflowing_neg, u_wrapping_add.
  rewrite u_op_not_of, U256_ONE_of, add3_of, (U256_ZERO_of c), u_eq_of, in_u_256 by lia.
  f_equal; [f_equal; lia | lia].
Qed.
Lemma u_checked_add_of c a b : 0 <= a < 2 ^ 256 -> 0 <= b < 2 ^ 256 ->
  u_checked_add c (uof c a) (uof c b) = if in_u 256 (a + b) then Some (uof c (a + b)) else None.
Proof. intros. unfold u_checked_add. rewrite u_overflowing_add_of by lia. cbn. destruct (in_u _ _); reflexivity. Qed.
Lemma u_checked_sub_of c a b : 0 <= a < 2 ^ 256 -> 0 <= b < 2 ^ 256 ->
  u_checked_sub c (uof c a) (uof c b) = if in_u 256 (a - b) then Some (uof c (a - b)) else None.
Proof. intros. unfold u_checked_sub. rewrite u_overflowing_sub_of by lia. cbn. destruct (in_u _ _); reflexivity. Qed.
Lemma u_checked_mul_of c a b : 0 <= a < 2 ^ 256 -> 0 <= b < 2 ^ 256 ->
  u_checked_mul c (uof c a) (uof c b) = Ret (if in_u 256 (a * b) then Some (uof c (a * b)) else None).
Proof. intros. unfold u_checked_mul. rewrite u_overflowing_mul_of by lia. cbn. destruct (in_u _ _); reflexivity. Qed.

(** ** Signed methods *)
Lemma i_overflowing_add_of c a b : - 2 ^ 255 <= a < 2 ^ 255 -> - 2 ^ 255 <= b < 2 ^ 255 ->
  i_overflowing_add c (iof c a) (iof c b) = (iof c (a + b), negb (in_i 256 (a + b))).
Proof. apply iaddc_of. Qed.
Lemma i_overflowing_sub_of c a b : - 2 ^ 255 <= a < 2 ^ 255 -> - 2 ^ 255 <= b < 2 ^ 255 ->
  i_overflowing_sub c (iof c a) (iof c b) = (iof c (a - b), negb (in_i 256 (a - b))).
Proof. apply isubc_of. Qed.
Lemma i_overflowing_mul_of c a b : - 2 ^ 255 <= a < 2 ^ 255 -> - 2 ^ 255 <= b < 2 ^ 255 ->
  i_overflowing_mul c (iof c a) (iof c b) = Ret (iof c (a * b), negb (in_i 256 (a * b))).
Proof. apply imulc_of. Qed.
Lemma i_checked_add_of c a b : - 2 ^ 255 <= a < 2 ^ 255 -> - 2 ^ 255 <= b < 2 ^ 255 ->
  i_checked_add c (iof c a) (iof c b) = if in_i 256 (a + b) then Some (iof c (a + b)) else None.
Proof. intros. unfold i_checked_add. rewrite i_overflowing_add_of by lia. cbn. destruct (in_i _ _); reflexivity. Qed.
Lemma i_checked_sub_of c a b : - 2 ^ 255 <= a < 2 ^ 255 -> - 2 ^ 255 <= b < 2 ^ 255 ->
  i_checked_sub c (iof c a) (iof c b) = if in_i 256 (a - b) then Some (iof c (a - b)) else None.
Proof. intros. unfold i_checked_sub. rewrite i_overflowing_sub_of by lia. cbn. destruct (in_i _ _); reflexivity. Qed.
Lemma i_checked_mul_of c a b : - 2 ^ 255 <= a < 2 ^ 255 -> - 2 ^ 255 <= b < 2 ^ 255 ->
  i_checked_mul c (iof c a) (iof c b) = Ret (if in_i 256 (a * b) then Some (iof c (a * b)) else None).
Proof. intros. unfold i_checked_mul. rewrite i_overflowing_mul_of by lia. cbn. destruct (in_i _ _); reflexivity. Qed.

Lemma i_is_negative_of c a : - 2 ^ 255 <= a < 2 ^ 255 -> i_is_negative c (iof c a) = (a <? 0).
Proof.
  intros. unfold i_is_negative. rewrite i_into_words_of, ihi_small by lia. zz.
Qed.
Lemma i_wrapping_neg_of c a : i_wrapping_neg c (iof c a) = iof c (- a).
Proof. unfold i_wrapping_neg. rewrite (I256_ZERO_of c), i_wrapping_sub_of. f_equal. Qed.
Lemma i_wrapping_abs_of c a : - 2 ^ 255 <= a < 2 ^ 255 -> i_wrapping_abs c (iof c a) = iof c (Z.abs a).
Proof.
  intros. unfold i_wrapping_abs. rewrite i_is_negative_of by lia.
  destruct (Z.ltb_spec a 0); rewrite ?i_wrapping_neg_of; f_equal; lia.
Qed.
Lemma i_unsigned_abs_of c a : - 2 ^ 255 <= a < 2 ^ 255 -> i_unsigned_abs c (iof c a) = uof c (Z.abs a).
Proof. intros. unfold i_unsigned_abs. rewrite i_wrapping_abs_of, i_as_u256_of by lia. reflexivity. Qed.

Lemma i_div_overflows_of c a b : - 2 ^ 255 <= a < 2 ^ 255 -> - 2 ^ 255 <= b < 2 ^ 255 ->
  i_div_overflows c (iof c a) (iof c b) = (a =? - 2 ^ 255) && (b =? -1).
Proof. intros. unfold i_div_overflows. rewrite I256_MIN_of, i_eq_of, i_eq_prim_of by lia. reflexivity. Qed.
