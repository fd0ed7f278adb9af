(** * C06, C15 - C18: operators and shifts *)

From Coq Require Import ZArith List String Bool Lia.
Import ListNotations.
From Verif Require Import M_Prim M_Words M_Intr M_Div M_Mul M_Ops M_UintApi M_IntApi Spec Spec_Shift P_Words P_Forms T_Base.
Open Scope Z_scope.

(** C06: U256 operators and their assignment forms. *)
Theorem C06_u256_operators : forall c a b,
  wf_u a -> wf_u b ->
  let out s msg := if debug_assertions c && negb (in_u 256 s) then Panic msg else Ret (uof c s) in
  Forall (eq (out (uval c a + uval c b) "attempt to add with overflow"%string))
    [u_op_add c a b; u_op_add_assign c a b] /\
  Forall (eq (out (uval c a - uval c b) "attempt to subtract with overflow"%string))
    [u_op_sub c a b; u_op_sub_assign c a b] /\
  Forall (eq (out (uval c a * uval c b) "attempt to multiply with overflow"%string))
    [u_op_mul c a b; u_op_mul_assign c a b].
Proof. exact u_operators. Qed.
Print Assumptions C06_u256_operators.

Example C06_u256_case :
  let a := uof dev MAXU in let b := uof dev 1 in
  wf_u a /\ wf_u b /\ u_op_add dev a b = Panic "attempt to add with overflow" /\
  u_op_add rel a b = Ret (uof rel 0) /\ u_op_sub_assign rel b a = Ret (uof rel 2) /\
  u_op_mul dev (uof dev (2 ^ 127)) (uof dev (2 ^ 128)) = Ret (uof dev (2 ^ 255)).
Proof. vm_compute. intuition congruence. Qed.

(** C06: I256 operators, assignment forms and negation. *)
Theorem C06_i256_operators : forall c a b,
  wf_i a -> wf_i b ->
  let out s msg := if debug_assertions c && negb (in_i 256 s) then Panic msg else Ret (iof c s) in
  Forall (eq (out (ival c a + ival c b) "attempt to add with overflow"%string))
    [i_op_add c a b; i_op_add_assign c a b] /\
  Forall (eq (out (ival c a - ival c b) "attempt to subtract with overflow"%string))
    [i_op_sub c a b; i_op_sub_assign c a b] /\
  Forall (eq (out (ival c a * ival c b) "attempt to multiply with overflow"%string))
    [i_op_mul c a b; i_op_mul_assign c a b] /\
  i_op_neg c a = out (- ival c a) "attempt to negate with overflow"%string.
Proof. exact i_operators. Qed.
Print Assumptions C06_i256_operators.

Example C06_i256_case :
  let a := iof dev MINI in let b := iof dev (-1) in
  wf_i a /\ wf_i b /\ i_op_mul dev a b = Panic "attempt to multiply with overflow" /\
  i_op_mul_assign rel a b = Ret (iof rel MINI) /\ i_op_neg dev a = Panic "attempt to negate with overflow" /\
  i_op_sub dev b a = Ret (iof dev MAXI).
Proof. vm_compute. intuition congruence. Qed.

(** C06: operators with a u128 operand on either side. *)
Theorem C06_u256_mixed : forall c a p,
  wf_u a -> 0 <= p < 2 ^ 128 ->
  let out s msg := if debug_assertions c && negb (in_u 256 s) then Panic msg else Ret (uof c s) in
  Forall (eq (out (uval c a + p) "attempt to add with overflow"%string))
    [u_rhs_prim u_op_add c a p; u_lhs_prim u_op_add c p a; u_rhs_prim u_op_add_assign c a p] /\
  Forall (eq (out (uval c a - p) "attempt to subtract with overflow"%string))
    [u_rhs_prim u_op_sub c a p; u_rhs_prim u_op_sub_assign c a p] /\
  u_lhs_prim u_op_sub c p a = out (p - uval c a) "attempt to subtract with overflow"%string /\
  Forall (eq (out (uval c a * p) "attempt to multiply with overflow"%string))
    [u_rhs_prim u_op_mul c a p; u_lhs_prim u_op_mul c p a; u_rhs_prim u_op_mul_assign c a p] /\
  (p <> 0 -> u_rhs_prim u_op_div c a p = Ret (uof c (uval c a / p)) /\
             u_rhs_prim u_op_rem c a p = Ret (uof c (uval c a mod p)) /\
             u_rhs_prim u_op_div_assign c a p = Ret (uof c (uval c a / p)) /\
             u_rhs_prim u_op_rem_assign c a p = Ret (uof c (uval c a mod p))) /\
  (uval c a <> 0 -> u_lhs_prim u_op_div c p a = Ret (uof c (p / uval c a)) /\
                    u_lhs_prim u_op_rem c p a = Ret (uof c (p mod uval c a))) /\
  (p = 0 -> Forall panics [u_rhs_prim u_op_div c a p; u_rhs_prim u_op_rem c a p;
                           u_rhs_prim u_op_div_assign c a p; u_rhs_prim u_op_rem_assign c a p]) /\
  (uval c a = 0 -> Forall panics [u_lhs_prim u_op_div c p a; u_lhs_prim u_op_rem c p a]).
Proof. exact u_mixed_operators. Qed.
Print Assumptions C06_u256_mixed.

Example C06_u256_mixed_case :
  let a := uof dev (2 ^ 200) in
  wf_u a /\ 0 <= 2 ^ 128 - 1 < 2 ^ 128 /\ uval dev a <> 0 /\
  u_rhs_prim u_op_add dev a (2 ^ 128 - 1) = Ret (uof dev (2 ^ 200 + 2 ^ 128 - 1)) /\
  u_lhs_prim u_op_sub dev 5 a = Panic "attempt to subtract with overflow" /\
  u_lhs_prim u_op_div dev 5 (uof dev 2) = Ret (uof dev 2).
Proof. vm_compute. intuition congruence. Qed.

(** C06: operators with an i128 operand on either side. *)
Theorem C06_i256_mixed : forall c a p,
  wf_i a -> - 2 ^ 127 <= p < 2 ^ 127 ->
  let out s msg := if debug_assertions c && negb (in_i 256 s) then Panic msg else Ret (iof c s) in
  Forall (eq (out (ival c a + p) "attempt to add with overflow"%string))
    [i_rhs_prim i_op_add c a p; i_lhs_prim i_op_add c p a; i_rhs_prim i_op_add_assign c a p] /\
  Forall (eq (out (ival c a - p) "attempt to subtract with overflow"%string))
    [i_rhs_prim i_op_sub c a p; i_rhs_prim i_op_sub_assign c a p] /\
  i_lhs_prim i_op_sub c p a = out (p - ival c a) "attempt to subtract with overflow"%string /\
  Forall (eq (out (ival c a * p) "attempt to multiply with overflow"%string))
    [i_rhs_prim i_op_mul c a p; i_lhs_prim i_op_mul c p a; i_rhs_prim i_op_mul_assign c a p] /\
  (p <> 0 -> i_rhs_prim i_op_div c a p = Ret (iof c (Z.quot (ival c a) p)) /\
             i_rhs_prim i_op_rem c a p = Ret (iof c (Z.rem (ival c a) p)) /\
             i_rhs_prim i_op_div_assign c a p = Ret (iof c (Z.quot (ival c a) p)) /\
             i_rhs_prim i_op_rem_assign c a p = Ret (iof c (Z.rem (ival c a) p))) /\
  (ival c a <> 0 -> i_lhs_prim i_op_div c p a = Ret (iof c (Z.quot p (ival c a))) /\
                    i_lhs_prim i_op_rem c p a = Ret (iof c (Z.rem p (ival c a)))) /\
  (p = 0 -> Forall panics [i_rhs_prim i_op_div c a p; i_rhs_prim i_op_rem c a p;
                           i_rhs_prim i_op_div_assign c a p; i_rhs_prim i_op_rem_assign c a p]) /\
  (ival c a = 0 -> Forall panics [i_lhs_prim i_op_div c p a; i_lhs_prim i_op_rem c p a]).
Proof. exact i_mixed_operators. Qed.
Print Assumptions C06_i256_mixed.

Example C06_i256_mixed_case :
  let a := iof dev (- 2 ^ 200) in
  wf_i a /\ - 2 ^ 127 <= -7 < 2 ^ 127 /\ ival dev a <> 0 /\
  i_rhs_prim i_op_mul dev a (-7) = Ret (iof dev (7 * 2 ^ 200)) /\
  i_lhs_prim i_op_sub dev (-7) a = Ret (iof dev (2 ^ 200 - 7)) /\
  i_rhs_prim i_op_rem devB (iof devB (-20)) (-7) = Ret (iof devB (-6)).
Proof. vm_compute. intuition congruence. Qed.

(** C15: shift operators with an amount of any type, assignment forms and the
    wrapping methods, for amounts below 256, in every build.  Right shifts of I256
    are arithmetic: [/] is floor division. *)
Theorem C15_shift : forall c x y a,
  wf_u x -> wf_i y -> amt_ok a -> let s := amt_val c a in 0 <= s < 256 ->
  Forall (eq (Ret (uof c (uval c x * 2 ^ s)))) [u_shl_amt c x a; u_shl_assign c x a; u_wrapping_shl c x s] /\
  Forall (eq (Ret (uof c (uval c x / 2 ^ s)))) [u_shr_amt c x a; u_shr_assign c x a; u_wrapping_shr c x s] /\
  Forall (eq (Ret (iof c (ival c y * 2 ^ s)))) [i_shl_amt c y a; i_shl_assign c y a; i_wrapping_shl c y s] /\
  Forall (eq (Ret (iof c (ival c y / 2 ^ s)))) [i_shr_amt c y a; i_shr_assign c y a; i_wrapping_shr c y s].
Proof. exact shift_family. Qed.
Print Assumptions C15_shift.

Example C15_case :
  let x := uof dev (2 ^ 200 + 5) in let y := iof dev (- 2 ^ 200 - 5) in
  wf_u x /\ wf_i y /\ amt_ok (Amt_i256 (iof dev 130)) /\ amt_val dev (Amt_i256 (iof dev 130)) = 130 /\
  u_shl_amt dev x (Amt_i256 (iof dev 130)) = Ret (uof dev (5 * 2 ^ 130)) /\
  i_shr_amt dev y (Amt_prim 130) = Ret (iof dev (- 2 ^ 70 - 1)).
Proof. vm_compute. intuition congruence. Qed.

(** C16: the named shift methods for every u32 amount. *)
Theorem C16_named_shifts : forall c x y s,
  wf_u x -> wf_i y -> 0 <= s < 2 ^ 32 -> let k := s mod 256 in
  (let r := uof c (uval c x * 2 ^ k) in
   u_wrapping_shl c x s = Ret r /\ u_overflowing_shl c x s = Ret (r, 256 <=? s) /\
   u_checked_shl c x s = Ret (if 256 <=? s then None else Some r)) /\
  (let r := uof c (uval c x / 2 ^ k) in
   u_wrapping_shr c x s = Ret r /\ u_overflowing_shr c x s = Ret (r, 256 <=? s) /\
   u_checked_shr c x s = Ret (if 256 <=? s then None else Some r)) /\
  (let r := iof c (ival c y * 2 ^ k) in
   i_wrapping_shl c y s = Ret r /\ i_overflowing_shl c y s = Ret (r, 256 <=? s) /\
   i_checked_shl c y s = Ret (if 256 <=? s then None else Some r)) /\
  (let r := iof c (ival c y / 2 ^ k) in
   i_wrapping_shr c y s = Ret r /\ i_overflowing_shr c y s = Ret (r, 256 <=? s) /\
   i_checked_shr c y s = Ret (if 256 <=? s then None else Some r)).
Proof. exact named_shift_family. Qed.
Print Assumptions C16_named_shifts.

Example C16_case :
  let x := uof dev 3 in let y := iof dev (-3) in
  wf_u x /\ wf_i y /\ 0 <= 300 < 2 ^ 32 /\ u_overflowing_shl dev x 300 = Ret (uof dev (3 * 2 ^ 44), true) /\
  u_checked_shl dev x 300 = Ret None /\ i_wrapping_shr dev y 257 = Ret (iof dev (-2)) /\
  i_checked_shr dev y 1 = Ret (Some (iof dev (-2))).
Proof. vm_compute. intuition congruence. Qed.

(** C17: with debug assertions an amount outside 0..=255 panics (an amount inside
    does not, by C15). *)
Theorem C17_debug_shift_panics : forall c x y a,
  wf_u x -> wf_i y -> amt_ok a -> debug_assertions c = true ->
  ~ (0 <= amt_val c a < 256) ->
  Forall (eq (Panic "attempt to shift left with overflow")) [u_shl_amt c x a; u_shl_assign c x a] /\
  Forall (eq (Panic "attempt to shift left with overflow")) [i_shl_amt c y a; i_shl_assign c y a] /\
  Forall (eq (Panic "attempt to shift right with overflow")) [u_shr_amt c x a; u_shr_assign c x a] /\
  Forall (eq (Panic "attempt to shift right with overflow")) [i_shr_amt c y a; i_shr_assign c y a].
Proof. exact shift_debug_panics. Qed.
Print Assumptions C17_debug_shift_panics.

Example C17_case :
  let a := Amt_prim (-1) in let b := Amt_u256 (uof dev (2 ^ 128)) in
  wf_u (uof dev 3) /\ wf_i (iof dev 3) /\ amt_ok a /\ amt_ok b /\ debug_assertions dev = true /\
  amt_val dev a < 0 /\ 256 <= amt_val dev b /\
  u_shl_amt dev (uof dev 3) a = Panic "attempt to shift left with overflow" /\
  i_shr_assign dev (iof dev 3) b = Panic "attempt to shift right with overflow".
Proof. vm_compute. intuition congruence. Qed.

(** C18 claims that without debug assertions the amount is reduced modulo 256.
    It is not, with the native intrinsics: shifting 1 by 256 moves it to bit 128. *)
Theorem C18_release_shift_refuted : exists c x y s,
  wf_u x /\ wf_i y /\ debug_assertions c = false /\ 0 <= s < 2 ^ 32 /\
  u_shl_amt c x (Amt_u32 s) <> u_wrapping_shl c x s /\
  u_shr_amt c x (Amt_u32 s) <> u_wrapping_shr c x s /\
  i_shl_amt c y (Amt_u32 s) <> i_wrapping_shl c y s /\
  i_shr_amt c y (Amt_u32 s) <> i_wrapping_shr c y s.
Proof.
  exists rel, (uof rel 1), (iof rel 1), 256. vm_compute. intuition congruence.
Qed.
Print Assumptions C18_release_shift_refuted.

(** What the release operators do, for every amount: the amount is first cut to 32
    bits; below 256 it is exact, from 256 on the native shift is by 128 + (amount mod 128);
    the llvm intrinsics reduce the amount modulo 256. *)
Theorem C18_release_shift_actual : forall c x y a,
  wf_u x -> wf_i y -> amt_ok a -> debug_assertions c = false ->
  let m := amt_val c a mod 2 ^ 32 in
  let k := if llvm c then m mod 256 else if m <? 256 then m else 128 + m mod 128 in
  Forall (eq (Ret (uof c (uval c x * 2 ^ k)))) [u_shl_amt c x a; u_shl_assign c x a] /\
  Forall (eq (Ret (uof c (uval c x / 2 ^ k)))) [u_shr_amt c x a; u_shr_assign c x a] /\
  Forall (eq (Ret (iof c (ival c y * 2 ^ k)))) [i_shl_amt c y a; i_shl_assign c y a] /\
  Forall (eq (Ret (iof c (ival c y / 2 ^ k)))) [i_shr_amt c y a; i_shr_assign c y a].
Proof. exact shift_release. Qed.
Print Assumptions C18_release_shift_actual.

Example C18_case :
  wf_u (uof rel 1) /\ wf_i (iof rel 1) /\ amt_ok (Amt_u32 256) /\ debug_assertions rel = false /\
  u_shl_amt rel (uof rel 1) (Amt_u32 256) = Ret (uof rel (2 ^ 128)) /\
  u_wrapping_shl rel (uof rel 1) 256 = Ret (uof rel 1) /\ u_shl_amt relL (uof relL 1) (Amt_u32 257) = Ret (uof relL 2).
Proof. vm_compute. intuition congruence. Qed.

(** C18 where it holds: with the llvm intrinsics, and for amounts whose low 32 bits are
    below 256 or whose bit 7 is set, the amount is reduced modulo 256 (missing: amounts of
    at least 256 with bit 7 clear, with the native intrinsics). *)
Theorem C18_release_shift_partial : forall c x y a,
  wf_u x -> wf_i y -> amt_ok a -> debug_assertions c = false ->
  llvm c = true \/ amt_val c a mod 2 ^ 32 < 256 \/ 128 <= amt_val c a mod 256 ->
  let k := amt_val c a mod 256 in
  Forall (eq (Ret (uof c (uval c x * 2 ^ k)))) [u_shl_amt c x a; u_shl_assign c x a] /\
  Forall (eq (Ret (uof c (uval c x / 2 ^ k)))) [u_shr_amt c x a; u_shr_assign c x a] /\
  Forall (eq (Ret (iof c (ival c y * 2 ^ k)))) [i_shl_amt c y a; i_shl_assign c y a] /\
  Forall (eq (Ret (iof c (ival c y / 2 ^ k)))) [i_shr_amt c y a; i_shr_assign c y a].
Proof. exact shift_release_masked. Qed.
Print Assumptions C18_release_shift_partial.

Example C18_partial_case :
  amt_ok (Amt_prim (-1)) /\ 128 <= amt_val rel (Amt_prim (-1)) mod 256 /\
  u_shl_amt rel (uof rel 1) (Amt_prim (-1)) = Ret (uof rel (2 ^ 255)).
Proof. vm_compute. intuition congruence. Qed.

