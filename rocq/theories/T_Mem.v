(** * C51, C52: memory written through references *)

From Coq Require Import ZArith String List Bool Lia.
Import ListNotations.
From Verif Require Import M_Prim M_Words M_Llvm M_Intr M_Div M_Mul M_Ops M_UintApi M_IntApi M_Mem.
From Verif Require Import Spec Spec_Shift Spec_Mem P_Words P_Mem T_Base.
Open Scope Z_scope.

(** Memory for the examples: a written place, one never written and another one written. *)
Definition cells (c : cfg) : mem := [Some (uof c 7); None; Some (uof c (-2))].
Definition p0 : place := 0%nat.
Definition p1 : place := 1%nat.
Definition p2 : place := 2%nat.

(** C51: the unsigned arithmetic functions with an out-parameter write the result there,
    whatever it held before, return their flag and write nowhere else. *)
Theorem C51_u256_out : forall c m p a b,
  wf_u a -> wf_u b -> (p < length m)%nat ->
  let x := uval c a in let y := uval c b in
  stores (m_add3 c p a b m) m p (uof c (x + y)) tt /\
  stores (m_uaddc c p a b m) m p (uof c (x + y)) (MAXU <? x + y) /\
  stores (m_sub3 c p a b m) m p (uof c (x - y)) tt /\
  stores (m_usubc c p a b m) m p (uof c (x - y)) (x <? y) /\
  stores (m_mul3 c p a b m) m p (uof c (x * y)) tt /\
  stores (m_umulc c p a b m) m p (uof c (x * y)) (MAXU <? x * y).
Proof. exact u_out. Qed.
Print Assumptions C51_u256_out.

Example C51_u256_out_case :
  (p1 < length (cells dev))%nat /\
  m_uaddc dev p1 (uof dev MAXU) (uof dev 3) (cells dev) = (Ret true, [Some (uof dev 7); Some (uof dev 2); Some (uof dev (-2))]) /\
  get p1 (cells dev) = (UB "read of uninitialised memory", cells dev).
Proof. split; [apply Nat.ltb_lt; reflexivity | vm_compute; intuition congruence]. Qed.

(** C51: the same for the signed functions, some of which read back what they wrote. *)
Theorem C51_i256_out : forall c m p a b,
  wf_i a -> wf_i b -> (p < length m)%nat ->
  let x := ival c a in let y := ival c b in let at_p v := i_as_u256 (iof c v) in
  stores (m_iadd3 c p a b m) m p (at_p (x + y)) tt /\
  stores (m_iaddc c p a b m) m p (at_p (x + y)) (negb (in_i 256 (x + y))) /\
  stores (m_isub3 c p a b m) m p (at_p (x - y)) tt /\
  stores (m_isubc c p a b m) m p (at_p (x - y)) (negb (in_i 256 (x - y))) /\
  stores (m_imul3 c p a b m) m p (at_p (x * y)) tt /\
  stores (m_imulc c p a b m) m p (at_p (x * y)) (negb (in_i 256 (x * y))).
Proof. exact i_out. Qed.
Print Assumptions C51_i256_out.

Example C51_i256_out_case :
  m_iaddc dev p1 (iof dev MAXI) (iof dev 1) (cells dev) = (Ret true, [Some (uof dev 7); Some (uof dev MINI); Some (uof dev (-2))]) /\
  m_imulc dev p0 (iof dev (-3)) (iof dev 5) (cells dev) = (Ret false, [Some (uof dev (-15)); None; Some (uof dev (-2))]).
Proof. vm_compute. intuition congruence. Qed.

(** C51: the shift functions with an out-parameter. *)
Theorem C51_shift_out : forall c m p a b n,
  wf_u a -> wf_i b -> 0 <= n < 256 -> (p < length m)%nat ->
  let x := uval c a in let y := ival c b in
  stores (m_shl3 c p a n m) m p (uof c (x * 2 ^ n)) tt /\
  stores (m_shr3 c p a n m) m p (uof c (x / 2 ^ n)) tt /\
  stores (m_ishl3 c p b n m) m p (i_as_u256 (iof c (y * 2 ^ n))) tt /\
  stores (m_sar3 c p b n m) m p (i_as_u256 (iof c (y / 2 ^ n))) tt.
Proof. exact shift_out_place. Qed.
Print Assumptions C51_shift_out.

Example C51_shift_out_case :
  m_sar3 devB p1 (iof devB (-5)) 1 (cells devB) = (Ret tt, [Some (uof devB 7); Some (uof devB (-3)); Some (uof devB (-2))]).
Proof. vm_compute. reflexivity. Qed.

(** C51: unsigned division writes the quotient and, if asked to, the remainder.  With a
    zero divisor it panics and has written nothing. *)
Theorem C51_unsigned_division_out : forall c m p q a b,
  wf_u a -> wf_u b -> (p < length m)%nat -> (q < length m)%nat -> p <> q ->
  let x := uval c a in let y := uval c b in
  (y <> 0 ->
    stores2 (m_udivmod4 c p a b (Some q) m) m p (uof c (x / y)) q (uof c (x mod y)) /\
    stores (m_udivmod4 c p a b None m) m p (uof c (x / y)) tt /\
    stores (m_udiv3 c p a b m) m p (uof c (x / y)) tt /\
    stores (m_urem3 c p a b m) m p (uof c (x mod y)) tt) /\
  (y = 0 -> Forall (stopped "attempt to divide by zero" m)
    [m_udivmod4 c p a b (Some q) m; m_udivmod4 c p a b None m; m_udiv3 c p a b m; m_urem3 c p a b m]).
Proof. exact u_div_out. Qed.
Print Assumptions C51_unsigned_division_out.

Example C51_unsigned_division_out_case :
  uval rel (uof rel 10) <> 0 /\ uval rel (uof rel 0) = 0 /\
  m_udivmod4 rel p1 (uof rel (2 ^ 200 + 3)) (uof rel (2 ^ 199)) (Some p0) (cells rel) =
    (Ret tt, [Some (uof rel 3); Some (uof rel 2); Some (uof rel (-2))]) /\
  m_udivmod4 rel p1 (uof rel 9) (uof rel 0) (Some p0) (cells rel) = (Panic "attempt to divide by zero", cells rel).
Proof. vm_compute. intuition congruence. Qed.

(** C51: signed division goes through the unsigned one in the same places and leaves
    the signed quotient and remainder there. *)
Theorem C51_signed_division_out : forall c m p q a b,
  wf_i a -> wf_i b -> (p < length m)%nat -> (q < length m)%nat -> p <> q ->
  let x := ival c a in let y := ival c b in let at_p v := i_as_u256 (iof c v) in
  (y <> 0 ->
    stores2 (m_idivmod4 c p a b (Some q) m) m p (at_p (Z.quot x y)) q (at_p (Z.rem x y)) /\
    stores (m_idivmod4 c p a b None m) m p (at_p (Z.quot x y)) tt /\
    stores (m_idiv3 c p a b m) m p (at_p (Z.quot x y)) tt /\
    stores (m_irem3 c p a b m) m p (at_p (Z.rem x y)) tt) /\
  (y = 0 -> Forall (stopped "attempt to divide by zero" m)
    [m_idivmod4 c p a b (Some q) m; m_idivmod4 c p a b None m; m_idiv3 c p a b m; m_irem3 c p a b m]).
Proof. exact i_div_out. Qed.
Print Assumptions C51_signed_division_out.

Example C51_signed_division_out_case :
  m_idivmod4 rel p1 (iof rel (-7)) (iof rel 2) (Some p0) (cells rel) =
    (Ret tt, [Some (uof rel (-1)); Some (uof rel (-3)); Some (uof rel (-2))]) /\
  m_irem3 rel p1 (iof rel (-7)) (iof rel 0) (cells rel) = (Panic "attempt to divide by zero", cells rel).
Proof. vm_compute. intuition congruence. Qed.

(** C51: the functions updating a U256 in place. *)
Theorem C51_u256_in_place : forall c m p a b n,
  wf_u a -> wf_u b -> 0 <= n < 256 -> nth_error m p = Some (Some a) ->
  let x := uval c a in let y := uval c b in
  stores (m_add2 c p b m) m p (uof c (x + y)) tt /\
  stores (m_sub2 c p b m) m p (uof c (x - y)) tt /\
  stores (m_mul2 c p b m) m p (uof c (x * y)) tt /\
  stores (m_shl2 c p n m) m p (uof c (x * 2 ^ n)) tt /\
  stores (m_shr2 c p n m) m p (uof c (x / 2 ^ n)) tt /\
  (y <> 0 -> stores (m_udiv2 c p b m) m p (uof c (x / y)) tt /\ stores (m_urem2 c p b m) m p (uof c (x mod y)) tt) /\
  (y = 0 -> Forall (stopped "attempt to divide by zero" m) [m_udiv2 c p b m; m_urem2 c p b m]).
Proof. exact u_in_place. Qed.
Print Assumptions C51_u256_in_place.

Example C51_u256_in_place_case :
  nth_error (cells dev) p0 = Some (Some (uof dev 7)) /\
  m_sub2 dev p0 (uof dev 9) (cells dev) = (Ret tt, [Some (uof dev (-2)); None; Some (uof dev (-2))]) /\
  m_urem2 dev p0 (uof dev 4) (cells dev) = (Ret tt, [Some (uof dev 3); None; Some (uof dev (-2))]) /\
  fst (m_sub2 dev p1 (uof dev 9) (cells dev)) = UB "read of uninitialised memory".
Proof. vm_compute. intuition congruence. Qed.

(** C51: the functions updating an I256 in place. *)
Theorem C51_i256_in_place : forall c m p a b n,
  wf_i a -> wf_i b -> 0 <= n < 256 -> nth_error m p = Some (Some (i_as_u256 a)) ->
  let x := ival c a in let y := ival c b in let at_p v := i_as_u256 (iof c v) in
  stores (m_iadd2 c p b m) m p (at_p (x + y)) tt /\
  stores (m_isub2 c p b m) m p (at_p (x - y)) tt /\
  stores (m_imul2 c p b m) m p (at_p (x * y)) tt /\
  stores (m_ishl2 c p n m) m p (at_p (x * 2 ^ n)) tt /\
  stores (m_sar2 c p n m) m p (at_p (x / 2 ^ n)) tt /\
  (y <> 0 -> stores (m_idiv2 c p b m) m p (at_p (Z.quot x y)) tt /\ stores (m_irem2 c p b m) m p (at_p (Z.rem x y)) tt) /\
  (y = 0 -> Forall (stopped "attempt to divide by zero" m) [m_idiv2 c p b m; m_irem2 c p b m]).
Proof. exact i_in_place. Qed.
Print Assumptions C51_i256_in_place.

Example C51_i256_in_place_case :
  nth_error (cells dev) p2 = Some (Some (i_as_u256 (iof dev (-2)))) /\
  m_imul2 dev p2 (iof dev 9) (cells dev) = (Ret tt, [Some (uof dev 7); None; Some (uof dev (-18))]) /\
  m_sar2 dev p2 1 (cells dev) = (Ret tt, [Some (uof dev 7); None; Some (uof dev (-1))]).
Proof. vm_compute. intuition congruence. Qed.

(** C51: the binary operators of U256 hand a fresh place to the functions above and read
    it afterwards.  They do what the operators on values (C02, C04) do and leave the memory
    as it was, also when they panic. *)
Theorem C51_u256_operators : forall c a b m,
  m_u_add c a b m = (u_op_add c a b, m) /\ m_u_sub c a b m = (u_op_sub c a b, m) /\
  m_u_mul c a b m = (u_op_mul c a b, m) /\ m_u_div c a b m = (u_op_div c a b, m) /\
  m_u_rem c a b m = (u_op_rem c a b, m).
Proof. exact u_operators_of. Qed.
Print Assumptions C51_u256_operators.

Example C51_u256_operators_case :
  m_u_sub dev (uof dev 1) (uof dev 2) (cells dev) = (Panic "attempt to subtract with overflow", cells dev) /\
  m_u_sub rel (uof rel 1) (uof rel 2) (cells rel) = (Ret (uof rel (-1)), cells rel) /\
  m_u_rem rel (uof rel 9) (uof rel 4) (cells rel) = (Ret (uof rel 1), cells rel).
Proof. vm_compute. intuition congruence. Qed.

(** C51: the binary operators of I256. *)
Theorem C51_i256_operators : forall c a b m,
  wf_i a -> wf_i b ->
  m_i_add c a b m = (i_op_add c a b, m) /\ m_i_sub c a b m = (i_op_sub c a b, m) /\
  m_i_mul c a b m = (i_op_mul c a b, m) /\ m_i_div c a b m = (i_op_div c a b, m) /\
  m_i_rem c a b m = (i_op_rem c a b, m).
Proof. exact i_operators_of. Qed.
Print Assumptions C51_i256_operators.

Example C51_i256_operators_case :
  m_i_mul dev (iof dev MINI) (iof dev (-1)) (cells dev) = (Panic "attempt to multiply with overflow", cells dev) /\
  m_i_div dev (iof dev (-7)) (iof dev 2) (cells dev) = (Ret (iof dev (-3)), cells dev).
Proof. vm_compute. intuition congruence. Qed.

(** C51: the shift operators. *)
Theorem C51_shift_operators : forall c a b s m,
  wf_i b -> 0 <= s ->
  m_u_shl c a s m = (u_op_shl c a s, m) /\ m_u_shr c a s m = (u_op_shr c a s, m) /\
  m_i_shl c b s m = (i_op_shl c b s, m) /\ m_i_shr c b s m = (i_op_shr c b s, m).
Proof. exact shift_operators_of. Qed.
Print Assumptions C51_shift_operators.

Example C51_shift_operators_case :
  m_i_shr dev (iof dev (-5)) 1 (cells dev) = (Ret (iof dev (-3)), cells dev) /\
  m_u_shl dev (uof dev 5) 256 (cells dev) = (Panic "attempt to shift left with overflow", cells dev).
Proof. vm_compute. intuition congruence. Qed.

(** C51: the methods of U256 calling [assume_init] on an out-parameter. *)
Theorem C51_u256_methods : forall c a b n m,
  m_u_rotate_left c a n m = (u_rotate_left c a n, m) /\ m_u_rotate_right c a n m = (u_rotate_right c a n, m) /\
  m_u_wrapping_add c a b m = (Ret (u_wrapping_add c a b), m) /\ m_u_wrapping_sub c a b m = (Ret (u_wrapping_sub c a b), m) /\
  m_u_wrapping_mul c a b m = (u_wrapping_mul c a b, m) /\
  m_u_wrapping_shl c a n m = (u_wrapping_shl c a n, m) /\ m_u_wrapping_shr c a n m = (u_wrapping_shr c a n, m) /\
  m_u_overflowing_add c a b m = (Ret (u_overflowing_add c a b), m) /\
  m_u_overflowing_sub c a b m = (Ret (u_overflowing_sub c a b), m) /\
  m_u_overflowing_mul c a b m = (u_overflowing_mul c a b, m).
Proof. exact u_methods_of. Qed.
Print Assumptions C51_u256_methods.

Example C51_u256_methods_case :
  m_u_overflowing_add dev (uof dev MAXU) (uof dev 2) (cells dev) = (Ret (uof dev 1, true), cells dev) /\
  m_u_rotate_left dev (uof dev (2 ^ 255)) 1 (cells dev) = (Ret (uof dev 1), cells dev).
Proof. vm_compute. intuition congruence. Qed.

(** C51: the methods of I256 calling [assume_init] on an out-parameter. *)
Theorem C51_i256_methods : forall c a b n m,
  wf_i a -> wf_i b -> 0 <= n ->
  m_i_rotate_left c a n m = (i_rotate_left c a n, m) /\ m_i_rotate_right c a n m = (i_rotate_right c a n, m) /\
  m_i_wrapping_add c a b m = (Ret (i_wrapping_add c a b), m) /\ m_i_wrapping_sub c a b m = (Ret (i_wrapping_sub c a b), m) /\
  m_i_wrapping_mul c a b m = (i_wrapping_mul c a b, m) /\
  m_i_wrapping_shl c a n m = (i_wrapping_shl c a n, m) /\ m_i_wrapping_shr c a n m = (i_wrapping_shr c a n, m) /\
  m_i_overflowing_add c a b m = (Ret (i_overflowing_add c a b), m) /\
  m_i_overflowing_sub c a b m = (Ret (i_overflowing_sub c a b), m) /\
  m_i_overflowing_mul c a b m = (i_overflowing_mul c a b, m).
Proof. exact i_methods_of. Qed.
Print Assumptions C51_i256_methods.

Example C51_i256_methods_case :
  m_i_overflowing_sub dev (iof dev MINI) (iof dev 1) (cells dev) = (Ret (iof dev MAXI, true), cells dev) /\
  m_i_wrapping_shr dev (iof dev (-8)) 257 (cells dev) = (Ret (iof dev (-4)), cells dev).
Proof. vm_compute. intuition congruence. Qed.

(** C51: the division methods calling [assume_init], on one or two out-parameters. *)
Theorem C51_division_methods : forall c a b x y m,
  wf_i x -> wf_i y ->
  m_u_div_rem c a b m = (u_div_rem c a b, m) /\
  m_i_checked_div c x y m = (i_checked_div c x y, m) /\ m_i_checked_rem c x y m = (i_checked_rem c x y, m) /\
  m_i_wrapping_div_rem c x y m = (i_wrapping_div_rem c x y, m) /\
  m_i_checked_div_rem c x y m = (i_checked_div_rem c x y, m).
Proof. exact division_methods_of. Qed.
Print Assumptions C51_division_methods.

Example C51_division_methods_case :
  m_u_div_rem dev (uof dev 17) (uof dev 5) (cells dev) = (Ret (uof dev 3, uof dev 2), cells dev) /\
  m_i_checked_div dev (iof dev MINI) (iof dev (-1)) (cells dev) = (Ret None, cells dev) /\
  m_i_wrapping_div_rem dev (iof dev (-7)) (iof dev 2) (cells dev) = (Ret (iof dev (-3), iof dev (-1)), cells dev).
Proof. vm_compute. intuition congruence. Qed.

(** C52 for U256: after [*p += b] and the like [p] holds the new value; if the
    operation panics [p] still holds the old one.  No other place changes. *)
Theorem C52_u256_arithmetic : forall c m p a b,
  wf_u a -> wf_u b -> nth_error m p = Some (Some a) ->
  let x := uval c a in let y := uval c b in
  let checked s msg := if debug_assertions c && negb (in_u 256 s) then Panic msg else Ret (uof c s) in
  updates (m_u_add_assign c p b m) m p (checked (x + y) "attempt to add with overflow"%string) /\
  updates (m_u_sub_assign c p b m) m p (checked (x - y) "attempt to subtract with overflow"%string) /\
  updates (m_u_mul_assign c p b m) m p (checked (x * y) "attempt to multiply with overflow"%string) /\
  updates (m_u_div_assign c p b m) m p (if y =? 0 then Panic "attempt to divide by zero" else Ret (uof c (x / y))) /\
  (y <> 0 -> updates (m_u_rem_assign c p b m) m p (Ret (uof c (x mod y)))) /\
  (y = 0 -> exists msg, stopped msg m (m_u_rem_assign c p b m)).
Proof. exact u_compound. Qed.
Print Assumptions C52_u256_arithmetic.

Example C52_u256_arithmetic_case :
  nth_error (cells dev) p0 = Some (Some (uof dev 7)) /\
  m_u_sub_assign dev p0 (uof dev 9) (cells dev) = (Panic "attempt to subtract with overflow", cells dev) /\
  m_u_sub_assign rel p0 (uof rel 9) (cells rel) = (Ret tt, [Some (uof rel (-2)); None; Some (uof rel (-2))]) /\
  m_u_rem_assign rel p0 (uof rel 0) (cells rel) = (Panic "attempt to divide by zero", cells rel).
Proof. vm_compute. intuition congruence. Qed.

(** C52 for I256. *)
Theorem C52_i256_arithmetic : forall c m p a b,
  wf_i a -> wf_i b -> nth_error m p = Some (Some (i_as_u256 a)) ->
  let x := ival c a in let y := ival c b in let at_p v := i_as_u256 (iof c v) in
  let checked s msg := if debug_assertions c && negb (in_i 256 s) then Panic msg else Ret (at_p s) in
  updates (m_i_add_assign c p b m) m p (checked (x + y) "attempt to add with overflow"%string) /\
  updates (m_i_sub_assign c p b m) m p (checked (x - y) "attempt to subtract with overflow"%string) /\
  updates (m_i_mul_assign c p b m) m p (checked (x * y) "attempt to multiply with overflow"%string) /\
  updates (m_i_div_assign c p b m) m p (if y =? 0 then Panic "attempt to divide by zero" else Ret (at_p (Z.quot x y))) /\
  (y <> 0 -> updates (m_i_rem_assign c p b m) m p (Ret (at_p (Z.rem x y)))) /\
  (y = 0 -> exists msg, stopped msg m (m_i_rem_assign c p b m)).
Proof. exact i_compound. Qed.
Print Assumptions C52_i256_arithmetic.

Example C52_i256_arithmetic_case :
  nth_error (cells dev) p2 = Some (Some (i_as_u256 (iof dev (-2)))) /\
  m_i_sub_assign dev p2 (iof dev MAXI) (cells dev) = (Panic "attempt to subtract with overflow", cells dev) /\
  m_i_div_assign dev p2 (iof dev (-1)) (cells dev) = (Ret tt, [Some (uof dev 7); None; Some (uof dev 2)]).
Proof. vm_compute. intuition congruence. Qed.

(** C52 for the shift assignments, with amounts of every type. *)
Theorem C52_shifts : forall c m p q a b n,
  wf_u a -> wf_i b -> amt_ok n ->
  nth_error m p = Some (Some a) -> nth_error m q = Some (Some (i_as_u256 b)) ->
  let x := uval c a in let y := ival c b in let s := amt_val c n in let at_q v := i_as_u256 (iof c v) in
  let t := s mod 2 ^ 32 in
  let k := if debug_assertions c then s
           else if llvm c then t mod 256 else if t <? 256 then t else 128 + t mod 128 in
  let checked v msg := if debug_assertions c && negb (in_u 8 s) then Panic msg else Ret v in
  updates (m_u_shl_assign c p n m) m p (checked (uof c (x * 2 ^ k)) "attempt to shift left with overflow"%string) /\
  updates (m_u_shr_assign c p n m) m p (checked (uof c (x / 2 ^ k)) "attempt to shift right with overflow"%string) /\
  updates (m_i_shl_assign c q n m) m q (checked (at_q (y * 2 ^ k)) "attempt to shift left with overflow"%string) /\
  updates (m_i_shr_assign c q n m) m q (checked (at_q (y / 2 ^ k)) "attempt to shift right with overflow"%string).
Proof. exact shift_compound. Qed.
Print Assumptions C52_shifts.

Example C52_shifts_case :
  amt_ok (Amt_prim (-1)) /\ amt_ok (Amt_u32 3) /\
  m_u_shl_assign dev p0 (Amt_prim (-1)) (cells dev) = (Panic "attempt to shift left with overflow", cells dev) /\
  m_u_shl_assign rel p0 (Amt_u32 3) (cells rel) = (Ret tt, [Some (uof rel 56); None; Some (uof rel (-2))]) /\
  m_i_shr_assign dev p2 (Amt_u32 1) (cells dev) = (Ret tt, [Some (uof dev 7); None; Some (uof dev (-1))]).
Proof. repeat split; vm_compute; intuition congruence. Qed.

(** C52 for the bitwise assignments, which update one word after the other. *)
Theorem C52_bitwise : forall c m p q a b x y,
  wf_u a -> wf_u b -> wf_i x -> wf_i y ->
  nth_error m p = Some (Some a) -> nth_error m q = Some (Some (i_as_u256 x)) ->
  stores (m_u_and_assign p b m) m p (uof c (Z.land (uval c a) (uval c b))) tt /\
  stores (m_u_or_assign p b m) m p (uof c (Z.lor (uval c a) (uval c b))) tt /\
  stores (m_u_xor_assign p b m) m p (uof c (Z.lxor (uval c a) (uval c b))) tt /\
  stores (m_i_and_assign q y m) m q (i_as_u256 (iof c (Z.land (ival c x) (ival c y)))) tt /\
  stores (m_i_or_assign q y m) m q (i_as_u256 (iof c (Z.lor (ival c x) (ival c y)))) tt /\
  stores (m_i_xor_assign q y m) m q (i_as_u256 (iof c (Z.lxor (ival c x) (ival c y)))) tt.
Proof. exact bitwise_compound. Qed.
Print Assumptions C52_bitwise.

Example C52_bitwise_case :
  m_u_and_assign p0 (uof dev 12) (cells dev) = (Ret tt, [Some (uof dev 4); None; Some (uof dev (-2))]) /\
  m_i_xor_assign p2 (iof dev (-1)) (cells dev) = (Ret tt, [Some (uof dev 7); None; Some (uof dev 1)]).
Proof. vm_compute. intuition congruence. Qed.

