(** * Division intrinsics and operators
    src/intrinsics/native/divmod.rs, src/macros/ops.rs:222-250 *)

From Coq Require Import ZArith List String Bool.
From Verif Require Import M_Prim M_Words M_Intr.
Import ListNotations.
Open Scope Z_scope.

(** src/intrinsics/native/divmod.rs:24,32,154,167,331: NonZeroU128::new_unchecked *)
Definition new_unchecked (x : Z) : res Z :=
  if x =? 0 then UB "NonZeroU128::new_unchecked(0)" else Ret x.

(** src/intrinsics/native/divmod.rs:19-25 *)
Definition shl_nz (c : cfg) (x n : Z) : res Z :=
  let! _ := debug_assert c (n <? 128) "assertion failed: n < N_UDWORD_BITS" in
  let! r := u_shl c 128 x n in
  let! _ := debug_assert c (negb (r =? 0)) "assertion failed: res != 0" in
  new_unchecked r.

(** src/intrinsics/native/divmod.rs:27-33 *)
Definition shr_nz (c : cfg) (x n : Z) : res Z :=
  let! _ := debug_assert c (n <? 128) "assertion failed: n < N_UDWORD_BITS" in
  let! r := p_shr c 128 x n in
  let! _ := debug_assert c (negb (r =? 0)) "assertion failed: res != 0" in
  new_unchecked r.

(** src/intrinsics/native/divmod.rs:35 *)
Definition B64 : Z := 2 ^ 64.

(** The condition of the while loops, src/intrinsics/native/divmod.rs:69 and 87:
    [q >= B || q * vn0 > B * rhat + un] *)
Definition digit_cond (c : cfg) (q rhat vn0 un : Z) : res bool :=
  if B64 <=? q then Ret true
  else
    let! l := u_mul c 128 q vn0 in
    let! m := u_mul c 128 B64 rhat in
    let! r := u_add c 128 m un in
    Ret (r <? l).

(** One iteration, src/intrinsics/native/divmod.rs:69-75 and 87-93 *)
Definition digit_step (c : cfg) (vn1 vn0 un : Z) (st : Z * Z) : res ((Z * Z) + Z) :=
  let '(q, rhat) := st in
  let! b := digit_cond c q rhat vn0 un in
  if b then
    let! q := u_sub c 128 q 1 in
    let! rhat := u_add c 128 rhat vn1 in
    if B64 <=? rhat then Ret (inr q) else Ret (inl (q, rhat))
  else Ret (inr q).

(** Quotient digit, src/intrinsics/native/divmod.rs:65-75 and 83-93.  The source
    says "no more than 2 iterations"; the loop gets fuel for 2 iterations and the
    final test, so a third iteration would be [NoFuel]. *)
Definition quot_digit (c : cfg) (u vn1 vn0 un : Z) : res Z :=
  let! q := u_div u vn1 in
  let! t := u_mul c 128 q vn1 in
  let! rhat := u_sub c 128 u t in
  loop 3 (digit_step c vn1 vn0 un) (q, rhat).

(** src/intrinsics/native/divmod.rs:16-101; returns (quotient, r).
    Division by a NonZeroU128 is plain division. *)
Definition udiv256_by_128_to_128 (c : cfg) (u1 u0 v : Z) : res (Z * Z) :=
  let! _ := debug_assert c (u1 <? v) "assertion failed: v.get() > u1" in
  let s := leading_zeros 128 v in
  let! _ := debug_assert c (negb (s =? 128)) "assertion failed: s != N_UDWORD_BITS" in
  let! '(v, un128, un10) :=
    if 0 <? s then
      let! v' := shl_nz c v s in
      let! h := u_shl c 128 u1 s in
      let! k := u_sub c 32 128 s in
      let! l := p_shr c 128 u0 k in
      let! un10 := u_shl c 128 u0 s in
      Ret (v', Z.lor h l, un10)
    else Ret (v, u1, u0) in
  let! vn1 := shr_nz c v 64 in
  let vn0 := Z.land v 0xFFFFFFFFFFFFFFFF in
  let! un1 := p_shr c 128 un10 64 in
  let un0 := Z.land un10 0xFFFFFFFFFFFFFFFF in
  let! q1 := quot_digit c un128 vn1 vn0 un1 in
  let un21 := wrapping_sub 128 (wrapping_add 128 (wrapping_mul 128 un128 B64) un1)
                (wrapping_mul 128 q1 v) in
  let! q0 := quot_digit c un21 vn1 vn0 un0 in
  let! r := p_shr c 128
              (wrapping_sub 128 (wrapping_add 128 (wrapping_mul 128 un21 B64) un0)
                 (wrapping_mul 128 q0 v)) s in
  let! t := u_mul c 128 q1 B64 in
  let! q := u_add c 128 t q0 in
  Ret (q, r).

(** ** div_mod_knuth and its local functions *)

(** src/intrinsics/native/divmod.rs:203-214; returns (u[0], u[1], u[2]) *)
Definition full_shl (c : cfg) (a : u256) (shift : Z) : res (Z * Z * Z) :=
  let! _ := debug_assert c (shift <? 128) "assertion failed: shift < N_UDWORD_BITS" in
  let! u_lo := u_shl c 128 (u_low c a) shift in
  let! k := u_sub c 32 128 shift in
  let! u_hi := u_op_shr c a k in
  Ret (u_lo, u_low c u_hi, u_high c u_hi).

(** src/intrinsics/native/divmod.rs:216-230 *)
Definition full_shr (c : cfg) (u : Z * Z * Z) (shift : Z) : res u256 :=
  let '(u0, u1, u2) := u in
  let! _ := debug_assert c (shift <? 128) "assertion failed: shift < N_UDWORD_BITS" in
  let r := U256_ZERO in
  let! l := p_shr c 128 u0 shift in
  let r := u_set_low c r l in
  let! h := p_shr c 128 u1 shift in
  let r := u_set_high c r h in
  if 0 <? shift then
    let! sh := u_sub c 32 128 shift in
    let! x := u_shl c 128 u1 sh in
    let r := u_set_low c r (Z.lor (u_low c r) x) in
    let! y := u_shl c 128 u2 sh in
    Ret (u_set_high c r (Z.lor (u_high c r) y))
  else Ret r.

(** src/intrinsics/native/divmod.rs:233-236; (lo, hi) *)
Definition split_u128_to_u128 (a : Z) : Z * Z := (Z.land a 0xFFFFFFFFFFFFFFFF, Z.shiftr a 64).

(** src/intrinsics/native/divmod.rs:239-258; (lo, hi) *)
Definition fullmul_u128 (c : cfg) (a b : Z) : res (Z * Z) :=
  let '(a0, a1) := split_u128_to_u128 a in
  let '(b0, b1) := split_u128_to_u128 b in
  let! t := u_mul c 128 a0 b0 in
  let '(w3, k) := split_u128_to_u128 t in
  let! t := u_mul c 128 a1 b0 in
  let! t := u_add c 128 t k in
  let '(w1, w2) := split_u128_to_u128 t in
  let! t := u_mul c 128 a0 b1 in
  let! t := u_add c 128 t w1 in
  let! k := p_shr c 128 t 64 in
  let! w_hi := u_mul c 128 a1 b1 in
  let! w_hi := u_add c 128 w_hi w2 in
  let! w_hi := u_add c 128 w_hi k in
  let! w_lo := u_shl c 128 t 64 in
  let! w_lo := u_add c 128 w_lo w3 in
  Ret (w_lo, w_hi).

(** src/intrinsics/native/divmod.rs:260-276 *)
Definition fullmul_u256_u128 (c : cfg) (a : u256) (b : Z) : res (Z * Z * Z) :=
  if negb (b =? 0) then
    let! '(lo, carry) := fullmul_u128 c (u_low c a) b in
    let acc0 := lo in
    let acc1 := carry in
    let! '(lo, carry) := fullmul_u128 c (u_high c a) b in
    let '(acc1, ov) := overflowing_add 128 acc1 lo in
    let! acc2 := u_add c 128 carry (Z.b2z ov) in
    Ret (acc0, acc1, acc2)
  else Ret (0, 0, 0).

(** src/intrinsics/native/divmod.rs:278-284 *)
Definition add_carry (a b : Z) (cin : bool) : Z * bool :=
  let '(res1, overflow1) := overflowing_add 128 b (Z.b2z cin) in
  let '(res2, overflow2) := overflowing_add 128 a res1 in
  (res2, overflow1 || overflow2).

(** src/intrinsics/native/divmod.rs:286-292 *)
Definition sub_carry (a b : Z) (cin : bool) : Z * bool :=
  let '(res1, overflow1) := overflowing_add 128 b (Z.b2z cin) in
  let '(res2, overflow2) := overflowing_sub 128 a res1 in
  (res2, overflow1 || overflow2).

(** One turn of the loop at src/intrinsics/native/divmod.rs:336-351 *)
Definition knuth_step (c : cfg) (v_n_1 v_n_2 u0 : Z) (st : Z * Z) : res ((Z * Z) + Z) :=
  let '(q_hat, r_hat) := st in
  let! '(lo, hi) := fullmul_u128 c q_hat v_n_2 in
  let another_iteration := (r_hat <? hi) || ((hi =? r_hat) && (u0 <? lo)) in
  if negb another_iteration then Ret (inr q_hat)
  else
    let! q_hat := u_sub c 128 q_hat 1 in
    let '(r_hat, overflow) := overflowing_add 128 r_hat v_n_1 in
    if overflow then Ret (inr q_hat) else Ret (inl (q_hat, r_hat)).

(** src/intrinsics/native/divmod.rs:192-391.  The loop of lines 336-351 has fuel
    for the "at most 2 iterations" of the source plus the final test. *)
Definition div_mod_knuth (c : cfg) (u v : u256) : res (u256 * u256) :=
  let! _ := debug_assert c (negb (u_high c u =? 0))
              "The second operand must be greater than u128::MAX" in
  if u_high c u =? 0 then UB "unreachable_unchecked" else
  let shift := leading_zeros 128 (u_high c v) in
  let! _ := debug_assert c (shift <? 128) "assertion failed: shift < N_UDWORD_BITS" in
  let! v := u_op_shl c v shift in
  let! '(u0, u1, u2) := full_shl c u shift in
  let q := U256_ZERO in
  let v_n_1 := u_high c v in
  let v_n_2 := u_low c v in
  let! top := p_shr c 128 v_n_1 127 in
  let! _ := (if negb (top =? 1) then
               let! _ := debug_assert c false "assertion failed: false" in
               UB "unreachable_unchecked"
             else Ret tt) in
  let u_jn := u2 in
  let! q_hat :=
    (if u_jn <? v_n_1 then
       let! d := new_unchecked v_n_1 in
       let! '(q_hat, r_hat) := udiv256_by_128_to_128 c u_jn u1 d in
       loop 3 (knuth_step c v_n_1 v_n_2 u0) (q_hat, r_hat)
     else Ret (2 ^ 128 - 1)) in
  let! '(p0, p1, p2) := fullmul_u256_u128 c v q_hat in
  let '(u0, cc) := sub_carry u0 p0 false in
  let '(u1, cc) := sub_carry u1 p1 cc in
  let '(u2, cc) := sub_carry u2 p2 cc in
  let! '(q_hat, u0, u1, u2) :=
    (if (cc : bool) then
       let! q_hat := u_sub c 128 q_hat 1 in
       let '(u0, cc) := add_carry u0 (u_low c v) false in
       let '(u1, cc) := add_carry u1 (u_high c v) cc in
       let u2 := wrapping_add 128 u2 (Z.b2z cc) in
       Ret (q_hat, u0, u1, u2)
     else Ret (q_hat, u0, u1, u2)) in
  let q := u_set_low c q q_hat in
  let! remainder := full_shr c (u0, u1, u2) shift in
  Ret (q, remainder).

(** ** udivmod4 and its wrappers *)

(** src/intrinsics/native/divmod.rs:104-186.  [want] tells whether [rem] is
    [Some]; the result is the pair res, rem, the remainder being [None] when it was
    not asked for. *)
Definition udivmod4 (c : cfg) (a b : u256) (want : bool) : res (u256 * option u256) :=
  if Z.lor (u_high c a) (u_high c b) =? 0 then
    let! q := u_div (u_low c a) (u_low c b) in
    if want then
      let! r := u_rem (u_low c a) (u_low c b) in
      Ret (u_from_words c 0 q, Some (u_from_words c 0 r))
    else Ret (u_from_words c 0 q, None)
  else
  let some_rem r := if want then Some r else None in
  let dividend := a in
  let divisor := b in
  if u_gt c divisor dividend then Ret (U256_ZERO, some_rem dividend)
  else if u_high c divisor =? 0 then
    let remainder := U256_ZERO in
    let! '(quotient, remainder) :=
      (if u_high c dividend <? u_low c divisor then
         let! d := new_unchecked (u_low c divisor) in
         let! '(q, r) := udiv256_by_128_to_128 c (u_high c dividend) (u_low c dividend) d in
         Ret (u_from_words c 0 q, u_set_low c remainder r)
       else
         let! qh := u_div (u_high c dividend) (u_low c divisor) in
         let! rh := u_rem (u_high c dividend) (u_low c divisor) in
         let! d := new_unchecked (u_low c divisor) in
         let! '(q, r) := udiv256_by_128_to_128 c rh (u_low c dividend) d in
         Ret (u_from_words c qh q, u_set_low c remainder r)) in
    Ret (quotient, some_rem remainder)
  else
    let! '(quotient, remainder) := div_mod_knuth c dividend divisor in
    Ret (quotient, some_rem remainder).

(** Reading an out-parameter that was never written (MaybeUninit::assume_init);
    used by the callers of src/intrinsics/native/divmod.rs:400-421 *)
Definition assume_init {A} (o : option A) : res A :=
  match o with Some x => Ret x | None => UB "read of uninitialised memory" end.

(** src/intrinsics/native/divmod.rs:394-400 *)
Definition udiv2 (c : cfg) (r a : u256) : res u256 := res_map fst (udivmod4 c r a false).
(** src/intrinsics/native/divmod.rs:403-405 *)
Definition udiv3 (c : cfg) (a b : u256) : res u256 := res_map fst (udivmod4 c a b false).
(** src/intrinsics/native/divmod.rs:408-415 *)
Definition urem2 (c : cfg) (r a : u256) : res u256 :=
  let! '(_, m) := udivmod4 c r a true in assume_init m.
(** src/intrinsics/native/divmod.rs:418-421 *)
Definition urem3 (c : cfg) (a b : u256) : res u256 :=
  let! '(_, m) := udivmod4 c a b true in assume_init m.

(** src/intrinsics/native/divmod.rs:423-449 *)
Definition idivmod4 (c : cfg) (a b : i256) (want : bool) : res (i256 * option i256) :=
  let! s_a := i_op_shr c a 255 in
  let! s_b := i_op_shr c b 255 in
  let a := i_wrapping_sub c (i_op_xor a s_a) s_a in
  let b := i_wrapping_sub c (i_op_xor b s_b) s_b in
  let s_b := i_op_xor_assign s_b s_a in
  let! '(uq, ur) := udivmod4 c (i_as_u256 a) (i_as_u256 b) want in
  let q := u_as_i256 uq in
  let q := i_wrapping_sub c (i_op_xor q s_b) s_b in
  if want then
    let! ur := assume_init ur in
    let r := u_as_i256 ur in
    let r := i_wrapping_sub c (i_op_xor r s_a) s_a in
    Ret (q, Some r)
  else Ret (q, None).

(** src/intrinsics/native/divmod.rs:452-458 *)
Definition idiv2 (c : cfg) (r a : i256) : res i256 := res_map fst (idivmod4 c r a false).
(** src/intrinsics/native/divmod.rs:461-463 *)
Definition idiv3 (c : cfg) (a b : i256) : res i256 := res_map fst (idivmod4 c a b false).
(** src/intrinsics/native/divmod.rs:466-473 *)
Definition irem2 (c : cfg) (r a : i256) : res i256 :=
  let! '(_, m) := idivmod4 c r a true in assume_init m.
(** src/intrinsics/native/divmod.rs:476-479 *)
Definition irem3 (c : cfg) (a b : i256) : res i256 :=
  let! '(_, m) := idivmod4 c a b true in assume_init m.

(** ** Division operators: src/macros/ops.rs:231-244 *)

(** src/macros/ops.rs:231-244, Div for &U256 *)
Definition u_op_div (c : cfg) (a b : u256) : res u256 :=
  if u_eq_prim c b 0 then Panic "attempt to divide by zero" else udiv3 c a b.
(** src/macros/ops.rs:231-244, Rem for &U256 *)
Definition u_op_rem (c : cfg) (a b : u256) : res u256 :=
  if u_eq_prim c b 0 then Panic "attempt to calculate the remainder with a divisor of zero"
  else urem3 c a b.
(** src/macros/ops.rs:231-244, Div for &I256 *)
Definition i_op_div (c : cfg) (a b : i256) : res i256 :=
  if i_eq_prim c b 0 then Panic "attempt to divide by zero" else idiv3 c a b.
(** src/macros/ops.rs:231-244, Rem for &I256 *)
Definition i_op_rem (c : cfg) (a b : i256) : res i256 :=
  if i_eq_prim c b 0 then Panic "attempt to calculate the remainder with a divisor of zero"
  else irem3 c a b.
