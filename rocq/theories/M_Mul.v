(** * Multiplication intrinsics and negation
    src/intrinsics/native/mul.rs, src/macros/ops.rs:121-143 *)

From Coq Require Import ZArith List String Bool.
From Verif Require Import M_Prim M_Words M_Llvm M_Intr M_Div.
Import ListNotations.
Open Scope Z_scope.

(** src/intrinsics/native/mul.rs:14-32 *)
Definition umulddi3 (c : cfg) (a b : Z) : res u256 :=
  let M := Z.shiftr (2 ^ 128 - 1) 64 in
  let! low := u_mul c 128 (Z.land a M) (Z.land b M) in
  let! t := p_shr c 128 low 64 in
  let low := Z.land low M in
  let! ah := p_shr c 128 a 64 in
  let! x := u_mul c 128 ah (Z.land b M) in
  let! t := u_add c 128 t x in
  let! y := u_shl c 128 (Z.land t M) 64 in
  let! low := u_add c 128 low y in
  let! high := p_shr c 128 t 64 in
  let! t := p_shr c 128 low 64 in
  let low := Z.land low M in
  let! bh := p_shr c 128 b 64 in
  let! x := u_mul c 128 bh (Z.land a M) in
  let! t := u_add c 128 t x in
  let! y := u_shl c 128 (Z.land t M) 64 in
  let! low := u_add c 128 low y in
  let! z := p_shr c 128 t 64 in
  let! high := u_add c 128 high z in
  let! w := u_mul c 128 ah bh in
  let! high := u_add c 128 high w in
  Ret (u_from_words c high low).

(** src/intrinsics/native/mul.rs:44-52 *)
Definition n_mul3 (c : cfg) (a b : u256) : res u256 :=
  let! r := umulddi3 c (u_low c a) (u_low c b) in
  let hi_lo := wrapping_mul 128 (u_high c a) (u_low c b) in
  let lo_hi := wrapping_mul 128 (u_low c a) (u_high c b) in
  Ret (u_set_high c r (wrapping_add 128 (u_high c r) (wrapping_add 128 hi_lo lo_hi))).

(** src/intrinsics/native/mul.rs:35-41 *)
Definition n_mul2 (c : cfg) (r a : u256) : res u256 := n_mul3 c r a.

(** src/intrinsics/native/mul.rs:55-68 *)
Definition n_umulc (c : cfg) (a b : u256) : res (u256 * bool) :=
  let! r := umulddi3 c (u_low c a) (u_low c b) in
  let '(hi_lo, overflow_hi_lo) := overflowing_mul 128 (u_high c a) (u_low c b) in
  let '(lo_hi, overflow_lo_hi) := overflowing_mul 128 (u_low c a) (u_high c b) in
  let '(hi, overflow_hi) := overflowing_add 128 hi_lo lo_hi in
  let '(high, overflow_high) := overflowing_add 128 (u_high c r) hi in
  let r := u_set_high c r high in
  let overflow_hi_hi := negb (u_high c a =? 0) && negb (u_high c b =? 0) in
  Ret (r, overflow_hi_lo || overflow_lo_hi || overflow_hi || overflow_high || overflow_hi_hi).

(** src/intrinsics.rs:15-24, src/intrinsics/llvm.rs:52-54 *)
Definition mul2 (c : cfg) (r a : u256) : res u256 := if llvm c then Ret (l_mul2 c r a) else n_mul2 c r a.
(** src/intrinsics.rs:15-24, src/intrinsics/llvm.rs:52-54 *)
Definition mul3 (c : cfg) (a b : u256) : res u256 := if llvm c then Ret (l_mul3 c a b) else n_mul3 c a b.
(** src/intrinsics.rs:15-24, src/intrinsics/llvm.rs:52-54 *)
Definition umulc (c : cfg) (a b : u256) : res (u256 * bool) :=
  if llvm c then Ret (l_umulc c a b) else n_umulc c a b.

(** src/intrinsics/signed.rs:36-38 *)
Definition imul2 (c : cfg) (r a : i256) : res i256 :=
  res_map u_as_i256 (mul2 c (i_as_u256 r) (i_as_u256 a)).
(** src/intrinsics/signed.rs:41-43 *)
Definition imul3 (c : cfg) (a b : i256) : res i256 :=
  res_map u_as_i256 (mul3 c (i_as_u256 a) (i_as_u256 b)).

(** src/macros/ops.rs:129-139, Neg for I256 *)
Definition i_op_neg (c : cfg) (x : i256) : res i256 :=
  if debug_assertions c && i_eq c x (I256_MIN c) then Panic "attempt to negate with overflow"
  else Ret (iadd2 c (i_op_not x) (I256_ONE c)).

(** src/intrinsics/native/mul.rs:71-91, used with both sets of intrinsics (src/intrinsics/llvm.rs:6-12);
    it calls the [mul3] of its own file *)
Definition imulc (c : cfg) (a b : i256) : res (i256 * bool) :=
  let! r := res_map u_as_i256 (n_mul3 c (i_as_u256 a) (i_as_u256 b)) in
  if i_eq c a (I256_MIN c) then
    Ret (r, negb (i_eq_prim c b 0) && negb (i_eq_prim c b 1))
  else if i_eq c b (I256_MIN c) then
    Ret (r, negb (i_eq_prim c a 0) && negb (i_eq_prim c a 1))
  else
  let! sa := i_op_shr c a 255 in
  let abs_a := i_wrapping_sub c (i_op_xor a sa) sa in
  let! sb := i_op_shr c b 255 in
  let abs_b := i_wrapping_sub c (i_op_xor b sb) sb in
  if is_lt (i_cmp_prim c abs_a 2) || is_lt (i_cmp_prim c abs_b 2) then Ret (r, false)
  else if i_eq c sa sb then
    let! q := i_op_div c (I256_MAX c) abs_b in
    Ret (r, i_gt c abs_a q)
  else
    let! nb := i_op_neg c abs_b in
    let! q := i_op_div c (I256_MIN c) nb in
    Ret (r, i_gt c abs_a q).
