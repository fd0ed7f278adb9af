(** * Well-known expressions written with the crate's operators

    The Rust is given above each.  They are not code of the repository, the operations they call are. *)

From Coq Require Import ZArith List String Bool.
From Verif Require Import M_Prim M_Words M_Intr M_Div M_Mul M_Ops M_UintApi M_IntApi M_Convert.
Open Scope Z_scope.

(** (a & b) + ((a ^ b) >> 1) *)
Definition average (c : cfg) (a b : u256) : res u256 :=
  let! h := u_op_shr c (u_op_xor a b) 1 in u_op_add c (u_op_and a b) h.
Definition iaverage (c : cfg) (a b : i256) : res i256 :=
  let! h := i_op_shr c (i_op_xor a b) 1 in i_op_add c (i_op_and a b) h.

(** (a | b) - ((a ^ b) >> 1) *)
Definition average_up (c : cfg) (a b : u256) : res u256 :=
  let! h := u_op_shr c (u_op_xor a b) 1 in u_op_sub c (u_op_or a b) h.
Definition iaverage_up (c : cfg) (a b : i256) : res i256 :=
  let! h := i_op_shr c (i_op_xor a b) 1 in i_op_sub c (i_op_or a b) h.

(** a & a.wrapping_neg() *)
Definition lowest_bit (c : cfg) (a : u256) : u256 := u_op_and a (u_wrapping_neg c a).
(** a & (a - U256::ONE) *)
Definition drop_lowest (c : cfg) (a : u256) : res u256 :=
  let! p := u_op_sub c a (U256_ONE c) in Ret (u_op_and a p).

(** (U256::ONE << k) - U256::ONE *)
Definition mask (c : cfg) (k : Z) : res u256 :=
  let! p := u_op_shl c (U256_ONE c) k in u_op_sub c p (U256_ONE c).
(** a & mask(k) *)
Definition low_bits (c : cfg) (a : u256) (k : Z) : res u256 := let! m := mask c k in Ret (u_op_and a m).
(** a & !mask(k) *)
Definition align_down (c : cfg) (a : u256) (k : Z) : res u256 := let! m := mask c k in Ret (u_op_and a (u_op_not m)).
(** (a + mask(k)) & !mask(k) *)
Definition align_up (c : cfg) (a : u256) (k : Z) : res u256 :=
  let! m := mask c k in let! s := u_op_add c a m in Ret (u_op_and s (u_op_not m)).

(** a / b + U256::from(a % b != U256::ZERO) *)
Definition ceil_div (c : cfg) (a b : u256) : res u256 :=
  let! q := u_op_div c a b in let! r := u_op_rem c a b in
  u_op_add c q (u_from_bool c (negb (u_eq c r U256_ZERO))).

(** b ^ ((a ^ b) & U256::from(a < b).wrapping_neg()) *)
Definition select_min (c : cfg) (a b : u256) : u256 :=
  u_op_xor b (u_op_and (u_op_xor a b) (u_wrapping_neg c (u_from_bool c (u_lt c a b)))).

(** let s = x >> 255; (x ^ s) - s *)
Definition branchless_abs (c : cfg) (x : i256) : res i256 :=
  let! s := i_op_shr c x 255 in i_op_sub c (i_op_xor x s) s.

(** a ^= b; b ^= a; a ^= b; (a, b) *)
Definition xor_swap (a b : u256) : u256 * u256 :=
  let a := u_op_xor_assign a b in let b := u_op_xor_assign b a in let a := u_op_xor_assign a b in (a, b).

(** a.wrapping_add(b) < a *)
Definition carries (c : cfg) (a b : u256) : bool := u_lt c (u_wrapping_add c a b) a.
(** let r = x.wrapping_add(y); ((x ^ r) & (y ^ r)).is_negative() *)
Definition overflows (c : cfg) (x y : i256) : bool :=
  let r := i_wrapping_add c x y in i_is_negative c (i_op_and (i_op_xor x r) (i_op_xor y r)).
(** (x ^ y).is_negative() *)
Definition signs_differ (c : cfg) (x y : i256) : bool := i_is_negative c (i_op_xor x y).
