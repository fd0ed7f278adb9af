(** * Add, subtract, shift, rotate and count intrinsics, and the operators they need
    src/intrinsics/native/{add,sub,shl,shr,rot,ctz}.rs, src/intrinsics/signed.rs,
    parts of src/macros/ops.rs.

    Out-parameters ([&mut MaybeUninit<_>], [&mut U256]) are returned.

    The names n_... are the native intrinsics.  The names without it are what
    src/intrinsics.rs:15-24 exports: the native ones or those of M_Llvm.v. *)

From Coq Require Import ZArith List String Bool.
From Verif Require Import M_Prim M_Words M_Llvm.
Import ListNotations.
Open Scope Z_scope.

(** ** add.rs *)

(** src/intrinsics/native/add.rs:7-11; [r.high()] is read before being overwritten,
    and the low word was already replaced *)
Definition n_add2 (c : cfg) (r a : u256) : u256 :=
  let '(lo, carry) := overflowing_add 128 (u_low c r) (u_low c a) in
  let r := u_set_low c r lo in
  u_set_high c r (wrapping_add 128 (wrapping_add 128 (u_high c r) (Z.b2z carry)) (u_high c a)).
(** src/intrinsics.rs:15-24, src/intrinsics/llvm.rs:40-70 *)
Definition add2 (c : cfg) (r a : u256) : u256 :=
  if llvm c then l_add2 c r a else n_add2 c r a.

(** src/intrinsics/native/add.rs:14-19 *)
Definition n_add3 (c : cfg) (a b : u256) : u256 :=
  let '(lo, carry) := overflowing_add 128 (u_low c a) (u_low c b) in
  let hi := wrapping_add 128 (wrapping_add 128 (u_high c a) (Z.b2z carry)) (u_high c b) in
  u_from_words c hi lo.
(** src/intrinsics.rs:15-24, src/intrinsics/llvm.rs:40-70 *)
Definition add3 (c : cfg) (a b : u256) : u256 :=
  if llvm c then l_add3 c a b else n_add3 c a b.

(** src/intrinsics/native/add.rs:22-29 *)
Definition n_uaddc (c : cfg) (a b : u256) : u256 * bool :=
  let '(lo, carry_lo) := overflowing_add 128 (u_low c a) (u_low c b) in
  let '(hi, carry_c) := overflowing_add 128 (u_high c a) (Z.b2z carry_lo) in
  let '(hi, carry_hi) := overflowing_add 128 hi (u_high c b) in
  (u_from_words c hi lo, carry_c || carry_hi).
(** src/intrinsics.rs:15-24, src/intrinsics/llvm.rs:40-70 *)
Definition uaddc (c : cfg) (a b : u256) : u256 * bool :=
  if llvm c then l_uaddc c a b else n_uaddc c a b.

(** src/intrinsics/signed.rs:16-18 *)
Definition iadd2 (c : cfg) (r a : i256) : i256 :=
  u_as_i256 (add2 c (i_as_u256 r) (i_as_u256 a)).

(** src/intrinsics/signed.rs:21-23 *)
Definition iadd3 (c : cfg) (a b : i256) : i256 :=
  u_as_i256 (add3 c (i_as_u256 a) (i_as_u256 b)).

(** src/intrinsics/native/add.rs:32-36 *)
Definition n_iaddc (c : cfg) (a b : i256) : i256 * bool :=
  let s := u_as_i256 (n_add3 c (i_as_u256 a) (i_as_u256 b)) in
  (s, (is_ge (i_cmp_prim c b 0) && i_lt c s a) || (is_lt (i_cmp_prim c b 0) && i_ge c s a)).
(** src/intrinsics.rs:15-24, src/intrinsics/llvm.rs:40-70 *)
Definition iaddc (c : cfg) (a b : i256) : i256 * bool :=
  if llvm c then l_iaddc c a b else n_iaddc c a b.

(** ** sub.rs *)

(** src/intrinsics/native/sub.rs:7-11 *)
Definition n_sub2 (c : cfg) (r a : u256) : u256 :=
  let '(lo, carry) := overflowing_sub 128 (u_low c r) (u_low c a) in
  let r := u_set_low c r lo in
  u_set_high c r (wrapping_sub 128 (wrapping_sub 128 (u_high c r) (Z.b2z carry)) (u_high c a)).
(** src/intrinsics.rs:15-24, src/intrinsics/llvm.rs:40-70 *)
Definition sub2 (c : cfg) (r a : u256) : u256 :=
  if llvm c then l_sub2 c r a else n_sub2 c r a.

(** src/intrinsics/native/sub.rs:14-19 *)
Definition n_sub3 (c : cfg) (a b : u256) : u256 :=
  let '(lo, carry) := overflowing_sub 128 (u_low c a) (u_low c b) in
  let hi := wrapping_sub 128 (wrapping_sub 128 (u_high c a) (Z.b2z carry)) (u_high c b) in
  u_from_words c hi lo.
(** src/intrinsics.rs:15-24, src/intrinsics/llvm.rs:40-70 *)
Definition sub3 (c : cfg) (a b : u256) : u256 :=
  if llvm c then l_sub3 c a b else n_sub3 c a b.

(** src/intrinsics/native/sub.rs:22-29 *)
Definition n_usubc (c : cfg) (a b : u256) : u256 * bool :=
  let '(lo, carry_lo) := overflowing_sub 128 (u_low c a) (u_low c b) in
  let '(hi, carry_c) := overflowing_sub 128 (u_high c a) (Z.b2z carry_lo) in
  let '(hi, carry_hi) := overflowing_sub 128 hi (u_high c b) in
  (u_from_words c hi lo, carry_c || carry_hi).
(** src/intrinsics.rs:15-24, src/intrinsics/llvm.rs:40-70 *)
Definition usubc (c : cfg) (a b : u256) : u256 * bool :=
  if llvm c then l_usubc c a b else n_usubc c a b.

(** src/intrinsics/signed.rs:26-28 *)
Definition isub2 (c : cfg) (r a : i256) : i256 :=
  u_as_i256 (sub2 c (i_as_u256 r) (i_as_u256 a)).

(** src/intrinsics/signed.rs:31-33 *)
Definition isub3 (c : cfg) (a b : i256) : i256 :=
  u_as_i256 (sub3 c (i_as_u256 a) (i_as_u256 b)).

(** src/intrinsics/native/sub.rs:32-36 *)
Definition n_isubc (c : cfg) (a b : i256) : i256 * bool :=
  let s := u_as_i256 (n_sub3 c (i_as_u256 a) (i_as_u256 b)) in
  (s, (is_ge (i_cmp_prim c b 0) && i_gt c s a) || (is_lt (i_cmp_prim c b 0) && i_le c s a)).
(** src/intrinsics.rs:15-24, src/intrinsics/llvm.rs:40-70 *)
Definition isubc (c : cfg) (a b : i256) : i256 * bool :=
  if llvm c then l_isubc c a b else n_isubc c a b.

(** src/int/api.rs:1051-1055 (needed by the division intrinsics) *)
Definition i_wrapping_sub (c : cfg) (a b : i256) : i256 := isub3 c a b.

(** ** Bitwise operators: src/macros/ops.rs *)

(** src/macros/ops.rs:52-57 (Not) for U256 *)
Definition u_op_not (x : u256) : u256 := mkU (u_not 128 (uw0 x)) (u_not 128 (uw1 x)).
(** src/macros/ops.rs:52-57 (Not) for I256 *)
Definition i_op_not (x : i256) : i256 := mkI (Z.lnot (iw0 x)) (Z.lnot (iw1 x)).

(** src/macros/ops.rs:369-378 (BitAnd, BitOr, BitXor) for U256 *)
Definition u_op_and (a b : u256) : u256 := mkU (Z.land (uw0 a) (uw0 b)) (Z.land (uw1 a) (uw1 b)).
(** src/macros/ops.rs:369-378 *)
Definition u_op_or (a b : u256) : u256 := mkU (Z.lor (uw0 a) (uw0 b)) (Z.lor (uw1 a) (uw1 b)).
(** src/macros/ops.rs:369-378 *)
Definition u_op_xor (a b : u256) : u256 := mkU (Z.lxor (uw0 a) (uw0 b)) (Z.lxor (uw1 a) (uw1 b)).
(** src/macros/ops.rs:369-378 for I256 *)
Definition i_op_and (a b : i256) : i256 := mkI (Z.land (iw0 a) (iw0 b)) (Z.land (iw1 a) (iw1 b)).
(** src/macros/ops.rs:369-378 *)
Definition i_op_or (a b : i256) : i256 := mkI (Z.lor (iw0 a) (iw0 b)) (Z.lor (iw1 a) (iw1 b)).
(** src/macros/ops.rs:369-378 *)
Definition i_op_xor (a b : i256) : i256 := mkI (Z.lxor (iw0 a) (iw0 b)) (Z.lxor (iw1 a) (iw1 b)).

(** src/macros/ops.rs:528-536: the assignment forms update both words in place *)
Definition u_op_and_assign (a b : u256) : u256 :=
  let a0 := Z.land (uw0 a) (uw0 b) in let a := mkU a0 (uw1 a) in
  mkU (uw0 a) (Z.land (uw1 a) (uw1 b)).
(** src/macros/ops.rs:528-536 *)
Definition u_op_or_assign (a b : u256) : u256 :=
  let a0 := Z.lor (uw0 a) (uw0 b) in let a := mkU a0 (uw1 a) in
  mkU (uw0 a) (Z.lor (uw1 a) (uw1 b)).
(** src/macros/ops.rs:528-536 *)
Definition u_op_xor_assign (a b : u256) : u256 :=
  let a0 := Z.lxor (uw0 a) (uw0 b) in let a := mkU a0 (uw1 a) in
  mkU (uw0 a) (Z.lxor (uw1 a) (uw1 b)).
(** src/macros/ops.rs:528-536 for I256 *)
Definition i_op_and_assign (a b : i256) : i256 :=
  let a0 := Z.land (iw0 a) (iw0 b) in let a := mkI a0 (iw1 a) in
  mkI (iw0 a) (Z.land (iw1 a) (iw1 b)).
(** src/macros/ops.rs:528-536 *)
Definition i_op_or_assign (a b : i256) : i256 :=
  let a0 := Z.lor (iw0 a) (iw0 b) in let a := mkI a0 (iw1 a) in
  mkI (iw0 a) (Z.lor (iw1 a) (iw1 b)).
(** src/macros/ops.rs:528-536 *)
Definition i_op_xor_assign (a b : i256) : i256 :=
  let a0 := Z.lxor (iw0 a) (iw0 b) in let a := mkI a0 (iw1 a) in
  mkI (iw0 a) (Z.lxor (iw1 a) (iw1 b)).

(** ** shl.rs *)

(** src/intrinsics/native/shl.rs:7-19 *)
Definition n_shl2 (c : cfg) (r : u256) (a : Z) : res u256 :=
  let! _ := debug_assert c (a <? 256) "shl intrinsic called with overflowing shift" in
  if a =? 0 then Ret r
  else if a <? 128 then
    let! h := u_shl c 128 (u_high c r) a in
    let! k := u_sub c 32 128 a in
    let! l := p_shr c 128 (u_low c r) k in
    let! lo := u_shl c 128 (u_low c r) a in
    Ret (u_from_words c (Z.lor h l) lo)
  else
    let! hi := u_shl c 128 (u_low c r) (Z.land a 127) in
    Ret (u_from_words c hi 0).
(** src/intrinsics.rs:15-24, src/intrinsics/llvm.rs:40-70 *)
Definition shl2 (c : cfg) (r : u256) (a : Z) : res u256 :=
  if llvm c then Ret (l_shl2 c r a) else n_shl2 c r a.

(** src/intrinsics/native/shl.rs:22-34 *)
Definition n_shl3 (c : cfg) (a : u256) (b : Z) : res u256 :=
  let! _ := debug_assert c (b <? 256) "shl intrinsic called with overflowing shift" in
  if b =? 0 then Ret (u_from_words c (u_high c a) (u_low c a))
  else if b <? 128 then
    let! h := u_shl c 128 (u_high c a) b in
    let! k := u_sub c 32 128 b in
    let! l := p_shr c 128 (u_low c a) k in
    let! lo := u_shl c 128 (u_low c a) b in
    Ret (u_from_words c (Z.lor h l) lo)
  else
    let! hi := u_shl c 128 (u_low c a) (Z.land b 127) in
    Ret (u_from_words c hi 0).
(** src/intrinsics.rs:15-24, src/intrinsics/llvm.rs:40-70 *)
Definition shl3 (c : cfg) (a : u256) (b : Z) : res u256 :=
  if llvm c then Ret (l_shl3 c a b) else n_shl3 c a b.

(** src/intrinsics/signed.rs:46-48 *)
Definition ishl2 (c : cfg) (r : i256) (a : Z) : res i256 :=
  res_map u_as_i256 (shl2 c (i_as_u256 r) a).

(** src/intrinsics/signed.rs:51-53 *)
Definition ishl3 (c : cfg) (a : i256) (b : Z) : res i256 :=
  res_map u_as_i256 (shl3 c (i_as_u256 a) b).

(** ** shr.rs *)

(** src/intrinsics/native/shr.rs:7-22 *)
Definition n_sar2 (c : cfg) (r : i256) (a : Z) : res i256 :=
  let! _ := debug_assert c (a <? 256) "shr intrinsic called with overflowing shift" in
  if a =? 0 then Ret r
  else if a <? 128 then
    let! hi := p_shr c 128 (i_high c r) a in
    let! l := p_shr c 128 (as_u 128 (i_low c r)) a in
    let! k := u_sub c 32 128 a in
    let! h := u_shl c 128 (as_u 128 (i_high c r)) k in
    Ret (i_from_words c hi (as_i 128 (Z.lor l h)))
  else
    let! hi := p_shr c 128 (i_high c r) 127 in
    let! lo := p_shr c 128 (i_high c r) (Z.land a 127) in
    Ret (i_from_words c hi lo).
(** src/intrinsics.rs:15-24, src/intrinsics/llvm.rs:40-70 *)
Definition sar2 (c : cfg) (r : i256) (a : Z) : res i256 :=
  if llvm c then Ret (l_sar2 c r a) else n_sar2 c r a.

(** src/intrinsics/native/shr.rs:25-40 *)
Definition n_sar3 (c : cfg) (a : i256) (b : Z) : res i256 :=
  let! _ := debug_assert c (b <? 256) "shr intrinsic called with overflowing shift" in
  if b =? 0 then Ret (i_from_words c (i_high c a) (i_low c a))
  else if b <? 128 then
    let! hi := p_shr c 128 (i_high c a) b in
    let! l := p_shr c 128 (as_u 128 (i_low c a)) b in
    let! k := u_sub c 32 128 b in
    let! h := u_shl c 128 (as_u 128 (i_high c a)) k in
    Ret (i_from_words c hi (as_i 128 (Z.lor l h)))
  else
    let! hi := p_shr c 128 (i_high c a) 127 in
    let! lo := p_shr c 128 (i_high c a) (Z.land b 127) in
    Ret (i_from_words c hi lo).
(** src/intrinsics.rs:15-24, src/intrinsics/llvm.rs:40-70 *)
Definition sar3 (c : cfg) (a : i256) (b : Z) : res i256 :=
  if llvm c then Ret (l_sar3 c a b) else n_sar3 c a b.

(** src/intrinsics/native/shr.rs:43-55 *)
Definition n_shr2 (c : cfg) (r : u256) (a : Z) : res u256 :=
  let! _ := debug_assert c (a <? 256) "shr intrinsic called with overflowing shift" in
  if a =? 0 then Ret r
  else if a <? 128 then
    let! hi := p_shr c 128 (u_high c r) a in
    let! l := p_shr c 128 (u_low c r) a in
    let! k := u_sub c 32 128 a in
    let! h := u_shl c 128 (u_high c r) k in
    Ret (u_from_words c hi (Z.lor l h))
  else
    let! lo := p_shr c 128 (u_high c r) (Z.land a 127) in
    Ret (u_from_words c 0 lo).
(** src/intrinsics.rs:15-24, src/intrinsics/llvm.rs:40-70 *)
Definition shr2 (c : cfg) (r : u256) (a : Z) : res u256 :=
  if llvm c then Ret (l_shr2 c r a) else n_shr2 c r a.

(** src/intrinsics/native/shr.rs:58-70 *)
Definition n_shr3 (c : cfg) (a : u256) (b : Z) : res u256 :=
  let! _ := debug_assert c (b <? 256) "shr intrinsic called with overflowing shift" in
  if b =? 0 then Ret (u_from_words c (u_high c a) (u_low c a))
  else if b <? 128 then
    let! hi := p_shr c 128 (u_high c a) b in
    let! l := p_shr c 128 (u_low c a) b in
    let! k := u_sub c 32 128 b in
    let! h := u_shl c 128 (u_high c a) k in
    Ret (u_from_words c hi (Z.lor l h))
  else
    let! lo := p_shr c 128 (u_high c a) (Z.land b 127) in
    Ret (u_from_words c 0 lo).
(** src/intrinsics.rs:15-24, src/intrinsics/llvm.rs:40-70 *)
Definition shr3 (c : cfg) (a : u256) (b : Z) : res u256 :=
  if llvm c then Ret (l_shr3 c a b) else n_shr3 c a b.

(** ** Shift operators with a u32 amount: src/macros/ops.rs:261-276 *)

(** src/macros/ops.rs:261-276, Shl<u32> for &U256 *)
Definition u_op_shl (c : cfg) (a : u256) (rhs : Z) : res u256 :=
  if debug_assertions c && (255 <? rhs) then Panic "attempt to shift left with overflow"
  else shl3 c a rhs.
(** src/macros/ops.rs:261-276, Shr<u32> for &U256 *)
Definition u_op_shr (c : cfg) (a : u256) (rhs : Z) : res u256 :=
  if debug_assertions c && (255 <? rhs) then Panic "attempt to shift right with overflow"
  else shr3 c a rhs.
(** src/macros/ops.rs:261-276, Shl<u32> for &I256 *)
Definition i_op_shl (c : cfg) (a : i256) (rhs : Z) : res i256 :=
  if debug_assertions c && (255 <? rhs) then Panic "attempt to shift left with overflow"
  else ishl3 c a rhs.
(** src/macros/ops.rs:261-276, Shr<u32> for &I256 *)
Definition i_op_shr (c : cfg) (a : i256) (rhs : Z) : res i256 :=
  if debug_assertions c && (255 <? rhs) then Panic "attempt to shift right with overflow"
  else sar3 c a rhs.

(** ** rot.rs *)

(** src/intrinsics/native/rot.rs:8-10; [256 - b] is u32 arithmetic *)
Definition n_rol3 (c : cfg) (a : u256) (b : Z) : res u256 :=
  let! l := u_op_shl c a (Z.land b 255) in
  let! k := u_sub c 32 256 b in
  let! r := u_op_shr c a (Z.land k 255) in
  Ret (u_op_or l r).
(** src/intrinsics.rs:15-24, src/intrinsics/llvm.rs:40-70 *)
Definition rol3 (c : cfg) (a : u256) (b : Z) : res u256 :=
  if llvm c then Ret (l_rol3 c a b) else n_rol3 c a b.

(** src/intrinsics/native/rot.rs:13-15 *)
Definition n_ror3 (c : cfg) (a : u256) (b : Z) : res u256 :=
  let! r := u_op_shr c a (Z.land b 255) in
  let! k := u_sub c 32 256 b in
  let! l := u_op_shl c a (Z.land k 255) in
  Ret (u_op_or r l).
(** src/intrinsics.rs:15-24, src/intrinsics/llvm.rs:40-70 *)
Definition ror3 (c : cfg) (a : u256) (b : Z) : res u256 :=
  if llvm c then Ret (l_ror3 c a b) else n_ror3 c a b.

(** src/intrinsics/signed.rs:56-58 *)
Definition irol3 (c : cfg) (a : i256) (b : Z) : res i256 := res_map u_as_i256 (rol3 c (i_as_u256 a) b).
(** src/intrinsics/signed.rs:61-63 *)
Definition iror3 (c : cfg) (a : i256) (b : Z) : res i256 := res_map u_as_i256 (ror3 c (i_as_u256 a) b).

(** ** ctz.rs *)

(** src/intrinsics/native/ctz.rs:7-10; the negation of 0 or 1 as i128 cannot overflow *)
Definition n_ctlz (c : cfg) (a : u256) : res Z :=
  let f := as_u 128 (- Z.b2z (u_high c a =? 0)) in
  u_add c 32
    (leading_zeros 128 (Z.lor (Z.land (u_high c a) (u_not 128 f)) (Z.land (u_low c a) f)))
    (Z.land (as_u 32 f) 128).
(** src/intrinsics.rs:15-24, src/intrinsics/llvm.rs:40-70 *)
Definition ctlz (c : cfg) (a : u256) : res Z :=
  if llvm c then Ret (l_ctlz c a) else n_ctlz c a.

(** src/intrinsics/native/ctz.rs:13-16 *)
Definition n_cttz (c : cfg) (a : u256) : res Z :=
  let f := as_u 128 (- Z.b2z (u_low c a =? 0)) in
  u_add c 32
    (trailing_zeros 128 (Z.lor (Z.land (u_high c a) f) (Z.land (u_low c a) (u_not 128 f))))
    (Z.land (as_u 32 f) 128).
(** src/intrinsics.rs:15-24, src/intrinsics/llvm.rs:40-70 *)
Definition cttz (c : cfg) (a : u256) : res Z :=
  if llvm c then Ret (l_cttz c a) else n_cttz c a.

(** src/intrinsics/signed.rs:66-68 *)
Definition ictlz (c : cfg) (a : i256) : res Z := ctlz c (i_as_u256 a).
(** src/intrinsics/signed.rs:71-73 *)
Definition icttz (c : cfg) (a : i256) : res Z := cttz c (i_as_u256 a).
