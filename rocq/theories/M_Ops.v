(** * Operators
    src/uint/ops.rs, src/int/ops.rs, src/macros/ops.rs

    Each operator is modelled once per type, for borrowed operands: this is the
    implementation all other forms lead to.  The forms themselves are in M_Forms. *)

From Coq Require Import ZArith List String Bool.
From Verif Require Import M_Prim M_Words M_Intr M_Div M_Mul.
Import ListNotations.
Open Scope Z_scope.

(** ** + - * : src/macros/ops.rs:154-172 *)

(** src/macros/ops.rs:154-172 with uadd3, uaddc (src/uint/ops.rs:19) *)
Definition u_op_add (c : cfg) (a b : u256) : res u256 :=
  if debug_assertions c then
    let '(r, o) := uaddc c a b in
    if o : bool then Panic "attempt to add with overflow" else Ret r
  else Ret (add3 c a b).
(** src/macros/ops.rs:154-172 with umul3, umulc (src/uint/ops.rs:20) *)
Definition u_op_mul (c : cfg) (a b : u256) : res u256 :=
  if debug_assertions c then
    let! '(r, o) := umulc c a b in
    if o : bool then Panic "attempt to multiply with overflow" else Ret r
  else mul3 c a b.
(** src/macros/ops.rs:154-172 with usub3, usubc (src/uint/ops.rs:21) *)
Definition u_op_sub (c : cfg) (a b : u256) : res u256 :=
  if debug_assertions c then
    let '(r, o) := usubc c a b in
    if o : bool then Panic "attempt to subtract with overflow" else Ret r
  else Ret (sub3 c a b).
(** src/macros/ops.rs:154-172 with iadd3, iaddc (src/int/ops.rs:19) *)
Definition i_op_add (c : cfg) (a b : i256) : res i256 :=
  if debug_assertions c then
    let '(r, o) := iaddc c a b in
    if o : bool then Panic "attempt to add with overflow" else Ret r
  else Ret (iadd3 c a b).
(** src/macros/ops.rs:154-172 with imul3, imulc (src/int/ops.rs:20) *)
Definition i_op_mul (c : cfg) (a b : i256) : res i256 :=
  if debug_assertions c then
    let! '(r, o) := imulc c a b in
    if o : bool then Panic "attempt to multiply with overflow" else Ret r
  else imul3 c a b.
(** src/macros/ops.rs:154-172 with isub3, isubc (src/int/ops.rs:21) *)
Definition i_op_sub (c : cfg) (a b : i256) : res i256 :=
  if debug_assertions c then
    let '(r, o) := isubc c a b in
    if o : bool then Panic "attempt to subtract with overflow" else Ret r
  else Ret (isub3 c a b).

(** ** Compound assignment: src/macros/ops.rs:395-407.  The result is the new
    value of the left operand. *)

(** src/macros/ops.rs:395-407, AddAssign for U256 *)
Definition u_op_add_assign (c : cfg) (a b : u256) : res u256 :=
  if debug_assertions c then u_op_add c a b else Ret (add2 c a b).
(** src/macros/ops.rs:395-407, DivAssign *)
Definition u_op_div_assign (c : cfg) (a b : u256) : res u256 :=
  if debug_assertions c then u_op_div c a b else udiv2 c a b.
(** src/macros/ops.rs:395-407, MulAssign *)
Definition u_op_mul_assign (c : cfg) (a b : u256) : res u256 :=
  if debug_assertions c then u_op_mul c a b else mul2 c a b.
(** src/macros/ops.rs:395-407, RemAssign *)
Definition u_op_rem_assign (c : cfg) (a b : u256) : res u256 :=
  if debug_assertions c then u_op_rem c a b else urem2 c a b.
(** src/macros/ops.rs:395-407, SubAssign *)
Definition u_op_sub_assign (c : cfg) (a b : u256) : res u256 :=
  if debug_assertions c then u_op_sub c a b else Ret (sub2 c a b).
(** src/macros/ops.rs:395-407, AddAssign for I256 *)
Definition i_op_add_assign (c : cfg) (a b : i256) : res i256 :=
  if debug_assertions c then i_op_add c a b else Ret (iadd2 c a b).
(** src/macros/ops.rs:395-407, DivAssign *)
Definition i_op_div_assign (c : cfg) (a b : i256) : res i256 :=
  if debug_assertions c then i_op_div c a b else idiv2 c a b.
(** src/macros/ops.rs:395-407, MulAssign *)
Definition i_op_mul_assign (c : cfg) (a b : i256) : res i256 :=
  if debug_assertions c then i_op_mul c a b else imul2 c a b.
(** src/macros/ops.rs:395-407, RemAssign *)
Definition i_op_rem_assign (c : cfg) (a b : i256) : res i256 :=
  if debug_assertions c then i_op_rem c a b else irem2 c a b.
(** src/macros/ops.rs:395-407, SubAssign *)
Definition i_op_sub_assign (c : cfg) (a b : i256) : res i256 :=
  if debug_assertions c then i_op_sub c a b else Ret (isub2 c a b).

(** ** Operands of primitive type: src/macros/ops.rs:190-198, 423-424.
    [a $x $int::new(b)] and [$int::new(a) $x b]. *)

(** src/macros/ops.rs:190-193, 423-424: right operand u128 *)
Definition u_rhs_prim {R} (op : cfg -> u256 -> u256 -> R) (c : cfg) (a : u256) (b : Z) : R :=
  op c a (u_new c b).
(** src/macros/ops.rs:195-198: left operand u128 *)
Definition u_lhs_prim {R} (op : cfg -> u256 -> u256 -> R) (c : cfg) (a : Z) (b : u256) : R :=
  op c (u_new c a) b.
(** src/macros/ops.rs:190-193, 423-424: right operand i128 *)
Definition i_rhs_prim {R} (op : cfg -> i256 -> i256 -> R) (c : cfg) (a : i256) (b : Z) : R :=
  op c a (i_new c b).
(** src/macros/ops.rs:195-198: left operand i128 *)
Definition i_lhs_prim {R} (op : cfg -> i256 -> i256 -> R) (c : cfg) (a : Z) (b : i256) : R :=
  op c (i_new c a) b.

(** ** Shift amounts of other types: src/macros/ops.rs:284-330, 475-517 *)

(** The type of a shift amount: u32, another primitive integer (given by its
    numeric value), or one of the 256-bit types. src/macros/ops.rs:284-330 *)
Inductive amount :=
| Amt_u32 (v : Z)
| Amt_prim (v : Z)   (** i8 i16 i32 i64 i128 isize u8 u16 u64 u128 usize *)
| Amt_i256 (v : i256)
| Amt_u256 (v : u256).

(** src/uint/convert.rs:95-105 for u32: [as_u256] of a non-negative primitive *)
Definition u32_max_as_u256 (c : cfg) : u256 := u_from_words c 0 (2 ^ 32 - 1).
(** src/int/convert.rs:89-99 for u32 *)
Definition u32_as_i256 (c : cfg) (v : Z) : i256 := i_from_words c 0 (as_i 128 v).

(** u32::try_from: core for primitives; src/uint/convert.rs:168-174 for U256;
    src/int/convert.rs:169-175 for I256 *)
Definition amount_try_u32 (c : cfg) (a : amount) : option Z :=
  match a with
  | Amt_u32 v => Some v
  | Amt_prim v => if (0 <=? v) && (v <=? 2 ^ 32 - 1) then Some v else None
  | Amt_u256 x =>
      if u_le c x (u32_max_as_u256 c) then Some (as_u 32 (u_low c x)) else None
  | Amt_i256 x =>
      if i_ge c x (u32_as_i256 c 0) && i_le c x (u32_as_i256 c (2 ^ 32 - 1))
      then Some (as_u 32 (i_low c x)) else None
  end.

(** src/macros/ops.rs:299, 306: [b.as_u32()] (src/uint.rs:227-230, src/int.rs:223-226) and [b as u32] *)
Definition amount_as_u32 (c : cfg) (a : amount) : Z :=
  match a with
  | Amt_u32 v => v
  | Amt_prim v => as_u 32 v
  | Amt_u256 x => let '(_, lo) := u_into_words c x in as_u 32 lo
  | Amt_i256 x => let '(_, lo) := i_into_words c x in as_u 32 lo
  end.

(** src/macros/ops.rs:318-321, 507-510; for u32 amounts (lines 290-292) the amount itself *)
Definition amount_to_u32 (c : cfg) (a : amount) : Z :=
  if debug_assertions c then
    match amount_try_u32 c a with Some v => v | None => 2 ^ 32 - 1 end
  else amount_as_u32 c a.

(** src/macros/ops.rs:317-327 *)
Definition u_shl_amt (c : cfg) (a : u256) (b : amount) : res u256 := u_op_shl c a (amount_to_u32 c b).
(** src/macros/ops.rs:317-327 *)
Definition u_shr_amt (c : cfg) (a : u256) (b : amount) : res u256 := u_op_shr c a (amount_to_u32 c b).
(** src/macros/ops.rs:317-327 *)
Definition i_shl_amt (c : cfg) (a : i256) (b : amount) : res i256 := i_op_shl c a (amount_to_u32 c b).
(** src/macros/ops.rs:317-327 *)
Definition i_shr_amt (c : cfg) (a : i256) (b : amount) : res i256 := i_op_shr c a (amount_to_u32 c b).

(** src/macros/ops.rs:455-467, 506-513: shift assignment *)
Definition u_shl_assign (c : cfg) (a : u256) (b : amount) : res u256 :=
  let b := amount_to_u32 c b in
  if debug_assertions c then u_op_shl c a b else shl2 c a b.
(** src/macros/ops.rs:455-467, 506-513 *)
Definition u_shr_assign (c : cfg) (a : u256) (b : amount) : res u256 :=
  let b := amount_to_u32 c b in
  if debug_assertions c then u_op_shr c a b else shr2 c a b.
(** src/macros/ops.rs:455-467, 506-513 *)
Definition i_shl_assign (c : cfg) (a : i256) (b : amount) : res i256 :=
  let b := amount_to_u32 c b in
  if debug_assertions c then i_op_shl c a b else ishl2 c a b.
(** src/macros/ops.rs:455-467, 506-513; shr_assign of I256 uses isar2 (src/int/ops.rs:27) *)
Definition i_shr_assign (c : cfg) (a : i256) (b : amount) : res i256 :=
  let b := amount_to_u32 c b in
  if debug_assertions c then i_op_shr c a b else sar2 c a b.

(** ** Iterators: src/macros/iter.rs *)

(** Iterator::fold with an operation that may panic; src/macros/iter.rs:9,15 *)
Fixpoint fold_res {A B} (f : A -> B -> res A) (acc : A) (l : list B) : res A :=
  match l with
  | [] => Ret acc
  | x :: l' => let! acc' := f acc x in fold_res f acc' l'
  end.
(** src/macros/iter.rs:7-11, 19-23 *)
Definition u_sum (c : cfg) (l : list u256) : res u256 := fold_res (u_op_add c) U256_ZERO l.
(** src/macros/iter.rs:13-17, 25-29 *)
Definition u_product (c : cfg) (l : list u256) : res u256 := fold_res (u_op_mul c) (U256_ONE c) l.
(** src/macros/iter.rs:7-11, 19-23 *)
Definition i_sum (c : cfg) (l : list i256) : res i256 := fold_res (i_op_add c) I256_ZERO l.
(** src/macros/iter.rs:13-17, 25-29 *)
Definition i_product (c : cfg) (l : list i256) : res i256 := fold_res (i_op_mul c) (I256_ONE c) l.
