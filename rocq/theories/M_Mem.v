(** * Memory: the functions writing through references
    src/intrinsics/native/*.rs, src/intrinsics/signed.rs, src/macros/ops.rs, and the
    methods calling [MaybeUninit::assume_init].

    The other files return what is written through [&mut MaybeUninit<_>] and
    [&mut U256] parameters.  Here these parameters are places in a memory, so that
    one can say what a place holds after a panic, that no other place changes and
    that nothing is read before being written.

    Shared references [&U256] are the values they refer to: for as long as they
    live nothing can write to what they refer to.  A place holds the two words as
    U256; an I256 at the same place is its reinterpretation (src/intrinsics/cast.rs).
    Expressions inside a function body that do not involve its own references (such
    as [a >> 255]) are run by the functions of the other files. *)

From Coq Require Import ZArith String List Bool.
From Verif Require Import M_Prim M_Words M_Llvm M_Intr M_Div M_Mul M_Ops M_UintApi M_IntApi.
Import ListNotations.
Open Scope Z_scope.

(** ** Memory *)

(** A place that was not written holds [None]. The memory of the references, e.g.
    src/intrinsics/native/add.rs:14. *)
Definition mem := list (option u256).
(** What a reference [&mut U256] or [&mut MaybeUninit<U256>] points to, e.g. src/intrinsics/native/add.rs:7 and 14 *)
Definition place := nat.

(** the memory after a write, e.g. src/intrinsics/native/add.rs:9 *)
Fixpoint put (m : mem) (p : place) (x : u256) : mem :=
  match m, p with
  | [], _ => []
  | _ :: m', O => Some x :: m'
  | y :: m', S p' => y :: put m' p' x
  end.

(** Outcome and the memory left behind, also after a panic. E.g. src/intrinsics/native/add.rs:7-11. *)
Definition mm (A : Type) := mem -> res A * mem.
(** e.g. src/intrinsics/native/add.rs:28 *)
Definition mret {A} (x : A) : mm A := fun m => (Ret x, m).
(** sequencing, as [bind]; e.g. src/intrinsics/native/add.rs:7-11 *)
Definition mbind {A B} (f : mm A) (k : A -> mm B) : mm B := fun m =>
  match f m with
  | (Ret x, m') => k x m'
  | (Panic s, m') => (Panic s, m')
  | (UB s, m') => (UB s, m')
  | (NoFuel, m') => (NoFuel, m')
  end.
(** an expression that does not touch the memory, e.g. src/intrinsics/native/divmod.rs:124 *)
Definition lift {A} (r : res A) : mm A := fun m => (r, m).
Notation "'let*' x ':=' e 'in' k" := (mbind e (fun x => k))
  (at level 200, x pattern, e at level 200, k at level 200).
Notation "'let*' ' p ':=' e 'in' k" := (mbind e (fun p => k))
  (at level 200, p strict pattern, e at level 200, k at level 200).

(** *p, assume_init, assume_init_ref; e.g. src/intrinsics/native/add.rs:8, src/macros/ops.rs:170 *)
Definition get (p : place) : mm u256 := fun m =>
  match nth_error m p with
  | Some (Some x) => (Ret x, m)
  | Some None => (UB "read of uninitialised memory", m)
  | None => (UB "read outside of the memory", m)
  end.
(** *p = x, MaybeUninit::write; e.g. src/intrinsics/native/add.rs:9, src/intrinsics/native/add.rs:18 *)
Definition set (p : place) (x : u256) : mm unit := fun m =>
  match nth_error m p with
  | Some _ => (Ret tt, put m p x)
  | None => (UB "write outside of the memory", m)
  end.
(** let mut p = MaybeUninit::uninit(); the place is gone at the end of the block; e.g. src/macros/ops.rs:159-170 *)
Definition local {A} (body : place -> mm A) : mm A := fun m =>
  let '(r, m') := body (length m) (m ++ [None]) in (r, firstn (length m) m').

(** the same through I256 references: src/intrinsics/cast.rs:4-17 *)
Definition geti (p : place) : mm i256 := let* x := get p in mret (u_as_i256 x).
(** writing through such a reference: src/intrinsics/cast.rs:4-17 *)
Definition seti (p : place) (x : i256) : mm unit := set p (i_as_u256 x).

(** ** Intrinsics *)

(** src/intrinsics/native/add.rs:7-11; intrinsics/build/intrinsics.rs *)
Definition m_add2 (c : cfg) (r : place) (a : u256) : mm unit :=
  if llvm c then let* x := get r in set r (l_add2 c x a)
  else
    let* x := get r in
    let '(lo, carry) := overflowing_add 128 (u_low c x) (u_low c a) in
    let* x := get r in
    let* _ := set r (u_set_low c x lo) in
    let* x := get r in
    let hi := wrapping_add 128 (wrapping_add 128 (u_high c x) (Z.b2z carry)) (u_high c a) in
    let* x := get r in
    set r (u_set_high c x hi).
(** src/intrinsics/native/add.rs:14-19 *)
Definition m_add3 (c : cfg) (r : place) (a b : u256) : mm unit := set r (add3 c a b).
(** src/intrinsics/native/add.rs:22-29 *)
Definition m_uaddc (c : cfg) (r : place) (a b : u256) : mm bool :=
  let '(x, o) := uaddc c a b in let* _ := set r x in mret o.
(** src/intrinsics/native/add.rs:32-36: the sum is read back from [r] *)
Definition m_iaddc (c : cfg) (r : place) (a b : i256) : mm bool :=
  if llvm c then let '(x, o) := l_iaddc c a b in let* _ := seti r x in mret o
  else
    let* _ := set r (n_add3 c (i_as_u256 a) (i_as_u256 b)) in
    let* s := geti r in
    mret ((is_ge (i_cmp_prim c b 0) && i_lt c s a) || (is_lt (i_cmp_prim c b 0) && i_ge c s a)).
(** src/intrinsics/native/sub.rs:7-11 *)
Definition m_sub2 (c : cfg) (r : place) (a : u256) : mm unit :=
  if llvm c then let* x := get r in set r (l_sub2 c x a)
  else
    let* x := get r in
    let '(lo, carry) := overflowing_sub 128 (u_low c x) (u_low c a) in
    let* x := get r in
    let* _ := set r (u_set_low c x lo) in
    let* x := get r in
    let hi := wrapping_sub 128 (wrapping_sub 128 (u_high c x) (Z.b2z carry)) (u_high c a) in
    let* x := get r in
    set r (u_set_high c x hi).
(** src/intrinsics/native/sub.rs:14-19 *)
Definition m_sub3 (c : cfg) (r : place) (a b : u256) : mm unit := set r (sub3 c a b).
(** src/intrinsics/native/sub.rs:22-29 *)
Definition m_usubc (c : cfg) (r : place) (a b : u256) : mm bool :=
  let '(x, o) := usubc c a b in let* _ := set r x in mret o.
(** src/intrinsics/native/sub.rs:32-36 *)
Definition m_isubc (c : cfg) (r : place) (a b : i256) : mm bool :=
  if llvm c then let '(x, o) := l_isubc c a b in let* _ := seti r x in mret o
  else
    let* _ := set r (n_sub3 c (i_as_u256 a) (i_as_u256 b)) in
    let* s := geti r in
    mret ((is_ge (i_cmp_prim c b 0) && i_gt c s a) || (is_lt (i_cmp_prim c b 0) && i_le c s a)).

(** src/intrinsics/native/mul.rs:44-52: one write, at the end *)
Definition m_mul3 (c : cfg) (r : place) (a b : u256) : mm unit :=
  let* x := lift (mul3 c a b) in set r x.
(** src/intrinsics/native/mul.rs:35-41: the place is copied, then handed on as
    [&mut MaybeUninit<U256>] *)
Definition m_mul2 (c : cfg) (r : place) (a : u256) : mm unit :=
  let* x := get r in
  if llvm c then set r (l_mul2 c x a) else let* y := lift (n_mul3 c x a) in set r y.
(** src/intrinsics/native/mul.rs:55-68 *)
Definition m_umulc (c : cfg) (r : place) (a b : u256) : mm bool :=
  let* '(x, o) := lift (umulc c a b) in let* _ := set r x in mret o.
(** src/intrinsics/native/mul.rs:71-91: the product is written first, whether it
    overflowed is found out afterwards *)
Definition m_imulc (c : cfg) (r : place) (a b : i256) : mm bool :=
  let* x := lift (n_mul3 c (i_as_u256 a) (i_as_u256 b)) in
  let* _ := set r x in
  if i_eq c a (I256_MIN c) then
    mret (negb (i_eq_prim c b 0) && negb (i_eq_prim c b 1))
  else if i_eq c b (I256_MIN c) then
    mret (negb (i_eq_prim c a 0) && negb (i_eq_prim c a 1))
  else
  let* sa := lift (i_op_shr c a 255) in
  let abs_a := i_wrapping_sub c (i_op_xor a sa) sa in
  let* sb := lift (i_op_shr c b 255) in
  let abs_b := i_wrapping_sub c (i_op_xor b sb) sb in
  if is_lt (i_cmp_prim c abs_a 2) || is_lt (i_cmp_prim c abs_b 2) then mret false
  else if i_eq c sa sb then
    let* q := lift (i_op_div c (I256_MAX c) abs_b) in
    mret (i_gt c abs_a q)
  else
    let* nb := lift (i_op_neg c abs_b) in
    let* q := lift (i_op_div c (I256_MIN c) nb) in
    mret (i_gt c abs_a q).

(** src/intrinsics/native/shl.rs:7-19: nothing is written for the amount 0 *)
Definition m_shl2 (c : cfg) (r : place) (a : Z) : mm unit :=
  let* x := get r in
  let* y := lift (shl2 c x a) in
  if negb (llvm c) && (a =? 0) then mret tt else set r y.
(** src/intrinsics/native/shl.rs:22-34 *)
Definition m_shl3 (c : cfg) (r : place) (a : u256) (b : Z) : mm unit :=
  let* x := lift (shl3 c a b) in set r x.
(** src/intrinsics/native/shr.rs:7-22 *)
Definition m_sar2 (c : cfg) (r : place) (a : Z) : mm unit :=
  let* x := geti r in
  let* y := lift (sar2 c x a) in
  if negb (llvm c) && (a =? 0) then mret tt else seti r y.
(** src/intrinsics/native/shr.rs:25-40 *)
Definition m_sar3 (c : cfg) (r : place) (a : i256) (b : Z) : mm unit :=
  let* x := lift (sar3 c a b) in seti r x.
(** src/intrinsics/native/shr.rs:43-55 *)
Definition m_shr2 (c : cfg) (r : place) (a : Z) : mm unit :=
  let* x := get r in
  let* y := lift (shr2 c x a) in
  if negb (llvm c) && (a =? 0) then mret tt else set r y.
(** src/intrinsics/native/shr.rs:58-70 *)
Definition m_shr3 (c : cfg) (r : place) (a : u256) (b : Z) : mm unit :=
  let* x := lift (shr3 c a b) in set r x.
(** src/intrinsics/native/rot.rs:8-10 *)
Definition m_rol3 (c : cfg) (r : place) (a : u256) (b : Z) : mm unit :=
  let* x := lift (rol3 c a b) in set r x.
(** src/intrinsics/native/rot.rs:13-15 *)
Definition m_ror3 (c : cfg) (r : place) (a : u256) (b : Z) : mm unit :=
  let* x := lift (ror3 c a b) in set r x.

(** if let Some(rem) = rem { rem.write(x); }: src/intrinsics/native/divmod.rs:125-127, 182-184 *)
Definition set_opt (p : option place) (x : u256) : mm unit :=
  match p with Some p => set p x | None => mret tt end.
(** src/intrinsics/native/divmod.rs:104-186 *)
Definition m_udivmod4 (c : cfg) (r : place) (a b : u256) (rem : option place) : mm unit :=
  if Z.lor (u_high c a) (u_high c b) =? 0 then
    let* q := lift (u_div (u_low c a) (u_low c b)) in
    let* _ := set r (u_from_words c 0 q) in
    match rem with
    | Some rem =>
        let* x := lift (u_rem (u_low c a) (u_low c b)) in
        set rem (u_from_words c 0 x)
    | None => mret tt
    end
  else
  let dividend := a in
  let divisor := b in
  if u_gt c divisor dividend then
    let* _ := set_opt rem dividend in set r U256_ZERO
  else if u_high c divisor =? 0 then
    let remainder := U256_ZERO in
    let* '(quotient, remainder) :=
      lift (if u_high c dividend <? u_low c divisor then
         let! d := new_unchecked (u_low c divisor) in
         let! '(q, r) := udiv256_by_128_to_128 c (u_high c dividend) (u_low c dividend) d in
         Ret (u_from_words c 0 q, u_set_low c remainder r)
       else
         let! qh := u_div (u_high c dividend) (u_low c divisor) in
         let! rh := u_rem (u_high c dividend) (u_low c divisor) in
         let! d := new_unchecked (u_low c divisor) in
         let! '(q, r) := udiv256_by_128_to_128 c rh (u_low c dividend) d in
         Ret (u_from_words c qh q, u_set_low c remainder r)) in
    let* _ := set_opt rem remainder in set r quotient
  else
    let* '(quotient, remainder) := lift (div_mod_knuth c dividend divisor) in
    let* _ := set_opt rem remainder in set r quotient.
(** src/intrinsics/native/divmod.rs:394-400 *)
Definition m_udiv2 (c : cfg) (r : place) (a : u256) : mm unit :=
  let* x := get r in m_udivmod4 c r x a None.
(** src/intrinsics/native/divmod.rs:403-405 *)
Definition m_udiv3 (c : cfg) (r : place) (a b : u256) : mm unit := m_udivmod4 c r a b None.
(** src/intrinsics/native/divmod.rs:408-415 *)
Definition m_urem2 (c : cfg) (r : place) (a : u256) : mm unit :=
  local (fun q => let* x := get r in m_udivmod4 c q x a (Some r)).
(** src/intrinsics/native/divmod.rs:418-421 *)
Definition m_urem3 (c : cfg) (r : place) (a b : u256) : mm unit :=
  local (fun q => m_udivmod4 c q a b (Some r)).

(** src/intrinsics/native/divmod.rs:423-449: the unsigned quotient and remainder are
    written first, then read back and replaced *)
Definition m_idivmod4 (c : cfg) (r : place) (a b : i256) (rem : option place) : mm unit :=
  let* s_a := lift (i_op_shr c a 255) in
  let* s_b := lift (i_op_shr c b 255) in
  let a := i_wrapping_sub c (i_op_xor a s_a) s_a in
  let b := i_wrapping_sub c (i_op_xor b s_b) s_b in
  let s_b := i_op_xor_assign s_b s_a in
  let* _ := m_udivmod4 c r (i_as_u256 a) (i_as_u256 b) rem in
  let* q := geti r in
  let q := i_wrapping_sub c (i_op_xor q s_b) s_b in
  let* _ := seti r q in
  match rem with
  | Some rem =>
      let* x := geti rem in
      seti rem (i_wrapping_sub c (i_op_xor x s_a) s_a)
  | None => mret tt
  end.
(** src/intrinsics/native/divmod.rs:452-458 *)
Definition m_idiv2 (c : cfg) (r : place) (a : i256) : mm unit :=
  let* x := geti r in m_idivmod4 c r x a None.
(** src/intrinsics/native/divmod.rs:461-463 *)
Definition m_idiv3 (c : cfg) (r : place) (a b : i256) : mm unit := m_idivmod4 c r a b None.
(** src/intrinsics/native/divmod.rs:466-473 *)
Definition m_irem2 (c : cfg) (r : place) (a : i256) : mm unit :=
  local (fun q => let* x := geti r in m_idivmod4 c q x a (Some r)).
(** src/intrinsics/native/divmod.rs:476-479 *)
Definition m_irem3 (c : cfg) (r : place) (a b : i256) : mm unit :=
  local (fun q => m_idivmod4 c q a b (Some r)).

(** ** src/intrinsics/signed.rs *)

(** src/intrinsics/signed.rs:16-18 *)
Definition m_iadd2 (c : cfg) (r : place) (a : i256) : mm unit := m_add2 c r (i_as_u256 a).
(** src/intrinsics/signed.rs:21-23 *)
Definition m_iadd3 (c : cfg) (r : place) (a b : i256) : mm unit := m_add3 c r (i_as_u256 a) (i_as_u256 b).
(** src/intrinsics/signed.rs:26-28 *)
Definition m_isub2 (c : cfg) (r : place) (a : i256) : mm unit := m_sub2 c r (i_as_u256 a).
(** src/intrinsics/signed.rs:31-33 *)
Definition m_isub3 (c : cfg) (r : place) (a b : i256) : mm unit := m_sub3 c r (i_as_u256 a) (i_as_u256 b).
(** src/intrinsics/signed.rs:36-38 *)
Definition m_imul2 (c : cfg) (r : place) (a : i256) : mm unit := m_mul2 c r (i_as_u256 a).
(** src/intrinsics/signed.rs:41-43 *)
Definition m_imul3 (c : cfg) (r : place) (a b : i256) : mm unit := m_mul3 c r (i_as_u256 a) (i_as_u256 b).
(** src/intrinsics/signed.rs:46-48 *)
Definition m_ishl2 (c : cfg) (r : place) (a : Z) : mm unit := m_shl2 c r a.
(** src/intrinsics/signed.rs:51-53 *)
Definition m_ishl3 (c : cfg) (r : place) (a : i256) (b : Z) : mm unit := m_shl3 c r (i_as_u256 a) b.
(** src/intrinsics/signed.rs:56-58 *)
Definition m_irol3 (c : cfg) (r : place) (a : i256) (b : Z) : mm unit := m_rol3 c r (i_as_u256 a) b.
(** src/intrinsics/signed.rs:61-63 *)
Definition m_iror3 (c : cfg) (r : place) (a : i256) (b : Z) : mm unit := m_ror3 c r (i_as_u256 a) b.

(** ** Operators *)

(** let mut r = MaybeUninit::uninit(); f(&mut r); r.assume_init(); src/macros/ops.rs:239-243 *)
Definition out (f : place -> mm unit) : mm u256 := local (fun r => let* _ := f r in get r).
(** src/macros/ops.rs:239-243 for I256 *)
Definition outi (f : place -> mm unit) : mm i256 := local (fun r => let* _ := f r in geti r).

(** src/macros/ops.rs:154-172 *)
Definition m_binop (c : cfg) (op3 : place -> mm unit) (opc : place -> mm bool) (msg : string) : mm u256 :=
  local (fun r =>
    let* _ :=
      (if debug_assertions c then let* o := opc r in if o : bool then lift (Panic msg) else mret tt
       else op3 r) in
    get r).
(** src/macros/ops.rs:154-172 for I256 *)
Definition m_binopi (c : cfg) (op3 : place -> mm unit) (opc : place -> mm bool) (msg : string) : mm i256 :=
  let* x := m_binop c op3 opc msg in mret (u_as_i256 x).
(** src/macros/ops.rs:154-172 with src/uint/ops.rs:19 *)
Definition m_u_add c a b := m_binop c (fun r => m_add3 c r a b) (fun r => m_uaddc c r a b) "attempt to add with overflow".
(** src/macros/ops.rs:154-172 with src/uint/ops.rs:20 *)
Definition m_u_mul c a b := m_binop c (fun r => m_mul3 c r a b) (fun r => m_umulc c r a b) "attempt to multiply with overflow".
(** src/macros/ops.rs:154-172 with src/uint/ops.rs:21 *)
Definition m_u_sub c a b := m_binop c (fun r => m_sub3 c r a b) (fun r => m_usubc c r a b) "attempt to subtract with overflow".
(** src/macros/ops.rs:154-172 with src/int/ops.rs:19 *)
Definition m_i_add c a b := m_binopi c (fun r => m_iadd3 c r a b) (fun r => m_iaddc c r a b) "attempt to add with overflow".
(** src/macros/ops.rs:154-172 with src/int/ops.rs:20 *)
Definition m_i_mul c a b := m_binopi c (fun r => m_imul3 c r a b) (fun r => m_imulc c r a b) "attempt to multiply with overflow".
(** src/macros/ops.rs:154-172 with src/int/ops.rs:21 *)
Definition m_i_sub c a b := m_binopi c (fun r => m_isub3 c r a b) (fun r => m_isubc c r a b) "attempt to subtract with overflow".

(** src/macros/ops.rs:231-244, 32-34 with src/uint/ops.rs:23 *)
Definition m_u_div c a b : mm u256 :=
  if u_eq_prim c b 0 then lift (Panic "attempt to divide by zero") else out (fun r => m_udiv3 c r a b).
(** src/macros/ops.rs:231-244, 35-37 with src/uint/ops.rs:24 *)
Definition m_u_rem c a b : mm u256 :=
  if u_eq_prim c b 0 then lift (Panic "attempt to calculate the remainder with a divisor of zero")
  else out (fun r => m_urem3 c r a b).
(** src/macros/ops.rs:231-244, 32-34 with src/int/ops.rs:23 *)
Definition m_i_div c a b : mm i256 :=
  if i_eq_prim c b 0 then lift (Panic "attempt to divide by zero") else outi (fun r => m_idiv3 c r a b).
(** src/macros/ops.rs:231-244, 35-37 with src/int/ops.rs:24 *)
Definition m_i_rem c a b : mm i256 :=
  if i_eq_prim c b 0 then lift (Panic "attempt to calculate the remainder with a divisor of zero")
  else outi (fun r => m_irem3 c r a b).

(** src/macros/ops.rs:261-276, 43-45 with src/uint/ops.rs:26 *)
Definition m_u_shl c a s : mm u256 :=
  if debug_assertions c && (255 <? s) then lift (Panic "attempt to shift left with overflow") else out (fun r => m_shl3 c r a s).
(** src/macros/ops.rs:261-276, 46-48 with src/uint/ops.rs:27 *)
Definition m_u_shr c a s : mm u256 :=
  if debug_assertions c && (255 <? s) then lift (Panic "attempt to shift right with overflow") else out (fun r => m_shr3 c r a s).
(** src/macros/ops.rs:261-276, 43-45 with src/int/ops.rs:26 *)
Definition m_i_shl c a s : mm i256 :=
  if debug_assertions c && (255 <? s) then lift (Panic "attempt to shift left with overflow") else outi (fun r => m_ishl3 c r a s).
(** src/macros/ops.rs:261-276, 46-48 with src/int/ops.rs:27 *)
Definition m_i_shr c a s : mm i256 :=
  if debug_assertions c && (255 <? s) then lift (Panic "attempt to shift right with overflow") else outi (fun r => m_sar3 c r a s).

(** src/macros/ops.rs:395-407; [*self = &*self $y rhs] or [$op2(self, rhs)] *)
Definition m_assign (c : cfg) (self : place) (op : u256 -> mm u256) (op2 : mm unit) : mm unit :=
  if debug_assertions c then let* x := get self in let* y := op x in set self y else op2.
(** src/macros/ops.rs:395-407 for I256 *)
Definition m_assigni (c : cfg) (self : place) (op : i256 -> mm i256) (op2 : mm unit) : mm unit :=
  if debug_assertions c then let* x := geti self in let* y := op x in seti self y else op2.
(** src/macros/ops.rs:395-407, 77-79 with src/uint/ops.rs:19 *)
Definition m_u_add_assign c self b := m_assign c self (fun a => m_u_add c a b) (m_add2 c self b).
(** src/macros/ops.rs:395-407, 83-85 with src/uint/ops.rs:20 *)
Definition m_u_mul_assign c self b := m_assign c self (fun a => m_u_mul c a b) (m_mul2 c self b).
(** src/macros/ops.rs:395-407, 89-91 with src/uint/ops.rs:21 *)
Definition m_u_sub_assign c self b := m_assign c self (fun a => m_u_sub c a b) (m_sub2 c self b).
(** src/macros/ops.rs:395-407, 80-82 with src/uint/ops.rs:23 *)
Definition m_u_div_assign c self b := m_assign c self (fun a => m_u_div c a b) (m_udiv2 c self b).
(** src/macros/ops.rs:395-407, 86-88 with src/uint/ops.rs:24 *)
Definition m_u_rem_assign c self b := m_assign c self (fun a => m_u_rem c a b) (m_urem2 c self b).
(** src/macros/ops.rs:395-407, 77-79 with src/int/ops.rs:19 *)
Definition m_i_add_assign c self b := m_assigni c self (fun a => m_i_add c a b) (m_iadd2 c self b).
(** src/macros/ops.rs:395-407, 83-85 with src/int/ops.rs:20 *)
Definition m_i_mul_assign c self b := m_assigni c self (fun a => m_i_mul c a b) (m_imul2 c self b).
(** src/macros/ops.rs:395-407, 89-91 with src/int/ops.rs:21 *)
Definition m_i_sub_assign c self b := m_assigni c self (fun a => m_i_sub c a b) (m_isub2 c self b).
(** src/macros/ops.rs:395-407, 80-82 with src/int/ops.rs:23 *)
Definition m_i_div_assign c self b := m_assigni c self (fun a => m_i_div c a b) (m_idiv2 c self b).
(** src/macros/ops.rs:395-407, 86-88 with src/int/ops.rs:24 *)
Definition m_i_rem_assign c self b := m_assigni c self (fun a => m_i_rem c a b) (m_irem2 c self b).
(** src/macros/ops.rs:455-467, 97-99 with src/uint/ops.rs:26 *)
Definition m_u_shl_assign c self b :=
  let s := amount_to_u32 c b in m_assign c self (fun a => m_u_shl c a s) (m_shl2 c self s).
(** src/macros/ops.rs:455-467, 100-102 with src/uint/ops.rs:27 *)
Definition m_u_shr_assign c self b :=
  let s := amount_to_u32 c b in m_assign c self (fun a => m_u_shr c a s) (m_shr2 c self s).
(** src/macros/ops.rs:455-467, 97-99 with src/int/ops.rs:26 *)
Definition m_i_shl_assign c self b :=
  let s := amount_to_u32 c b in m_assigni c self (fun a => m_i_shl c a s) (m_ishl2 c self s).
(** src/macros/ops.rs:455-467, 100-102 with src/int/ops.rs:27 *)
Definition m_i_shr_assign c self b :=
  let s := amount_to_u32 c b in m_assigni c self (fun a => m_i_shr c a s) (m_sar2 c self s).

(** src/macros/ops.rs:528-536: [*a0 $x b0; *a1 $x b1;] *)
Definition m_bit_assign (f : Z -> Z -> Z) (self : place) (b : u256) : mm unit :=
  let* x := get self in
  let* _ := set self (mkU (f (uw0 x) (uw0 b)) (uw1 x)) in
  let* x := get self in
  set self (mkU (uw0 x) (f (uw1 x) (uw1 b))).
(** src/macros/ops.rs:528-536 for I256 *)
Definition m_bit_assigni (f : Z -> Z -> Z) (self : place) (b : i256) : mm unit :=
  let* x := geti self in
  let* _ := seti self (mkI (f (iw0 x) (iw0 b)) (iw1 x)) in
  let* x := geti self in
  seti self (mkI (iw0 x) (f (iw1 x) (iw1 b))).
(** src/macros/ops.rs:528-536, 108-110 *)
Definition m_u_and_assign := m_bit_assign Z.land.
(** src/macros/ops.rs:528-536, 111-113 *)
Definition m_u_or_assign := m_bit_assign Z.lor.
(** src/macros/ops.rs:528-536, 114-116 *)
Definition m_u_xor_assign := m_bit_assign Z.lxor.
(** src/macros/ops.rs:528-536, 108-110 *)
Definition m_i_and_assign := m_bit_assigni Z.land.
(** src/macros/ops.rs:528-536, 111-113 *)
Definition m_i_or_assign := m_bit_assigni Z.lor.
(** src/macros/ops.rs:528-536, 114-116 *)
Definition m_i_xor_assign := m_bit_assigni Z.lxor.

(** ** Methods *)

(** let mut r = MaybeUninit::uninit(); let o = f(&mut r); (r.assume_init(), o); e.g. src/uint/api.rs:1155-1159 *)
Definition outc (f : place -> mm bool) : mm (u256 * bool) :=
  local (fun r => let* o := f r in let* x := get r in mret (x, o)).
(** the same for I256, e.g. src/int/api.rs:1405-1409 *)
Definition outci (f : place -> mm bool) : mm (i256 * bool) :=
  local (fun r => let* o := f r in let* x := geti r in mret (x, o)).

(** src/uint/api.rs:200-204 *)
Definition m_u_rotate_left c a n := out (fun r => m_rol3 c r a n).
(** src/uint/api.rs:228-232 *)
Definition m_u_rotate_right c a n := out (fun r => m_ror3 c r a n).
(** src/uint/api.rs:849-853 *)
Definition m_u_wrapping_add c a b := out (fun r => m_add3 c r a b).
(** src/uint/api.rs:890-894 *)
Definition m_u_wrapping_sub c a b := out (fun r => m_sub3 c r a b).
(** src/uint/api.rs:914-918 *)
Definition m_u_wrapping_mul c a b := out (fun r => m_mul3 c r a b).
(** src/uint/api.rs:1059-1063 *)
Definition m_u_wrapping_shl c a s := out (fun r => m_shl3 c r a (Z.land s 0xff)).
(** src/uint/api.rs:1088-1092 *)
Definition m_u_wrapping_shr c a s := out (fun r => m_shr3 c r a (Z.land s 0xff)).
(** src/uint/api.rs:1155-1159 *)
Definition m_u_overflowing_add c a b := outc (fun r => m_uaddc c r a b).
(** src/uint/api.rs:1203-1207 *)
Definition m_u_overflowing_sub c a b := outc (fun r => m_usubc c r a b).
(** src/uint/api.rs:1255-1259 *)
Definition m_u_overflowing_mul c a b := outc (fun r => m_umulc c r a b).
(** src/uint.rs:297-329 *)
Definition m_u_div_rem c a b : mm (u256 * u256) :=
  if u_eq_prim c b 0 then
    if is_gt (u_cmp_prim c b 0) then lift (UB "unreachable_unchecked")
    else lift (Panic "attempt to divide by zero")
  else if is_le (u_cmp_prim c b 0) then lift (UB "unreachable_unchecked")
  else
    local (fun res => local (fun rem =>
      let* _ := m_udivmod4 c res a b (Some rem) in
      let* q := get res in
      let* r := get rem in
      if u_ge c r b then lift (UB "unreachable_unchecked")
      else if u_gt c r a then lift (UB "unreachable_unchecked")
      else if u_gt c q a then lift (UB "unreachable_unchecked")
      else mret (q, r))).

(** src/int/api.rs:210-214 *)
Definition m_i_rotate_left c a n := outi (fun r => m_irol3 c r a n).
(** src/int/api.rs:239-243 *)
Definition m_i_rotate_right c a n := outi (fun r => m_iror3 c r a n).
(** src/int/api.rs:1011-1015 *)
Definition m_i_wrapping_add c a b := outi (fun r => m_iadd3 c r a b).
(** src/int/api.rs:1051-1055 *)
Definition m_i_wrapping_sub c a b := outi (fun r => m_isub3 c r a b).
(** src/int/api.rs:1091-1095 *)
Definition m_i_wrapping_mul c a b := outi (fun r => m_imul3 c r a b).
(** src/int/api.rs:1254-1258 *)
Definition m_i_wrapping_shl c a s := outi (fun r => m_ishl3 c r a (Z.land s 0xff)).
(** src/int/api.rs:1283-1287 *)
Definition m_i_wrapping_shr c a s := outi (fun r => m_sar3 c r a (Z.land s 0xff)).
(** src/int/api.rs:1405-1409 *)
Definition m_i_overflowing_add c a b := outci (fun r => m_iaddc c r a b).
(** src/int/api.rs:1454-1458 *)
Definition m_i_overflowing_sub c a b := outci (fun r => m_isubc c r a b).
(** src/int/api.rs:1545-1549 *)
Definition m_i_overflowing_mul c a b := outci (fun r => m_imulc c r a b).
(** src/int/api.rs:559-567 *)
Definition m_i_checked_div c a b : mm (option i256) :=
  if i_eq_prim c b 0 || i_div_overflows c a b then mret None
  else let* q := outi (fun r => m_idiv3 c r a b) in mret (Some q).
(** src/int/api.rs:609-617 *)
Definition m_i_checked_rem c a b : mm (option i256) :=
  if i_eq_prim c b 0 || i_div_overflows c a b then mret None
  else let* q := outi (fun r => m_irem3 c r a b) in mret (Some q).
(** the calls of [idivmod4] in src/int.rs:481-498 and 356-370 *)
Definition m_idivmod_pair c a b : mm (i256 * i256) :=
  local (fun res => local (fun rem =>
    let* _ := m_idivmod4 c res a b (Some rem) in
    let* q := geti res in
    let* r := geti rem in
    mret (q, r))).
(** src/int.rs:481-498 *)
Definition m_i_wrapping_div_rem c a b : mm (i256 * i256) :=
  if i_eq_prim c b 0 then
    if negb (i_cmp_zero_is_eq c b) then lift (UB "unreachable_unchecked")
    else lift (Panic "attempt to divide by zero")
  else if i_cmp_zero_is_eq c b then lift (UB "unreachable_unchecked")
  else m_idivmod_pair c a b.
(** src/int.rs:356-370 *)
Definition m_i_checked_div_rem c a b : mm (option (i256 * i256)) :=
  if i_eq_prim c b 0 || i_div_overflows c a b then mret None
  else if i_cmp_zero_is_eq c b then lift (UB "unreachable_unchecked")
  else let* p := m_idivmod_pair c a b in mret (Some p).
