(** * Rust primitives

    Semantics of the fragment of Rust used by the crate: build configuration,
    outcomes, and the primitive integer types.  Nothing here is taken from
    /repo; it is the reading of the Rust reference the rest of the model is
    built on (part of the trusted base).  Integers of every primitive type are
    represented by the mathematical integer they denote. *)

From Coq Require Import ZArith List String Bool.
Import ListNotations.
Open Scope Z_scope.

(** Build configuration.  [debug_assertions] and [overflow_checks] are separate
    rustc switches (dev profile: both on; release profile: both off). The code depends on them at, for
    instance, src/macros/ops.rs:160-169, src/uint.rs:36-43, src/uint/convert.rs:182, src/intrinsics.rs:14-23. *)
Record cfg := {
  debug_assertions : bool;  (** selects #[cfg(debug_assertions)] code and debug_assert! *)
  overflow_checks  : bool;  (** primitive arithmetic panics instead of wrapping *)
  big_endian       : bool;  (** target_endian *)
  usize_bits       : Z;     (** width of usize and isize *)
  llvm             : bool   (** the crate feature llvm-intrinsics *)
}.

(** Outcome of running a piece of Rust code. Panics: src/macros/ops.rs:167; undefined behaviour: src/uint.rs:301. *)
Inductive res (A : Type) : Type :=
| Ret (a : A)             (** returns normally *)
| Panic (msg : string)    (** panics *)
| UB (why : string)       (** undefined behaviour *)
| NoFuel.                 (** the model's loop bound was too small *)
Arguments Ret {A} a.
Arguments Panic {A} msg.
Arguments UB {A} why.
Arguments NoFuel {A}.

(** Sequencing: run [m], then [k] on what it returned; used for every statement, e.g. src/intrinsics/native/divmod.rs:41-45 *)
Definition bind {A B} (m : res A) (k : A -> res B) : res B :=
  match m with
  | Ret a => k a
  | Panic s => Panic s
  | UB s => UB s
  | NoFuel => NoFuel
  end.

Declare Scope res_scope.
Delimit Scope res_scope with res.
Notation "'let!' x ':=' e 'in' k" := (bind e (fun x => k))
  (at level 200, x pattern, e at level 200, k at level 200,
   format "'[v' 'let!'  x  ':='  e  'in' '/' k ']'") : res_scope.
Notation "'let!' ' p ':=' e 'in' k" := (bind e (fun p => k))
  (at level 200, p strict pattern, e at level 200, k at level 200) : res_scope.
Open Scope res_scope.

(** one more step after a call, e.g. src/intrinsics/native/divmod.rs:403-405 *)
Definition res_map {A B} (f : A -> B) (m : res A) : res B := let! x := m in Ret (f x).

(** debug_assert!(cond, msg); e.g. src/intrinsics/native/shl.rs:8 *)
Definition debug_assert (c : cfg) (b : bool) (msg : string) : res unit :=
  if debug_assertions c && negb b then Panic msg else Ret tt.

(** A loop: [step] returns [inl s] to continue with state [s], [inr r] to leave. E.g. the loop of
    src/fmt.rs:106-120 *)
Fixpoint loop {S R} (fuel : nat) (step : S -> res (S + R)) (s : S) : res R :=
  match fuel with
  | O => NoFuel
  | S fuel' =>
      let! o := step s in
      match o with
      | inl s' => loop fuel' step s'
      | inr r => Ret r
      end
  end.

(** ** Unsigned integers of [n] bits: values in [0, 2^n) *)

(** [a + b], e.g. src/intrinsics/native/ctz.rs:9 *)
Definition u_add (c : cfg) (n a b : Z) : res Z :=
  if a + b <? 2 ^ n then Ret (a + b)
  else if overflow_checks c then Panic "attempt to add with overflow"
  else Ret ((a + b) mod 2 ^ n).

(** [a - b], e.g. src/uint/convert.rs:141 *)
Definition u_sub (c : cfg) (n a b : Z) : res Z :=
  if 0 <=? a - b then Ret (a - b)
  else if overflow_checks c then Panic "attempt to subtract with overflow"
  else Ret ((a - b) mod 2 ^ n).

(** [a * b], e.g. src/intrinsics/native/mul.rs:18 *)
Definition u_mul (c : cfg) (n a b : Z) : res Z :=
  if a * b <? 2 ^ n then Ret (a * b)
  else if overflow_checks c then Panic "attempt to multiply with overflow"
  else Ret ((a * b) mod 2 ^ n).

(** [a / b], e.g. src/intrinsics/native/divmod.rs:124 *)
Definition u_div (a b : Z) : res Z :=
  if b =? 0 then Panic "attempt to divide by zero" else Ret (a / b).

(** [a % b], e.g. src/intrinsics/native/divmod.rs:126 *)
Definition u_rem (a b : Z) : res Z :=
  if b =? 0 then Panic "attempt to calculate the remainder with a divisor of zero"
  else Ret (a mod b).

(** In release builds the shift amount is masked to the width. [a << k], e.g. src/intrinsics/native/shl.rs:13 *)
Definition u_shl (c : cfg) (n a k : Z) : res Z :=
  if (0 <=? k) && (k <? n) then Ret (Z.shiftl a k mod 2 ^ n)
  else if overflow_checks c then Panic "attempt to shift left with overflow"
  else Ret (Z.shiftl a (k mod n) mod 2 ^ n).

(** Also the arithmetic right shift of signed integers, when [a] is the signed value. [a >> k], e.g.
    src/intrinsics/native/shr.rs:15-16 *)
Definition p_shr (c : cfg) (n a k : Z) : res Z :=
  if (0 <=? k) && (k <? n) then Ret (Z.shiftr a k)
  else if overflow_checks c then Panic "attempt to shift right with overflow"
  else Ret (Z.shiftr a (k mod n)).

(** u128::overflowing_add, e.g. src/intrinsics/native/add.rs:8 *)
Definition overflowing_add (n a b : Z) : Z * bool := ((a + b) mod 2 ^ n, 2 ^ n <=? a + b).
(** u128::overflowing_sub, e.g. src/intrinsics/native/sub.rs:8 *)
Definition overflowing_sub (n a b : Z) : Z * bool := ((a - b) mod 2 ^ n, a <? b).
(** u128::overflowing_mul, e.g. src/intrinsics/native/mul.rs:58 *)
Definition overflowing_mul (n a b : Z) : Z * bool := ((a * b) mod 2 ^ n, 2 ^ n <=? a * b).
(** u128::wrapping_add, e.g. src/intrinsics/native/add.rs:10 *)
Definition wrapping_add (n a b : Z) : Z := (a + b) mod 2 ^ n.
(** u128::wrapping_sub, e.g. src/intrinsics/native/sub.rs:10 *)
Definition wrapping_sub (n a b : Z) : Z := (a - b) mod 2 ^ n.
(** u128::wrapping_mul, e.g. src/intrinsics/native/mul.rs:47 *)
Definition wrapping_mul (n a b : Z) : Z := (a * b) mod 2 ^ n.

(** bitwise complement of an unsigned integer; signed integers use [Z.lnot]; e.g. src/macros/ops.rs:55 *)
Definition u_not (n a : Z) : Z := 2 ^ n - 1 - a.

(** ** `as` casts between integer types *)
(** e.g. src/intrinsics/native/add.rs:10 *)
Definition as_u (n x : Z) : Z := x mod 2 ^ n.
(** The same for a signed target, e.g. src/int.rs:173-176 *)
Definition as_i (n x : Z) : Z :=
  let y := x mod 2 ^ n in if y <? 2 ^ (n - 1) then y else y - 2 ^ n.

(** ** Bit counting and bit/byte permutations on an [n]-bit pattern *)

(** u128::leading_zeros, e.g. src/intrinsics/native/ctz.rs:9 *)
Definition leading_zeros (n x : Z) : Z := if x =? 0 then n else n - 1 - Z.log2 x.

(** for [trailing_zeros]; src/intrinsics/native/ctz.rs:15 *)
Fixpoint pos_tz (p : positive) : Z :=
  match p with xO q => 1 + pos_tz q | _ => 0 end.
(** u128::trailing_zeros, src/intrinsics/native/ctz.rs:15 *)
Definition trailing_zeros (n x : Z) : Z :=
  match x with Zpos p => pos_tz p | _ => n end.

(** for [count_ones]; src/uint/api.rs:90 *)
Fixpoint pos_ones (p : positive) : Z :=
  match p with xO q => pos_ones q | xI q => 1 + pos_ones q | xH => 1 end.
(** number of ones of a non-negative pattern; u128::count_ones, src/uint/api.rs:90 *)
Definition count_ones (x : Z) : Z := match x with Zpos p => pos_ones p | _ => 0 end.

(** least significant first; the bytes of a u128, e.g. src/uint/api.rs:1734-1736 *)
Fixpoint le_bytes (n : nat) (x : Z) : list Z :=
  match n with
  | O => []
  | S n' => (x mod 256) :: le_bytes n' (x / 256)
  end.
(** the u128 with these bytes, e.g. src/uint/api.rs:1862-1864 *)
Fixpoint of_le_bytes (l : list Z) : Z :=
  match l with
  | [] => 0
  | b :: l' => b + 256 * of_le_bytes l'
  end.

(** the bits of a u128, least significant first; for src/uint/api.rs:283 *)
Fixpoint le_bits (n : nat) (x : Z) : list bool :=
  match n with
  | O => []
  | S n' => Z.odd x :: le_bits n' (x / 2)
  end.
(** the u128 with these bits; for src/uint/api.rs:283 *)
Fixpoint of_le_bits (l : list bool) : Z :=
  match l with
  | [] => 0
  | b :: l' => Z.b2z b + 2 * of_le_bits l'
  end.

(** u128::swap_bytes, u128::reverse_bits; src/uint/api.rs:257 *)
Definition swap_bytes_128 (x : Z) : Z := of_le_bytes (rev (le_bytes 16 x)).
(** u128::reverse_bits, src/uint/api.rs:283 *)
Definition reverse_bits_128 (x : Z) : Z := of_le_bits (rev (le_bits 128 x)).

(** ** Ordering *)
(** comparison of pairs; src/uint/cmp.rs:19 *)
Definition lex (a b : comparison) : comparison := match a with Eq => b | _ => a end.
(** [a < b] through partial_cmp, src/macros/cmp.rs:42-61 *)
Definition is_lt (o : comparison) : bool := match o with Lt => true | _ => false end.
(** [a <= b] through partial_cmp, src/macros/cmp.rs:42-61 *)
Definition is_le (o : comparison) : bool := match o with Gt => false | _ => true end.
(** [a > b] through partial_cmp, src/macros/cmp.rs:42-61 *)
Definition is_gt (o : comparison) : bool := match o with Gt => true | _ => false end.
(** [a >= b] through partial_cmp, src/macros/cmp.rs:42-61 *)
Definition is_ge (o : comparison) : bool := match o with Lt => false | _ => true end.
