(** * The differential fuzzing target
    fuzz/src/lib.rs, fuzz/src/reference.rs, fuzz/src/conv.rs

    The big integers of the num crate are mathematical integers here: sign and magnitude as
    its documentation has them, [+ - * / %] exact, division truncating.  How the arbitrary
    crate makes a target from bytes is not modelled; what holds is shown for every target. *)

From Coq Require Import ZArith List String Bool.
From Verif Require Import M_Prim M_Words M_Intr M_UintApi M_IntApi.
Import ListNotations.
Open Scope Z_scope.

(** fuzz/src/lib.rs:51 *)
Record num := Num { num_hi : Z; num_lo : Z }.
(** derived PartialEq, fuzz/src/lib.rs:50; used for matching the constants *)
Definition num_eqb (a b : num) : bool := (num_hi a =? num_hi b) && (num_lo a =? num_lo b).
(** fuzz/src/lib.rs:54 *)
Definition NUM_ZERO : num := Num 0 0.
(** fuzz/src/lib.rs:55 *)
Definition NUM_IMIN : num := Num (as_u 128 (- 2 ^ 127)) 0.
(** fuzz/src/lib.rs:56 *)
Definition NUM_UMAX : num := Num (2 ^ 128 - 1) (2 ^ 128 - 1).
(** fuzz/src/lib.rs:60-62 *)
Definition num_as_u256 (c : cfg) (n : num) : u256 := u_from_words c (num_hi n) (num_lo n).
(** fuzz/src/lib.rs:66-68 *)
Definition num_as_i256 (c : cfg) (n : num) : i256 := i_from_words c (as_i 128 (num_hi n)) (as_i 128 (num_lo n)).

(** fuzz/src/lib.rs:42-48 *)
Inductive fop := F_add (a b : num) | F_sub (a b : num) | F_mul (a b : num) | F_div (a b : num) | F_rem (a b : num).
(** fuzz/src/lib.rs:9-12 *)
Inductive target := Signed (o : fop) | Unsigned (o : fop).

(** fuzz/src/lib.rs:21-38 *)
Definition is_interesting (t : target) : bool :=
  match t with
  | Signed o | Unsigned o =>
      let zero_divisor := match o with F_div _ b | F_rem _ b => num_eqb b NUM_ZERO | _ => false end in
      if zero_divisor then false
      else match t with
           | Signed (F_rem a b) => negb (num_eqb a NUM_IMIN && num_eqb b NUM_UMAX)
           | _ => true
           end
  end.

(** The trait Int, fuzz/src/conv.rs:8-12; [neg] may panic *)
Record int_impl (A : Type) := IntImpl {
  from_nibbles : list Z -> res (A * bool);
  int_neg : A -> res (A * bool);
  int_le : A -> list Z * bool }.
Arguments from_nibbles {A}. Arguments int_neg {A}. Arguments int_le {A}.

(** [((n[0] as u128) << 64) + (n[1] as u128)], fuzz/src/conv.rs:18-19 *)
Definition join64 (c : cfg) (h l : Z) : res Z :=
  let! s := u_shl c 128 (as_u 128 h) 64 in u_add c 128 s (as_u 128 l).
(** fuzz/src/conv.rs:17-32 for U256 *)
Definition u_int (c : cfg) : int_impl u256 := IntImpl u256
  (fun n =>
     let! hi := join64 c (nth 0 n 0) (nth 1 n 0) in
     let! lo := join64 c (nth 2 n 0) (nth 3 n 0) in
     let int := u_from_words c hi lo in
     Ret (int, is_lt (u_cmp_prim c int 0)))
  (fun x => Ret (u_overflowing_neg c x))
  (fun x => (u_to_le_bytes c x, is_lt (u_cmp_prim c x 0))).
(** fuzz/src/conv.rs:17-32 for I256; [hi as _] is a cast to i128 *)
Definition i_int (c : cfg) : int_impl i256 := IntImpl i256
  (fun n =>
     let! hi := join64 c (nth 0 n 0) (nth 1 n 0) in
     let! lo := join64 c (nth 2 n 0) (nth 3 n 0) in
     let int := i_from_words c (as_i 128 hi) (as_i 128 lo) in
     Ret (int, is_lt (i_cmp_prim c int 0)))
  (fun x => i_overflowing_neg c x)
  (fun x => (i_to_le_bytes c x, is_lt (i_cmp_prim c x 0))).

(** BigInt::iter_u64_digits: the base 2^64 digits of the magnitude, least significant first, none for
    zero; used at fuzz/src/conv.rs:42 *)
Fixpoint u64_digits (fuel : nat) (m : Z) : list Z :=
  match fuel with
  | O => []
  | S fuel' => if m =? 0 then [] else m mod 2 ^ 64 :: u64_digits fuel' (m / 2 ^ 64)
  end.
(** the digits of n; every number has fewer digits than bits; fuzz/src/conv.rs:42 *)
Definition iter_u64_digits (n : Z) : list Z := u64_digits (S (Z.to_nat (Z.log2 (Z.abs n)))) (Z.abs n).

(** fuzz/src/conv.rs:38-57.  The loop at 44-46 fills the nibbles from the last to the first with the
    next digits, or zeros; line 49 asks whether a fifth digit is left. *)
Definition from_bigint {A} (t : int_impl A) (n : Z) : res (A * bool) :=
  let digits := iter_u64_digits n in
  let digit i := nth i digits 0 in
  let nibbles := [digit 3%nat; digit 2%nat; digit 1%nat; digit 0%nat] in
  let! '(result, negative) := from_nibbles t nibbles in
  let overflowed := Nat.ltb 4 (List.length digits) in
  if n <? 0 then
    let! '(neg, overflow) := int_neg t result in
    Ret (neg, overflowed || xorb negative overflow)
  else Ret (result, overflowed || negative).

(** BigInt::from_signed_bytes_le: two's complement; used at fuzz/src/conv.rs:71 *)
Definition from_signed_bytes_le (l : list Z) : Z :=
  let v := of_le_bytes l in
  if 128 <=? nth (List.length l - 1) l 0 then v - 2 ^ (8 * Z.of_nat (List.length l)) else v.
(** fuzz/src/conv.rs:60-72 *)
Definition to_bigint {A} (t : int_impl A) (x : A) : Z :=
  let '(bytes, negative) := int_le t x in
  let sign := if negative : bool then 255 else 0 in
  from_signed_bytes_le (bytes ++ [sign]).

(** fuzz/src/reference.rs:9-19 with the body of one of the functions at 22-40 *)
Definition reference {A} (t : int_impl A) (body : Z -> Z -> Z) (a b : A) : res (A * bool) :=
  from_bigint t (body (to_bigint t a) (to_bigint t b)).

(** assert_eq!, fuzz/src/lib.rs:83-89 *)
Definition assert_same {A} (eq : A -> A -> bool) (r s : res (A * bool)) : res unit :=
  let! '(x, o) := r in
  let! '(y, p) := s in
  if eq x y && Bool.eqb o p then Ret tt else Panic "assertion failed: `(left == right)`".
(** fuzz/src/lib.rs:71-81 with as_u256 *)
Definition u_ops (c : cfg) (o : fop) : res unit :=
  let t := u_int c in
  let v := num_as_u256 c in
  match o with
  | F_add a b => assert_same (u_eq c) (Ret (u_overflowing_add c (v a) (v b))) (reference t Z.add (v a) (v b))
  | F_sub a b => assert_same (u_eq c) (Ret (u_overflowing_sub c (v a) (v b))) (reference t Z.sub (v a) (v b))
  | F_mul a b => assert_same (u_eq c) (u_overflowing_mul c (v a) (v b)) (reference t Z.mul (v a) (v b))
  | F_div a b => assert_same (u_eq c) (u_overflowing_div c (v a) (v b)) (reference t Z.quot (v a) (v b))
  | F_rem a b => assert_same (u_eq c) (u_overflowing_rem c (v a) (v b)) (reference t Z.rem (v a) (v b))
  end.
(** fuzz/src/lib.rs:71-81 with as_i256 *)
Definition i_ops (c : cfg) (o : fop) : res unit :=
  let t := i_int c in
  let v := num_as_i256 c in
  match o with
  | F_add a b => assert_same (i_eq c) (Ret (i_overflowing_add c (v a) (v b))) (reference t Z.add (v a) (v b))
  | F_sub a b => assert_same (i_eq c) (Ret (i_overflowing_sub c (v a) (v b))) (reference t Z.sub (v a) (v b))
  | F_mul a b => assert_same (i_eq c) (i_overflowing_mul c (v a) (v b)) (reference t Z.mul (v a) (v b))
  | F_div a b => assert_same (i_eq c) (i_overflowing_div c (v a) (v b)) (reference t Z.quot (v a) (v b))
  | F_rem a b => assert_same (i_eq c) (i_overflowing_rem c (v a) (v b)) (reference t Z.rem (v a) (v b))
  end.
(** fuzz/src/lib.rs:92-102, after the target is loaded *)
Definition fuzz (c : cfg) (t : target) : res unit :=
  if is_interesting t then
    match t with Signed o => i_ops c o | Unsigned o => u_ops c o end
  else Ret tt.
