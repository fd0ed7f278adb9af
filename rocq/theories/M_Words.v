(** * Representation and comparison of U256 and I256
    src/uint.rs, src/int.rs, src/uint/cmp.rs, src/int/cmp.rs, src/macros/cmp.rs *)

From Coq Require Import ZArith List String Bool.
From Verif Require Import M_Prim.
Import ListNotations.
Open Scope Z_scope.

(** src/uint.rs:16-18  [struct U256(pub [u128; 2])]; fields in memory order. *)
Record u256 := mkU { uw0 : Z; uw1 : Z }.

(** src/int.rs:16-18  [struct I256(pub [i128; 2])]; fields in memory order. *)
Record i256 := mkI { iw0 : Z; iw1 : Z }.

(** ** U256 words *)

(** src/uint.rs:35-44 *)
Definition u_from_words (c : cfg) (hi lo : Z) : u256 :=
  if big_endian c then mkU hi lo else mkU lo hi.

(** src/uint.rs:48-59 *)
Definition u_into_words (c : cfg) (x : u256) : Z * Z :=
  if big_endian c then (uw0 x, uw1 x) else (uw1 x, uw0 x).

(** src/uint.rs:63-72 *)
Definition u_low (c : cfg) (x : u256) : Z := if big_endian c then uw1 x else uw0 x.

(** src/uint.rs:89-99 *)
Definition u_high (c : cfg) (x : u256) : Z := if big_endian c then uw0 x else uw1 x.

(** src/uint.rs:77-86, the assignment [*x.low_mut() = v] *)
Definition u_set_low (c : cfg) (x : u256) (v : Z) : u256 :=
  if big_endian c then mkU (uw0 x) v else mkU v (uw1 x).

(** src/uint.rs:104-113, the assignment [*x.high_mut() = v] *)
Definition u_set_high (c : cfg) (x : u256) (v : Z) : u256 :=
  if big_endian c then mkU v (uw1 x) else mkU (uw0 x) v.

(** src/uint.rs:29-31 *)
Definition u_new (c : cfg) (v : Z) : u256 := u_from_words c 0 v.

(** src/uint.rs:22 *)
Definition U256_ZERO : u256 := mkU 0 0.
(** src/uint.rs:25 *)
Definition U256_ONE (c : cfg) : u256 := u_new c 1.
(** src/uint/api.rs:22 *)
Definition U256_MIN : u256 := mkU 0 0.
(** src/uint/api.rs:37 *)
Definition U256_MAX : u256 := mkU (u_not 128 0) (u_not 128 0).

(** ** I256 words *)

(** src/int.rs:38-47 *)
Definition i_from_words (c : cfg) (hi lo : Z) : i256 :=
  if big_endian c then mkI hi lo else mkI lo hi.

(** src/int.rs:51-62 *)
Definition i_into_words (c : cfg) (x : i256) : Z * Z :=
  if big_endian c then (iw0 x, iw1 x) else (iw1 x, iw0 x).

(** src/int.rs:66-75 *)
Definition i_low (c : cfg) (x : i256) : Z := if big_endian c then iw1 x else iw0 x.

(** src/int.rs:92-101 *)
Definition i_high (c : cfg) (x : i256) : Z := if big_endian c then iw0 x else iw1 x.

(** src/int.rs:79-88, the assignment [*x.low_mut() = v] *)
Definition i_set_low (c : cfg) (x : i256) (v : Z) : i256 :=
  if big_endian c then mkI (iw0 x) v else mkI v (iw1 x).

(** src/int.rs:106-115, the assignment [*x.high_mut() = v] *)
Definition i_set_high (c : cfg) (x : i256) (v : Z) : i256 :=
  if big_endian c then mkI v (iw1 x) else mkI (iw0 x) v.

(** src/int.rs:32-34; the literal shift amount 127 is in range *)
Definition i_new (c : cfg) (v : Z) : i256 := i_from_words c (Z.shiftr v 127) v.

(** src/int.rs:22 *)
Definition I256_ZERO : i256 := mkI 0 0.
(** src/int.rs:25 *)
Definition I256_ONE (c : cfg) : i256 := i_new c 1.
(** src/int.rs:28 *)
Definition I256_MINUS_ONE (c : cfg) : i256 := i_new c (-1).
(** src/int/api.rs:25 *)
Definition I256_MIN (c : cfg) : i256 := i_from_words c (- 2 ^ 127) 0.
(** src/int/api.rs:41 *)
Definition I256_MAX (c : cfg) : i256 := i_from_words c (2 ^ 127 - 1) (-1).

(** ** Reinterpretation between the two types *)

(** src/uint.rs:206-209; also src/intrinsics/cast.rs:11-13 (writing through a U256 pointer into an I256) *)
Definition u_as_i256 (x : u256) : i256 := mkI (as_i 128 (uw0 x)) (as_i 128 (uw1 x)).

(** src/int.rs:244-247; also src/intrinsics/cast.rs:5-10 (reading an I256 through a U256 pointer) *)
Definition i_as_u256 (x : i256) : u256 := mkU (as_u 128 (iw0 x)) (as_u 128 (iw1 x)).

(** ** Comparison *)

(** src/macros/cmp.rs:19-25 for U256 *)
Definition u_eq (c : cfg) (a b : u256) : bool :=
  let '(ahi, alo) := u_into_words c a in
  let '(bhi, blo) := u_into_words c b in
  (ahi =? bhi) && (alo =? blo).

(** src/macros/cmp.rs:19-25 for I256 *)
Definition i_eq (c : cfg) (a b : i256) : bool :=
  let '(ahi, alo) := i_into_words c a in
  let '(bhi, blo) := i_into_words c b in
  (ahi =? bhi) && (alo =? blo).

(** src/uint/cmp.rs:18-20; tuple comparison is lexicographic *)
Definition u_cmp (c : cfg) (a b : u256) : comparison :=
  let '(ahi, alo) := u_into_words c a in
  let '(bhi, blo) := u_into_words c b in
  lex (ahi ?= bhi) (alo ?= blo).

(** src/int/cmp.rs:19-23 *)
Definition i_cmp (c : cfg) (a b : i256) : comparison :=
  let '(ahi, alo) := i_into_words c a in
  let '(bhi, blo) := i_into_words c b in
  lex (ahi ?= bhi) (as_u 128 alo ?= as_u 128 blo).

(** src/macros/cmp.rs:30-32, 37-39: comparison with a primitive on the right / left *)
Definition u_eq_prim (c : cfg) (a : u256) (b : Z) : bool := u_eq c a (u_new c b).
(** src/macros/cmp.rs:37-39 *)
Definition prim_eq_u (c : cfg) (a : Z) (b : u256) : bool := u_eq c (u_new c a) b.
(** src/macros/cmp.rs:51-53 *)
Definition u_cmp_prim (c : cfg) (a : u256) (b : Z) : comparison := u_cmp c a (u_new c b).
(** src/macros/cmp.rs:58-60 *)
Definition prim_cmp_u (c : cfg) (a : Z) (b : u256) : comparison := u_cmp c (u_new c a) b.
(** src/macros/cmp.rs:30-32 *)
Definition i_eq_prim (c : cfg) (a : i256) (b : Z) : bool := i_eq c a (i_new c b).
(** src/macros/cmp.rs:37-39 *)
Definition prim_eq_i (c : cfg) (a : Z) (b : i256) : bool := i_eq c (i_new c a) b.
(** src/macros/cmp.rs:51-53 *)
Definition i_cmp_prim (c : cfg) (a : i256) (b : Z) : comparison := i_cmp c a (i_new c b).
(** src/macros/cmp.rs:58-60 *)
Definition prim_cmp_i (c : cfg) (a : Z) (b : i256) : comparison := i_cmp c (i_new c a) b.

(** The operators < <= > >= are the provided methods of PartialOrd, defined from
    partial_cmp (src/macros/cmp.rs:42-47); min and max those of Ord. *)
Definition u_lt c a b := is_lt (u_cmp c a b).
(** PartialOrd::le, src/macros/cmp.rs:42-47 *)
Definition u_le c a b := is_le (u_cmp c a b).
(** PartialOrd::gt, src/macros/cmp.rs:42-47 *)
Definition u_gt c a b := is_gt (u_cmp c a b).
(** PartialOrd::ge, src/macros/cmp.rs:42-47 *)
Definition u_ge c a b := is_ge (u_cmp c a b).
(** PartialOrd::lt, src/macros/cmp.rs:42-47 *)
Definition i_lt c a b := is_lt (i_cmp c a b).
(** PartialOrd::le, src/macros/cmp.rs:42-47 *)
Definition i_le c a b := is_le (i_cmp c a b).
(** PartialOrd::gt, src/macros/cmp.rs:42-47 *)
Definition i_gt c a b := is_gt (i_cmp c a b).
(** PartialOrd::ge, src/macros/cmp.rs:42-47 *)
Definition i_ge c a b := is_ge (i_cmp c a b).
(** Ord::max / Ord::min (provided methods over src/uint/cmp.rs:18-20): max returns the second operand on ties, min the first *)
Definition u_max c a b : u256 := match u_cmp c a b with Gt => a | _ => b end.
(** Ord::min over src/uint/cmp.rs:18-20 *)
Definition u_min c a b : u256 := match u_cmp c a b with Gt => b | _ => a end.
(** Ord::max over src/int/cmp.rs:19-23 *)
Definition i_max c a b : i256 := match i_cmp c a b with Gt => a | _ => b end.
(** Ord::min over src/int/cmp.rs:19-23 *)
Definition i_min c a b : i256 := match i_cmp c a b with Gt => b | _ => a end.

(** The bytes of the array [u128; 2] in memory: each word in target order. src/uint.rs:18, src/macros/cmp.rs:13 *)
Definition u_mem_bytes (c : cfg) (x : u256) : list Z :=
  let w v := if big_endian c then rev (le_bytes 16 v) else le_bytes 16 v in
  w (uw0 x) ++ w (uw1 x).
(** The bytes of [i128; 2] in memory; src/int.rs:18, src/macros/cmp.rs:13 *)
Definition i_mem_bytes (c : cfg) (x : i256) : list Z :=
  let w v := if big_endian c then rev (le_bytes 16 v) else le_bytes 16 v in
  w (as_u 128 (iw0 x)) ++ w (as_u 128 (iw1 x)).

(** src/macros/cmp.rs:7-15: Hash::hash(&self.0, hasher).  core hashes an array of
    integers as a slice: write_length_prefix (by default write_usize) and then one
    [write] of the memory of the elements.  A hasher is a state with these two
    functions. *)
Definition u_hash {S} (write_usize : S -> Z -> S) (write : S -> list Z -> S) (c : cfg) (x : u256) (h : S) : S :=
  write (write_usize h 2) (u_mem_bytes c x).
(** src/macros/cmp.rs:7-15 for I256 *)
Definition i_hash {S} (write_usize : S -> Z -> S) (write : S -> list Z -> S) (c : cfg) (x : i256) (h : S) : S :=
  write (write_usize h 2) (i_mem_bytes c x).
