(** * The intrinsics of the llvm-intrinsics feature
    src/intrinsics/llvm.rs, intrinsics/src/lib.rs, intrinsics/build/{intrinsics,main}.rs

    With the feature enabled these intrinsics are compiled from LLVM IR: rustc
    compiles the u128 functions of intrinsics/build/intrinsics.rs with -O (so
    without overflow checks), and the build script replaces the width 128 by 256
    in the text of the IR (intrinsics/build/main.rs:25-48).  Modelled here is the
    reading of that template with u128 and i128 replaced by 256-bit types; the
    rustc and LLVM passes are not modelled; for the text replacement see [M_Link].
    Out-parameters are returned. *)

From Coq Require Import ZArith List String Bool.
From Verif Require Import M_Prim M_Words.
Import ListNotations.
Open Scope Z_scope.

(** Reading the memory of a U256 as a 256-bit integer in target byte order
    (src/intrinsics/llvm.rs:22-38 transmutes the references) *)
Definition l_load (c : cfg) (x : u256) : Z :=
  if big_endian c then uw0 x * 2 ^ 128 + uw1 x else uw1 x * 2 ^ 128 + uw0 x.
(** Writing a 256-bit integer [v] in [0, 2^256) into the memory of a U256
    (src/intrinsics/llvm.rs:22-38) *)
Definition l_store (c : cfg) (v : Z) : u256 :=
  if big_endian c then mkU (v / 2 ^ 128) (v mod 2 ^ 128) else mkU (v mod 2 ^ 128) (v / 2 ^ 128).
(** The same for I256, read as a signed number (src/intrinsics/llvm.rs:22-38) *)
Definition l_iload (c : cfg) (x : i256) : Z := as_i 256 (l_load c (i_as_u256 x)).
(** src/intrinsics/llvm.rs:22-38 *)
Definition l_istore (c : cfg) (v : Z) : i256 := u_as_i256 (l_store c (as_u 256 v)).

(** intrinsics/build/intrinsics.rs:35-37; [+=] wraps without overflow checks *)
Definition l_add2 (c : cfg) (r a : u256) : u256 := l_store c (wrapping_add 256 (l_load c r) (l_load c a)).
(** intrinsics/build/intrinsics.rs:38-41 *)
Definition l_add3 (c : cfg) (a b : u256) : u256 := l_store c (wrapping_add 256 (l_load c a) (l_load c b)).
(** intrinsics/build/intrinsics.rs:42-46 *)
Definition l_uaddc (c : cfg) (a b : u256) : u256 * bool :=
  let '(res, carry) := overflowing_add 256 (l_load c a) (l_load c b) in
  (l_store c res, carry).

(** i256::overflowing_{add,sub} as used by intrinsics/build/intrinsics.rs:47-51, 65-69 on the exact result [x] *)
Definition i_overflowing (n x : Z) : Z * bool :=
  (as_i n x, (x <? - 2 ^ (n - 1)) || (2 ^ (n - 1) <=? x)).
(** intrinsics/build/intrinsics.rs:47-51 *)
Definition l_iaddc (c : cfg) (a b : i256) : i256 * bool :=
  let '(res, carry) := i_overflowing 256 (l_iload c a + l_iload c b) in
  (l_istore c res, carry).

(** intrinsics/build/intrinsics.rs:53-55 *)
Definition l_sub2 (c : cfg) (r a : u256) : u256 := l_store c (wrapping_sub 256 (l_load c r) (l_load c a)).
(** intrinsics/build/intrinsics.rs:56-59 *)
Definition l_sub3 (c : cfg) (a b : u256) : u256 := l_store c (wrapping_sub 256 (l_load c a) (l_load c b)).
(** intrinsics/build/intrinsics.rs:60-64 *)
Definition l_usubc (c : cfg) (a b : u256) : u256 * bool :=
  let '(res, carry) := overflowing_sub 256 (l_load c a) (l_load c b) in
  (l_store c res, carry).
(** intrinsics/build/intrinsics.rs:65-69 *)
Definition l_isubc (c : cfg) (a b : i256) : i256 * bool :=
  let '(res, carry) := i_overflowing 256 (l_iload c a - l_iload c b) in
  (l_istore c res, carry).

(** intrinsics/build/intrinsics.rs:71-73 *)
Definition l_mul2 (c : cfg) (r a : u256) : u256 := l_store c (wrapping_mul 256 (l_load c r) (l_load c a)).
(** intrinsics/build/intrinsics.rs:74-77 *)
Definition l_mul3 (c : cfg) (a b : u256) : u256 := l_store c (wrapping_mul 256 (l_load c a) (l_load c b)).
(** intrinsics/build/intrinsics.rs:78-82 *)
Definition l_umulc (c : cfg) (a b : u256) : u256 * bool :=
  let '(res, carry) := overflowing_mul 256 (l_load c a) (l_load c b) in
  (l_store c res, carry).

(** [<<=] without overflow checks, and wrapping_shl, mask the amount to the width:
    the mask 127 of the template becomes 255 (intrinsics/build/main.rs:42) *)
Definition l_mask (a : Z) : Z := Z.land a 255.
(** intrinsics/build/intrinsics.rs:84-86 *)
Definition l_shl2 (c : cfg) (r : u256) (a : Z) : u256 := l_store c (Z.shiftl (l_load c r) (l_mask a) mod 2 ^ 256).
(** intrinsics/build/intrinsics.rs:87-90 *)
Definition l_shl3 (c : cfg) (a : u256) (b : Z) : u256 := l_store c (Z.shiftl (l_load c a) (l_mask b) mod 2 ^ 256).
(** intrinsics/build/intrinsics.rs:92-94; the shift of a signed integer is arithmetic *)
Definition l_sar2 (c : cfg) (r : i256) (a : Z) : i256 := l_istore c (Z.shiftr (l_iload c r) (l_mask a)).
(** intrinsics/build/intrinsics.rs:95-98 *)
Definition l_sar3 (c : cfg) (a : i256) (b : Z) : i256 := l_istore c (Z.shiftr (l_iload c a) (l_mask b)).
(** intrinsics/build/intrinsics.rs:99-101 *)
Definition l_shr2 (c : cfg) (r : u256) (a : Z) : u256 := l_store c (Z.shiftr (l_load c r) (l_mask a)).
(** intrinsics/build/intrinsics.rs:102-105 *)
Definition l_shr3 (c : cfg) (a : u256) (b : Z) : u256 := l_store c (Z.shiftr (l_load c a) (l_mask b)).

(** intrinsics/build/intrinsics.rs:107-109; rotate_left is LLVM's funnel shift of the value joined to itself,
    by the amount modulo the width *)
Definition l_rol3 (c : cfg) (a : u256) (b : Z) : u256 :=
  let v := l_load c a in l_store c (Z.shiftl (v * 2 ^ 256 + v) (b mod 256) / 2 ^ 256 mod 2 ^ 256).
(** intrinsics/build/intrinsics.rs:110-112 *)
Definition l_ror3 (c : cfg) (a : u256) (b : Z) : u256 :=
  let v := l_load c a in l_store c (Z.shiftr (v * 2 ^ 256 + v) (b mod 256) mod 2 ^ 256).

(** intrinsics/build/intrinsics.rs:114-116 *)
Definition l_ctlz (c : cfg) (a : u256) : Z := leading_zeros 256 (l_load c a).
(** intrinsics/build/intrinsics.rs:117-119 *)
Definition l_cttz (c : cfg) (a : u256) : Z := trailing_zeros 256 (l_load c a).
