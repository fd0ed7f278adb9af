(** * Associated constants and derived traits
    src/uint.rs:16, src/int.rs:16, src/uint/api.rs:47, src/int/api.rs:51,
    src/macros/fmt.rs:46-62, src/uint/cmp.rs:16-21, src/int/cmp.rs:17-24 *)

From Coq Require Import ZArith String.
From Verif Require Import M_Prim M_Words M_Float.
Open Scope Z_scope.

(** src/uint/api.rs:47 *)
Definition U256_BITS : Z := 256.
(** src/int/api.rs:51 *)
Definition I256_BITS : Z := 256.
(** src/uint.rs:16, derive(Default): the default of [u128; 2] is two zeros *)
Definition u_default : u256 := mkU 0 0.
(** src/int.rs:16, derive(Default) *)
Definition i_default : i256 := mkI 0 0.

(** src/macros/fmt.rs:46-56 LowerExp and 58-62 UpperExp: both hand [as_f64] to the trait of f64.
    That formatter, together with its options, is code of core; [show] stands for it. *)
Definition u_fmt_exp {T : Type} (show : fl -> T) (c : cfg) (x : u256) : T := show (u_as_f64 c x).
(** src/macros/fmt.rs:46-62, for I256 *)
Definition i_fmt_exp {T : Type} (show : fl -> T) (c : cfg) (x : i256) : T := show (i_as_f64 c x).

(** Ord::clamp, a provided method of core over src/uint/cmp.rs:16-21 and src/macros/cmp.rs:
    [assert!(min <= max)], then [self < min] and [self > max] *)
Definition u_clamp (c : cfg) (x lo hi : u256) : res u256 :=
  if u_le c lo hi then Ret (if u_lt c x lo then lo else if u_gt c x hi then hi else x)
  else Panic "assertion failed: min <= max".
(** Ord::clamp over src/int/cmp.rs:17-24 *)
Definition i_clamp (c : cfg) (x lo hi : i256) : res i256 :=
  if i_le c lo hi then Ret (if i_lt c x lo then lo else if i_gt c x hi then hi else x)
  else Panic "assertion failed: min <= max".
(** PartialEq::ne, a provided method of core over src/macros/cmp.rs:17-26, for U256 *)
Definition u_ne (c : cfg) (a b : u256) : bool := negb (u_eq c a b).
(** PartialEq::ne over src/macros/cmp.rs:17-26, for I256 *)
Definition i_ne (c : cfg) (a b : i256) : bool := negb (i_eq c a b).
