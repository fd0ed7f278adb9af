(** * Conversions between the 256-bit types and primitive integers
    src/uint.rs:171-258, src/int.rs:173-261, src/uint/convert.rs, src/int/convert.rs *)

From Coq Require Import ZArith List String Bool.
From Verif Require Import M_Prim M_Words.
Import ListNotations.
Open Scope Z_scope.

(** A primitive integer type other than bool. src/uint/convert.rs:179-183 *)
Inductive ity := TU (n : Z) | TI (n : Z) | Tusize | Tisize.

(** its width and whether it is signed; src/uint/convert.rs:179-183 *)
Definition t_width (c : cfg) (t : ity) : Z :=
  match t with TU n | TI n => n | Tusize | Tisize => usize_bits c end.
(** the signed types, src/uint/convert.rs:180 and 182 *)
Definition t_signed (t : ity) : bool := match t with TI _ | Tisize => true | _ => false end.
(** <t>::MIN and <t>::MAX; src/uint/convert.rs:162-177 *)
Definition t_min (c : cfg) (t : ity) : Z := if t_signed t then - 2 ^ (t_width c t - 1) else 0.
(** the maximum of the type, src/uint/convert.rs:162-177 *)
Definition t_max (c : cfg) (t : ity) : Z :=
  if t_signed t then 2 ^ (t_width c t - 1) - 1 else 2 ^ t_width c t - 1.
(** [x as t] for an integer [x]; e.g. src/uint.rs:171-174 *)
Definition t_cast (c : cfg) (t : ity) (x : Z) : Z :=
  if t_signed t then as_i (t_width c t) x else as_u (t_width c t) x.

(** The twelve types of impl_as_u256!, impl_try_into! and the as_* methods;
    src/uint/convert.rs:108-112, 179-183, src/int/convert.rs:102-106, 180-184 *)
Definition int_types : list ity :=
  [TI 8; TI 16; TI 32; TI 64; TI 128; TU 8; TU 16; TU 32; TU 64; TU 128; Tisize; Tusize].
(** src/uint/convert.rs:18-20 without bool *)
Definition u_from_types : list ity := [TU 8; TU 16; TU 32; TU 64; TU 128].
(** src/uint/convert.rs:35-38 *)
Definition u_try_from_types : list ity := [TI 8; TI 16; TI 32; TI 64; TI 128; Tisize; Tusize].
(** src/int/convert.rs:18-22 without bool *)
Definition i_from_types : list ity :=
  [TI 8; TI 16; TI 32; TI 64; TI 128; TU 8; TU 16; TU 32; TU 64; TU 128].

(** ** as_* methods *)

(** src/uint.rs:171-203, 213-258: as_i8 .. as_usize, one per type of [int_types] *)
Definition u_as (c : cfg) (t : ity) (x : u256) : Z := let '(_, lo) := u_into_words c x in t_cast c t lo.
(** src/int.rs:173-240, 250-261 *)
Definition i_as (c : cfg) (t : ity) (x : i256) : Z := let '(_, lo) := i_into_words c x in t_cast c t lo.

(** ** AsU256, AsI256 *)

(** src/uint/convert.rs:95-106; [!0] has type u128 *)
Definition prim_as_u256 (c : cfg) (v : Z) : u256 :=
  let hi := if 0 <=? v then 0 else u_not 128 0 in
  u_from_words c hi (as_u 128 v).
(** src/uint/convert.rs:114-119 *)
Definition bool_as_u256 (c : cfg) (b : bool) : u256 := u_new c (Z.b2z b).
(** src/uint/convert.rs:81-86 *)
Definition u256_as_u256 (x : u256) : u256 := x.
(** src/uint/convert.rs:88-93 *)
Definition i256_as_u256 (x : i256) : u256 := i_as_u256 x.
(** src/int/convert.rs:89-100; [!0] has type i128 *)
Definition prim_as_i256 (c : cfg) (v : Z) : i256 :=
  let hi := if 0 <=? v then 0 else -1 in
  i_from_words c hi (as_i 128 v).
(** src/int/convert.rs:108-113 *)
Definition bool_as_i256 (c : cfg) (b : bool) : i256 := i_new c (Z.b2z b).
(** src/int/convert.rs:75-80 *)
Definition i256_as_i256 (x : i256) : i256 := x.
(** src/int/convert.rs:82-87 *)
Definition u256_as_i256 (x : u256) : i256 := u_as_i256 x.

(** ** From and TryFrom; [None] is Err(TryFromIntError) *)

(** src/uint/convert.rs:7-20 for the integer types; [value.into()] to u128 keeps the value *)
Definition u_from_prim (c : cfg) (v : Z) : u256 := u_new c v.
(** src/uint/convert.rs:7-20 for bool *)
Definition u_from_bool (c : cfg) (b : bool) : u256 := u_new c (Z.b2z b).
(** src/uint/convert.rs:22-33; core's u128::try_from checks the range *)
Definition u_try_from_prim (c : cfg) (v : Z) : option u256 :=
  if (0 <=? v) && (v <? 2 ^ 128) then Some (u_new c v) else None.
(** src/uint/convert.rs:40-49; [value < 0] compares with an i128, src/macros/cmp.rs:51-53 *)
Definition u_try_from_i256 (c : cfg) (x : i256) : option u256 :=
  if is_lt (i_cmp_prim c x 0) then None else Some (i_as_u256 x).
(** src/int/convert.rs:7-22 for the integer types *)
Definition i_from_prim (c : cfg) (v : Z) : i256 := prim_as_i256 c v.
(** src/int/convert.rs:7-22 for bool *)
Definition i_from_bool (c : cfg) (b : bool) : i256 := bool_as_i256 c b.
(** src/int/convert.rs:24-33 *)
Definition i_try_from_u256 (c : cfg) (x : u256) : option i256 :=
  if u_gt c x (i_as_u256 (I256_MAX c)) then None else Some (u_as_i256 x).
(** src/uint/convert.rs:162-177 *)
Definition u_try_into (c : cfg) (t : ity) (x : u256) : option Z :=
  if u_le c x (prim_as_u256 c (t_max c t)) then Some (t_cast c t (u_low c x)) else None.
(** src/int/convert.rs:163-178 *)
Definition i_try_into (c : cfg) (t : ity) (x : i256) : option Z :=
  if i_ge c x (prim_as_i256 c (t_min c t)) && i_le c x (prim_as_i256 c (t_max c t))
  then Some (t_cast c t (i_low c x)) else None.
