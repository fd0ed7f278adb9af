(** * C27, C28: conversions between the 256-bit and the primitive integer types *)

From Coq Require Import ZArith String List Bool Lia ZifyBool.
Import ListNotations.
From Verif Require Import M_Prim M_Words M_Convert Spec Spec_Convert P_Words P_Convert T_Base.
Open Scope Z_scope.

(** C27: From and TryFrom from the primitive types.  [t_in c t v] says that [v] is a value of type [t]. *)
Theorem C27_from_primitives : forall c t v b,
  usize_ok c -> t_in c t v = true ->
  (In t u_from_types -> u_from_prim c v = uof c v /\ 0 <= v < 2 ^ 256) /\
  (In t u_try_from_types -> u_try_from_prim c v = if 0 <=? v then Some (uof c v) else None) /\
  (In t i_from_types -> i_from_prim c v = iof c v /\ - 2 ^ 255 <= v < 2 ^ 255) /\
  u_from_bool c b = uof c (if b then 1 else 0) /\ i_from_bool c b = iof c (if b then 1 else 0).
Proof. exact from_family. Qed.
Print Assumptions C27_from_primitives.

Example C27_from_case :
  usize_ok dev /\ t_in dev (TI 8) (-128) = true /\ In (TI 8) u_try_from_types /\ In (TI 8) i_from_types /\
  u_try_from_prim dev (-128) = None /\ i_from_prim dev (-128) = iof dev (-128) /\
  u_try_from_prim devB (2 ^ 127 - 1) = Some (uof devB (2 ^ 127 - 1)) /\ u_from_prim devB (2 ^ 128 - 1) = uof devB (2 ^ 128 - 1).
Proof. vm_compute. intuition congruence. Qed.

(** C27: TryFrom into every primitive integer type. *)
Theorem C27_into_primitives : forall c t x y,
  usize_ok c -> In t int_types -> wf_u x -> wf_i y ->
  u_try_into c t x = (if t_in c t (uval c x) then Some (uval c x) else None) /\
  i_try_into c t y = (if t_in c t (ival c y) then Some (ival c y) else None).
Proof. exact into_family. Qed.
Print Assumptions C27_into_primitives.

Example C27_into_case :
  usize_ok mixB /\ In Tusize int_types /\ wf_u (uof mixB (2 ^ 32)) /\ wf_i (iof mixB (-129)) /\
  u_try_into mixB Tusize (uof mixB (2 ^ 32)) = None /\ u_try_into dev Tusize (uof dev (2 ^ 32)) = Some (2 ^ 32) /\
  i_try_into mixB (TI 8) (iof mixB (-129)) = None /\ i_try_into mixB (TI 8) (iof mixB (-128)) = Some (-128) /\
  u_try_into dev (TU 8) (uof dev (2 ^ 128 + 5)) = None.
Proof. vm_compute. intuition congruence. Qed.

(** C27: TryFrom between U256 and I256. *)
Theorem C27_between : forall c x y,
  wf_u x -> wf_i y ->
  u_try_from_i256 c y = (if in_u 256 (ival c y) then Some (uof c (ival c y)) else None) /\
  i_try_from_u256 c x = (if in_i 256 (uval c x) then Some (iof c (uval c x)) else None).
Proof. exact between_family. Qed.
Print Assumptions C27_between.

Example C27_between_case :
  wf_u (uof dev (2 ^ 255)) /\ wf_i (iof dev (-1)) /\
  u_try_from_i256 dev (iof dev (-1)) = None /\ i_try_from_u256 dev (uof dev (2 ^ 255)) = None /\
  u_try_from_i256 dev (iof dev 7) = Some (uof dev 7) /\ i_try_from_u256 devB (uof devB MAXI) = Some (iof devB MAXI).
Proof. vm_compute. intuition congruence. Qed.

(** C28: [as_i8] .. [as_usize] reduce the value modulo 2^bits into the range of the type. *)
Theorem C28_as_primitives : forall c t x y,
  usize_ok c -> In t int_types -> wf_u x -> wf_i y ->
  u_as c t x = t_wrap c t (uval c x) /\ i_as c t y = t_wrap c t (ival c y).
Proof. exact as_family. Qed.
Print Assumptions C28_as_primitives.

Example C28_as_case :
  usize_ok dev /\ In (TI 16) int_types /\ wf_u (uof dev (2 ^ 200 + 65535)) /\ wf_i (iof dev (-65537)) /\
  u_as dev (TI 16) (uof dev (2 ^ 200 + 65535)) = -1 /\ i_as dev (TU 16) (iof dev (-65537)) = 65535 /\
  i_as mixB Tisize (iof mixB (2 ^ 31)) = - 2 ^ 31.
Proof. vm_compute. intuition congruence. Qed.

(** C28: [as_u256] and [as_i256], between the two types and from every primitive value
    (all primitive integers lie in -2^127 .. 2^128-1). *)
Theorem C28_as_256 : forall c x y v b,
  wf_u x -> wf_i y -> - 2 ^ 127 <= v < 2 ^ 128 ->
  u256_as_i256 x = iof c (uval c x) /\ i256_as_u256 y = uof c (ival c y) /\
  u_as_i256 x = iof c (uval c x) /\ i_as_u256 y = uof c (ival c y) /\
  u256_as_u256 x = x /\ i256_as_i256 y = y /\
  prim_as_u256 c v = uof c v /\ prim_as_i256 c v = iof c v /\
  bool_as_u256 c b = uof c (if b then 1 else 0) /\ bool_as_i256 c b = iof c (if b then 1 else 0).
Proof. exact as256_family. Qed.
Print Assumptions C28_as_256.

Example C28_as256_case :
  u256_as_i256 (uof dev (2 ^ 256 - 2)) = iof dev (-2) /\ i256_as_u256 (iof devB (-2)) = uof devB (2 ^ 256 - 2) /\
  prim_as_u256 dev (-2) = uof dev (2 ^ 256 - 2) /\ prim_as_i256 devB (2 ^ 128 - 1) = iof devB (2 ^ 128 - 1) /\
  prim_as_i256 devB (- 2 ^ 127) = iof devB (- 2 ^ 127).
Proof. vm_compute. intuition congruence. Qed.

(** C28: widening then narrowing is the identity. *)
Theorem C28_widen_narrow : forall c t v,
  usize_ok c -> In t int_types -> t_in c t v = true ->
  u_as c t (prim_as_u256 c v) = v /\ i_as c t (prim_as_i256 c v) = v.
Proof. exact widen_narrow. Qed.
Print Assumptions C28_widen_narrow.

Example C28_widen_case :
  usize_ok mixB /\ In (TI 64) int_types /\ t_in mixB (TI 64) (- 2 ^ 63) = true /\
  u_as mixB (TI 64) (prim_as_u256 mixB (- 2 ^ 63)) = - 2 ^ 63 /\ i_as mixB (TI 64) (prim_as_i256 mixB (- 2 ^ 63)) = - 2 ^ 63.
Proof. vm_compute. intuition congruence. Qed.

