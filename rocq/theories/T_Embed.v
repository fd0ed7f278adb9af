(** * C63, C64, C65: primitive integers in the 256-bit types, clamp, truncating casts *)

From Coq Require Import ZArith String List Bool Lia.
Import ListNotations.
From Verif Require Import M_Prim M_Words M_Intr M_Div M_Mul M_Ops M_UintApi M_IntApi M_Convert M_Float M_Misc.
From Verif Require Import Spec Spec_Bits Spec_Convert Spec_Float Spec_Embed P_Words P_Round P_Embed P_Clamp T_Base.
Open Scope Z_scope.

(** C63: U256 arithmetic on two converted numbers of a primitive type is exact, so that converting the result to any
    primitive type gives what the checked operation of that type gives (and the as_ cast, the wrapping one). Sums and
    products never overflow; only a subtraction below zero and a division by zero can panic. *)
Theorem C63_unsigned_arithmetic : forall c t t' a b,
  usize_ok c -> In t u_from_types -> In t' int_types ->
  t_in c t a = true -> t_in c t b = true ->
  let X := u_from_prim c a in let Y := u_from_prim c b in
  let back r v := (let! x := r in Ret (u_try_into c t' x, u_as c t' x)) = Ret (checked c t' v, t_wrap c t' v) in
  back (u_op_add c X Y) (a + b) /\ back (u_op_mul c X Y) (a * b) /\
  (b <= a -> back (u_op_sub c X Y) (a - b)) /\
  (if b =? 0 then u_op_div c X Y = Panic "attempt to divide by zero" /\ panics (u_op_rem c X Y)
   else back (u_op_div c X Y) (a / b) /\ back (u_op_rem c X Y) (a mod b)) /\
  back (Ret (u_op_and X Y)) (Z.land a b) /\ back (Ret (u_op_or X Y)) (Z.lor a b) /\ back (Ret (u_op_xor X Y)) (Z.lxor a b) /\
  u_as c t' (u_wrapping_sub c X Y) = t_wrap c t' (a - b).
Proof. exact u_widen_arith. Qed.
Print Assumptions C63_unsigned_arithmetic.

Example C63_unsigned_case :
  let a := 2 ^ 128 - 1 in let b := 2 ^ 127 + 5 in
  usize_ok dev /\ In (TU 128) u_from_types /\ In (TU 64) int_types /\ t_in dev (TU 128) a = true /\ t_in dev (TU 128) b = true /\
  (let! x := u_op_mul dev (u_from_prim dev a) (u_from_prim dev b) in Ret (u_try_into dev (TU 64) x, u_as dev (TU 64) x)) =
    Ret (None, 2 ^ 64 - 5) /\
  (let! x := u_op_rem dev (u_from_prim dev a) (u_from_prim dev b) in Ret (u_try_into dev (TU 128) x)) = Ret (Some (2 ^ 127 - 6)).
Proof. unfold usize_ok. cbn [In u_from_types int_types]. repeat split; try (vm_compute; reflexivity); cbn; auto 20. Qed.

(** C63: comparisons, conversions, casts, float casts and bit counts of a converted unsigned number are those of the
    primitive number; both float casts are correctly rounded there. *)
Theorem C63_unsigned_views : forall c t t' a b,
  usize_ok c -> In t u_from_types -> In t' int_types ->
  t_in c t a = true -> t_in c t b = true ->
  let X := u_from_prim c a in let Y := u_from_prim c b in
  u_cmp c X Y = (a ?= b) /\ u_eq c X Y = (a =? b) /\ u_max c X Y = u_from_prim c (Z.max a b) /\ u_min c X Y = u_from_prim c (Z.min a b) /\
  u_try_into c t' X = checked c t' a /\ u_as c t' X = t_wrap c t' a /\
  u_as_i256 X = i_from_prim c a /\
  correctly_rounded F32 a (u_as_f32 c X) /\ correctly_rounded F64 a (u_as_f64 c X) /\
  u_count_ones c X = Ret (ones (Z.to_nat (bits c t)) a) /\
  u_leading_zeros c X = Ret (if a =? 0 then 256 else 255 - Z.log2 a).
Proof. exact u_embed_observe. Qed.
Print Assumptions C63_unsigned_views.

Example C63_unsigned_views_case :
  let a := 2 ^ 54 + 2 ^ 30 + 1 in
  t_in dev (TU 64) a = true /\ u_as_f32 dev (u_from_prim dev a) = Fin (2 ^ 54 + 2 ^ 31) /\
  u_as_f64 dev (u_from_prim dev a) = Fin (2 ^ 54 + 2 ^ 30) /\ u_leading_zeros dev (u_from_prim dev a) = Ret 201 /\
  u_count_ones dev (u_from_prim dev a) = Ret 3 /\ ones 64 a = 3.
Proof. repeat split; vm_compute; reflexivity. Qed.

(** C63: the same for I256 and every primitive integer type of either sign. Nothing overflows except the product of two
    u128 numbers, which then still is right modulo 2^256. *)
Theorem C63_signed_arithmetic : forall c t t' a b,
  usize_ok c -> In t i_from_types -> In t' int_types ->
  t_in c t a = true -> t_in c t b = true ->
  let X := i_from_prim c a in let Y := i_from_prim c b in
  let back r v := (let! x := r in Ret (i_try_into c t' x, i_as c t' x)) = Ret (checked c t' v, t_wrap c t' v) in
  back (i_op_add c X Y) (a + b) /\ back (i_op_sub c X Y) (a - b) /\
  (t <> TU 128 -> back (i_op_mul c X Y) (a * b)) /\
  back (i_op_neg c X) (- a) /\ back (i_abs c X) (Z.abs a) /\ back (Ret (i_signum c X)) (Z.sgn a) /\
  back (Ret (i_op_and X Y)) (Z.land a b) /\ back (Ret (i_op_or X Y)) (Z.lor a b) /\ back (Ret (i_op_xor X Y)) (Z.lxor a b) /\
  (if b =? 0 then i_op_div c X Y = Panic "attempt to divide by zero" /\ panics (i_op_rem c X Y) /\
     panics (i_div_euclid c X Y) /\ panics (i_rem_euclid c X Y)
   else back (i_op_div c X Y) (Z.quot a b) /\ back (i_op_rem c X Y) (Z.rem a b) /\
     (forall q r, a = q * b + r -> 0 <= r < Z.abs b -> back (i_div_euclid c X Y) q /\ back (i_rem_euclid c X Y) r)) /\
  (let! p := i_wrapping_mul c X Y in Ret (i_as c t' p)) = Ret (t_wrap c t' (a * b)).
Proof. exact i_widen_arith. Qed.
Print Assumptions C63_signed_arithmetic.

Example C63_signed_case :
  let a := - 2 ^ 127 in
  usize_ok devB /\ In (TI 128) i_from_types /\ t_in devB (TI 128) a = true /\ t_in devB (TI 128) (-1) = true /\
  (let! x := i_op_div devB (i_from_prim devB a) (i_from_prim devB (-1)) in Ret (i_try_into devB (TI 128) x, i_as devB (TI 128) x)) =
    Ret (None, a) /\
  (let! x := i_op_mul devB (i_from_prim devB a) (i_from_prim devB a) in Ret (i_try_into devB (TI 128) x, i_as devB (TI 128) x)) =
    Ret (None, 0) /\
  (let! x := i_rem_euclid devB (i_from_prim devB (-7)) (i_from_prim devB a) in Ret (i_try_into devB (TI 128) x)) =
    Ret (Some (2 ^ 127 - 7)) /\
  i_op_mul dev (i_from_prim dev (2 ^ 128 - 1)) (i_from_prim dev (2 ^ 128 - 1)) = Panic "attempt to multiply with overflow".
Proof. unfold usize_ok. cbn [In i_from_types]. repeat split; try (vm_compute; reflexivity); cbn; auto 20. Qed.

(** C63: views of a converted number for I256. The cast to f32 is correctly rounded only if the number has at most 53
    significant bits; [C63_signed_f32_refuted] has a number for which it is not. *)
Theorem C63_signed_views_partial : forall c t t' a b,
  usize_ok c -> In t i_from_types -> In t' int_types ->
  t_in c t a = true -> t_in c t b = true ->
  let X := i_from_prim c a in let Y := i_from_prim c b in
  i_cmp c X Y = (a ?= b) /\ i_eq c X Y = (a =? b) /\ i_max c X Y = i_from_prim c (Z.max a b) /\ i_min c X Y = i_from_prim c (Z.min a b) /\
  i_try_into c t' X = checked c t' a /\ i_as c t' X = t_wrap c t' a /\
  i_is_negative c X = (a <? 0) /\ i_is_positive c X = (0 <? a) /\
  correctly_rounded F64 a (i_as_f64 c X) /\
  (representable 53 a -> correctly_rounded F32 a (i_as_f32 c X)).
Proof. exact i_embed_observe. Qed.
Print Assumptions C63_signed_views_partial.

Example C63_signed_views_case :
  t_in dev (TI 64) (-5) = true /\ i_cmp dev (i_from_prim dev (-5)) (i_from_prim dev 3) = Lt /\
  i_try_into dev (TU 8) (i_from_prim dev (-5)) = None /\ i_as dev (TU 8) (i_from_prim dev (-5)) = 251 /\
  i_as_f64 dev (i_from_prim dev (- 2 ^ 60 - 1)) = Fin (- 2 ^ 60) /\ 
  i_as_f32 dev (i_from_prim dev (2 ^ 52 + 1)) = Fin (2 ^ 52) /\ representable 53 (2 ^ 52 + 1).
Proof. do 6 (split; [vm_compute; reflexivity|]). exists (2 ^ 52 + 1), 0. lia. Qed.

(** C63: the i64 number 2^54 + 2^30 + 1, converted to I256, is not cast to the nearest f32, unlike the i64 number. *)
Theorem C63_signed_f32_refuted : ~ (forall c t a, usize_ok c -> In t i_from_types -> t_in c t a = true -> correctly_rounded F32 a (i_as_f32 c (i_from_prim c a))).
Proof. exact i_f32_embed_bad. Qed.
Print Assumptions C63_signed_f32_refuted.

(** C64: clamp of U256 panics exactly for an empty range; otherwise it returns the number of the range nearest to x,
    which is one of the three arguments, and clamping again changes nothing. *)
Theorem C64_unsigned_clamp : forall c x lo hi,
  wf_u x -> wf_u lo -> wf_u hi ->
  if uval c lo <=? uval c hi then
    exists r, u_clamp c x lo hi = Ret r /\ wf_u r /\ uval c lo <= uval c r <= uval c hi /\
      (forall v, uval c lo <= v <= uval c hi -> Z.abs (uval c x - uval c r) <= Z.abs (uval c x - v)) /\
      (r = x \/ r = lo \/ r = hi) /\ u_clamp c r lo hi = Ret r /\
      r = u_min c (u_max c x lo) hi /\ r = u_max c (u_min c x hi) lo
  else u_clamp c x lo hi = Panic "assertion failed: min <= max".
Proof. exact u_clamp_family. Qed.
Print Assumptions C64_unsigned_clamp.

Example C64_unsigned_case :
  u_clamp devB (uof devB MAXU) (uof devB 5) (uof devB (2 ^ 200)) = Ret (uof devB (2 ^ 200)) /\
  u_clamp devB (uof devB 7) (uof devB 5) (uof devB (2 ^ 200)) = Ret (uof devB 7) /\
  u_clamp rel (uof rel 7) (uof rel 5) (uof rel 4) = Panic "assertion failed: min <= max".
Proof. repeat split; vm_compute; reflexivity. Qed.

(** C64: the same for I256. *)
Theorem C64_signed_clamp : forall c x lo hi,
  wf_i x -> wf_i lo -> wf_i hi ->
  if ival c lo <=? ival c hi then
    exists r, i_clamp c x lo hi = Ret r /\ wf_i r /\ ival c lo <= ival c r <= ival c hi /\
      (forall v, ival c lo <= v <= ival c hi -> Z.abs (ival c x - ival c r) <= Z.abs (ival c x - v)) /\
      (r = x \/ r = lo \/ r = hi) /\ i_clamp c r lo hi = Ret r /\
      r = i_min c (i_max c x lo) hi /\ r = i_max c (i_min c x hi) lo
  else i_clamp c x lo hi = Panic "assertion failed: min <= max".
Proof. exact i_clamp_family. Qed.
Print Assumptions C64_signed_clamp.

Example C64_signed_case :
  i_clamp dev (iof dev MINI) (iof dev (-5)) (iof dev (2 ^ 200)) = Ret (iof dev (-5)) /\
  i_clamp dev (iof dev (- 2 ^ 128)) (iof dev (- 2 ^ 129)) (iof dev (-1)) = Ret (iof dev (- 2 ^ 128)) /\
  i_clamp rel (iof rel 7) (iof rel 0) (iof rel (-1)) = Panic "assertion failed: min <= max".
Proof. repeat split; vm_compute; reflexivity. Qed.

(** C64: clamp keeps the order. *)
Theorem C64_unsigned_monotone : forall c x y lo hi,
  wf_u x -> wf_u y -> wf_u lo -> wf_u hi ->
  uval c lo <= uval c hi -> uval c x <= uval c y ->
  exists r s, u_clamp c x lo hi = Ret r /\ u_clamp c y lo hi = Ret s /\ uval c r <= uval c s.
Proof. exact u_clamp_monotone. Qed.
Print Assumptions C64_unsigned_monotone.

(** C64: clamp keeps the order (I256). *)
Theorem C64_signed_monotone : forall c x y lo hi,
  wf_i x -> wf_i y -> wf_i lo -> wf_i hi ->
  ival c lo <= ival c hi -> ival c x <= ival c y ->
  exists r s, i_clamp c x lo hi = Ret r /\ i_clamp c y lo hi = Ret s /\ ival c r <= ival c s.
Proof. exact i_clamp_monotone. Qed.
Print Assumptions C64_signed_monotone.

Example C64_monotone_case :
  i_clamp dev (iof dev (-9)) (iof dev (-5)) (iof dev 3) = Ret (iof dev (-5)) /\ i_clamp dev (iof dev 1) (iof dev (-5)) (iof dev 3) = Ret (iof dev 1) /\
  u_clamp dev (uof dev 9) (uof dev 5) (uof dev 13) = Ret (uof dev 9) /\ u_clamp dev (uof dev 14) (uof dev 5) (uof dev 13) = Ret (uof dev 13).
Proof. repeat split; vm_compute; reflexivity. Qed.

(** C64: [!=] is true exactly for different values. *)
Theorem C64_not_equal : forall c a b d e,
  wf_u a -> wf_u b -> wf_i d -> wf_i e ->
  (u_ne c a b = true <-> a <> b) /\ (i_ne c d e = true <-> d <> e).
Proof. exact ne_family. Qed.
Print Assumptions C64_not_equal.

Example C64_not_equal_case : u_ne dev (uof dev 5) (uof dev (5 + 2 ^ 128)) = true /\ i_ne dev (iof dev (-1)) (iof dev (-1)) = false.
Proof. split; vm_compute; reflexivity. Qed.

(** C65: casting the operands to a primitive type and computing there with wrapping operations gives the cast of the
    256-bit result. *)
Theorem C65_unsigned_casts : forall c t a b n,
  usize_ok c -> In t int_types -> wf_u a -> wf_u b -> 0 <= n < 2 ^ 32 ->
  let x := u_as c t a in let y := u_as c t b in
  u_as c t (u_wrapping_add c a b) = t_wrap c t (x + y) /\
  u_as c t (u_wrapping_sub c a b) = t_wrap c t (x - y) /\
  u_as c t (u_wrapping_neg c a) = t_wrap c t (- x) /\
  (let! p := u_wrapping_mul c a b in Ret (u_as c t p)) = Ret (t_wrap c t (x * y)) /\
  (let! p := u_wrapping_pow c a n in Ret (u_as c t p)) = Ret (t_wrap c t (x ^ n)) /\
  u_as c t (u_op_and a b) = t_wrap c t (Z.land x y) /\
  u_as c t (u_op_or a b) = t_wrap c t (Z.lor x y) /\
  u_as c t (u_op_xor a b) = t_wrap c t (Z.lxor x y) /\
  u_as c t (u_op_not a) = t_wrap c t (Z.lnot x) /\
  (n < 256 -> (let! p := u_op_shl c a n in Ret (u_as c t p)) = Ret (t_wrap c t (x * 2 ^ n))).
Proof. exact u_trunc_laws. Qed.
Print Assumptions C65_unsigned_casts.

Example C65_unsigned_case :
  let a := uof dev (2 ^ 200 + 250) in let b := uof dev (2 ^ 130 + 9) in
  usize_ok dev /\ In (TI 8) int_types /\ wf_u a /\ wf_u b /\
  u_as dev (TI 8) a = -6 /\ u_as dev (TI 8) b = 9 /\ (let! p := u_wrapping_mul dev a b in Ret (u_as dev (TI 8) p)) = Ret (-54) /\
  t_wrap dev (TI 8) (-6 * 9) = -54.
Proof.
  cbv zeta. split; [unfold usize_ok; cbn; auto|]. split; [cbn; auto|]. split; [apply wf_uof|]. split; [apply wf_uof|].
  repeat split; vm_compute; reflexivity.
Qed.

(** C65: the same for I256. *)
Theorem C65_signed_casts : forall c t a b n,
  usize_ok c -> In t int_types -> wf_i a -> wf_i b -> 0 <= n < 2 ^ 32 ->
  let x := i_as c t a in let y := i_as c t b in
  i_as c t (i_wrapping_add c a b) = t_wrap c t (x + y) /\
  i_as c t (i_wrapping_sub c a b) = t_wrap c t (x - y) /\
  i_as c t (i_wrapping_neg c a) = t_wrap c t (- x) /\
  (let! p := i_wrapping_mul c a b in Ret (i_as c t p)) = Ret (t_wrap c t (x * y)) /\
  (let! p := i_wrapping_pow c a n in Ret (i_as c t p)) = Ret (t_wrap c t (x ^ n)) /\
  i_as c t (i_op_and a b) = t_wrap c t (Z.land x y) /\
  i_as c t (i_op_or a b) = t_wrap c t (Z.lor x y) /\
  i_as c t (i_op_xor a b) = t_wrap c t (Z.lxor x y) /\
  i_as c t (i_op_not a) = t_wrap c t (Z.lnot x) /\
  (n < 256 -> (let! p := i_op_shl c a n in Ret (i_as c t p)) = Ret (t_wrap c t (x * 2 ^ n))).
Proof. exact i_trunc_laws. Qed.
Print Assumptions C65_signed_casts.

Example C65_signed_case :
  let a := iof mixB (- 2 ^ 200 - 3) in
  usize_ok mixB /\ In Tusize int_types /\ wf_i a /\ i_as mixB Tusize a = 2 ^ 32 - 3 /\
  (let! p := i_wrapping_pow mixB a 3 in Ret (i_as mixB Tusize p)) = Ret (2 ^ 32 - 27) /\ t_wrap mixB Tusize ((2 ^ 32 - 3) ^ 3) = 2 ^ 32 - 27.
Proof.
  cbv zeta. split; [unfold usize_ok; cbn; auto|]. split; [cbn; auto 20|]. split; [apply wf_iof|].
  repeat split; vm_compute; reflexivity.
Qed.

(** C65: a cast in two steps is the direct cast; a cast to a primitive type and back gives the value again exactly if the
    number (for U256, possibly read as a negative number) is in the type; conversion succeeds exactly if the cast back
    is faithful and not negative for U256. *)
Theorem C65_cast_chains : forall c t t' x y,
  usize_ok c -> In t int_types -> In t' int_types -> wf_u x -> wf_i y ->
  (bits c t' <= bits c t -> t_wrap c t' (u_as c t x) = u_as c t' x /\ t_wrap c t' (i_as c t y) = i_as c t' y) /\
  i_as c t (u_as_i256 x) = u_as c t x /\ u_as c t (i_as_u256 y) = i_as c t y /\
  (prim_as_u256 c (u_as c t x) = x <->
     t_in c t (uval c x) = true \/ t_in c t (uval c x - 2 ^ 256) = true) /\
  (prim_as_i256 c (i_as c t y) = y <-> t_in c t (ival c y) = true) /\
  (u_try_into c t x <> None <-> prim_as_u256 c (u_as c t x) = x /\ 0 <= u_as c t x) /\
  (i_try_into c t y <> None <-> prim_as_i256 c (i_as c t y) = y).
Proof. exact cast_chain. Qed.
Print Assumptions C65_cast_chains.

Example C65_cast_chain_case :
  let x := uof dev (2 ^ 256 - 5) in
  u_as dev (TI 64) x = -5 /\ t_wrap dev (TU 8) (-5) = 251 /\ u_as dev (TU 8) x = 251 /\
  prim_as_u256 dev (-5) = x /\ u_try_into dev (TI 64) x = None /\ t_in dev (TI 64) (2 ^ 256 - 5 - 2 ^ 256) = true.
Proof. repeat split; vm_compute; reflexivity. Qed.

