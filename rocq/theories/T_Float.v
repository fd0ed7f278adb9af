(** * C29, C30: conversions to and from floating point *)

From Coq Require Import ZArith String List Bool Lia ZifyBool.
Import ListNotations.
From Verif Require Import M_Prim M_Words M_Convert M_Float Spec Spec_Float P_Words P_Float P_Round T_Base.
Open Scope Z_scope.

(** C29 for f64: every bit pattern, in every build.  [f_int x lo hi] is the float truncated
    toward zero and clamped, 0 for NaN. *)
Theorem C29_f64_to_int : forall c b,
  0 <= b < 2 ^ 64 ->
  float_as_u256 F64 c b = Ret (uof c (f_int (f_of_bits F64 b) 0 MAXU)) /\
  float_as_i256 F64 c b = Ret (iof c (f_int (f_of_bits F64 b) MINI MAXI)).
Proof. exact f64_to_int. Qed.
Print Assumptions C29_f64_to_int.

Example C29_f64_case :
  0 <= 0xc00c000000000000 < 2 ^ 64 /\
  float_as_i256 F64 dev 0xc00c000000000000 = Ret (iof dev (-3)) /\ (* -3.5 *)
  float_as_u256 F64 dev 0xc00c000000000000 = Ret (uof dev 0) /\
  float_as_u256 F64 devB 0x7ff0000000000000 = Ret (uof devB MAXU) /\ (* infinity *)
  float_as_i256 F64 devB 0xfff0000000000000 = Ret (iof devB MINI) /\
  float_as_u256 F64 devB 0x7ff8000000000000 = Ret (uof devB 0) /\ (* NaN *)
  float_as_u256 F64 dev 0x4fe0000000000001 = Ret (uof dev (2 ^ 255 + 2 ^ 203)).
Proof. vm_compute. intuition congruence. Qed.

(** C29 for f32, except the two infinities: for those see [C29_f32_infinity_refuted]. *)
Theorem C29_f32_to_int_partial : forall c b,
  0 <= b < 2 ^ 32 -> (forall s, f_of_bits F32 b <> FInf s) ->
  float_as_u256 F32 c b = Ret (uof c (f_int (f_of_bits F32 b) 0 MAXU)) /\
  float_as_i256 F32 c b = Ret (iof c (f_int (f_of_bits F32 b) MINI MAXI)).
Proof. exact f32_to_int. Qed.
Print Assumptions C29_f32_to_int_partial.

Example C29_f32_case :
  0 <= 0x7f7fffff < 2 ^ 32 /\ (forall s, f_of_bits F32 0x7f7fffff <> FInf s) /\
  float_as_u256 F32 dev 0x7f7fffff = Ret (uof dev (2 ^ 128 - 2 ^ 104)) /\
  float_as_i256 F32 devB 0xbf7fffff = Ret (iof devB 0) /\ float_as_i256 F32 devB 0xc0200000 = Ret (iof devB (-2)) /\
  float_as_i256 F32 devB 0x7fc00000 = Ret (iof devB 0).
Proof. vm_compute. intuition congruence. Qed.

(** C29 fails for the infinities of f32, which become 2^128 and -2^128 instead of the bounds. *)
Theorem C29_f32_infinity_refuted : forall c,
  f_of_bits F32 0x7f800000 = FInf false /\ f_of_bits F32 0xff800000 = FInf true /\
  float_as_u256 F32 c 0x7f800000 = Ret (uof c (2 ^ 128)) /\
  float_as_u256 F32 c 0xff800000 = Ret (uof c 0) /\
  float_as_i256 F32 c 0x7f800000 = Ret (iof c (2 ^ 128)) /\
  float_as_i256 F32 c 0xff800000 = Ret (iof c (- 2 ^ 128)).
Proof. exact f32_infinity. Qed.
Print Assumptions C29_f32_infinity_refuted.

(** The specification [correctly_rounded] (nearest, ties to even, overflow to infinity) has exactly
    one solution, the function [rnd] with which the model describes Rust's [as f32] and [as f64]. *)
Theorem C30_rounding_unique : forall f z r,
  f = F32 \/ f = F64 -> (correctly_rounded f z r <-> r = rnd f z).
Proof. exact rounding_unique. Qed.
Print Assumptions C30_rounding_unique.

Example C30_rounding_case :
  correctly_rounded F32 (2 ^ 24 + 1) (Fin (2 ^ 24)) /\ correctly_rounded F32 (2 ^ 24 + 3) (Fin (2 ^ 24 + 4)) /\
  correctly_rounded F32 (- 2 ^ 128) (Inf true).
Proof.
  split; [apply C30_rounding_unique; [auto|reflexivity]|].
  split; apply C30_rounding_unique; auto.
Qed.

(** C30: [U256::as_f32] is correctly rounded. *)
Theorem C30_u256_as_f32 : forall c x,
  wf_u x -> correctly_rounded F32 (uval c x) (u_as_f32 c x).
Proof. exact u_f32_correct. Qed.
Print Assumptions C30_u256_as_f32.

Example C30_f32_case :
  wf_u (uof dev (2 ^ 100 + 2 ^ 76)) /\ u_as_f32 dev (uof dev (2 ^ 100 + 2 ^ 76)) = Fin (2 ^ 100) /\
  u_as_f32 dev (uof dev (2 ^ 100 + 2 ^ 76 + 1)) = Fin (2 ^ 100 + 2 ^ 77) /\
  u_as_f32 devB (uof devB (2 ^ 128 - 2 ^ 103)) = Inf false /\ u_as_f32 devB (uof devB (2 ^ 128 - 2 ^ 103 - 1)) = Fin (2 ^ 128 - 2 ^ 104).
Proof. vm_compute. intuition congruence. Qed.

(** C30: every value with 53 significant bits converts to f64 exactly. *)
Theorem C30_f64_exact : forall c x y,
  wf_u x -> wf_i y ->
  (representable 53 (uval c x) -> u_as_f64 c x = Fin (uval c x)) /\
  (representable 53 (ival c y) -> i_as_f64 c y = Fin (ival c y)).
Proof. exact f64_exact. Qed.
Print Assumptions C30_f64_exact.

Example C30_exact_case :
  representable 53 ((2 ^ 53 - 1) * 2 ^ 100) /\ wf_u (uof dev ((2 ^ 53 - 1) * 2 ^ 100)) /\
  u_as_f64 dev (uof dev ((2 ^ 53 - 1) * 2 ^ 100)) = Fin ((2 ^ 53 - 1) * 2 ^ 100) /\
  i_as_f64 devB (iof devB (- (2 ^ 53 - 1) * 2 ^ 100)) = Fin (- (2 ^ 53 - 1) * 2 ^ 100).
Proof. split; [exists (2 ^ 53 - 1), 100; vm_compute; intuition congruence|]. vm_compute. intuition congruence. Qed.

(** C30: in particular below 2^53. *)
Theorem C30_f64_small : forall c x y,
  wf_u x -> wf_i y ->
  (uval c x < 2 ^ 53 -> u_as_f64 c x = Fin (uval c x)) /\ (Z.abs (ival c y) < 2 ^ 53 -> i_as_f64 c y = Fin (ival c y)).
Proof. exact f64_small. Qed.
Print Assumptions C30_f64_small.

Example C30_small_case :
  wf_u (uof dev (2 ^ 53 - 1)) /\ wf_i (iof dev (- 2 ^ 53 + 1)) /\ uval dev (uof dev (2 ^ 53 - 1)) < 2 ^ 53 /\
  Z.abs (ival dev (iof dev (- 2 ^ 53 + 1))) < 2 ^ 53 /\ i_as_f64 dev (iof dev (- 2 ^ 53 + 1)) = Fin (- 2 ^ 53 + 1).
Proof. vm_compute. intuition congruence. Qed.

(** C30: [as_f64] is monotone for both types. *)
Theorem C30_f64_monotone : forall c x x' y y',
  wf_u x -> wf_u x' -> wf_i y -> wf_i y' ->
  (uval c x <= uval c x' -> fl_le (u_as_f64 c x) (u_as_f64 c x')) /\
  (ival c y <= ival c y' -> fl_le (i_as_f64 c y) (i_as_f64 c y')).
Proof. exact f64_mono. Qed.
Print Assumptions C30_f64_monotone.

Example C30_mono_case :
  uval dev (uof dev (2 ^ 181 + 2 ^ 128 + 2 ^ 127)) <= uval dev (uof dev (2 ^ 182 - 1)) /\
  u_as_f64 dev (uof dev (2 ^ 181 + 2 ^ 128 + 2 ^ 127)) = Fin (2 ^ 181) /\ u_as_f64 dev (uof dev (2 ^ 182 - 1)) = Fin (2 ^ 182).
Proof. vm_compute. intuition congruence. Qed.

(** C30: [as_f32] is monotone for both types. *)
Theorem C30_f32_monotone : forall c x x' y y',
  wf_u x -> wf_u x' -> wf_i y -> wf_i y' ->
  (uval c x <= uval c x' -> fl_le (u_as_f32 c x) (u_as_f32 c x')) /\
  (ival c y <= ival c y' -> fl_le (i_as_f32 c y) (i_as_f32 c y')).
Proof. exact f32_mono. Qed.
Print Assumptions C30_f32_monotone.

Example C30_f32_mono_case :
  ival dev (iof dev (- 2 ^ 200)) <= ival dev (iof dev (- 2 ^ 54 - 1)) /\
  i_as_f32 dev (iof dev (- 2 ^ 200)) = Inf true /\ i_as_f32 dev (iof dev (- 2 ^ 54 - 1)) = Fin (- 2 ^ 54).
Proof. vm_compute. intuition congruence. Qed.

(** C30: for every value the result is finite with a relative error of at most (1 + 2^-54) / 2^52,
    about one unit in the last place. *)
Theorem C30_f64_error : forall c x y,
  wf_u x -> wf_i y ->
  (exists r, u_as_f64 c x = Fin r /\ Z.abs (r - uval c x) * 2 ^ 106 <= (2 ^ 54 + 1) * uval c x) /\
  (exists r, i_as_f64 c y = Fin r /\ Z.abs (r - ival c y) * 2 ^ 106 <= (2 ^ 54 + 1) * Z.abs (ival c y)).
Proof. exact f64_error. Qed.
Print Assumptions C30_f64_error.

Example C30_error_case :
  let v := 2 ^ 128 + 2 ^ 75 + 1 in
  wf_u (uof dev v) /\ u_as_f64 dev (uof dev v) = Fin (2 ^ 128) /\
  Z.abs (2 ^ 128 - v) * 2 ^ 106 <= (2 ^ 54 + 1) * v.
Proof. vm_compute. intuition congruence. Qed.

(** C30: [as_f64] is correctly rounded for magnitudes below 2^128.  Beyond that the two words are
    rounded separately and their sum once more; see [C30_f64_correct_refuted]. *)
Theorem C30_f64_correct_partial : forall c x y,
  wf_u x -> wf_i y ->
  (uval c x < 2 ^ 128 -> correctly_rounded F64 (uval c x) (u_as_f64 c x)) /\
  (Z.abs (ival c y) < 2 ^ 128 -> correctly_rounded F64 (ival c y) (i_as_f64 c y)).
Proof. exact f64_low_correct. Qed.
Print Assumptions C30_f64_correct_partial.

Example C30_correct_case :
  wf_u (uof dev (2 ^ 100 + 2 ^ 47 + 1)) /\ uval dev (uof dev (2 ^ 100 + 2 ^ 47 + 1)) < 2 ^ 128 /\
  u_as_f64 dev (uof dev (2 ^ 100 + 2 ^ 47 + 1)) = Fin (2 ^ 100 + 2 ^ 48).
Proof. vm_compute. intuition congruence. Qed.

(** C30: [as_f64] is not always correctly rounded: 2^128 + 2^75 + 1 gives 2^128, although
    2^128 + 2^76 is nearer. *)
Theorem C30_f64_correct_refuted : forall c,
  let v := 2 ^ 128 + 2 ^ 75 + 1 in
  u_as_f64 c (uof c v) = Fin (2 ^ 128) /\ ~ correctly_rounded F64 v (u_as_f64 c (uof c v)) /\
  i_as_f64 c (iof c (- v)) = Fin (- 2 ^ 128) /\ ~ correctly_rounded F64 (- v) (i_as_f64 c (iof c (- v))).
Proof. exact f64_not_correct. Qed.
Print Assumptions C30_f64_correct_refuted.

(** [I256::as_f32], which goes through f64, is not correctly rounded either. *)
Theorem C30_i256_as_f32_refuted : forall c,
  let v := 2 ^ 54 + 2 ^ 30 + 1 in
  i_as_f32 c (iof c v) = Fin (2 ^ 54) /\ ~ correctly_rounded F32 v (i_as_f32 c (iof c v)).
Proof. exact i_f32_double. Qed.
Print Assumptions C30_i256_as_f32_refuted.

