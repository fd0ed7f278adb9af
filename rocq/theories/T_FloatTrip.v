(** * C30 (what as_f64 computes), C53: round trips through floating point numbers *)

From Coq Require Import ZArith String List Bool Lia.
Import ListNotations.
From Verif Require Import M_Prim M_Words M_Float.
From Verif Require Import Spec Spec_Float Spec_Serde Spec_FloatTrip P_Words P_Round P_FloatTrip T_Base.
Open Scope Z_scope.

(** C30: for every value [as_f64] is faithful: the value itself when that is a float, and
    otherwise one of the two floats around it. *)
Theorem C30_f64_faithful : forall c x y,
  wf_u x -> wf_i y -> faithful F64 (uval c x) (u_as_f64 c x) /\ faithful F64 (ival c y) (i_as_f64 c y).
Proof. exact f64_faithful. Qed.
Print Assumptions C30_f64_faithful.

Example C30_faithful_case :
  let v := 2 ^ 128 + 2 ^ 75 + 1 in
  wf_u (uof dev v) /\ u_as_f64 dev (uof dev v) = Fin (2 ^ 128) /\
  representable (f_digits F64) (2 ^ 128 + 2 ^ 76) /\ Z.abs (2 ^ 128 + 2 ^ 76) < 2 ^ f_emax F64 /\ v <= 2 ^ 128 + 2 ^ 76 /\
  fl_le (u_as_f64 dev (uof dev v)) (Fin (2 ^ 128 + 2 ^ 76)).
Proof.
  split; [apply wf_uof|]. split; [vm_compute; reflexivity|].
  split; [exists (2 ^ 52 + 1), 76; vm_compute; intuition congruence|]. vm_compute. intuition congruence.
Qed.

(** C30: [I256::as_f32], although rounded twice, is faithful as well. *)
Theorem C30_i256_f32_faithful : forall c y,
  wf_i y -> faithful F32 (ival c y) (i_as_f32 c y).
Proof. exact i_f32_faithful. Qed.
Print Assumptions C30_i256_f32_faithful.

Example C30_i256_f32_faithful_case :
  let v := 2 ^ 54 + 2 ^ 30 + 1 in
  wf_i (iof dev v) /\ i_as_f32 dev (iof dev v) = Fin (2 ^ 54) /\ i_as_f32 dev (iof dev (- v)) = Fin (- 2 ^ 54) /\
  i_as_f32 dev (iof dev MINI) = Inf true.
Proof. split; [apply wf_iof|]. vm_compute. intuition congruence. Qed.

(** What [U256::as_f64] computes: the halves are rounded, and their sum is rounded again. *)
Theorem C30_u256_f64_actual : forall c x,
  wf_u x ->
  exists h l y, nearest_even 53 (uval c x / 2 ^ 128) h /\ nearest_even 53 (uval c x mod 2 ^ 128) l /\
    nearest_even 53 (h * 2 ^ 128 + l) y /\ u_as_f64 c x = Fin y.
Proof. exact u_f64_actual. Qed.
Print Assumptions C30_u256_f64_actual.

Example C30_actual_case :
  let v := (2 ^ 60 + 129) * 2 ^ 128 + (2 ^ 128 - 1) in
  wf_u (uof dev v) /\ u_as_f64 dev (uof dev v) = Fin ((2 ^ 60 + 256) * 2 ^ 128).
Proof. split; [apply wf_uof|]. vm_compute. reflexivity. Qed.

(** What [I256::as_f64] and [I256::as_f32] compute: the float of the absolute value with the sign
    of the number, rounded once more for f32. *)
Theorem C30_i256_actual : forall c x y,
  wf_i x -> wf_u y -> uval c y = Z.abs (ival c x) ->
  exists r, u_as_f64 c y = Fin r /\ i_as_f64 c x = Fin (if ival c x <? 0 then - r else r) /\
    i_as_f32 c x = rnd F32 (if ival c x <? 0 then - r else r).
Proof. exact i_f64_actual. Qed.
Print Assumptions C30_i256_actual.

Example C30_i256_actual_case :
  let v := 2 ^ 128 + 2 ^ 75 + 1 in
  wf_i (iof dev (- v)) /\ wf_u (uof dev v) /\ uval dev (uof dev v) = Z.abs (ival dev (iof dev (- v))) /\
  i_as_f64 dev (iof dev (- v)) = Fin (- 2 ^ 128) /\ i_as_f32 dev (iof dev (- v)) = Inf true.
Proof. split; [apply wf_iof|]. split; [apply wf_uof|]. vm_compute. intuition congruence. Qed.

(** C30: [f32::from] and [f64::from] of a U256 or I256: the same floats as [as_f32] and [as_f64], correctly rounded
    or at least faithful. *)
Theorem C30_from_impls : forall c x y,
  wf_u x -> wf_i y ->
  correctly_rounded F32 (uval c x) (f32_from_u256 c x) /\ faithful F32 (ival c y) (f32_from_i256 c y) /\
  faithful F64 (uval c x) (f64_from_u256 c x) /\ faithful F64 (ival c y) (f64_from_i256 c y) /\
  f32_from_u256 c x = u_as_f32 c x /\ f64_from_u256 c x = u_as_f64 c x /\
  f32_from_i256 c y = i_as_f32 c y /\ f64_from_i256 c y = i_as_f64 c y.
Proof. exact from_floats. Qed.
Print Assumptions C30_from_impls.

Example C30_from_case :
  wf_u (uof dev (2 ^ 100 + 2 ^ 76 + 1)) /\ wf_i (iof dev (- 2 ^ 54 - 2 ^ 30 - 1)) /\
  f32_from_u256 dev (uof dev (2 ^ 100 + 2 ^ 76 + 1)) = Fin (2 ^ 100 + 2 ^ 77) /\
  f64_from_u256 dev (uof dev (2 ^ 100 + 2 ^ 76 + 1)) = Fin (2 ^ 100 + 2 ^ 76) /\
  f32_from_i256 dev (iof dev (- 2 ^ 54 - 2 ^ 30 - 1)) = Fin (- 2 ^ 54) /\
  f64_from_i256 dev (iof dev (- 2 ^ 54 - 2 ^ 30 - 1)) = Fin (- 2 ^ 54 - 2 ^ 30).
Proof. split; [apply wf_uof|]. split; [apply wf_iof|]. vm_compute. intuition congruence. Qed.

(** Every float obtained by rounding a whole number has a bit pattern. *)
Theorem C53_encoding_exists : forall f z,
  f = F32 \/ f = F64 -> exists b, encodes f b (rnd f z).
Proof. exact encoding_exists. Qed.
Print Assumptions C53_encoding_exists.

Example C53_encoding_case :
  encodes F64 0x4340000000000000 (rnd F64 (2 ^ 53 + 1)) /\ encodes F32 0x7f800000 (rnd F32 (2 ^ 128)) /\
  encodes F32 0xcb800000 (rnd F32 (- 2 ^ 24 - 1)) /\ ~ encodes F32 0x4b800001 (rnd F32 (2 ^ 24)).
Proof. vm_compute. intuition congruence. Qed.

(** C53: the floats obtained from integers have bit patterns, so the theorems below say something about
    every integer. *)
Theorem C53_every_integer_encodes : forall c x y,
  wf_u x -> wf_i y ->
  (exists b, encodes F64 b (u_as_f64 c x)) /\ (exists b, encodes F64 b (i_as_f64 c y)) /\
  (exists b, encodes F32 b (u_as_f32 c x)) /\ (exists b, encodes F32 b (i_as_f32 c y)).
Proof. exact ints_encode. Qed.
Print Assumptions C53_every_integer_encodes.

Example C53_integer_encodes_case :
  encodes F64 0x4ff0000000000000 (u_as_f64 dev (uof dev MAXU)) /\ encodes F64 0xcfe0000000000000 (i_as_f64 dev (iof dev MINI)) /\
  encodes F32 0x7f800000 (u_as_f32 dev (uof dev MAXU)) /\ encodes F32 0xff800000 (i_as_f32 dev (iof dev MINI)).
Proof. vm_compute. intuition congruence. Qed.

(** C53: a U256 converted to f64 and back converts to the same f64 again; with at most 53 significant bits it
    comes back unchanged. *)
Theorem C53_u256_f64 : forall c x b,
  wf_u x -> encodes F64 b (u_as_f64 c x) ->
  exists y, wf_u y /\ float_as_u256 F64 c b = Ret y /\ u_as_f64 c y = u_as_f64 c x /\ (representable 53 (uval c x) -> y = x).
Proof. exact u_trip64. Qed.
Print Assumptions C53_u256_f64.

Example C53_u256_f64_case :
  encodes F64 0x4ff0000000000000 (u_as_f64 dev (uof dev (MAXU - 5))) /\
  float_as_u256 F64 dev 0x4ff0000000000000 = Ret (uof dev MAXU) /\ u_as_f64 dev (uof dev MAXU) = u_as_f64 dev (uof dev (MAXU - 5)) /\
  encodes F64 0x4340000000000001 (u_as_f64 dev (uof dev (2 ^ 53 + 2))) /\
  float_as_u256 F64 dev 0x4340000000000001 = Ret (uof dev (2 ^ 53 + 2)) /\ representable 53 (uval dev (uof dev (2 ^ 53 + 2))).
Proof.
  assert (R : representable 53 (uval dev (uof dev (2 ^ 53 + 2)))) by (exists (2 ^ 52 + 1), 1; vm_compute; intuition congruence).
  do 5 (split; [vm_compute; intuition congruence|]). exact R.
Qed.

(** C53: the same for an I256. *)
Theorem C53_i256_f64 : forall c x b,
  wf_i x -> encodes F64 b (i_as_f64 c x) ->
  exists y, wf_i y /\ float_as_i256 F64 c b = Ret y /\ i_as_f64 c y = i_as_f64 c x /\ (representable 53 (ival c x) -> y = x).
Proof. exact i_trip64. Qed.
Print Assumptions C53_i256_f64.

Example C53_i256_f64_case :
  encodes F64 0x4fe0000000000000 (i_as_f64 dev (iof dev (MAXI - 5))) /\ float_as_i256 F64 dev 0x4fe0000000000000 = Ret (iof dev MAXI) /\
  encodes F64 0xcfe0000000000000 (i_as_f64 dev (iof dev MINI)) /\ float_as_i256 F64 dev 0xcfe0000000000000 = Ret (iof dev MINI) /\
  encodes F64 0xc340000000000001 (i_as_f64 dev (iof dev (- 2 ^ 53 - 2))) /\
  float_as_i256 F64 dev 0xc340000000000001 = Ret (iof dev (- 2 ^ 53 - 2)).
Proof. vm_compute. intuition congruence. Qed.

(** C53: the same for U256 and f32; numbers of 24 significant bits below 2^128 come back unchanged.  An
    infinity comes back as 2^128, which is infinite again. *)
Theorem C53_u256_f32 : forall c x b,
  wf_u x -> encodes F32 b (u_as_f32 c x) ->
  exists y, wf_u y /\ float_as_u256 F32 c b = Ret y /\ u_as_f32 c y = u_as_f32 c x /\
    (representable 24 (uval c x) -> uval c x < 2 ^ 128 -> y = x).
Proof. exact u_trip32. Qed.
Print Assumptions C53_u256_f32.

Example C53_u256_f32_case :
  encodes F32 0x7f7fffff (u_as_f32 dev (uof dev (2 ^ 128 - 2 ^ 104))) /\
  float_as_u256 F32 dev 0x7f7fffff = Ret (uof dev (2 ^ 128 - 2 ^ 104)) /\
  encodes F32 0x7f800000 (u_as_f32 dev (uof dev (2 ^ 200))) /\ float_as_u256 F32 dev 0x7f800000 = Ret (uof dev (2 ^ 128)) /\
  u_as_f32 dev (uof dev (2 ^ 128)) = Inf false.
Proof. vm_compute. intuition congruence. Qed.

(** C53: the same for I256 and f32. *)
Theorem C53_i256_f32 : forall c x b,
  wf_i x -> encodes F32 b (i_as_f32 c x) ->
  exists y, wf_i y /\ float_as_i256 F32 c b = Ret y /\ i_as_f32 c y = i_as_f32 c x /\
    (representable 24 (ival c x) -> Z.abs (ival c x) < 2 ^ 128 -> y = x).
Proof. exact i_trip32. Qed.
Print Assumptions C53_i256_f32.

Example C53_i256_f32_case :
  encodes F32 0xff7fffff (i_as_f32 dev (iof dev (- 2 ^ 128 + 2 ^ 104))) /\
  float_as_i256 F32 dev 0xff7fffff = Ret (iof dev (- 2 ^ 128 + 2 ^ 104)) /\
  encodes F32 0xff800000 (i_as_f32 dev (iof dev MINI)) /\ float_as_i256 F32 dev 0xff800000 = Ret (iof dev (- 2 ^ 128)).
Proof. vm_compute. intuition congruence. Qed.

(** C53: a float that is a whole number in the range of the integer type becomes that integer, and
    converts back to the same float. *)
Theorem C53_whole_floats : forall c b z,
  (0 <= b < 2 ^ 64 -> f_is (f_of_bits F64 b) z ->
    (0 <= z < 2 ^ 256 -> float_as_u256 F64 c b = Ret (uof c z) /\ u_as_f64 c (uof c z) = Fin z) /\
    (- 2 ^ 255 <= z < 2 ^ 255 -> float_as_i256 F64 c b = Ret (iof c z) /\ i_as_f64 c (iof c z) = Fin z)) /\
  (0 <= b < 2 ^ 32 -> f_is (f_of_bits F32 b) z ->
    (0 <= z -> float_as_u256 F32 c b = Ret (uof c z) /\ u_as_f32 c (uof c z) = Fin z) /\
    float_as_i256 F32 c b = Ret (iof c z) /\ i_as_f32 c (iof c z) = Fin z).
Proof. exact float_trip. Qed.
Print Assumptions C53_whole_floats.

Example C53_whole_floats_case :
  f_is (f_of_bits F64 0x4fefffffffffffff) (2 ^ 256 - 2 ^ 203) /\
  float_as_u256 F64 dev 0x4fefffffffffffff = Ret (uof dev (2 ^ 256 - 2 ^ 203)) /\
  u_as_f64 dev (uof dev (2 ^ 256 - 2 ^ 203)) = Fin (2 ^ 256 - 2 ^ 203) /\
  f_is (f_of_bits F32 0xc0400000) (-3) /\ float_as_i256 F32 dev 0xc0400000 = Ret (iof dev (-3)) /\ i_as_f32 dev (iof dev (-3)) = Fin (-3).
Proof. vm_compute. intuition congruence. Qed.

