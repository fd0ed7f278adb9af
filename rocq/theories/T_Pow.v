(** * C25, C41, C42: powers, powers of two, sums and products *)

From Coq Require Import ZArith String List Bool Lia ZifyBool.
Import ListNotations.
From Verif Require Import M_Prim M_Words M_Intr M_Div M_Mul M_Ops M_UintApi M_IntApi Spec Spec_Bits Spec_Fold
  P_Words P_Pow P_Pow2 T_Base.
Open Scope Z_scope.

(** C25: exponentiation of U256 by every u32.  [p] is the mathematical power;
    [clamp_u] is the nearest representable number. *)
Theorem C25_u256_pow : forall c a e,
  wf_u a -> 0 <= e < 2 ^ 32 -> let p := uval c a ^ e in
  u_wrapping_pow c a e = Ret (uof c p) /\
  u_overflowing_pow c a e = Ret (uof c p, negb (in_u 256 p)) /\
  u_checked_pow c a e = Ret (if in_u 256 p then Some (uof c p) else None) /\
  u_saturating_pow c a e = Ret (uof c (clamp_u p)) /\
  u_pow c a e = (if debug_assertions c && negb (in_u 256 p)
                 then Panic "attempt to multiply with overflow" else Ret (uof c p)).
Proof. exact u_pow_family. Qed.
Print Assumptions C25_u256_pow.

Example C25_u256_case :
  let a := uof dev (3 ^ 80) in
  wf_u a /\ u_checked_pow dev a 2 = Ret (Some (uof dev (3 ^ 160))) /\ u_checked_pow dev a 3 = Ret None /\
  u_pow dev a 3 = Panic "attempt to multiply with overflow" /\ u_pow rel (uof rel (3 ^ 80)) 3 = Ret (uof rel (3 ^ 240)) /\
  u_overflowing_pow devB (uof devB (2 ^ 51)) 5 = Ret (uof devB (2 ^ 255), false) /\
  u_saturating_pow devB (uof devB 2) 256 = Ret (uof devB MAXU) /\
  u_pow dev (uof dev 1) 4294967295 = Ret (uof dev 1) /\ u_pow dev (uof dev 0) 0 = Ret (uof dev 1).
Proof. vm_compute. intuition congruence. Qed.

(** C25: exponentiation of I256 by every u32. *)
Theorem C25_i256_pow : forall c a e,
  wf_i a -> 0 <= e < 2 ^ 32 -> let p := ival c a ^ e in
  i_wrapping_pow c a e = Ret (iof c p) /\
  i_overflowing_pow c a e = Ret (iof c p, negb (in_i 256 p)) /\
  i_checked_pow c a e = Ret (if in_i 256 p then Some (iof c p) else None) /\
  i_saturating_pow c a e = Ret (iof c (clamp_i p)) /\
  i_pow c a e = (if debug_assertions c && negb (in_i 256 p)
                 then Panic "attempt to multiply with overflow" else Ret (iof c p)).
Proof. exact i_pow_family. Qed.
Print Assumptions C25_i256_pow.

Example C25_i256_case :
  let a := iof dev (-2) in
  wf_i a /\ i_checked_pow dev a 255 = Ret (Some (iof dev MINI)) /\ i_checked_pow dev a 256 = Ret None /\
  i_pow dev a 255 = Ret (iof dev MINI) /\
  i_pow dev a 256 = Panic "attempt to multiply with overflow" /\ i_pow rel (iof rel (-3)) 161 = Ret (iof rel (- 3 ^ 161)) /\
  i_saturating_pow devB (iof devB (-3)) 201 = Ret (iof devB MINI) /\
  i_saturating_pow devB (iof devB (-3)) 202 = Ret (iof devB MAXI) /\
  i_overflowing_pow mixB (iof mixB (-1)) 4294967295 = Ret (iof mixB (-1), false).
Proof. vm_compute. intuition congruence. Qed.

(** C41: [k] ranges over exponents satisfying "the least power of two not below [v] is 2^k";
    [C41_least_exists] shows there is always one (0 when v <= 1). *)
Theorem C41_power_of_two : forall c a k,
  wf_u a -> let v := uval c a in
  (exists b, u_is_power_of_two c a = Ret b /\ (b = true <-> exists j, 0 <= j /\ v = 2 ^ j)) /\
  (0 <= k -> v <= 2 ^ k -> (forall j, 0 <= j < k -> 2 ^ j < v) ->
   u_checked_next_power_of_two c a = Ret (if k <? 256 then Some (uof c (2 ^ k)) else None) /\
   u_next_power_of_two c a =
     (if k <? 256 then Ret (uof c (2 ^ k))
      else if debug_assertions c then Panic "attempt to add with overflow" else Ret (uof c 0))).
Proof. exact pow2_family. Qed.
Print Assumptions C41_power_of_two.

Example C41_case :
  let a := uof dev (2 ^ 200 + 1) in
  wf_u a /\ u_next_power_of_two dev a = Ret (uof dev (2 ^ 201)) /\ u_is_power_of_two dev a = Ret false /\
  u_is_power_of_two devB (uof devB (2 ^ 255)) = Ret true /\ u_is_power_of_two devB (uof devB 0) = Ret false /\
  u_checked_next_power_of_two dev (uof dev (2 ^ 255 + 1)) = Ret None /\
  u_next_power_of_two rel (uof rel (2 ^ 255 + 1)) = Ret (uof rel 0) /\
  u_next_power_of_two dev (uof dev 0) = Ret (uof dev 1).
Proof. vm_compute. intuition congruence. Qed.

(** Every value has exactly one such exponent. *)
Theorem C41_least_exists : forall v,
  exists k, 0 <= k /\ v <= 2 ^ k /\ (forall j, 0 <= j < k -> 2 ^ j < v) /\
  forall k', 0 <= k' -> v <= 2 ^ k' -> (forall j, 0 <= j < k' -> 2 ^ j < v) -> k' = k.
Proof. exact least_exists. Qed.
Print Assumptions C41_least_exists.

(** C42: sums and products; [firstn n vs] enumerates the prefixes, hence the partial results. *)
Theorem C42_u256_sum : forall c l,
  Forall wf_u l -> let vs := map (uval c) l in
  (debug_assertions c = false -> u_sum c l = Ret (uof c (sumz vs))) /\
  (debug_assertions c = true -> (forall n, in_u 256 (sumz (firstn n vs)) = true) -> u_sum c l = Ret (uof c (sumz vs))) /\
  (debug_assertions c = true -> (exists n, in_u 256 (sumz (firstn n vs)) = false) -> u_sum c l = Panic "attempt to add with overflow").
Proof. exact iter_u_sum. Qed.
Print Assumptions C42_u256_sum.

(** C42 *)
Theorem C42_u256_product : forall c l,
  Forall wf_u l -> let vs := map (uval c) l in
  (debug_assertions c = false -> u_product c l = Ret (uof c (prodz vs))) /\
  (debug_assertions c = true -> (forall n, in_u 256 (prodz (firstn n vs)) = true) -> u_product c l = Ret (uof c (prodz vs))) /\
  (debug_assertions c = true -> (exists n, in_u 256 (prodz (firstn n vs)) = false) -> u_product c l = Panic "attempt to multiply with overflow").
Proof. exact iter_u_product. Qed.
Print Assumptions C42_u256_product.

(** C42 *)
Theorem C42_i256_sum : forall c l,
  Forall wf_i l -> let vs := map (ival c) l in
  (debug_assertions c = false -> i_sum c l = Ret (iof c (sumz vs))) /\
  (debug_assertions c = true -> (forall n, in_i 256 (sumz (firstn n vs)) = true) -> i_sum c l = Ret (iof c (sumz vs))) /\
  (debug_assertions c = true -> (exists n, in_i 256 (sumz (firstn n vs)) = false) -> i_sum c l = Panic "attempt to add with overflow").
Proof. exact iter_i_sum. Qed.
Print Assumptions C42_i256_sum.

(** C42 *)
Theorem C42_i256_product : forall c l,
  Forall wf_i l -> let vs := map (ival c) l in
  (debug_assertions c = false -> i_product c l = Ret (iof c (prodz vs))) /\
  (debug_assertions c = true -> (forall n, in_i 256 (prodz (firstn n vs)) = true) -> i_product c l = Ret (iof c (prodz vs))) /\
  (debug_assertions c = true -> (exists n, in_i 256 (prodz (firstn n vs)) = false) -> i_product c l = Panic "attempt to multiply with overflow").
Proof. exact iter_i_product. Qed.
Print Assumptions C42_i256_product.

Example C42_case :
  let l := map (iof dev) [MAXI; 1; -5] in let l' := map (iof rel) [MAXI; 1; -5] in
  Forall wf_i l /\ in_i 256 (sumz (firstn 2 (map (ival dev) l))) = false /\ i_sum dev l = Panic "attempt to add with overflow" /\
  i_sum rel l' = Ret (iof rel (MAXI - 4)) /\ i_sum dev (map (iof dev) [MAXI; -5; 1]) = Ret (iof dev (MAXI - 4)) /\
  u_product dev (map (uof dev) [2 ^ 255; 2; 0]) = Panic "attempt to multiply with overflow" /\
  u_product devB (map (uof devB) [2 ^ 254; 3]) = Ret (uof devB (3 * 2 ^ 254)) /\
  i_product devB (map (iof devB) [2 ^ 254; -2]) = Ret (iof devB MINI).
Proof. split; [repeat constructor; vm_compute; discriminate|]. vm_compute. intuition congruence. Qed.

