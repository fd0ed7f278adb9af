(** * C01 - C05: U256 arithmetic

    Every theorem is for all build configurations [c] and all well-formed
    operands.  [uof c v] is the U256 representing [v] modulo 2^256 (see Spec.v and
    T_Base.v), so [= uof c (a + b)] says "a + b mod 2^256", and a result [Ret x]
    says "returns x: no panic, no undefined behaviour". *)

From Coq Require Import ZArith List String Bool Lia.
Import ListNotations.
From Verif Require Import M_Prim M_Words M_Intr M_Div M_Mul M_Ops M_UintApi Spec P_Uint T_Base.
Open Scope Z_scope.

(** C01: the addition family is exact arithmetic modulo 2^256. *)
Theorem C01_u256_add : forall c a b,
  wf_u a -> wf_u b -> let s := uval c a + uval c b in
  u_wrapping_add c a b = uof c s /\
  u_overflowing_add c a b = (uof c s, negb (in_u 256 s)) /\
  u_checked_add c a b = (if in_u 256 s then Some (uof c s) else None) /\
  u_saturating_add c a b = uof c (clamp_u s).
Proof. exact add_family. Qed.
Print Assumptions C01_u256_add.

Example C01_case :
  let a := uof dev (2 ^ 256 - 3) in let b := uof dev (2 ^ 128 + 7) in
  wf_u a /\ wf_u b /\ u_checked_add dev a b = None /\
  u_overflowing_add dev a b = (uof dev (2 ^ 128 + 4), true) /\
  u_saturating_add devB (uof devB (2 ^ 255)) (uof devB (2 ^ 255)) = U256_MAX.
Proof. vm_compute. intuition congruence. Qed.

(** C02: the subtraction family; [abs_diff] never panics. *)
Theorem C02_u256_sub : forall c a b,
  wf_u a -> wf_u b -> let d := uval c a - uval c b in
  u_wrapping_sub c a b = uof c d /\
  u_overflowing_sub c a b = (uof c d, negb (in_u 256 d)) /\
  u_checked_sub c a b = (if in_u 256 d then Some (uof c d) else None) /\
  u_saturating_sub c a b = uof c (clamp_u d) /\
  u_abs_diff c a b = Ret (uof c (Z.abs d)).
Proof. exact sub_family. Qed.
Print Assumptions C02_u256_sub.

Example C02_case :
  let a := uof dev 3 in let b := uof dev (2 ^ 128) in
  wf_u a /\ wf_u b /\ u_checked_sub dev a b = None /\
  u_overflowing_sub dev a b = (uof dev (2 ^ 256 - 2 ^ 128 + 3), true) /\
  u_abs_diff mixB (uof mixB 3) (uof mixB (2 ^ 128)) = Ret (uof mixB (2 ^ 128 - 3)).
Proof. vm_compute. intuition congruence. Qed.

(** C02: the negation family; only 0 negates without overflow. *)
Theorem C02_u256_neg : forall c a,
  wf_u a -> let m := - uval c a in
  u_wrapping_neg c a = uof c m /\
  u_overflowing_neg c a = (uof c m, negb (in_u 256 m)) /\
  u_checked_neg c a = (if in_u 256 m then Some (uof c m) else None).
Proof. exact neg_family. Qed.
Print Assumptions C02_u256_neg.

Example C02_neg_case :
  wf_u (uof dev 5) /\ u_wrapping_neg dev (uof dev 5) = uof dev (2 ^ 256 - 5) /\
  u_checked_neg dev (uof dev 5) = None /\ u_checked_neg dev (uof dev 0) = Some (uof dev 0).
Proof. vm_compute. intuition congruence. Qed.

(** C03: the multiplication family; no intermediate computation panics. *)
Theorem C03_u256_mul : forall c a b,
  wf_u a -> wf_u b -> let p := uval c a * uval c b in
  u_wrapping_mul c a b = Ret (uof c p) /\
  u_overflowing_mul c a b = Ret (uof c p, negb (in_u 256 p)) /\
  u_checked_mul c a b = Ret (if in_u 256 p then Some (uof c p) else None) /\
  u_saturating_mul c a b = Ret (uof c (clamp_u p)).
Proof. exact mul_family. Qed.
Print Assumptions C03_u256_mul.

Example C03_case :
  let a := uof devB (2 ^ 128 + 1) in let b := uof devB (2 ^ 128 - 1) in
  wf_u a /\ wf_u b /\ u_checked_mul devB a b = Ret (Some (uof devB (2 ^ 256 - 1))) /\
  u_overflowing_mul devB a a = Ret (uof devB (2 ^ 129 + 1), true).
Proof. vm_compute. intuition congruence. Qed.

(** C04: division and remainder, in all their methods.  A zero divisor panics
    (or gives None); every other divisor gives floor quotient and remainder. *)
(** Outside the debug build [a %= 0] panics with the division message, so
    its message is left open. *)
Theorem C04_u256_div : forall c a b,
  wf_u a -> wf_u b ->
  let q := uval c a / uval c b in let r := uval c a mod uval c b in
  if uval c b =? 0 then
    Forall (eq (Panic "attempt to divide by zero"))
      [u_op_div c a b; u_op_div_assign c a b; u_div_euclid c a b; u_wrapping_div c a b; u_wrapping_div_euclid c a b;
       u_saturating_div c a b] /\
    Forall (eq (Panic "attempt to divide by zero"))
      [u_overflowing_div c a b; u_overflowing_div_euclid c a b] /\
    Forall (eq (Panic "attempt to calculate the remainder with a divisor of zero"))
      [u_op_rem c a b; u_rem_euclid c a b; u_wrapping_rem c a b; u_wrapping_rem_euclid c a b] /\
    Forall (eq (Panic "attempt to calculate the remainder with a divisor of zero"))
      [u_overflowing_rem c a b; u_overflowing_rem_euclid c a b] /\
    panics (u_op_rem_assign c a b) /\
    Forall (eq (Ret None))
      [u_checked_div c a b; u_checked_div_euclid c a b; u_checked_rem c a b; u_checked_rem_euclid c a b]
  else
    Forall (eq (Ret (uof c q)))
      [u_op_div c a b; u_op_div_assign c a b; u_div_euclid c a b; u_wrapping_div c a b; u_wrapping_div_euclid c a b;
       u_saturating_div c a b] /\
    Forall (eq (Ret (uof c r)))
      [u_op_rem c a b; u_op_rem_assign c a b; u_rem_euclid c a b; u_wrapping_rem c a b; u_wrapping_rem_euclid c a b] /\
    Forall (eq (Ret (uof c q, false))) [u_overflowing_div c a b; u_overflowing_div_euclid c a b] /\
    Forall (eq (Ret (uof c r, false))) [u_overflowing_rem c a b; u_overflowing_rem_euclid c a b] /\
    Forall (eq (Ret (Some (uof c q)))) [u_checked_div c a b; u_checked_div_euclid c a b] /\
    Forall (eq (Ret (Some (uof c r)))) [u_checked_rem c a b; u_checked_rem_euclid c a b].
Proof. exact div_family. Qed.
Print Assumptions C04_u256_div.

Example C04_case :
  let a := uof dev (2 ^ 255 + 12345) in let b := uof dev (2 ^ 130 + 7) in
  wf_u a /\ wf_u b /\ u_op_div dev a b = Ret (uof dev (2 ^ 125 - 1)) /\
  u_op_rem dev a b = Ret (uof dev ((2 ^ 255 + 12345) mod (2 ^ 130 + 7))) /\
  u_checked_div dev a (uof dev 0) = Ret None.
Proof. vm_compute. intuition congruence. Qed.

(** C05: the combined methods return quotient and remainder together; the
    compiler hints inside are never violated (no [UB]). *)
Theorem C05_u256_div_rem : forall c a b,
  wf_u a -> wf_u b ->
  let q := uval c a / uval c b in let r := uval c a mod uval c b in
  if uval c b =? 0 then
    Forall (eq (Panic "attempt to divide by zero"))
      [u_div_rem c a b; u_div_rem_euclid c a b; u_wrapping_div_rem c a b; u_wrapping_div_rem_euclid c a b;
       u_saturating_div_rem c a b; u_saturating_div_rem_euclid c a b] /\
    Forall (eq (Panic "attempt to divide by zero"))
      [u_overflowing_div_rem c a b; u_overflowing_div_rem_euclid c a b] /\
    Forall (eq (Ret None)) [u_checked_div_rem c a b; u_checked_div_rem_euclid c a b]
  else
    Forall (eq (Ret (uof c q, uof c r)))
      [u_div_rem c a b; u_div_rem_euclid c a b; u_wrapping_div_rem c a b; u_wrapping_div_rem_euclid c a b;
       u_saturating_div_rem c a b; u_saturating_div_rem_euclid c a b] /\
    Forall (eq (Ret (uof c q, uof c r, false)))
      [u_overflowing_div_rem c a b; u_overflowing_div_rem_euclid c a b] /\
    Forall (eq (Ret (Some (uof c q, uof c r))))
      [u_checked_div_rem c a b; u_checked_div_rem_euclid c a b].
Proof. exact div_rem_family. Qed.
Print Assumptions C05_u256_div_rem.

Example C05_case :
  let a := uof rel (2 ^ 256 - 1) in let b := uof rel (2 ^ 127 + 1) in
  wf_u a /\ wf_u b /\
  u_div_rem rel a b = Ret (uof rel ((2 ^ 256 - 1) / (2 ^ 127 + 1)), uof rel ((2 ^ 256 - 1) mod (2 ^ 127 + 1))) /\
  panics (u_div_rem rel a (uof rel 0)).
Proof. vm_compute. intuition (try congruence). eexists; reflexivity. Qed.

