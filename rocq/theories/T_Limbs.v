(** * C79: numbers of any length with U256 limbs *)

From Coq Require Import ZArith List Bool Lia.
Import ListNotations.
From Verif Require Import M_Prim M_Words M_Intr M_Mul M_Ops M_UintApi M_Convert.
From Verif Require Import Spec Spec_Limbs P_Words P_Limbs T_Base.
Open Scope Z_scope.

(** C79: the chain of [overflowing_add] adds numbers of any length, and the carry left over is the limb they need in
    addition. *)
Theorem C79_add : forall c l m carry, length m = length l -> Forall wf_u l -> Forall wf_u m ->
  exists r k, add_limbs c l m carry = (r, k) /\ length r = length l /\ Forall wf_u r /\
    number c r + 2 ^ (256 * Z.of_nat (length l)) * Z.b2z k = number c l + number c m + Z.b2z carry.
Proof. intros c l. exact (add_limbs_ok c l). Qed.
Print Assumptions C79_add.
Example C79_add_case :
  add_limbs devB [uof devB MAXU; uof devB MAXU; uof devB 5] [uof devB 1; uof devB 0; uof devB 7] false =
    ([uof devB 0; uof devB 0; uof devB 13], false) /\
  add_limbs relL [uof relL MAXU] [uof relL MAXU] true = ([uof relL MAXU], true).
Proof. vm_compute. auto. Qed.

(** C79: the chain of [overflowing_sub] subtracts; what is left over is the borrow. *)
Theorem C79_sub : forall c l m borrow, length m = length l -> Forall wf_u l -> Forall wf_u m ->
  exists r k, sub_limbs c l m borrow = (r, k) /\ length r = length l /\ Forall wf_u r /\
    number c r - 2 ^ (256 * Z.of_nat (length l)) * Z.b2z k = number c l - number c m - Z.b2z borrow.
Proof. intros c l. exact (sub_limbs_ok c l). Qed.
Print Assumptions C79_sub.
Example C79_sub_case :
  sub_limbs dev [uof dev 0; uof dev 0; uof dev 5] [uof dev 1; uof dev 0; uof dev 2] false =
    ([uof dev MAXU; uof dev MAXU; uof dev 2], false) /\
  sub_limbs mixB [uof mixB 3] [uof mixB 3] true = ([uof mixB MAXU], true).
Proof. vm_compute. auto. Qed.

(** C79: the product of two numbers in two limbs, put together from the products of their words, is exact and no
    step of it overflows; its low limb is [wrapping_mul], and [overflowing_mul] reports that the high limb is not
    zero. *)
Theorem C79_mul_wide : forall c a b, wf_u a -> wf_u b -> exists hi lo,
  mul_wide c a b = Ret (hi, lo) /\ wf_u hi /\ wf_u lo /\
  uval c a * uval c b = uval c hi * 2 ^ 256 + uval c lo /\
  u_wrapping_mul c a b = Ret lo /\ u_overflowing_mul c a b = Ret (lo, negb (u_eq c hi U256_ZERO)).
Proof. exact mul_wide_ok. Qed.
Print Assumptions C79_mul_wide.
Example C79_mul_wide_case :
  mul_wide dev (uof dev MAXU) (uof dev MAXU) = Ret (uof dev (MAXU - 1), uof dev 1) /\
  mul_wide relL (uof relL (2 ^ 200)) (uof relL (2 ^ 60)) = Ret (uof relL (2 ^ 4), uof relL 0).
Proof. vm_compute. auto. Qed.

(** C79: a number of any length times one limb. *)
Theorem C79_scale : forall c k, wf_u k -> forall l carry, Forall wf_u l -> wf_u carry ->
  exists r t, scale_limbs c l k carry = Ret (r, t) /\ length r = length l /\ Forall wf_u r /\ wf_u t /\
    number c r + 2 ^ (256 * Z.of_nat (length l)) * uval c t = number c l * uval c k + uval c carry.
Proof. exact scale_limbs_ok. Qed.
Print Assumptions C79_scale.
Example C79_scale_case :
  scale_limbs devB [uof devB MAXU; uof devB MAXU] (uof devB MAXU) (uof devB MAXU) =
    Ret ([uof devB 0; uof devB 0], uof devB MAXU) /\
  scale_limbs devB [uof devB MAXU; uof devB 1] (uof devB 2) (uof devB 1) = Ret ([uof devB MAXU; uof devB 3], uof devB 0).
Proof. vm_compute. auto. Qed.
