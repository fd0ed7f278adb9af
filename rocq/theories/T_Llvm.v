(** * C48: the two sets of intrinsics *)

From Coq Require Import ZArith List String Bool Lia.
Import ListNotations.
From Verif Require Import M_Prim M_Words M_Llvm M_Intr M_Div M_Mul M_Ops M_UintApi Spec Spec_Shift Spec_Builds P_Words P_Backend T_Base.
Open Scope Z_scope.

(** C48: addition, subtraction and multiplication of U256, in place and out of place,
    and the variants reporting overflow. *)
Theorem C48_arithmetic : forall c x y,
  wf_u x -> wf_u y ->
  n_add2 c x y = l_add2 c x y /\ n_add3 c x y = l_add3 c x y /\ n_uaddc c x y = l_uaddc c x y /\
  n_sub2 c x y = l_sub2 c x y /\ n_sub3 c x y = l_sub3 c x y /\ n_usubc c x y = l_usubc c x y /\
  n_mul2 c x y = Ret (l_mul2 c x y) /\ n_mul3 c x y = Ret (l_mul3 c x y) /\ n_umulc c x y = Ret (l_umulc c x y).
Proof. exact backend_arith. Qed.
Print Assumptions C48_arithmetic.

Example C48_arithmetic_case :
  let x := uof dev MAXU in let y := uof dev (2 ^ 130 + 3) in
  wf_u x /\ wf_u y /\ n_uaddc dev x y = (uof dev (2 ^ 130 + 2), true) /\ l_uaddc dev x y = (uof dev (2 ^ 130 + 2), true) /\
  n_umulc dev x y = Ret (uof dev (- 2 ^ 130 - 3), true) /\ l_umulc dev x y = (uof dev (- 2 ^ 130 - 3), true).
Proof. vm_compute. intuition congruence. Qed.

(** C48: signed addition and subtraction reporting overflow. *)
Theorem C48_signed : forall c x y,
  wf_i x -> wf_i y ->
  n_iaddc c x y = l_iaddc c x y /\ n_isubc c x y = l_isubc c x y.
Proof. exact backend_signed. Qed.
Print Assumptions C48_signed.

Example C48_signed_case :
  let x := iof devB MINI in let y := iof devB 1 in
  wf_i x /\ wf_i y /\ n_isubc devB x y = (iof devB MAXI, true) /\ l_isubc devB x y = (iof devB MAXI, true) /\
  n_iaddc devB x y = (iof devB (MINI + 1), false) /\ l_iaddc devB x y = (iof devB (MINI + 1), false).
Proof. vm_compute. intuition congruence. Qed.

(** C48: counting leading and trailing zeros. *)
Theorem C48_counts : forall c x,
  wf_u x -> n_ctlz c x = Ret (l_ctlz c x) /\ n_cttz c x = Ret (l_cttz c x).
Proof. exact backend_count. Qed.
Print Assumptions C48_counts.

Example C48_counts_case :
  let x := uof dev (5 * 2 ^ 130) in
  wf_u x /\ n_ctlz dev x = Ret 123 /\ l_ctlz dev x = 123 /\ n_cttz dev x = Ret 130 /\ l_cttz dev x = 130 /\
  n_cttz dev (uof dev 0) = Ret 256 /\ l_cttz dev (uof dev 0) = 256.
Proof. vm_compute. intuition congruence. Qed.

(** C48 for shifts, as far as it holds: amounts below 256.  Release builds pass larger
    amounts to the intrinsics as well, see [C48_refuted]. *)
Theorem C48_shifts_partial : forall c x y n,
  wf_u x -> wf_i y -> 0 <= n < 256 ->
  n_shl2 c x n = Ret (l_shl2 c x n) /\ n_shl3 c x n = Ret (l_shl3 c x n) /\
  n_shr2 c x n = Ret (l_shr2 c x n) /\ n_shr3 c x n = Ret (l_shr3 c x n) /\
  n_sar2 c y n = Ret (l_sar2 c y n) /\ n_sar3 c y n = Ret (l_sar3 c y n).
Proof. exact backend_shift. Qed.
Print Assumptions C48_shifts_partial.

Example C48_shifts_case :
  let x := uof dev (2 ^ 200 + 5) in let y := iof dev (- 2 ^ 200 - 5) in
  wf_u x /\ wf_i y /\ 0 <= 130 < 256 /\ n_shl3 dev x 130 = Ret (uof dev (5 * 2 ^ 130)) /\ l_shl3 dev x 130 = uof dev (5 * 2 ^ 130) /\
  n_sar3 dev y 130 = Ret (iof dev (- 2 ^ 70 - 1)) /\ l_sar3 dev y 130 = iof dev (- 2 ^ 70 - 1).
Proof. vm_compute. intuition congruence. Qed.

(** C48 for rotations, as far as it holds: any amount without overflow checks, at most
    256 with them. *)
Theorem C48_rotations_partial : forall c x n,
  wf_u x -> 0 <= n < 2 ^ 32 -> overflow_checks c = false \/ n <= 256 ->
  n_rol3 c x n = Ret (l_rol3 c x n) /\ n_ror3 c x n = Ret (l_ror3 c x n).
Proof. exact backend_rotate. Qed.
Print Assumptions C48_rotations_partial.

Example C48_rotations_case :
  let x := uof rel 5 in
  wf_u x /\ 0 <= 511 < 2 ^ 32 /\ overflow_checks rel = false /\
  n_rol3 rel x 511 = Ret (uof rel (2 ^ 255 + 2)) /\ l_rol3 rel x 511 = uof rel (2 ^ 255 + 2).
Proof. vm_compute. intuition congruence. Qed.

(** C48 is false of the public API: in a release build [<<] and [>>] by 256 give different
    results with the two sets of intrinsics, and with overflow checks a rotation by 257
    panics with one of them only. *)
Theorem C48_refuted : exists c x n,
  wf_u x /\ 0 <= n < 2 ^ 32 /\
  u_shl_amt (with_llvm c false) x (Amt_u32 n) <> u_shl_amt (with_llvm c true) x (Amt_u32 n) /\
  u_shr_amt (with_llvm c false) x (Amt_u32 n) <> u_shr_amt (with_llvm c true) x (Amt_u32 n) /\
  exists d, u_rotate_left (with_llvm d false) x (n + 1) <> u_rotate_left (with_llvm d true) x (n + 1).
Proof. exact backend_differs. Qed.
Print Assumptions C48_refuted.

