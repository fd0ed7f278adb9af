(** * The two sets of intrinsics compared *)

From Coq Require Import ZArith List String Bool Lia ZifyBool.
From Verif Require Import M_Prim M_Words M_Llvm M_Intr M_Div M_Mul M_Ops M_UintApi M_IntApi M_Parse M_Serde Spec Spec_Shift Spec_Builds
  P_Words P_Llvm P_AddSub P_Bits P_Mul P_Forms P_BitsApi P_Count.
Import ListNotations.
Open Scope Z_scope.

Lemma backend_arith c x y : wf_u x -> wf_u y ->
  n_add2 c x y = l_add2 c x y /\ n_add3 c x y = l_add3 c x y /\ n_uaddc c x y = l_uaddc c x y /\
  n_sub2 c x y = l_sub2 c x y /\ n_sub3 c x y = l_sub3 c x y /\ n_usubc c x y = l_usubc c x y /\
  n_mul2 c x y = Ret (l_mul2 c x y) /\ n_mul3 c x y = Ret (l_mul3 c x y) /\ n_umulc c x y = Ret (l_umulc c x y).
Proof.
  intros Hx Hy. on_u c x. on_u c y.
  assert (E2 : n_add2 c (uof c nx) (uof c ny) = n_add3 c (uof c nx) (uof c ny)).
  { unfold n_add2, n_add3. destruct (overflowing_add _ _ _) as [lo carry]. cbv zeta.
    rewrite u_set_high_from, u_set_low_from, u_high_from, u_low_from. reflexivity. }
  assert (E3 : n_sub2 c (uof c nx) (uof c ny) = n_sub3 c (uof c nx) (uof c ny)).
  { unfold n_sub2, n_sub3. destruct (overflowing_sub _ _ _) as [lo carry]. cbv zeta.
    rewrite u_set_high_from, u_set_low_from, u_high_from, u_low_from. reflexivity. }
  rewrite E2, E3. change (l_add2 c) with (l_add3 c). change (l_sub2 c) with (l_sub3 c).
  change (l_mul2 c) with (l_mul3 c). change (n_mul2 c) with (n_mul3 c).
  rewrite n_add3_of, l_add3_of, n_sub3_of, l_sub3_of, n_mul3_of, l_mul3_of.
  rewrite n_uaddc_of, l_uaddc_of, n_usubc_of, l_usubc_of, n_umulc_of, l_umulc_of by assumption.
  auto 20.
Qed.

Lemma backend_signed c x y : wf_i x -> wf_i y ->
  n_iaddc c x y = l_iaddc c x y /\ n_isubc c x y = l_isubc c x y.
Proof.
  intros Hx Hy. on_i c x. on_i c y.
  rewrite n_iaddc_of, l_iaddc_of, n_isubc_of, l_isubc_of by assumption. auto.
Qed.

Lemma backend_count c x : wf_u x -> n_ctlz c x = Ret (l_ctlz c x) /\ n_cttz c x = Ret (l_cttz c x).
Proof.
  intros Hx. on_u c x. split.
  - rewrite n_ctlz_of by lia. unfold l_ctlz. rewrite l_load_of, Z.mod_small by lia. reflexivity.
  - destruct (n_cttz_of c nx ltac:(lia)) as (k & E & H). rewrite E. f_equal.
    unfold l_cttz. rewrite l_load_of, Z.mod_small by lia.
    destruct H as [(-> & ->)|(N & K & L0 & L1 & L2)]; [reflexivity|].
    destruct nx as [|p|p]; [congruence| |lia]. cbn [trailing_zeros].
    destruct (pos_tz_spec p) as (T0 & T1 & T2).
    destruct (Z.lt_trichotomy k (pos_tz p)) as [H|[H|H]]; [|assumption|].
    + rewrite T2 in L1 by lia. discriminate.
    + rewrite L2 in T1 by lia. discriminate.
Qed.

Lemma backend_shift c x y n : wf_u x -> wf_i y -> 0 <= n < 256 ->
  n_shl2 c x n = Ret (l_shl2 c x n) /\ n_shl3 c x n = Ret (l_shl3 c x n) /\
  n_shr2 c x n = Ret (l_shr2 c x n) /\ n_shr3 c x n = Ret (l_shr3 c x n) /\
  n_sar2 c y n = Ret (l_sar2 c y n) /\ n_sar3 c y n = Ret (l_sar3 c y n).
Proof.
  intros Hx Hy Hn. on_u c x. on_i c y.
  assert (E1 : n_shl2 c (uof c nx) n = n_shl3 c (uof c nx) n) by (unfold n_shl2, n_shl3; rewrite u_from_high_low; reflexivity).
  assert (E2 : n_shr2 c (uof c nx) n = n_shr3 c (uof c nx) n) by (unfold n_shr2, n_shr3; rewrite u_from_high_low; reflexivity).
  assert (E3 : n_sar2 c (iof c ny) n = n_sar3 c (iof c ny) n) by (unfold n_sar2, n_sar3; rewrite i_from_high_low; reflexivity).
  rewrite E1, E2, E3. change (l_shl2 c) with (l_shl3 c). change (l_shr2 c) with (l_shr3 c). change (l_sar2 c) with (l_sar3 c).
  rewrite n_shl3_of, l_shl3_of, n_shr3_of, l_shr3_of, n_sar3_of, l_sar3_of, Z.mod_small by lia. auto 20.
Qed.

Lemma backend_rotate c x n : wf_u x -> 0 <= n < 2 ^ 32 -> overflow_checks c = false \/ n <= 256 ->
  n_rol3 c x n = Ret (l_rol3 c x n) /\ n_ror3 c x n = Ret (l_ror3 c x n).
Proof.
  intros Hx Hn Hc. on_u c x.
  rewrite n_rol3_of, l_rol3_of, n_ror3_of, l_ror3_of, rotl_num_sum, rotr_num_sum by assumption. auto.
Qed.

Lemma backend_differs : exists c x n,
  wf_u x /\ 0 <= n < 2 ^ 32 /\
  u_shl_amt (with_llvm c false) x (Amt_u32 n) <> u_shl_amt (with_llvm c true) x (Amt_u32 n) /\
  u_shr_amt (with_llvm c false) x (Amt_u32 n) <> u_shr_amt (with_llvm c true) x (Amt_u32 n) /\
  exists d, u_rotate_left (with_llvm d false) x (n + 1) <> u_rotate_left (with_llvm d true) x (n + 1).
Proof.
  exists (Build_cfg false false false 64 false), (mkU 1 1), 256.
  split; [vm_compute; intuition congruence|]. split; [lia|].
  split; [vm_compute; congruence|]. split; [vm_compute; congruence|].
  exists (Build_cfg true true false 64 false). vm_compute. congruence.
Qed.
