(** * Operations compared in two builds *)

From Coq Require Import ZArith List String Bool Lia ZifyBool.
Import ListNotations.
From Verif Require Import M_Prim M_Words M_Intr M_Div M_Mul M_Ops M_UintApi M_IntApi M_Convert M_Float M_Parse M_Fmt M_Serde M_Misc
  Spec Spec_Shift Spec_Bits Spec_Serde Spec_Convert Spec_Builds Spec_Api
  P_Words P_AddSub P_Bits P_Ops P_IntDiv P_Uint P_Int P_Forms P_BitsApi P_Count P_Bytes P_Pow P_Pow2 P_Convert P_Float P_Round P_Builds P_BuildsBase P_BuildsText P_SerdeBytes P_Clamp.
Open Scope Z_scope.

Lemma w0 : good_if same_llvm (U --> Amt --> Runs U) u_shl_amt.
Proof. begin. argU a. intros s t HS. destruct HS as (O1 & O2 & ES). 
  rewrite !u_shl_amt_of by assumption. rewrite (same_amount_val _ _ _ _ ES). apply cmp_shift; [exact HQ|intros; finish]. Qed.

Lemma w1 : good_if same_llvm (U --> Amt --> Runs U) u_shl_assign.
Proof. begin. argU a. intros s t HS. destruct HS as (O1 & O2 & ES). rewrite !u_shl_assign_eq. 
  rewrite !u_shl_amt_of by assumption. rewrite (same_amount_val _ _ _ _ ES). apply cmp_shift; [exact HQ|intros; finish]. Qed.

Lemma w2 : good_if same_llvm (I --> Amt --> Runs I) i_shl_amt.
Proof. begin. argI a. intros s t HS. destruct HS as (O1 & O2 & ES). 
  rewrite !i_shl_amt_of by assumption. rewrite (same_amount_val _ _ _ _ ES). apply cmp_shift; [exact HQ|intros; finish]. Qed.

Lemma w3 : good_if same_llvm (I --> Amt --> Runs I) i_shl_assign.
Proof. begin. argI a. intros s t HS. destruct HS as (O1 & O2 & ES). rewrite !i_shl_assign_eq. 
  rewrite !i_shl_amt_of by assumption. rewrite (same_amount_val _ _ _ _ ES). apply cmp_shift; [exact HQ|intros; finish]. Qed.

Lemma w4 : good_if same_llvm (U --> Amt --> Runs U) u_shr_amt.
Proof. begin. argU a. intros s t HS. destruct HS as (O1 & O2 & ES). 
  rewrite !u_shr_amt_of by assumption. rewrite (same_amount_val _ _ _ _ ES). apply cmp_shift; [exact HQ|intros; finish]. Qed.

Lemma w5 : good_if same_llvm (U --> Amt --> Runs U) u_shr_assign.
Proof. begin. argU a. intros s t HS. destruct HS as (O1 & O2 & ES). rewrite !u_shr_assign_eq. 
  rewrite !u_shr_amt_of by assumption. rewrite (same_amount_val _ _ _ _ ES). apply cmp_shift; [exact HQ|intros; finish]. Qed.

Lemma w6 : good_if same_llvm (I --> Amt --> Runs I) i_shr_amt.
Proof. begin. argI a. intros s t HS. destruct HS as (O1 & O2 & ES). 
  rewrite !i_shr_amt_of by assumption. rewrite (same_amount_val _ _ _ _ ES). apply cmp_shift; [exact HQ|intros; finish]. Qed.

Lemma w7 : good_if same_llvm (I --> Amt --> Runs I) i_shr_assign.
Proof. begin. argI a. intros s t HS. destruct HS as (O1 & O2 & ES). rewrite !i_shr_assign_eq. 
  rewrite !i_shr_amt_of by assumption. rewrite (same_amount_val _ _ _ _ ES). apply cmp_shift; [exact HQ|intros; finish]. Qed.

Lemma w8 : good_if same_llvm (U --> U32 --> Runs U) u_rotate_left.
Proof. begin. argU a. argZ b. unfold range in Hb. assert (0 <= b < 2 ^ 32) as Hb' by lia.
  pose proof (rotate_u_small c1 b a true Hb' Ha) as E1. pose proof (rotate_u_small c2 b a true Hb' Ha) as E2.
  cbv iota beta in E1, E2. rewrite E1, E2. apply rot_cmp; [left; exact HQ|finish]. Qed.

Lemma w9 : good_if same_llvm (I --> U32 --> Runs I) i_rotate_left.
Proof. begin. argI a. argZ b. unfold range in Hb. assert (0 <= b < 2 ^ 32) as Hb' by lia.
  pose proof (rotate_i c1 b a true Hb') as E1. pose proof (rotate_i c2 b a true Hb') as E2.
  cbv iota beta in E1, E2. rewrite E1, E2. apply rot_cmp; [left; exact HQ|finish]. Qed.

Lemma w10 : good_if same_llvm (U --> U32 --> Runs U) u_rotate_right.
Proof. begin. argU a. argZ b. unfold range in Hb. assert (0 <= b < 2 ^ 32) as Hb' by lia.
  pose proof (rotate_u_small c1 b a false Hb' Ha) as E1. pose proof (rotate_u_small c2 b a false Hb' Ha) as E2.
  cbv iota beta in E1, E2. rewrite E1, E2. apply rot_cmp; [left; exact HQ|finish]. Qed.

Lemma w11 : good_if same_llvm (I --> U32 --> Runs I) i_rotate_right.
Proof. begin. argI a. argZ b. unfold range in Hb. assert (0 <= b < 2 ^ 32) as Hb' by lia.
  pose proof (rotate_i c1 b a false Hb') as E1. pose proof (rotate_i c2 b a false Hb') as E2.
  cbv iota beta in E1, E2. rewrite E1, E2. apply rot_cmp; [left; exact HQ|finish]. Qed.

Lemma m0 : good_if same_endian (U --> Gives Bytes) u_to_ne_bytes.
Proof. begin. argU a. unfold same_endian in HQ. rewrite (proj2 (proj2 (u_bytes_of c1 a))), (proj2 (proj2 (u_bytes_of c2 a))), HQ. apply gives, same_bytes. destruct (big_endian c2); [apply Forall_rev', le_ok|apply le_ok]. Qed.

Lemma m1 : good_if same_endian (U --> Gives Bytes) u_mem_bytes.
Proof. begin. argU a. rewrite (same_endian_u c1 c2 a HQ). unfold u_mem_bytes, same_endian in *. apply gives. rewrite HQ. apply same_bytes. apply Forall_app. destruct (big_endian c2); split; first [apply le_ok|apply Forall_rev; apply le_ok]. Qed.

Lemma m2 : good_if same_endian (I --> Gives Bytes) i_to_ne_bytes.
Proof. begin. argI a. unfold same_endian in HQ. rewrite (proj2 (proj2 (i_bytes_nums c1 a))), (proj2 (proj2 (i_bytes_nums c2 a))), HQ. apply gives, same_bytes. destruct (big_endian c2); [apply Forall_rev', le_ok|apply le_ok]. Qed.

Lemma m3 : good_if same_endian (I --> Gives Bytes) i_mem_bytes.
Proof. begin. argI a. rewrite (same_endian_i c1 c2 a HQ). unfold i_mem_bytes, same_endian in *. apply gives. rewrite HQ. apply same_bytes. apply Forall_app. destruct (big_endian c2); split; first [apply le_ok|apply Forall_rev; apply le_ok]. Qed.

Lemma m4 : good_if same_endian (Bytes32 --> Gives U) u_from_ne_bytes.
Proof. begin. argZ a. unfold same_endian in HQ. rewrite (proj2 (proj2 (u_from_bytes_of c1 a Ha))), (proj2 (proj2 (u_from_bytes_of c2 a Ha))), HQ. apply gives, same_u. Qed.

Lemma m5 : good_if same_endian (Bytes32 --> Gives I) i_from_ne_bytes.
Proof. begin. argZ a. unfold same_endian in HQ. rewrite (proj2 (proj2 (i_from_bytes_nums c1 a Ha))), (proj2 (proj2 (i_from_bytes_nums c2 a Ha))), HQ. apply gives, same_i. Qed.

Lemma m6 : good_if same_endian (U --> Gives U) u_from_be.
Proof. begin. argU a. unfold same_endian in HQ. unfold u_to_be, u_from_be. rewrite HQ, !u_swap_of. finish. Qed.

Lemma m7 : good_if same_endian (U --> Gives U) u_from_le.
Proof. begin. argU a. unfold same_endian in HQ. unfold u_to_le, u_from_le. rewrite HQ, !u_swap_of. finish. Qed.

Lemma m8 : good_if same_endian (U --> Gives U) u_to_be.
Proof. begin. argU a. unfold same_endian in HQ. unfold u_to_be, u_from_be. rewrite HQ, !u_swap_of. finish. Qed.

Lemma m9 : good_if same_endian (U --> Gives U) u_to_le.
Proof. begin. argU a. unfold same_endian in HQ. unfold u_to_le, u_from_le. rewrite HQ, !u_swap_of. finish. Qed.

Lemma m10 : good_if same_endian (I --> Gives I) i_from_be.
Proof. begin. argI a. unfold same_endian in HQ. unfold i_to_be, i_from_be. rewrite HQ, !i_swap_of. finish. Qed.

Lemma m11 : good_if same_endian (I --> Gives I) i_from_le.
Proof. begin. argI a. unfold same_endian in HQ. unfold i_to_le, i_from_le. rewrite HQ, !i_swap_of. finish. Qed.

Lemma m12 : good_if same_endian (I --> Gives I) i_to_be.
Proof. begin. argI a. unfold same_endian in HQ. unfold i_to_be, i_from_be. rewrite HQ, !i_swap_of. finish. Qed.

Lemma m13 : good_if same_endian (I --> Gives I) i_to_le.
Proof. begin. argI a. unfold same_endian in HQ. unfold i_to_le, i_from_le. rewrite HQ, !i_swap_of. finish. Qed.

Lemma m14 : good_if same_endian (U --> Gives Bytes) (fun c => u_ser_bytes c (native c)).
Proof. begin. argU a. unfold same_endian in HQ. unfold u_ser_bytes, native. rewrite HQ, !u_to_bytes_nums by assumption. apply gives, same_bytes, order_ok, le_ok. Qed.

Lemma m15 : good_if same_endian (Bytes --> Runs (De U)) (fun c => u_visit_bytes c (native c)).
Proof. begin. argZ a. unfold same_endian in HQ. unfold native. rewrite HQ. apply cmp_bytes_u. assumption. Qed.

Lemma m16 : good_if same_endian (I --> Gives Bytes) (fun c => i_ser_bytes c (native c)).
Proof. begin. argI a. unfold same_endian in HQ. unfold i_ser_bytes, native. rewrite HQ, !i_to_bytes_nums by assumption. apply gives, same_bytes, order_ok, le_ok. Qed.

Lemma m17 : good_if same_endian (Bytes --> Runs (De I)) (fun c => i_visit_bytes c (native c)).
Proof. begin. argZ a. unfold same_endian in HQ. unfold native. rewrite HQ. apply cmp_bytes_i. assumption. Qed.

Lemma b354 : good (U --> U --> U --> Runs U) u_clamp.
Proof. begin. argU a. argU b. argU d. rewrite !u_clamp_of by assumption. destruct (Z.leb_spec b d); finish. Qed.

Lemma b355 : good (I --> I --> I --> Runs I) i_clamp.
Proof. begin. argI a. argI b. argI d. rewrite !i_clamp_of by assumption. destruct (Z.leb_spec b d); finish. Qed.

Lemma b356 : good (U --> U --> Gives Flag) u_ne.
Proof. begin. argU a. argU b. apply gives. rewrite !u_ne_of by assumption. finish. Qed.

Lemma b357 : good (I --> I --> Gives Flag) i_ne.
Proof. begin. argI a. argI b. apply gives. rewrite !i_ne_of by assumption. finish. Qed.
