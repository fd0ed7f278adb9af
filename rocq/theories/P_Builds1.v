(** * Operations compared in two builds *)

From Coq Require Import ZArith List String Bool Lia ZifyBool.
Import ListNotations.
From Verif Require Import M_Prim M_Words M_Intr M_Div M_Mul M_Ops M_UintApi M_IntApi M_Convert M_Float M_Parse M_Fmt M_Serde
  Spec Spec_Shift Spec_Bits Spec_Serde Spec_Convert Spec_Builds Spec_Api
  P_Words P_AddSub P_Bits P_Ops P_IntDiv P_Uint P_Int P_Forms P_BitsApi P_Count P_Bytes P_Pow P_Pow2 P_Convert P_Float P_Round P_Builds P_BuildsBase.
Open Scope Z_scope.

Lemma b0 : good (U --> U --> Gives U) u_wrapping_add.
Proof. begin. argU a. argU b. fam c1 c2 (fun c => add_family c (uof c a) (uof c b) (wf_uof c a) (wf_uof c b)). all: go. Qed.

Lemma b1 : good (U --> U --> Gives U) u_saturating_add.
Proof. begin. argU a. argU b. fam c1 c2 (fun c => add_family c (uof c a) (uof c b) (wf_uof c a) (wf_uof c b)). all: go. Qed.

Lemma b2 : good (U --> U --> Gives U) u_wrapping_sub.
Proof. begin. argU a. argU b. fam c1 c2 (fun c => sub_family c (uof c a) (uof c b) (wf_uof c a) (wf_uof c b)). all: go. Qed.

Lemma b3 : good (U --> U --> Gives U) u_saturating_sub.
Proof. begin. argU a. argU b. fam c1 c2 (fun c => sub_family c (uof c a) (uof c b) (wf_uof c a) (wf_uof c b)). all: go. Qed.

Lemma b4 : good (U --> U --> Gives U) u_max.
Proof. begin. argU a. argU b. apply gives. unfold u_max, u_min. rewrite !u_cmp_of' by assumption. destruct (a ?= b); finish. Qed.

Lemma b5 : good (U --> U --> Gives U) u_min.
Proof. begin. argU a. argU b. apply gives. unfold u_max, u_min. rewrite !u_cmp_of' by assumption. destruct (a ?= b); finish. Qed.

Lemma b6 : good (U --> U --> Gives (Pair U Flag)) u_overflowing_add.
Proof. begin. argU a. argU b. fam c1 c2 (fun c => add_family c (uof c a) (uof c b) (wf_uof c a) (wf_uof c b)). all: go. Qed.

Lemma b7 : good (U --> U --> Gives (Pair U Flag)) u_overflowing_sub.
Proof. begin. argU a. argU b. fam c1 c2 (fun c => sub_family c (uof c a) (uof c b) (wf_uof c a) (wf_uof c b)). all: go. Qed.

Lemma b8 : good (U --> U --> Gives (Opt U)) u_checked_add.
Proof. begin. argU a. argU b. fam c1 c2 (fun c => add_family c (uof c a) (uof c b) (wf_uof c a) (wf_uof c b)). all: go. Qed.

Lemma b9 : good (U --> U --> Gives (Opt U)) u_checked_sub.
Proof. begin. argU a. argU b. fam c1 c2 (fun c => sub_family c (uof c a) (uof c b) (wf_uof c a) (wf_uof c b)). all: go. Qed.

Lemma b10 : good (U --> U --> Runs U) u_abs_diff.
Proof. begin. argU a. argU b. fam c1 c2 (fun c => sub_family c (uof c a) (uof c b) (wf_uof c a) (wf_uof c b)). all: go. Qed.

Lemma b11 : good (U --> U --> Runs U) u_wrapping_mul.
Proof. begin. argU a. argU b. fam c1 c2 (fun c => mul_family c (uof c a) (uof c b) (wf_uof c a) (wf_uof c b)). all: go. Qed.

Lemma b12 : good (U --> U --> Runs U) u_saturating_mul.
Proof. begin. argU a. argU b. fam c1 c2 (fun c => mul_family c (uof c a) (uof c b) (wf_uof c a) (wf_uof c b)). all: go. Qed.

Lemma b13 : good (U --> U --> Runs U) u_op_add.
Proof. begin. argU a. argU b. fam c1 c2 (fun c => u_operators c (uof c a) (uof c b) (wf_uof c a) (wf_uof c b)). all: go. Qed.

Lemma b14 : good (U --> U --> Runs U) u_op_add_assign.
Proof. begin. argU a. argU b. fam c1 c2 (fun c => u_operators c (uof c a) (uof c b) (wf_uof c a) (wf_uof c b)). all: go. Qed.

Lemma b15 : good (U --> U --> Runs U) u_op_sub.
Proof. begin. argU a. argU b. fam c1 c2 (fun c => u_operators c (uof c a) (uof c b) (wf_uof c a) (wf_uof c b)). all: go. Qed.

Lemma b16 : good (U --> U --> Runs U) u_op_sub_assign.
Proof. begin. argU a. argU b. fam c1 c2 (fun c => u_operators c (uof c a) (uof c b) (wf_uof c a) (wf_uof c b)). all: go. Qed.

Lemma b17 : good (U --> U --> Runs U) u_op_mul.
Proof. begin. argU a. argU b. fam c1 c2 (fun c => u_operators c (uof c a) (uof c b) (wf_uof c a) (wf_uof c b)). all: go. Qed.

Lemma b18 : good (U --> U --> Runs U) u_op_mul_assign.
Proof. begin. argU a. argU b. fam c1 c2 (fun c => u_operators c (uof c a) (uof c b) (wf_uof c a) (wf_uof c b)). all: go. Qed.

Lemma b19 : good (U --> U --> Runs U) u_op_div.
Proof. begin. argU a. argU b. fam c1 c2 (fun c => div_family c (uof c a) (uof c b) (wf_uof c a) (wf_uof c b)). all: go. Qed.

Lemma b20 : good (U --> U --> Runs U) u_op_div_assign.
Proof. begin. argU a. argU b. fam c1 c2 (fun c => div_family c (uof c a) (uof c b) (wf_uof c a) (wf_uof c b)). all: go. Qed.

Lemma b21 : good (U --> U --> Runs U) u_op_rem.
Proof. begin. argU a. argU b. fam c1 c2 (fun c => div_family c (uof c a) (uof c b) (wf_uof c a) (wf_uof c b)). all: go. Qed.

Lemma b22 : good (U --> U --> Runs U) u_op_rem_assign.
Proof. begin. argU a. argU b. fam c1 c2 (fun c => u_op_rem_assign_of c a b Ha Hb). all: go. Qed.

Lemma b23 : good (U --> U --> Runs U) u_div_euclid.
Proof. begin. argU a. argU b. fam c1 c2 (fun c => div_family c (uof c a) (uof c b) (wf_uof c a) (wf_uof c b)). all: go. Qed.

Lemma b24 : good (U --> U --> Runs U) u_rem_euclid.
Proof. begin. argU a. argU b. fam c1 c2 (fun c => div_family c (uof c a) (uof c b) (wf_uof c a) (wf_uof c b)). all: go. Qed.

Lemma b25 : good (U --> U --> Runs U) u_wrapping_div.
Proof. begin. argU a. argU b. fam c1 c2 (fun c => div_family c (uof c a) (uof c b) (wf_uof c a) (wf_uof c b)). all: go. Qed.

Lemma b26 : good (U --> U --> Runs U) u_wrapping_div_euclid.
Proof. begin. argU a. argU b. fam c1 c2 (fun c => div_family c (uof c a) (uof c b) (wf_uof c a) (wf_uof c b)). all: go. Qed.

Lemma b27 : good (U --> U --> Runs U) u_wrapping_rem.
Proof. begin. argU a. argU b. fam c1 c2 (fun c => div_family c (uof c a) (uof c b) (wf_uof c a) (wf_uof c b)). all: go. Qed.

Lemma b28 : good (U --> U --> Runs U) u_wrapping_rem_euclid.
Proof. begin. argU a. argU b. fam c1 c2 (fun c => div_family c (uof c a) (uof c b) (wf_uof c a) (wf_uof c b)). all: go. Qed.

Lemma b29 : good (U --> U --> Runs U) u_saturating_div.
Proof. begin. argU a. argU b. fam c1 c2 (fun c => div_family c (uof c a) (uof c b) (wf_uof c a) (wf_uof c b)). all: go. Qed.

Lemma b30 : good (U --> U --> Runs (Pair U Flag)) u_overflowing_mul.
Proof. begin. argU a. argU b. fam c1 c2 (fun c => mul_family c (uof c a) (uof c b) (wf_uof c a) (wf_uof c b)). all: go. Qed.

Lemma b31 : good (U --> U --> Runs (Pair U Flag)) u_overflowing_div.
Proof. begin. argU a. argU b. fam c1 c2 (fun c => div_family c (uof c a) (uof c b) (wf_uof c a) (wf_uof c b)). all: go. Qed.

Lemma b32 : good (U --> U --> Runs (Pair U Flag)) u_overflowing_div_euclid.
Proof. begin. argU a. argU b. fam c1 c2 (fun c => div_family c (uof c a) (uof c b) (wf_uof c a) (wf_uof c b)). all: go. Qed.

Lemma b33 : good (U --> U --> Runs (Pair U Flag)) u_overflowing_rem.
Proof. begin. argU a. argU b. fam c1 c2 (fun c => div_family c (uof c a) (uof c b) (wf_uof c a) (wf_uof c b)). all: go. Qed.

Lemma b34 : good (U --> U --> Runs (Pair U Flag)) u_overflowing_rem_euclid.
Proof. begin. argU a. argU b. fam c1 c2 (fun c => div_family c (uof c a) (uof c b) (wf_uof c a) (wf_uof c b)). all: go. Qed.

Lemma b35 : good (U --> U --> Runs (Opt U)) u_checked_mul.
Proof. begin. argU a. argU b. fam c1 c2 (fun c => mul_family c (uof c a) (uof c b) (wf_uof c a) (wf_uof c b)). all: go. Qed.

Lemma b36 : good (U --> U --> Runs (Opt U)) u_checked_div.
Proof. begin. argU a. argU b. fam c1 c2 (fun c => div_family c (uof c a) (uof c b) (wf_uof c a) (wf_uof c b)). all: go. Qed.

Lemma b37 : good (U --> U --> Runs (Opt U)) u_checked_div_euclid.
Proof. begin. argU a. argU b. fam c1 c2 (fun c => div_family c (uof c a) (uof c b) (wf_uof c a) (wf_uof c b)). all: go. Qed.

Lemma b38 : good (U --> U --> Runs (Opt U)) u_checked_rem.
Proof. begin. argU a. argU b. fam c1 c2 (fun c => div_family c (uof c a) (uof c b) (wf_uof c a) (wf_uof c b)). all: go. Qed.

Lemma b39 : good (U --> U --> Runs (Opt U)) u_checked_rem_euclid.
Proof. begin. argU a. argU b. fam c1 c2 (fun c => div_family c (uof c a) (uof c b) (wf_uof c a) (wf_uof c b)). all: go. Qed.

Lemma b40 : good (U --> U --> Runs (Pair U U)) u_div_rem.
Proof. begin. argU a. argU b. fam c1 c2 (fun c => div_rem_family c (uof c a) (uof c b) (wf_uof c a) (wf_uof c b)). all: go. Qed.

Lemma b41 : good (U --> U --> Runs (Pair U U)) u_div_rem_euclid.
Proof. begin. argU a. argU b. fam c1 c2 (fun c => div_rem_family c (uof c a) (uof c b) (wf_uof c a) (wf_uof c b)). all: go. Qed.

Lemma b42 : good (U --> U --> Runs (Pair U U)) u_wrapping_div_rem.
Proof. begin. argU a. argU b. fam c1 c2 (fun c => div_rem_family c (uof c a) (uof c b) (wf_uof c a) (wf_uof c b)). all: go. Qed.

Lemma b43 : good (U --> U --> Runs (Pair U U)) u_wrapping_div_rem_euclid.
Proof. begin. argU a. argU b. fam c1 c2 (fun c => div_rem_family c (uof c a) (uof c b) (wf_uof c a) (wf_uof c b)). all: go. Qed.

Lemma b44 : good (U --> U --> Runs (Pair U U)) u_saturating_div_rem.
Proof. begin. argU a. argU b. fam c1 c2 (fun c => div_rem_family c (uof c a) (uof c b) (wf_uof c a) (wf_uof c b)). all: go. Qed.

Lemma b45 : good (U --> U --> Runs (Pair U U)) u_saturating_div_rem_euclid.
Proof. begin. argU a. argU b. fam c1 c2 (fun c => div_rem_family c (uof c a) (uof c b) (wf_uof c a) (wf_uof c b)). all: go. Qed.

Lemma b46 : good (U --> U --> Runs (Pair (Pair U U) Flag)) u_overflowing_div_rem.
Proof. begin. argU a. argU b. fam c1 c2 (fun c => div_rem_family c (uof c a) (uof c b) (wf_uof c a) (wf_uof c b)). all: go. Qed.

Lemma b47 : good (U --> U --> Runs (Pair (Pair U U) Flag)) u_overflowing_div_rem_euclid.
Proof. begin. argU a. argU b. fam c1 c2 (fun c => div_rem_family c (uof c a) (uof c b) (wf_uof c a) (wf_uof c b)). all: go. Qed.

Lemma b48 : good (U --> U --> Runs (Opt (Pair U U))) u_checked_div_rem.
Proof. begin. argU a. argU b. fam c1 c2 (fun c => div_rem_family c (uof c a) (uof c b) (wf_uof c a) (wf_uof c b)). all: go. Qed.

Lemma b49 : good (U --> U --> Runs (Opt (Pair U U))) u_checked_div_rem_euclid.
Proof. begin. argU a. argU b. fam c1 c2 (fun c => div_rem_family c (uof c a) (uof c b) (wf_uof c a) (wf_uof c b)). all: go. Qed.

Lemma b50 : good (U --> Gives U) u_wrapping_neg.
Proof. begin. argU a. fam c1 c2 (fun c => neg_family c (uof c a) (wf_uof c a)). all: go. Qed.

Lemma b51 : good (U --> Gives (Pair U Flag)) u_overflowing_neg.
Proof. begin. argU a. fam c1 c2 (fun c => neg_family c (uof c a) (wf_uof c a)). all: go. Qed.

Lemma b52 : good (U --> Gives (Opt U)) u_checked_neg.
Proof. begin. argU a. fam c1 c2 (fun c => neg_family c (uof c a) (wf_uof c a)). all: go. Qed.

Lemma b53 : good (U --> I --> Gives U) u_wrapping_add_signed.
Proof. begin. argU a. argI b. fam c1 c2 (fun c => add_signed_family c (uof c a) (iof c b) (wf_uof c a) (wf_iof c b)). all: go. Qed.

Lemma b54 : good (U --> I --> Gives U) u_saturating_add_signed.
Proof. begin. argU a. argI b. fam c1 c2 (fun c => add_signed_family c (uof c a) (iof c b) (wf_uof c a) (wf_iof c b)). all: go. Qed.

Lemma b55 : good (U --> I --> Gives (Pair U Flag)) u_overflowing_add_signed.
Proof. begin. argU a. argI b. fam c1 c2 (fun c => add_signed_family c (uof c a) (iof c b) (wf_uof c a) (wf_iof c b)). all: go. Qed.

Lemma b56 : good (U --> I --> Gives (Opt U)) u_checked_add_signed.
Proof. begin. argU a. argI b. fam c1 c2 (fun c => add_signed_family c (uof c a) (iof c b) (wf_uof c a) (wf_iof c b)). all: go. Qed.

Lemma b57 : good (U --> U32 --> Runs U) u_wrapping_pow.
Proof. begin. argU a. argZ b. fam c1 c2 (fun c => u_pow_family c (uof c a) b (wf_uof c a) Hb). all: go. Qed.

Lemma b58 : good (U --> U32 --> Runs U) u_saturating_pow.
Proof. begin. argU a. argZ b. fam c1 c2 (fun c => u_pow_family c (uof c a) b (wf_uof c a) Hb). all: go. Qed.

Lemma b59 : good (U --> U32 --> Runs U) u_pow.
Proof. begin. argU a. argZ b. fam c1 c2 (fun c => u_pow_family c (uof c a) b (wf_uof c a) Hb). all: go. Qed.

Lemma b60 : good (U --> U32 --> Runs (Pair U Flag)) u_overflowing_pow.
Proof. begin. argU a. argZ b. fam c1 c2 (fun c => u_pow_family c (uof c a) b (wf_uof c a) Hb). all: go. Qed.

Lemma b61 : good (U --> U32 --> Runs (Opt U)) u_checked_pow.
Proof. begin. argU a. argZ b. fam c1 c2 (fun c => u_pow_family c (uof c a) b (wf_uof c a) Hb). all: go. Qed.

Lemma b62 : good (U --> Runs Flag) u_is_power_of_two.
Proof. begin. argU a. destruct (pow2_of c1 a Ha) as (k & b & -> & H & _), (pow2_of c2 a Ha) as (k' & b' & -> & H' & _).
  assert (b = b') as <- by (apply Bool.eq_iff_eq_true; rewrite H, H'; reflexivity). finish. Qed.

Lemma b63 : good (U --> Runs U) u_next_power_of_two.
Proof. begin. argU a.
  destruct (pow2_of c1 a Ha) as (k & b & _ & _ & H & E1 & E2), (pow2_of c2 a Ha) as (k' & b' & _ & _ & H' & E1' & E2').
  rewrite <- (least_exp_unique a k k' H H') in *. go. Qed.

Lemma b64 : good (U --> Runs (Opt U)) u_checked_next_power_of_two.
Proof. begin. argU a.
  destruct (pow2_of c1 a Ha) as (k & b & _ & _ & H & E1 & E2), (pow2_of c2 a Ha) as (k' & b' & _ & _ & H' & E1' & E2').
  rewrite <- (least_exp_unique a k k' H H') in *. go. Qed.

Lemma b65 : good (List U --> Runs U) u_sum.
Proof. begin. revert c1 c2 CM HQ. apply (good_fold_of U u_op_add (fun _ => U256_ZERO)); [exact b13|exact legal_u|]. intros c1 c2. rewrite (U256_ZERO_of c1) at 1. rewrite (U256_ZERO_of c2). apply same_u. Qed.

Lemma b66 : good (List U --> Runs U) u_product.
Proof. begin. revert c1 c2 CM HQ. apply (good_fold_of U u_op_mul U256_ONE); [exact b17|exact legal_u|]. intros c1 c2. rewrite !U256_ONE_of. apply same_u. Qed.

Lemma b67 : good (I --> I --> Gives I) i_wrapping_add.
Proof. begin. argI a. argI b. fam c1 c2 (fun c => iadd_family c (iof c a) (iof c b) (wf_iof c a) (wf_iof c b)). all: go. Qed.

Lemma b68 : good (I --> I --> Gives I) i_saturating_add.
Proof. begin. argI a. argI b. fam c1 c2 (fun c => iadd_family c (iof c a) (iof c b) (wf_iof c a) (wf_iof c b)). all: go. Qed.

Lemma b69 : good (I --> I --> Gives I) i_wrapping_sub.
Proof. begin. argI a. argI b. fam c1 c2 (fun c => isub_family c (iof c a) (iof c b) (wf_iof c a) (wf_iof c b)). all: go. Qed.

Lemma b70 : good (I --> I --> Gives I) i_saturating_sub.
Proof. begin. argI a. argI b. fam c1 c2 (fun c => isub_family c (iof c a) (iof c b) (wf_iof c a) (wf_iof c b)). all: go. Qed.

Lemma b71 : good (I --> I --> Gives I) i_max.
Proof. begin. argI a. argI b. apply gives. unfold i_max, i_min. rewrite !i_cmp_of' by assumption. destruct (a ?= b); finish. Qed.

Lemma b72 : good (I --> I --> Gives I) i_min.
Proof. begin. argI a. argI b. apply gives. unfold i_max, i_min. rewrite !i_cmp_of' by assumption. destruct (a ?= b); finish. Qed.

Lemma b73 : good (I --> I --> Gives U) i_abs_diff.
Proof. begin. argI a. argI b. fam c1 c2 (fun c => iabs_diff_ok c (iof c a) (iof c b) (wf_iof c a) (wf_iof c b)). all: go. Qed.

Lemma b74 : good (I --> I --> Gives (Pair I Flag)) i_overflowing_add.
Proof. begin. argI a. argI b. fam c1 c2 (fun c => iadd_family c (iof c a) (iof c b) (wf_iof c a) (wf_iof c b)). all: go. Qed.

Lemma b75 : good (I --> I --> Gives (Pair I Flag)) i_overflowing_sub.
Proof. begin. argI a. argI b. fam c1 c2 (fun c => isub_family c (iof c a) (iof c b) (wf_iof c a) (wf_iof c b)). all: go. Qed.

Lemma b76 : good (I --> I --> Gives (Opt I)) i_checked_add.
Proof. begin. argI a. argI b. fam c1 c2 (fun c => iadd_family c (iof c a) (iof c b) (wf_iof c a) (wf_iof c b)). all: go. Qed.

Lemma b77 : good (I --> I --> Gives (Opt I)) i_checked_sub.
Proof. begin. argI a. argI b. fam c1 c2 (fun c => isub_family c (iof c a) (iof c b) (wf_iof c a) (wf_iof c b)). all: go. Qed.

Lemma b78 : good (I --> I --> Runs I) i_wrapping_mul.
Proof. begin. argI a. argI b. fam c1 c2 (fun c => imul_family c (iof c a) (iof c b) (wf_iof c a) (wf_iof c b)). all: go. Qed.

Lemma b79 : good (I --> I --> Runs I) i_saturating_mul.
Proof. begin. argI a. argI b. fam c1 c2 (fun c => imul_family c (iof c a) (iof c b) (wf_iof c a) (wf_iof c b)). all: go. Qed.

Lemma b80 : good (I --> I --> Runs I) i_op_add.
Proof. begin. argI a. argI b. fam c1 c2 (fun c => i_operators c (iof c a) (iof c b) (wf_iof c a) (wf_iof c b)). all: go. Qed.

Lemma b81 : good (I --> I --> Runs I) i_op_add_assign.
Proof. begin. argI a. argI b. fam c1 c2 (fun c => i_operators c (iof c a) (iof c b) (wf_iof c a) (wf_iof c b)). all: go. Qed.

Lemma b82 : good (I --> I --> Runs I) i_op_sub.
Proof. begin. argI a. argI b. fam c1 c2 (fun c => i_operators c (iof c a) (iof c b) (wf_iof c a) (wf_iof c b)). all: go. Qed.

Lemma b83 : good (I --> I --> Runs I) i_op_sub_assign.
Proof. begin. argI a. argI b. fam c1 c2 (fun c => i_operators c (iof c a) (iof c b) (wf_iof c a) (wf_iof c b)). all: go. Qed.

Lemma b84 : good (I --> I --> Runs I) i_op_mul.
Proof. begin. argI a. argI b. fam c1 c2 (fun c => i_operators c (iof c a) (iof c b) (wf_iof c a) (wf_iof c b)). all: go. Qed.

Lemma b85 : good (I --> I --> Runs I) i_op_mul_assign.
Proof. begin. argI a. argI b. fam c1 c2 (fun c => i_operators c (iof c a) (iof c b) (wf_iof c a) (wf_iof c b)). all: go. Qed.

Lemma b86 : good (I --> I --> Runs I) i_op_div.
Proof. begin. argI a. argI b. fam c1 c2 (fun c => idiv_family c (iof c a) (iof c b) (wf_iof c a) (wf_iof c b)). all: go. Qed.

Lemma b87 : good (I --> I --> Runs I) i_op_div_assign.
Proof. begin. argI a. argI b. fam c1 c2 (fun c => idiv_family c (iof c a) (iof c b) (wf_iof c a) (wf_iof c b)). all: go. Qed.

Lemma b88 : good (I --> I --> Runs I) i_op_rem.
Proof. begin. argI a. argI b. fam c1 c2 (fun c => idiv_family c (iof c a) (iof c b) (wf_iof c a) (wf_iof c b)). all: go. Qed.

Lemma b89 : good (I --> I --> Runs I) i_op_rem_assign.
Proof. begin. argI a. argI b. fam c1 c2 (fun c => i_op_rem_assign_of c a b Ha Hb). all: go. Qed.

Lemma b90 : good (I --> I --> Runs I) i_div_euclid.
Proof. begin. argI a. argI b. destruct (ieuclid_all a b Ha Hb) as [F|(q & r & F)]; [unfold ieuclid_zero_ops in F|unfold ieuclid_ops in F]; fam c1 c2 F. all: go. Qed.

Lemma b91 : good (I --> I --> Runs I) i_rem_euclid.
Proof. begin. argI a. argI b. destruct (ieuclid_all a b Ha Hb) as [F|(q & r & F)]; [unfold ieuclid_zero_ops in F|unfold ieuclid_ops in F]; fam c1 c2 F. all: go. Qed.

Lemma b92 : good (I --> I --> Runs I) i_wrapping_div.
Proof. begin. argI a. argI b. fam c1 c2 (fun c => idiv_family c (iof c a) (iof c b) (wf_iof c a) (wf_iof c b)). all: go. Qed.

Lemma b93 : good (I --> I --> Runs I) i_wrapping_div_euclid.
Proof. begin. argI a. argI b. destruct (ieuclid_all a b Ha Hb) as [F|(q & r & F)]; [unfold ieuclid_zero_ops in F|unfold ieuclid_ops in F]; fam c1 c2 F. all: go. Qed.

Lemma b94 : good (I --> I --> Runs I) i_wrapping_rem.
Proof. begin. argI a. argI b. fam c1 c2 (fun c => idiv_family c (iof c a) (iof c b) (wf_iof c a) (wf_iof c b)). all: go. Qed.

Lemma b95 : good (I --> I --> Runs I) i_wrapping_rem_euclid.
Proof. begin. argI a. argI b. destruct (ieuclid_all a b Ha Hb) as [F|(q & r & F)]; [unfold ieuclid_zero_ops in F|unfold ieuclid_ops in F]; fam c1 c2 F. all: go. Qed.

Lemma b96 : good (I --> I --> Runs I) i_saturating_div.
Proof. begin. argI a. argI b. fam c1 c2 (fun c => idiv_family c (iof c a) (iof c b) (wf_iof c a) (wf_iof c b)). all: go. Qed.

Lemma b97 : good (I --> I --> Runs (Pair I Flag)) i_overflowing_mul.
Proof. begin. argI a. argI b. fam c1 c2 (fun c => imul_family c (iof c a) (iof c b) (wf_iof c a) (wf_iof c b)). all: go. Qed.

Lemma b98 : good (I --> I --> Runs (Pair I Flag)) i_overflowing_div.
Proof. begin. argI a. argI b. fam c1 c2 (fun c => idiv_family c (iof c a) (iof c b) (wf_iof c a) (wf_iof c b)). all: go. Qed.

Lemma b99 : good (I --> I --> Runs (Pair I Flag)) i_overflowing_div_euclid.
Proof. begin. argI a. argI b. destruct (ieuclid_all a b Ha Hb) as [F|(q & r & F)]; [unfold ieuclid_zero_ops in F|unfold ieuclid_ops in F]; fam c1 c2 F. all: go. Qed.

Lemma b100 : good (I --> I --> Runs (Pair I Flag)) i_overflowing_rem.
Proof. begin. argI a. argI b. fam c1 c2 (fun c => idiv_family c (iof c a) (iof c b) (wf_iof c a) (wf_iof c b)). all: go. Qed.

Lemma b101 : good (I --> I --> Runs (Pair I Flag)) i_overflowing_rem_euclid.
Proof. begin. argI a. argI b. destruct (ieuclid_all a b Ha Hb) as [F|(q & r & F)]; [unfold ieuclid_zero_ops in F|unfold ieuclid_ops in F]; fam c1 c2 F. all: go. Qed.

Lemma b102 : good (I --> I --> Runs (Opt I)) i_checked_mul.
Proof. begin. argI a. argI b. fam c1 c2 (fun c => imul_family c (iof c a) (iof c b) (wf_iof c a) (wf_iof c b)). all: go. Qed.

Lemma b103 : good (I --> I --> Runs (Opt I)) i_checked_div.
Proof. begin. argI a. argI b. fam c1 c2 (fun c => idiv_family c (iof c a) (iof c b) (wf_iof c a) (wf_iof c b)). all: go. Qed.

Lemma b104 : good (I --> I --> Runs (Opt I)) i_checked_div_euclid.
Proof. begin. argI a. argI b. destruct (ieuclid_all a b Ha Hb) as [F|(q & r & F)]; [unfold ieuclid_zero_ops in F|unfold ieuclid_ops in F]; fam c1 c2 F. all: go. Qed.

Lemma b105 : good (I --> I --> Runs (Opt I)) i_checked_rem.
Proof. begin. argI a. argI b. fam c1 c2 (fun c => idiv_family c (iof c a) (iof c b) (wf_iof c a) (wf_iof c b)). all: go. Qed.

Lemma b106 : good (I --> I --> Runs (Opt I)) i_checked_rem_euclid.
Proof. begin. argI a. argI b. destruct (ieuclid_all a b Ha Hb) as [F|(q & r & F)]; [unfold ieuclid_zero_ops in F|unfold ieuclid_ops in F]; fam c1 c2 F. all: go. Qed.

Lemma b107 : good (I --> I --> Runs (Pair I I)) i_div_rem.
Proof. begin. argI a. argI b. fam c1 c2 (fun c => idiv_rem_family c (iof c a) (iof c b) (wf_iof c a) (wf_iof c b)). all: go. Qed.

Lemma b108 : good (I --> I --> Runs (Pair I I)) i_div_rem_euclid.
Proof. begin. argI a. argI b. destruct (idre_all a b Ha Hb) as [F|(q & r & bad & F)]; [unfold idre_zero_ops in F|unfold idre_ops in F]; fam c1 c2 F. all: go. Qed.

Lemma b109 : good (I --> I --> Runs (Pair I I)) i_wrapping_div_rem.
Proof. begin. argI a. argI b. fam c1 c2 (fun c => idiv_rem_family c (iof c a) (iof c b) (wf_iof c a) (wf_iof c b)). all: go. Qed.

Lemma b110 : good (I --> I --> Runs (Pair I I)) i_wrapping_div_rem_euclid.
Proof. begin. argI a. argI b. destruct (idre_all a b Ha Hb) as [F|(q & r & bad & F)]; [unfold idre_zero_ops in F|unfold idre_ops in F]; fam c1 c2 F. all: go. Qed.

Lemma b111 : good (I --> I --> Runs (Pair I I)) i_saturating_div_rem.
Proof. begin. argI a. argI b. fam c1 c2 (fun c => idiv_rem_family c (iof c a) (iof c b) (wf_iof c a) (wf_iof c b)). all: go. Qed.

Lemma b112 : good (I --> I --> Runs (Pair I I)) i_saturating_div_rem_euclid.
Proof. begin. argI a. argI b. destruct (idre_all a b Ha Hb) as [F|(q & r & bad & F)]; [unfold idre_zero_ops in F|unfold idre_ops in F]; fam c1 c2 F. all: go. Qed.

Lemma b113 : good (I --> I --> Runs (Pair (Pair I I) Flag)) i_overflowing_div_rem.
Proof. begin. argI a. argI b. fam c1 c2 (fun c => idiv_rem_family c (iof c a) (iof c b) (wf_iof c a) (wf_iof c b)). all: go. Qed.

Lemma b114 : good (I --> I --> Runs (Pair (Pair I I) Flag)) i_overflowing_div_rem_euclid.
Proof. begin. argI a. argI b. destruct (idre_all a b Ha Hb) as [F|(q & r & bad & F)]; [unfold idre_zero_ops in F|unfold idre_ops in F]; fam c1 c2 F. all: go. Qed.

Lemma b115 : good (I --> I --> Runs (Opt (Pair I I))) i_checked_div_rem.
Proof. begin. argI a. argI b. fam c1 c2 (fun c => idiv_rem_family c (iof c a) (iof c b) (wf_iof c a) (wf_iof c b)). all: go. Qed.

Lemma b116 : good (I --> I --> Runs (Opt (Pair I I))) i_checked_div_rem_euclid.
Proof. begin. argI a. argI b. destruct (idre_all a b Ha Hb) as [F|(q & r & bad & F)]; [unfold idre_zero_ops in F|unfold idre_ops in F]; fam c1 c2 F. all: go. Qed.

Lemma b117 : good (I --> Gives I) i_wrapping_neg.
Proof. begin. argI a. fam c1 c2 (fun c => ineg_family c (iof c a) (wf_iof c a)). all: go. Qed.

Lemma b118 : good (I --> Gives I) i_saturating_neg.
Proof. begin. argI a. fam c1 c2 (fun c => ineg_family c (iof c a) (wf_iof c a)). all: go. Qed.

Lemma b119 : good (I --> Gives I) i_wrapping_abs.
Proof. begin. argI a. fam c1 c2 (fun c => abs_family c (iof c a) (wf_iof c a)). all: go. Qed.
