(** * Operations compared in two builds *)

From Coq Require Import ZArith List String Bool Lia ZifyBool.
Import ListNotations.
From Verif Require Import M_Prim M_Words M_Intr M_Div M_Mul M_Ops M_UintApi M_IntApi M_Convert M_Float M_Parse M_Fmt M_Serde
  Spec Spec_Shift Spec_Bits Spec_Serde Spec_Convert Spec_Builds Spec_Api
  P_Words P_AddSub P_Bits P_Ops P_IntDiv P_Uint P_Int P_Forms P_BitsApi P_Count P_Bytes P_Pow P_Pow2 P_Convert P_Float P_Round P_Builds P_BuildsBase P_Builds1.
Open Scope Z_scope.

Lemma b120 : good (I --> Gives I) i_saturating_abs.
Proof. begin. argI a. fam c1 c2 (fun c => abs_family c (iof c a) (wf_iof c a)). all: go. Qed.

Lemma b121 : good (I --> Gives I) i_signum.
Proof. begin. argI a. fam c1 c2 (fun c => sign_family c (iof c a) (wf_iof c a)). all: go. Qed.

Lemma b122 : good (I --> Gives U) i_unsigned_abs.
Proof. begin. argI a. fam c1 c2 (fun c => abs_family c (iof c a) (wf_iof c a)). all: go. Qed.

Lemma b123 : good (I --> Gives (Pair I Flag)) i_overflowing_abs.
Proof. begin. argI a. fam c1 c2 (fun c => abs_family c (iof c a) (wf_iof c a)). all: go. Qed.

Lemma b124 : good (I --> Gives Int) i_signum128.
Proof. begin. argI a. fam c1 c2 (fun c => sign_family c (iof c a) (wf_iof c a)). all: go. Qed.

Lemma b125 : good (I --> Gives Flag) i_is_positive.
Proof. begin. argI a. fam c1 c2 (fun c => sign_family c (iof c a) (wf_iof c a)). all: go. Qed.

Lemma b126 : good (I --> Gives Flag) i_is_negative.
Proof. begin. argI a. fam c1 c2 (fun c => sign_family c (iof c a) (wf_iof c a)). all: go. Qed.

Lemma b127 : good (I --> Runs (Pair I Flag)) i_overflowing_neg.
Proof. begin. argI a. fam c1 c2 (fun c => ineg_family c (iof c a) (wf_iof c a)). all: go. Qed.

Lemma b128 : good (I --> Runs (Opt I)) i_checked_neg.
Proof. begin. argI a. fam c1 c2 (fun c => ineg_family c (iof c a) (wf_iof c a)). all: go. Qed.

Lemma b129 : good (I --> Runs (Opt I)) i_checked_abs.
Proof. begin. argI a. fam c1 c2 (fun c => abs_family c (iof c a) (wf_iof c a)). all: go. Qed.

Lemma b130 : good (I --> Runs I) i_op_neg.
Proof. begin. argI a. fam c1 c2 (fun c => ineg_family c (iof c a) (wf_iof c a)). all: go. Qed.

Lemma b131 : good (I --> Runs I) i_abs.
Proof. begin. argI a. fam c1 c2 (fun c => abs_family c (iof c a) (wf_iof c a)). all: go. Qed.

Lemma b132 : good (I --> U --> Gives I) i_wrapping_add_unsigned.
Proof. begin. argI a. argU b. fam c1 c2 (fun c => add_unsigned_family c (iof c a) (uof c b) (wf_iof c a) (wf_uof c b)). all: go. Qed.

Lemma b133 : good (I --> U --> Gives I) i_saturating_add_unsigned.
Proof. begin. argI a. argU b. fam c1 c2 (fun c => add_unsigned_family c (iof c a) (uof c b) (wf_iof c a) (wf_uof c b)). all: go. Qed.

Lemma b134 : good (I --> U --> Gives I) i_wrapping_sub_unsigned.
Proof. begin. argI a. argU b. fam c1 c2 (fun c => sub_unsigned_family c (iof c a) (uof c b) (wf_iof c a) (wf_uof c b)). all: go. Qed.

Lemma b135 : good (I --> U --> Gives I) i_saturating_sub_unsigned.
Proof. begin. argI a. argU b. fam c1 c2 (fun c => sub_unsigned_family c (iof c a) (uof c b) (wf_iof c a) (wf_uof c b)). all: go. Qed.

Lemma b136 : good (I --> U --> Gives (Pair I Flag)) i_overflowing_add_unsigned.
Proof. begin. argI a. argU b. fam c1 c2 (fun c => add_unsigned_family c (iof c a) (uof c b) (wf_iof c a) (wf_uof c b)). all: go. Qed.

Lemma b137 : good (I --> U --> Gives (Pair I Flag)) i_overflowing_sub_unsigned.
Proof. begin. argI a. argU b. fam c1 c2 (fun c => sub_unsigned_family c (iof c a) (uof c b) (wf_iof c a) (wf_uof c b)). all: go. Qed.

Lemma b138 : good (I --> U --> Gives (Opt I)) i_checked_add_unsigned.
Proof. begin. argI a. argU b. fam c1 c2 (fun c => add_unsigned_family c (iof c a) (uof c b) (wf_iof c a) (wf_uof c b)). all: go. Qed.

Lemma b139 : good (I --> U --> Gives (Opt I)) i_checked_sub_unsigned.
Proof. begin. argI a. argU b. fam c1 c2 (fun c => sub_unsigned_family c (iof c a) (uof c b) (wf_iof c a) (wf_uof c b)). all: go. Qed.

Lemma b140 : good (I --> U32 --> Runs I) i_wrapping_pow.
Proof. begin. argI a. argZ b. fam c1 c2 (fun c => i_pow_family c (iof c a) b (wf_iof c a) Hb). all: go. Qed.

Lemma b141 : good (I --> U32 --> Runs I) i_saturating_pow.
Proof. begin. argI a. argZ b. fam c1 c2 (fun c => i_pow_family c (iof c a) b (wf_iof c a) Hb). all: go. Qed.

Lemma b142 : good (I --> U32 --> Runs I) i_pow.
Proof. begin. argI a. argZ b. fam c1 c2 (fun c => i_pow_family c (iof c a) b (wf_iof c a) Hb). all: go. Qed.

Lemma b143 : good (I --> U32 --> Runs (Pair I Flag)) i_overflowing_pow.
Proof. begin. argI a. argZ b. fam c1 c2 (fun c => i_pow_family c (iof c a) b (wf_iof c a) Hb). all: go. Qed.

Lemma b144 : good (I --> U32 --> Runs (Opt I)) i_checked_pow.
Proof. begin. argI a. argZ b. fam c1 c2 (fun c => i_pow_family c (iof c a) b (wf_iof c a) Hb). all: go. Qed.

Lemma b145 : good (List I --> Runs I) i_sum.
Proof. begin. revert c1 c2 CM HQ. apply (good_fold_of I i_op_add (fun _ => I256_ZERO)); [exact b80|exact legal_i|]. intros c1 c2. rewrite (I256_ZERO_of c1) at 1. rewrite (I256_ZERO_of c2). apply same_i. Qed.

Lemma b146 : good (List I --> Runs I) i_product.
Proof. begin. revert c1 c2 CM HQ. apply (good_fold_of I i_op_mul I256_ONE); [exact b84|exact legal_i|]. intros c1 c2. rewrite !I256_ONE_of. apply same_i. Qed.

Lemma b147 : good (U --> U128 --> Runs U) (u_rhs_prim u_op_add).
Proof. begin. argU a. argZ b. unfold range in Hb. assert (0 <= b < 2 ^ 256) as Hb' by lia. rewrite !(proj1 (u_prim_forms u_op_add _ _ b Hb)). clear Hb; rename Hb' into Hb. fam c1 c2 (fun c => u_operators c (uof c a) (uof c b) (wf_uof c a) (wf_uof c b)). all: go. Qed.

Lemma b148 : good (U --> U128 --> Runs U) (u_rhs_prim u_op_add_assign).
Proof. begin. argU a. argZ b. unfold range in Hb. assert (0 <= b < 2 ^ 256) as Hb' by lia. rewrite !(proj1 (u_prim_forms u_op_add_assign _ _ b Hb)). clear Hb; rename Hb' into Hb. fam c1 c2 (fun c => u_operators c (uof c a) (uof c b) (wf_uof c a) (wf_uof c b)). all: go. Qed.

Lemma b149 : good (U128 --> U --> Runs U) (u_lhs_prim u_op_add).
Proof. begin. argZ a. argU b. unfold range in Ha. assert (0 <= a < 2 ^ 256) as Ha' by lia. rewrite !(proj2 (u_prim_forms u_op_add _ _ a Ha)). clear Ha; rename Ha' into Ha. fam c1 c2 (fun c => u_operators c (uof c a) (uof c b) (wf_uof c a) (wf_uof c b)). all: go. Qed.

Lemma b150 : good (I --> I128 --> Runs I) (i_rhs_prim i_op_add).
Proof. begin. argI a. argZ b. unfold range in Hb. assert (- 2 ^ 255 <= b < 2 ^ 255) as Hb' by lia. rewrite !(proj1 (i_prim_forms i_op_add _ _ b Hb)). clear Hb; rename Hb' into Hb. fam c1 c2 (fun c => i_operators c (iof c a) (iof c b) (wf_iof c a) (wf_iof c b)). all: go. Qed.

Lemma b151 : good (I --> I128 --> Runs I) (i_rhs_prim i_op_add_assign).
Proof. begin. argI a. argZ b. unfold range in Hb. assert (- 2 ^ 255 <= b < 2 ^ 255) as Hb' by lia. rewrite !(proj1 (i_prim_forms i_op_add_assign _ _ b Hb)). clear Hb; rename Hb' into Hb. fam c1 c2 (fun c => i_operators c (iof c a) (iof c b) (wf_iof c a) (wf_iof c b)). all: go. Qed.

Lemma b152 : good (I128 --> I --> Runs I) (i_lhs_prim i_op_add).
Proof. begin. argZ a. argI b. unfold range in Ha. assert (- 2 ^ 255 <= a < 2 ^ 255) as Ha' by lia. rewrite !(proj2 (i_prim_forms i_op_add _ _ a Ha)). clear Ha; rename Ha' into Ha. fam c1 c2 (fun c => i_operators c (iof c a) (iof c b) (wf_iof c a) (wf_iof c b)). all: go. Qed.

Lemma b153 : good (U --> U128 --> Runs U) (u_rhs_prim u_op_sub).
Proof. begin. argU a. argZ b. unfold range in Hb. assert (0 <= b < 2 ^ 256) as Hb' by lia. rewrite !(proj1 (u_prim_forms u_op_sub _ _ b Hb)). clear Hb; rename Hb' into Hb. fam c1 c2 (fun c => u_operators c (uof c a) (uof c b) (wf_uof c a) (wf_uof c b)). all: go. Qed.

Lemma b154 : good (U --> U128 --> Runs U) (u_rhs_prim u_op_sub_assign).
Proof. begin. argU a. argZ b. unfold range in Hb. assert (0 <= b < 2 ^ 256) as Hb' by lia. rewrite !(proj1 (u_prim_forms u_op_sub_assign _ _ b Hb)). clear Hb; rename Hb' into Hb. fam c1 c2 (fun c => u_operators c (uof c a) (uof c b) (wf_uof c a) (wf_uof c b)). all: go. Qed.

Lemma b155 : good (U128 --> U --> Runs U) (u_lhs_prim u_op_sub).
Proof. begin. argZ a. argU b. unfold range in Ha. assert (0 <= a < 2 ^ 256) as Ha' by lia. rewrite !(proj2 (u_prim_forms u_op_sub _ _ a Ha)). clear Ha; rename Ha' into Ha. fam c1 c2 (fun c => u_operators c (uof c a) (uof c b) (wf_uof c a) (wf_uof c b)). all: go. Qed.

Lemma b156 : good (I --> I128 --> Runs I) (i_rhs_prim i_op_sub).
Proof. begin. argI a. argZ b. unfold range in Hb. assert (- 2 ^ 255 <= b < 2 ^ 255) as Hb' by lia. rewrite !(proj1 (i_prim_forms i_op_sub _ _ b Hb)). clear Hb; rename Hb' into Hb. fam c1 c2 (fun c => i_operators c (iof c a) (iof c b) (wf_iof c a) (wf_iof c b)). all: go. Qed.

Lemma b157 : good (I --> I128 --> Runs I) (i_rhs_prim i_op_sub_assign).
Proof. begin. argI a. argZ b. unfold range in Hb. assert (- 2 ^ 255 <= b < 2 ^ 255) as Hb' by lia. rewrite !(proj1 (i_prim_forms i_op_sub_assign _ _ b Hb)). clear Hb; rename Hb' into Hb. fam c1 c2 (fun c => i_operators c (iof c a) (iof c b) (wf_iof c a) (wf_iof c b)). all: go. Qed.

Lemma b158 : good (I128 --> I --> Runs I) (i_lhs_prim i_op_sub).
Proof. begin. argZ a. argI b. unfold range in Ha. assert (- 2 ^ 255 <= a < 2 ^ 255) as Ha' by lia. rewrite !(proj2 (i_prim_forms i_op_sub _ _ a Ha)). clear Ha; rename Ha' into Ha. fam c1 c2 (fun c => i_operators c (iof c a) (iof c b) (wf_iof c a) (wf_iof c b)). all: go. Qed.

Lemma b159 : good (U --> U128 --> Runs U) (u_rhs_prim u_op_mul).
Proof. begin. argU a. argZ b. unfold range in Hb. assert (0 <= b < 2 ^ 256) as Hb' by lia. rewrite !(proj1 (u_prim_forms u_op_mul _ _ b Hb)). clear Hb; rename Hb' into Hb. fam c1 c2 (fun c => u_operators c (uof c a) (uof c b) (wf_uof c a) (wf_uof c b)). all: go. Qed.

Lemma b160 : good (U --> U128 --> Runs U) (u_rhs_prim u_op_mul_assign).
Proof. begin. argU a. argZ b. unfold range in Hb. assert (0 <= b < 2 ^ 256) as Hb' by lia. rewrite !(proj1 (u_prim_forms u_op_mul_assign _ _ b Hb)). clear Hb; rename Hb' into Hb. fam c1 c2 (fun c => u_operators c (uof c a) (uof c b) (wf_uof c a) (wf_uof c b)). all: go. Qed.

Lemma b161 : good (U128 --> U --> Runs U) (u_lhs_prim u_op_mul).
Proof. begin. argZ a. argU b. unfold range in Ha. assert (0 <= a < 2 ^ 256) as Ha' by lia. rewrite !(proj2 (u_prim_forms u_op_mul _ _ a Ha)). clear Ha; rename Ha' into Ha. fam c1 c2 (fun c => u_operators c (uof c a) (uof c b) (wf_uof c a) (wf_uof c b)). all: go. Qed.

Lemma b162 : good (I --> I128 --> Runs I) (i_rhs_prim i_op_mul).
Proof. begin. argI a. argZ b. unfold range in Hb. assert (- 2 ^ 255 <= b < 2 ^ 255) as Hb' by lia. rewrite !(proj1 (i_prim_forms i_op_mul _ _ b Hb)). clear Hb; rename Hb' into Hb. fam c1 c2 (fun c => i_operators c (iof c a) (iof c b) (wf_iof c a) (wf_iof c b)). all: go. Qed.

Lemma b163 : good (I --> I128 --> Runs I) (i_rhs_prim i_op_mul_assign).
Proof. begin. argI a. argZ b. unfold range in Hb. assert (- 2 ^ 255 <= b < 2 ^ 255) as Hb' by lia. rewrite !(proj1 (i_prim_forms i_op_mul_assign _ _ b Hb)). clear Hb; rename Hb' into Hb. fam c1 c2 (fun c => i_operators c (iof c a) (iof c b) (wf_iof c a) (wf_iof c b)). all: go. Qed.

Lemma b164 : good (I128 --> I --> Runs I) (i_lhs_prim i_op_mul).
Proof. begin. argZ a. argI b. unfold range in Ha. assert (- 2 ^ 255 <= a < 2 ^ 255) as Ha' by lia. rewrite !(proj2 (i_prim_forms i_op_mul _ _ a Ha)). clear Ha; rename Ha' into Ha. fam c1 c2 (fun c => i_operators c (iof c a) (iof c b) (wf_iof c a) (wf_iof c b)). all: go. Qed.

Lemma b165 : good (U --> U128 --> Runs U) (u_rhs_prim u_op_div).
Proof. begin. argU a. argZ b. unfold range in Hb. assert (0 <= b < 2 ^ 256) as Hb' by lia. rewrite !(proj1 (u_prim_forms u_op_div _ _ b Hb)). clear Hb; rename Hb' into Hb. fam c1 c2 (fun c => div_family c (uof c a) (uof c b) (wf_uof c a) (wf_uof c b)). all: go. Qed.

Lemma b166 : good (U --> U128 --> Runs U) (u_rhs_prim u_op_div_assign).
Proof. begin. argU a. argZ b. unfold range in Hb. assert (0 <= b < 2 ^ 256) as Hb' by lia. rewrite !(proj1 (u_prim_forms u_op_div_assign _ _ b Hb)). clear Hb; rename Hb' into Hb. fam c1 c2 (fun c => div_family c (uof c a) (uof c b) (wf_uof c a) (wf_uof c b)). all: go. Qed.

Lemma b167 : good (U128 --> U --> Runs U) (u_lhs_prim u_op_div).
Proof. begin. argZ a. argU b. unfold range in Ha. assert (0 <= a < 2 ^ 256) as Ha' by lia. rewrite !(proj2 (u_prim_forms u_op_div _ _ a Ha)). clear Ha; rename Ha' into Ha. fam c1 c2 (fun c => div_family c (uof c a) (uof c b) (wf_uof c a) (wf_uof c b)). all: go. Qed.

Lemma b168 : good (I --> I128 --> Runs I) (i_rhs_prim i_op_div).
Proof. begin. argI a. argZ b. unfold range in Hb. assert (- 2 ^ 255 <= b < 2 ^ 255) as Hb' by lia. rewrite !(proj1 (i_prim_forms i_op_div _ _ b Hb)). clear Hb; rename Hb' into Hb. fam c1 c2 (fun c => idiv_family c (iof c a) (iof c b) (wf_iof c a) (wf_iof c b)). all: go. Qed.

Lemma b169 : good (I --> I128 --> Runs I) (i_rhs_prim i_op_div_assign).
Proof. begin. argI a. argZ b. unfold range in Hb. assert (- 2 ^ 255 <= b < 2 ^ 255) as Hb' by lia. rewrite !(proj1 (i_prim_forms i_op_div_assign _ _ b Hb)). clear Hb; rename Hb' into Hb. fam c1 c2 (fun c => idiv_family c (iof c a) (iof c b) (wf_iof c a) (wf_iof c b)). all: go. Qed.

Lemma b170 : good (I128 --> I --> Runs I) (i_lhs_prim i_op_div).
Proof. begin. argZ a. argI b. unfold range in Ha. assert (- 2 ^ 255 <= a < 2 ^ 255) as Ha' by lia. rewrite !(proj2 (i_prim_forms i_op_div _ _ a Ha)). clear Ha; rename Ha' into Ha. fam c1 c2 (fun c => idiv_family c (iof c a) (iof c b) (wf_iof c a) (wf_iof c b)). all: go. Qed.

Lemma b171 : good (U --> U128 --> Runs U) (u_rhs_prim u_op_rem).
Proof. begin. argU a. argZ b. unfold range in Hb. assert (0 <= b < 2 ^ 256) as Hb' by lia. rewrite !(proj1 (u_prim_forms u_op_rem _ _ b Hb)). clear Hb; rename Hb' into Hb. fam c1 c2 (fun c => div_family c (uof c a) (uof c b) (wf_uof c a) (wf_uof c b)). all: go. Qed.

Lemma b172 : good (U --> U128 --> Runs U) (u_rhs_prim u_op_rem_assign).
Proof. begin. argU a. argZ b. unfold range in Hb. assert (0 <= b < 2 ^ 256) as Hb' by lia. rewrite !(proj1 (u_prim_forms u_op_rem_assign _ _ b Hb)). clear Hb; rename Hb' into Hb. fam c1 c2 (fun c => u_op_rem_assign_of c a b Ha Hb). all: go. Qed.

Lemma b173 : good (U128 --> U --> Runs U) (u_lhs_prim u_op_rem).
Proof. begin. argZ a. argU b. unfold range in Ha. assert (0 <= a < 2 ^ 256) as Ha' by lia. rewrite !(proj2 (u_prim_forms u_op_rem _ _ a Ha)). clear Ha; rename Ha' into Ha. fam c1 c2 (fun c => div_family c (uof c a) (uof c b) (wf_uof c a) (wf_uof c b)). all: go. Qed.

Lemma b174 : good (I --> I128 --> Runs I) (i_rhs_prim i_op_rem).
Proof. begin. argI a. argZ b. unfold range in Hb. assert (- 2 ^ 255 <= b < 2 ^ 255) as Hb' by lia. rewrite !(proj1 (i_prim_forms i_op_rem _ _ b Hb)). clear Hb; rename Hb' into Hb. fam c1 c2 (fun c => idiv_family c (iof c a) (iof c b) (wf_iof c a) (wf_iof c b)). all: go. Qed.

Lemma b175 : good (I --> I128 --> Runs I) (i_rhs_prim i_op_rem_assign).
Proof. begin. argI a. argZ b. unfold range in Hb. assert (- 2 ^ 255 <= b < 2 ^ 255) as Hb' by lia. rewrite !(proj1 (i_prim_forms i_op_rem_assign _ _ b Hb)). clear Hb; rename Hb' into Hb. fam c1 c2 (fun c => i_op_rem_assign_of c a b Ha Hb). all: go. Qed.

Lemma b176 : good (I128 --> I --> Runs I) (i_lhs_prim i_op_rem).
Proof. begin. argZ a. argI b. unfold range in Ha. assert (- 2 ^ 255 <= a < 2 ^ 255) as Ha' by lia. rewrite !(proj2 (i_prim_forms i_op_rem _ _ a Ha)). clear Ha; rename Ha' into Ha. fam c1 c2 (fun c => idiv_family c (iof c a) (iof c b) (wf_iof c a) (wf_iof c b)). all: go. Qed.

Lemma b177 : good (U --> U --> Gives Flag) u_eq.
Proof. begin. argU a. argU b. fam c1 c2 (fun c => u_cmp_family c (uof c a) (uof c b) (wf_uof c a) (wf_uof c b)). all: go. Qed.

Lemma b178 : good (U --> U --> Gives Flag) u_lt.
Proof. begin. argU a. argU b. fam c1 c2 (fun c => u_cmp_family c (uof c a) (uof c b) (wf_uof c a) (wf_uof c b)). all: go. Qed.

Lemma b179 : good (U --> U --> Gives Flag) u_le.
Proof. begin. argU a. argU b. fam c1 c2 (fun c => u_cmp_family c (uof c a) (uof c b) (wf_uof c a) (wf_uof c b)). all: go. Qed.

Lemma b180 : good (U --> U --> Gives Flag) u_gt.
Proof. begin. argU a. argU b. fam c1 c2 (fun c => u_cmp_family c (uof c a) (uof c b) (wf_uof c a) (wf_uof c b)). all: go. Qed.

Lemma b181 : good (U --> U --> Gives Flag) u_ge.
Proof. begin. argU a. argU b. fam c1 c2 (fun c => u_cmp_family c (uof c a) (uof c b) (wf_uof c a) (wf_uof c b)). all: go. Qed.

Lemma b182 : good (U --> U --> Gives Ordering) u_cmp.
Proof. begin. argU a. argU b. fam c1 c2 (fun c => u_cmp_family c (uof c a) (uof c b) (wf_uof c a) (wf_uof c b)). all: go. Qed.

Lemma b183 : good (I --> I --> Gives Flag) i_eq.
Proof. begin. argI a. argI b. fam c1 c2 (fun c => i_cmp_family c (iof c a) (iof c b) (wf_iof c a) (wf_iof c b)). all: go. Qed.

Lemma b184 : good (I --> I --> Gives Flag) i_lt.
Proof. begin. argI a. argI b. fam c1 c2 (fun c => i_cmp_family c (iof c a) (iof c b) (wf_iof c a) (wf_iof c b)). all: go. Qed.

Lemma b185 : good (I --> I --> Gives Flag) i_le.
Proof. begin. argI a. argI b. fam c1 c2 (fun c => i_cmp_family c (iof c a) (iof c b) (wf_iof c a) (wf_iof c b)). all: go. Qed.

Lemma b186 : good (I --> I --> Gives Flag) i_gt.
Proof. begin. argI a. argI b. fam c1 c2 (fun c => i_cmp_family c (iof c a) (iof c b) (wf_iof c a) (wf_iof c b)). all: go. Qed.

Lemma b187 : good (I --> I --> Gives Flag) i_ge.
Proof. begin. argI a. argI b. fam c1 c2 (fun c => i_cmp_family c (iof c a) (iof c b) (wf_iof c a) (wf_iof c b)). all: go. Qed.

Lemma b188 : good (I --> I --> Gives Ordering) i_cmp.
Proof. begin. argI a. argI b. fam c1 c2 (fun c => i_cmp_family c (iof c a) (iof c b) (wf_iof c a) (wf_iof c b)). all: go. Qed.

Lemma b189 : good (U --> U128 --> Gives Flag) u_eq_prim.
Proof. begin. argU a. argZ b. fam c1 c2 (fun c => u_cmp_prim_family c (uof c a) b (wf_uof c a) Hb). all: go. Qed.

Lemma b190 : good (U128 --> U --> Gives Flag) prim_eq_u.
Proof. begin. argZ a. argU b. fam c1 c2 (fun c => u_cmp_prim_family c (uof c b) a (wf_uof c b) Ha). all: go. Qed.

Lemma b191 : good (U --> U128 --> Gives Ordering) u_cmp_prim.
Proof. begin. argU a. argZ b. fam c1 c2 (fun c => u_cmp_prim_family c (uof c a) b (wf_uof c a) Hb). all: go. Qed.

Lemma b192 : good (U128 --> U --> Gives Ordering) prim_cmp_u.
Proof. begin. argZ a. argU b. fam c1 c2 (fun c => u_cmp_prim_family c (uof c b) a (wf_uof c b) Ha). all: go. Qed.

Lemma b193 : good (I --> I128 --> Gives Flag) i_eq_prim.
Proof. begin. argI a. argZ b. fam c1 c2 (fun c => i_cmp_prim_family c (iof c a) b (wf_iof c a) Hb). all: go. Qed.

Lemma b194 : good (I128 --> I --> Gives Flag) prim_eq_i.
Proof. begin. argZ a. argI b. fam c1 c2 (fun c => i_cmp_prim_family c (iof c b) a (wf_iof c b) Ha). all: go. Qed.

Lemma b195 : good (I --> I128 --> Gives Ordering) i_cmp_prim.
Proof. begin. argI a. argZ b. fam c1 c2 (fun c => i_cmp_prim_family c (iof c a) b (wf_iof c a) Hb). all: go. Qed.

Lemma b196 : good (I128 --> I --> Gives Ordering) prim_cmp_i.
Proof. begin. argZ a. argI b. fam c1 c2 (fun c => i_cmp_prim_family c (iof c b) a (wf_iof c b) Ha). all: go. Qed.

Lemma b197 : good (U128 --> U128 --> Gives U) u_from_words.
Proof. begin. argZ a. argZ b. rewrite !u_from_words_of by assumption. finish. Qed.

Lemma b198 : good (U --> Gives (Pair Int Int)) u_into_words.
Proof. begin. argU a. rewrite !u_into_words_of. finish. Qed.

Lemma b199 : good (U --> Gives Int) u_low.
Proof. begin. argU a. rewrite !u_low_of. finish. Qed.

Lemma b200 : good (U --> Gives Int) u_high.
Proof. begin. argU a. rewrite !u_high_of. finish. Qed.

Lemma b201 : good (I128 --> I128 --> Gives I) i_from_words.
Proof. begin. argZ a. argZ b. rewrite !i_from_words_of by assumption. finish. Qed.

Lemma b202 : good (I --> Gives (Pair Int Int)) i_into_words.
Proof. begin. argI a. rewrite !i_into_words_of. finish. Qed.

Lemma b203 : good (I --> Gives Int) i_low.
Proof. begin. argI a. rewrite !i_low_of. finish. Qed.

Lemma b204 : good (I --> Gives Int) i_high.
Proof. begin. argI a. rewrite !i_high_of. finish. Qed.

Lemma b205 : good (U128 --> Gives U) u_new.
Proof. begin. argZ a. rewrite !u_new_of by assumption. finish. Qed.

Lemma b206 : good (I128 --> Gives I) i_new.
Proof. begin. argZ a. rewrite !i_new_of by assumption. finish. Qed.

Lemma b207 : good (U --> U --> Gives U) (fun _ => u_op_and).
Proof. begin. argU a. argU b. rewrite !u_op_and_of. finish. Qed.

Lemma b208 : good (U --> U --> Gives U) (fun _ => u_op_and_assign).
Proof. begin. argU a. argU b. change u_op_and_assign with u_op_and. rewrite !u_op_and_of. finish. Qed.

Lemma b209 : good (I --> I --> Gives I) (fun _ => i_op_and).
Proof. begin. argI a. argI b. rewrite !i_op_and_of. finish. Qed.

Lemma b210 : good (I --> I --> Gives I) (fun _ => i_op_and_assign).
Proof. begin. argI a. argI b. change i_op_and_assign with i_op_and. rewrite !i_op_and_of. finish. Qed.

Lemma b211 : good (U --> U --> Gives U) (fun _ => u_op_or).
Proof. begin. argU a. argU b. rewrite !u_op_or_of. finish. Qed.

Lemma b212 : good (U --> U --> Gives U) (fun _ => u_op_or_assign).
Proof. begin. argU a. argU b. change u_op_or_assign with u_op_or. rewrite !u_op_or_of. finish. Qed.

Lemma b213 : good (I --> I --> Gives I) (fun _ => i_op_or).
Proof. begin. argI a. argI b. rewrite !i_op_or_of. finish. Qed.

Lemma b214 : good (I --> I --> Gives I) (fun _ => i_op_or_assign).
Proof. begin. argI a. argI b. change i_op_or_assign with i_op_or. rewrite !i_op_or_of. finish. Qed.

Lemma b215 : good (U --> U --> Gives U) (fun _ => u_op_xor).
Proof. begin. argU a. argU b. rewrite !u_op_xor_of. finish. Qed.

Lemma b216 : good (U --> U --> Gives U) (fun _ => u_op_xor_assign).
Proof. begin. argU a. argU b. change u_op_xor_assign with u_op_xor. rewrite !u_op_xor_of. finish. Qed.

Lemma b217 : good (I --> I --> Gives I) (fun _ => i_op_xor).
Proof. begin. argI a. argI b. rewrite !i_op_xor_of. finish. Qed.

Lemma b218 : good (I --> I --> Gives I) (fun _ => i_op_xor_assign).
Proof. begin. argI a. argI b. change i_op_xor_assign with i_op_xor. rewrite !i_op_xor_of. finish. Qed.

Lemma b219 : good (U --> Gives U) (fun _ => u_op_not).
Proof. begin. argU a. rewrite !u_op_not_of. finish. Qed.

Lemma b220 : good (U --> Gives U) (fun _ => u_swap_bytes).
Proof. begin. argU a. rewrite !u_swap_of. finish. Qed.

Lemma b221 : good (U --> Gives U) (fun _ => u_reverse_bits).
Proof. begin. argU a. rewrite !u_rev_of. finish. Qed.

Lemma b222 : good (I --> Gives I) (fun _ => i_op_not).
Proof. begin. argI a. rewrite !i_op_not_of. finish. Qed.

Lemma b223 : good (I --> Gives I) (fun _ => i_swap_bytes).
Proof. begin. argI a. rewrite !i_swap_of. finish. Qed.

Lemma b224 : good (I --> Gives I) (fun _ => i_reverse_bits).
Proof. begin. argI a. rewrite !i_rev_of. finish. Qed.

Lemma b225 : good (U --> Runs Int) u_count_ones.
Proof. begin. argU a. fam c1 c2 (fun c => count_family c (uof c a) (iof c 0) (wf_uof c a) (wf_iof c 0)). all: go. Qed.

Lemma b226 : good (I --> Runs Int) i_count_ones.
Proof. begin. argI a. fam c1 c2 (fun c => count_family c (uof c 0) (iof c a) (wf_uof c 0) (wf_iof c a)). all: go. Qed.

Lemma b227 : good (U --> Runs Int) u_count_zeros.
Proof. begin. argU a. fam c1 c2 (fun c => count_family c (uof c a) (iof c 0) (wf_uof c a) (wf_iof c 0)). all: go. Qed.

Lemma b228 : good (I --> Runs Int) i_count_zeros.
Proof. begin. argI a. fam c1 c2 (fun c => count_family c (uof c 0) (iof c a) (wf_uof c 0) (wf_iof c a)). all: go. Qed.

Lemma b229 : good (U --> Runs Int) u_leading_zeros.
Proof. begin. argU a. assert (F := fun c => runs_family c (uof c a) (iof c 0) (wf_uof c a) (wf_iof c 0)). fam c1 c2 F.
  eapply (runs_same c1 c2 _ _ _ _ (run_top false)); [|eassumption|eassumption|]; [reflexivity|].
  intros k k'. apply (proj1 (run_unique _ k k')). Qed.
