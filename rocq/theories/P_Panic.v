(** * When every operation panics *)

From Coq Require Import ZArith List String Bool Lia ZifyBool.
Import ListNotations. Local Notation length := List.length.
From Verif Require Import M_Prim M_Words M_Intr M_Div M_Mul M_Ops M_UintApi M_IntApi M_Convert M_Float M_Parse M_Fmt M_Serde M_Misc
  Spec Spec_Fold Spec_Shift Spec_Bits Spec_Serde Spec_Convert Spec_Parse Spec_Builds Spec_Api Spec_Panic
  P_Words P_AddSub P_Bits P_Ops P_IntDiv P_Uint P_Int P_Forms P_BitsApi P_Count P_Bytes P_Pow P_Pow2 P_Convert P_Float P_Round
  P_Parse P_Literal P_SerdeBytes P_Builds P_BuildsBase P_BuildsText P_PanicBase P_Clamp.
Open Scope Z_scope.

Lemma b0 : states (U --> U --> Gives U) u_wrapping_add (fun _ => never _).
Proof. pbegin. cbn [panics_when]. intros; exact Logic.I. Qed.

Lemma b1 : states (U --> U --> Gives U) u_saturating_add (fun _ => never _).
Proof. pbegin. cbn [panics_when]. intros; exact Logic.I. Qed.

Lemma b2 : states (U --> U --> Gives U) u_wrapping_sub (fun _ => never _).
Proof. pbegin. cbn [panics_when]. intros; exact Logic.I. Qed.

Lemma b3 : states (U --> U --> Gives U) u_saturating_sub (fun _ => never _).
Proof. pbegin. cbn [panics_when]. intros; exact Logic.I. Qed.

Lemma b4 : states (U --> U --> Gives U) u_max (fun _ => never _).
Proof. pbegin. cbn [panics_when]. intros; exact Logic.I. Qed.

Lemma b5 : states (U --> U --> Gives U) u_min (fun _ => never _).
Proof. pbegin. cbn [panics_when]. intros; exact Logic.I. Qed.

Lemma b6 : states (U --> U --> Gives (Pair U Flag)) u_overflowing_add (fun _ => never _).
Proof. pbegin. cbn [panics_when]. intros; exact Logic.I. Qed.

Lemma b7 : states (U --> U --> Gives (Pair U Flag)) u_overflowing_sub (fun _ => never _).
Proof. pbegin. cbn [panics_when]. intros; exact Logic.I. Qed.

Lemma b8 : states (U --> U --> Gives (Opt U)) u_checked_add (fun _ => never _).
Proof. pbegin. cbn [panics_when]. intros; exact Logic.I. Qed.

Lemma b9 : states (U --> U --> Gives (Opt U)) u_checked_sub (fun _ => never _).
Proof. pbegin. cbn [panics_when]. intros; exact Logic.I. Qed.

Lemma b10 : states (U --> U --> Runs U) u_abs_diff (fun _ => never _).
Proof. pbegin. pU a. pU b. pose proof (sub_family c (uof c a) (uof c b) (wf_uof c a) (wf_uof c b)) as F. fam1 F. all: pgo. Qed.

Lemma b11 : states (U --> U --> Runs U) u_wrapping_mul (fun _ => never _).
Proof. pbegin. pU a. pU b. pose proof (mul_family c (uof c a) (uof c b) (wf_uof c a) (wf_uof c b)) as F. fam1 F. all: pgo. Qed.

Lemma b12 : states (U --> U --> Runs U) u_saturating_mul (fun _ => never _).
Proof. pbegin. pU a. pU b. pose proof (mul_family c (uof c a) (uof c b) (wf_uof c a) (wf_uof c b)) as F. fam1 F. all: pgo. Qed.

Lemma b13 : states (U --> U --> Runs U) u_op_add (fun c a b => over_u c (uval c a + uval c b)).
Proof. pbegin. pU a. pU b. pose proof (u_operators c (uof c a) (uof c b) (wf_uof c a) (wf_uof c b)) as F. fam1 F. all: pgo. Qed.

Lemma b14 : states (U --> U --> Runs U) u_op_add_assign (fun c a b => over_u c (uval c a + uval c b)).
Proof. pbegin. pU a. pU b. pose proof (u_operators c (uof c a) (uof c b) (wf_uof c a) (wf_uof c b)) as F. fam1 F. all: pgo. Qed.

Lemma b15 : states (U --> U --> Runs U) u_op_sub (fun c a b => over_u c (uval c a - uval c b)).
Proof. pbegin. pU a. pU b. pose proof (u_operators c (uof c a) (uof c b) (wf_uof c a) (wf_uof c b)) as F. fam1 F. all: pgo. Qed.

Lemma b16 : states (U --> U --> Runs U) u_op_sub_assign (fun c a b => over_u c (uval c a - uval c b)).
Proof. pbegin. pU a. pU b. pose proof (u_operators c (uof c a) (uof c b) (wf_uof c a) (wf_uof c b)) as F. fam1 F. all: pgo. Qed.

Lemma b17 : states (U --> U --> Runs U) u_op_mul (fun c a b => over_u c (uval c a * uval c b)).
Proof. pbegin. pU a. pU b. pose proof (u_operators c (uof c a) (uof c b) (wf_uof c a) (wf_uof c b)) as F. fam1 F. all: pgo. Qed.

Lemma b18 : states (U --> U --> Runs U) u_op_mul_assign (fun c a b => over_u c (uval c a * uval c b)).
Proof. pbegin. pU a. pU b. pose proof (u_operators c (uof c a) (uof c b) (wf_uof c a) (wf_uof c b)) as F. fam1 F. all: pgo. Qed.

Lemma b19 : states (U --> U --> Runs U) u_op_div (fun c a b => uval c b = 0).
Proof. pbegin. pU a. pU b. pose proof (div_family c (uof c a) (uof c b) (wf_uof c a) (wf_uof c b)) as F. fam1 F. all: pgo. Qed.

Lemma b20 : states (U --> U --> Runs U) u_op_div_assign (fun c a b => uval c b = 0).
Proof. pbegin. pU a. pU b. pose proof (div_family c (uof c a) (uof c b) (wf_uof c a) (wf_uof c b)) as F. fam1 F. all: pgo. Qed.

Lemma b21 : states (U --> U --> Runs U) u_op_rem (fun c a b => uval c b = 0).
Proof. pbegin. pU a. pU b. pose proof (div_family c (uof c a) (uof c b) (wf_uof c a) (wf_uof c b)) as F. fam1 F. all: pgo. Qed.

Lemma b22 : states (U --> U --> Runs U) u_op_rem_assign (fun c a b => uval c b = 0).
Proof. pbegin. pU a. pU b. pose proof (u_op_rem_assign_of c a b Ha Hb) as F. fam1 F. all: pgo. Qed.

Lemma b23 : states (U --> U --> Runs U) u_div_euclid (fun c a b => uval c b = 0).
Proof. pbegin. pU a. pU b. pose proof (div_family c (uof c a) (uof c b) (wf_uof c a) (wf_uof c b)) as F. fam1 F. all: pgo. Qed.

Lemma b24 : states (U --> U --> Runs U) u_rem_euclid (fun c a b => uval c b = 0).
Proof. pbegin. pU a. pU b. pose proof (div_family c (uof c a) (uof c b) (wf_uof c a) (wf_uof c b)) as F. fam1 F. all: pgo. Qed.

Lemma b25 : states (U --> U --> Runs U) u_wrapping_div (fun c a b => uval c b = 0).
Proof. pbegin. pU a. pU b. pose proof (div_family c (uof c a) (uof c b) (wf_uof c a) (wf_uof c b)) as F. fam1 F. all: pgo. Qed.

Lemma b26 : states (U --> U --> Runs U) u_wrapping_div_euclid (fun c a b => uval c b = 0).
Proof. pbegin. pU a. pU b. pose proof (div_family c (uof c a) (uof c b) (wf_uof c a) (wf_uof c b)) as F. fam1 F. all: pgo. Qed.

Lemma b27 : states (U --> U --> Runs U) u_wrapping_rem (fun c a b => uval c b = 0).
Proof. pbegin. pU a. pU b. pose proof (div_family c (uof c a) (uof c b) (wf_uof c a) (wf_uof c b)) as F. fam1 F. all: pgo. Qed.

Lemma b28 : states (U --> U --> Runs U) u_wrapping_rem_euclid (fun c a b => uval c b = 0).
Proof. pbegin. pU a. pU b. pose proof (div_family c (uof c a) (uof c b) (wf_uof c a) (wf_uof c b)) as F. fam1 F. all: pgo. Qed.

Lemma b29 : states (U --> U --> Runs U) u_saturating_div (fun c a b => uval c b = 0).
Proof. pbegin. pU a. pU b. pose proof (div_family c (uof c a) (uof c b) (wf_uof c a) (wf_uof c b)) as F. fam1 F. all: pgo. Qed.

Lemma b30 : states (U --> U --> Runs (Pair U Flag)) u_overflowing_mul (fun _ => never _).
Proof. pbegin. pU a. pU b. pose proof (mul_family c (uof c a) (uof c b) (wf_uof c a) (wf_uof c b)) as F. fam1 F. all: pgo. Qed.

Lemma b31 : states (U --> U --> Runs (Pair U Flag)) u_overflowing_div (fun c a b => uval c b = 0).
Proof. pbegin. pU a. pU b. pose proof (div_family c (uof c a) (uof c b) (wf_uof c a) (wf_uof c b)) as F. fam1 F. all: pgo. Qed.

Lemma b32 : states (U --> U --> Runs (Pair U Flag)) u_overflowing_div_euclid (fun c a b => uval c b = 0).
Proof. pbegin. pU a. pU b. pose proof (div_family c (uof c a) (uof c b) (wf_uof c a) (wf_uof c b)) as F. fam1 F. all: pgo. Qed.

Lemma b33 : states (U --> U --> Runs (Pair U Flag)) u_overflowing_rem (fun c a b => uval c b = 0).
Proof. pbegin. pU a. pU b. pose proof (div_family c (uof c a) (uof c b) (wf_uof c a) (wf_uof c b)) as F. fam1 F. all: pgo. Qed.

Lemma b34 : states (U --> U --> Runs (Pair U Flag)) u_overflowing_rem_euclid (fun c a b => uval c b = 0).
Proof. pbegin. pU a. pU b. pose proof (div_family c (uof c a) (uof c b) (wf_uof c a) (wf_uof c b)) as F. fam1 F. all: pgo. Qed.

Lemma b35 : states (U --> U --> Runs (Opt U)) u_checked_mul (fun _ => never _).
Proof. pbegin. pU a. pU b. pose proof (mul_family c (uof c a) (uof c b) (wf_uof c a) (wf_uof c b)) as F. fam1 F. all: pgo. Qed.

Lemma b36 : states (U --> U --> Runs (Opt U)) u_checked_div (fun _ => never _).
Proof. pbegin. pU a. pU b. pose proof (div_family c (uof c a) (uof c b) (wf_uof c a) (wf_uof c b)) as F. fam1 F. all: pgo. Qed.

Lemma b37 : states (U --> U --> Runs (Opt U)) u_checked_div_euclid (fun _ => never _).
Proof. pbegin. pU a. pU b. pose proof (div_family c (uof c a) (uof c b) (wf_uof c a) (wf_uof c b)) as F. fam1 F. all: pgo. Qed.

Lemma b38 : states (U --> U --> Runs (Opt U)) u_checked_rem (fun _ => never _).
Proof. pbegin. pU a. pU b. pose proof (div_family c (uof c a) (uof c b) (wf_uof c a) (wf_uof c b)) as F. fam1 F. all: pgo. Qed.

Lemma b39 : states (U --> U --> Runs (Opt U)) u_checked_rem_euclid (fun _ => never _).
Proof. pbegin. pU a. pU b. pose proof (div_family c (uof c a) (uof c b) (wf_uof c a) (wf_uof c b)) as F. fam1 F. all: pgo. Qed.

Lemma b40 : states (U --> U --> Runs (Pair U U)) u_div_rem (fun c a b => uval c b = 0).
Proof. pbegin. pU a. pU b. pose proof (div_rem_family c (uof c a) (uof c b) (wf_uof c a) (wf_uof c b)) as F. fam1 F. all: pgo. Qed.

Lemma b41 : states (U --> U --> Runs (Pair U U)) u_div_rem_euclid (fun c a b => uval c b = 0).
Proof. pbegin. pU a. pU b. pose proof (div_rem_family c (uof c a) (uof c b) (wf_uof c a) (wf_uof c b)) as F. fam1 F. all: pgo. Qed.

Lemma b42 : states (U --> U --> Runs (Pair U U)) u_wrapping_div_rem (fun c a b => uval c b = 0).
Proof. pbegin. pU a. pU b. pose proof (div_rem_family c (uof c a) (uof c b) (wf_uof c a) (wf_uof c b)) as F. fam1 F. all: pgo. Qed.

Lemma b43 : states (U --> U --> Runs (Pair U U)) u_wrapping_div_rem_euclid (fun c a b => uval c b = 0).
Proof. pbegin. pU a. pU b. pose proof (div_rem_family c (uof c a) (uof c b) (wf_uof c a) (wf_uof c b)) as F. fam1 F. all: pgo. Qed.

Lemma b44 : states (U --> U --> Runs (Pair U U)) u_saturating_div_rem (fun c a b => uval c b = 0).
Proof. pbegin. pU a. pU b. pose proof (div_rem_family c (uof c a) (uof c b) (wf_uof c a) (wf_uof c b)) as F. fam1 F. all: pgo. Qed.

Lemma b45 : states (U --> U --> Runs (Pair U U)) u_saturating_div_rem_euclid (fun c a b => uval c b = 0).
Proof. pbegin. pU a. pU b. pose proof (div_rem_family c (uof c a) (uof c b) (wf_uof c a) (wf_uof c b)) as F. fam1 F. all: pgo. Qed.

Lemma b46 : states (U --> U --> Runs (Pair (Pair U U) Flag)) u_overflowing_div_rem (fun c a b => uval c b = 0).
Proof. pbegin. pU a. pU b. pose proof (div_rem_family c (uof c a) (uof c b) (wf_uof c a) (wf_uof c b)) as F. fam1 F. all: pgo. Qed.

Lemma b47 : states (U --> U --> Runs (Pair (Pair U U) Flag)) u_overflowing_div_rem_euclid (fun c a b => uval c b = 0).
Proof. pbegin. pU a. pU b. pose proof (div_rem_family c (uof c a) (uof c b) (wf_uof c a) (wf_uof c b)) as F. fam1 F. all: pgo. Qed.

Lemma b48 : states (U --> U --> Runs (Opt (Pair U U))) u_checked_div_rem (fun _ => never _).
Proof. pbegin. pU a. pU b. pose proof (div_rem_family c (uof c a) (uof c b) (wf_uof c a) (wf_uof c b)) as F. fam1 F. all: pgo. Qed.

Lemma b49 : states (U --> U --> Runs (Opt (Pair U U))) u_checked_div_rem_euclid (fun _ => never _).
Proof. pbegin. pU a. pU b. pose proof (div_rem_family c (uof c a) (uof c b) (wf_uof c a) (wf_uof c b)) as F. fam1 F. all: pgo. Qed.

Lemma b50 : states (U --> Gives U) u_wrapping_neg (fun _ => never _).
Proof. pbegin. cbn [panics_when]. intros; exact Logic.I. Qed.

Lemma b51 : states (U --> Gives (Pair U Flag)) u_overflowing_neg (fun _ => never _).
Proof. pbegin. cbn [panics_when]. intros; exact Logic.I. Qed.

Lemma b52 : states (U --> Gives (Opt U)) u_checked_neg (fun _ => never _).
Proof. pbegin. cbn [panics_when]. intros; exact Logic.I. Qed.

Lemma b53 : states (U --> I --> Gives U) u_wrapping_add_signed (fun _ => never _).
Proof. pbegin. cbn [panics_when]. intros; exact Logic.I. Qed.

Lemma b54 : states (U --> I --> Gives U) u_saturating_add_signed (fun _ => never _).
Proof. pbegin. cbn [panics_when]. intros; exact Logic.I. Qed.

Lemma b55 : states (U --> I --> Gives (Pair U Flag)) u_overflowing_add_signed (fun _ => never _).
Proof. pbegin. cbn [panics_when]. intros; exact Logic.I. Qed.

Lemma b56 : states (U --> I --> Gives (Opt U)) u_checked_add_signed (fun _ => never _).
Proof. pbegin. cbn [panics_when]. intros; exact Logic.I. Qed.

Lemma b57 : states (U --> U32 --> Runs U) u_wrapping_pow (fun _ => never _).
Proof. pbegin. pU a. pZ b. pose proof (u_pow_family c (uof c a) b (wf_uof c a) Hb) as F. fam1 F. all: pgo. Qed.

Lemma b58 : states (U --> U32 --> Runs U) u_saturating_pow (fun _ => never _).
Proof. pbegin. pU a. pZ b. pose proof (u_pow_family c (uof c a) b (wf_uof c a) Hb) as F. fam1 F. all: pgo. Qed.

Lemma b59 : states (U --> U32 --> Runs U) u_pow (fun c a b => over_u c (uval c a ^ b)).
Proof. pbegin. pU a. pZ b. pose proof (u_pow_family c (uof c a) b (wf_uof c a) Hb) as F. fam1 F. all: pgo. Qed.

Lemma b60 : states (U --> U32 --> Runs (Pair U Flag)) u_overflowing_pow (fun _ => never _).
Proof. pbegin. pU a. pZ b. pose proof (u_pow_family c (uof c a) b (wf_uof c a) Hb) as F. fam1 F. all: pgo. Qed.

Lemma b61 : states (U --> U32 --> Runs (Opt U)) u_checked_pow (fun _ => never _).
Proof. pbegin. pU a. pZ b. pose proof (u_pow_family c (uof c a) b (wf_uof c a) Hb) as F. fam1 F. all: pgo. Qed.

Lemma b62 : states (U --> Runs Flag) u_is_power_of_two (fun _ => never _).
Proof. pbegin. pU a. destruct (pow2_of c a Ha) as (k & b & -> & _). pfin. Qed.

Lemma b63 : states (U --> Runs U) u_next_power_of_two (fun c a => debug_assertions c = true /\ 2 ^ 255 < uval c a).
Proof. pbegin. pU a. destruct (pow2_of c a Ha) as (k & b & _ & _ & H & E1 & E2). pose proof (next_pow2_range a k H Ha). pgo. Qed.

Lemma b64 : states (U --> Runs (Opt U)) u_checked_next_power_of_two (fun _ => never _).
Proof. pbegin. pU a. destruct (pow2_of c a Ha) as (k & b & _ & _ & H & E1 & E2). pose proof (next_pow2_range a k H Ha). pgo. Qed.

Lemma b65 : states (List U --> Runs U) u_sum (fun c l => exists n, over_u c (sumz (firstn n (map (uval c) l)))).
Proof. pbegin. intros l L. apply legal_list_u in L. destruct (iter_u_sum c l L) as (R1 & R2 & R3).
  refine (when_iff _ _ _ _ _ _ (when_fold c U _ _ _ sumz _ _ _ R1 R2 R3)); [|exact (Ret U256_ZERO)].
  split; intros (n & D & B); exists n; (split; [exact D|]); revert B; unfold in_u, MAXU, MINI, MAXI; cbn [Z.sub Z.add Pos.sub Z.opp Z.pos_sub Pos.pred_double]; lia. Qed.

Lemma b66 : states (List U --> Runs U) u_product (fun c l => exists n, over_u c (prodz (firstn n (map (uval c) l)))).
Proof. pbegin. intros l L. apply legal_list_u in L. destruct (iter_u_product c l L) as (R1 & R2 & R3).
  refine (when_iff _ _ _ _ _ _ (when_fold c U _ _ _ prodz _ _ _ R1 R2 R3)); [|exact (Ret U256_ZERO)].
  split; intros (n & D & B); exists n; (split; [exact D|]); revert B; unfold in_u, MAXU, MINI, MAXI; cbn [Z.sub Z.add Pos.sub Z.opp Z.pos_sub Pos.pred_double]; lia. Qed.

Lemma b67 : states (I --> I --> Gives I) i_wrapping_add (fun _ => never _).
Proof. pbegin. cbn [panics_when]. intros; exact Logic.I. Qed.

Lemma b68 : states (I --> I --> Gives I) i_saturating_add (fun _ => never _).
Proof. pbegin. cbn [panics_when]. intros; exact Logic.I. Qed.

Lemma b69 : states (I --> I --> Gives I) i_wrapping_sub (fun _ => never _).
Proof. pbegin. cbn [panics_when]. intros; exact Logic.I. Qed.

Lemma b70 : states (I --> I --> Gives I) i_saturating_sub (fun _ => never _).
Proof. pbegin. cbn [panics_when]. intros; exact Logic.I. Qed.

Lemma b71 : states (I --> I --> Gives I) i_max (fun _ => never _).
Proof. pbegin. cbn [panics_when]. intros; exact Logic.I. Qed.

Lemma b72 : states (I --> I --> Gives I) i_min (fun _ => never _).
Proof. pbegin. cbn [panics_when]. intros; exact Logic.I. Qed.

Lemma b73 : states (I --> I --> Gives U) i_abs_diff (fun _ => never _).
Proof. pbegin. cbn [panics_when]. intros; exact Logic.I. Qed.

Lemma b74 : states (I --> I --> Gives (Pair I Flag)) i_overflowing_add (fun _ => never _).
Proof. pbegin. cbn [panics_when]. intros; exact Logic.I. Qed.

Lemma b75 : states (I --> I --> Gives (Pair I Flag)) i_overflowing_sub (fun _ => never _).
Proof. pbegin. cbn [panics_when]. intros; exact Logic.I. Qed.

Lemma b76 : states (I --> I --> Gives (Opt I)) i_checked_add (fun _ => never _).
Proof. pbegin. cbn [panics_when]. intros; exact Logic.I. Qed.

Lemma b77 : states (I --> I --> Gives (Opt I)) i_checked_sub (fun _ => never _).
Proof. pbegin. cbn [panics_when]. intros; exact Logic.I. Qed.

Lemma b78 : states (I --> I --> Runs I) i_wrapping_mul (fun _ => never _).
Proof. pbegin. pI a. pI b. pose proof (imul_family c (iof c a) (iof c b) (wf_iof c a) (wf_iof c b)) as F. fam1 F. all: pgo. Qed.

Lemma b79 : states (I --> I --> Runs I) i_saturating_mul (fun _ => never _).
Proof. pbegin. pI a. pI b. pose proof (imul_family c (iof c a) (iof c b) (wf_iof c a) (wf_iof c b)) as F. fam1 F. all: pgo. Qed.

Lemma b80 : states (I --> I --> Runs I) i_op_add (fun c a b => over_i c (ival c a + ival c b)).
Proof. pbegin. pI a. pI b. pose proof (i_operators c (iof c a) (iof c b) (wf_iof c a) (wf_iof c b)) as F. fam1 F. all: pgo. Qed.

Lemma b81 : states (I --> I --> Runs I) i_op_add_assign (fun c a b => over_i c (ival c a + ival c b)).
Proof. pbegin. pI a. pI b. pose proof (i_operators c (iof c a) (iof c b) (wf_iof c a) (wf_iof c b)) as F. fam1 F. all: pgo. Qed.

Lemma b82 : states (I --> I --> Runs I) i_op_sub (fun c a b => over_i c (ival c a - ival c b)).
Proof. pbegin. pI a. pI b. pose proof (i_operators c (iof c a) (iof c b) (wf_iof c a) (wf_iof c b)) as F. fam1 F. all: pgo. Qed.

Lemma b83 : states (I --> I --> Runs I) i_op_sub_assign (fun c a b => over_i c (ival c a - ival c b)).
Proof. pbegin. pI a. pI b. pose proof (i_operators c (iof c a) (iof c b) (wf_iof c a) (wf_iof c b)) as F. fam1 F. all: pgo. Qed.

Lemma b84 : states (I --> I --> Runs I) i_op_mul (fun c a b => over_i c (ival c a * ival c b)).
Proof. pbegin. pI a. pI b. pose proof (i_operators c (iof c a) (iof c b) (wf_iof c a) (wf_iof c b)) as F. fam1 F. all: pgo. Qed.

Lemma b85 : states (I --> I --> Runs I) i_op_mul_assign (fun c a b => over_i c (ival c a * ival c b)).
Proof. pbegin. pI a. pI b. pose proof (i_operators c (iof c a) (iof c b) (wf_iof c a) (wf_iof c b)) as F. fam1 F. all: pgo. Qed.

Lemma b86 : states (I --> I --> Runs I) i_op_div (fun c a b => ival c b = 0).
Proof. pbegin. pI a. pI b. pose proof (idiv_family c (iof c a) (iof c b) (wf_iof c a) (wf_iof c b)) as F. fam1 F. all: pgo. Qed.

Lemma b87 : states (I --> I --> Runs I) i_op_div_assign (fun c a b => ival c b = 0).
Proof. pbegin. pI a. pI b. pose proof (idiv_family c (iof c a) (iof c b) (wf_iof c a) (wf_iof c b)) as F. fam1 F. all: pgo. Qed.

Lemma b88 : states (I --> I --> Runs I) i_op_rem (fun c a b => ival c b = 0).
Proof. pbegin. pI a. pI b. pose proof (idiv_family c (iof c a) (iof c b) (wf_iof c a) (wf_iof c b)) as F. fam1 F. all: pgo. Qed.

Lemma b89 : states (I --> I --> Runs I) i_op_rem_assign (fun c a b => ival c b = 0).
Proof. pbegin. pI a. pI b. pose proof (i_op_rem_assign_of c a b Ha Hb) as F. fam1 F. all: pgo. Qed.

Lemma b90 : states (I --> I --> Runs I) i_div_euclid (fun c a b => ival c b = 0).
Proof. pbegin. pI a. pI b. destruct (ieuclid_when a b Ha Hb) as [[Z F]|[Z (q & r & F)]]; specialize (F c); [unfold ieuclid_zero_ops in F|unfold ieuclid_ops in F]; fam1 F. all: pgo. Qed.

Lemma b91 : states (I --> I --> Runs I) i_rem_euclid (fun c a b => ival c b = 0).
Proof. pbegin. pI a. pI b. destruct (ieuclid_when a b Ha Hb) as [[Z F]|[Z (q & r & F)]]; specialize (F c); [unfold ieuclid_zero_ops in F|unfold ieuclid_ops in F]; fam1 F. all: pgo. Qed.

Lemma b92 : states (I --> I --> Runs I) i_wrapping_div (fun c a b => ival c b = 0).
Proof. pbegin. pI a. pI b. pose proof (idiv_family c (iof c a) (iof c b) (wf_iof c a) (wf_iof c b)) as F. fam1 F. all: pgo. Qed.

Lemma b93 : states (I --> I --> Runs I) i_wrapping_div_euclid (fun c a b => ival c b = 0).
Proof. pbegin. pI a. pI b. destruct (ieuclid_when a b Ha Hb) as [[Z F]|[Z (q & r & F)]]; specialize (F c); [unfold ieuclid_zero_ops in F|unfold ieuclid_ops in F]; fam1 F. all: pgo. Qed.

Lemma b94 : states (I --> I --> Runs I) i_wrapping_rem (fun c a b => ival c b = 0).
Proof. pbegin. pI a. pI b. pose proof (idiv_family c (iof c a) (iof c b) (wf_iof c a) (wf_iof c b)) as F. fam1 F. all: pgo. Qed.

Lemma b95 : states (I --> I --> Runs I) i_wrapping_rem_euclid (fun c a b => ival c b = 0).
Proof. pbegin. pI a. pI b. destruct (ieuclid_when a b Ha Hb) as [[Z F]|[Z (q & r & F)]]; specialize (F c); [unfold ieuclid_zero_ops in F|unfold ieuclid_ops in F]; fam1 F. all: pgo. Qed.

Lemma b96 : states (I --> I --> Runs I) i_saturating_div (fun c a b => ival c b = 0).
Proof. pbegin. pI a. pI b. pose proof (idiv_family c (iof c a) (iof c b) (wf_iof c a) (wf_iof c b)) as F. fam1 F. all: pgo. Qed.

Lemma b97 : states (I --> I --> Runs (Pair I Flag)) i_overflowing_mul (fun _ => never _).
Proof. pbegin. pI a. pI b. pose proof (imul_family c (iof c a) (iof c b) (wf_iof c a) (wf_iof c b)) as F. fam1 F. all: pgo. Qed.

Lemma b98 : states (I --> I --> Runs (Pair I Flag)) i_overflowing_div (fun c a b => ival c b = 0).
Proof. pbegin. pI a. pI b. pose proof (idiv_family c (iof c a) (iof c b) (wf_iof c a) (wf_iof c b)) as F. fam1 F. all: pgo. Qed.

Lemma b99 : states (I --> I --> Runs (Pair I Flag)) i_overflowing_div_euclid (fun c a b => ival c b = 0).
Proof. pbegin. pI a. pI b. destruct (ieuclid_when a b Ha Hb) as [[Z F]|[Z (q & r & F)]]; specialize (F c); [unfold ieuclid_zero_ops in F|unfold ieuclid_ops in F]; fam1 F. all: pgo. Qed.

Lemma b100 : states (I --> I --> Runs (Pair I Flag)) i_overflowing_rem (fun c a b => ival c b = 0).
Proof. pbegin. pI a. pI b. pose proof (idiv_family c (iof c a) (iof c b) (wf_iof c a) (wf_iof c b)) as F. fam1 F. all: pgo. Qed.

Lemma b101 : states (I --> I --> Runs (Pair I Flag)) i_overflowing_rem_euclid (fun c a b => ival c b = 0).
Proof. pbegin. pI a. pI b. destruct (ieuclid_when a b Ha Hb) as [[Z F]|[Z (q & r & F)]]; specialize (F c); [unfold ieuclid_zero_ops in F|unfold ieuclid_ops in F]; fam1 F. all: pgo. Qed.

Lemma b102 : states (I --> I --> Runs (Opt I)) i_checked_mul (fun _ => never _).
Proof. pbegin. pI a. pI b. pose proof (imul_family c (iof c a) (iof c b) (wf_iof c a) (wf_iof c b)) as F. fam1 F. all: pgo. Qed.

Lemma b103 : states (I --> I --> Runs (Opt I)) i_checked_div (fun _ => never _).
Proof. pbegin. pI a. pI b. pose proof (idiv_family c (iof c a) (iof c b) (wf_iof c a) (wf_iof c b)) as F. fam1 F. all: pgo. Qed.

Lemma b104 : states (I --> I --> Runs (Opt I)) i_checked_div_euclid (fun _ => never _).
Proof. pbegin. pI a. pI b. destruct (ieuclid_when a b Ha Hb) as [[Z F]|[Z (q & r & F)]]; specialize (F c); [unfold ieuclid_zero_ops in F|unfold ieuclid_ops in F]; fam1 F. all: pgo. Qed.

Lemma b105 : states (I --> I --> Runs (Opt I)) i_checked_rem (fun _ => never _).
Proof. pbegin. pI a. pI b. pose proof (idiv_family c (iof c a) (iof c b) (wf_iof c a) (wf_iof c b)) as F. fam1 F. all: pgo. Qed.

Lemma b106 : states (I --> I --> Runs (Opt I)) i_checked_rem_euclid (fun _ => never _).
Proof. pbegin. pI a. pI b. destruct (ieuclid_when a b Ha Hb) as [[Z F]|[Z (q & r & F)]]; specialize (F c); [unfold ieuclid_zero_ops in F|unfold ieuclid_ops in F]; fam1 F. all: pgo. Qed.

Lemma b107 : states (I --> I --> Runs (Pair I I)) i_div_rem (fun c a b => ival c b = 0 \/ ival c a = MINI /\ ival c b = -1).
Proof. pbegin. pI a. pI b. pose proof (quot_flag a b Ha) as QF. pose proof (idiv_rem_family c (iof c a) (iof c b) (wf_iof c a) (wf_iof c b)) as F. fam1 F. 1: pgo.
  assert (Z : b <> 0) by lia. specialize (QF Z). pgo. Qed.

Lemma b108 : states (I --> I --> Runs (Pair I I)) i_div_rem_euclid (fun c a b => ival c b = 0 \/ ival c a = MINI /\ ival c b = -1 \/ euclid_slip c a b).
Proof. pbegin. pI a. pI b. destruct (idre_when a b Ha Hb) as [[Z F]|[Z (q & r & bad & QR & BR & F)]]; specialize (F c); [unfold idre_zero_ops in F|unfold idre_ops in F]; fam1 F. all: pgo. Qed.

Lemma b109 : states (I --> I --> Runs (Pair I I)) i_wrapping_div_rem (fun c a b => ival c b = 0).
Proof. pbegin. pI a. pI b. pose proof (idiv_rem_family c (iof c a) (iof c b) (wf_iof c a) (wf_iof c b)) as F. fam1 F. all: pgo. Qed.

Lemma b110 : states (I --> I --> Runs (Pair I I)) i_wrapping_div_rem_euclid (fun c a b => ival c b = 0 \/ euclid_slip c a b).
Proof. pbegin. pI a. pI b. destruct (idre_when a b Ha Hb) as [[Z F]|[Z (q & r & bad & QR & BR & F)]]; specialize (F c); [unfold idre_zero_ops in F|unfold idre_ops in F]; fam1 F. all: pgo. Qed.

Lemma b111 : states (I --> I --> Runs (Pair I I)) i_saturating_div_rem (fun c a b => ival c b = 0).
Proof. pbegin. pI a. pI b. pose proof (idiv_rem_family c (iof c a) (iof c b) (wf_iof c a) (wf_iof c b)) as F. fam1 F. all: pgo. Qed.

Lemma b112 : states (I --> I --> Runs (Pair I I)) i_saturating_div_rem_euclid (fun c a b => ival c b = 0 \/ euclid_slip c a b).
Proof. pbegin. pI a. pI b. destruct (idre_when a b Ha Hb) as [[Z F]|[Z (q & r & bad & QR & BR & F)]]; specialize (F c); [unfold idre_zero_ops in F|unfold idre_ops in F]; fam1 F. all: pgo. Qed.

Lemma b113 : states (I --> I --> Runs (Pair (Pair I I) Flag)) i_overflowing_div_rem (fun c a b => ival c b = 0).
Proof. pbegin. pI a. pI b. pose proof (idiv_rem_family c (iof c a) (iof c b) (wf_iof c a) (wf_iof c b)) as F. fam1 F. all: pgo. Qed.

Lemma b114 : states (I --> I --> Runs (Pair (Pair I I) Flag)) i_overflowing_div_rem_euclid (fun c a b => ival c b = 0 \/ euclid_slip c a b).
Proof. pbegin. pI a. pI b. destruct (idre_when a b Ha Hb) as [[Z F]|[Z (q & r & bad & QR & BR & F)]]; specialize (F c); [unfold idre_zero_ops in F|unfold idre_ops in F]; fam1 F. all: pgo. Qed.

Lemma b115 : states (I --> I --> Runs (Opt (Pair I I))) i_checked_div_rem (fun _ => never _).
Proof. pbegin. pI a. pI b. pose proof (idiv_rem_family c (iof c a) (iof c b) (wf_iof c a) (wf_iof c b)) as F. fam1 F. all: pgo. Qed.

Lemma b116 : states (I --> I --> Runs (Opt (Pair I I))) i_checked_div_rem_euclid (fun c a b => euclid_slip c a b).
Proof. pbegin. pI a. pI b. destruct (idre_when a b Ha Hb) as [[Z F]|[Z (q & r & bad & QR & BR & F)]]; specialize (F c); [unfold idre_zero_ops in F|unfold idre_ops in F]; fam1 F. all: pgo. Qed.

Lemma b117 : states (I --> Gives I) i_wrapping_neg (fun _ => never _).
Proof. pbegin. cbn [panics_when]. intros; exact Logic.I. Qed.

Lemma b118 : states (I --> Gives I) i_saturating_neg (fun _ => never _).
Proof. pbegin. cbn [panics_when]. intros; exact Logic.I. Qed.

Lemma b119 : states (I --> Gives I) i_wrapping_abs (fun _ => never _).
Proof. pbegin. cbn [panics_when]. intros; exact Logic.I. Qed.

Lemma b120 : states (I --> Gives I) i_saturating_abs (fun _ => never _).
Proof. pbegin. cbn [panics_when]. intros; exact Logic.I. Qed.

Lemma b121 : states (I --> Gives I) i_signum (fun _ => never _).
Proof. pbegin. cbn [panics_when]. intros; exact Logic.I. Qed.

Lemma b122 : states (I --> Gives U) i_unsigned_abs (fun _ => never _).
Proof. pbegin. cbn [panics_when]. intros; exact Logic.I. Qed.

Lemma b123 : states (I --> Gives (Pair I Flag)) i_overflowing_abs (fun _ => never _).
Proof. pbegin. cbn [panics_when]. intros; exact Logic.I. Qed.

Lemma b124 : states (I --> Gives Int) i_signum128 (fun _ => never _).
Proof. pbegin. cbn [panics_when]. intros; exact Logic.I. Qed.

Lemma b125 : states (I --> Gives Flag) i_is_positive (fun _ => never _).
Proof. pbegin. cbn [panics_when]. intros; exact Logic.I. Qed.

Lemma b126 : states (I --> Gives Flag) i_is_negative (fun _ => never _).
Proof. pbegin. cbn [panics_when]. intros; exact Logic.I. Qed.

Lemma b127 : states (I --> Runs (Pair I Flag)) i_overflowing_neg (fun _ => never _).
Proof. pbegin. pI a. pose proof (ineg_family c (iof c a) (wf_iof c a)) as F. fam1 F. all: pgo. Qed.

Lemma b128 : states (I --> Runs (Opt I)) i_checked_neg (fun _ => never _).
Proof. pbegin. pI a. pose proof (ineg_family c (iof c a) (wf_iof c a)) as F. fam1 F. all: pgo. Qed.

Lemma b129 : states (I --> Runs (Opt I)) i_checked_abs (fun _ => never _).
Proof. pbegin. pI a. pose proof (abs_family c (iof c a) (wf_iof c a)) as F. fam1 F. all: pgo. Qed.

Lemma b130 : states (I --> Runs I) i_op_neg (fun c a => debug_assertions c = true /\ ival c a = MINI).
Proof. pbegin. pI a. pose proof (ineg_family c (iof c a) (wf_iof c a)) as F. fam1 F. all: pgo. Qed.

Lemma b131 : states (I --> Runs I) i_abs (fun c a => debug_assertions c = true /\ ival c a = MINI).
Proof. pbegin. pI a. pose proof (abs_family c (iof c a) (wf_iof c a)) as F. fam1 F. all: pgo. Qed.

Lemma b132 : states (I --> U --> Gives I) i_wrapping_add_unsigned (fun _ => never _).
Proof. pbegin. cbn [panics_when]. intros; exact Logic.I. Qed.

Lemma b133 : states (I --> U --> Gives I) i_saturating_add_unsigned (fun _ => never _).
Proof. pbegin. cbn [panics_when]. intros; exact Logic.I. Qed.

Lemma b134 : states (I --> U --> Gives I) i_wrapping_sub_unsigned (fun _ => never _).
Proof. pbegin. cbn [panics_when]. intros; exact Logic.I. Qed.

Lemma b135 : states (I --> U --> Gives I) i_saturating_sub_unsigned (fun _ => never _).
Proof. pbegin. cbn [panics_when]. intros; exact Logic.I. Qed.

Lemma b136 : states (I --> U --> Gives (Pair I Flag)) i_overflowing_add_unsigned (fun _ => never _).
Proof. pbegin. cbn [panics_when]. intros; exact Logic.I. Qed.

Lemma b137 : states (I --> U --> Gives (Pair I Flag)) i_overflowing_sub_unsigned (fun _ => never _).
Proof. pbegin. cbn [panics_when]. intros; exact Logic.I. Qed.

Lemma b138 : states (I --> U --> Gives (Opt I)) i_checked_add_unsigned (fun _ => never _).
Proof. pbegin. cbn [panics_when]. intros; exact Logic.I. Qed.

Lemma b139 : states (I --> U --> Gives (Opt I)) i_checked_sub_unsigned (fun _ => never _).
Proof. pbegin. cbn [panics_when]. intros; exact Logic.I. Qed.

Lemma b140 : states (I --> U32 --> Runs I) i_wrapping_pow (fun _ => never _).
Proof. pbegin. pI a. pZ b. pose proof (i_pow_family c (iof c a) b (wf_iof c a) Hb) as F. fam1 F. all: pgo. Qed.

Lemma b141 : states (I --> U32 --> Runs I) i_saturating_pow (fun _ => never _).
Proof. pbegin. pI a. pZ b. pose proof (i_pow_family c (iof c a) b (wf_iof c a) Hb) as F. fam1 F. all: pgo. Qed.

Lemma b142 : states (I --> U32 --> Runs I) i_pow (fun c a b => over_i c (ival c a ^ b)).
Proof. pbegin. pI a. pZ b. pose proof (i_pow_family c (iof c a) b (wf_iof c a) Hb) as F. fam1 F. all: pgo. Qed.

Lemma b143 : states (I --> U32 --> Runs (Pair I Flag)) i_overflowing_pow (fun _ => never _).
Proof. pbegin. pI a. pZ b. pose proof (i_pow_family c (iof c a) b (wf_iof c a) Hb) as F. fam1 F. all: pgo. Qed.

Lemma b144 : states (I --> U32 --> Runs (Opt I)) i_checked_pow (fun _ => never _).
Proof. pbegin. pI a. pZ b. pose proof (i_pow_family c (iof c a) b (wf_iof c a) Hb) as F. fam1 F. all: pgo. Qed.

Lemma b145 : states (List I --> Runs I) i_sum (fun c l => exists n, over_i c (sumz (firstn n (map (ival c) l)))).
Proof. pbegin. intros l L. apply legal_list_i in L. destruct (iter_i_sum c l L) as (R1 & R2 & R3).
  refine (when_iff _ _ _ _ _ _ (when_fold c I _ _ _ sumz _ _ _ R1 R2 R3)); [|exact (Ret I256_ZERO)].
  split; intros (n & D & B); exists n; (split; [exact D|]); revert B; unfold in_i, MAXU, MINI, MAXI; cbn [Z.sub Z.add Pos.sub Z.opp Z.pos_sub Pos.pred_double]; lia. Qed.

Lemma b146 : states (List I --> Runs I) i_product (fun c l => exists n, over_i c (prodz (firstn n (map (ival c) l)))).
Proof. pbegin. intros l L. apply legal_list_i in L. destruct (iter_i_product c l L) as (R1 & R2 & R3).
  refine (when_iff _ _ _ _ _ _ (when_fold c I _ _ _ prodz _ _ _ R1 R2 R3)); [|exact (Ret I256_ZERO)].
  split; intros (n & D & B); exists n; (split; [exact D|]); revert B; unfold in_i, MAXU, MINI, MAXI; cbn [Z.sub Z.add Pos.sub Z.opp Z.pos_sub Pos.pred_double]; lia. Qed.

Lemma b147 : states (U --> U128 --> Runs U) (u_rhs_prim u_op_add) (fun c a b => over_u c (uval c a + b)).
Proof. pbegin. pU a. pZ b. unfold range in Hb. assert (0 <= b < 2 ^ 256) as Hb' by lia. rewrite (proj1 (u_prim_forms u_op_add _ _ b Hb)). clear Hb; rename Hb' into Hb. pose proof (u_operators c (uof c a) (uof c b) (wf_uof c a) (wf_uof c b)) as F. fam1 F. all: pgo. Qed.

Lemma b148 : states (U --> U128 --> Runs U) (u_rhs_prim u_op_add_assign) (fun c a b => over_u c (uval c a + b)).
Proof. pbegin. pU a. pZ b. unfold range in Hb. assert (0 <= b < 2 ^ 256) as Hb' by lia. rewrite (proj1 (u_prim_forms u_op_add_assign _ _ b Hb)). clear Hb; rename Hb' into Hb. pose proof (u_operators c (uof c a) (uof c b) (wf_uof c a) (wf_uof c b)) as F. fam1 F. all: pgo. Qed.

Lemma b149 : states (U128 --> U --> Runs U) (u_lhs_prim u_op_add) (fun c a b => over_u c (a + uval c b)).
Proof. pbegin. pZ a. pU b. unfold range in Ha. assert (0 <= a < 2 ^ 256) as Ha' by lia. rewrite (proj2 (u_prim_forms u_op_add _ _ a Ha)). clear Ha; rename Ha' into Ha. pose proof (u_operators c (uof c a) (uof c b) (wf_uof c a) (wf_uof c b)) as F. fam1 F. all: pgo. Qed.

Lemma b150 : states (I --> I128 --> Runs I) (i_rhs_prim i_op_add) (fun c a b => over_i c (ival c a + b)).
Proof. pbegin. pI a. pZ b. unfold range in Hb. assert (- 2 ^ 255 <= b < 2 ^ 255) as Hb' by lia. rewrite (proj1 (i_prim_forms i_op_add _ _ b Hb)). clear Hb; rename Hb' into Hb. pose proof (i_operators c (iof c a) (iof c b) (wf_iof c a) (wf_iof c b)) as F. fam1 F. all: pgo. Qed.

Lemma b151 : states (I --> I128 --> Runs I) (i_rhs_prim i_op_add_assign) (fun c a b => over_i c (ival c a + b)).
Proof. pbegin. pI a. pZ b. unfold range in Hb. assert (- 2 ^ 255 <= b < 2 ^ 255) as Hb' by lia. rewrite (proj1 (i_prim_forms i_op_add_assign _ _ b Hb)). clear Hb; rename Hb' into Hb. pose proof (i_operators c (iof c a) (iof c b) (wf_iof c a) (wf_iof c b)) as F. fam1 F. all: pgo. Qed.

Lemma b152 : states (I128 --> I --> Runs I) (i_lhs_prim i_op_add) (fun c a b => over_i c (a + ival c b)).
Proof. pbegin. pZ a. pI b. unfold range in Ha. assert (- 2 ^ 255 <= a < 2 ^ 255) as Ha' by lia. rewrite (proj2 (i_prim_forms i_op_add _ _ a Ha)). clear Ha; rename Ha' into Ha. pose proof (i_operators c (iof c a) (iof c b) (wf_iof c a) (wf_iof c b)) as F. fam1 F. all: pgo. Qed.

Lemma b153 : states (U --> U128 --> Runs U) (u_rhs_prim u_op_sub) (fun c a b => over_u c (uval c a - b)).
Proof. pbegin. pU a. pZ b. unfold range in Hb. assert (0 <= b < 2 ^ 256) as Hb' by lia. rewrite (proj1 (u_prim_forms u_op_sub _ _ b Hb)). clear Hb; rename Hb' into Hb. pose proof (u_operators c (uof c a) (uof c b) (wf_uof c a) (wf_uof c b)) as F. fam1 F. all: pgo. Qed.

Lemma b154 : states (U --> U128 --> Runs U) (u_rhs_prim u_op_sub_assign) (fun c a b => over_u c (uval c a - b)).
Proof. pbegin. pU a. pZ b. unfold range in Hb. assert (0 <= b < 2 ^ 256) as Hb' by lia. rewrite (proj1 (u_prim_forms u_op_sub_assign _ _ b Hb)). clear Hb; rename Hb' into Hb. pose proof (u_operators c (uof c a) (uof c b) (wf_uof c a) (wf_uof c b)) as F. fam1 F. all: pgo. Qed.

Lemma b155 : states (U128 --> U --> Runs U) (u_lhs_prim u_op_sub) (fun c a b => over_u c (a - uval c b)).
Proof. pbegin. pZ a. pU b. unfold range in Ha. assert (0 <= a < 2 ^ 256) as Ha' by lia. rewrite (proj2 (u_prim_forms u_op_sub _ _ a Ha)). clear Ha; rename Ha' into Ha. pose proof (u_operators c (uof c a) (uof c b) (wf_uof c a) (wf_uof c b)) as F. fam1 F. all: pgo. Qed.

Lemma b156 : states (I --> I128 --> Runs I) (i_rhs_prim i_op_sub) (fun c a b => over_i c (ival c a - b)).
Proof. pbegin. pI a. pZ b. unfold range in Hb. assert (- 2 ^ 255 <= b < 2 ^ 255) as Hb' by lia. rewrite (proj1 (i_prim_forms i_op_sub _ _ b Hb)). clear Hb; rename Hb' into Hb. pose proof (i_operators c (iof c a) (iof c b) (wf_iof c a) (wf_iof c b)) as F. fam1 F. all: pgo. Qed.

Lemma b157 : states (I --> I128 --> Runs I) (i_rhs_prim i_op_sub_assign) (fun c a b => over_i c (ival c a - b)).
Proof. pbegin. pI a. pZ b. unfold range in Hb. assert (- 2 ^ 255 <= b < 2 ^ 255) as Hb' by lia. rewrite (proj1 (i_prim_forms i_op_sub_assign _ _ b Hb)). clear Hb; rename Hb' into Hb. pose proof (i_operators c (iof c a) (iof c b) (wf_iof c a) (wf_iof c b)) as F. fam1 F. all: pgo. Qed.

Lemma b158 : states (I128 --> I --> Runs I) (i_lhs_prim i_op_sub) (fun c a b => over_i c (a - ival c b)).
Proof. pbegin. pZ a. pI b. unfold range in Ha. assert (- 2 ^ 255 <= a < 2 ^ 255) as Ha' by lia. rewrite (proj2 (i_prim_forms i_op_sub _ _ a Ha)). clear Ha; rename Ha' into Ha. pose proof (i_operators c (iof c a) (iof c b) (wf_iof c a) (wf_iof c b)) as F. fam1 F. all: pgo. Qed.

Lemma b159 : states (U --> U128 --> Runs U) (u_rhs_prim u_op_mul) (fun c a b => over_u c (uval c a * b)).
Proof. pbegin. pU a. pZ b. unfold range in Hb. assert (0 <= b < 2 ^ 256) as Hb' by lia. rewrite (proj1 (u_prim_forms u_op_mul _ _ b Hb)). clear Hb; rename Hb' into Hb. pose proof (u_operators c (uof c a) (uof c b) (wf_uof c a) (wf_uof c b)) as F. fam1 F. all: pgo. Qed.

Lemma b160 : states (U --> U128 --> Runs U) (u_rhs_prim u_op_mul_assign) (fun c a b => over_u c (uval c a * b)).
Proof. pbegin. pU a. pZ b. unfold range in Hb. assert (0 <= b < 2 ^ 256) as Hb' by lia. rewrite (proj1 (u_prim_forms u_op_mul_assign _ _ b Hb)). clear Hb; rename Hb' into Hb. pose proof (u_operators c (uof c a) (uof c b) (wf_uof c a) (wf_uof c b)) as F. fam1 F. all: pgo. Qed.

Lemma b161 : states (U128 --> U --> Runs U) (u_lhs_prim u_op_mul) (fun c a b => over_u c (a * uval c b)).
Proof. pbegin. pZ a. pU b. unfold range in Ha. assert (0 <= a < 2 ^ 256) as Ha' by lia. rewrite (proj2 (u_prim_forms u_op_mul _ _ a Ha)). clear Ha; rename Ha' into Ha. pose proof (u_operators c (uof c a) (uof c b) (wf_uof c a) (wf_uof c b)) as F. fam1 F. all: pgo. Qed.

Lemma b162 : states (I --> I128 --> Runs I) (i_rhs_prim i_op_mul) (fun c a b => over_i c (ival c a * b)).
Proof. pbegin. pI a. pZ b. unfold range in Hb. assert (- 2 ^ 255 <= b < 2 ^ 255) as Hb' by lia. rewrite (proj1 (i_prim_forms i_op_mul _ _ b Hb)). clear Hb; rename Hb' into Hb. pose proof (i_operators c (iof c a) (iof c b) (wf_iof c a) (wf_iof c b)) as F. fam1 F. all: pgo. Qed.

Lemma b163 : states (I --> I128 --> Runs I) (i_rhs_prim i_op_mul_assign) (fun c a b => over_i c (ival c a * b)).
Proof. pbegin. pI a. pZ b. unfold range in Hb. assert (- 2 ^ 255 <= b < 2 ^ 255) as Hb' by lia. rewrite (proj1 (i_prim_forms i_op_mul_assign _ _ b Hb)). clear Hb; rename Hb' into Hb. pose proof (i_operators c (iof c a) (iof c b) (wf_iof c a) (wf_iof c b)) as F. fam1 F. all: pgo. Qed.

Lemma b164 : states (I128 --> I --> Runs I) (i_lhs_prim i_op_mul) (fun c a b => over_i c (a * ival c b)).
Proof. pbegin. pZ a. pI b. unfold range in Ha. assert (- 2 ^ 255 <= a < 2 ^ 255) as Ha' by lia. rewrite (proj2 (i_prim_forms i_op_mul _ _ a Ha)). clear Ha; rename Ha' into Ha. pose proof (i_operators c (iof c a) (iof c b) (wf_iof c a) (wf_iof c b)) as F. fam1 F. all: pgo. Qed.

Lemma b165 : states (U --> U128 --> Runs U) (u_rhs_prim u_op_div) (fun c a b => b = 0).
Proof. pbegin. pU a. pZ b. unfold range in Hb. assert (0 <= b < 2 ^ 256) as Hb' by lia. rewrite (proj1 (u_prim_forms u_op_div _ _ b Hb)). clear Hb; rename Hb' into Hb. pose proof (div_family c (uof c a) (uof c b) (wf_uof c a) (wf_uof c b)) as F. fam1 F. all: pgo. Qed.

Lemma b166 : states (U --> U128 --> Runs U) (u_rhs_prim u_op_div_assign) (fun c a b => b = 0).
Proof. pbegin. pU a. pZ b. unfold range in Hb. assert (0 <= b < 2 ^ 256) as Hb' by lia. rewrite (proj1 (u_prim_forms u_op_div_assign _ _ b Hb)). clear Hb; rename Hb' into Hb. pose proof (div_family c (uof c a) (uof c b) (wf_uof c a) (wf_uof c b)) as F. fam1 F. all: pgo. Qed.

Lemma b167 : states (U128 --> U --> Runs U) (u_lhs_prim u_op_div) (fun c a b => uval c b = 0).
Proof. pbegin. pZ a. pU b. unfold range in Ha. assert (0 <= a < 2 ^ 256) as Ha' by lia. rewrite (proj2 (u_prim_forms u_op_div _ _ a Ha)). clear Ha; rename Ha' into Ha. pose proof (div_family c (uof c a) (uof c b) (wf_uof c a) (wf_uof c b)) as F. fam1 F. all: pgo. Qed.

Lemma b168 : states (I --> I128 --> Runs I) (i_rhs_prim i_op_div) (fun c a b => b = 0).
Proof. pbegin. pI a. pZ b. unfold range in Hb. assert (- 2 ^ 255 <= b < 2 ^ 255) as Hb' by lia. rewrite (proj1 (i_prim_forms i_op_div _ _ b Hb)). clear Hb; rename Hb' into Hb. pose proof (idiv_family c (iof c a) (iof c b) (wf_iof c a) (wf_iof c b)) as F. fam1 F. all: pgo. Qed.

Lemma b169 : states (I --> I128 --> Runs I) (i_rhs_prim i_op_div_assign) (fun c a b => b = 0).
Proof. pbegin. pI a. pZ b. unfold range in Hb. assert (- 2 ^ 255 <= b < 2 ^ 255) as Hb' by lia. rewrite (proj1 (i_prim_forms i_op_div_assign _ _ b Hb)). clear Hb; rename Hb' into Hb. pose proof (idiv_family c (iof c a) (iof c b) (wf_iof c a) (wf_iof c b)) as F. fam1 F. all: pgo. Qed.

Lemma b170 : states (I128 --> I --> Runs I) (i_lhs_prim i_op_div) (fun c a b => ival c b = 0).
Proof. pbegin. pZ a. pI b. unfold range in Ha. assert (- 2 ^ 255 <= a < 2 ^ 255) as Ha' by lia. rewrite (proj2 (i_prim_forms i_op_div _ _ a Ha)). clear Ha; rename Ha' into Ha. pose proof (idiv_family c (iof c a) (iof c b) (wf_iof c a) (wf_iof c b)) as F. fam1 F. all: pgo. Qed.

Lemma b171 : states (U --> U128 --> Runs U) (u_rhs_prim u_op_rem) (fun c a b => b = 0).
Proof. pbegin. pU a. pZ b. unfold range in Hb. assert (0 <= b < 2 ^ 256) as Hb' by lia. rewrite (proj1 (u_prim_forms u_op_rem _ _ b Hb)). clear Hb; rename Hb' into Hb. pose proof (div_family c (uof c a) (uof c b) (wf_uof c a) (wf_uof c b)) as F. fam1 F. all: pgo. Qed.

Lemma b172 : states (U --> U128 --> Runs U) (u_rhs_prim u_op_rem_assign) (fun c a b => b = 0).
Proof. pbegin. pU a. pZ b. unfold range in Hb. assert (0 <= b < 2 ^ 256) as Hb' by lia. rewrite (proj1 (u_prim_forms u_op_rem_assign _ _ b Hb)). clear Hb; rename Hb' into Hb. pose proof (u_op_rem_assign_of c a b Ha Hb) as F. fam1 F. all: pgo. Qed.

Lemma b173 : states (U128 --> U --> Runs U) (u_lhs_prim u_op_rem) (fun c a b => uval c b = 0).
Proof. pbegin. pZ a. pU b. unfold range in Ha. assert (0 <= a < 2 ^ 256) as Ha' by lia. rewrite (proj2 (u_prim_forms u_op_rem _ _ a Ha)). clear Ha; rename Ha' into Ha. pose proof (div_family c (uof c a) (uof c b) (wf_uof c a) (wf_uof c b)) as F. fam1 F. all: pgo. Qed.

Lemma b174 : states (I --> I128 --> Runs I) (i_rhs_prim i_op_rem) (fun c a b => b = 0).
Proof. pbegin. pI a. pZ b. unfold range in Hb. assert (- 2 ^ 255 <= b < 2 ^ 255) as Hb' by lia. rewrite (proj1 (i_prim_forms i_op_rem _ _ b Hb)). clear Hb; rename Hb' into Hb. pose proof (idiv_family c (iof c a) (iof c b) (wf_iof c a) (wf_iof c b)) as F. fam1 F. all: pgo. Qed.

Lemma b175 : states (I --> I128 --> Runs I) (i_rhs_prim i_op_rem_assign) (fun c a b => b = 0).
Proof. pbegin. pI a. pZ b. unfold range in Hb. assert (- 2 ^ 255 <= b < 2 ^ 255) as Hb' by lia. rewrite (proj1 (i_prim_forms i_op_rem_assign _ _ b Hb)). clear Hb; rename Hb' into Hb. pose proof (i_op_rem_assign_of c a b Ha Hb) as F. fam1 F. all: pgo. Qed.

Lemma b176 : states (I128 --> I --> Runs I) (i_lhs_prim i_op_rem) (fun c a b => ival c b = 0).
Proof. pbegin. pZ a. pI b. unfold range in Ha. assert (- 2 ^ 255 <= a < 2 ^ 255) as Ha' by lia. rewrite (proj2 (i_prim_forms i_op_rem _ _ a Ha)). clear Ha; rename Ha' into Ha. pose proof (idiv_family c (iof c a) (iof c b) (wf_iof c a) (wf_iof c b)) as F. fam1 F. all: pgo. Qed.

Lemma b177 : states (U --> U --> Gives Flag) u_eq (fun _ => never _).
Proof. pbegin. cbn [panics_when]. intros; exact Logic.I. Qed.

Lemma b178 : states (U --> U --> Gives Flag) u_lt (fun _ => never _).
Proof. pbegin. cbn [panics_when]. intros; exact Logic.I. Qed.

Lemma b179 : states (U --> U --> Gives Flag) u_le (fun _ => never _).
Proof. pbegin. cbn [panics_when]. intros; exact Logic.I. Qed.

Lemma b180 : states (U --> U --> Gives Flag) u_gt (fun _ => never _).
Proof. pbegin. cbn [panics_when]. intros; exact Logic.I. Qed.

Lemma b181 : states (U --> U --> Gives Flag) u_ge (fun _ => never _).
Proof. pbegin. cbn [panics_when]. intros; exact Logic.I. Qed.

Lemma b182 : states (U --> U --> Gives Ordering) u_cmp (fun _ => never _).
Proof. pbegin. cbn [panics_when]. intros; exact Logic.I. Qed.

Lemma b183 : states (I --> I --> Gives Flag) i_eq (fun _ => never _).
Proof. pbegin. cbn [panics_when]. intros; exact Logic.I. Qed.

Lemma b184 : states (I --> I --> Gives Flag) i_lt (fun _ => never _).
Proof. pbegin. cbn [panics_when]. intros; exact Logic.I. Qed.

Lemma b185 : states (I --> I --> Gives Flag) i_le (fun _ => never _).
Proof. pbegin. cbn [panics_when]. intros; exact Logic.I. Qed.

Lemma b186 : states (I --> I --> Gives Flag) i_gt (fun _ => never _).
Proof. pbegin. cbn [panics_when]. intros; exact Logic.I. Qed.

Lemma b187 : states (I --> I --> Gives Flag) i_ge (fun _ => never _).
Proof. pbegin. cbn [panics_when]. intros; exact Logic.I. Qed.

Lemma b188 : states (I --> I --> Gives Ordering) i_cmp (fun _ => never _).
Proof. pbegin. cbn [panics_when]. intros; exact Logic.I. Qed.

Lemma b189 : states (U --> U128 --> Gives Flag) u_eq_prim (fun _ => never _).
Proof. pbegin. cbn [panics_when]. intros; exact Logic.I. Qed.

Lemma b190 : states (U128 --> U --> Gives Flag) prim_eq_u (fun _ => never _).
Proof. pbegin. cbn [panics_when]. intros; exact Logic.I. Qed.

Lemma b191 : states (U --> U128 --> Gives Ordering) u_cmp_prim (fun _ => never _).
Proof. pbegin. cbn [panics_when]. intros; exact Logic.I. Qed.

Lemma b192 : states (U128 --> U --> Gives Ordering) prim_cmp_u (fun _ => never _).
Proof. pbegin. cbn [panics_when]. intros; exact Logic.I. Qed.

Lemma b193 : states (I --> I128 --> Gives Flag) i_eq_prim (fun _ => never _).
Proof. pbegin. cbn [panics_when]. intros; exact Logic.I. Qed.

Lemma b194 : states (I128 --> I --> Gives Flag) prim_eq_i (fun _ => never _).
Proof. pbegin. cbn [panics_when]. intros; exact Logic.I. Qed.

Lemma b195 : states (I --> I128 --> Gives Ordering) i_cmp_prim (fun _ => never _).
Proof. pbegin. cbn [panics_when]. intros; exact Logic.I. Qed.

Lemma b196 : states (I128 --> I --> Gives Ordering) prim_cmp_i (fun _ => never _).
Proof. pbegin. cbn [panics_when]. intros; exact Logic.I. Qed.

Lemma b197 : states (U128 --> U128 --> Gives U) u_from_words (fun _ => never _).
Proof. pbegin. cbn [panics_when]. intros; exact Logic.I. Qed.

Lemma b198 : states (U --> Gives (Pair Int Int)) u_into_words (fun _ => never _).
Proof. pbegin. cbn [panics_when]. intros; exact Logic.I. Qed.

Lemma b199 : states (U --> Gives Int) u_low (fun _ => never _).
Proof. pbegin. cbn [panics_when]. intros; exact Logic.I. Qed.

Lemma b200 : states (U --> Gives Int) u_high (fun _ => never _).
Proof. pbegin. cbn [panics_when]. intros; exact Logic.I. Qed.

Lemma b201 : states (I128 --> I128 --> Gives I) i_from_words (fun _ => never _).
Proof. pbegin. cbn [panics_when]. intros; exact Logic.I. Qed.

Lemma b202 : states (I --> Gives (Pair Int Int)) i_into_words (fun _ => never _).
Proof. pbegin. cbn [panics_when]. intros; exact Logic.I. Qed.

Lemma b203 : states (I --> Gives Int) i_low (fun _ => never _).
Proof. pbegin. cbn [panics_when]. intros; exact Logic.I. Qed.

Lemma b204 : states (I --> Gives Int) i_high (fun _ => never _).
Proof. pbegin. cbn [panics_when]. intros; exact Logic.I. Qed.

Lemma b205 : states (U128 --> Gives U) u_new (fun _ => never _).
Proof. pbegin. cbn [panics_when]. intros; exact Logic.I. Qed.

Lemma b206 : states (I128 --> Gives I) i_new (fun _ => never _).
Proof. pbegin. cbn [panics_when]. intros; exact Logic.I. Qed.

Lemma b207 : states (U --> U --> Gives U) (fun _ => u_op_and) (fun _ => never _).
Proof. pbegin. cbn [panics_when]. intros; exact Logic.I. Qed.

Lemma b208 : states (U --> U --> Gives U) (fun _ => u_op_and_assign) (fun _ => never _).
Proof. pbegin. cbn [panics_when]. intros; exact Logic.I. Qed.

Lemma b209 : states (I --> I --> Gives I) (fun _ => i_op_and) (fun _ => never _).
Proof. pbegin. cbn [panics_when]. intros; exact Logic.I. Qed.

Lemma b210 : states (I --> I --> Gives I) (fun _ => i_op_and_assign) (fun _ => never _).
Proof. pbegin. cbn [panics_when]. intros; exact Logic.I. Qed.

Lemma b211 : states (U --> U --> Gives U) (fun _ => u_op_or) (fun _ => never _).
Proof. pbegin. cbn [panics_when]. intros; exact Logic.I. Qed.

Lemma b212 : states (U --> U --> Gives U) (fun _ => u_op_or_assign) (fun _ => never _).
Proof. pbegin. cbn [panics_when]. intros; exact Logic.I. Qed.

Lemma b213 : states (I --> I --> Gives I) (fun _ => i_op_or) (fun _ => never _).
Proof. pbegin. cbn [panics_when]. intros; exact Logic.I. Qed.

Lemma b214 : states (I --> I --> Gives I) (fun _ => i_op_or_assign) (fun _ => never _).
Proof. pbegin. cbn [panics_when]. intros; exact Logic.I. Qed.

Lemma b215 : states (U --> U --> Gives U) (fun _ => u_op_xor) (fun _ => never _).
Proof. pbegin. cbn [panics_when]. intros; exact Logic.I. Qed.

Lemma b216 : states (U --> U --> Gives U) (fun _ => u_op_xor_assign) (fun _ => never _).
Proof. pbegin. cbn [panics_when]. intros; exact Logic.I. Qed.

Lemma b217 : states (I --> I --> Gives I) (fun _ => i_op_xor) (fun _ => never _).
Proof. pbegin. cbn [panics_when]. intros; exact Logic.I. Qed.

Lemma b218 : states (I --> I --> Gives I) (fun _ => i_op_xor_assign) (fun _ => never _).
Proof. pbegin. cbn [panics_when]. intros; exact Logic.I. Qed.

Lemma b219 : states (U --> Gives U) (fun _ => u_op_not) (fun _ => never _).
Proof. pbegin. cbn [panics_when]. intros; exact Logic.I. Qed.

Lemma b220 : states (U --> Gives U) (fun _ => u_swap_bytes) (fun _ => never _).
Proof. pbegin. cbn [panics_when]. intros; exact Logic.I. Qed.

Lemma b221 : states (U --> Gives U) (fun _ => u_reverse_bits) (fun _ => never _).
Proof. pbegin. cbn [panics_when]. intros; exact Logic.I. Qed.

Lemma b222 : states (I --> Gives I) (fun _ => i_op_not) (fun _ => never _).
Proof. pbegin. cbn [panics_when]. intros; exact Logic.I. Qed.

Lemma b223 : states (I --> Gives I) (fun _ => i_swap_bytes) (fun _ => never _).
Proof. pbegin. cbn [panics_when]. intros; exact Logic.I. Qed.

Lemma b224 : states (I --> Gives I) (fun _ => i_reverse_bits) (fun _ => never _).
Proof. pbegin. cbn [panics_when]. intros; exact Logic.I. Qed.

Lemma b225 : states (U --> Runs Int) u_count_ones (fun _ => never _).
Proof. pbegin. pU a. pose proof (count_family c (uof c a) (iof c 0) (wf_uof c a) (wf_iof c 0)) as F. fam1 F. all: pgo. Qed.

Lemma b226 : states (I --> Runs Int) i_count_ones (fun _ => never _).
Proof. pbegin. pI a. pose proof (count_family c (uof c 0) (iof c a) (wf_uof c 0) (wf_iof c a)) as F. fam1 F. all: pgo. Qed.

Lemma b227 : states (U --> Runs Int) u_count_zeros (fun _ => never _).
Proof. pbegin. pU a. pose proof (count_family c (uof c a) (iof c 0) (wf_uof c a) (wf_iof c 0)) as F. fam1 F. all: pgo. Qed.

Lemma b228 : states (I --> Runs Int) i_count_zeros (fun _ => never _).
Proof. pbegin. pI a. pose proof (count_family c (uof c 0) (iof c a) (wf_uof c 0) (wf_iof c a)) as F. fam1 F. all: pgo. Qed.

Lemma b229 : states (U --> Runs Int) u_leading_zeros (fun _ => never _).
Proof. pbegin. pU a. pose proof (runs_family c (uof c a) (iof c 0) (wf_uof c a) (wf_iof c 0)) as F. fam1 F. apply when_some; [cbn [never]; tauto|]. match goal with E : exists k, u_leading_zeros _ _ = _ /\ _ |- _ => destruct E as (k & E & _); exists k; exact E end. Qed.

Lemma b230 : states (I --> Runs Int) i_leading_zeros (fun _ => never _).
Proof. pbegin. pI a. pose proof (runs_family c (uof c 0) (iof c a) (wf_uof c 0) (wf_iof c a)) as F. fam1 F. apply when_some; [cbn [never]; tauto|]. match goal with E : exists k, i_leading_zeros _ _ = _ /\ _ |- _ => destruct E as (k & E & _); exists k; exact E end. Qed.

Lemma b231 : states (U --> Runs Int) u_leading_ones (fun _ => never _).
Proof. pbegin. pU a. pose proof (runs_family c (uof c a) (iof c 0) (wf_uof c a) (wf_iof c 0)) as F. fam1 F. apply when_some; [cbn [never]; tauto|]. match goal with E : exists k, u_leading_ones _ _ = _ /\ _ |- _ => destruct E as (k & E & _); exists k; exact E end. Qed.

Lemma b232 : states (I --> Runs Int) i_leading_ones (fun _ => never _).
Proof. pbegin. pI a. pose proof (runs_family c (uof c 0) (iof c a) (wf_uof c 0) (wf_iof c a)) as F. fam1 F. apply when_some; [cbn [never]; tauto|]. match goal with E : exists k, i_leading_ones _ _ = _ /\ _ |- _ => destruct E as (k & E & _); exists k; exact E end. Qed.

Lemma b233 : states (U --> Runs Int) u_trailing_zeros (fun _ => never _).
Proof. pbegin. pU a. pose proof (runs_family c (uof c a) (iof c 0) (wf_uof c a) (wf_iof c 0)) as F. fam1 F. apply when_some; [cbn [never]; tauto|]. match goal with E : exists k, u_trailing_zeros _ _ = _ /\ _ |- _ => destruct E as (k & E & _); exists k; exact E end. Qed.

Lemma b234 : states (I --> Runs Int) i_trailing_zeros (fun _ => never _).
Proof. pbegin. pI a. pose proof (runs_family c (uof c 0) (iof c a) (wf_uof c 0) (wf_iof c a)) as F. fam1 F. apply when_some; [cbn [never]; tauto|]. match goal with E : exists k, i_trailing_zeros _ _ = _ /\ _ |- _ => destruct E as (k & E & _); exists k; exact E end. Qed.

Lemma b235 : states (U --> Runs Int) u_trailing_ones (fun _ => never _).
Proof. pbegin. pU a. pose proof (runs_family c (uof c a) (iof c 0) (wf_uof c a) (wf_iof c 0)) as F. fam1 F. apply when_some; [cbn [never]; tauto|]. match goal with E : exists k, u_trailing_ones _ _ = _ /\ _ |- _ => destruct E as (k & E & _); exists k; exact E end. Qed.

Lemma b236 : states (I --> Runs Int) i_trailing_ones (fun _ => never _).
Proof. pbegin. pI a. pose proof (runs_family c (uof c 0) (iof c a) (wf_uof c 0) (wf_iof c a)) as F. fam1 F. apply when_some; [cbn [never]; tauto|]. match goal with E : exists k, i_trailing_ones _ _ = _ /\ _ |- _ => destruct E as (k & E & _); exists k; exact E end. Qed.

Lemma b237 : states (U --> Amt256 --> Runs U) u_shl_amt (fun _ => never _).
Proof. pbegin. pU a. intros s (O1 & _ & _ & HR). rewrite u_shl_amt_of by assumption. apply when_shift. cbn [never]. split; [tauto|lia]. Qed.

Lemma b238 : states (U --> Amt256 --> Runs U) u_shl_assign (fun _ => never _).
Proof. pbegin. pU a. intros s (O1 & _ & _ & HR). rewrite u_shl_assign_eq. rewrite u_shl_amt_of by assumption. apply when_shift. cbn [never]. split; [tauto|lia]. Qed.

Lemma b239 : states (I --> Amt256 --> Runs I) i_shl_amt (fun _ => never _).
Proof. pbegin. pI a. intros s (O1 & _ & _ & HR). rewrite i_shl_amt_of by assumption. apply when_shift. cbn [never]. split; [tauto|lia]. Qed.

Lemma b240 : states (I --> Amt256 --> Runs I) i_shl_assign (fun _ => never _).
Proof. pbegin. pI a. intros s (O1 & _ & _ & HR). rewrite i_shl_assign_eq. rewrite i_shl_amt_of by assumption. apply when_shift. cbn [never]. split; [tauto|lia]. Qed.

Lemma b241 : states (U --> U32 --> Runs U) u_wrapping_shl (fun _ => never _).
Proof. pbegin. pU a. pZ b. pose proof (named_shift_family c (uof c a) (iof c 0) b (wf_uof c a) (wf_iof c 0) Hb) as F. fam1 F. all: pgo. Qed.

Lemma b242 : states (U --> U32 --> Runs (Pair U Flag)) u_overflowing_shl (fun _ => never _).
Proof. pbegin. pU a. pZ b. pose proof (named_shift_family c (uof c a) (iof c 0) b (wf_uof c a) (wf_iof c 0) Hb) as F. fam1 F. all: pgo. Qed.

Lemma b243 : states (U --> U32 --> Runs (Opt U)) u_checked_shl (fun _ => never _).
Proof. pbegin. pU a. pZ b. pose proof (named_shift_family c (uof c a) (iof c 0) b (wf_uof c a) (wf_iof c 0) Hb) as F. fam1 F. all: pgo. Qed.

Lemma b244 : states (I --> U32 --> Runs I) i_wrapping_shl (fun _ => never _).
Proof. pbegin. pI a. pZ b. pose proof (named_shift_family c (uof c 0) (iof c a) b (wf_uof c 0) (wf_iof c a) Hb) as F. fam1 F. all: pgo. Qed.

Lemma b245 : states (I --> U32 --> Runs (Pair I Flag)) i_overflowing_shl (fun _ => never _).
Proof. pbegin. pI a. pZ b. pose proof (named_shift_family c (uof c 0) (iof c a) b (wf_uof c 0) (wf_iof c a) Hb) as F. fam1 F. all: pgo. Qed.

Lemma b246 : states (I --> U32 --> Runs (Opt I)) i_checked_shl (fun _ => never _).
Proof. pbegin. pI a. pZ b. pose proof (named_shift_family c (uof c 0) (iof c a) b (wf_uof c 0) (wf_iof c a) Hb) as F. fam1 F. all: pgo. Qed.

Lemma b247 : states (U --> Amt256 --> Runs U) u_shr_amt (fun _ => never _).
Proof. pbegin. pU a. intros s (O1 & _ & _ & HR). rewrite u_shr_amt_of by assumption. apply when_shift. cbn [never]. split; [tauto|lia]. Qed.

Lemma b248 : states (U --> Amt256 --> Runs U) u_shr_assign (fun _ => never _).
Proof. pbegin. pU a. intros s (O1 & _ & _ & HR). rewrite u_shr_assign_eq. rewrite u_shr_amt_of by assumption. apply when_shift. cbn [never]. split; [tauto|lia]. Qed.

Lemma b249 : states (I --> Amt256 --> Runs I) i_shr_amt (fun _ => never _).
Proof. pbegin. pI a. intros s (O1 & _ & _ & HR). rewrite i_shr_amt_of by assumption. apply when_shift. cbn [never]. split; [tauto|lia]. Qed.

Lemma b250 : states (I --> Amt256 --> Runs I) i_shr_assign (fun _ => never _).
Proof. pbegin. pI a. intros s (O1 & _ & _ & HR). rewrite i_shr_assign_eq. rewrite i_shr_amt_of by assumption. apply when_shift. cbn [never]. split; [tauto|lia]. Qed.

Lemma b251 : states (U --> U32 --> Runs U) u_wrapping_shr (fun _ => never _).
Proof. pbegin. pU a. pZ b. pose proof (named_shift_family c (uof c a) (iof c 0) b (wf_uof c a) (wf_iof c 0) Hb) as F. fam1 F. all: pgo. Qed.

Lemma b252 : states (U --> U32 --> Runs (Pair U Flag)) u_overflowing_shr (fun _ => never _).
Proof. pbegin. pU a. pZ b. pose proof (named_shift_family c (uof c a) (iof c 0) b (wf_uof c a) (wf_iof c 0) Hb) as F. fam1 F. all: pgo. Qed.

Lemma b253 : states (U --> U32 --> Runs (Opt U)) u_checked_shr (fun _ => never _).
Proof. pbegin. pU a. pZ b. pose proof (named_shift_family c (uof c a) (iof c 0) b (wf_uof c a) (wf_iof c 0) Hb) as F. fam1 F. all: pgo. Qed.

Lemma b254 : states (I --> U32 --> Runs I) i_wrapping_shr (fun _ => never _).
Proof. pbegin. pI a. pZ b. pose proof (named_shift_family c (uof c 0) (iof c a) b (wf_uof c 0) (wf_iof c a) Hb) as F. fam1 F. all: pgo. Qed.

Lemma b255 : states (I --> U32 --> Runs (Pair I Flag)) i_overflowing_shr (fun _ => never _).
Proof. pbegin. pI a. pZ b. pose proof (named_shift_family c (uof c 0) (iof c a) b (wf_uof c 0) (wf_iof c a) Hb) as F. fam1 F. all: pgo. Qed.

Lemma b256 : states (I --> U32 --> Runs (Opt I)) i_checked_shr (fun _ => never _).
Proof. pbegin. pI a. pZ b. pose proof (named_shift_family c (uof c 0) (iof c a) b (wf_uof c 0) (wf_iof c a) Hb) as F. fam1 F. all: pgo. Qed.

Lemma b257 : states (U --> UpTo256 --> Runs U) u_rotate_left (fun _ => never _).
Proof. pbegin. pU a. pZ b. unfold range in Hb. assert (0 <= b < 2 ^ 32) as Hb' by lia.
  pose proof (rotate_u_small c b a true Hb' Ha) as E1. cbv iota beta in E1. rewrite E1. pfin. Qed.

Lemma b258 : states (I --> UpTo256 --> Runs I) i_rotate_left (fun _ => never _).
Proof. pbegin. pI a. pZ b. unfold range in Hb. assert (0 <= b < 2 ^ 32) as Hb' by lia.
  pose proof (rotate_i c b a true Hb') as E1. cbv iota beta in E1. rewrite E1. pfin. Qed.

Lemma b259 : states (U --> UpTo256 --> Runs U) u_rotate_right (fun _ => never _).
Proof. pbegin. pU a. pZ b. unfold range in Hb. assert (0 <= b < 2 ^ 32) as Hb' by lia.
  pose proof (rotate_u_small c b a false Hb' Ha) as E1. cbv iota beta in E1. rewrite E1. pfin. Qed.

Lemma b260 : states (I --> UpTo256 --> Runs I) i_rotate_right (fun _ => never _).
Proof. pbegin. pI a. pZ b. unfold range in Hb. assert (0 <= b < 2 ^ 32) as Hb' by lia.
  pose proof (rotate_i c b a false Hb') as E1. cbv iota beta in E1. rewrite E1. pfin. Qed.

Lemma b261 : states (U --> Gives Bytes) u_to_be_bytes (fun _ => never _).
Proof. pbegin. cbn [panics_when]. intros; exact Logic.I. Qed.

Lemma b262 : states (U --> Gives Bytes) u_to_le_bytes (fun _ => never _).
Proof. pbegin. cbn [panics_when]. intros; exact Logic.I. Qed.

Lemma b263 : states (I --> Gives Bytes) i_to_be_bytes (fun _ => never _).
Proof. pbegin. cbn [panics_when]. intros; exact Logic.I. Qed.

Lemma b264 : states (I --> Gives Bytes) i_to_le_bytes (fun _ => never _).
Proof. pbegin. cbn [panics_when]. intros; exact Logic.I. Qed.

Lemma b265 : states (Bytes32 --> Gives U) u_from_be_bytes (fun _ => never _).
Proof. pbegin. cbn [panics_when]. intros; exact Logic.I. Qed.

Lemma b266 : states (Bytes32 --> Gives U) u_from_le_bytes (fun _ => never _).
Proof. pbegin. cbn [panics_when]. intros; exact Logic.I. Qed.

Lemma b267 : states (Bytes32 --> Gives I) i_from_be_bytes (fun _ => never _).
Proof. pbegin. cbn [panics_when]. intros; exact Logic.I. Qed.

Lemma b268 : states (Bytes32 --> Gives I) i_from_le_bytes (fun _ => never _).
Proof. pbegin. cbn [panics_when]. intros; exact Logic.I. Qed.

Lemma b269 : states (IntType --> U --> Gives Int) u_as (fun _ => never _).
Proof. pbegin. cbn [panics_when]. intros; exact Logic.I. Qed.

Lemma b270 : states (IntType --> I --> Gives Int) i_as (fun _ => never _).
Proof. pbegin. cbn [panics_when]. intros; exact Logic.I. Qed.

Lemma b271 : states (IntType --> U --> Gives (Opt Int)) u_try_into (fun _ => never _).
Proof. pbegin. cbn [panics_when]. intros; exact Logic.I. Qed.

Lemma b272 : states (IntType --> I --> Gives (Opt Int)) i_try_into (fun _ => never _).
Proof. pbegin. cbn [panics_when]. intros; exact Logic.I. Qed.

Lemma b273 : states (Prim --> Gives U) prim_as_u256 (fun _ => never _).
Proof. pbegin. cbn [panics_when]. intros; exact Logic.I. Qed.

Lemma b274 : states (Prim --> Gives I) prim_as_i256 (fun _ => never _).
Proof. pbegin. cbn [panics_when]. intros; exact Logic.I. Qed.

Lemma b275 : states (Prim --> Gives I) i_from_prim (fun _ => never _).
Proof. pbegin. cbn [panics_when]. intros; exact Logic.I. Qed.

Lemma b276 : states (U128 --> Gives U) u_from_prim (fun _ => never _).
Proof. pbegin. cbn [panics_when]. intros; exact Logic.I. Qed.

Lemma b277 : states (Prim --> Gives (Opt U)) u_try_from_prim (fun _ => never _).
Proof. pbegin. cbn [panics_when]. intros; exact Logic.I. Qed.

Lemma b278 : states (Flag --> Gives U) bool_as_u256 (fun _ => never _).
Proof. pbegin. cbn [panics_when]. intros; exact Logic.I. Qed.

Lemma b279 : states (Flag --> Gives U) u_from_bool (fun _ => never _).
Proof. pbegin. cbn [panics_when]. intros; exact Logic.I. Qed.

Lemma b280 : states (Flag --> Gives I) bool_as_i256 (fun _ => never _).
Proof. pbegin. cbn [panics_when]. intros; exact Logic.I. Qed.

Lemma b281 : states (Flag --> Gives I) i_from_bool (fun _ => never _).
Proof. pbegin. cbn [panics_when]. intros; exact Logic.I. Qed.

Lemma b282 : states (U --> Gives I) (fun _ => u_as_i256) (fun _ => never _).
Proof. pbegin. cbn [panics_when]. intros; exact Logic.I. Qed.

Lemma b283 : states (U --> Gives I) (fun _ => u256_as_i256) (fun _ => never _).
Proof. pbegin. cbn [panics_when]. intros; exact Logic.I. Qed.

Lemma b284 : states (I --> Gives U) (fun _ => i_as_u256) (fun _ => never _).
Proof. pbegin. cbn [panics_when]. intros; exact Logic.I. Qed.

Lemma b285 : states (I --> Gives U) (fun _ => i256_as_u256) (fun _ => never _).
Proof. pbegin. cbn [panics_when]. intros; exact Logic.I. Qed.

Lemma b286 : states (U --> Gives U) (fun _ => u256_as_u256) (fun _ => never _).
Proof. pbegin. cbn [panics_when]. intros; exact Logic.I. Qed.

Lemma b287 : states (I --> Gives I) (fun _ => i256_as_i256) (fun _ => never _).
Proof. pbegin. cbn [panics_when]. intros; exact Logic.I. Qed.

Lemma b288 : states (U --> Gives (Opt I)) i_try_from_u256 (fun _ => never _).
Proof. pbegin. cbn [panics_when]. intros; exact Logic.I. Qed.

Lemma b289 : states (I --> Gives (Opt U)) u_try_from_i256 (fun _ => never _).
Proof. pbegin. cbn [panics_when]. intros; exact Logic.I. Qed.

Lemma b290 : states (U32 --> Runs U) (float_as_u256 F32) (fun _ => never _).
Proof. pbegin. pZ a. destruct (float_nums F32 a ltac:(auto)) as (v & w & H). rewrite (proj1 (H c)). pfin. Qed.

Lemma b291 : states (U32 --> Runs I) (float_as_i256 F32) (fun _ => never _).
Proof. pbegin. pZ a. destruct (float_nums F32 a ltac:(auto)) as (v & w & H). rewrite (proj2 (H c)). pfin. Qed.

Lemma b292 : states (U64 --> Runs U) (float_as_u256 F64) (fun _ => never _).
Proof. pbegin. pZ a. destruct (float_nums F64 a ltac:(auto)) as (v & w & H). rewrite (proj1 (H c)). pfin. Qed.

Lemma b293 : states (U64 --> Runs I) (float_as_i256 F64) (fun _ => never _).
Proof. pbegin. pZ a. destruct (float_nums F64 a ltac:(auto)) as (v & w & H). rewrite (proj2 (H c)). pfin. Qed.

Lemma b294 : states (U --> Gives Float) u_as_f32 (fun _ => never _).
Proof. pbegin. cbn [panics_when]. intros; exact Logic.I. Qed.

Lemma b295 : states (U --> Gives Float) u_as_f64 (fun _ => never _).
Proof. pbegin. cbn [panics_when]. intros; exact Logic.I. Qed.

Lemma b296 : states (I --> Gives Float) i_as_f32 (fun _ => never _).
Proof. pbegin. cbn [panics_when]. intros; exact Logic.I. Qed.

Lemma b297 : states (I --> Gives Float) i_as_f64 (fun _ => never _).
Proof. pbegin. cbn [panics_when]. intros; exact Logic.I. Qed.

Lemma b298 : states (Text --> U32 --> Runs (Result U)) u_from_str_radix (fun c s r => ~ 2 <= r <= 36).
Proof. pbegin. pZ a. pZ b. destruct (Z.le_gt_cases 2 b), (Z.le_gt_cases b 36); [apply when_some; [lia|]; apply parse_u_total; lia|..];
  (apply when_panics; [lia|]; apply parse_bad_radix; lia). Qed.

Lemma b299 : states (Text --> Runs (Result U)) u_from_str (fun _ => never _).
Proof. pbegin. pZ a. apply when_some; [cbn [never]; tauto|]. apply parse_u_total; lia. Qed.

Lemma b300 : states (Text --> Runs (Result U)) u_from_str_hex (fun _ => never _).
Proof. pbegin. pZ a. apply when_some; [cbn [never]; tauto|]. apply parse_u_total; lia. Qed.

Lemma b301 : states (Text --> Runs (Result U)) u_from_str_prefixed (fun _ => never _).
Proof. pbegin. pZ a. apply when_some; [cbn [never]; tauto|]. apply prefixed_u_ret. Qed.

Lemma b302 : states (Text --> Runs U) u_const_from_str_prefixed (fun c s => ~ accepted false 0 MAXU s).
Proof. pbegin. pZ a. apply accepted_u. Qed.

Lemma b303 : states (Options --> U --> Runs Writes) u_fmt_display (fun _ => never _).
Proof. pbegin. pZ a. pU b. apply when_some; [cbn [never]; tauto|]. apply (text_ret c (fun c => u_fmt_display c a (uof c b)) UO). apply u_display_same. assumption. Qed.

Lemma b304 : states (Options --> U --> Runs Writes) u_fmt_debug (fun _ => never _).
Proof. pbegin. pZ a. pU b. apply when_some; [cbn [never]; tauto|]. apply (text_ret c (fun c => u_fmt_debug c a (uof c b)) UO). apply u_debug_same. assumption. Qed.

Lemma b305 : states (Kind --> Options --> U --> Runs Writes) u_fmt_radix (fun _ => never _).
Proof. pbegin. pZ a. pZ b. pU d. apply when_some; [cbn [never]; tauto|]. apply (text_ret c (fun c => u_fmt_radix c a b (uof c d)) UO). apply u_radix_same. assumption. Qed.

Lemma b306 : states (U --> Runs Text) u_serialize (fun _ => never _).
Proof. pbegin. pU a. destruct (u_serialize_same c c a UO UO Ha) as (h & d & E1 & E2 & E3 & E4). apply when_some; [cbn [never]; tauto|]. unfold u_serialize_prefixed, u_serialize_permissive. eexists. eassumption. Qed.

Lemma b307 : states (U --> Runs Text) u_serialize_decimal (fun _ => never _).
Proof. pbegin. pU a. destruct (u_serialize_same c c a UO UO Ha) as (h & d & E1 & E2 & E3 & E4). apply when_some; [cbn [never]; tauto|]. unfold u_serialize_prefixed, u_serialize_permissive. eexists. eassumption. Qed.

Lemma b308 : states (U --> Runs Text) u_serialize_prefixed (fun _ => never _).
Proof. pbegin. pU a. destruct (u_serialize_same c c a UO UO Ha) as (h & d & E1 & E2 & E3 & E4). apply when_some; [cbn [never]; tauto|]. unfold u_serialize_prefixed, u_serialize_permissive. eexists. eassumption. Qed.

Lemma b309 : states (U --> Runs Text) u_serialize_permissive (fun _ => never _).
Proof. pbegin. pU a. destruct (u_serialize_same c c a UO UO Ha) as (h & d & E1 & E2 & E3 & E4). apply when_some; [cbn [never]; tauto|]. unfold u_serialize_prefixed, u_serialize_permissive. eexists. eassumption. Qed.

Lemma b310 : states (Text --> Runs (De U)) (fun c => format_visit_str (u_de_hex c)) (fun _ => never _).
Proof. pbegin. pZ a. apply when_some; [cbn [never]; tauto|]. apply visit_str_ret, parse_u_total; lia. Qed.

Lemma b311 : states (Text --> Runs (De U)) (fun c => format_visit_bytes (u_de_hex c)) (fun _ => never _).
Proof. pbegin. pZ a. apply when_some; [cbn [never]; tauto|]. apply visit_bytes_ret, parse_u_total; lia. Qed.

Lemma b312 : states (Text --> Runs (De U)) (fun c => format_visit_str (u_de_decimal c)) (fun _ => never _).
Proof. pbegin. pZ a. apply when_some; [cbn [never]; tauto|]. apply visit_str_ret, parse_u_total; lia. Qed.

Lemma b313 : states (Text --> Runs (De U)) (fun c => format_visit_bytes (u_de_decimal c)) (fun _ => never _).
Proof. pbegin. pZ a. apply when_some; [cbn [never]; tauto|]. apply visit_bytes_ret, parse_u_total; lia. Qed.

Lemma b314 : states (Text --> Runs (De U)) (fun c => format_visit_str (u_de_prefixed c)) (fun _ => never _).
Proof. pbegin. pZ a. apply when_some; [cbn [never]; tauto|]. apply visit_str_ret, prefixed_u_ret. Qed.

Lemma b315 : states (Text --> Runs (De U)) (fun c => format_visit_bytes (u_de_prefixed c)) (fun _ => never _).
Proof. pbegin. pZ a. apply when_some; [cbn [never]; tauto|]. apply visit_bytes_ret, prefixed_u_ret. Qed.

Lemma b316 : states (Text --> Runs (De U)) u_permissive_visit_str (fun _ => never _).
Proof. pbegin. pZ a. apply when_some; [cbn [never]; tauto|]. apply visit_str_ret, prefixed_u_ret. Qed.

Lemma b317 : states (Prim --> Runs (De U)) (visit_int u_cast) (fun _ => never _).
Proof. pbegin. pZ a. rewrite !visit_u by exact Ha. pfin. Qed.

Lemma b318 : states (Number --> Runs (De U)) (visit_f64 u_cast) (fun _ => never _).
Proof. pbegin. pZ a. apply when_some; [cbn [never]; tauto|]. apply f64_u_ret. Qed.

Lemma b319 : states (Number --> Runs (De U)) (visit_f32 u_cast) (fun _ => never _).
Proof. pbegin. pZ a. apply when_some; [cbn [never]; tauto|]. unfold visit_f32. cbv zeta. destruct (negb _); [eexists; reflexivity|apply f64_u_ret]. Qed.

Lemma b320 : states (Order --> U --> Gives Bytes) u_ser_bytes (fun _ => never _).
Proof. pbegin. cbn [panics_when]. intros; exact Logic.I. Qed.

Lemma b321 : states (Order --> U --> Runs Bytes) u_ser_compressed (fun _ => never _).
Proof. pbegin. pZ o. pU a. destruct (u_ser_compressed_same c c o a UO UO Ha) as (v & _ & E & _). apply when_some; [cbn [never]; tauto|]. eexists. exact E. Qed.

Lemma b322 : states (Order --> Bytes --> Runs (De U)) u_visit_bytes (fun _ => never _).
Proof. pbegin. pZ a. pZ b. apply when_some; [cbn [never]; tauto|]. apply (proj1 (bytes_ret c a b Hb)). Qed.

Lemma b323 : states (Order --> Bytes --> Runs (De U)) u_compressed_visit_bytes (fun _ => never _).
Proof. pbegin. pZ a. pZ b. apply when_some; [cbn [never]; tauto|]. apply (proj1 (compressed_ret c a b UO Hb)). Qed.

Lemma b324 : states (Order --> Seq --> Runs (De U)) u_visit_seq (fun _ => never _).
Proof. pbegin. pZ a. pZ b. apply when_some; [cbn [never]; tauto|]. apply seq_ret. Qed.

Lemma b325 : states (Order --> Seq --> Runs (De U)) u_compressed_visit_seq (fun _ => never _).
Proof. pbegin. pZ a. pZ b. apply when_some; [cbn [never]; tauto|]. apply compressed_seq_ret. assumption. Qed.

Lemma b326 : states (Text --> U32 --> Runs (Result I)) i_from_str_radix (fun c s r => ~ 2 <= r <= 36).
Proof. pbegin. pZ a. pZ b. destruct (Z.le_gt_cases 2 b), (Z.le_gt_cases b 36); [apply when_some; [lia|]; apply parse_i_total; lia|..];
  (apply when_panics; [lia|]; apply parse_bad_radix; lia). Qed.

Lemma b327 : states (Text --> Runs (Result I)) i_from_str (fun _ => never _).
Proof. pbegin. pZ a. apply when_some; [cbn [never]; tauto|]. apply parse_i_total; lia. Qed.

Lemma b328 : states (Text --> Runs (Result I)) i_from_str_hex (fun _ => never _).
Proof. pbegin. pZ a. apply when_some; [cbn [never]; tauto|]. apply parse_i_total; lia. Qed.

Lemma b329 : states (Text --> Runs (Result I)) i_from_str_prefixed (fun _ => never _).
Proof. pbegin. pZ a. apply when_some; [cbn [never]; tauto|]. apply prefixed_i_ret. Qed.

Lemma b330 : states (Text --> Runs I) i_const_from_str_prefixed (fun c s => ~ accepted true MINI MAXI s).
Proof. pbegin. pZ a. apply accepted_i. Qed.

Lemma b331 : states (Options --> I --> Runs Writes) i_fmt_display (fun _ => never _).
Proof. pbegin. pZ a. pI b. apply when_some; [cbn [never]; tauto|]. apply (text_ret c (fun c => i_fmt_display c a (iof c b)) UO). apply i_display_same. assumption. Qed.

Lemma b332 : states (Options --> I --> Runs Writes) i_fmt_debug (fun _ => never _).
Proof. pbegin. pZ a. pI b. apply when_some; [cbn [never]; tauto|]. apply (text_ret c (fun c => i_fmt_debug c a (iof c b)) UO). apply i_debug_same. assumption. Qed.

Lemma b333 : states (Kind --> Options --> I --> Runs Writes) i_fmt_radix (fun _ => never _).
Proof. pbegin. pZ a. pZ b. pI d. apply when_some; [cbn [never]; tauto|]. apply (text_ret c (fun c => i_fmt_radix c a b (iof c d)) UO). apply i_radix_same. assumption. Qed.

Lemma b334 : states (I --> Runs Text) i_serialize (fun _ => never _).
Proof. pbegin. pI a. destruct (i_serialize_same c c a UO UO Ha) as (h & d & E1 & E2 & E3 & E4). apply when_some; [cbn [never]; tauto|]. unfold i_serialize_prefixed, i_serialize_permissive. eexists. eassumption. Qed.

Lemma b335 : states (I --> Runs Text) i_serialize_decimal (fun _ => never _).
Proof. pbegin. pI a. destruct (i_serialize_same c c a UO UO Ha) as (h & d & E1 & E2 & E3 & E4). apply when_some; [cbn [never]; tauto|]. unfold i_serialize_prefixed, i_serialize_permissive. eexists. eassumption. Qed.

Lemma b336 : states (I --> Runs Text) i_serialize_prefixed (fun _ => never _).
Proof. pbegin. pI a. destruct (i_serialize_same c c a UO UO Ha) as (h & d & E1 & E2 & E3 & E4). apply when_some; [cbn [never]; tauto|]. unfold i_serialize_prefixed, i_serialize_permissive. eexists. eassumption. Qed.

Lemma b337 : states (I --> Runs Text) i_serialize_permissive (fun _ => never _).
Proof. pbegin. pI a. destruct (i_serialize_same c c a UO UO Ha) as (h & d & E1 & E2 & E3 & E4). apply when_some; [cbn [never]; tauto|]. unfold i_serialize_prefixed, i_serialize_permissive. eexists. eassumption. Qed.

Lemma b338 : states (Text --> Runs (De I)) (fun c => format_visit_str (i_de_hex c)) (fun _ => never _).
Proof. pbegin. pZ a. apply when_some; [cbn [never]; tauto|]. apply visit_str_ret, parse_i_total; lia. Qed.

Lemma b339 : states (Text --> Runs (De I)) (fun c => format_visit_bytes (i_de_hex c)) (fun _ => never _).
Proof. pbegin. pZ a. apply when_some; [cbn [never]; tauto|]. apply visit_bytes_ret, parse_i_total; lia. Qed.

Lemma b340 : states (Text --> Runs (De I)) (fun c => format_visit_str (i_de_decimal c)) (fun _ => never _).
Proof. pbegin. pZ a. apply when_some; [cbn [never]; tauto|]. apply visit_str_ret, parse_i_total; lia. Qed.

Lemma b341 : states (Text --> Runs (De I)) (fun c => format_visit_bytes (i_de_decimal c)) (fun _ => never _).
Proof. pbegin. pZ a. apply when_some; [cbn [never]; tauto|]. apply visit_bytes_ret, parse_i_total; lia. Qed.

Lemma b342 : states (Text --> Runs (De I)) (fun c => format_visit_str (i_de_prefixed c)) (fun _ => never _).
Proof. pbegin. pZ a. apply when_some; [cbn [never]; tauto|]. apply visit_str_ret, prefixed_i_ret. Qed.

Lemma b343 : states (Text --> Runs (De I)) (fun c => format_visit_bytes (i_de_prefixed c)) (fun _ => never _).
Proof. pbegin. pZ a. apply when_some; [cbn [never]; tauto|]. apply visit_bytes_ret, prefixed_i_ret. Qed.

Lemma b344 : states (Text --> Runs (De I)) i_permissive_visit_str (fun _ => never _).
Proof. pbegin. pZ a. apply when_some; [cbn [never]; tauto|]. apply visit_str_ret, prefixed_i_ret. Qed.

Lemma b345 : states (Prim --> Runs (De I)) (visit_int i_cast) (fun _ => never _).
Proof. pbegin. pZ a. rewrite !visit_i by exact Ha. pfin. Qed.

Lemma b346 : states (Number --> Runs (De I)) (visit_f64 i_cast) (fun _ => never _).
Proof. pbegin. pZ a. apply when_some; [cbn [never]; tauto|]. apply f64_i_ret. Qed.

Lemma b347 : states (Number --> Runs (De I)) (visit_f32 i_cast) (fun _ => never _).
Proof. pbegin. pZ a. apply when_some; [cbn [never]; tauto|]. unfold visit_f32. cbv zeta. destruct (negb _); [eexists; reflexivity|apply f64_i_ret]. Qed.

Lemma b348 : states (Order --> I --> Gives Bytes) i_ser_bytes (fun _ => never _).
Proof. pbegin. cbn [panics_when]. intros; exact Logic.I. Qed.

Lemma b349 : states (Order --> I --> Runs Bytes) i_ser_compressed (fun _ => never _).
Proof. pbegin. pZ o. pI a. destruct (i_ser_compressed_same c c o a UO UO Ha) as (v & _ & E & _). apply when_some; [cbn [never]; tauto|]. eexists. exact E. Qed.

Lemma b350 : states (Order --> Bytes --> Runs (De I)) i_visit_bytes (fun _ => never _).
Proof. pbegin. pZ a. pZ b. apply when_some; [cbn [never]; tauto|]. apply (proj2 (bytes_ret c a b Hb)). Qed.

Lemma b351 : states (Order --> Bytes --> Runs (De I)) i_compressed_visit_bytes (fun _ => never _).
Proof. pbegin. pZ a. pZ b. apply when_some; [cbn [never]; tauto|]. apply (proj2 (compressed_ret c a b UO Hb)). Qed.

Lemma b352 : states (Order --> Seq --> Runs (De I)) i_visit_seq (fun _ => never _).
Proof. pbegin. pZ a. pZ b. apply when_some; [cbn [never]; tauto|]. apply seq_ret. Qed.

Lemma b353 : states (Order --> Seq --> Runs (De I)) i_compressed_visit_seq (fun _ => never _).
Proof. pbegin. pZ a. pZ b. apply when_some; [cbn [never]; tauto|]. apply compressed_seq_ret. assumption. Qed.

Lemma b354 : states (U --> U --> U --> Runs U) u_clamp (fun c _ lo hi => uval c hi < uval c lo).
Proof. pbegin. pU a. pU b. pU d. rewrite u_clamp_of by assumption. pfin. Qed.

Lemma b355 : states (I --> I --> I --> Runs I) i_clamp (fun c _ lo hi => ival c hi < ival c lo).
Proof. pbegin. pI a. pI b. pI d. rewrite i_clamp_of by assumption. pfin. Qed.

Lemma b356 : states (U --> U --> Gives Flag) u_ne (fun _ => never _).
Proof. pbegin. cbn [panics_when]. intros; exact Logic.I. Qed.

Lemma b357 : states (I --> I --> Gives Flag) i_ne (fun _ => never _).
Proof. pbegin. cbn [panics_when]. intros; exact Logic.I. Qed.

Lemma w0 : states (U --> Amt --> Runs U) u_shl_amt (fun c a s => debug_assertions c = true /\ ~ 0 <= amt_val c s < 256).
Proof. pbegin. pU a. intros s (O1 & _). rewrite u_shl_amt_of by assumption. apply when_shift. reflexivity. Qed.

Lemma w1 : states (U --> Amt --> Runs U) u_shl_assign (fun c a s => debug_assertions c = true /\ ~ 0 <= amt_val c s < 256).
Proof. pbegin. pU a. intros s (O1 & _). rewrite u_shl_assign_eq. rewrite u_shl_amt_of by assumption. apply when_shift. reflexivity. Qed.

Lemma w2 : states (I --> Amt --> Runs I) i_shl_amt (fun c a s => debug_assertions c = true /\ ~ 0 <= amt_val c s < 256).
Proof. pbegin. pI a. intros s (O1 & _). rewrite i_shl_amt_of by assumption. apply when_shift. reflexivity. Qed.

Lemma w3 : states (I --> Amt --> Runs I) i_shl_assign (fun c a s => debug_assertions c = true /\ ~ 0 <= amt_val c s < 256).
Proof. pbegin. pI a. intros s (O1 & _). rewrite i_shl_assign_eq. rewrite i_shl_amt_of by assumption. apply when_shift. reflexivity. Qed.

Lemma w4 : states (U --> Amt --> Runs U) u_shr_amt (fun c a s => debug_assertions c = true /\ ~ 0 <= amt_val c s < 256).
Proof. pbegin. pU a. intros s (O1 & _). rewrite u_shr_amt_of by assumption. apply when_shift. reflexivity. Qed.

Lemma w5 : states (U --> Amt --> Runs U) u_shr_assign (fun c a s => debug_assertions c = true /\ ~ 0 <= amt_val c s < 256).
Proof. pbegin. pU a. intros s (O1 & _). rewrite u_shr_assign_eq. rewrite u_shr_amt_of by assumption. apply when_shift. reflexivity. Qed.

Lemma w6 : states (I --> Amt --> Runs I) i_shr_amt (fun c a s => debug_assertions c = true /\ ~ 0 <= amt_val c s < 256).
Proof. pbegin. pI a. intros s (O1 & _). rewrite i_shr_amt_of by assumption. apply when_shift. reflexivity. Qed.

Lemma w7 : states (I --> Amt --> Runs I) i_shr_assign (fun c a s => debug_assertions c = true /\ ~ 0 <= amt_val c s < 256).
Proof. pbegin. pI a. intros s (O1 & _). rewrite i_shr_assign_eq. rewrite i_shr_amt_of by assumption. apply when_shift. reflexivity. Qed.

Lemma w8 : states (U --> U32 --> Runs U) u_rotate_left (fun c a n => llvm c = false /\ overflow_checks c = true /\ 256 < n).
Proof. pbegin. pU a. pZ b. unfold range in Hb. assert (0 <= b < 2 ^ 32) as Hb' by lia.
  pose proof (rotate_u_small c b a true Hb' Ha) as E1. cbv iota beta in E1. rewrite E1. pfin. Qed.

Lemma w9 : states (I --> U32 --> Runs I) i_rotate_left (fun c a n => llvm c = false /\ overflow_checks c = true /\ 256 < n).
Proof. pbegin. pI a. pZ b. unfold range in Hb. assert (0 <= b < 2 ^ 32) as Hb' by lia.
  pose proof (rotate_i c b a true Hb') as E1. cbv iota beta in E1. rewrite E1. pfin. Qed.

Lemma w10 : states (U --> U32 --> Runs U) u_rotate_right (fun c a n => llvm c = false /\ overflow_checks c = true /\ 256 < n).
Proof. pbegin. pU a. pZ b. unfold range in Hb. assert (0 <= b < 2 ^ 32) as Hb' by lia.
  pose proof (rotate_u_small c b a false Hb' Ha) as E1. cbv iota beta in E1. rewrite E1. pfin. Qed.

Lemma w11 : states (I --> U32 --> Runs I) i_rotate_right (fun c a n => llvm c = false /\ overflow_checks c = true /\ 256 < n).
Proof. pbegin. pI a. pZ b. unfold range in Hb. assert (0 <= b < 2 ^ 32) as Hb' by lia.
  pose proof (rotate_i c b a false Hb') as E1. cbv iota beta in E1. rewrite E1. pfin. Qed.

Lemma m0 : states (U --> Gives Bytes) u_to_ne_bytes (fun _ => never _).
Proof. pbegin. cbn [panics_when]. intros; exact Logic.I. Qed.

Lemma m1 : states (U --> Gives Bytes) u_mem_bytes (fun _ => never _).
Proof. pbegin. cbn [panics_when]. intros; exact Logic.I. Qed.

Lemma m2 : states (I --> Gives Bytes) i_to_ne_bytes (fun _ => never _).
Proof. pbegin. cbn [panics_when]. intros; exact Logic.I. Qed.

Lemma m3 : states (I --> Gives Bytes) i_mem_bytes (fun _ => never _).
Proof. pbegin. cbn [panics_when]. intros; exact Logic.I. Qed.

Lemma m4 : states (Bytes32 --> Gives U) u_from_ne_bytes (fun _ => never _).
Proof. pbegin. cbn [panics_when]. intros; exact Logic.I. Qed.

Lemma m5 : states (Bytes32 --> Gives I) i_from_ne_bytes (fun _ => never _).
Proof. pbegin. cbn [panics_when]. intros; exact Logic.I. Qed.

Lemma m6 : states (U --> Gives U) u_from_be (fun _ => never _).
Proof. pbegin. cbn [panics_when]. intros; exact Logic.I. Qed.

Lemma m7 : states (U --> Gives U) u_from_le (fun _ => never _).
Proof. pbegin. cbn [panics_when]. intros; exact Logic.I. Qed.

Lemma m8 : states (U --> Gives U) u_to_be (fun _ => never _).
Proof. pbegin. cbn [panics_when]. intros; exact Logic.I. Qed.

Lemma m9 : states (U --> Gives U) u_to_le (fun _ => never _).
Proof. pbegin. cbn [panics_when]. intros; exact Logic.I. Qed.

Lemma m10 : states (I --> Gives I) i_from_be (fun _ => never _).
Proof. pbegin. cbn [panics_when]. intros; exact Logic.I. Qed.

Lemma m11 : states (I --> Gives I) i_from_le (fun _ => never _).
Proof. pbegin. cbn [panics_when]. intros; exact Logic.I. Qed.

Lemma m12 : states (I --> Gives I) i_to_be (fun _ => never _).
Proof. pbegin. cbn [panics_when]. intros; exact Logic.I. Qed.

Lemma m13 : states (I --> Gives I) i_to_le (fun _ => never _).
Proof. pbegin. cbn [panics_when]. intros; exact Logic.I. Qed.

Lemma m14 : states (U --> Gives Bytes) (fun c => u_ser_bytes c (native c)) (fun _ => never _).
Proof. pbegin. cbn [panics_when]. intros; exact Logic.I. Qed.

Lemma m15 : states (Bytes --> Runs (De U)) (fun c => u_visit_bytes c (native c)) (fun _ => never _).
Proof. pbegin. pZ a. apply when_some; [cbn [never]; tauto|]. apply (proj1 (bytes_ret c (native c) a Ha)). Qed.

Lemma m16 : states (I --> Gives Bytes) (fun c => i_ser_bytes c (native c)) (fun _ => never _).
Proof. pbegin. cbn [panics_when]. intros; exact Logic.I. Qed.

Lemma m17 : states (Bytes --> Runs (De I)) (fun c => i_visit_bytes c (native c)) (fun _ => never _).
Proof. pbegin. pZ a. apply when_some; [cbn [never]; tauto|]. apply (proj2 (bytes_ret c (native c) a Ha)). Qed.

Lemma api_states : Forall (fun e => states (e_sig e) (e_fn e) (e_cond e)) panics_api.
Proof.
  unfold panics_api.
  apply Forall_cons; [exact b0|]. apply Forall_cons; [exact b1|]. apply Forall_cons; [exact b2|]. apply Forall_cons; [exact b3|]. apply Forall_cons; [exact b4|]. apply Forall_cons; [exact b5|].
  apply Forall_cons; [exact b6|]. apply Forall_cons; [exact b7|]. apply Forall_cons; [exact b8|]. apply Forall_cons; [exact b9|]. apply Forall_cons; [exact b10|]. apply Forall_cons; [exact b11|].
  apply Forall_cons; [exact b12|]. apply Forall_cons; [exact b13|]. apply Forall_cons; [exact b14|]. apply Forall_cons; [exact b15|]. apply Forall_cons; [exact b16|]. apply Forall_cons; [exact b17|].
  apply Forall_cons; [exact b18|]. apply Forall_cons; [exact b19|]. apply Forall_cons; [exact b20|]. apply Forall_cons; [exact b21|]. apply Forall_cons; [exact b22|]. apply Forall_cons; [exact b23|].
  apply Forall_cons; [exact b24|]. apply Forall_cons; [exact b25|]. apply Forall_cons; [exact b26|]. apply Forall_cons; [exact b27|]. apply Forall_cons; [exact b28|]. apply Forall_cons; [exact b29|].
  apply Forall_cons; [exact b30|]. apply Forall_cons; [exact b31|]. apply Forall_cons; [exact b32|]. apply Forall_cons; [exact b33|]. apply Forall_cons; [exact b34|]. apply Forall_cons; [exact b35|].
  apply Forall_cons; [exact b36|]. apply Forall_cons; [exact b37|]. apply Forall_cons; [exact b38|]. apply Forall_cons; [exact b39|]. apply Forall_cons; [exact b40|]. apply Forall_cons; [exact b41|].
  apply Forall_cons; [exact b42|]. apply Forall_cons; [exact b43|]. apply Forall_cons; [exact b44|]. apply Forall_cons; [exact b45|]. apply Forall_cons; [exact b46|]. apply Forall_cons; [exact b47|].
  apply Forall_cons; [exact b48|]. apply Forall_cons; [exact b49|]. apply Forall_cons; [exact b50|]. apply Forall_cons; [exact b51|]. apply Forall_cons; [exact b52|]. apply Forall_cons; [exact b53|].
  apply Forall_cons; [exact b54|]. apply Forall_cons; [exact b55|]. apply Forall_cons; [exact b56|]. apply Forall_cons; [exact b57|]. apply Forall_cons; [exact b58|]. apply Forall_cons; [exact b59|].
  apply Forall_cons; [exact b60|]. apply Forall_cons; [exact b61|]. apply Forall_cons; [exact b62|]. apply Forall_cons; [exact b63|]. apply Forall_cons; [exact b64|]. apply Forall_cons; [exact b65|].
  apply Forall_cons; [exact b66|]. apply Forall_cons; [exact b67|]. apply Forall_cons; [exact b68|]. apply Forall_cons; [exact b69|]. apply Forall_cons; [exact b70|]. apply Forall_cons; [exact b71|].
  apply Forall_cons; [exact b72|]. apply Forall_cons; [exact b73|]. apply Forall_cons; [exact b74|]. apply Forall_cons; [exact b75|]. apply Forall_cons; [exact b76|]. apply Forall_cons; [exact b77|].
  apply Forall_cons; [exact b78|]. apply Forall_cons; [exact b79|]. apply Forall_cons; [exact b80|]. apply Forall_cons; [exact b81|]. apply Forall_cons; [exact b82|]. apply Forall_cons; [exact b83|].
  apply Forall_cons; [exact b84|]. apply Forall_cons; [exact b85|]. apply Forall_cons; [exact b86|]. apply Forall_cons; [exact b87|]. apply Forall_cons; [exact b88|]. apply Forall_cons; [exact b89|].
  apply Forall_cons; [exact b90|]. apply Forall_cons; [exact b91|]. apply Forall_cons; [exact b92|]. apply Forall_cons; [exact b93|]. apply Forall_cons; [exact b94|]. apply Forall_cons; [exact b95|].
  apply Forall_cons; [exact b96|]. apply Forall_cons; [exact b97|]. apply Forall_cons; [exact b98|]. apply Forall_cons; [exact b99|]. apply Forall_cons; [exact b100|]. apply Forall_cons; [exact b101|].
  apply Forall_cons; [exact b102|]. apply Forall_cons; [exact b103|]. apply Forall_cons; [exact b104|]. apply Forall_cons; [exact b105|]. apply Forall_cons; [exact b106|]. apply Forall_cons; [exact b107|].
  apply Forall_cons; [exact b108|]. apply Forall_cons; [exact b109|]. apply Forall_cons; [exact b110|]. apply Forall_cons; [exact b111|]. apply Forall_cons; [exact b112|]. apply Forall_cons; [exact b113|].
  apply Forall_cons; [exact b114|]. apply Forall_cons; [exact b115|]. apply Forall_cons; [exact b116|]. apply Forall_cons; [exact b117|]. apply Forall_cons; [exact b118|]. apply Forall_cons; [exact b119|].
  apply Forall_cons; [exact b120|]. apply Forall_cons; [exact b121|]. apply Forall_cons; [exact b122|]. apply Forall_cons; [exact b123|]. apply Forall_cons; [exact b124|]. apply Forall_cons; [exact b125|].
  apply Forall_cons; [exact b126|]. apply Forall_cons; [exact b127|]. apply Forall_cons; [exact b128|]. apply Forall_cons; [exact b129|]. apply Forall_cons; [exact b130|]. apply Forall_cons; [exact b131|].
  apply Forall_cons; [exact b132|]. apply Forall_cons; [exact b133|]. apply Forall_cons; [exact b134|]. apply Forall_cons; [exact b135|]. apply Forall_cons; [exact b136|]. apply Forall_cons; [exact b137|].
  apply Forall_cons; [exact b138|]. apply Forall_cons; [exact b139|]. apply Forall_cons; [exact b140|]. apply Forall_cons; [exact b141|]. apply Forall_cons; [exact b142|]. apply Forall_cons; [exact b143|].
  apply Forall_cons; [exact b144|]. apply Forall_cons; [exact b145|]. apply Forall_cons; [exact b146|]. apply Forall_cons; [exact b147|]. apply Forall_cons; [exact b148|]. apply Forall_cons; [exact b149|].
  apply Forall_cons; [exact b150|]. apply Forall_cons; [exact b151|]. apply Forall_cons; [exact b152|]. apply Forall_cons; [exact b153|]. apply Forall_cons; [exact b154|]. apply Forall_cons; [exact b155|].
  apply Forall_cons; [exact b156|]. apply Forall_cons; [exact b157|]. apply Forall_cons; [exact b158|]. apply Forall_cons; [exact b159|]. apply Forall_cons; [exact b160|]. apply Forall_cons; [exact b161|].
  apply Forall_cons; [exact b162|]. apply Forall_cons; [exact b163|]. apply Forall_cons; [exact b164|]. apply Forall_cons; [exact b165|]. apply Forall_cons; [exact b166|]. apply Forall_cons; [exact b167|].
  apply Forall_cons; [exact b168|]. apply Forall_cons; [exact b169|]. apply Forall_cons; [exact b170|]. apply Forall_cons; [exact b171|]. apply Forall_cons; [exact b172|]. apply Forall_cons; [exact b173|].
  apply Forall_cons; [exact b174|]. apply Forall_cons; [exact b175|]. apply Forall_cons; [exact b176|]. apply Forall_cons; [exact b177|]. apply Forall_cons; [exact b178|]. apply Forall_cons; [exact b179|].
  apply Forall_cons; [exact b180|]. apply Forall_cons; [exact b181|]. apply Forall_cons; [exact b182|]. apply Forall_cons; [exact b183|]. apply Forall_cons; [exact b184|]. apply Forall_cons; [exact b185|].
  apply Forall_cons; [exact b186|]. apply Forall_cons; [exact b187|]. apply Forall_cons; [exact b188|]. apply Forall_cons; [exact b189|]. apply Forall_cons; [exact b190|]. apply Forall_cons; [exact b191|].
  apply Forall_cons; [exact b192|]. apply Forall_cons; [exact b193|]. apply Forall_cons; [exact b194|]. apply Forall_cons; [exact b195|]. apply Forall_cons; [exact b196|]. apply Forall_cons; [exact b197|].
  apply Forall_cons; [exact b198|]. apply Forall_cons; [exact b199|]. apply Forall_cons; [exact b200|]. apply Forall_cons; [exact b201|]. apply Forall_cons; [exact b202|]. apply Forall_cons; [exact b203|].
  apply Forall_cons; [exact b204|]. apply Forall_cons; [exact b205|]. apply Forall_cons; [exact b206|]. apply Forall_cons; [exact b207|]. apply Forall_cons; [exact b208|]. apply Forall_cons; [exact b209|].
  apply Forall_cons; [exact b210|]. apply Forall_cons; [exact b211|]. apply Forall_cons; [exact b212|]. apply Forall_cons; [exact b213|]. apply Forall_cons; [exact b214|]. apply Forall_cons; [exact b215|].
  apply Forall_cons; [exact b216|]. apply Forall_cons; [exact b217|]. apply Forall_cons; [exact b218|]. apply Forall_cons; [exact b219|]. apply Forall_cons; [exact b220|]. apply Forall_cons; [exact b221|].
  apply Forall_cons; [exact b222|]. apply Forall_cons; [exact b223|]. apply Forall_cons; [exact b224|]. apply Forall_cons; [exact b225|]. apply Forall_cons; [exact b226|]. apply Forall_cons; [exact b227|].
  apply Forall_cons; [exact b228|]. apply Forall_cons; [exact b229|]. apply Forall_cons; [exact b230|]. apply Forall_cons; [exact b231|]. apply Forall_cons; [exact b232|]. apply Forall_cons; [exact b233|].
  apply Forall_cons; [exact b234|]. apply Forall_cons; [exact b235|]. apply Forall_cons; [exact b236|]. apply Forall_cons; [exact b237|]. apply Forall_cons; [exact b238|]. apply Forall_cons; [exact b239|].
  apply Forall_cons; [exact b240|]. apply Forall_cons; [exact b241|]. apply Forall_cons; [exact b242|]. apply Forall_cons; [exact b243|]. apply Forall_cons; [exact b244|]. apply Forall_cons; [exact b245|].
  apply Forall_cons; [exact b246|]. apply Forall_cons; [exact b247|]. apply Forall_cons; [exact b248|]. apply Forall_cons; [exact b249|]. apply Forall_cons; [exact b250|]. apply Forall_cons; [exact b251|].
  apply Forall_cons; [exact b252|]. apply Forall_cons; [exact b253|]. apply Forall_cons; [exact b254|]. apply Forall_cons; [exact b255|]. apply Forall_cons; [exact b256|]. apply Forall_cons; [exact b257|].
  apply Forall_cons; [exact b258|]. apply Forall_cons; [exact b259|]. apply Forall_cons; [exact b260|]. apply Forall_cons; [exact b261|]. apply Forall_cons; [exact b262|]. apply Forall_cons; [exact b263|].
  apply Forall_cons; [exact b264|]. apply Forall_cons; [exact b265|]. apply Forall_cons; [exact b266|]. apply Forall_cons; [exact b267|]. apply Forall_cons; [exact b268|]. apply Forall_cons; [exact b269|].
  apply Forall_cons; [exact b270|]. apply Forall_cons; [exact b271|]. apply Forall_cons; [exact b272|]. apply Forall_cons; [exact b273|]. apply Forall_cons; [exact b274|]. apply Forall_cons; [exact b275|].
  apply Forall_cons; [exact b276|]. apply Forall_cons; [exact b277|]. apply Forall_cons; [exact b278|]. apply Forall_cons; [exact b279|]. apply Forall_cons; [exact b280|]. apply Forall_cons; [exact b281|].
  apply Forall_cons; [exact b282|]. apply Forall_cons; [exact b283|]. apply Forall_cons; [exact b284|]. apply Forall_cons; [exact b285|]. apply Forall_cons; [exact b286|]. apply Forall_cons; [exact b287|].
  apply Forall_cons; [exact b288|]. apply Forall_cons; [exact b289|]. apply Forall_cons; [exact b290|]. apply Forall_cons; [exact b291|]. apply Forall_cons; [exact b292|]. apply Forall_cons; [exact b293|].
  apply Forall_cons; [exact b294|]. apply Forall_cons; [exact b295|]. apply Forall_cons; [exact b296|]. apply Forall_cons; [exact b297|]. apply Forall_cons; [exact b298|]. apply Forall_cons; [exact b299|].
  apply Forall_cons; [exact b300|]. apply Forall_cons; [exact b301|]. apply Forall_cons; [exact b302|]. apply Forall_cons; [exact b303|]. apply Forall_cons; [exact b304|]. apply Forall_cons; [exact b305|].
  apply Forall_cons; [exact b306|]. apply Forall_cons; [exact b307|]. apply Forall_cons; [exact b308|]. apply Forall_cons; [exact b309|]. apply Forall_cons; [exact b310|]. apply Forall_cons; [exact b311|].
  apply Forall_cons; [exact b312|]. apply Forall_cons; [exact b313|]. apply Forall_cons; [exact b314|]. apply Forall_cons; [exact b315|]. apply Forall_cons; [exact b316|]. apply Forall_cons; [exact b317|].
  apply Forall_cons; [exact b318|]. apply Forall_cons; [exact b319|]. apply Forall_cons; [exact b320|]. apply Forall_cons; [exact b321|]. apply Forall_cons; [exact b322|]. apply Forall_cons; [exact b323|].
  apply Forall_cons; [exact b324|]. apply Forall_cons; [exact b325|]. apply Forall_cons; [exact b326|]. apply Forall_cons; [exact b327|]. apply Forall_cons; [exact b328|]. apply Forall_cons; [exact b329|].
  apply Forall_cons; [exact b330|]. apply Forall_cons; [exact b331|]. apply Forall_cons; [exact b332|]. apply Forall_cons; [exact b333|]. apply Forall_cons; [exact b334|]. apply Forall_cons; [exact b335|].
  apply Forall_cons; [exact b336|]. apply Forall_cons; [exact b337|]. apply Forall_cons; [exact b338|]. apply Forall_cons; [exact b339|]. apply Forall_cons; [exact b340|]. apply Forall_cons; [exact b341|].
  apply Forall_cons; [exact b342|]. apply Forall_cons; [exact b343|]. apply Forall_cons; [exact b344|]. apply Forall_cons; [exact b345|]. apply Forall_cons; [exact b346|]. apply Forall_cons; [exact b347|].
  apply Forall_cons; [exact b348|]. apply Forall_cons; [exact b349|]. apply Forall_cons; [exact b350|]. apply Forall_cons; [exact b351|]. apply Forall_cons; [exact b352|]. apply Forall_cons; [exact b353|].
  apply Forall_cons; [exact b354|]. apply Forall_cons; [exact b355|]. apply Forall_cons; [exact b356|]. apply Forall_cons; [exact b357|].
  apply Forall_nil.
Qed.
Lemma amounts_states : Forall (fun e => states (e_sig e) (e_fn e) (e_cond e)) panics_amounts.
Proof.
  unfold panics_amounts.
  apply Forall_cons; [exact w0|]. apply Forall_cons; [exact w1|]. apply Forall_cons; [exact w2|]. apply Forall_cons; [exact w3|]. apply Forall_cons; [exact w4|]. apply Forall_cons; [exact w5|].
  apply Forall_cons; [exact w6|]. apply Forall_cons; [exact w7|]. apply Forall_cons; [exact w8|]. apply Forall_cons; [exact w9|]. apply Forall_cons; [exact w10|]. apply Forall_cons; [exact w11|].
  apply Forall_nil.
Qed.
Lemma memory_states : Forall (fun e => states (e_sig e) (e_fn e) (e_cond e)) panics_memory.
Proof.
  unfold panics_memory.
  apply Forall_cons; [exact m0|]. apply Forall_cons; [exact m1|]. apply Forall_cons; [exact m2|]. apply Forall_cons; [exact m3|]. apply Forall_cons; [exact m4|]. apply Forall_cons; [exact m5|].
  apply Forall_cons; [exact m6|]. apply Forall_cons; [exact m7|]. apply Forall_cons; [exact m8|]. apply Forall_cons; [exact m9|]. apply Forall_cons; [exact m10|]. apply Forall_cons; [exact m11|].
  apply Forall_cons; [exact m12|]. apply Forall_cons; [exact m13|]. apply Forall_cons; [exact m14|]. apply Forall_cons; [exact m15|]. apply Forall_cons; [exact m16|]. apply Forall_cons; [exact m17|].
  apply Forall_nil.
Qed.

Lemma panic_table c : usize_ok c ->
  Forall (fun e => panics_when c (e_sig e) (e_fn e c) (e_cond e c)) (panics_api ++ panics_amounts ++ panics_memory).
Proof.
  intros U. rewrite !Forall_app. split; [|split].
  - apply (Forall_impl _ (fun e (H : states _ _ _) => H c U) api_states).
  - apply (Forall_impl _ (fun e (H : states _ _ _) => H c U) amounts_states).
  - apply (Forall_impl _ (fun e (H : states _ _ _) => H c U) memory_states).
Qed.
Lemma panic_cover : map e_op (panics_api ++ panics_amounts ++ panics_memory) = api ++ api_amounts ++ api_memory.
Proof. reflexivity. Qed.
