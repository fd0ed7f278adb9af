(** * Operations compared in two builds *)

From Coq Require Import ZArith List String Bool Lia ZifyBool.
Import ListNotations.
From Verif Require Import M_Prim M_Words M_Intr M_Div M_Mul M_Ops M_UintApi M_IntApi M_Convert M_Float M_Parse M_Fmt M_Serde
  Spec Spec_Shift Spec_Bits Spec_Serde Spec_Convert Spec_Builds Spec_Api
  P_Words P_AddSub P_Bits P_Ops P_IntDiv P_Uint P_Int P_Forms P_BitsApi P_Count P_Bytes P_Pow P_Pow2 P_Convert P_Float P_Round P_Builds P_BuildsBase P_BuildsText P_SerdeBytes.
Open Scope Z_scope.

Lemma b230 : good (I --> Runs Int) i_leading_zeros.
Proof. begin. argI a. assert (F := fun c => runs_family c (uof c 0) (iof c a) (wf_uof c 0) (wf_iof c a)). fam c1 c2 F.
  eapply (runs_same c1 c2 _ _ _ _ (run_top false)); [|eassumption|eassumption|]; [reflexivity|].
  intros k k'. apply (proj1 (run_unique _ k k')). Qed.

Lemma b231 : good (U --> Runs Int) u_leading_ones.
Proof. begin. argU a. assert (F := fun c => runs_family c (uof c a) (iof c 0) (wf_uof c a) (wf_iof c 0)). fam c1 c2 F.
  eapply (runs_same c1 c2 _ _ _ _ (run_top true)); [|eassumption|eassumption|]; [reflexivity|].
  intros k k'. apply (proj1 (run_unique _ k k')). Qed.

Lemma b232 : good (I --> Runs Int) i_leading_ones.
Proof. begin. argI a. assert (F := fun c => runs_family c (uof c 0) (iof c a) (wf_uof c 0) (wf_iof c a)). fam c1 c2 F.
  eapply (runs_same c1 c2 _ _ _ _ (run_top true)); [|eassumption|eassumption|]; [reflexivity|].
  intros k k'. apply (proj1 (run_unique _ k k')). Qed.

Lemma b233 : good (U --> Runs Int) u_trailing_zeros.
Proof. begin. argU a. assert (F := fun c => runs_family c (uof c a) (iof c 0) (wf_uof c a) (wf_iof c 0)). fam c1 c2 F.
  eapply (runs_same c1 c2 _ _ _ _ (run_bottom false)); [|eassumption|eassumption|]; [reflexivity|].
  intros k k'. apply (proj2 (run_unique _ k k')). Qed.

Lemma b234 : good (I --> Runs Int) i_trailing_zeros.
Proof. begin. argI a. assert (F := fun c => runs_family c (uof c 0) (iof c a) (wf_uof c 0) (wf_iof c a)). fam c1 c2 F.
  eapply (runs_same c1 c2 _ _ _ _ (run_bottom false)); [|eassumption|eassumption|]; [reflexivity|].
  intros k k'. apply (proj2 (run_unique _ k k')). Qed.

Lemma b235 : good (U --> Runs Int) u_trailing_ones.
Proof. begin. argU a. assert (F := fun c => runs_family c (uof c a) (iof c 0) (wf_uof c a) (wf_iof c 0)). fam c1 c2 F.
  eapply (runs_same c1 c2 _ _ _ _ (run_bottom true)); [|eassumption|eassumption|]; [reflexivity|].
  intros k k'. apply (proj2 (run_unique _ k k')). Qed.

Lemma b236 : good (I --> Runs Int) i_trailing_ones.
Proof. begin. argI a. assert (F := fun c => runs_family c (uof c 0) (iof c a) (wf_uof c 0) (wf_iof c a)). fam c1 c2 F.
  eapply (runs_same c1 c2 _ _ _ _ (run_bottom true)); [|eassumption|eassumption|]; [reflexivity|].
  intros k k'. apply (proj2 (run_unique _ k k')). Qed.

Lemma b237 : good (U --> Amt256 --> Runs U) u_shl_amt.
Proof. begin. argU a. intros s t HS. destruct HS as (O1 & O2 & ES & HR). 
  rewrite !u_shl_amt_of by assumption. rewrite (same_amount_val _ _ _ _ ES). rewrite (same_amount_val _ _ _ _ ES) in HR. apply cmp_shift_small; [exact HR|intros; finish]. Qed.

Lemma b238 : good (U --> Amt256 --> Runs U) u_shl_assign.
Proof. begin. argU a. intros s t HS. destruct HS as (O1 & O2 & ES & HR). rewrite !u_shl_assign_eq. 
  rewrite !u_shl_amt_of by assumption. rewrite (same_amount_val _ _ _ _ ES). rewrite (same_amount_val _ _ _ _ ES) in HR. apply cmp_shift_small; [exact HR|intros; finish]. Qed.

Lemma b239 : good (I --> Amt256 --> Runs I) i_shl_amt.
Proof. begin. argI a. intros s t HS. destruct HS as (O1 & O2 & ES & HR). 
  rewrite !i_shl_amt_of by assumption. rewrite (same_amount_val _ _ _ _ ES). rewrite (same_amount_val _ _ _ _ ES) in HR. apply cmp_shift_small; [exact HR|intros; finish]. Qed.

Lemma b240 : good (I --> Amt256 --> Runs I) i_shl_assign.
Proof. begin. argI a. intros s t HS. destruct HS as (O1 & O2 & ES & HR). rewrite !i_shl_assign_eq. 
  rewrite !i_shl_amt_of by assumption. rewrite (same_amount_val _ _ _ _ ES). rewrite (same_amount_val _ _ _ _ ES) in HR. apply cmp_shift_small; [exact HR|intros; finish]. Qed.

Lemma b241 : good (U --> U32 --> Runs U) u_wrapping_shl.
Proof. begin. argU a. argZ b. fam c1 c2 (fun c => named_shift_family c (uof c a) (iof c 0) b (wf_uof c a) (wf_iof c 0) Hb). all: go. Qed.

Lemma b242 : good (U --> U32 --> Runs (Pair U Flag)) u_overflowing_shl.
Proof. begin. argU a. argZ b. fam c1 c2 (fun c => named_shift_family c (uof c a) (iof c 0) b (wf_uof c a) (wf_iof c 0) Hb). all: go. Qed.

Lemma b243 : good (U --> U32 --> Runs (Opt U)) u_checked_shl.
Proof. begin. argU a. argZ b. fam c1 c2 (fun c => named_shift_family c (uof c a) (iof c 0) b (wf_uof c a) (wf_iof c 0) Hb). all: go. Qed.

Lemma b244 : good (I --> U32 --> Runs I) i_wrapping_shl.
Proof. begin. argI a. argZ b. fam c1 c2 (fun c => named_shift_family c (uof c 0) (iof c a) b (wf_uof c 0) (wf_iof c a) Hb). all: go. Qed.

Lemma b245 : good (I --> U32 --> Runs (Pair I Flag)) i_overflowing_shl.
Proof. begin. argI a. argZ b. fam c1 c2 (fun c => named_shift_family c (uof c 0) (iof c a) b (wf_uof c 0) (wf_iof c a) Hb). all: go. Qed.

Lemma b246 : good (I --> U32 --> Runs (Opt I)) i_checked_shl.
Proof. begin. argI a. argZ b. fam c1 c2 (fun c => named_shift_family c (uof c 0) (iof c a) b (wf_uof c 0) (wf_iof c a) Hb). all: go. Qed.

Lemma b247 : good (U --> Amt256 --> Runs U) u_shr_amt.
Proof. begin. argU a. intros s t HS. destruct HS as (O1 & O2 & ES & HR). 
  rewrite !u_shr_amt_of by assumption. rewrite (same_amount_val _ _ _ _ ES). rewrite (same_amount_val _ _ _ _ ES) in HR. apply cmp_shift_small; [exact HR|intros; finish]. Qed.

Lemma b248 : good (U --> Amt256 --> Runs U) u_shr_assign.
Proof. begin. argU a. intros s t HS. destruct HS as (O1 & O2 & ES & HR). rewrite !u_shr_assign_eq. 
  rewrite !u_shr_amt_of by assumption. rewrite (same_amount_val _ _ _ _ ES). rewrite (same_amount_val _ _ _ _ ES) in HR. apply cmp_shift_small; [exact HR|intros; finish]. Qed.

Lemma b249 : good (I --> Amt256 --> Runs I) i_shr_amt.
Proof. begin. argI a. intros s t HS. destruct HS as (O1 & O2 & ES & HR). 
  rewrite !i_shr_amt_of by assumption. rewrite (same_amount_val _ _ _ _ ES). rewrite (same_amount_val _ _ _ _ ES) in HR. apply cmp_shift_small; [exact HR|intros; finish]. Qed.

Lemma b250 : good (I --> Amt256 --> Runs I) i_shr_assign.
Proof. begin. argI a. intros s t HS. destruct HS as (O1 & O2 & ES & HR). rewrite !i_shr_assign_eq. 
  rewrite !i_shr_amt_of by assumption. rewrite (same_amount_val _ _ _ _ ES). rewrite (same_amount_val _ _ _ _ ES) in HR. apply cmp_shift_small; [exact HR|intros; finish]. Qed.

Lemma b251 : good (U --> U32 --> Runs U) u_wrapping_shr.
Proof. begin. argU a. argZ b. fam c1 c2 (fun c => named_shift_family c (uof c a) (iof c 0) b (wf_uof c a) (wf_iof c 0) Hb). all: go. Qed.

Lemma b252 : good (U --> U32 --> Runs (Pair U Flag)) u_overflowing_shr.
Proof. begin. argU a. argZ b. fam c1 c2 (fun c => named_shift_family c (uof c a) (iof c 0) b (wf_uof c a) (wf_iof c 0) Hb). all: go. Qed.

Lemma b253 : good (U --> U32 --> Runs (Opt U)) u_checked_shr.
Proof. begin. argU a. argZ b. fam c1 c2 (fun c => named_shift_family c (uof c a) (iof c 0) b (wf_uof c a) (wf_iof c 0) Hb). all: go. Qed.

Lemma b254 : good (I --> U32 --> Runs I) i_wrapping_shr.
Proof. begin. argI a. argZ b. fam c1 c2 (fun c => named_shift_family c (uof c 0) (iof c a) b (wf_uof c 0) (wf_iof c a) Hb). all: go. Qed.

Lemma b255 : good (I --> U32 --> Runs (Pair I Flag)) i_overflowing_shr.
Proof. begin. argI a. argZ b. fam c1 c2 (fun c => named_shift_family c (uof c 0) (iof c a) b (wf_uof c 0) (wf_iof c a) Hb). all: go. Qed.

Lemma b256 : good (I --> U32 --> Runs (Opt I)) i_checked_shr.
Proof. begin. argI a. argZ b. fam c1 c2 (fun c => named_shift_family c (uof c 0) (iof c a) b (wf_uof c 0) (wf_iof c a) Hb). all: go. Qed.

Lemma b257 : good (U --> UpTo256 --> Runs U) u_rotate_left.
Proof. begin. argU a. argZ b. unfold range in Hb. assert (0 <= b < 2 ^ 32) as Hb' by lia.
  pose proof (rotate_u_small c1 b a true Hb' Ha) as E1. pose proof (rotate_u_small c2 b a true Hb' Ha) as E2.
  cbv iota beta in E1, E2. rewrite E1, E2. apply rot_cmp; [right; lia|finish]. Qed.

Lemma b258 : good (I --> UpTo256 --> Runs I) i_rotate_left.
Proof. begin. argI a. argZ b. unfold range in Hb. assert (0 <= b < 2 ^ 32) as Hb' by lia.
  pose proof (rotate_i c1 b a true Hb') as E1. pose proof (rotate_i c2 b a true Hb') as E2.
  cbv iota beta in E1, E2. rewrite E1, E2. apply rot_cmp; [right; lia|finish]. Qed.

Lemma b259 : good (U --> UpTo256 --> Runs U) u_rotate_right.
Proof. begin. argU a. argZ b. unfold range in Hb. assert (0 <= b < 2 ^ 32) as Hb' by lia.
  pose proof (rotate_u_small c1 b a false Hb' Ha) as E1. pose proof (rotate_u_small c2 b a false Hb' Ha) as E2.
  cbv iota beta in E1, E2. rewrite E1, E2. apply rot_cmp; [right; lia|finish]. Qed.

Lemma b260 : good (I --> UpTo256 --> Runs I) i_rotate_right.
Proof. begin. argI a. argZ b. unfold range in Hb. assert (0 <= b < 2 ^ 32) as Hb' by lia.
  pose proof (rotate_i c1 b a false Hb') as E1. pose proof (rotate_i c2 b a false Hb') as E2.
  cbv iota beta in E1, E2. rewrite E1, E2. apply rot_cmp; [right; lia|finish]. Qed.

Lemma b261 : good (U --> Gives Bytes) u_to_be_bytes.
Proof. begin. argU a. destruct (u_bytes_of c1 a) as (L1 & B1 & _), (u_bytes_of c2 a) as (L2 & B2 & _). first [rewrite L1, L2|rewrite B1, B2]; apply gives; split; [reflexivity|]; try apply Forall_rev'; apply le_bytes_ok. Qed.

Lemma b262 : good (U --> Gives Bytes) u_to_le_bytes.
Proof. begin. argU a. destruct (u_bytes_of c1 a) as (L1 & B1 & _), (u_bytes_of c2 a) as (L2 & B2 & _). first [rewrite L1, L2|rewrite B1, B2]; apply gives; split; [reflexivity|]; try apply Forall_rev'; apply le_bytes_ok. Qed.

Lemma b263 : good (I --> Gives Bytes) i_to_be_bytes.
Proof. begin. argI a. destruct (i_bytes_nums c1 a) as (L1 & B1 & _), (i_bytes_nums c2 a) as (L2 & B2 & _). first [rewrite L1, L2|rewrite B1, B2]; apply gives; split; [reflexivity|]; try apply Forall_rev'; apply le_bytes_ok. Qed.

Lemma b264 : good (I --> Gives Bytes) i_to_le_bytes.
Proof. begin. argI a. destruct (i_bytes_nums c1 a) as (L1 & B1 & _), (i_bytes_nums c2 a) as (L2 & B2 & _). first [rewrite L1, L2|rewrite B1, B2]; apply gives; split; [reflexivity|]; try apply Forall_rev'; apply le_bytes_ok. Qed.

Lemma b265 : good (Bytes32 --> Gives U) u_from_be_bytes.
Proof. begin. argZ a. destruct (u_from_bytes_of c1 a Ha) as (L1 & B1 & _), (u_from_bytes_of c2 a Ha) as (L2 & B2 & _). first [rewrite L1, L2|rewrite B1, B2]; finish. Qed.

Lemma b266 : good (Bytes32 --> Gives U) u_from_le_bytes.
Proof. begin. argZ a. destruct (u_from_bytes_of c1 a Ha) as (L1 & B1 & _), (u_from_bytes_of c2 a Ha) as (L2 & B2 & _). first [rewrite L1, L2|rewrite B1, B2]; finish. Qed.

Lemma b267 : good (Bytes32 --> Gives I) i_from_be_bytes.
Proof. begin. argZ a. destruct (i_from_bytes_nums c1 a Ha) as (L1 & B1 & _), (i_from_bytes_nums c2 a Ha) as (L2 & B2 & _). first [rewrite L1, L2|rewrite B1, B2]; finish. Qed.

Lemma b268 : good (Bytes32 --> Gives I) i_from_le_bytes.
Proof. begin. argZ a. destruct (i_from_bytes_nums c1 a Ha) as (L1 & B1 & _), (i_from_bytes_nums c2 a Ha) as (L2 & B2 & _). first [rewrite L1, L2|rewrite B1, B2]; finish. Qed.

Lemma b269 : good (IntType --> U --> Gives Int) u_as.
Proof. begin. argZ t. argU a. destruct (usize_same _ _ CM). rewrite !u_as_of by assumption. rewrite (t_wrap_same _ _ t a CM). finish. Qed.

Lemma b270 : good (IntType --> I --> Gives Int) i_as.
Proof. begin. argZ t. argI a. destruct (usize_same _ _ CM). rewrite !i_as_of by assumption. rewrite (t_wrap_same _ _ t a CM). finish. Qed.

Lemma b271 : good (IntType --> U --> Gives (Opt Int)) u_try_into.
Proof. begin. argZ t. argU a. destruct (usize_same _ _ CM). rewrite !u_try_into_of by assumption. rewrite (t_in_same _ _ t a CM). finish. Qed.

Lemma b272 : good (IntType --> I --> Gives (Opt Int)) i_try_into.
Proof. begin. argZ t. argI a. destruct (usize_same _ _ CM). rewrite !i_try_into_of by assumption. rewrite (t_in_same _ _ t a CM). finish. Qed.

Lemma b273 : good (Prim --> Gives U) prim_as_u256.
Proof. begin. argZ a. rewrite !prim_as_u256_of by assumption. finish. Qed.

Lemma b274 : good (Prim --> Gives I) prim_as_i256.
Proof. begin. argZ a. change i_from_prim with prim_as_i256. rewrite !prim_as_i256_of by assumption. finish. Qed.

Lemma b275 : good (Prim --> Gives I) i_from_prim.
Proof. begin. argZ a. change i_from_prim with prim_as_i256. rewrite !prim_as_i256_of by assumption. finish. Qed.

Lemma b276 : good (U128 --> Gives U) u_from_prim.
Proof. begin. argZ a. unfold range in Ha. change u_from_prim with u_new. rewrite !u_new_of by assumption. finish. Qed.

Lemma b277 : good (Prim --> Gives (Opt U)) u_try_from_prim.
Proof. begin. argZ a. unfold range in Ha. unfold u_try_from_prim. finish; rewrite ?prim_as_u256_of, ?u_new_of by lia; finish. Qed.

Lemma b278 : good (Flag --> Gives U) bool_as_u256.
Proof. begin. argZ a. unfold i_from_bool, bool_as_u256, u_from_bool, bool_as_i256. destruct a; rewrite ?prim_as_u256_of, ?prim_as_i256_of, ?u_new_of, ?i_new_of by lia; finish. Qed.

Lemma b279 : good (Flag --> Gives U) u_from_bool.
Proof. begin. argZ a. unfold i_from_bool, bool_as_u256, u_from_bool, bool_as_i256. destruct a; rewrite ?prim_as_u256_of, ?prim_as_i256_of, ?u_new_of, ?i_new_of by lia; finish. Qed.

Lemma b280 : good (Flag --> Gives I) bool_as_i256.
Proof. begin. argZ a. unfold i_from_bool, bool_as_u256, u_from_bool, bool_as_i256. destruct a; rewrite ?prim_as_u256_of, ?prim_as_i256_of, ?u_new_of, ?i_new_of by lia; finish. Qed.

Lemma b281 : good (Flag --> Gives I) i_from_bool.
Proof. begin. argZ a. unfold i_from_bool, bool_as_u256, u_from_bool, bool_as_i256. destruct a; rewrite ?prim_as_u256_of, ?prim_as_i256_of, ?u_new_of, ?i_new_of by lia; finish. Qed.

Lemma b282 : good (U --> Gives I) (fun _ => u_as_i256).
Proof. begin. argU a. try unfold u256_as_i256, i256_as_u256. rewrite !u_as_i256_of. finish. Qed.

Lemma b283 : good (U --> Gives I) (fun _ => u256_as_i256).
Proof. begin. argU a. try unfold u256_as_i256, i256_as_u256. rewrite !u_as_i256_of. finish. Qed.

Lemma b284 : good (I --> Gives U) (fun _ => i_as_u256).
Proof. begin. argI a. try unfold u256_as_i256, i256_as_u256. rewrite !i_as_u256_of. finish. Qed.

Lemma b285 : good (I --> Gives U) (fun _ => i256_as_u256).
Proof. begin. argI a. try unfold u256_as_i256, i256_as_u256. rewrite !i_as_u256_of. finish. Qed.

Lemma b286 : good (U --> Gives U) (fun _ => u256_as_u256).
Proof. begin. argU a. unfold u256_as_u256, i256_as_i256. finish. Qed.

Lemma b287 : good (I --> Gives I) (fun _ => i256_as_i256).
Proof. begin. argI a. unfold u256_as_u256, i256_as_i256. finish. Qed.

Lemma b288 : good (U --> Gives (Opt I)) i_try_from_u256.
Proof. begin. argU a. fam c1 c2 (fun c => between_family c (uof c a) (iof c 0) (wf_uof c a) (wf_iof c 0)). go. Qed.

Lemma b289 : good (I --> Gives (Opt U)) u_try_from_i256.
Proof. begin. argI a. fam c1 c2 (fun c => between_family c (uof c 0) (iof c a) (wf_uof c 0) (wf_iof c a)). go. Qed.

Lemma b290 : good (U32 --> Runs U) (float_as_u256 F32).
Proof. begin. argZ a. destruct (float_nums F32 a ltac:(auto)) as (v & w & H). rewrite (proj1 (H c1)), (proj1 (H c2)). finish. Qed.

Lemma b291 : good (U32 --> Runs I) (float_as_i256 F32).
Proof. begin. argZ a. destruct (float_nums F32 a ltac:(auto)) as (v & w & H). rewrite (proj2 (H c1)), (proj2 (H c2)). finish. Qed.

Lemma b292 : good (U64 --> Runs U) (float_as_u256 F64).
Proof. begin. argZ a. destruct (float_nums F64 a ltac:(auto)) as (v & w & H). rewrite (proj1 (H c1)), (proj1 (H c2)). finish. Qed.

Lemma b293 : good (U64 --> Runs I) (float_as_i256 F64).
Proof. begin. argZ a. destruct (float_nums F64 a ltac:(auto)) as (v & w & H). rewrite (proj2 (H c1)), (proj2 (H c2)). finish. Qed.

Lemma b294 : good (U --> Gives Float) u_as_f32.
Proof. begin. argU a. rewrite !u_as_f32_rnd by assumption. finish. Qed.

Lemma b295 : good (U --> Gives Float) u_as_f64.
Proof. begin. argU a. rewrite !u_as_f64_of by assumption. finish. Qed.

Lemma b296 : good (I --> Gives Float) i_as_f32.
Proof. begin. argI a. unfold i_as_f32. rewrite !i_as_f64_of by assumption. finish. Qed.

Lemma b297 : good (I --> Gives Float) i_as_f64.
Proof. begin. argI a. rewrite !i_as_f64_of by assumption. finish. Qed.

Lemma b298 : good (Text --> U32 --> Runs (Result U)) u_from_str_radix.
Proof. begin. argZ a. argZ b. apply cmp_parse_u. Qed.

Lemma b299 : good (Text --> Runs (Result U)) u_from_str.
Proof. begin. argZ a. apply cmp_parse_u. Qed.

Lemma b300 : good (Text --> Runs (Result U)) u_from_str_hex.
Proof. begin. argZ a. apply cmp_parse_u. Qed.

Lemma b301 : good (Text --> Runs (Result U)) u_from_str_prefixed.
Proof. begin. argZ a. apply cmp_prefixed_u. Qed.

Lemma b302 : good (Text --> Runs U) u_const_from_str_prefixed.
Proof. begin. argZ a. apply (@numeric_good U uof _ _ _ c1 c2 (u_const_numeric a)). intros v. apply same_u. Qed.

Lemma b303 : good (Options --> U --> Runs Writes) u_fmt_display.
Proof. begin. argZ a. argU b. apply (text_good c1 c2 (fun c => u_fmt_display c a (uof c b)) CM). apply u_display_same. assumption. Qed.

Lemma b304 : good (Options --> U --> Runs Writes) u_fmt_debug.
Proof. begin. argZ a. argU b. apply (text_good c1 c2 (fun c => u_fmt_debug c a (uof c b)) CM). apply u_debug_same. assumption. Qed.

Lemma b305 : good (Kind --> Options --> U --> Runs Writes) u_fmt_radix.
Proof. begin. argZ a. argZ b. argU d. apply (text_good c1 c2 (fun c => u_fmt_radix c a b (uof c d)) CM). apply u_radix_same. assumption. Qed.

Lemma b306 : good (U --> Runs Text) u_serialize.
Proof. begin. argU a. destruct (usize_same _ _ CM) as [U1 U2]. destruct (u_serialize_same c1 c2 a U1 U2 Ha) as (h & d & E1 & E2 & E3 & E4). unfold u_serialize_prefixed, u_serialize_permissive. rewrite E1, E2. apply run_ret, same_any. Qed.

Lemma b307 : good (U --> Runs Text) u_serialize_decimal.
Proof. begin. argU a. destruct (usize_same _ _ CM) as [U1 U2]. destruct (u_serialize_same c1 c2 a U1 U2 Ha) as (h & d & E1 & E2 & E3 & E4). rewrite E3, E4. apply run_ret, same_any. Qed.

Lemma b308 : good (U --> Runs Text) u_serialize_prefixed.
Proof. begin. argU a. destruct (usize_same _ _ CM) as [U1 U2]. destruct (u_serialize_same c1 c2 a U1 U2 Ha) as (h & d & E1 & E2 & E3 & E4). unfold u_serialize_prefixed, u_serialize_permissive. rewrite E1, E2. apply run_ret, same_any. Qed.

Lemma b309 : good (U --> Runs Text) u_serialize_permissive.
Proof. begin. argU a. destruct (usize_same _ _ CM) as [U1 U2]. destruct (u_serialize_same c1 c2 a U1 U2 Ha) as (h & d & E1 & E2 & E3 & E4). unfold u_serialize_prefixed, u_serialize_permissive. rewrite E1, E2. apply run_ret, same_any. Qed.

Lemma b310 : good (Text --> Runs (De U)) (fun c => format_visit_str (u_de_hex c)).
Proof. begin. argZ a. apply cmp_visit_str, cmp_parse_u. Qed.

Lemma b311 : good (Text --> Runs (De U)) (fun c => format_visit_bytes (u_de_hex c)).
Proof. begin. argZ a. apply cmp_visit_bytes, cmp_parse_u. Qed.

Lemma b312 : good (Text --> Runs (De U)) (fun c => format_visit_str (u_de_decimal c)).
Proof. begin. argZ a. apply cmp_visit_str, cmp_parse_u. Qed.

Lemma b313 : good (Text --> Runs (De U)) (fun c => format_visit_bytes (u_de_decimal c)).
Proof. begin. argZ a. apply cmp_visit_bytes, cmp_parse_u. Qed.

Lemma b314 : good (Text --> Runs (De U)) (fun c => format_visit_str (u_de_prefixed c)).
Proof. begin. argZ a. apply cmp_visit_str, cmp_prefixed_u. Qed.

Lemma b315 : good (Text --> Runs (De U)) (fun c => format_visit_bytes (u_de_prefixed c)).
Proof. begin. argZ a. apply cmp_visit_bytes, cmp_prefixed_u. Qed.

Lemma b316 : good (Text --> Runs (De U)) u_permissive_visit_str.
Proof. begin. argZ a. apply cmp_visit_str, cmp_prefixed_u. Qed.

Lemma b317 : good (Prim --> Runs (De U)) (visit_int u_cast).
Proof. begin. argZ a. rewrite !visit_u by exact Ha. apply run_ret, same_dok, same_u. Qed.

Lemma b318 : good (Number --> Runs (De U)) (visit_f64 u_cast).
Proof. begin. argZ a. apply cmp_f64_u. Qed.

Lemma b319 : good (Number --> Runs (De U)) (visit_f32 u_cast).
Proof. begin. argZ a. unfold visit_f32. cbv zeta. destruct (negb _); [apply run_ret, same_derr|apply cmp_f64_u]. Qed.

Lemma b320 : good (Order --> U --> Gives Bytes) u_ser_bytes.
Proof. begin. argZ a. argU b. unfold u_ser_bytes. rewrite !u_to_bytes_nums by assumption. apply gives, same_bytes, order_ok, le_ok. Qed.

Lemma b321 : good (Order --> U --> Runs Bytes) u_ser_compressed.
Proof. begin. argZ o. argU a. destruct (usize_same _ _ CM) as [U1 U2]. destruct (u_ser_compressed_same c1 c2 o a U1 U2 Ha) as (v & B & E1 & E2). rewrite E1, E2. apply run_ret, same_bytes, B. Qed.

Lemma b322 : good (Order --> Bytes --> Runs (De U)) u_visit_bytes.
Proof. begin. argZ a. argZ b. apply cmp_bytes_u. assumption. Qed.

Lemma b323 : good (Order --> Bytes --> Runs (De U)) u_compressed_visit_bytes.
Proof. begin. argZ a. argZ b. destruct (usize_same _ _ CM) as [U1 U2]. apply cmp_compressed_u; assumption. Qed.

Lemma b324 : good (Order --> Seq --> Runs (De U)) u_visit_seq.
Proof. begin. argZ a. argZ b. apply (@cmp_seq U c1 c2 (u_from_bytes c1 a) (u_from_bytes c2 a) b). intros l Y L. apply from_bytes_u; [exact (same_seq_bytes _ _ Hb Y)|exact L]. Qed.

Lemma b325 : good (Order --> Seq --> Runs (De U)) u_compressed_visit_seq.
Proof. begin. argZ a. argZ b. destruct (usize_same _ _ CM) as [U1 U2]. apply (@cmp_compressed_seq U c1 c2 a u_extend (u_from_bytes c1 a) (u_from_bytes c2 a) b); try assumption. intros l Y L. apply cmp_compressed_u; try assumption. exact (same_seq_bytes _ _ Hb Y). Qed.

Lemma b326 : good (Text --> U32 --> Runs (Result I)) i_from_str_radix.
Proof. begin. argZ a. argZ b. apply cmp_parse_i. Qed.

Lemma b327 : good (Text --> Runs (Result I)) i_from_str.
Proof. begin. argZ a. apply cmp_parse_i. Qed.

Lemma b328 : good (Text --> Runs (Result I)) i_from_str_hex.
Proof. begin. argZ a. apply cmp_parse_i. Qed.

Lemma b329 : good (Text --> Runs (Result I)) i_from_str_prefixed.
Proof. begin. argZ a. apply cmp_prefixed_i. Qed.

Lemma b330 : good (Text --> Runs I) i_const_from_str_prefixed.
Proof. begin. argZ a. apply (@numeric_good I iof _ _ _ c1 c2 (i_const_numeric a)). intros v. apply same_i. Qed.

Lemma b331 : good (Options --> I --> Runs Writes) i_fmt_display.
Proof. begin. argZ a. argI b. apply (text_good c1 c2 (fun c => i_fmt_display c a (iof c b)) CM). apply i_display_same. assumption. Qed.

Lemma b332 : good (Options --> I --> Runs Writes) i_fmt_debug.
Proof. begin. argZ a. argI b. apply (text_good c1 c2 (fun c => i_fmt_debug c a (iof c b)) CM). apply i_debug_same. assumption. Qed.

Lemma b333 : good (Kind --> Options --> I --> Runs Writes) i_fmt_radix.
Proof. begin. argZ a. argZ b. argI d. apply (text_good c1 c2 (fun c => i_fmt_radix c a b (iof c d)) CM). apply i_radix_same. assumption. Qed.

Lemma b334 : good (I --> Runs Text) i_serialize.
Proof. begin. argI a. destruct (usize_same _ _ CM) as [U1 U2]. destruct (i_serialize_same c1 c2 a U1 U2 Ha) as (h & d & E1 & E2 & E3 & E4). unfold i_serialize_prefixed, i_serialize_permissive. rewrite E1, E2. apply run_ret, same_any. Qed.

Lemma b335 : good (I --> Runs Text) i_serialize_decimal.
Proof. begin. argI a. destruct (usize_same _ _ CM) as [U1 U2]. destruct (i_serialize_same c1 c2 a U1 U2 Ha) as (h & d & E1 & E2 & E3 & E4). rewrite E3, E4. apply run_ret, same_any. Qed.

Lemma b336 : good (I --> Runs Text) i_serialize_prefixed.
Proof. begin. argI a. destruct (usize_same _ _ CM) as [U1 U2]. destruct (i_serialize_same c1 c2 a U1 U2 Ha) as (h & d & E1 & E2 & E3 & E4). unfold i_serialize_prefixed, i_serialize_permissive. rewrite E1, E2. apply run_ret, same_any. Qed.

Lemma b337 : good (I --> Runs Text) i_serialize_permissive.
Proof. begin. argI a. destruct (usize_same _ _ CM) as [U1 U2]. destruct (i_serialize_same c1 c2 a U1 U2 Ha) as (h & d & E1 & E2 & E3 & E4). unfold i_serialize_prefixed, i_serialize_permissive. rewrite E1, E2. apply run_ret, same_any. Qed.

Lemma b338 : good (Text --> Runs (De I)) (fun c => format_visit_str (i_de_hex c)).
Proof. begin. argZ a. apply cmp_visit_str, cmp_parse_i. Qed.

Lemma b339 : good (Text --> Runs (De I)) (fun c => format_visit_bytes (i_de_hex c)).
Proof. begin. argZ a. apply cmp_visit_bytes, cmp_parse_i. Qed.

Lemma b340 : good (Text --> Runs (De I)) (fun c => format_visit_str (i_de_decimal c)).
Proof. begin. argZ a. apply cmp_visit_str, cmp_parse_i. Qed.

Lemma b341 : good (Text --> Runs (De I)) (fun c => format_visit_bytes (i_de_decimal c)).
Proof. begin. argZ a. apply cmp_visit_bytes, cmp_parse_i. Qed.

Lemma b342 : good (Text --> Runs (De I)) (fun c => format_visit_str (i_de_prefixed c)).
Proof. begin. argZ a. apply cmp_visit_str, cmp_prefixed_i. Qed.

Lemma b343 : good (Text --> Runs (De I)) (fun c => format_visit_bytes (i_de_prefixed c)).
Proof. begin. argZ a. apply cmp_visit_bytes, cmp_prefixed_i. Qed.

Lemma b344 : good (Text --> Runs (De I)) i_permissive_visit_str.
Proof. begin. argZ a. apply cmp_visit_str, cmp_prefixed_i. Qed.

Lemma b345 : good (Prim --> Runs (De I)) (visit_int i_cast).
Proof. begin. argZ a. rewrite !visit_i by exact Ha. apply run_ret, same_dok, same_i. Qed.

Lemma b346 : good (Number --> Runs (De I)) (visit_f64 i_cast).
Proof. begin. argZ a. apply cmp_f64_i. Qed.

Lemma b347 : good (Number --> Runs (De I)) (visit_f32 i_cast).
Proof. begin. argZ a. unfold visit_f32. cbv zeta. destruct (negb _); [apply run_ret, same_derr|apply cmp_f64_i]. Qed.

Lemma b348 : good (Order --> I --> Gives Bytes) i_ser_bytes.
Proof. begin. argZ a. argI b. unfold i_ser_bytes. rewrite !i_to_bytes_nums by assumption. apply gives, same_bytes, order_ok, le_ok. Qed.

Lemma b349 : good (Order --> I --> Runs Bytes) i_ser_compressed.
Proof. begin. argZ o. argI a. destruct (usize_same _ _ CM) as [U1 U2]. destruct (i_ser_compressed_same c1 c2 o a U1 U2 Ha) as (v & B & E1 & E2). rewrite E1, E2. apply run_ret, same_bytes, B. Qed.

Lemma b350 : good (Order --> Bytes --> Runs (De I)) i_visit_bytes.
Proof. begin. argZ a. argZ b. apply cmp_bytes_i. assumption. Qed.

Lemma b351 : good (Order --> Bytes --> Runs (De I)) i_compressed_visit_bytes.
Proof. begin. argZ a. argZ b. destruct (usize_same _ _ CM) as [U1 U2]. apply cmp_compressed_i; assumption. Qed.

Lemma b352 : good (Order --> Seq --> Runs (De I)) i_visit_seq.
Proof. begin. argZ a. argZ b. apply (@cmp_seq I c1 c2 (i_from_bytes c1 a) (i_from_bytes c2 a) b). intros l Y L. apply from_bytes_i; [exact (same_seq_bytes _ _ Hb Y)|exact L]. Qed.

Lemma b353 : good (Order --> Seq --> Runs (De I)) i_compressed_visit_seq.
Proof. begin. argZ a. argZ b. destruct (usize_same _ _ CM) as [U1 U2]. apply (@cmp_compressed_seq I c1 c2 a i_extend (i_from_bytes c1 a) (i_from_bytes c2 a) b); try assumption. intros l Y L. apply cmp_compressed_i; try assumption. exact (same_seq_bytes _ _ Hb Y). Qed.
