(** * Well-known expressions: proofs of C78 *)

From Coq Require Import ZArith List String Bool Lia ZifyBool.
From Verif Require Import M_Prim M_Words M_Intr M_Div M_Mul M_Ops M_UintApi M_IntApi M_Convert Spec Spec_Bits Spec_Idioms
  P_Words P_AddSub P_Bits P_DivKnuth P_Ops P_Count P_Embed P_Laws.
Open Scope Z_scope.

Lemma dbg_ok {A} c ok msg (v : A) : ok = true -> dbg c ok msg v = Ret v.
Proof. intros ->. unfold dbg. rewrite andb_false_r. reflexivity. Qed.
Lemma in_u_ok v : 0 <= v < 2 ^ 256 -> in_u 256 v = true.
Proof. intros. rewrite in_u_256. apply andb_true_intro. lia. Qed.
Lemma in_i_ok v : - 2 ^ 255 <= v < 2 ^ 255 -> in_i 256 v = true.
Proof. intros. rewrite in_i_256. apply andb_true_intro. lia. Qed.
Lemma lxor_i a b : - 2 ^ 255 <= a < 2 ^ 255 -> - 2 ^ 255 <= b < 2 ^ 255 -> - 2 ^ 255 <= Z.lxor a b < 2 ^ 255.
Proof.
  intros. rewrite <- (wrap_i_small 256 a), <- (wrap_i_small 256 b), wrap_i_lxor by (cbn; lia).
  apply (wrap_i_range 256). lia.
Qed.
Lemma land_i a b : - 2 ^ 255 <= a < 2 ^ 255 -> - 2 ^ 255 <= b < 2 ^ 255 -> - 2 ^ 255 <= Z.land a b < 2 ^ 255.
Proof.
  intros. rewrite <- (wrap_i_small 256 a), <- (wrap_i_small 256 b), wrap_i_land by (cbn; lia).
  apply (wrap_i_range 256). lia.
Qed.
Lemma lor_i a b : - 2 ^ 255 <= a < 2 ^ 255 -> - 2 ^ 255 <= b < 2 ^ 255 -> - 2 ^ 255 <= Z.lor a b < 2 ^ 255.
Proof.
  intros. rewrite <- (wrap_i_small 256 a), <- (wrap_i_small 256 b), wrap_i_lor by (cbn; lia).
  apply (wrap_i_range 256). lia.
Qed.

(** ** Averages *)
Lemma half_down a b : Z.land a b + Z.lxor a b / 2 = (a + b) / 2.
Proof.
  rewrite <- (lxor_land_sum a b), (Z.mul_comm 2), Z.div_add by lia. lia.
Qed.
Lemma half_up a b : Z.lor a b - Z.lxor a b / 2 = (a + b + 1) / 2.
Proof.
  pose proof (lxor_land_sum a b). pose proof (lor_land_sum a b).
  Z.to_euclidean_division_equations; lia.
Qed.

Lemma averages c a b : wf_u a -> wf_u b ->
  average c a b = Ret (uof c ((uval c a + uval c b) / 2)) /\
  average_up c a b = Ret (uof c ((uval c a + uval c b + 1) / 2)).
Proof.
  intros Ha Hb. on_u c a. on_u c b. unfold average, average_up.
  pose proof (lxor_bound na nb 256 ltac:(lia) Hna Hnb). pose proof (land_bound na nb 256 ltac:(lia) Hna (proj1 Hnb)).
  pose proof (lor_bound na nb 256 ltac:(lia) Hna Hnb).
  rewrite u_op_xor_of, u_op_and_of, u_op_or_of, u_op_shr_of by lia. cbn [bind].
  change (2 ^ 1) with 2.
  pose proof (half_down na nb). pose proof (half_up na nb).
  assert (0 <= Z.lxor na nb / 2 < 2 ^ 256) by (Z.to_euclidean_division_equations; lia).
  assert (0 <= (na + nb) / 2 < 2 ^ 256 /\ 0 <= (na + nb + 1) / 2 < 2 ^ 256) by (Z.to_euclidean_division_equations; lia).
  rewrite u_op_add_of, u_op_sub_of by lia.
  rewrite !dbg_ok by (apply in_u_ok; lia). split; do 2 f_equal; lia.
Qed.
Lemma iaverages c x y : wf_i x -> wf_i y ->
  iaverage c x y = Ret (iof c ((ival c x + ival c y) / 2)) /\
  iaverage_up c x y = Ret (iof c ((ival c x + ival c y + 1) / 2)).
Proof.
  intros Ha Hb. on_i c x. on_i c y. unfold iaverage, iaverage_up.
  pose proof (lxor_i nx ny Hnx Hny). pose proof (land_i nx ny Hnx Hny). pose proof (lor_i nx ny Hnx Hny).
  rewrite i_op_xor_of, i_op_and_of, i_op_or_of, i_op_shr_of by lia. cbn [bind].
  change (2 ^ 1) with 2.
  pose proof (half_down nx ny). pose proof (half_up nx ny).
  assert (- 2 ^ 255 <= Z.lxor nx ny / 2 < 2 ^ 255) by (Z.to_euclidean_division_equations; lia).
  assert (- 2 ^ 255 <= (nx + ny) / 2 < 2 ^ 255 /\ - 2 ^ 255 <= (nx + ny + 1) / 2 < 2 ^ 255)
    by (Z.to_euclidean_division_equations; lia).
  rewrite i_op_add_of, i_op_sub_of by lia.
  rewrite !dbg_ok by (apply in_i_ok; lia). split; do 2 f_equal; lia.
Qed.

(** ** The lowest bit *)
Lemma lowest_split v k : lowest v k -> v = 2 ^ k * (2 * (v / 2 ^ (k + 1)) + 1).
Proof.
  intros (Hk & Hb & Hl). pose proof (Z.pow_pos_nonneg 2 k ltac:(lia) Hk).
  assert (Hm : v mod 2 ^ k = 0).
  { apply Z.bits_inj'. intros i Hi. rewrite Z.bits_0. destruct (Z.lt_ge_cases i k).
    - rewrite Z.mod_pow2_bits_low by lia. apply Hl. lia.
    - apply Z.mod_pow2_bits_high. lia. }
  assert (Ho : v / 2 ^ k = 2 * (v / 2 ^ k / 2) + 1).
  { rewrite <- Z.div2_div. pose proof (Z.div2_odd (v / 2 ^ k)) as E.
    rewrite <- Z.bit0_odd, Z.div_pow2_bits in E by lia. rewrite Z.add_0_l, Hb in E. cbn [Z.b2z] in E. exact E. }
  rewrite Z.div_div in Ho by lia. rewrite Z.pow_add_r, Z.pow_1_r by lia.
  rewrite <- Ho. pose proof (Z.div_mod v (2 ^ k) ltac:(lia)). lia.
Qed.
Lemma land_pred k m : 0 <= k ->
  Z.land (2 ^ k * (2 * m + 1)) (2 ^ k * (2 * m + 1) - 1) = 2 ^ k * (2 * m).
Proof.
  intros Hk. pose proof (Z.pow_pos_nonneg 2 k ltac:(lia) Hk).
  replace (2 ^ k * (2 * m + 1) - 1) with (Z.lor (2 * m * 2 ^ k) (Z.ones k)).
  2: { rewrite lor_disjoint; rewrite ?Z.ones_equiv; lia. }
  rewrite !(Z.mul_comm (2 ^ k)).
  apply Z.bits_inj'. intros i Hi. rewrite Z.land_spec, Z.lor_spec, !Z.mul_pow2_bits by lia.
  destruct (Z.lt_ge_cases i k).
  - rewrite !Z.testbit_neg_r by lia. reflexivity.
  - rewrite Z.ones_spec_high, orb_false_r by lia.
    destruct (Z.eq_dec (i - k) 0) as [->|Hn].
    + rewrite Z.testbit_even_0, andb_false_r. reflexivity.
    + replace (i - k) with (Z.succ (i - k - 1)) by lia.
      rewrite Z.testbit_odd_succ, Z.testbit_even_succ by lia. apply andb_diag.
Qed.
Lemma land_neg a : Z.land a (- a) = a - Z.land a (a - 1).
Proof.
  replace (- a) with (Z.lnot (a - 1)) by (unfold Z.lnot; lia).
  assert (E : a = Z.land a (Z.lnot (a - 1)) + Z.land a (a - 1)).
  { rewrite Z.add_nocarry_lxor.
    - generalize (a - 1). intros b. bitwise.
    - generalize (a - 1). intros b. bitwise. }
  lia.
Qed.

Lemma lowest_bits c a : wf_u a -> 0 < uval c a ->
  exists k, 0 <= k < 256 /\ u_trailing_zeros c a = Ret k /\ (2 ^ k | uval c a) /\ ~ (2 ^ (k + 1) | uval c a) /\
    lowest_bit c a = uof c (2 ^ k) /\ drop_lowest c a = Ret (uof c (uval c a - 2 ^ k)).
Proof.
  intros Ha. on_u c a. intros Hp.
  destruct (cttz_of c na Hna) as (k & Hk & [[? ?]|(_ & Hk2 & HL)]); [lia|].
  pose proof (lowest_split _ _ HL) as E. destruct HL as (Hk0 & _). set (m := na / 2 ^ (k + 1)) in *.
  pose proof (Z.pow_pos_nonneg 2 k ltac:(lia) Hk0).
  assert (L : Z.land na (na - 1) = na - 2 ^ k) by (rewrite E, land_pred by lia; lia).
  exists k. split; [lia|]. split; [exact Hk|]. split; [exists (2 * m + 1); lia|]. split; [|split].
  - intros [q Hq]. rewrite Z.pow_add_r, Z.pow_1_r in Hq by lia.
    assert (F : 2 ^ k * (2 * m + 1 - 2 * q) = 0) by lia. apply Z.mul_eq_0 in F. lia.
  - unfold lowest_bit. rewrite uwneg, u_op_and_of, land_neg, L. f_equal. lia.
  - unfold drop_lowest. rewrite U256_ONE_of, u_op_sub_of by lia.
    rewrite dbg_ok by (apply in_u_ok; lia). cbn [bind]. rewrite u_op_and_of, L. reflexivity.
Qed.
Lemma power_test c a : wf_u a -> 0 < uval c a ->
  drop_lowest c a = Ret U256_ZERO <-> exists k, 0 <= k /\ uval c a = 2 ^ k.
Proof.
  intros Ha Hp. destruct (lowest_bits c a Ha Hp) as (k & Hk & _ & [q D1] & D2 & _ & ->).
  pose proof (uval_range c a Ha) as Hr. pose proof (Z.pow_pos_nonneg 2 k ltac:(lia) ltac:(lia)).
  rewrite (U256_ZERO_of c). split.
  - intros E. injection E as E. exists k. split; [lia|].
    assert (1 <= q) by nia.
    assert (uval c a - 2 ^ k = 0); [|lia]. apply (uof_inj c); [nia|lia|]. exact E.
  - intros (j & Hj & E). do 2 f_equal. destruct (Z.lt_trichotomy j k) as [L|[->|L]]; [|lia|].
    + exfalso. assert (2 ^ j < 2 ^ k) by (apply Z.pow_lt_mono_r; lia). assert (1 <= q) by nia. nia.
    + exfalso. apply D2. exists (2 ^ (j - (k + 1))). rewrite <- Z.pow_add_r, E by lia. f_equal. lia.
Qed.

(** ** Masks *)
Lemma mask_of c k : 0 <= k < 256 -> mask c k = Ret (uof c (2 ^ k - 1)).
Proof.
  intros Hk. unfold mask. rewrite U256_ONE_of, u_op_shl_of by lia. cbn [bind]. rewrite Z.mul_1_l.
  pose proof (Z.pow_pos_nonneg 2 k ltac:(lia) ltac:(lia)). pose proof (Z.pow_lt_mono_r 2 k 256 ltac:(lia) ltac:(lia) ltac:(lia)).
  rewrite u_op_sub_of by lia. apply dbg_ok, in_u_ok. lia.
Qed.
Lemma pow_ones k : 2 ^ k - 1 = Z.ones k. Proof. rewrite Z.ones_equiv. lia. Qed.
Lemma land_clear a k : 0 <= k -> Z.land a (- (2 ^ k - 1) - 1) = a - a mod 2 ^ k.
Proof.
  intros Hk. rewrite not_lnot, pow_ones, <- Z.ldiff_land, Z.ldiff_ones_r, Z.shiftl_mul_pow2, Z.shiftr_div_pow2 by lia.
  pose proof (Z.pow_pos_nonneg 2 k ltac:(lia) Hk). pose proof (Z.div_mod a (2 ^ k) ltac:(lia)). lia.
Qed.
Lemma masks c a k : wf_u a -> 0 <= k < 256 ->
  mask c k = Ret (uof c (2 ^ k - 1)) /\
  low_bits c a k = Ret (uof c (uval c a mod 2 ^ k)) /\
  align_down c a k = Ret (uof c (uval c a / 2 ^ k * 2 ^ k)) /\
  (uval c a <= 2 ^ 256 - 2 ^ k -> align_up c a k = Ret (uof c ((uval c a + 2 ^ k - 1) / 2 ^ k * 2 ^ k))) /\
  (2 ^ 256 - 2 ^ k < uval c a -> align_up c a k =
     if debug_assertions c then Panic "attempt to add with overflow" else Ret U256_ZERO).
Proof.
  intros Ha Hk. on_u c a. unfold low_bits, align_down, align_up. rewrite mask_of by lia. cbn [bind].
  pose proof (Z.pow_pos_nonneg 2 k ltac:(lia) ltac:(lia)). pose proof (Z.pow_lt_mono_r 2 k 256 ltac:(lia) ltac:(lia) ltac:(lia)).
  split; [reflexivity|]. rewrite u_op_and_of, u_op_not_of, u_op_and_of, land_clear by lia.
  rewrite (pow_ones k) at 1. rewrite Z.land_ones by lia. split; [reflexivity|].
  split; [do 2 f_equal; pose proof (Z.div_mod na (2 ^ k) ltac:(lia)); lia|].
  rewrite u_op_add_of by lia. split; intros.
  - rewrite dbg_ok by (apply in_u_ok; lia). cbn [bind]. rewrite u_op_and_of, land_clear by lia. do 2 f_equal.
    replace (na + 2 ^ k - 1) with (na + (2 ^ k - 1)) by lia.
    pose proof (Z.div_mod (na + (2 ^ k - 1)) (2 ^ k) ltac:(lia)). lia.
  - unfold dbg. replace (in_u 256 (na + (2 ^ k - 1))) with false by (rewrite in_u_256; lia).
    cbn [negb]. rewrite andb_true_r. destruct (debug_assertions c); [reflexivity|]. cbn [bind].
    rewrite u_op_and_of, land_clear, (U256_ZERO_of c) by lia. f_equal. apply uof_cong.
    assert (E : (na + (2 ^ k - 1)) mod 2 ^ k = na + (2 ^ k - 1) - 2 ^ 256).
    { symmetry. apply (Z.mod_unique _ _ (2 ^ (256 - k))); [left; lia|].
      rewrite <- Z.pow_add_r by lia. replace (k + (256 - k)) with 256 by lia. lia. }
    rewrite E. replace (na + (2 ^ k - 1) - (na + (2 ^ k - 1) - 2 ^ 256)) with (2 ^ 256) by lia. reflexivity.
Qed.

(** ** Rounding division up *)
Lemma ceil_divs c a b : wf_u a -> wf_u b -> uval c b <> 0 ->
  ceil_div c a b = Ret (uof c ((uval c a + uval c b - 1) / uval c b)).
Proof.
  intros Ha Hb. on_u c a. on_u c b. intros Hz. unfold ceil_div.
  rewrite u_op_div_of, u_op_rem_of by lia. replace (nb =? 0) with false by lia. cbn [bind].
  pose proof (Z.mod_pos_bound na nb ltac:(lia)). pose proof (Z.div_mod na nb Hz).
  assert (0 <= na / nb <= na) by nia.
  rewrite (U256_ZERO_of c), u_eq_of by lia. unfold u_from_bool.
  destruct (Z.eqb_spec (na mod nb) 0) as [E|E]; cbn [negb Z.b2z].
  - rewrite u_new_of, u_op_add_of, dbg_ok by (try apply in_u_ok; lia). do 2 f_equal.
    apply (Z.div_unique _ _ _ (nb - 1)); lia.
  - assert (na / nb < na \/ nb = 1) as [?| ->] by nia; [|rewrite Z.mod_1_r in E; lia].
    rewrite u_new_of, u_op_add_of, dbg_ok by (try apply in_u_ok; lia). do 2 f_equal.
    apply (Z.div_unique _ _ _ (na mod nb - 1)); lia.
Qed.

(** ** Selecting and swapping *)
Lemma selects c a b : wf_u a -> wf_u b ->
  select_min c a b = uof c (Z.min (uval c a) (uval c b)) /\ xor_swap a b = (b, a).
Proof.
  intros Ha Hb. on_u c a. on_u c b. split.
  - unfold select_min, u_from_bool. rewrite u_lt_of by lia.
    rewrite u_new_of by (destruct (na <? nb); cbn; lia).
    rewrite uwneg, u_op_xor_of, u_op_and_of, u_op_xor_of. f_equal.
    destruct (Z.ltb_spec na nb); cbn [Z.b2z Z.opp].
    + rewrite Z.land_m1_r, Z.min_l by lia. bitwise.
    + rewrite Z.land_0_r, Z.lxor_0_r, Z.min_r by lia. reflexivity.
  - unfold xor_swap. rewrite !u_op_xor_assign_eq, !u_op_xor_of.
    f_equal; f_equal; bitwise.
Qed.

(** ** Signs *)
Lemma sign_shift x : - 2 ^ 255 <= x < 2 ^ 255 -> x / 2 ^ 255 = if x <? 0 then - 1 else 0.
Proof.
  intros. destruct (Z.ltb_spec x 0).
  - symmetry. apply (Z.div_unique _ _ _ (x + 2 ^ 255)); lia.
  - apply Z.div_small. lia.
Qed.
Lemma abses c x : wf_i x ->
  (ival c x <> MINI -> branchless_abs c x = Ret (iof c (Z.abs (ival c x)))) /\
  (ival c x = MINI -> branchless_abs c x =
     if debug_assertions c then Panic "attempt to subtract with overflow" else Ret x).
Proof.
  intros Hx. on_i c x. unfold branchless_abs, MINI. rewrite i_op_shr_of, sign_shift by lia. cbn [bind].
  rewrite i_op_xor_of. destruct (Z.ltb_spec nx 0).
  - rewrite Z.lxor_m1_r. replace (Z.lnot nx) with (- nx - 1) by (unfold Z.lnot; lia).
    rewrite i_op_sub_of by lia. split; intros.
    + rewrite dbg_ok by (apply in_i_ok; lia). do 2 f_equal. lia.
    + subst nx. unfold dbg. destruct (debug_assertions c); reflexivity.
  - rewrite Z.lxor_0_r, i_op_sub_of by lia. split; intros; [|lia].
    rewrite dbg_ok by (apply in_i_ok; lia). do 2 f_equal. lia.
Qed.
Lemma signs c x y : wf_i x -> wf_i y ->
  signs_differ c x y = xorb (ival c x <? 0) (ival c y <? 0).
Proof.
  intros Hx Hy. on_i c x. on_i c y. unfold signs_differ.
  rewrite i_op_xor_of, i_is_negative_of by (apply lxor_i; lia).
  pose proof (Z.lxor_nonneg nx ny).
  destruct (Z.ltb_spec (Z.lxor nx ny) 0), (Z.ltb_spec nx 0), (Z.ltb_spec ny 0); cbn [xorb]; try reflexivity; exfalso; lia.
Qed.

(** ** Overflow tests *)
Lemma carry_test c a b : wf_u a -> wf_u b ->
  carries c a b = (2 ^ 256 <=? uval c a + uval c b) /\ snd (u_overflowing_add c a b) = carries c a b.
Proof.
  intros Ha Hb. on_u c a. on_u c b. unfold carries, u_overflowing_add. rewrite uaddc_of, uwadd by lia. cbn [snd].
  assert (E : u_lt c (uof c (na + nb)) (uof c na) = (2 ^ 256 <=? na + nb)); [|split; [exact E|symmetry; exact E]].
  destruct (Z.leb_spec (2 ^ 256) (na + nb)).
  - rewrite (uof_cong c (na + nb) (na + nb - 2 ^ 256)), u_lt_of by
      (try lia; rewrite <- (Z.mod_add (na + nb - 2 ^ 256) 1) by lia; f_equal; lia). lia.
  - rewrite u_lt_of by lia. lia.
Qed.
Lemma overflow_test c x y : wf_i x -> wf_i y ->
  overflows c x y = negb (in_i 256 (ival c x + ival c y)) /\ snd (i_overflowing_add c x y) = overflows c x y.
Proof.
  intros Hx Hy. on_i c x. on_i c y. unfold overflows. rewrite i_overflowing_add_of, iwadd by lia. cbn [snd].
  match goal with |- ?l = ?r /\ _ => assert (E : l = r); [|split; [exact E|symmetry; exact E]] end.
  assert (exists s, iof c (nx + ny) = iof c s /\ - 2 ^ 255 <= s < 2 ^ 255 /\
    (s = nx + ny \/ s = nx + ny - 2 ^ 256 \/ s = nx + ny + 2 ^ 256)) as (s & -> & Hs & D).
  { destruct (Z.lt_ge_cases (nx + ny) (- 2 ^ 255)); [|destruct (Z.lt_ge_cases (nx + ny) (2 ^ 255))].
    - exists (nx + ny + 2 ^ 256). split; [|lia]. apply iof_cong. rewrite <- (Z.mod_add (nx + ny) 1) by lia. f_equal; lia.
    - exists (nx + ny). split; [reflexivity|lia].
    - exists (nx + ny - 2 ^ 256). split; [|lia]. apply iof_cong.
      rewrite <- (Z.mod_add (nx + ny - 2 ^ 256) 1) by lia. f_equal; lia. }
  rewrite !i_op_xor_of, i_op_and_of, i_is_negative_of by (apply land_i; apply lxor_i; lia).
  pose proof (Z.land_nonneg (Z.lxor nx s) (Z.lxor ny s)). pose proof (Z.lxor_nonneg nx s). pose proof (Z.lxor_nonneg ny s).
  rewrite in_i_256.
  destruct (Z.ltb_spec (Z.land (Z.lxor nx s) (Z.lxor ny s)) 0), (Z.leb_spec (- 2 ^ 255) (nx + ny)),
    (Z.ltb_spec (nx + ny) (2 ^ 255)); cbn [negb andb]; try reflexivity; exfalso; lia.
Qed.
