(** * Rotations, bit counting, bit and byte permutations, byte arrays, comparison, hashing *)

From Coq Require Import ZArith List String Bool Lia ZifyBool Znumtheory.
Import ListNotations.
From Verif Require Import M_Prim M_Words M_Llvm M_Intr M_Div M_Mul M_Ops M_UintApi M_IntApi Spec Spec_Bits
  P_Words P_Llvm P_AddSub P_Bits P_Forms.
Open Scope Z_scope.

(** ** Bits of values *)
Lemma bit_uof c v i : 0 <= i < 256 -> Z.testbit (uval c (uof c v)) i = Z.testbit v i.
Proof. intros. rewrite uval_uof. apply Z.mod_pow2_bits_low. lia. Qed.
Lemma bit_iof c v i : 0 <= i < 256 -> Z.testbit (ival c (iof c v)) i = Z.testbit v i.
Proof. intros. rewrite ival_iof. apply wrap_i_low_bits; lia. Qed.

Lemma u_bits_eq c a b : wf_u a -> wf_u b ->
  (forall i, 0 <= i < 256 -> Z.testbit (uval c a) i = Z.testbit (uval c b) i) -> a = b.
Proof.
  intros Ha Hb H. rewrite <- (uof_uval c a), <- (uof_uval c b) by assumption. f_equal.
  pose proof (uval_range c a Ha). pose proof (uval_range c b Hb).
  rewrite <- (Z.mod_small (uval c a) (2 ^ 256)), <- (Z.mod_small (uval c b) (2 ^ 256)) by lia.
  apply Z.bits_inj'. intros i Hi. rewrite !testbit_mod_pow2 by lia.
  destruct (Z.ltb_spec i 256); [|reflexivity]. apply H. lia.
Qed.
Lemma mod256_bits a b : (forall i, 0 <= i < 256 -> Z.testbit a i = Z.testbit b i) -> a mod 2 ^ 256 = b mod 2 ^ 256.
Proof.
  intros H. apply Z.bits_inj'. intros i Hi. rewrite !testbit_mod_pow2 by lia.
  destruct (Z.ltb_spec i 256); [|reflexivity]. apply H. lia.
Qed.
Lemma i_bits_eq c a b : wf_i a -> wf_i b ->
  (forall i, 0 <= i < 256 -> Z.testbit (ival c a) i = Z.testbit (ival c b) i) -> a = b.
Proof.
  intros Ha Hb H. rewrite <- (iof_ival c a), <- (iof_ival c b) by assumption. apply iof_cong.
  apply mod256_bits. assumption.
Qed.

(** ** Bitwise operators *)
Lemma u_bitwise c a b i : wf_u a -> wf_u b -> 0 <= i < 256 ->
  let bit x := Z.testbit (uval c x) i in
  bit (u_op_and a b) = bit a && bit b /\ bit (u_op_and_assign a b) = bit a && bit b /\
  bit (u_op_or a b) = bit a || bit b /\ bit (u_op_or_assign a b) = bit a || bit b /\
  bit (u_op_xor a b) = xorb (bit a) (bit b) /\ bit (u_op_xor_assign a b) = xorb (bit a) (bit b) /\
  bit (u_op_not a) = negb (bit a) /\
  Forall wf_u [u_op_and a b; u_op_or a b; u_op_xor a b; u_op_not a;
               u_op_and_assign a b; u_op_or_assign a b; u_op_xor_assign a b].
Proof.
  intros Ha Hb Hi. cbv zeta. change (u_op_and_assign a b) with (u_op_and a b). change (u_op_or_assign a b) with (u_op_or a b). change (u_op_xor_assign a b) with (u_op_xor a b).
  on_u c a. on_u c b.
  rewrite u_op_and_of, u_op_or_of, u_op_xor_of, u_op_not_of, !bit_uof, Z.land_spec, Z.lor_spec, Z.lxor_spec by lia.
  replace (- na - 1) with (Z.lnot na) by (unfold Z.lnot; lia). rewrite Z.lnot_spec by lia.
  repeat split; repeat constructor; apply wf_uof.
Qed.
Lemma i_bitwise c a b i : wf_i a -> wf_i b -> 0 <= i < 256 ->
  let bit x := Z.testbit (ival c x) i in
  bit (i_op_and a b) = bit a && bit b /\ bit (i_op_and_assign a b) = bit a && bit b /\
  bit (i_op_or a b) = bit a || bit b /\ bit (i_op_or_assign a b) = bit a || bit b /\
  bit (i_op_xor a b) = xorb (bit a) (bit b) /\ bit (i_op_xor_assign a b) = xorb (bit a) (bit b) /\
  bit (i_op_not a) = negb (bit a) /\
  Forall wf_i [i_op_and a b; i_op_or a b; i_op_xor a b; i_op_not a;
               i_op_and_assign a b; i_op_or_assign a b; i_op_xor_assign a b].
Proof.
  intros Ha Hb Hi. cbv zeta. change (i_op_and_assign a b) with (i_op_and a b). change (i_op_or_assign a b) with (i_op_or a b). change (i_op_xor_assign a b) with (i_op_xor a b).
  on_i c a. on_i c b.
  rewrite i_op_and_of, i_op_or_of, i_op_xor_of, i_op_not_of, !bit_iof, Z.land_spec, Z.lor_spec, Z.lxor_spec by lia.
  replace (- na - 1) with (Z.lnot na) by (unfold Z.lnot; lia). rewrite Z.lnot_spec by lia.
  repeat split; repeat constructor; apply wf_iof.
Qed.

(** ** Rotations *)
Lemma rot_k c n : 0 <= n < 2 ^ 32 -> overflow_checks c = false \/ n <= 256 ->
  exists k, u_sub c 32 256 n = Ret k /\ Z.land k 255 = (- n) mod 256.
Proof.
  intros Hn Hc. unfold u_sub. destruct (Z.leb_spec 0 (256 - n)).
  - exists (256 - n). split; [reflexivity|]. rewrite land_255. zz.
  - destruct (overflow_checks c); [lia|]. eexists. split; [reflexivity|]. rewrite land_255.
    change 256 with (2 ^ 8) at 2. rewrite mod_mod_pow by lia. change (2 ^ 8) with 256. zz.
Qed.
Definition rotl_num (v n : Z) := Z.lor (v * 2 ^ (n mod 256)) (v / 2 ^ ((- n) mod 256)).
Lemma n_rol3_of c v n : 0 <= v < 2 ^ 256 -> 0 <= n < 2 ^ 32 -> overflow_checks c = false \/ n <= 256 ->
  n_rol3 c (uof c v) n = Ret (uof c (rotl_num v n)).
Proof.
  intros Hv Hn Hc. unfold n_rol3. rewrite land_255, u_op_shl_of by (apply Z.mod_pos_bound; lia). cbn [bind].
  destruct (rot_k c n Hn Hc) as (k & E1 & E2). rewrite E1. cbn [bind]. rewrite E2.
  rewrite u_op_shr_of by (try assumption; apply Z.mod_pos_bound; lia). cbn [bind].
  rewrite u_op_or_of. reflexivity.
Qed.
(** the amounts for which rotation does not panic *)
Definition rotate_ok (c : cfg) (n : Z) : Prop := llvm c = true \/ overflow_checks c = false \/ n <= 256.
Lemma rotl_num_sum c v n : 0 <= v < 2 ^ 256 ->
  uof c (rotl_num v n) = uof c (if n mod 256 =? 0 then v else v * 2 ^ (n mod 256) + v / 2 ^ (256 - n mod 256)).
Proof.
  intros Hv. unfold rotl_num. pose proof (Z.mod_pos_bound n 256 ltac:(lia)).
  destruct (Z.eqb_spec (n mod 256) 0) as [E|E].
  - rewrite E. replace ((- n) mod 256) with 0 by zz. rewrite Z.mul_1_r, Z.div_1_r, Z.lor_diag. reflexivity.
  - replace ((- n) mod 256) with (256 - n mod 256) by zz. set (k := n mod 256) in *. f_equal.
    apply lor_disjoint; [lia|].
    assert (E2 : 2 ^ 256 = 2 ^ k * 2 ^ (256 - k)) by (rewrite <- Z.pow_add_r by lia; f_equal; lia).
    assert (0 < 2 ^ (256 - k)) by (apply Z.pow_pos_nonneg; lia).
    split; [apply Z.div_pos; lia|]. apply Z.div_lt_upper_bound; nia.
Qed.
Lemma rol3_of c v n : 0 <= v < 2 ^ 256 -> 0 <= n < 2 ^ 32 -> rotate_ok c n ->
  rol3 c (uof c v) n = Ret (uof c (rotl_num v n)).
Proof.
  intros Hv Hn [Hc|Hc]; unfold rol3.
  - rewrite Hc, l_rol3_of, rotl_num_sum by assumption. reflexivity.
  - destruct (llvm c); [rewrite l_rol3_of, rotl_num_sum by assumption; reflexivity|apply n_rol3_of; assumption].
Qed.
Lemma n_ror3_of c v n : 0 <= v < 2 ^ 256 -> 0 <= n < 2 ^ 32 -> overflow_checks c = false \/ n <= 256 ->
  n_ror3 c (uof c v) n = Ret (uof c (rotl_num v (- n))).
Proof.
  intros Hv Hn Hc. unfold n_ror3. rewrite land_255, u_op_shr_of by (try assumption; apply Z.mod_pos_bound; lia). cbn [bind].
  destruct (rot_k c n Hn Hc) as (k & E1 & E2). rewrite E1. cbn [bind]. rewrite E2.
  rewrite u_op_shl_of by (apply Z.mod_pos_bound; lia). cbn [bind].
  rewrite u_op_or_of, Z.lor_comm. unfold rotl_num. rewrite Z.opp_involutive. reflexivity.
Qed.
Lemma rotr_num_sum c v n : 0 <= v < 2 ^ 256 ->
  uof c (rotl_num v (- n)) = uof c (if n mod 256 =? 0 then v else v * 2 ^ (256 - n mod 256) + v / 2 ^ (n mod 256)).
Proof.
  intros Hv. rewrite rotl_num_sum by assumption. pose proof (Z.mod_pos_bound n 256 ltac:(lia)).
  destruct (Z.eqb_spec (n mod 256) 0) as [E|E].
  - replace ((- n) mod 256) with 0 by zz. reflexivity.
  - replace ((- n) mod 256) with (256 - n mod 256) by zz. replace (256 - n mod 256 =? 0) with false by lia.
    replace (256 - (256 - n mod 256)) with (n mod 256) by lia. reflexivity.
Qed.
Lemma ror3_of c v n : 0 <= v < 2 ^ 256 -> 0 <= n < 2 ^ 32 -> rotate_ok c n ->
  ror3 c (uof c v) n = Ret (uof c (rotl_num v (- n))).
Proof.
  intros Hv Hn [Hc|Hc]; unfold ror3.
  - rewrite Hc, l_ror3_of, rotr_num_sum by assumption. reflexivity.
  - destruct (llvm c); [rewrite l_ror3_of, rotr_num_sum by assumption; reflexivity|apply n_ror3_of; assumption].
Qed.
Lemma rotl_num_bit v n i : 0 <= v < 2 ^ 256 -> 0 <= i < 256 ->
  Z.testbit (rotl_num v n) i = Z.testbit v ((i - n) mod 256).
Proof.
  intros Hv Hi. unfold rotl_num. rewrite Z.lor_spec.
  assert (0 <= n mod 256 < 256) by zz. assert (0 <= - n mod 256 < 256) by zz.
  assert (HH : forall j, 256 <= j -> Z.testbit v j = false).
  { intros j Hj. rewrite <- (Z.mod_small v (2 ^ 256)), testbit_mod_pow2 by lia.
    replace (j <? 256) with false by lia. reflexivity. }
  rewrite testbit_div_pow2, <- Z.shiftl_mul_pow2, Z.shiftl_spec by lia.
  destruct (Z.eq_dec (n mod 256) 0) as [E|E].
  - replace (- n mod 256) with 0 by zz. rewrite E. replace ((i - n) mod 256) with i by zz.
    rewrite Z.sub_0_r, Z.add_0_r, orb_diag. reflexivity.
  - replace (- n mod 256) with (256 - n mod 256) by zz.
    destruct (Z.lt_ge_cases i (n mod 256)).
    + rewrite (Z.testbit_neg_r v (i - n mod 256)) by lia. cbn [orb]. f_equal. zz.
    + rewrite (HH (i + _)), orb_false_r by lia. f_equal. zz.
Qed.

Lemma rotation_family c x y n : wf_u x -> wf_i y -> 0 <= n < 2 ^ 32 ->
  llvm c = true \/ overflow_checks c = false \/ n <= 256 ->
  (exists r, u_rotate_left c x n = Ret r /\ wf_u r /\ u_rotate_right c r n = Ret x /\
     forall i, 0 <= i < 256 -> Z.testbit (uval c r) i = Z.testbit (uval c x) ((i - n) mod 256)) /\
  (exists r, u_rotate_right c x n = Ret r /\ wf_u r /\ u_rotate_left c r n = Ret x /\
     forall i, 0 <= i < 256 -> Z.testbit (uval c r) i = Z.testbit (uval c x) ((i + n) mod 256)) /\
  (exists r, i_rotate_left c y n = Ret r /\ wf_i r /\ i_rotate_right c r n = Ret y /\
     forall i, 0 <= i < 256 -> Z.testbit (ival c r) i = Z.testbit (ival c y) ((i - n) mod 256)) /\
  (exists r, i_rotate_right c y n = Ret r /\ wf_i r /\ i_rotate_left c r n = Ret y /\
     forall i, 0 <= i < 256 -> Z.testbit (ival c r) i = Z.testbit (ival c y) ((i + n) mod 256)).
Proof.
  intros Hx Hy Hn Hc. on_u c x. on_i c y.
  assert (HU : forall v, iof c v = iof c (v mod 2 ^ 256)) by (intros; symmetry; apply iof_mod).
  set (w := ny mod 2 ^ 256). assert (Hw : 0 <= w < 2 ^ 256) by (apply Z.mod_pos_bound; lia).
  assert (HI : forall v m, 0 <= v < 2 ^ 256 -> uof c (rotl_num (rotl_num v m mod 2 ^ 256) (- m)) = uof c v).
  { intros v m Hv. apply uof_cong, mod256_bits. intros i Hi.
    rewrite rotl_num_bit by (try lia; apply Z.mod_pos_bound; lia).
    rewrite testbit_mod_pow2 by (try apply Z.mod_pos_bound; lia).
    assert (0 <= (i - - m) mod 256 < 256) by (apply Z.mod_pos_bound; lia).
    replace ((i - - m) mod 256 <? 256) with true by lia. cbn [andb].
    rewrite rotl_num_bit by lia. f_equal.
    rewrite Zminus_mod_idemp_l. replace (i - - m - m) with i by lia. apply Z.mod_small. lia. }
  assert (HW : forall i, 0 <= i < 256 -> Z.testbit w i = Z.testbit ny i).
  { intros i Hi. unfold w. rewrite testbit_mod_pow2 by lia. replace (i <? 256) with true by lia. reflexivity. }
  unfold u_rotate_left, u_rotate_right, i_rotate_left, i_rotate_right, irol3, iror3, res_map.
  rewrite !(HU ny). fold w. rewrite i_as_u256_of.
  rewrite !rol3_of, !ror3_of by assumption. cbn [bind]. rewrite !u_as_i256_of.
  repeat split; eexists; (split; [reflexivity|]); (split; [apply wf_uof || apply wf_iof|]).
  - rewrite <- (uof_mod c (rotl_num _ _)), ror3_of by (assumption || apply Z.mod_pos_bound; lia).
    rewrite HI by lia. split; [reflexivity|]. intros. rewrite uof_mod, bit_uof, rotl_num_bit by lia. reflexivity.
  - rewrite <- (uof_mod c (rotl_num _ _)), rol3_of by (assumption || apply Z.mod_pos_bound; lia).
    rewrite <- (Z.opp_involutive n) at 2. rewrite HI by lia. split; [reflexivity|]. intros.
    rewrite uof_mod, bit_uof, rotl_num_bit by lia. f_equal. f_equal. lia.
  - rewrite i_as_u256_of.
    rewrite <- (uof_mod c (rotl_num _ _)), ror3_of by (assumption || apply Z.mod_pos_bound; lia).
    rewrite HI by lia. cbn [bind]. rewrite u_as_i256_of. split; [reflexivity|]. intros.
    rewrite bit_iof, rotl_num_bit, HW by (try apply Z.mod_pos_bound; lia). reflexivity.
  - rewrite i_as_u256_of.
    rewrite <- (uof_mod c (rotl_num _ _)), rol3_of by (assumption || apply Z.mod_pos_bound; lia).
    rewrite <- (Z.opp_involutive n) at 2. rewrite HI by lia. cbn [bind]. rewrite u_as_i256_of. split; [reflexivity|]. intros.
    rewrite bit_iof, rotl_num_bit, HW by (try apply Z.mod_pos_bound; lia). f_equal. f_equal. lia.
Qed.

Lemma rotation_panics c x y n : wf_u x -> wf_i y -> llvm c = false -> overflow_checks c = true -> 256 < n < 2 ^ 32 ->
  Forall (eq (Panic "attempt to subtract with overflow")) [u_rotate_left c x n; u_rotate_right c x n] /\
  Forall (eq (Panic "attempt to subtract with overflow")) [i_rotate_left c y n; i_rotate_right c y n].
Proof.
  intros Hx Hy Hl Hc Hn. on_u c x. on_i c y.
  unfold u_rotate_left, u_rotate_right, i_rotate_left, i_rotate_right, irol3, iror3, res_map, rol3, ror3. rewrite Hl.
  unfold n_rol3, n_ror3.
  rewrite <- (iof_mod c ny). rewrite i_as_u256_of.
  assert (0 <= ny mod 2 ^ 256 < 2 ^ 256) by (apply Z.mod_pos_bound; lia).
  rewrite !land_255, !u_op_shl_of, !u_op_shr_of by (try assumption; apply Z.mod_pos_bound; lia). cbn [bind].
  unfold u_sub. rewrite Hc. replace (0 <=? 256 - n) with false by lia. cbn [bind].
  split; all_eq; reflexivity.
Qed.
