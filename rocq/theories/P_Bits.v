(** * Bit-level facts: bitwise operators and shifts *)

From Coq Require Import ZArith List Bool Lia ZifyBool.
From Verif Require Import M_Prim M_Words M_Llvm M_Intr Spec P_Words P_Llvm P_AddSub.
Open Scope Z_scope.

Lemma testbit_mod_pow2 a n i : 0 <= n -> 0 <= i -> 
  Z.testbit (a mod 2 ^ n) i = (i <? n) && Z.testbit a i.
Proof.
  intros. destruct (Z.ltb_spec i n); simpl.
  - apply Z.mod_pow2_bits_low. lia.
  - apply Z.mod_pow2_bits_high. lia.
Qed.

Lemma testbit_div_pow2 a n i : 0 <= n -> 0 <= i -> Z.testbit (a / 2 ^ n) i = Z.testbit a (i + n).
Proof. intros. apply Z.div_pow2_bits; lia. Qed.

(** wrap_i keeps the low bits and repeats bit n-1 *)
Lemma wrap_i_low_bits n v i : 0 < n -> 0 <= i < n -> Z.testbit (wrap_i n v) i = Z.testbit v i.
Proof.
  intros Hn Hi. rewrite <- (Z.mod_pow2_bits_low (wrap_i n v) n) by lia.
  rewrite wrap_i_mod by lia. apply Z.mod_pow2_bits_low. lia.
Qed.

Lemma testbit_sign_high v n i : 0 <= n -> - 2 ^ n <= v < 2 ^ n -> n <= i ->
  Z.testbit v i = (v <? 0).
Proof.
  intros Hn Hv Hi. rewrite <- (Z.sub_add n i), <- Z.div_pow2_bits by lia.
  destruct (Z.ltb_spec v 0).
  - replace (v / 2 ^ n) with (-1) by (assert (0 < 2 ^ n) by lia; Z.div_mod_to_equations; nia).
    apply Z.bits_m1. lia.
  - rewrite Z.div_small by lia. apply Z.bits_0.
Qed.

Lemma wrap_i_high_bits n v i : 0 < n -> n - 1 <= i ->
  Z.testbit (wrap_i n v) i = Z.testbit v (n - 1).
Proof.
  intros Hn Hi. rewrite <- (wrap_i_low_bits n v (n - 1)) by lia.
  pose proof (wrap_i_range n v Hn).
  rewrite !(testbit_sign_high _ (n - 1)) by lia. reflexivity.
Qed.

Lemma wrap_i_bits n v i : 0 < n -> 0 <= i ->
  Z.testbit (wrap_i n v) i = Z.testbit v (Z.min i (n - 1)).
Proof.
  intros. destruct (Z_lt_ge_dec i (n - 1)).
  - rewrite Z.min_l, wrap_i_low_bits by lia. reflexivity.
  - rewrite Z.min_r, wrap_i_high_bits by lia. reflexivity.
Qed.

(** ** and, or, xor *)
Lemma wrap_i_land n a b : 0 < n -> Z.land (wrap_i n a) (wrap_i n b) = wrap_i n (Z.land a b).
Proof.
  intros. apply Z.bits_inj'. intros i Hi.
  rewrite Z.land_spec, !wrap_i_bits, Z.land_spec by lia. reflexivity.
Qed.
Lemma wrap_i_lor n a b : 0 < n -> Z.lor (wrap_i n a) (wrap_i n b) = wrap_i n (Z.lor a b).
Proof.
  intros. apply Z.bits_inj'. intros i Hi.
  rewrite Z.lor_spec, !wrap_i_bits, Z.lor_spec by lia. reflexivity.
Qed.
Lemma wrap_i_lxor n a b : 0 < n -> Z.lxor (wrap_i n a) (wrap_i n b) = wrap_i n (Z.lxor a b).
Proof.
  intros. apply Z.bits_inj'. intros i Hi.
  rewrite Z.lxor_spec, !wrap_i_bits, Z.lxor_spec by lia. reflexivity.
Qed.

Ltac bits_word :=
  apply Z.bits_inj'; let i := fresh "i" in let Hi := fresh "Hi" in intros i Hi;
  repeat first
    [ rewrite Z.land_spec | rewrite Z.lor_spec | rewrite Z.lxor_spec
    | rewrite testbit_mod_pow2 by lia | rewrite testbit_div_pow2 by lia ];
  repeat match goal with |- context [?a <? ?b] => destruct (Z.ltb_spec a b) end;
  repeat match goal with |- context [Z.testbit ?a ?b] => destruct (Z.testbit a b) end;
  try reflexivity; try lia.

Lemma u_op_and_of c a b : u_op_and (uof c a) (uof c b) = uof c (Z.land a b).
Proof. unfold u_op_and, uof. destruct (big_endian c); cbn [uw0 uw1]; f_equal; bits_word. Qed.
Lemma u_op_or_of c a b : u_op_or (uof c a) (uof c b) = uof c (Z.lor a b).
Proof. unfold u_op_or, uof. destruct (big_endian c); cbn [uw0 uw1]; f_equal; bits_word. Qed.
Lemma u_op_xor_of c a b : u_op_xor (uof c a) (uof c b) = uof c (Z.lxor a b).
Proof. unfold u_op_xor, uof. destruct (big_endian c); cbn [uw0 uw1]; f_equal; bits_word. Qed.

Ltac iword :=
  first [rewrite wrap_i_land by lia | rewrite wrap_i_lor by lia | rewrite wrap_i_lxor by lia];
  apply wrap_i_cong; bits_word.

Lemma i_op_and_of c a b : i_op_and (iof c a) (iof c b) = iof c (Z.land a b).
Proof. unfold i_op_and, iof. destruct (big_endian c); cbn [iw0 iw1]; f_equal; iword. Qed.
Lemma i_op_or_of c a b : i_op_or (iof c a) (iof c b) = iof c (Z.lor a b).
Proof. unfold i_op_or, iof. destruct (big_endian c); cbn [iw0 iw1]; f_equal; iword. Qed.
Lemma i_op_xor_of c a b : i_op_xor (iof c a) (iof c b) = iof c (Z.lxor a b).
Proof. unfold i_op_xor, iof. destruct (big_endian c); cbn [iw0 iw1]; f_equal; iword. Qed.

Lemma u_op_and_assign_eq a b : u_op_and_assign a b = u_op_and a b. Proof. reflexivity. Qed.
Lemma u_op_or_assign_eq a b : u_op_or_assign a b = u_op_or a b. Proof. reflexivity. Qed.
Lemma u_op_xor_assign_eq a b : u_op_xor_assign a b = u_op_xor a b. Proof. reflexivity. Qed.
Lemma i_op_and_assign_eq a b : i_op_and_assign a b = i_op_and a b. Proof. reflexivity. Qed.
Lemma i_op_or_assign_eq a b : i_op_or_assign a b = i_op_or a b. Proof. reflexivity. Qed.
Lemma i_op_xor_assign_eq a b : i_op_xor_assign a b = i_op_xor a b. Proof. reflexivity. Qed.

(** ** Disjoint or is addition *)
Lemma lor_disjoint x s y : 0 <= s -> 0 <= y < 2 ^ s -> Z.lor (x * 2 ^ s) y = x * 2 ^ s + y.
Proof.
  intros Hs Hy. rewrite <- Z.lxor_lor.
  - symmetry. apply Z.add_nocarry_lxor. apply Z.bits_inj'. intros i Hi.
    rewrite Z.land_spec, Z.bits_0. destruct (Z_lt_ge_dec i s).
    + rewrite Z.mul_pow2_bits_low by lia. reflexivity.
    + rewrite <- (Z.mod_small y (2 ^ s)), Z.mod_pow2_bits_high by lia. apply andb_false_r.
  - apply Z.bits_inj'. intros i Hi.
    rewrite Z.land_spec, Z.bits_0. destruct (Z_lt_ge_dec i s).
    + rewrite Z.mul_pow2_bits_low by lia. reflexivity.
    + rewrite <- (Z.mod_small y (2 ^ s)), Z.mod_pow2_bits_high by lia. apply andb_false_r.
Qed.

Lemma land_127 b : Z.land b 127 = b mod 128.
Proof. change 127 with (Z.ones 7). rewrite Z.land_ones by lia. reflexivity. Qed.
Lemma land_255 b : Z.land b 255 = b mod 256.
Proof. change 255 with (Z.ones 8). rewrite Z.land_ones by lia. reflexivity. Qed.

(** ** Shifts of primitive words *)
Lemma u_shl_ok c n a k : 0 <= k < n -> u_shl c n a k = Ret (a * 2 ^ k mod 2 ^ n).
Proof.
  intros. unfold u_shl. replace ((0 <=? k) && (k <? n)) with true by lia.
  rewrite Z.shiftl_mul_pow2 by lia. reflexivity.
Qed.
Lemma p_shr_ok c n a k : 0 <= k < n -> p_shr c n a k = Ret (a / 2 ^ k).
Proof.
  intros. unfold p_shr. replace ((0 <=? k) && (k <? n)) with true by lia.
  rewrite Z.shiftr_div_pow2 by lia. reflexivity.
Qed.
Lemma u_sub_ok c n a b : b <= a -> u_sub c n a b = Ret (a - b).
Proof. intros. unfold u_sub. replace (0 <=? a - b) with true by lia. reflexivity. Qed.
Lemma u_add_ok c n a b : a + b < 2 ^ n -> u_add c n a b = Ret (a + b).
Proof. intros. unfold u_add. replace (a + b <? 2 ^ n) with true by lia. reflexivity. Qed.
Lemma u_mul_ok c n a b : a * b < 2 ^ n -> u_mul c n a b = Ret (a * b).
Proof. intros. unfold u_mul. replace (a * b <? 2 ^ n) with true by lia. reflexivity. Qed.
Lemma debug_assert_ok c b m : b = true -> debug_assert c b m = Ret tt.
Proof. intros ->. unfold debug_assert. rewrite andb_false_r. reflexivity. Qed.

(** run primitive operations whose preconditions [lia] can check *)
Ltac prim :=
  repeat (first [ rewrite u_shl_ok by lia | rewrite p_shr_ok by lia | rewrite u_sub_ok by lia
                | rewrite u_add_ok by lia | rewrite u_mul_ok by lia
                | rewrite debug_assert_ok by lia ]; cbn [bind]).

Lemma mul_pow_mod n h b : 0 <= b <= n -> h * 2 ^ b mod 2 ^ n = h mod 2 ^ (n - b) * 2 ^ b.
Proof.
  intros Hb.
  replace (2 ^ n) with (2 ^ (n - b) * 2 ^ b) by (rewrite <- Z.pow_add_r by lia; f_equal; lia).
  apply Z.mul_mod_distr_r; apply Z.pow_nonzero; lia.
Qed.

(** multiplication by 2^b of a two-word number *)
Lemma shl_words h l b : 0 <= l < 2 ^ 128 -> 0 < b < 128 ->
  exists h', Z.lor (h * 2 ^ b mod 2 ^ 128) (l / 2 ^ (128 - b)) = h' mod 2 ^ 128 /\
  h' * 2 ^ 128 + (l * 2 ^ b) mod 2 ^ 128 = (h * 2 ^ 128 + l) * 2 ^ b.
Proof.
  intros Hl Hb. exists (h * 2 ^ b + l / 2 ^ (128 - b)).
  assert (E : 2 ^ 128 = 2 ^ (128 - b) * 2 ^ b) by (rewrite <- Z.pow_add_r by lia; f_equal; lia).
  assert (Hs : 0 < 2 ^ b) by (apply Z.pow_pos_nonneg; lia).
  assert (Ht : 0 < 2 ^ (128 - b)) by (apply Z.pow_pos_nonneg; lia).
  assert (Hq : 0 <= l / 2 ^ (128 - b) < 2 ^ b).
  { split; [apply Z.div_pos; lia | apply Z.div_lt_upper_bound; lia]. }
  rewrite !mul_pow_mod by lia. split.
  - rewrite lor_disjoint by lia.
    rewrite <- Zplus_mod_idemp_l. rewrite mul_pow_mod by lia.
    symmetry. apply Z.mod_small. rewrite E.
    pose proof (Z.mod_pos_bound h (2 ^ (128 - b)) Ht). nia.
  - rewrite E. pose proof (Z.div_mod l (2 ^ (128 - b))). nia.
Qed.

Lemma n_shl3_of c a b : 0 <= b < 256 -> n_shl3 c (uof c a) b = Ret (uof c (a * 2 ^ b)).
Proof.
  intros Hb. unfold n_shl3. rewrite debug_assert_ok by lia. cbn [bind].
  rewrite !u_high_of, !u_low_of.
  assert (Ha : uof c a = uof c ((a / 2 ^ 128) mod 2 ^ 128 * 2 ^ 128 + a mod 2 ^ 128)).
  { rewrite (uof_hi_cong c _ (a / 2 ^ 128)) by apply Zmod_mod. f_equal. zz. }
  pose proof (Z.mod_pos_bound a (2 ^ 128) ltac:(lia)) as Hl.
  pose proof (Z.mod_pos_bound (a / 2 ^ 128) (2 ^ 128) ltac:(lia)) as Hh.
  destruct (Z.eqb_spec b 0) as [->|Hb0].
  { rewrite Z.mul_1_r, u_from_words_of, <- Ha by lia. reflexivity. }
  destruct (Z.ltb_spec b 128).
  - prim.
    destruct (shl_words ((a / 2 ^ 128) mod 2 ^ 128) (a mod 2 ^ 128) b) as (h' & E1 & E2); try lia.
    rewrite E1, uof_words, E2 by (apply Z.mod_pos_bound; lia).
    f_equal. apply uof_cong. 
    change (eqm (2 ^ 256) (((a / 2 ^ 128) mod 2 ^ 128 * 2 ^ 128 + a mod 2 ^ 128) * 2 ^ b) (a * 2 ^ b)).
    apply eqm_mul; [|reflexivity]. unfold eqm. 
    apply (f_equal (uval c)) in Ha. rewrite !uval_uof in Ha. auto.
  - rewrite land_127. rewrite u_shl_ok by (apply Z.mod_pos_bound; lia). cbn [bind].
    replace (b mod 128) with (b - 128) by zz.
    rewrite uof_words by lia. f_equal. apply uof_cong.
    rewrite Z.add_0_r.
    replace (2 ^ b) with (2 ^ (b - 128) * 2 ^ 128) by (rewrite <- Z.pow_add_r by lia; f_equal; lia).
    rewrite Z.mul_assoc, pow256, !Zmult_mod_distr_r. f_equal. pull_mod. reflexivity.
Qed.
Lemma shl3_of c a b : 0 <= b < 256 -> shl3 c (uof c a) b = Ret (uof c (a * 2 ^ b)).
Proof.
  intros. unfold shl3. destruct (llvm c); [|apply n_shl3_of; assumption].
  rewrite l_shl3_of, Z.mod_small by lia. reflexivity.
Qed.

Lemma shl2_eq c a b : shl2 c a b = shl3 c a b.
Proof. unfold shl2, shl3, n_shl2, n_shl3. rewrite u_from_high_low. reflexivity. Qed.

Lemma lor_shr h l b : 0 <= l < 2 ^ 128 -> 0 < b < 128 ->
  Z.lor (l / 2 ^ b) (h * 2 ^ (128 - b) mod 2 ^ 128) = (h * 2 ^ 128 + l) / 2 ^ b mod 2 ^ 128.
Proof.
  intros Hl Hb.
  assert (E : 2 ^ 128 = 2 ^ b * 2 ^ (128 - b)) by (rewrite <- Z.pow_add_r by lia; f_equal; lia).
  assert (Hs : 0 < 2 ^ b) by (apply Z.pow_pos_nonneg; lia).
  assert (Ht : 0 < 2 ^ (128 - b)) by (apply Z.pow_pos_nonneg; lia).
  assert (Hq : 0 <= l / 2 ^ b < 2 ^ (128 - b)).
  { split; [apply Z.div_pos; lia | apply Z.div_lt_upper_bound; lia]. }
  rewrite mul_pow_mod by lia.
  rewrite Z.lor_comm, lor_disjoint by lia.
  replace (h * 2 ^ 128 + l) with (h * 2 ^ (128 - b) * 2 ^ b + l) by (rewrite E; ring).
  rewrite Z.div_add_l by lia. rewrite <- Zplus_mod_idemp_l. rewrite mul_pow_mod by lia.
  replace (128 - (128 - b)) with b by lia. symmetry. apply Z.mod_small. rewrite E.
  pose proof (Z.mod_pos_bound h (2 ^ b) Hs). nia.
Qed.

Lemma shr_words_hi h l b : 0 <= l < 2 ^ 128 -> 0 <= b <= 128 ->
  (h * 2 ^ 128 + l) / 2 ^ b / 2 ^ 128 = h / 2 ^ b.
Proof.
  intros Hl Hb. 
  assert (Hs : 0 < 2 ^ b) by (apply Z.pow_pos_nonneg; lia).
  rewrite Z.div_div, (Z.mul_comm (2 ^ b)), <- Z.div_div by lia.
  rewrite Z.div_add_l, (Z.div_small l), Z.add_0_r by lia. reflexivity.
Qed.

Lemma split_u v : 0 <= v < 2 ^ 256 -> v = v / 2 ^ 128 * 2 ^ 128 + v mod 2 ^ 128 /\
  0 <= v / 2 ^ 128 < 2 ^ 128 /\ 0 <= v mod 2 ^ 128 < 2 ^ 128.
Proof. intros. zz. Qed.

Lemma n_shr3_of c a b : 0 <= a < 2 ^ 256 -> 0 <= b < 256 ->
  n_shr3 c (uof c a) b = Ret (uof c (a / 2 ^ b)).
Proof.
  intros Ha Hb. unfold n_shr3. rewrite debug_assert_ok by lia. cbn [bind].
  destruct (split_u a Ha) as (E & Hh & Hl).
  rewrite !u_high_of, !u_low_of, !(Z.mod_small (a / 2 ^ 128)) by lia.
  destruct (Z.eqb_spec b 0) as [->|Hb0].
  { rewrite Z.div_1_r, u_from_words_of, <- E by lia. reflexivity. }
  destruct (Z.ltb_spec b 128).
  - prim.
    rewrite lor_shr, <- E by lia.
    assert (0 < 2 ^ b) by (apply Z.pow_pos_nonneg; lia).
    rewrite u_from_words_of; [|split; [apply Z.div_pos; lia | apply Z.div_lt_upper_bound; nia]
                              |apply Z.mod_pos_bound; lia].
    do 2 f_equal. 
    rewrite <- (shr_words_hi (a / 2 ^ 128) (a mod 2 ^ 128) b), <- E by lia. zz.
  - rewrite land_127. rewrite p_shr_ok by (apply Z.mod_pos_bound; lia). cbn [bind].
    replace (b mod 128) with (b - 128) by zz.
    assert (0 < 2 ^ (b - 128)) by (apply Z.pow_pos_nonneg; lia).
    rewrite u_from_words_of; [|lia |split; [apply Z.div_pos; lia | apply Z.div_lt_upper_bound; nia]].
    do 2 f_equal. rewrite Z.div_div by lia. 
    replace (2 ^ 128 * 2 ^ (b - 128)) with (2 ^ b) by (rewrite <- Z.pow_add_r by lia; f_equal; lia).
    reflexivity.
Qed.
Lemma shr3_of c a b : 0 <= a < 2 ^ 256 -> 0 <= b < 256 ->
  shr3 c (uof c a) b = Ret (uof c (a / 2 ^ b)).
Proof.
  intros. unfold shr3. destruct (llvm c); [|apply n_shr3_of; assumption].
  rewrite l_shr3_of, Z.mod_small by lia. reflexivity.
Qed.

Lemma shr2_eq c a b : shr2 c a b = shr3 c a b.
Proof. unfold shr2, shr3, n_shr2, n_shr3. rewrite u_from_high_low. reflexivity. Qed.

Lemma split_i v : - 2 ^ 255 <= v < 2 ^ 255 -> v = v / 2 ^ 128 * 2 ^ 128 + v mod 2 ^ 128 /\
  - 2 ^ 127 <= v / 2 ^ 128 < 2 ^ 127 /\ 0 <= v mod 2 ^ 128 < 2 ^ 128.
Proof. intros. zz. Qed.

Lemma div_pow2_range v n b : 0 <= b -> - n <= v < n -> 0 < n -> - n <= v / 2 ^ b < n.
Proof.
  intros Hb Hv Hn. assert (1 <= 2 ^ b) by (pose proof (Z.pow_pos_nonneg 2 b); lia). 
  split; [apply Z.div_le_lower_bound; nia | apply Z.div_lt_upper_bound; nia].
Qed.

Lemma n_sar3_of c a b : - 2 ^ 255 <= a < 2 ^ 255 -> 0 <= b < 256 ->
  n_sar3 c (iof c a) b = Ret (iof c (a / 2 ^ b)).
Proof.
  intros Ha Hb. unfold n_sar3. rewrite debug_assert_ok by lia. cbn [bind].
  destruct (split_i a Ha) as (E & Hh & Hl). unfold as_u.
  rewrite !i_high_of, !i_low_of, wrap_i_128_mod, ihi_small by lia.
  destruct (Z.eqb_spec b 0) as [->|Hb0].
  { pose proof (wrap_i_range 128 a ltac:(lia)) as Hw. change (128 - 1) with 127 in Hw.
    rewrite Z.div_1_r, i_from_words_of, wrap_i_128_mod, <- E by lia. reflexivity. }
  destruct (Z.ltb_spec b 128).
  - prim.
    replace ((a / 2 ^ 128) mod 2 ^ 128 * 2 ^ (128 - b) mod 2 ^ 128)
      with (a / 2 ^ 128 * 2 ^ (128 - b) mod 2 ^ 128) by (pull_mod; reflexivity).
    rewrite lor_shr, <- E by lia.
    assert (0 < 2 ^ b) by (apply Z.pow_pos_nonneg; lia).
    rewrite as_i_wrap by lia.
    set (w := (a / 2 ^ b) mod 2 ^ 128).
    pose proof (wrap_i_range 128 w ltac:(lia)) as Hw. change (128 - 1) with 127 in Hw.
    rewrite i_from_words_of; [|apply div_pow2_range; lia | lia].
    rewrite wrap_i_128_mod. subst w. rewrite Zmod_mod.
    do 2 f_equal. 
    rewrite <- (shr_words_hi (a / 2 ^ 128) (a mod 2 ^ 128) b), <- E by lia. zz.
  - rewrite land_127. pose proof (Z.mod_pos_bound b 128).
    prim.
    replace (b mod 128) with (b - 128) by zz.
    assert (0 < 2 ^ (b - 128)) by (apply Z.pow_pos_nonneg; lia).
    rewrite i_from_words_of; [|apply div_pow2_range; lia | apply div_pow2_range; lia].
    do 2 f_equal. 
    replace (a / 2 ^ b) with (a / 2 ^ 128 / 2 ^ (b - 128)).
    2:{ rewrite Z.div_div by lia. f_equal. rewrite <- Z.pow_add_r by lia. f_equal. lia. }
    pose proof (div_pow2_range (a / 2 ^ 128) (2 ^ 127) (b - 128) ltac:(lia) ltac:(lia) ltac:(lia)).
    assert (a / 2 ^ 128 / 2 ^ 127 = if a / 2 ^ 128 <? 0 then -1 else 0) as ->
      by (destruct (Z.ltb_spec (a / 2 ^ 128) 0); zz).
    set (h := a / 2 ^ 128) in *.
    assert (h < 0 <-> h / 2 ^ (b - 128) < 0).
    { split; intros; [apply Z.div_lt_upper_bound; lia|].
      destruct (Z_lt_ge_dec h 0); [lia|]. pose proof (Z.div_pos h (2 ^ (b - 128))). lia. }
    set (w := h / 2 ^ (b - 128)) in *.
    destruct (Z.ltb_spec h 0); zz.
Qed.
Lemma sar3_of c a b : - 2 ^ 255 <= a < 2 ^ 255 -> 0 <= b < 256 ->
  sar3 c (iof c a) b = Ret (iof c (a / 2 ^ b)).
Proof.
  intros. unfold sar3. destruct (llvm c); [|apply n_sar3_of; assumption].
  rewrite l_sar3_of, Z.mod_small by lia. reflexivity.
Qed.

Lemma sar2_eq c a b : sar2 c a b = sar3 c a b.
Proof. unfold sar2, sar3, n_sar2, n_sar3. rewrite i_from_high_low. reflexivity. Qed.

Lemma ishl3_of c a b : 0 <= b < 256 -> ishl3 c (iof c a) b = Ret (iof c (a * 2 ^ b)).
Proof.
  intros. unfold ishl3, res_map. rewrite i_as_u256_of, shl3_of by lia. cbn [bind].
  rewrite u_as_i256_of. reflexivity.
Qed.
Lemma ishl2_eq c a b : ishl2 c a b = ishl3 c a b.
Proof. unfold ishl2, ishl3. rewrite shl2_eq. reflexivity. Qed.

(** ** Operators *)
Lemma u_op_shl_of c a b : 0 <= b < 256 -> u_op_shl c (uof c a) b = Ret (uof c (a * 2 ^ b)).
Proof.
  intros. unfold u_op_shl. replace (255 <? b) with false by lia. rewrite andb_false_r.
  apply shl3_of. lia.
Qed.
Lemma u_op_shr_of c a b : 0 <= a < 2 ^ 256 -> 0 <= b < 256 ->
  u_op_shr c (uof c a) b = Ret (uof c (a / 2 ^ b)).
Proof.
  intros. unfold u_op_shr. replace (255 <? b) with false by lia. rewrite andb_false_r.
  apply shr3_of; lia.
Qed.
Lemma i_op_shl_of c a b : 0 <= b < 256 -> i_op_shl c (iof c a) b = Ret (iof c (a * 2 ^ b)).
Proof.
  intros. unfold i_op_shl. replace (255 <? b) with false by lia. rewrite andb_false_r.
  apply ishl3_of. lia.
Qed.
Lemma i_op_shr_of c a b : - 2 ^ 255 <= a < 2 ^ 255 -> 0 <= b < 256 ->
  i_op_shr c (iof c a) b = Ret (iof c (a / 2 ^ b)).
Proof.
  intros. unfold i_op_shr. replace (255 <? b) with false by lia. rewrite andb_false_r.
  apply sar3_of; lia.
Qed.
