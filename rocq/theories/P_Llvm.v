(** * What the llvm intrinsics compute *)

From Coq Require Import ZArith List Bool Lia ZifyBool Setoid Morphisms.
From Verif Require Import M_Prim M_Words M_Llvm Spec P_Words.
Open Scope Z_scope.

Lemma l_load_of c a : l_load c (uof c a) = a mod 2 ^ 256.
Proof. apply uval_uof. Qed.
Lemma l_store_of c v : 0 <= v < 2 ^ 256 -> l_store c v = uof c v.
Proof. intros H. unfold l_store, uof. rewrite (Z.mod_small v (2 ^ 256)) by lia. reflexivity. Qed.
Lemma l_store_mod c v : l_store c (v mod 2 ^ 256) = uof c v.
Proof. rewrite l_store_of, uof_mod by (apply Z.mod_pos_bound; lia). reflexivity. Qed.
Lemma l_iload_of c a : - 2 ^ 255 <= a < 2 ^ 255 -> l_iload c (iof c a) = a.
Proof.
  intros H. unfold l_iload. rewrite i_as_u256_of, l_load_of, as_i_wrap by lia.
  rewrite (wrap_i_cong 256 _ a) by (rewrite Zmod_mod; reflexivity). apply wrap_i_small; lia.
Qed.
Lemma l_istore_of c v : l_istore c v = iof c v.
Proof. unfold l_istore, as_u. rewrite l_store_mod. apply u_as_i256_of. Qed.

Lemma l_add3_of c a b : l_add3 c (uof c a) (uof c b) = uof c (a + b).
Proof. unfold l_add3, wrapping_add. rewrite !l_load_of, l_store_mod. apply uof_cong. pull_mod. reflexivity. Qed.
Lemma l_sub3_of c a b : l_sub3 c (uof c a) (uof c b) = uof c (a - b).
Proof. unfold l_sub3, wrapping_sub. rewrite !l_load_of, l_store_mod. apply uof_cong. pull_mod. reflexivity. Qed.
Lemma l_mul3_of c a b : l_mul3 c (uof c a) (uof c b) = uof c (a * b).
Proof. unfold l_mul3, wrapping_mul. rewrite !l_load_of, l_store_mod. apply uof_cong. pull_mod. reflexivity. Qed.
Lemma l_uaddc_of c a b : 0 <= a < 2 ^ 256 -> 0 <= b < 2 ^ 256 ->
  l_uaddc c (uof c a) (uof c b) = (uof c (a + b), 2 ^ 256 <=? a + b).
Proof. intros. unfold l_uaddc, overflowing_add. rewrite !l_load_of, (Z.mod_small a), (Z.mod_small b), l_store_mod by lia. reflexivity. Qed.
Lemma l_usubc_of c a b : 0 <= a < 2 ^ 256 -> 0 <= b < 2 ^ 256 ->
  l_usubc c (uof c a) (uof c b) = (uof c (a - b), a <? b).
Proof.
  intros. unfold l_usubc, overflowing_sub. rewrite !l_load_of, (Z.mod_small a), (Z.mod_small b), l_store_mod by lia.
  reflexivity.
Qed.
Lemma l_umulc_of c a b : 0 <= a < 2 ^ 256 -> 0 <= b < 2 ^ 256 ->
  l_umulc c (uof c a) (uof c b) = (uof c (a * b), 2 ^ 256 <=? a * b).
Proof.
  intros. unfold l_umulc, overflowing_mul. rewrite !l_load_of, (Z.mod_small a), (Z.mod_small b), l_store_mod by lia.
  reflexivity.
Qed.
Lemma i_overflowing_of c x : (let '(res, carry) := i_overflowing 256 x in (l_istore c res, carry)) =
  (iof c x, negb (in_i 256 x)).
Proof.
  unfold i_overflowing. rewrite l_istore_of, as_i_wrap, iof_wrap by lia. f_equal. unfold in_i. lia.
Qed.
Lemma l_iaddc_of c a b : - 2 ^ 255 <= a < 2 ^ 255 -> - 2 ^ 255 <= b < 2 ^ 255 ->
  l_iaddc c (iof c a) (iof c b) = (iof c (a + b), negb (in_i 256 (a + b))).
Proof. intros. unfold l_iaddc. rewrite !l_iload_of by lia. apply i_overflowing_of. Qed.
Lemma l_isubc_of c a b : - 2 ^ 255 <= a < 2 ^ 255 -> - 2 ^ 255 <= b < 2 ^ 255 ->
  l_isubc c (iof c a) (iof c b) = (iof c (a - b), negb (in_i 256 (a - b))).
Proof. intros. unfold l_isubc. rewrite !l_iload_of by lia. apply i_overflowing_of. Qed.

Lemma l_mask_of a : l_mask a = a mod 256.
Proof. unfold l_mask. change 255 with (Z.ones 8). apply Z.land_ones. lia. Qed.
Lemma l_shl3_of c a b : l_shl3 c (uof c a) b = uof c (a * 2 ^ (b mod 256)).
Proof.
  pose proof (Z.mod_pos_bound b 256 ltac:(lia)).
  unfold l_shl3. rewrite l_mask_of, l_load_of, Z.shiftl_mul_pow2, l_store_mod by lia. apply uof_cong. pull_mod. reflexivity.
Qed.
Lemma shr_range v k : 0 <= v < 2 ^ 256 -> 0 <= k -> 0 <= v / 2 ^ k < 2 ^ 256.
Proof.
  intros Hv Hk. assert (0 < 2 ^ k) by (apply Z.pow_pos_nonneg; lia).
  split; [apply Z.div_pos; lia|]. apply Z.div_lt_upper_bound; nia.
Qed.
Lemma l_shr3_of c a b : 0 <= a < 2 ^ 256 -> l_shr3 c (uof c a) b = uof c (a / 2 ^ (b mod 256)).
Proof.
  intros Ha. pose proof (Z.mod_pos_bound b 256 ltac:(lia)).
  unfold l_shr3. rewrite l_mask_of, l_load_of, Z.mod_small, Z.shiftr_div_pow2 by lia.
  apply l_store_of, shr_range; lia.
Qed.
Lemma l_sar3_of c a b : - 2 ^ 255 <= a < 2 ^ 255 -> l_sar3 c (iof c a) b = iof c (a / 2 ^ (b mod 256)).
Proof.
  intros Ha. pose proof (Z.mod_pos_bound b 256 ltac:(lia)).
  unfold l_sar3. rewrite l_mask_of, l_iload_of, Z.shiftr_div_pow2 by lia. apply l_istore_of.
Qed.

(** the funnel shifts put the two parts together *)
Lemma funnel v k : 0 <= v < 2 ^ 256 -> 0 < k < 256 ->
  (v * 2 ^ 256 + v) * 2 ^ k / 2 ^ 256 = v * 2 ^ k + v / 2 ^ (256 - k).
Proof.
  intros Hv Hk. replace ((v * 2 ^ 256 + v) * 2 ^ k) with (v * 2 ^ k * 2 ^ 256 + v * 2 ^ k) by ring.
  rewrite Z.div_add_l by lia. f_equal.
  assert (E : 2 ^ 256 = 2 ^ (256 - k) * 2 ^ k) by (rewrite <- Z.pow_add_r by lia; f_equal; lia). rewrite E.
  assert (0 < 2 ^ k) by (apply Z.pow_pos_nonneg; lia). assert (0 < 2 ^ (256 - k)) by (apply Z.pow_pos_nonneg; lia).
  apply Z.div_mul_cancel_r; lia.
Qed.
Lemma l_rol3_of c v n : 0 <= v < 2 ^ 256 ->
  l_rol3 c (uof c v) n = uof c (if n mod 256 =? 0 then v else v * 2 ^ (n mod 256) + v / 2 ^ (256 - n mod 256)).
Proof.
  intros Hv. pose proof (Z.mod_pos_bound n 256 ltac:(lia)). unfold l_rol3. cbv zeta.
  rewrite l_load_of, !(Z.mod_small v), l_store_mod, Z.shiftl_mul_pow2 by lia.
  destruct (Z.eqb_spec (n mod 256) 0) as [E|E].
  - rewrite E, Z.mul_1_r, Z.div_add_l, (Z.div_small v), Z.add_0_r by lia. reflexivity.
  - rewrite funnel by lia. reflexivity.
Qed.
Lemma l_ror3_of c v n : 0 <= v < 2 ^ 256 ->
  l_ror3 c (uof c v) n = uof c (if n mod 256 =? 0 then v else v * 2 ^ (256 - n mod 256) + v / 2 ^ (n mod 256)).
Proof.
  intros Hv. pose proof (Z.mod_pos_bound n 256 ltac:(lia)). unfold l_ror3. cbv zeta.
  rewrite l_load_of, !(Z.mod_small v), l_store_mod, Z.shiftr_div_pow2 by lia.
  destruct (Z.eqb_spec (n mod 256) 0) as [E|E].
  - rewrite E, Z.div_1_r. apply uof_cong. rewrite Z.add_comm, Z.mod_add by lia. reflexivity.
  - f_equal. set (k := n mod 256) in *. 
    assert (Ek : 2 ^ 256 = 2 ^ (256 - k) * 2 ^ k) by (rewrite <- Z.pow_add_r by lia; f_equal; lia).
    rewrite Ek at 1. rewrite Z.mul_assoc, Z.div_add_l by (pose proof (Z.pow_pos_nonneg 2 k); lia). reflexivity.
Qed.
