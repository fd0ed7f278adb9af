(** * Addition, subtraction, negation and bitwise operators *)

From Coq Require Import ZArith List Bool Lia ZifyBool Setoid Morphisms.
From Verif Require Import M_Prim M_Words M_Llvm M_Intr Spec P_Words P_Llvm.
Open Scope Z_scope.

Lemma add_carry_div al bl : 0 <= al < 2 ^ 128 -> 0 <= bl < 2 ^ 128 ->
  Z.b2z (2 ^ 128 <=? al + bl) = (al + bl) / 2 ^ 128.
Proof. intros. destruct (Z.leb_spec (2 ^ 128) (al + bl)); simpl Z.b2z; zz. Qed.

Lemma sub_borrow_div al bl : 0 <= al < 2 ^ 128 -> 0 <= bl < 2 ^ 128 ->
  Z.b2z (al <? bl) = - ((al - bl) / 2 ^ 128).
Proof. intros. destruct (Z.ltb_spec al bl); simpl Z.b2z; zz. Qed.

Lemma n_add3_of c a b : n_add3 c (uof c a) (uof c b) = uof c (a + b).
Proof.
  unfold n_add3, overflowing_add, wrapping_add. cbv beta iota.
  rewrite !u_high_of, !u_low_of.
  rewrite add_carry_div by (apply Z.mod_pos_bound; lia).
  rewrite uof_words by (apply Z.mod_pos_bound; lia).
  etransitivity; [apply (uof_hi_cong c _ ((a + b) / 2 ^ 128)) | f_equal].
  - pull_mod. f_equal. zz.
  - zz.
Qed.
Lemma add3_of c a b : add3 c (uof c a) (uof c b) = uof c (a + b).
Proof. unfold add3. destruct (llvm c); [apply l_add3_of|apply n_add3_of]. Qed.

Lemma n_sub3_of c a b : n_sub3 c (uof c a) (uof c b) = uof c (a - b).
Proof.
  unfold n_sub3, overflowing_sub, wrapping_sub. cbv beta iota.
  rewrite !u_high_of, !u_low_of.
  rewrite sub_borrow_div by (apply Z.mod_pos_bound; lia).
  rewrite uof_words by (apply Z.mod_pos_bound; lia).
  etransitivity; [apply (uof_hi_cong c _ ((a - b) / 2 ^ 128)) | f_equal].
  - pull_mod. f_equal. zz.
  - zz.
Qed.
Lemma sub3_of c a b : sub3 c (uof c a) (uof c b) = uof c (a - b).
Proof. unfold sub3. destruct (llvm c); [apply l_sub3_of|apply n_sub3_of]. Qed.

Lemma add2_eq c a b : add2 c a b = add3 c a b.
Proof.
  unfold add2, add3. destruct (llvm c); [reflexivity|]. unfold n_add2, n_add3. destruct (overflowing_add _ _ _) as [lo carry]. cbv zeta.
  rewrite u_set_high_from, u_set_low_from, u_high_from, u_low_from. reflexivity.
Qed.
Lemma sub2_eq c a b : sub2 c a b = sub3 c a b.
Proof.
  unfold sub2, sub3. destruct (llvm c); [reflexivity|]. unfold n_sub2, n_sub3. destruct (overflowing_sub _ _ _) as [lo carry]. cbv zeta.
  rewrite u_set_high_from, u_set_low_from, u_high_from, u_low_from. reflexivity.
Qed.

Lemma n_uaddc_of c a b : 0 <= a < 2 ^ 256 -> 0 <= b < 2 ^ 256 ->
  n_uaddc c (uof c a) (uof c b) = (uof c (a + b), 2 ^ 256 <=? a + b).
Proof.
  intros Ha Hb. rewrite <- n_add3_of. unfold n_uaddc, n_add3, overflowing_add, wrapping_add.
  cbv beta iota. f_equal.
  rewrite !u_high_of, !u_low_of, !(Z.mod_small (_ / _)) by zz.
  rewrite add_carry_div by (apply Z.mod_pos_bound; lia).
  apply Bool.eq_true_iff_eq. rewrite orb_true_iff, !Z.leb_le. zz.
Qed.
Lemma uaddc_of c a b : 0 <= a < 2 ^ 256 -> 0 <= b < 2 ^ 256 ->
  uaddc c (uof c a) (uof c b) = (uof c (a + b), 2 ^ 256 <=? a + b).
Proof. intros. unfold uaddc. destruct (llvm c); [apply l_uaddc_of|apply n_uaddc_of]; assumption. Qed.

Lemma n_usubc_of c a b : 0 <= a < 2 ^ 256 -> 0 <= b < 2 ^ 256 ->
  n_usubc c (uof c a) (uof c b) = (uof c (a - b), a <? b).
Proof.
  intros Ha Hb. rewrite <- n_sub3_of. unfold n_usubc, n_sub3, overflowing_sub, wrapping_sub.
  cbv beta iota. f_equal.
  rewrite !u_high_of, !u_low_of, !(Z.mod_small (_ / _)) by zz.
  rewrite sub_borrow_div by (apply Z.mod_pos_bound; lia).
  apply Bool.eq_true_iff_eq. rewrite orb_true_iff, !Z.ltb_lt. zz.
Qed.
Lemma usubc_of c a b : 0 <= a < 2 ^ 256 -> 0 <= b < 2 ^ 256 ->
  usubc c (uof c a) (uof c b) = (uof c (a - b), a <? b).
Proof. intros. unfold usubc. destruct (llvm c); [apply l_usubc_of|apply n_usubc_of]; assumption. Qed.

Lemma iadd3_of c a b : iadd3 c (iof c a) (iof c b) = iof c (a + b).
Proof. unfold iadd3. rewrite !i_as_u256_of, add3_of, u_as_i256_of. reflexivity. Qed.
Lemma isub3_of c a b : isub3 c (iof c a) (iof c b) = iof c (a - b).
Proof. unfold isub3. rewrite !i_as_u256_of, sub3_of, u_as_i256_of. reflexivity. Qed.
Lemma iadd2_of c a b : iadd2 c (iof c a) (iof c b) = iof c (a + b).
Proof. unfold iadd2. rewrite !i_as_u256_of, add2_eq, add3_of, u_as_i256_of. reflexivity. Qed.
Lemma isub2_of c a b : isub2 c (iof c a) (iof c b) = iof c (a - b).
Proof. unfold isub2. rewrite !i_as_u256_of, sub2_eq, sub3_of, u_as_i256_of. reflexivity. Qed.
Lemma i_wrapping_sub_of c a b : i_wrapping_sub c (iof c a) (iof c b) = iof c (a - b).
Proof. apply isub3_of. Qed.

Lemma iof_wrapped c v : iof c v = iof c (wrap_i 256 v).
Proof. symmetry. apply iof_wrap. Qed.

Lemma wrap_i_256_range v : - 2 ^ 255 <= wrap_i 256 v < 2 ^ 255.
Proof. apply (wrap_i_range 256). lia. Qed.

(** for numbers within one modulus of the range *)
Lemma wrap_i_near v : - 2 ^ 256 <= v < 2 ^ 256 ->
  wrap_i 256 v = if v <? - 2 ^ 255 then v + 2 ^ 256 else if v <? 2 ^ 255 then v else v - 2 ^ 256.
Proof.
  intros H. unfold wrap_i. change (2 ^ (256 - 1)) with (2 ^ 255).
  destruct (Z.ltb_spec v (- 2 ^ 255)); [|destruct (Z.ltb_spec v (2 ^ 255))]; zz.
Qed.

Lemma n_iaddc_of c a b : - 2 ^ 255 <= a < 2 ^ 255 -> - 2 ^ 255 <= b < 2 ^ 255 ->
  n_iaddc c (iof c a) (iof c b) = (iof c (a + b), negb (in_i 256 (a + b))).
Proof.
  intros Ha Hb. unfold n_iaddc. rewrite !i_as_u256_of, n_add3_of, u_as_i256_of. cbv zeta. f_equal.
  rewrite (iof_wrapped c (a + b)). pose proof (wrap_i_256_range (a + b)).
  rewrite i_cmp_prim_of, i_lt_of, i_ge_of, is_ge_cmp, is_lt_cmp by lia.
  rewrite wrap_i_near by lia. unfold in_i. change (2 ^ (256 - 1)) with (2 ^ 255).
  destruct (Z.ltb_spec (a + b) (- 2 ^ 255)); [|destruct (Z.ltb_spec (a + b) (2 ^ 255))]; lia.
Qed.
Lemma iaddc_of c a b : - 2 ^ 255 <= a < 2 ^ 255 -> - 2 ^ 255 <= b < 2 ^ 255 ->
  iaddc c (iof c a) (iof c b) = (iof c (a + b), negb (in_i 256 (a + b))).
Proof. intros. unfold iaddc. destruct (llvm c); [apply l_iaddc_of|apply n_iaddc_of]; assumption. Qed.

Lemma n_isubc_of c a b : - 2 ^ 255 <= a < 2 ^ 255 -> - 2 ^ 255 <= b < 2 ^ 255 ->
  n_isubc c (iof c a) (iof c b) = (iof c (a - b), negb (in_i 256 (a - b))).
Proof.
  intros Ha Hb. unfold n_isubc. rewrite !i_as_u256_of, n_sub3_of, u_as_i256_of. cbv zeta. f_equal.
  rewrite (iof_wrapped c (a - b)). pose proof (wrap_i_256_range (a - b)).
  rewrite i_cmp_prim_of, i_gt_of, i_le_of, is_ge_cmp, is_lt_cmp by lia.
  rewrite wrap_i_near by lia. unfold in_i. change (2 ^ (256 - 1)) with (2 ^ 255).
  destruct (Z.ltb_spec (a - b) (- 2 ^ 255)); [|destruct (Z.ltb_spec (a - b) (2 ^ 255))]; lia.
Qed.
Lemma isubc_of c a b : - 2 ^ 255 <= a < 2 ^ 255 -> - 2 ^ 255 <= b < 2 ^ 255 ->
  isubc c (iof c a) (iof c b) = (iof c (a - b), negb (in_i 256 (a - b))).
Proof. intros. unfold isubc. destruct (llvm c); [apply l_isubc_of|apply n_isubc_of]; assumption. Qed.

(** ** Complement *)
Lemma u_op_not_of c a : u_op_not (uof c a) = uof c (- a - 1).
Proof.
  transitivity (uof c (2 ^ 256 - 1 - a mod 2 ^ 256)).
  - pose proof (Z.mod_pos_bound a (2 ^ 256)). 
    unfold u_op_not, u_not, uof. set (m := a mod 2 ^ 256) in *.
    rewrite (Z.mod_small (2 ^ 256 - 1 - m)) by lia.
    destruct (big_endian c); simpl uw0; simpl uw1; f_equal; zz.
  - apply uof_cong. pull_mod.
    replace (2 ^ 256 - 1 - a) with (- a - 1 + 1 * 2 ^ 256) by lia. apply Z.mod_add. lia.
Qed.

Lemma wrap_lnot_128 w : Z.lnot (wrap_i 128 w) = wrap_i 128 (- w - 1).
Proof.
  pose proof (wrap_i_range 128 w ltac:(lia)) as H. change (2 ^ (128 - 1)) with (2 ^ 127) in H.
  unfold Z.lnot, Z.pred.
  rewrite (wrap_i_cong 128 (- w - 1) (- wrap_i 128 w - 1)).
  - rewrite (wrap_i_small 128 (- wrap_i 128 w - 1)); lia.
  - change (eqm (2 ^ 128) (- w - 1) (- wrap_i 128 w - 1)).
    assert (eqm (2 ^ 128) (wrap_i 128 w) w) as -> by apply wrap_i_128_mod. reflexivity.
Qed.

Lemma i_op_not_of c a : i_op_not (iof c a) = iof c (- a - 1).
Proof.
  rewrite <- (u_as_i256_of c (- a - 1)), <- u_op_not_of, <- (u_as_i256_of c a).
  unfold i_op_not, u_as_i256, u_op_not. simpl iw0; simpl iw1; simpl uw0; simpl uw1.
  rewrite !as_i_wrap, !wrap_lnot_128 by lia. unfold u_not.
  f_equal; apply wrap_i_cong;
    (match goal with |- (- ?x - 1) mod _ = _ =>
       replace (2 ^ 128 - 1 - x) with (- x - 1 + 1 * 2 ^ 128) by lia; rewrite Z.mod_add by lia
     end); reflexivity.
Qed.
