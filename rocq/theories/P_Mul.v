(** * Unsigned multiplication *)

From Coq Require Import ZArith List String Bool Lia ZifyBool.
From Verif Require Import M_Prim M_Words M_Llvm M_Intr M_Div M_Mul Spec P_Words P_Llvm P_AddSub P_Bits.
Open Scope Z_scope.

Lemma land_64 a : Z.land a (2 ^ 64 - 1) = a mod 2 ^ 64.
Proof. change (2 ^ 64 - 1) with (Z.ones 64). apply Z.land_ones. lia. Qed.

Lemma ret_inj {A} (a b : A) : Ret a = Ret b -> a = b.
Proof. congruence. Qed.

Lemma mul_bound a b m : 0 <= a <= m -> 0 <= b <= m -> 0 <= a * b <= m * m.
Proof. nia. Qed.

Lemma umulddi3_of c a b : 0 <= a < 2 ^ 128 -> 0 <= b < 2 ^ 128 ->
  umulddi3 c a b = Ret (uof c (a * b)).
Proof.
  intros Ha Hb. unfold umulddi3. cbv zeta.
  change (Z.shiftr (2 ^ 128 - 1) 64) with (2 ^ 64 - 1). rewrite !land_64.
  set (a0 := a mod 2 ^ 64). set (b0 := b mod 2 ^ 64).
  assert (Ea : a = a / 2 ^ 64 * 2 ^ 64 + a0) by (subst a0; zz).
  assert (Eb : b = b / 2 ^ 64 * 2 ^ 64 + b0) by (subst b0; zz).
  assert (Ha0 : 0 <= a0 <= 2 ^ 64 - 1) by (subst a0; zz).
  assert (Hb0 : 0 <= b0 <= 2 ^ 64 - 1) by (subst b0; zz).
  assert (Ha1 : 0 <= a / 2 ^ 64 <= 2 ^ 64 - 1) by zz.
  assert (Hb1 : 0 <= b / 2 ^ 64 <= 2 ^ 64 - 1) by zz.
  rewrite (p_shr_ok c 128 a), (p_shr_ok c 128 b) by lia.
  set (a1 := a / 2 ^ 64) in *. set (b1 := b / 2 ^ 64) in *.
  clearbody a0 b0 a1 b1.
  pose proof (mul_bound a0 b0 _ Ha0 Hb0) as P00.
  pose proof (mul_bound a1 b0 _ Ha1 Hb0) as P10.
  pose proof (mul_bound b1 a0 _ Hb1 Ha0) as P01.
  pose proof (mul_bound a1 b1 _ Ha1 Hb1) as P11.
  assert (Eab : a * b = a1 * b1 * 2 ^ 128 + (a1 * b0 + b1 * a0) * 2 ^ 64 + a0 * b0)
    by (rewrite Ea, Eb; ring).
  rewrite (u_mul_ok c 128 a0 b0) by lia. cbn [bind].
  rewrite p_shr_ok by lia. cbn [bind].
  rewrite (u_mul_ok c 128 a1 b0) by lia. cbn [bind].
  set (p00 := a0 * b0) in *. set (p10 := a1 * b0) in *.
  rewrite u_add_ok by zz. cbn [bind].
  set (t1 := p00 / 2 ^ 64 + p10).
  rewrite !land_64, u_shl_ok by lia. cbn [bind].
  rewrite mul_pow_mod, Zmod_mod by lia.
  rewrite u_add_ok by (change (2 ^ (128 - 64)) with (2 ^ 64); zz). cbn [bind].
  rewrite p_shr_ok by lia. cbn [bind]. rewrite p_shr_ok by lia. cbn [bind].
  rewrite (u_mul_ok c 128 b1 a0) by lia. cbn [bind].
  set (p01 := b1 * a0) in *.
  change (2 ^ (128 - 64)) with (2 ^ 64).
  assert (Et : (p00 mod 2 ^ 64 + t1 mod 2 ^ 64 * 2 ^ 64) / 2 ^ 64 = t1 mod 2 ^ 64) by zz.
  assert (Et' : (p00 mod 2 ^ 64 + t1 mod 2 ^ 64 * 2 ^ 64) mod 2 ^ 64 = p00 mod 2 ^ 64) by zz.
  rewrite !land_64, Et, Et'.
  rewrite u_add_ok by zz. cbn [bind].
  set (t2 := t1 mod 2 ^ 64 + p01).
  rewrite !land_64, u_shl_ok by lia. cbn [bind].
  rewrite mul_pow_mod, Zmod_mod by lia. change (2 ^ (128 - 64)) with (2 ^ 64).
  rewrite u_add_ok by zz. cbn [bind].
  rewrite p_shr_ok by lia. cbn [bind].
  rewrite u_add_ok by (subst t1 t2; zz). cbn [bind].
  rewrite (u_mul_ok c 128 a1 b1) by lia. cbn [bind].
  set (p11 := a1 * b1) in *.
  assert (Hab : 0 <= a * b <= (2 ^ 128 - 1) * (2 ^ 128 - 1)) by (apply mul_bound; lia).
  assert (Hsum : (t1 / 2 ^ 64 + t2 / 2 ^ 64 + p11) * 2 ^ 128 +
                 (p00 mod 2 ^ 64 + t2 mod 2 ^ 64 * 2 ^ 64) = a * b)
    by (subst t1 t2; zz).
  rewrite u_add_ok by (subst t1 t2; zz). cbn [bind].
  rewrite u_from_words_of by (subst t1 t2; zz). rewrite Hsum. reflexivity.
Qed.

Lemma n_mul3_of c a b : n_mul3 c (uof c a) (uof c b) = Ret (uof c (a * b)).
Proof.
  unfold n_mul3. rewrite !u_high_of, !u_low_of.
  rewrite umulddi3_of by (apply Z.mod_pos_bound; lia). cbn [bind]. cbv zeta.
  rewrite u_set_high_from, u_high_of, u_low_of. unfold wrapping_add, wrapping_mul.
  rewrite uof_words by (apply Z.mod_pos_bound; lia). f_equal.
  set (al := a mod 2 ^ 128). set (bl := b mod 2 ^ 128).
  etransitivity.
  - apply (uof_hi_cong c _ (al * bl / 2 ^ 128 + (a / 2 ^ 128 * bl + al * (b / 2 ^ 128)))).
    subst al bl. pull_mod. reflexivity.
  - apply uof_cong.
    assert (Ea : a = a / 2 ^ 128 * 2 ^ 128 + al) by (subst al; zz).
    assert (Eb : b = b / 2 ^ 128 * 2 ^ 128 + bl) by (subst bl; zz).
    set (ah := a / 2 ^ 128) in *. set (bh := b / 2 ^ 128) in *. clearbody al bl ah bh. subst a b.
    replace ((ah * 2 ^ 128 + al) * (bh * 2 ^ 128 + bl))
      with ((ah * bl + al * bh) * 2 ^ 128 + al * bl + (ah * bh) * 2 ^ 256)
      by (rewrite pow256; ring).
    rewrite Z.mod_add by lia. f_equal.
    pose proof (Z.div_mod (al * bl) (2 ^ 128)). lia.
Qed.
Lemma mul3_of c a b : mul3 c (uof c a) (uof c b) = Ret (uof c (a * b)).
Proof. unfold mul3. destruct (llvm c); [rewrite l_mul3_of; reflexivity|apply n_mul3_of]. Qed.

Lemma mul2_of c a b : mul2 c (uof c a) (uof c b) = Ret (uof c (a * b)).
Proof. apply mul3_of. Qed.

Lemma umulc_mul3 c a b : exists o, n_umulc c a b = let! r := n_mul3 c a b in Ret (r, o).
Proof.
  unfold n_umulc, n_mul3. destruct (umulddi3 _ _ _); cbn [bind]; try (exists true; reflexivity).
  unfold overflowing_mul, overflowing_add, wrapping_add, wrapping_mul. cbv beta iota zeta.
  eexists. reflexivity.
Qed.

Lemma n_umulc_of c a b : 0 <= a < 2 ^ 256 -> 0 <= b < 2 ^ 256 ->
  n_umulc c (uof c a) (uof c b) = Ret (uof c (a * b), 2 ^ 256 <=? a * b).
Proof.
  intros Ha Hb. pose proof (n_mul3_of c a b) as H3. unfold n_mul3 in H3. unfold n_umulc.
  rewrite !u_high_of, !u_low_of in *.
  rewrite umulddi3_of in * by (apply Z.mod_pos_bound; lia). cbn [bind] in *. cbv zeta in *.
  unfold wrapping_add, wrapping_mul in H3. apply ret_inj in H3.
  unfold overflowing_mul, overflowing_add. cbv beta iota zeta. rewrite H3. clear H3.
  do 2 f_equal.
  rewrite !u_high_of.
  destruct (split_u a Ha) as (Ea & Hah & Hal). destruct (split_u b Hb) as (Eb & Hbh & Hbl).
  rewrite !(Z.mod_small (a / 2 ^ 128)), !(Z.mod_small (b / 2 ^ 128)) by lia.
  set (ah := a / 2 ^ 128) in *. set (bh := b / 2 ^ 128) in *.
  set (al := a mod 2 ^ 128) in *. set (bl := b mod 2 ^ 128) in *.
  clearbody al bl ah bh. subst a b. clear Ha Hb.
  assert (E : (ah * 2 ^ 128 + al) * (bh * 2 ^ 128 + bl)
    = (ah * bh) * 2 ^ 256 + (ah * bl + al * bh) * 2 ^ 128 + al * bl) by (rewrite pow256; ring).
  rewrite E. clear E.
  assert (Hp : negb (ah =? 0) && negb (bh =? 0) = (0 <? ah * bh)).
  { apply Bool.eq_true_iff_eq. rewrite Z.ltb_lt. nia. }
  rewrite Hp. clear Hp.
  assert (0 <= ah * bh) by nia. assert (0 <= ah * bl) by nia. assert (0 <= al * bh) by nia.
  assert (0 <= al * bl <= (2 ^ 128 - 1) * (2 ^ 128 - 1)) by (apply mul_bound; lia).
  set (p4 := ah * bh) in *. set (p1 := ah * bl) in *. set (p2 := al * bh) in *.
  set (p3 := al * bl) in *. clearbody p1 p2 p3 p4.
  rewrite (Z.mod_small (p3 / 2 ^ 128)) by zz.
  destruct (Z.leb_spec (2 ^ 128) p1); [lia|]. destruct (Z.leb_spec (2 ^ 128) p2); [lia|].
  rewrite (Z.mod_small p1), (Z.mod_small p2) by lia.
  destruct (Z.leb_spec (2 ^ 128) (p1 + p2)); [lia|].
  rewrite (Z.mod_small (p1 + p2)) by lia.
  destruct (Z.leb_spec (2 ^ 128) (p3 / 2 ^ 128 + (p1 + p2))); zz.
Qed.
Lemma umulc_of c a b : 0 <= a < 2 ^ 256 -> 0 <= b < 2 ^ 256 ->
  umulc c (uof c a) (uof c b) = Ret (uof c (a * b), 2 ^ 256 <=? a * b).
Proof.
  intros. unfold umulc. destruct (llvm c); [rewrite l_umulc_of by assumption; reflexivity|apply n_umulc_of; assumption].
Qed.

Lemma imul3_of c a b : imul3 c (iof c a) (iof c b) = Ret (iof c (a * b)).
Proof.
  unfold imul3, res_map. rewrite !i_as_u256_of, mul3_of. cbn [bind]. rewrite u_as_i256_of. reflexivity.
Qed.
Lemma imul2_of c a b : imul2 c (iof c a) (iof c b) = Ret (iof c (a * b)).
Proof. apply imul3_of. Qed.

Lemma i_op_neg_of c a : - 2 ^ 255 <= a < 2 ^ 255 ->
  i_op_neg c (iof c a) =
  if debug_assertions c && (a =? - 2 ^ 255) then Panic "attempt to negate with overflow"
  else Ret (iof c (- a)).
Proof.
  intros. unfold i_op_neg. rewrite I256_MIN_of, i_eq_of by lia.
  rewrite i_op_not_of, I256_ONE_of, iadd2_of. replace (- a - 1 + 1) with (- a) by lia. reflexivity.
Qed.
