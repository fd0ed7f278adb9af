(** * Unsigned division: the 256 by 256 case, udivmod4 and its callers *)

From Coq Require Import ZArith List String Bool Lia ZifyBool.
From Verif Require Import M_Prim M_Words M_Intr M_Div M_Mul M_Ops Spec P_Words P_AddSub P_Bits P_Mul P_Div.
Open Scope Z_scope.

(** ** The correction loop of div_mod_knuth (base 2^128) *)
Lemma knuth_step_ok c U vn1 vn0 d q rhat qt :
  2 ^ 127 <= vn1 < 2 ^ 128 -> 0 <= vn0 < 2 ^ 128 -> 0 <= d < 2 ^ 128 -> 
  0 <= rhat < 2 ^ 128 -> 0 <= U ->
  qt = (U * 2 ^ 128 + d) / (vn1 * 2 ^ 128 + vn0) ->
  q * vn1 + rhat = U -> qt <= q < 2 ^ 128 -> 
  knuth_step c vn1 vn0 d (q, rhat) = Ret (inr qt) \/
  (knuth_step c vn1 vn0 d (q, rhat) = Ret (inl (q - 1, rhat + vn1)) /\
   qt <= q - 1 /\ rhat + vn1 < 2 ^ 128).
Proof.
  intros H1 H0 Hd Hr HU Hqt HE Hq.
  set (v := vn1 * 2 ^ 128 + vn0) in *. set (N := U * 2 ^ 128 + d) in *.
  assert (Hv : 0 < v) by lia.
  assert (Hqt0 : 0 <= qt) by (subst qt; apply Z.div_pos; lia).
  unfold knuth_step. rewrite fullmul_u128_ok by lia. cbn [bind]. cbv zeta.
  assert (C : (rhat <? q * vn0 / 2 ^ 128) || ((q * vn0 / 2 ^ 128 =? rhat) && (d <? q * vn0 mod 2 ^ 128))
              = (N <? q * v)).
  { subst N v. apply Bool.eq_true_iff_eq.
    rewrite Z.ltb_lt, <- (digit_test (2 ^ 128) vn1 vn0 U d q rhat HE).
    set (p := q * vn0). zz. }
  rewrite C. destruct (Z.ltb_spec N (q * v)); cbn [negb].
  - assert (Hq1 : qt <= q - 1) by (apply (digit_too_big v N); lia).
    rewrite u_sub_ok by lia. cbn [bind]. unfold overflowing_add.
    destruct (Z.leb_spec (2 ^ 128) (rhat + vn1)).
    + left. do 2 f_equal. apply (digit_done v N); try lia.
      assert (~ N < (q - 1) * v); [|lia].
      subst N v. rewrite <- (digit_test (2 ^ 128) vn1 vn0 U d (q - 1) (rhat + vn1)) by lia. nia.
    + right. rewrite Z.mod_small by lia. repeat split; lia.
  - left. do 2 f_equal. apply (digit_done v N); lia.
Qed.

Lemma knuth_loop_ok c U vn1 vn0 d :
  2 ^ 127 <= vn1 < 2 ^ 128 -> 0 <= vn0 < 2 ^ 128 -> 0 <= d < 2 ^ 128 -> 
  0 <= U < vn1 * 2 ^ 128 ->
  loop 3 (knuth_step c vn1 vn0 d) (U / vn1, U mod vn1) =
  Ret ((U * 2 ^ 128 + d) / (vn1 * 2 ^ 128 + vn0)).
Proof.
  intros H1 H0 Hd HU.
  pose proof (Z.div_mod U vn1 ltac:(lia)) as HD.
  pose proof (Z.mod_pos_bound U vn1 ltac:(lia)) as HM.
  assert (Hq : 0 <= U / vn1 < 2 ^ 128)
    by (split; [apply Z.div_pos; lia | apply Z.div_lt_upper_bound; lia]).
  set (q := U / vn1) in *. set (rhat := U mod vn1) in *.
  set (qt := (U * 2 ^ 128 + d) / (vn1 * 2 ^ 128 + vn0)).
  assert (Hqt : qt <= q).
  { assert (qt < q + 1); [|lia]. apply Z.div_lt_upper_bound; [lia|]. nia. }
  cbn [loop].
  destruct (knuth_step_ok c U vn1 vn0 d q rhat qt) as [E|(E & Hq1 & Hr1)]; try lia; try reflexivity.
  { rewrite E. reflexivity. }
  rewrite E. cbn [bind].
  destruct (knuth_step_ok c U vn1 vn0 d (q - 1) (rhat + vn1) qt) as [E'|(E' & Hq2 & Hr2)];
    try lia; try reflexivity.
  rewrite E'. reflexivity.
Qed.

(** ** Normalisation and denormalisation *)
Lemma full_shl_ok c a s : 0 <= a < 2 ^ 256 -> 0 <= s < 128 ->
  let N := a * 2 ^ s in
  full_shl c (uof c a) s = Ret (N mod 2 ^ 128, (N / 2 ^ 128) mod 2 ^ 128, N / 2 ^ 256).
Proof.
  intros Ha Hs N. unfold full_shl. rewrite u_low_of. prim.
  rewrite u_op_shr_of by lia. cbn [bind].
  assert (E : a / 2 ^ (128 - s) = N / 2 ^ 128).
  { unfold N. replace (2 ^ 128) with (2 ^ (128 - s) * 2 ^ s) by (rewrite <- Z.pow_add_r by lia; f_equal; lia).
    rewrite Z.div_mul_cancel_r; [reflexivity | apply Z.pow_nonzero; lia..]. }
  rewrite E, u_low_of, u_high_of.
  assert (Hp : 1 <= 2 ^ s <= 2 ^ 127).
  { split; [pose proof (Z.pow_pos_nonneg 2 s); lia | apply Z.pow_le_mono_r; lia]. }
  assert (HN : 0 <= N < 2 ^ 383) by (unfold N; change (2 ^ 383) with (2 ^ 256 * 2 ^ 127); nia).
  f_equal. f_equal; [f_equal|].
  - unfold N. pull_mod. reflexivity.
  - zz.
Qed.

Lemma full_shr_ok c r s : 0 <= r < 2 ^ 256 -> 0 <= s < 128 ->
  full_shr c (r mod 2 ^ 128, (r / 2 ^ 128) mod 2 ^ 128, 0) s = Ret (uof c (r / 2 ^ s)).
Proof.
  intros Hr Hs. destruct (split_u r Hr) as (E & Hh & Hl).
  rewrite (Z.mod_small (r / 2 ^ 128)) by lia.
  unfold full_shr. prim. cbv zeta.
  assert (Hp : 0 < 2 ^ s) by (apply Z.pow_pos_nonneg; lia).
  assert (B1 : 0 <= r / 2 ^ 128 / 2 ^ s < 2 ^ 128)
    by (split; [apply Z.div_pos; lia | apply Z.div_lt_upper_bound; nia]).
  assert (B2 : 0 <= r mod 2 ^ 128 / 2 ^ s < 2 ^ 128)
    by (split; [apply Z.div_pos; lia | apply Z.div_lt_upper_bound; nia]).
  rewrite !u_set_high_from, !u_set_low_from, !u_low_from, ?u_high_from.
  rewrite <- (shr_words_hi (r / 2 ^ 128) (r mod 2 ^ 128) s), <- E in * by lia.
  destruct (Z.ltb_spec 0 s).
  - prim.
    rewrite ?u_set_high_from, ?u_set_low_from, ?u_low_from, ?u_high_from.
    rewrite lor_shr, <- E by lia. rewrite Z.mul_0_l, Z.mod_0_l, Z.lor_0_r by lia.
    rewrite u_from_words_of; [|lia|apply Z.mod_pos_bound; lia]. do 2 f_equal. zz.
  - assert (s = 0) by lia. subst s. rewrite !Z.div_1_r in *.
    rewrite u_from_words_of by lia. do 2 f_equal. zz.
Qed.

Lemma div_mod_knuth_ok c u v : 0 <= u < 2 ^ 256 -> 2 ^ 128 <= v <= u ->
  div_mod_knuth c (uof c u) (uof c v) = Ret (uof c (u / v), uof c (u mod v)).
Proof.
  intros Hu Hv. unfold div_mod_knuth. rewrite !u_high_of.
  rewrite !(Z.mod_small (_ / _)) by zz.
  rewrite debug_assert_ok by zz. cbn [bind].
  replace (u / 2 ^ 128 =? 0) with false by zz.
  destruct (lz_norm (v / 2 ^ 128) ltac:(zz)) as [Hs Hvs].
  set (s := leading_zeros 128 (v / 2 ^ 128)) in *. clearbody s. cbv zeta.
  rewrite debug_assert_ok by lia. cbn [bind].
  rewrite u_op_shl_of by lia. cbn [bind].
  rewrite full_shl_ok by lia. cbn [bind]. cbv beta iota.
  assert (Hp : 1 <= 2 ^ s <= 2 ^ 127).
  { split; [pose proof (Z.pow_pos_nonneg 2 s); lia | apply Z.pow_le_mono_r; lia]. }
  set (N := u * 2 ^ s) in *. set (v' := v * 2 ^ s).
  assert (Hv' : 2 ^ 255 <= v' < 2 ^ 256).
  { assert (v < (v / 2 ^ 128 + 1) * 2 ^ 128) by zz.
    assert (v / 2 ^ 128 * 2 ^ 128 <= v) by zz.
    assert (v / 2 ^ 128 + 1 <= 2 ^ (128 - s)).
    { assert (v / 2 ^ 128 < 2 ^ (128 - s)); [|lia].
      apply (Z.mul_lt_mono_pos_r (2 ^ s)); [lia|]. rewrite <- Z.pow_add_r by lia.
      replace (128 - s + s) with 128 by lia. lia. }
    assert (2 ^ (128 - s) * 2 ^ s = 2 ^ 128) by (rewrite <- Z.pow_add_r by lia; f_equal; lia).
    unfold v'. change (2 ^ 255) with (2 ^ 127 * 2 ^ 128). change (2 ^ 256) with (2 ^ 128 * 2 ^ 128). nia. }
  rewrite u_high_of, u_low_of. rewrite (Z.mod_small (v' / 2 ^ 128)) by zz.
  assert (Hvn1 : 2 ^ 127 <= v' / 2 ^ 128 < 2 ^ 128) by zz.
  assert (Hvn0 : 0 <= v' mod 2 ^ 128 < 2 ^ 128) by (apply Z.mod_pos_bound; lia).
  assert (Ev : v' / 2 ^ 128 * 2 ^ 128 + v' mod 2 ^ 128 = v') by zz.
  set (vn1 := v' / 2 ^ 128) in *. set (vn0 := v' mod 2 ^ 128) in *.
  rewrite p_shr_ok by lia. cbn [bind].
  replace (vn1 / 2 ^ 127) with 1 by zz. cbn [Z.eqb Pos.eqb negb bind].
  assert (HN : 0 <= N < 2 ^ 383) by (unfold N; change (2 ^ 383) with (2 ^ 256 * 2 ^ 127); nia).
  assert (Hu2 : 0 <= N / 2 ^ 256 < vn1) by zz.
  replace (N / 2 ^ 256 <? vn1) with true by lia.
  unfold new_unchecked. replace (vn1 =? 0) with false by lia. cbn [bind].
  rewrite udiv256_ok; [|lia|lia|apply Z.mod_pos_bound; lia]. cbn [bind].
  replace (N / 2 ^ 256 * 2 ^ 128 + (N / 2 ^ 128) mod 2 ^ 128) with (N / 2 ^ 128) by zz.
  rewrite knuth_loop_ok by (try lia; zz). cbn [bind]. rewrite Ev.
  replace (N / 2 ^ 128 * 2 ^ 128 + N mod 2 ^ 128) with N by zz.
  assert (EQ : N / v' = u / v) by (unfold N, v'; apply Z.div_mul_cancel_r; lia).
  assert (ER : N mod v' = u mod v * 2 ^ s) by (unfold N, v'; apply Z.mul_mod_distr_r; lia).
  assert (Hq : 0 <= N / v' < 2 ^ 128)
    by (rewrite EQ; split; [apply Z.div_pos; lia | apply Z.div_lt_upper_bound; lia]).
  rewrite fullmul_u256_u128_ok by lia. cbn [bind].
  pose proof (Z.div_mod N v' ltac:(lia)) as HNE.
  pose proof (Z.mod_pos_bound N v' ltac:(lia)) as HR.
  set (R := N mod v') in *. set (P := v' * (N / v')) in *.
  assert (HP : 0 <= P) by (unfold P; nia).
  clearbody P.
  rewrite !sub_carry_ok by (try (apply Z.mod_pos_bound; lia); zz).
  assert (B1 : Z.b2z (N mod 2 ^ 128 - P mod 2 ^ 128 - Z.b2z false <? 0)
              = - ((N mod 2 ^ 128 - P mod 2 ^ 128) / 2 ^ 128)).
  { simpl Z.b2z. rewrite Z.sub_0_r.
    destruct (Z.ltb_spec (N mod 2 ^ 128 - P mod 2 ^ 128) 0); simpl Z.b2z; zz. }
  rewrite B1.
  set (w1 := (N / 2 ^ 128) mod 2 ^ 128 - (P / 2 ^ 128) mod 2 ^ 128
              - - ((N mod 2 ^ 128 - P mod 2 ^ 128) / 2 ^ 128)).
  assert (B2 : Z.b2z (w1 <? 0) = - (w1 / 2 ^ 128)).
  { assert (- 2 ^ 128 <= w1 < 2 ^ 128) by (unfold w1; zz).
    destruct (Z.ltb_spec w1 0); simpl Z.b2z; zz. }
  rewrite B2.
  assert (B3 : N / 2 ^ 256 - P / 2 ^ 256 - - (w1 / 2 ^ 128) = R / 2 ^ 256) by (unfold w1; zz).
  rewrite B3. replace (R / 2 ^ 256) with 0 by zz.
  cbn [Z.ltb Z.compare bind].
  assert (B4 : (N mod 2 ^ 128 - P mod 2 ^ 128 - Z.b2z false) mod 2 ^ 128 = R mod 2 ^ 128)
    by (simpl Z.b2z; zz).
  assert (B5 : w1 mod 2 ^ 128 = (R / 2 ^ 128) mod 2 ^ 128) by (unfold w1; zz).
  rewrite B4, B5. change (0 mod 2 ^ 128) with 0.
  rewrite full_shr_ok by lia. cbn [bind].
  rewrite ER, Z.div_mul by lia. rewrite EQ.
  rewrite u_set_low_from, (U256_ZERO_of c), u_high_of. change (0 / 2 ^ 128 mod 2 ^ 128) with 0.
  rewrite EQ in Hq. rewrite u_from_words_of by lia. reflexivity.
Qed.

Lemma udivmod4_ok c a b want : 0 <= a < 2 ^ 256 -> 0 < b < 2 ^ 256 ->
  udivmod4 c (uof c a) (uof c b) want =
  Ret (uof c (a / b), if want then Some (uof c (a mod b)) else None).
Proof.
  intros Ha Hb. unfold udivmod4. rewrite !u_high_of, !u_low_of.
  rewrite !(Z.mod_small (_ / 2 ^ 128)) by zz.
  assert (HL : Z.lor (a / 2 ^ 128) (b / 2 ^ 128) = 0 <-> a < 2 ^ 128 /\ b < 2 ^ 128).
  { rewrite Z.lor_eq_0_iff. zz. }
  destruct (Z.eqb_spec (Z.lor (a / 2 ^ 128) (b / 2 ^ 128)) 0) as [E|NE].
  { apply HL in E. rewrite (Z.mod_small a), (Z.mod_small b) by lia.
    unfold u_div, u_rem. replace (b =? 0) with false by lia. cbn [bind].
    assert (0 <= a / b < 2 ^ 128)
      by (split; [apply Z.div_pos; lia | apply Z.div_lt_upper_bound; nia]).
    pose proof (Z.mod_pos_bound a b).
    destruct want; rewrite !u_from_words_of by lia; reflexivity. }
  assert (Hor : ~ (a < 2 ^ 128 /\ b < 2 ^ 128)) by tauto. clear HL NE.
  rewrite u_gt_of by lia. destruct (Z.ltb_spec a b).
  { rewrite Z.div_small, Z.mod_small by lia. rewrite <- U256_ZERO_of. reflexivity. }
  destruct (Z.eqb_spec (b / 2 ^ 128) 0).
  - assert (Hb' : b < 2 ^ 128) by zz. rewrite (Z.mod_small b (2 ^ 128)) by lia.
    destruct (split_u a Ha) as (E & Hh & Hl).
    unfold new_unchecked. replace (b =? 0) with false by lia.
    pose proof (Z.mod_pos_bound a b ltac:(lia)) as Hr.
    destruct (Z.ltb_spec (a / 2 ^ 128) b); cbn [bind].
    + rewrite udiv256_ok by lia. cbn [bind]. rewrite <- E.
      assert (0 <= a / b < 2 ^ 128) by (split; [apply Z.div_pos; lia | apply Z.div_lt_upper_bound; lia]).
      rewrite u_set_low_from, (U256_ZERO_of c), u_high_of. change (0 / 2 ^ 128 mod 2 ^ 128) with 0.
      rewrite !u_from_words_of by lia. destruct want; reflexivity.
    + unfold u_div, u_rem. replace (b =? 0) with false by lia. cbn [bind].
      pose proof (Z.mod_pos_bound (a / 2 ^ 128) b ltac:(lia)) as Hr1.
      rewrite udiv256_ok by lia. cbn [bind].
      set (ah := a / 2 ^ 128) in *. set (al := a mod 2 ^ 128) in *.
      pose proof (Z.div_mod ah b ltac:(lia)) as Eh.
      set (qh := ah / b) in *. set (rh := ah mod b) in *.
      assert (E2 : a = qh * 2 ^ 128 * b + (rh * 2 ^ 128 + al)) by (rewrite E, Eh; ring).
      assert (EQ : a / b = qh * 2 ^ 128 + (rh * 2 ^ 128 + al) / b) by (rewrite E2, Z.div_add_l by lia; reflexivity).
      assert (ER : a mod b = (rh * 2 ^ 128 + al) mod b) by (rewrite E2, Z.add_comm, Z.mod_add by lia; reflexivity).
      assert (0 <= (rh * 2 ^ 128 + al) / b < 2 ^ 128)
        by (split; [apply Z.div_pos; lia | apply Z.div_lt_upper_bound; lia]).
      assert (0 <= qh < 2 ^ 128) by (split; [apply Z.div_pos; lia | apply Z.div_lt_upper_bound; nia]).
      rewrite u_set_low_from, (U256_ZERO_of c), u_high_of. change (0 / 2 ^ 128 mod 2 ^ 128) with 0.
      rewrite <- ER. rewrite !u_from_words_of by lia. rewrite <- EQ. destruct want; reflexivity.
  - rewrite div_mod_knuth_ok by (try lia; zz). cbn [bind]. destruct want; reflexivity.
Qed.

(** division by zero inside the intrinsic *)
Lemma udivmod4_zero c a want : 0 <= a < 2 ^ 256 ->
  udivmod4 c (uof c a) (uof c 0) want = Panic "attempt to divide by zero".
Proof.
  intros Ha. unfold udivmod4. rewrite !u_high_of, !u_low_of.
  rewrite (Z.mod_small (a / 2 ^ 128)) by zz.
  change (0 / 2 ^ 128 mod 2 ^ 128) with 0. change (0 mod 2 ^ 128) with 0.
  rewrite Z.lor_0_r. unfold u_div at 1. cbn [Z.eqb bind].
  destruct (Z.eqb_spec (a / 2 ^ 128) 0); [reflexivity|].
  rewrite u_gt_of by lia. replace (a <? 0) with false by lia.
  replace (a / 2 ^ 128 <? 0) with false by zz. reflexivity.
Qed.

Lemma udiv3_of c a b : 0 <= a < 2 ^ 256 -> 0 < b < 2 ^ 256 ->
  udiv3 c (uof c a) (uof c b) = Ret (uof c (a / b)).
Proof. intros. unfold udiv3, res_map. rewrite udivmod4_ok by lia. reflexivity. Qed.
Lemma udiv2_eq c a b : udiv2 c a b = udiv3 c a b. Proof. reflexivity. Qed.
Lemma urem3_of c a b : 0 <= a < 2 ^ 256 -> 0 < b < 2 ^ 256 ->
  urem3 c (uof c a) (uof c b) = Ret (uof c (a mod b)).
Proof. intros. unfold urem3. rewrite udivmod4_ok by lia. reflexivity. Qed.
Lemma urem2_eq c a b : urem2 c a b = urem3 c a b. Proof. reflexivity. Qed.

Lemma u_op_div_of c a b : 0 <= a < 2 ^ 256 -> 0 <= b < 2 ^ 256 ->
  u_op_div c (uof c a) (uof c b) =
  if b =? 0 then Panic "attempt to divide by zero" else Ret (uof c (a / b)).
Proof.
  intros. unfold u_op_div. rewrite u_eq_prim_of by lia.
  destruct (Z.eqb_spec b 0); [reflexivity|]. apply udiv3_of; lia.
Qed.
Lemma u_op_rem_of c a b : 0 <= a < 2 ^ 256 -> 0 <= b < 2 ^ 256 ->
  u_op_rem c (uof c a) (uof c b) =
  if b =? 0 then Panic "attempt to calculate the remainder with a divisor of zero"
  else Ret (uof c (a mod b)).
Proof.
  intros. unfold u_op_rem. rewrite u_eq_prim_of by lia.
  destruct (Z.eqb_spec b 0); [reflexivity|]. apply urem3_of; lia.
Qed.
