(** * Unsigned division: Knuth's algorithm D *)

From Coq Require Import ZArith List String Bool Lia ZifyBool.
From Verif Require Import M_Prim M_Words M_Intr M_Div M_Mul Spec P_Words P_AddSub P_Bits P_Mul.
Open Scope Z_scope.

(** ** One quotient digit, in any base [B] *)

(** [q] is the estimate, [rhat] the remainder of the estimate; the correction test
    [q * vn0 > B * rhat + d] is exactly "q is too large". *)
Lemma digit_test B vn1 vn0 U d q rhat : q * vn1 + rhat = U ->
  (B * rhat + d < q * vn0 <-> U * B + d < q * (vn1 * B + vn0)).
Proof. intros <-. nia. Qed.

Lemma digit_done v N q qt : 0 < v -> qt = N / v -> qt <= q -> q * v <= N -> q = qt.
Proof.
  intros Hv -> H1 H2. apply Z.le_antisymm; [|assumption].
  apply Z.div_le_lower_bound; lia.
Qed.

Lemma digit_too_big v N q qt : 0 < v -> qt = N / v -> N < q * v -> qt <= q - 1.
Proof.
  intros Hv -> H. assert (N / v < q); [|lia]. apply Z.div_lt_upper_bound; lia.
Qed.

Lemma B64_eq : B64 = 2 ^ 64. Proof. reflexivity. Qed.

Lemma digit_cond_ok c U vn1 vn0 d q rhat :
  0 <= vn0 < 2 ^ 64 -> 0 <= d < 2 ^ 64 -> 0 <= rhat < 2 ^ 64 -> 0 <= q ->
  q * vn1 + rhat = U ->
  digit_cond c q rhat vn0 d = Ret ((2 ^ 64 <=? q) || (U * 2 ^ 64 + d <? q * (vn1 * 2 ^ 64 + vn0))).
Proof.
  intros H0 Hd Hr Hq HU. unfold digit_cond. rewrite B64_eq.
  destruct (Z.leb_spec (2 ^ 64) q); [reflexivity|].
  rewrite u_mul_ok by nia. cbn [bind]. rewrite u_mul_ok by nia. cbn [bind].
  rewrite u_add_ok by nia. cbn [bind orb]. f_equal.
  pose proof (digit_test (2 ^ 64) vn1 vn0 U d q rhat HU).
  apply Bool.eq_true_iff_eq. rewrite !Z.ltb_lt. tauto.
Qed.

(** the state is exact, or one of at most [k] corrections is still due *)
Lemma digit_step_ok c U vn1 vn0 d q rhat qt :
  2 ^ 63 <= vn1 < 2 ^ 64 -> 0 <= vn0 < 2 ^ 64 -> 0 <= d < 2 ^ 64 -> 
  0 <= rhat < 2 ^ 64 -> 0 <= U < vn1 * 2 ^ 64 + vn0 -> 
  qt = (U * 2 ^ 64 + d) / (vn1 * 2 ^ 64 + vn0) ->
  q * vn1 + rhat = U -> qt <= q <= 2 ^ 64 + 1 -> 
  digit_step c vn1 vn0 d (q, rhat) = Ret (inr qt) \/
  (digit_step c vn1 vn0 d (q, rhat) = Ret (inl (q - 1, rhat + vn1)) /\
   qt <= q - 1 /\ rhat + vn1 < 2 ^ 64).
Proof.
  intros H1 H0 Hd Hr HU Hqt HE Hq.
  set (v := vn1 * 2 ^ 64 + vn0) in *. set (N := U * 2 ^ 64 + d) in *.
  assert (Hv : 0 < v) by lia.
  assert (Hqt0 : 0 <= qt) by (subst qt; apply Z.div_pos; lia).
  assert (HqtB : qt < 2 ^ 64) by (subst qt; apply Z.div_lt_upper_bound; lia).
  unfold digit_step. rewrite (digit_cond_ok c U vn1) by (lia || assumption). fold v N. cbn [bind].
  destruct ((2 ^ 64 <=? q) || (N <? q * v)) eqn:C.
  - assert (Hq1 : qt <= q - 1).
    { apply orb_true_iff in C. destruct C as [C|C]; [lia|].
      apply (digit_too_big v N); lia. }
    rewrite u_sub_ok by lia. cbn [bind]. rewrite u_add_ok by lia. cbn [bind].
    rewrite B64_eq. destruct (Z.leb_spec (2 ^ 64) (rhat + vn1)).
    + left. do 2 f_equal. apply (digit_done v N); try lia.
      assert (~ N < (q - 1) * v); [|lia].
      subst N v. rewrite <- (digit_test (2 ^ 64) vn1 vn0 U d (q - 1) (rhat + vn1)) by lia. nia.
    + right. repeat split; lia.
  - apply orb_false_iff in C. left. do 2 f_equal. apply (digit_done v N); lia.
Qed.

Lemma quot_digit_ok c U vn1 vn0 d :
  2 ^ 63 <= vn1 < 2 ^ 64 -> 0 <= vn0 < 2 ^ 64 -> 0 <= d < 2 ^ 64 -> 
  0 <= U < vn1 * 2 ^ 64 + vn0 -> 
  quot_digit c U vn1 vn0 d = Ret ((U * 2 ^ 64 + d) / (vn1 * 2 ^ 64 + vn0)).
Proof.
  intros H1 H0 Hd HU. unfold quot_digit, u_div.
  replace (vn1 =? 0) with false by lia. cbn [bind].
  pose proof (Z.div_mod U vn1 ltac:(lia)) as HD.
  pose proof (Z.mod_pos_bound U vn1 ltac:(lia)) as HM.
  set (q := U / vn1) in *.
  assert (Hq : 0 <= q <= 2 ^ 64 + 1) by nia.
  rewrite u_mul_ok by nia. cbn [bind]. rewrite u_sub_ok by nia. cbn [bind].
  set (rhat := U - q * vn1).
  assert (Hr : 0 <= rhat < vn1) by lia.
  set (qt := (U * 2 ^ 64 + d) / (vn1 * 2 ^ 64 + vn0)).
  assert (Hqt : qt <= q).
  { assert (qt < q + 1); [|lia]. apply Z.div_lt_upper_bound; [lia|]. nia. }
  cbn [loop].
  destruct (digit_step_ok c U vn1 vn0 d q rhat qt) as [E|(E & Hq1 & Hr1)]; try lia; try reflexivity.
  { rewrite E. reflexivity. }
  rewrite E. cbn [bind].
  destruct (digit_step_ok c U vn1 vn0 d (q - 1) (rhat + vn1) qt) as [E'|(E' & Hq2 & Hr2)];
    try lia; try reflexivity.
  rewrite E'. reflexivity.
Qed.

(** ** 256 by 128 bits *)

Lemma lz_norm v : 0 < v < 2 ^ 128 ->
  let s := leading_zeros 128 v in 0 <= s < 128 /\ 2 ^ 127 <= v * 2 ^ s < 2 ^ 128.
Proof.
  intros Hv. unfold leading_zeros. replace (v =? 0) with false by lia. cbv zeta.
  pose proof (Z.log2_spec v ltac:(lia)) as [L1 L2].
  assert (0 <= Z.log2 v) by apply Z.log2_nonneg.
  assert (Z.log2 v < 128) by (apply Z.log2_lt_pow2; lia).
  split; [lia|].
  set (k := Z.log2 v) in *.
  assert (E1 : 2 ^ 127 = 2 ^ k * 2 ^ (128 - 1 - k)) by (rewrite <- Z.pow_add_r by lia; f_equal; lia).
  assert (E2 : 2 ^ 128 = 2 ^ Z.succ k * 2 ^ (128 - 1 - k)) by (rewrite <- Z.pow_add_r by lia; f_equal; lia).
  assert (0 < 2 ^ (128 - 1 - k)) by (apply Z.pow_pos_nonneg; lia).
  rewrite E1, E2. split; [apply Z.mul_le_mono_nonneg_r | apply Z.mul_lt_mono_pos_r]; lia.
Qed.

Lemma shl_nz_ok c x n : 0 < x -> 0 <= n < 128 -> x * 2 ^ n < 2 ^ 128 -> shl_nz c x n = Ret (x * 2 ^ n).
Proof.
  intros. assert (0 < 2 ^ n) by (apply Z.pow_pos_nonneg; lia). unfold shl_nz.
  rewrite debug_assert_ok by lia. cbn [bind]. rewrite u_shl_ok by lia. cbn [bind].
  rewrite Z.mod_small by nia. rewrite debug_assert_ok by nia. cbn [bind].
  unfold new_unchecked. replace (x * 2 ^ n =? 0) with false by nia. reflexivity.
Qed.

Lemma shr_nz_ok c x n : 0 <= n < 128 -> 0 < x / 2 ^ n -> shr_nz c x n = Ret (x / 2 ^ n).
Proof.
  intros. unfold shr_nz.
  rewrite debug_assert_ok by lia. cbn [bind]. rewrite p_shr_ok by lia. cbn [bind].
  rewrite debug_assert_ok by lia. cbn [bind].
  unfold new_unchecked. replace (x / 2 ^ n =? 0) with false by lia. reflexivity.
Qed.

(** two digits at a time *)
Lemma two_digits B v u d1 d0 :
  0 < B -> 0 < v -> 0 <= u < v -> 0 <= d1 < B -> 0 <= d0 < B ->
  let r1 := (u * B + d1) mod v in
  ((u * B + d1) * B + d0) / v = (u * B + d1) / v * B + (r1 * B + d0) / v /\
  ((u * B + d1) * B + d0) mod v = (r1 * B + d0) mod v.
Proof.
  intros HB Hv Hu H1 H0. cbv zeta.
  pose proof (Z.div_mod (u * B + d1) v ltac:(lia)) as E.
  set (q1 := (u * B + d1) / v) in *. set (r1 := (u * B + d1) mod v) in *.
  replace ((u * B + d1) * B + d0) with (q1 * B * v + (r1 * B + d0)) by (rewrite E; ring).
  split; [rewrite Z.div_add_l by lia; reflexivity|].
  rewrite Z.add_comm, Z.mod_add by lia. reflexivity.
Qed.

Lemma udiv256_ok c u1 u0 v : 0 < v < 2 ^ 128 -> 0 <= u1 < v -> 0 <= u0 < 2 ^ 128 ->
  udiv256_by_128_to_128 c u1 u0 v =
  Ret ((u1 * 2 ^ 128 + u0) / v, (u1 * 2 ^ 128 + u0) mod v).
Proof.
  intros Hv Hu1 Hu0. unfold udiv256_by_128_to_128.
  rewrite debug_assert_ok by lia. cbn [bind].
  destruct (lz_norm v Hv) as [Hs Hvs]. set (s := leading_zeros 128 v) in *. clearbody s.
  cbv zeta. rewrite debug_assert_ok by lia. cbn [bind].
  assert (Hp : 0 < 2 ^ s) by (apply Z.pow_pos_nonneg; lia).
  set (M := u1 * 2 ^ 128 + u0).
  set (N := M * 2 ^ s). set (v' := v * 2 ^ s) in *.
  assert (HM : 0 <= M < v * 2 ^ 128) by (unfold M; nia).
  assert (HN : 0 <= N < v' * 2 ^ 128) by (unfold N, v'; nia).
  (* normalisation *)
  assert (Hnorm :
    (if 0 <? s then
       let! v'0 := shl_nz c v s in
       let! h := u_shl c 128 u1 s in
       let! k := u_sub c 32 128 s in
       let! l := p_shr c 128 u0 k in
       let! un10 := u_shl c 128 u0 s in
       Ret (v'0, Z.lor h l, un10)
     else Ret (v, u1, u0)) = Ret (v', N / 2 ^ 128, N mod 2 ^ 128)).
  { destruct (Z.ltb_spec 0 s).
    - rewrite shl_nz_ok by lia. cbn [bind]. prim. fold v'.
      destruct (shl_words u1 u0 s) as (h' & E1 & E2); try lia.
      fold M in E2. fold N in E2. rewrite E1.
      assert (h' = N / 2 ^ 128) by (rewrite <- E2; zz).
      assert (N mod 2 ^ 128 = u0 * 2 ^ s mod 2 ^ 128) by (rewrite <- E2; zz).
      assert (0 <= N / 2 ^ 128 < 2 ^ 128) by (split; [apply Z.div_pos; lia | apply Z.div_lt_upper_bound; lia]).
      subst h'. rewrite Z.mod_small by lia. congruence.
    - assert (s = 0) by lia. subst s. unfold v', N, M. rewrite !Z.mul_1_r.
      repeat f_equal; zz. }
  rewrite Hnorm. cbn [bind]. clear Hnorm.
  assert (Hun : 0 <= N / 2 ^ 128 < v') by (split; [apply Z.div_pos; lia | apply Z.div_lt_upper_bound; lia]).
  pose proof (Z.div_mod N (2 ^ 128) ltac:(lia)) as HNE.
  pose proof (Z.mod_pos_bound N (2 ^ 128) ltac:(lia)) as HNM.
  set (un128 := N / 2 ^ 128) in *. set (un10 := N mod 2 ^ 128) in *.
  rewrite shr_nz_ok by zz. cbn [bind].
  change 0xFFFFFFFFFFFFFFFF with (2 ^ 64 - 1). rewrite !land_64.
  rewrite p_shr_ok by lia. cbn [bind].
  assert (Ev : v' / 2 ^ 64 * 2 ^ 64 + v' mod 2 ^ 64 = v') by zz.
  rewrite quot_digit_ok by zz. cbn [bind]. rewrite Ev.
  assert (E10 : un10 = un10 / 2 ^ 64 * 2 ^ 64 + un10 mod 2 ^ 64) by zz.
  assert (Hd1 : 0 <= un10 / 2 ^ 64 < 2 ^ 64) by zz.
  assert (Hd0 : 0 <= un10 mod 2 ^ 64 < 2 ^ 64) by zz.
  set (d1 := un10 / 2 ^ 64) in *. set (d0 := un10 mod 2 ^ 64) in *.
  rewrite B64_eq.
  (* exact remainders from wrapping arithmetic *)
  assert (Hwrap : forall u d q, q = (u * 2 ^ 64 + d) / v' ->
    wrapping_sub 128 (wrapping_add 128 (wrapping_mul 128 u (2 ^ 64)) d) (wrapping_mul 128 q v')
    = (u * 2 ^ 64 + d) mod v').
  { intros u d q ->. unfold wrapping_sub, wrapping_add, wrapping_mul.
    transitivity ((u * 2 ^ 64 + d - (u * 2 ^ 64 + d) / v' * v') mod 2 ^ 128).
    - pull_mod. reflexivity.
    - replace (u * 2 ^ 64 + d - (u * 2 ^ 64 + d) / v' * v') with ((u * 2 ^ 64 + d) mod v')
        by (rewrite Z.mod_eq by lia; ring).
      apply Z.mod_small. pose proof (Z.mod_pos_bound (u * 2 ^ 64 + d) v'). lia. }
  rewrite (Hwrap un128 d1 _ eq_refl).
  pose proof (Z.mod_pos_bound (un128 * 2 ^ 64 + d1) v' ltac:(lia)) as Hr1.
  rewrite quot_digit_ok; [|zz|zz|lia|rewrite Ev; lia]. cbn [bind]. rewrite Ev.
  set (r1 := (un128 * 2 ^ 64 + d1) mod v') in *.
  rewrite (Hwrap r1 d0 _ eq_refl).
  rewrite p_shr_ok by lia. cbn [bind].
  destruct (two_digits (2 ^ 64) v' un128 d1 d0) as [Q R]; try lia. fold r1 in Q, R.
  replace ((un128 * 2 ^ 64 + d1) * 2 ^ 64 + d0) with N in Q, R by lia.
  assert (Hq1 : 0 <= (un128 * 2 ^ 64 + d1) / v' < 2 ^ 64)
    by (split; [apply Z.div_pos; lia | apply Z.div_lt_upper_bound; lia]).
  assert (Hq0 : 0 <= (r1 * 2 ^ 64 + d0) / v' < 2 ^ 64)
    by (split; [apply Z.div_pos; lia | apply Z.div_lt_upper_bound; lia]).
  rewrite u_mul_ok by lia. cbn [bind]. rewrite u_add_ok by lia. cbn [bind].
  rewrite <- Q, <- R. unfold N, v'.
  rewrite Z.div_mul_cancel_r by lia. rewrite Z.mul_mod_distr_r by lia.
  rewrite Z.div_mul by lia. reflexivity.
Qed.

(** ** Full products *)

Lemma fullmul_u128_ok c a b : 0 <= a < 2 ^ 128 -> 0 <= b < 2 ^ 128 ->
  fullmul_u128 c a b = Ret (a * b mod 2 ^ 128, a * b / 2 ^ 128).
Proof.
  intros Ha Hb. unfold fullmul_u128, split_u128_to_u128. cbv beta iota zeta.
  change 0xFFFFFFFFFFFFFFFF with (2 ^ 64 - 1). rewrite !land_64, !Z.shiftr_div_pow2 by lia.
  set (a0 := a mod 2 ^ 64). set (b0 := b mod 2 ^ 64).
  assert (Ea : a = a / 2 ^ 64 * 2 ^ 64 + a0) by (subst a0; zz).
  assert (Eb : b = b / 2 ^ 64 * 2 ^ 64 + b0) by (subst b0; zz).
  assert (Ha0 : 0 <= a0 <= 2 ^ 64 - 1) by (subst a0; zz).
  assert (Hb0 : 0 <= b0 <= 2 ^ 64 - 1) by (subst b0; zz).
  assert (Ha1 : 0 <= a / 2 ^ 64 <= 2 ^ 64 - 1) by zz.
  assert (Hb1 : 0 <= b / 2 ^ 64 <= 2 ^ 64 - 1) by zz.
  set (a1 := a / 2 ^ 64) in *. set (b1 := b / 2 ^ 64) in *.
  assert (Hab : 0 <= a * b <= (2 ^ 128 - 1) * (2 ^ 128 - 1)) by (apply mul_bound; lia).
  clearbody a0 b0 a1 b1.
  pose proof (mul_bound a0 b0 _ Ha0 Hb0) as P00.
  pose proof (mul_bound a1 b0 _ Ha1 Hb0) as P10.
  pose proof (mul_bound a0 b1 _ Ha0 Hb1) as P01.
  pose proof (mul_bound a1 b1 _ Ha1 Hb1) as P11.
  assert (Eab : a * b = a1 * b1 * 2 ^ 128 + (a1 * b0 + a0 * b1) * 2 ^ 64 + a0 * b0)
    by (rewrite Ea, Eb; ring).
  rewrite (u_mul_ok c 128 a0 b0) by lia. cbn [bind].
  rewrite !land_64, !Z.shiftr_div_pow2 by lia.
  rewrite (u_mul_ok c 128 a1 b0) by lia. cbn [bind].
  set (p00 := a0 * b0) in *. set (p10 := a1 * b0) in *.
  rewrite u_add_ok by zz. cbn [bind]. rewrite !land_64, !Z.shiftr_div_pow2 by lia.
  rewrite (u_mul_ok c 128 a0 b1) by lia. cbn [bind]. set (p01 := a0 * b1) in *.
  rewrite u_add_ok by zz. cbn [bind].
  rewrite p_shr_ok by lia. cbn [bind].
  rewrite (u_mul_ok c 128 a1 b1) by lia. cbn [bind]. set (p11 := a1 * b1) in *.
  set (t1 := p10 + p00 / 2 ^ 64). set (t2 := p01 + t1 mod 2 ^ 64).
  assert (Hsum : (p11 + t1 / 2 ^ 64 + t2 / 2 ^ 64) * 2 ^ 128 +
                 (t2 mod 2 ^ 64 * 2 ^ 64 + p00 mod 2 ^ 64) = a * b)
    by (subst t1 t2; zz).
  rewrite u_add_ok by (subst t1 t2; zz). cbn [bind].
  rewrite u_add_ok by (subst t1 t2; zz). cbn [bind].
  rewrite u_shl_ok by lia. cbn [bind].
  rewrite mul_pow_mod by lia. change (2 ^ (128 - 64)) with (2 ^ 64).
  rewrite u_add_ok by zz. cbn [bind].
  rewrite <- Hsum. f_equal. f_equal; zz.
Qed.

Lemma fullmul_u256_u128_ok c a b : 0 <= a < 2 ^ 256 -> 0 <= b < 2 ^ 128 ->
  fullmul_u256_u128 c (uof c a) b =
  Ret (a * b mod 2 ^ 128, (a * b / 2 ^ 128) mod 2 ^ 128, a * b / 2 ^ 256).
Proof.
  intros Ha Hb. unfold fullmul_u256_u128. rewrite u_high_of, u_low_of.
  destruct (split_u a Ha) as (Ea & Hah & Hal). rewrite (Z.mod_small (a / _)) by lia.
  destruct (Z.eqb_spec b 0) as [->|Hb0]; cbn [negb].
  { rewrite Z.mul_0_r. reflexivity. }
  rewrite !fullmul_u128_ok by lia. cbn [bind]. unfold overflowing_add.
  rewrite add_carry_div.
  2:{ assert (0 <= a mod 2 ^ 128 * b <= (2 ^ 128 - 1) * (2 ^ 128 - 1)) by (apply mul_bound; lia).
      zz. }
  2:{ apply Z.mod_pos_bound; lia. }
  set (al := a mod 2 ^ 128) in *. set (ah := a / 2 ^ 128) in *. clearbody al ah. subst a.
  assert (H1 : 0 <= al * b <= (2 ^ 128 - 1) * (2 ^ 128 - 1)) by (apply mul_bound; lia).
  assert (H2 : 0 <= ah * b <= (2 ^ 128 - 1) * (2 ^ 128 - 1)) by (apply mul_bound; lia).
  assert (E : (ah * 2 ^ 128 + al) * b = ah * b * 2 ^ 128 + al * b) by ring. rewrite E.
  set (p := ah * b) in *. set (q := al * b) in *. clearbody p q.
  rewrite u_add_ok by zz. cbn [bind].
  f_equal. f_equal; [f_equal|]; zz.
Qed.

Lemma sub_carry_ok a b (cin : bool) : 0 <= a < 2 ^ 128 -> 0 <= b < 2 ^ 128 ->
  sub_carry a b cin = ((a - b - Z.b2z cin) mod 2 ^ 128, a - b - Z.b2z cin <? 0).
Proof.
  intros Ha Hb. unfold sub_carry, overflowing_add, overflowing_sub. cbv beta iota zeta.
  f_equal.
  - transitivity ((a - (b + Z.b2z cin)) mod 2 ^ 128); [pull_mod; reflexivity | f_equal; lia].
  - destruct cin; simpl Z.b2z.
    + destruct (Z.leb_spec (2 ^ 128) (b + 1)); [lia|]. rewrite Z.mod_small by lia. lia.
    + destruct (Z.leb_spec (2 ^ 128) (b + 0)); [lia|]. rewrite Z.mod_small by lia. lia.
Qed.

