(** * Signed division and checked signed multiplication *)

From Coq Require Import ZArith List String Bool Lia ZifyBool.
From Verif Require Import M_Prim M_Words M_Intr M_Div M_Mul M_Ops Spec P_Words P_AddSub P_Bits P_Mul P_Div P_DivKnuth.
Open Scope Z_scope.

(** The branch-free sign idiom: xor with the sign mask, then subtract it. *)
Definition smask (a : Z) : Z := if a <? 0 then -1 else 0.

Lemma smask_ok c a : - 2 ^ 255 <= a < 2 ^ 255 -> i_op_shr c (iof c a) 255 = Ret (iof c (smask a)).
Proof.
  intros. rewrite i_op_shr_of by lia. do 2 f_equal. unfold smask. destruct (Z.ltb_spec a 0); zz.
Qed.

Lemma lxor_m1 a : Z.lxor a (-1) = - a - 1.
Proof. rewrite Z.lxor_m1_r. unfold Z.lnot. lia. Qed.

Lemma xor_sub_ok c x s :
  i_wrapping_sub c (i_op_xor (iof c x) (iof c (smask s))) (iof c (smask s)) =
  iof c (if s <? 0 then - x else x).
Proof.
  rewrite i_op_xor_of, i_wrapping_sub_of. unfold smask. destruct (s <? 0).
  - rewrite lxor_m1. f_equal. lia.
  - rewrite Z.lxor_0_r. f_equal. lia.
Qed.

Lemma abs_sign a : (if a <? 0 then - a else a) = Z.abs a.
Proof. destruct (Z.ltb_spec a 0); lia. Qed.

Lemma xor_smask c a b : i_op_xor_assign (iof c (smask b)) (iof c (smask a)) = 
  iof c (smask (Z.sgn a * Z.sgn b + (if (a =? 0) then smask b else 0) + (if b =? 0 then smask a else 0))).
Proof.
  rewrite i_op_xor_assign_eq, i_op_xor_of. f_equal. unfold smask.
  destruct (Z.ltb_spec a 0), (Z.ltb_spec b 0), (Z.eqb_spec a 0), (Z.eqb_spec b 0); try lia;
    destruct (Z.sgn_spec a) as [[? E]|[[? E]|[? E]]], (Z.sgn_spec b) as [[? E']|[[? E']|[? E']]];
    rewrite E, E'; try lia; reflexivity.
Qed.

Lemma idivmod4_ok c a b want : - 2 ^ 255 <= a < 2 ^ 255 -> - 2 ^ 255 <= b < 2 ^ 255 -> b <> 0 ->
  idivmod4 c (iof c a) (iof c b) want =
  Ret (iof c (Z.quot a b), if want then Some (iof c (Z.rem a b)) else None).
Proof.
  intros Ha Hb Hb0. unfold idivmod4. rewrite !smask_ok by lia. cbn [bind]. cbv zeta.
  rewrite !xor_sub_ok, !abs_sign, !i_as_u256_of.
  rewrite udivmod4_ok by lia. cbn [bind].
  assert (EQ : Z.abs a / Z.abs b = Z.quot (Z.abs a) (Z.abs b)) by (symmetry; apply Z.quot_div_nonneg; lia).
  assert (ER : Z.abs a mod Z.abs b = Z.rem (Z.abs a) (Z.abs b)) by (symmetry; apply Z.rem_mod_nonneg; lia).
  rewrite EQ, ER, u_as_i256_of.
  assert (EX : i_wrapping_sub c (i_op_xor (iof c (Z.quot (Z.abs a) (Z.abs b)))
        (i_op_xor_assign (iof c (smask b)) (iof c (smask a))))
        (i_op_xor_assign (iof c (smask b)) (iof c (smask a))) = iof c (Z.quot a b)).
  { rewrite xor_smask. rewrite xor_sub_ok. f_equal.
    destruct (Z.eqb_spec b 0); [lia|]. 
    destruct (Z.eqb_spec a 0) as [->|].
    { simpl Z.abs. rewrite !Z.quot_0_l by lia. destruct (_ <? _); reflexivity. }
    assert (E : Z.quot (Z.abs a) (Z.abs b) = Z.sgn a * Z.sgn b * Z.quot a b).
    { destruct (Z.sgn_spec a) as [[? E]|[[? E]|[? E]]], (Z.sgn_spec b) as [[? E']|[[? E']|[? E']]];
        rewrite E, E'; try lia;
        destruct (Z.abs_spec a) as [[? ->]|[? ->]], (Z.abs_spec b) as [[? ->]|[? ->]]; try lia;
        rewrite ?Z.quot_opp_opp, ?Z.quot_opp_l, ?Z.quot_opp_r by lia; lia. }
    rewrite E.
    destruct (Z.sgn_spec a) as [[? E0]|[[? E0]|[? E0]]], (Z.sgn_spec b) as [[? E']|[[? E']|[? E']]];
        rewrite E0, E'; try lia; match goal with |- context[?x <? 0] => destruct (Z.ltb_spec x 0) end; lia. }
  rewrite EX. destruct want; [|reflexivity]. cbn [assume_init bind].
  rewrite u_as_i256_of, xor_sub_ok. do 4 f_equal.
  destruct (Z.ltb_spec a 0).
  - rewrite (Z.abs_neq a), Z.rem_opp_l, Z.opp_involutive by lia.
    destruct (Z.abs_spec b) as [[? ->]|[? ->]]; rewrite ?Z.rem_opp_r by lia; reflexivity.
  - rewrite (Z.abs_eq a) by lia.
    destruct (Z.abs_spec b) as [[? ->]|[? ->]]; rewrite ?Z.rem_opp_r by lia; reflexivity.
Qed.

Lemma idivmod4_zero c a want : - 2 ^ 255 <= a < 2 ^ 255 ->
  idivmod4 c (iof c a) (iof c 0) want = Panic "attempt to divide by zero".
Proof.
  intros Ha. unfold idivmod4. rewrite !smask_ok by lia. cbn [bind]. cbv zeta.
  rewrite !xor_sub_ok, !abs_sign, !i_as_u256_of.
  change (Z.abs 0) with 0. rewrite udivmod4_zero by lia. reflexivity.
Qed.

Lemma idiv3_of c a b : - 2 ^ 255 <= a < 2 ^ 255 -> - 2 ^ 255 <= b < 2 ^ 255 -> b <> 0 ->
  idiv3 c (iof c a) (iof c b) = Ret (iof c (Z.quot a b)).
Proof. intros. unfold idiv3, res_map. rewrite idivmod4_ok by lia. reflexivity. Qed.
Lemma irem3_of c a b : - 2 ^ 255 <= a < 2 ^ 255 -> - 2 ^ 255 <= b < 2 ^ 255 -> b <> 0 ->
  irem3 c (iof c a) (iof c b) = Ret (iof c (Z.rem a b)).
Proof. intros. unfold irem3. rewrite idivmod4_ok by lia. reflexivity. Qed.
Lemma idiv2_eq c a b : idiv2 c a b = idiv3 c a b. Proof. reflexivity. Qed.
Lemma irem2_eq c a b : irem2 c a b = irem3 c a b. Proof. reflexivity. Qed.

Lemma i_op_div_of c a b : - 2 ^ 255 <= a < 2 ^ 255 -> - 2 ^ 255 <= b < 2 ^ 255 ->
  i_op_div c (iof c a) (iof c b) =
  if b =? 0 then Panic "attempt to divide by zero" else Ret (iof c (Z.quot a b)).
Proof.
  intros. unfold i_op_div. rewrite i_eq_prim_of by lia.
  destruct (Z.eqb_spec b 0); [reflexivity|]. apply idiv3_of; lia.
Qed.
Lemma i_op_rem_of c a b : - 2 ^ 255 <= a < 2 ^ 255 -> - 2 ^ 255 <= b < 2 ^ 255 ->
  i_op_rem c (iof c a) (iof c b) =
  if b =? 0 then Panic "attempt to calculate the remainder with a divisor of zero"
  else Ret (iof c (Z.rem a b)).
Proof.
  intros. unfold i_op_rem. rewrite i_eq_prim_of by lia.
  destruct (Z.eqb_spec b 0); [reflexivity|]. apply irem3_of; lia.
Qed.

(** ** Range of the quotient *)
Lemma quot_range a b : - 2 ^ 255 <= a < 2 ^ 255 -> b <> 0 ->
  (a = - 2 ^ 255 /\ b = -1 /\ Z.quot a b = 2 ^ 255) \/
  (~ (a = - 2 ^ 255 /\ b = -1) /\ - 2 ^ 255 <= Z.quot a b < 2 ^ 255).
Proof.
  intros Ha Hb. destruct (Z.eq_dec b (-1)) as [->|Hb1].
  - change (-1) with (- (1)). rewrite Z.quot_opp_r, Z.quot_1_r by lia. lia.
  - right. split; [lia|].
    destruct (Z.eq_dec b 1) as [->|Hb2]; [rewrite Z.quot_1_r; lia|].
    assert (Z.abs (Z.quot a b) <= 2 ^ 254); [|lia].
    rewrite <- Z.quot_abs by lia. apply Z.quot_le_upper_bound; [lia|].
    change (2 ^ 254) with (2 ^ 254). nia.
Qed.

(** ** imulc: the overflow flag is exact *)
Lemma quot_pos_lt n d x : 0 <= n -> 0 < d -> (Z.quot n d <? x) = (n <? x * d).
Proof.
  intros Hn Hd. rewrite Z.quot_div_nonneg by lia.
  apply Bool.eq_true_iff_eq. rewrite !Z.ltb_lt.
  pose proof (Z.div_mod n d ltac:(lia)). pose proof (Z.mod_pos_bound n d ltac:(lia)). nia.
Qed.

Lemma imulc_of c a b : - 2 ^ 255 <= a < 2 ^ 255 -> - 2 ^ 255 <= b < 2 ^ 255 ->
  imulc c (iof c a) (iof c b) = Ret (iof c (a * b), negb (in_i 256 (a * b))).
Proof.
  intros Ha Hb. unfold imulc, res_map. rewrite !i_as_u256_of, n_mul3_of. cbn [bind]. rewrite u_as_i256_of.
  rewrite I256_MIN_of, I256_MAX_of, !i_eq_of, !i_eq_prim_of by lia.
  unfold in_i. change (2 ^ (256 - 1)) with (2 ^ 255).
  destruct (Z.eqb_spec a (- 2 ^ 255)) as [->|Ha'].
  { do 2 f_equal. destruct (Z.eqb_spec b 0) as [->|]; [reflexivity|]. 
    destruct (Z.eqb_spec b 1) as [->|]; [reflexivity|]. lia. }
  destruct (Z.eqb_spec b (- 2 ^ 255)) as [->|Hb'].
  { do 2 f_equal. destruct (Z.eqb_spec a 0) as [->|]; [reflexivity|]. 
    destruct (Z.eqb_spec a 1) as [->|]; [reflexivity|]. lia. }
  rewrite !smask_ok by lia. cbn [bind]. cbv zeta. rewrite !xor_sub_ok, !abs_sign.
  rewrite !i_cmp_prim_of, !is_lt_cmp by lia.
  destruct (Z.ltb_spec (Z.abs a) 2); [|destruct (Z.ltb_spec (Z.abs b) 2)]; cbn [orb].
  { do 2 f_equal. nia. }
  { do 2 f_equal. nia. }
  assert (Hs : - 2 ^ 255 <= smask a < 2 ^ 255) by (unfold smask; destruct (a <? 0); lia).
  assert (Hs' : - 2 ^ 255 <= smask b < 2 ^ 255) by (unfold smask; destruct (b <? 0); lia).
  rewrite i_eq_of by lia. 
  destruct (Z.eqb_spec (smask a) (smask b)) as [E|E]; unfold smask in E; clear Hs Hs'.
  - rewrite i_op_div_of by lia. replace (Z.abs b =? 0) with false by lia. cbn [bind].
    assert (0 <= Z.quot (2 ^ 255 - 1) (Z.abs b) < 2 ^ 255).
    { rewrite Z.quot_div_nonneg by lia. split; [apply Z.div_pos; lia|apply Z.div_lt_upper_bound; nia]. }
    rewrite i_gt_of by lia. rewrite quot_pos_lt by lia. rewrite <- Z.abs_mul.
    do 2 f_equal. destruct (Z.ltb_spec a 0), (Z.ltb_spec b 0); nia.
  - rewrite i_op_neg_of by lia. replace (Z.abs b =? - 2 ^ 255) with false by lia.
    rewrite andb_false_r. cbn [bind].
    rewrite i_op_div_of by lia. replace (- Z.abs b =? 0) with false by lia. cbn [bind].
    rewrite Z.quot_opp_opp by lia.
    assert (0 <= Z.quot (2 ^ 255) (Z.abs b) < 2 ^ 255).
    { rewrite Z.quot_div_nonneg by lia. split; [apply Z.div_pos; lia|apply Z.div_lt_upper_bound; nia]. }
    rewrite i_gt_of by lia. rewrite quot_pos_lt by lia. rewrite <- Z.abs_mul.
    do 2 f_equal. destruct (Z.ltb_spec a 0), (Z.ltb_spec b 0); nia.
Qed.
