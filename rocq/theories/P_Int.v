(** * I256 arithmetic methods: proofs of C07 - C14, C26, C47 *)

From Coq Require Import ZArith List String Bool Lia ZifyBool.
Import ListNotations.
From Verif Require Import M_Prim M_Words M_Intr M_Div M_Mul M_Ops M_UintApi M_IntApi Spec
  P_Words P_AddSub P_Bits P_Mul P_Div P_DivKnuth P_IntDiv P_Ops P_Uint.
Open Scope Z_scope.

Lemma i_cmp0 c a : - 2 ^ 255 <= a < 2 ^ 255 ->
  is_lt (i_cmp_prim c (iof c a) 0) = (a <? 0) /\ is_gt (i_cmp_prim c (iof c a) 0) = (0 <? a).
Proof. intros. rewrite i_cmp_prim_of, is_lt_cmp, is_gt_cmp by lia. auto. Qed.

Lemma iadd_family c a b : wf_i a -> wf_i b -> let s := ival c a + ival c b in
  i_wrapping_add c a b = iof c s /\
  i_overflowing_add c a b = (iof c s, negb (in_i 256 s)) /\
  i_checked_add c a b = (if in_i 256 s then Some (iof c s) else None) /\
  i_saturating_add c a b = iof c (clamp_i s).
Proof.
  intros Ha Hb. on_i c a. on_i c b. cbv zeta.
  split; [apply iadd3_of|]. split; [apply i_overflowing_add_of; lia|].
  unfold i_saturating_add. rewrite i_checked_add_of by lia. split; [reflexivity|].
  rewrite (proj2 (i_cmp0 c nb ltac:(lia))), I256_MAX_of, I256_MIN_of, clamp_i_eq.
  flagcase; destruct (Z.ltb_spec 0 nb); destruct (Z.ltb_spec (na + nb) (- 2 ^ 255)); f_equal; lia.
Qed.

Lemma isub_family c a b : wf_i a -> wf_i b -> let d := ival c a - ival c b in
  i_wrapping_sub c a b = iof c d /\
  i_overflowing_sub c a b = (iof c d, negb (in_i 256 d)) /\
  i_checked_sub c a b = (if in_i 256 d then Some (iof c d) else None) /\
  i_saturating_sub c a b = iof c (clamp_i d).
Proof.
  intros Ha Hb. on_i c a. on_i c b. cbv zeta.
  split; [apply i_wrapping_sub_of|]. split; [apply i_overflowing_sub_of; lia|].
  unfold i_saturating_sub. rewrite i_checked_sub_of by lia. split; [reflexivity|].
  rewrite (proj2 (i_cmp0 c nb ltac:(lia))), I256_MAX_of, I256_MIN_of, clamp_i_eq.
  flagcase; destruct (Z.ltb_spec 0 nb); destruct (Z.ltb_spec (na - nb) (- 2 ^ 255)); f_equal; lia.
Qed.

Lemma imul_family c a b : wf_i a -> wf_i b -> let p := ival c a * ival c b in
  i_wrapping_mul c a b = Ret (iof c p) /\
  i_overflowing_mul c a b = Ret (iof c p, negb (in_i 256 p)) /\
  i_checked_mul c a b = Ret (if in_i 256 p then Some (iof c p) else None) /\
  i_saturating_mul c a b = Ret (iof c (clamp_i p)).
Proof.
  intros Ha Hb. on_i c a. on_i c b. cbv zeta.
  split; [apply imul3_of|]. split; [apply i_overflowing_mul_of; lia|].
  unfold i_saturating_mul. rewrite i_checked_mul_of by lia. split; [reflexivity|].
  rewrite (proj1 (i_cmp0 c nb ltac:(lia))), (proj1 (i_cmp0 c na ltac:(lia))),
    I256_MAX_of, I256_MIN_of, clamp_i_eq. cbn [bind].
  flagcase; destruct (Z.ltb_spec na 0), (Z.ltb_spec nb 0); cbn [Bool.eqb];
    destruct (Z.ltb_spec (na * nb) (- 2 ^ 255)); do 2 f_equal; nia.
Qed.

(** ** Truncated division *)
Lemma quot_flag a b : - 2 ^ 255 <= a < 2 ^ 255 -> b <> 0 ->
  (a =? - 2 ^ 255) && (b =? -1) = negb (in_i 256 (Z.quot a b)).
Proof.
  intros Ha Hb. rewrite in_i_256.
  destruct (quot_range a b Ha Hb) as [(-> & -> & ->)|[H1 H2]]; [reflexivity|lia].
Qed.

Lemma min_m1 c : iof c (Z.quot (- 2 ^ 255) (-1)) = iof c (- 2 ^ 255).
Proof. apply iof_cong. reflexivity. Qed.

Lemma ov_cases a b : - 2 ^ 255 <= a < 2 ^ 255 -> b <> 0 ->
  (a = - 2 ^ 255 /\ b = -1 /\ in_i 256 (Z.quot a b) = false) \/
  ((a =? - 2 ^ 255) && (b =? -1) = false /\ in_i 256 (Z.quot a b) = true /\
   - 2 ^ 255 <= Z.quot a b < 2 ^ 255).
Proof.
  intros Ha Hb. rewrite quot_flag, in_i_256 by lia.
  destruct (quot_range a b Ha Hb) as [(-> & -> & ->)|[H1 H2]]; [left; auto|right].
  repeat split; lia.
Qed.

Lemma idiv_family c a b : wf_i a -> wf_i b ->
  let q := Z.quot (ival c a) (ival c b) in let r := Z.rem (ival c a) (ival c b) in
  if ival c b =? 0 then
    Forall (eq (Panic "attempt to divide by zero"))
      [i_op_div c a b; i_op_div_assign c a b; i_wrapping_div c a b; i_saturating_div c a b] /\
    i_overflowing_div c a b = Panic "attempt to divide by zero" /\
    Forall (eq (Panic "attempt to calculate the remainder with a divisor of zero"))
      [i_op_rem c a b; i_wrapping_rem c a b] /\
    i_overflowing_rem c a b = Panic "attempt to calculate the remainder with a divisor of zero" /\
    panics (i_op_rem_assign c a b) /\
    Forall (eq (Ret None)) [i_checked_div c a b; i_checked_rem c a b]
  else
    Forall (eq (Ret (iof c q))) [i_op_div c a b; i_op_div_assign c a b; i_wrapping_div c a b] /\
    Forall (eq (Ret (iof c r))) [i_op_rem c a b; i_op_rem_assign c a b; i_wrapping_rem c a b] /\
    i_overflowing_div c a b = Ret (iof c q, negb (in_i 256 q)) /\
    i_overflowing_rem c a b = Ret (iof c r, negb (in_i 256 q)) /\
    i_checked_div c a b = Ret (if in_i 256 q then Some (iof c q) else None) /\
    i_checked_rem c a b = Ret (if in_i 256 q then Some (iof c r) else None) /\
    i_saturating_div c a b = Ret (iof c (clamp_i q)).
Proof.
  intros Ha Hb. on_i c a. on_i c b. cbv zeta.
  unfold i_checked_div, i_checked_rem, i_saturating_div, i_wrapping_div, i_wrapping_rem,
    i_overflowing_div, i_overflowing_rem, panics, res_map.
  rewrite i_op_div_of, i_op_rem_of, i_op_div_assign_of, i_op_rem_assign_of,
    i_eq_prim_of, i_div_overflows_of by lia.
  destruct (Z.eqb_spec nb 0) as [->|Hb0].
  { change (0 =? -1) with false. rewrite andb_false_r. cbn [bind orb].
    repeat split; repeat constructor. eexists; reflexivity. }
  rewrite idiv3_of, irem3_of by lia. cbn [orb].
  destruct (ov_cases na nb Hna Hb0) as [(-> & -> & E)|(E1 & E & ER)].
  - rewrite E, min_m1, I256_MAX_of, (I256_ZERO_of c).
    change (Z.rem (- 2 ^ 255) (-1)) with 0. repeat split; repeat constructor.
  - rewrite E1, E. cbn [bind fst negb].
    repeat split; repeat constructor. do 2 f_equal. rewrite clamp_i_eq.
    destruct (Z.ltb_spec (Z.quot na nb) (- 2 ^ 255)); [lia|].
    destruct (Z.ltb_spec (Z.quot na nb) (2 ^ 255)); lia.
Qed.

(** C10: what happens instead of a panic *)
Lemma min_div_m1 c :
  let m := iof c MINI in let n := iof c (-1) in
  i_op_div c m n = Ret m /\ i_op_rem c m n = Ret (iof c 0) /\
  i_div_euclid c m n = Ret m /\ i_rem_euclid c m n = Ret (iof c 0).
Proof.
  cbv zeta. unfold MINI, i_div_euclid, i_rem_euclid. rewrite i_op_div_of, i_op_rem_of by lia.
  change (-1 =? 0) with false. cbn [bind].
  change (Z.rem (- 2 ^ 255) (-1)) with 0. rewrite min_m1.
  rewrite (proj1 (i_cmp0 c 0 ltac:(lia))). change (0 <? 0) with false. auto.
Qed.

(** ** Euclidean division *)
Lemma euclid_quot_rem a b q r : b <> 0 -> a = q * b + r -> 0 <= r < Z.abs b ->
  (0 <= Z.rem a b /\ q = Z.quot a b /\ r = Z.rem a b) \/
  (Z.rem a b < 0 /\ 0 < b /\ q = Z.quot a b - 1 /\ r = Z.rem a b + b) \/
  (Z.rem a b < 0 /\ b < 0 /\ q = Z.quot a b + 1 /\ r = Z.rem a b - b).
Proof.
  intros Hb Ha Hr. pose proof (Z.quot_rem a b Hb) as HE.
  assert (HA : Z.abs (Z.rem a b) < Z.abs b) by (apply Z.rem_bound_abs; lia).
  set (q' := Z.quot a b) in *. set (r' := Z.rem a b) in *. clearbody q' r'.
  destruct (Z_lt_ge_dec r' 0).
  - right. destruct (Z_lt_ge_dec b 0); [right|left].
    + assert (HX : (q - q') * b = r' - r) by lia.
      assert (q - q' = 1) by nia. repeat split; (lia || nia).
    + assert (HX : (q - q') * b = r' - r) by lia.
      assert (q - q' = -1) by nia. repeat split; (lia || nia).
  - left. assert (HX : (q - q') * b = r' - r) by lia.
    assert (q - q' = 0) by nia. repeat split; (lia || nia).
Qed.

Lemma euclid_unique a b q r q' r' : b <> 0 -> a = q * b + r -> 0 <= r < Z.abs b ->
  a = q' * b + r' -> 0 <= r' < Z.abs b -> q = q' /\ r = r'.
Proof. intros. assert (q = q') by nia. split; [assumption|]. subst. lia. Qed.

Lemma euclid_q_range a b q r : - 2 ^ 255 <= a < 2 ^ 255 -> - 2 ^ 255 <= b < 2 ^ 255 -> b <> 0 ->
  a = q * b + r -> 0 <= r < Z.abs b ->
  in_i 256 q = negb ((a =? - 2 ^ 255) && (b =? -1)).
Proof.
  intros Ha Hb Hb0 HE Hr. rewrite in_i_256.
  destruct (Z.eqb_spec b (-1)) as [->|Hb1].
  { assert (q = - a) by lia. lia. }
  assert (- 2 ^ 255 <= q < 2 ^ 255); [|lia].
  destruct (Z.eq_dec b 1) as [->|]; [lia|].
  assert (2 <= Z.abs b) by lia. nia.
Qed.

Lemma ieuclid_core c a b q r : - 2 ^ 255 <= a < 2 ^ 255 -> - 2 ^ 255 <= b < 2 ^ 255 -> b <> 0 ->
  a = q * b + r -> 0 <= r < Z.abs b ->
  i_div_euclid c (iof c a) (iof c b) = Ret (iof c q) /\
  i_rem_euclid c (iof c a) (iof c b) = Ret (iof c r).
Proof.
  intros Ha Hb Hb0 HE Hr.
  pose proof (euclid_quot_rem a b q r Hb0 HE Hr) as HC.
  pose proof (euclid_q_range a b q r Ha Hb Hb0 HE Hr) as HQ.
  assert (HA : Z.abs (Z.rem a b) < Z.abs b) by (apply Z.rem_bound_abs; lia).
  destruct (quot_range a b Ha Hb0) as [(-> & -> & HR)|[Hn HR]].
  { pose proof (min_div_m1 c) as (_ & _ & E1 & E2). unfold MINI in *. rewrite E1, E2.
    assert (q = 2 ^ 255) by lia. assert (r = 0) by lia. subst.
    split; [|reflexivity]. f_equal. }
  assert (HQ' : - 2 ^ 255 <= q < 2 ^ 255) by (rewrite in_i_256 in HQ; lia). clear HQ.
  unfold i_div_euclid, i_rem_euclid, i_rhs_prim. rewrite i_op_div_of, i_op_rem_of by lia.
  replace (b =? 0) with false by lia. cbn [bind]. clear HE.
  set (q' := Z.quot a b) in *. set (r' := Z.rem a b) in *. clearbody q' r'.
  rewrite (proj1 (i_cmp0 c r' ltac:(lia))), (proj1 (i_cmp0 c b ltac:(lia))), (proj2 (i_cmp0 c b ltac:(lia))).
  rewrite i_new_of by lia.
  destruct HC as [(H1 & -> & ->)|[(H1 & H2 & -> & ->)|(H1 & H2 & -> & ->)]].
  - replace (r' <? 0) with false by lia. auto.
  - replace (r' <? 0) with true by lia. replace (0 <? b) with true by lia.
    replace (b <? 0) with false by lia. rewrite i_op_sub_of, i_op_add_of by lia. unfold dbg.
    rewrite !in_i_256. 
    replace ((- 2 ^ 255 <=? q' - 1) && (q' - 1 <? 2 ^ 255)) with true by lia.
    replace ((- 2 ^ 255 <=? r' + b) && (r' + b <? 2 ^ 255)) with true by lia.
    rewrite andb_false_r. auto.
  - replace (r' <? 0) with true by lia. replace (0 <? b) with false by lia.
    replace (b <? 0) with true by lia. rewrite i_op_sub_of, i_op_add_of by lia. unfold dbg.
    rewrite !in_i_256.
    replace ((- 2 ^ 255 <=? q' + 1) && (q' + 1 <? 2 ^ 255)) with true by lia.
    replace ((- 2 ^ 255 <=? r' - b) && (r' - b <? 2 ^ 255)) with true by lia.
    rewrite andb_false_r. auto.
Qed.

Lemma ieuclid_zero c a b : wf_i a -> wf_i b -> ival c b = 0 ->
  Forall panics [i_div_euclid c a b; i_rem_euclid c a b; i_wrapping_div_euclid c a b; i_wrapping_rem_euclid c a b] /\
  Forall panics [i_overflowing_div_euclid c a b; i_overflowing_rem_euclid c a b] /\
  Forall (eq (Ret None)) [i_checked_div_euclid c a b; i_checked_rem_euclid c a b].
Proof.
  intros Ha Hb. on_i c a. on_i c b. intros ->.
  unfold i_wrapping_div_euclid, i_wrapping_rem_euclid, i_overflowing_div_euclid, i_overflowing_rem_euclid,
    i_checked_div_euclid, i_checked_rem_euclid, res_map, i_div_euclid, i_rem_euclid.
  rewrite i_op_div_of, i_op_rem_of, i_div_overflows_of, i_eq_prim_of by lia.
  change (0 =? -1) with false. rewrite andb_false_r. change (0 =? 0) with true. cbn [bind orb].
  repeat split; repeat constructor; eexists; reflexivity.
Qed.

Lemma ieuclid_family c a b q r : wf_i a -> wf_i b ->
  ival c a = q * ival c b + r -> 0 <= r < Z.abs (ival c b) ->
  Forall (eq (Ret (iof c q))) [i_div_euclid c a b; i_wrapping_div_euclid c a b] /\
  Forall (eq (Ret (iof c r))) [i_rem_euclid c a b; i_wrapping_rem_euclid c a b] /\
  i_overflowing_div_euclid c a b = Ret (iof c q, negb (in_i 256 q)) /\
  i_overflowing_rem_euclid c a b = Ret (iof c r, negb (in_i 256 q)) /\
  i_checked_div_euclid c a b = Ret (if in_i 256 q then Some (iof c q) else None) /\
  i_checked_rem_euclid c a b = Ret (if in_i 256 q then Some (iof c r) else None).
Proof.
  intros Ha Hb. on_i c a. on_i c b. intros HE Hr.
  assert (Hb0 : nb <> 0) by lia.
  pose proof (euclid_q_range na nb q r Hna Hnb Hb0 HE Hr) as HQ.
  destruct (ieuclid_core c na nb q r Hna Hnb Hb0 HE Hr) as [E1 E2].
  unfold i_wrapping_div_euclid, i_wrapping_rem_euclid, i_overflowing_div_euclid, i_overflowing_rem_euclid,
    i_checked_div_euclid, i_checked_rem_euclid, res_map.
  rewrite E1, E2, i_div_overflows_of, i_eq_prim_of, HQ, negb_involutive by lia.
  replace (nb =? 0) with false by lia. cbn [orb].
  destruct ((na =? - 2 ^ 255) && (nb =? -1)) eqn:E; cbn [bind fst negb].
  - assert (Ea : na = - 2 ^ 255) by lia. assert (Eb : nb = -1) by lia.
    assert (q = 2 ^ 255) by lia. assert (r = 0) by lia. rewrite Ea. subst q r.
    assert (EQ : iof c (- 2 ^ 255) = iof c (2 ^ 255)) by (apply iof_cong; reflexivity).
    rewrite EQ, (I256_ZERO_of c). repeat split; repeat constructor.
  - repeat split; repeat constructor.
Qed.

(** ** Combined division *)
Lemma i_cmp_zero_of c b : - 2 ^ 255 <= b < 2 ^ 255 -> i_cmp_zero_is_eq c (iof c b) = (b =? 0).
Proof.
  intros. unfold i_cmp_zero_is_eq. rewrite (I256_ZERO_of c), i_cmp_of by lia.
  rewrite Z.eqb_compare. reflexivity.
Qed.

Lemma i_wrapping_div_rem_of c a b : - 2 ^ 255 <= a < 2 ^ 255 -> - 2 ^ 255 <= b < 2 ^ 255 ->
  i_wrapping_div_rem c (iof c a) (iof c b) =
  if b =? 0 then Panic "attempt to divide by zero" else Ret (iof c (Z.quot a b), iof c (Z.rem a b)).
Proof.
  intros. unfold i_wrapping_div_rem. rewrite i_eq_prim_of, i_cmp_zero_of by lia.
  destruct (Z.eqb_spec b 0); [reflexivity|]. rewrite idivmod4_ok by lia. reflexivity.
Qed.

Lemma idiv_rem_family c a b : wf_i a -> wf_i b ->
  let q := Z.quot (ival c a) (ival c b) in let r := Z.rem (ival c a) (ival c b) in
  if ival c b =? 0 then
    Forall (eq (Panic "attempt to divide by zero"))
      [i_div_rem c a b; i_wrapping_div_rem c a b; i_saturating_div_rem c a b] /\
    i_overflowing_div_rem c a b = Panic "attempt to divide by zero" /\
    i_checked_div_rem c a b = Ret None
  else
    i_wrapping_div_rem c a b = Ret (iof c q, iof c r) /\
    i_overflowing_div_rem c a b = Ret (iof c q, iof c r, negb (in_i 256 q)) /\
    i_checked_div_rem c a b = Ret (if in_i 256 q then Some (iof c q, iof c r) else None) /\
    i_saturating_div_rem c a b = Ret (iof c (clamp_i q), iof c r) /\
    i_div_rem c a b = (if in_i 256 q then Ret (iof c q, iof c r)
                       else Panic "attempt to divide with overflow").
Proof.
  intros Ha Hb. on_i c a. on_i c b. cbv zeta.
  unfold i_saturating_div_rem, i_overflowing_div_rem, i_checked_div_rem, i_div_rem.
  rewrite i_wrapping_div_rem_of, i_eq_prim_of, i_div_overflows_of, i_cmp_zero_of by lia.
  destruct (Z.eqb_spec nb 0) as [->|Hb0].
  { change (0 =? -1) with false. rewrite andb_false_r. cbn [bind orb].
    repeat split; repeat constructor. }
  cbn [orb]. rewrite idivmod4_ok by lia.
  destruct (ov_cases na nb Hna Hb0) as [(-> & -> & E)|(E1 & E & ER)].
  - rewrite E, min_m1, (I256_ZERO_of c), I256_MAX_of.
    change (Z.rem (- 2 ^ 255) (-1)) with 0. repeat split.
  - rewrite E1, E. cbn [bind assume_init negb].
    repeat split. rewrite clamp_i_eq.
    destruct (Z.ltb_spec (Z.quot na nb) (- 2 ^ 255)); [lia|].
    destruct (Z.ltb_spec (Z.quot na nb) (2 ^ 255)); [reflexivity|lia].
Qed.

(** ** Combined Euclidean division *)

(** [bad]: the case in which the intermediate subtraction overflows *)
Lemma i_wdre_of c a b q r : - 2 ^ 255 <= a < 2 ^ 255 -> - 2 ^ 255 <= b < 2 ^ 255 ->
  a = q * b + r -> 0 <= r < Z.abs b ->
  i_wrapping_div_rem_euclid c (iof c a) (iof c b) =
  if debug_assertions c && ((b =? - 2 ^ 255) && (a <? 0) && negb (r =? 0))
  then Panic "attempt to subtract with overflow" else Ret (iof c q, iof c r).
Proof.
  intros Ha Hb HE Hr. unfold i_wrapping_div_rem_euclid.
  rewrite !i_is_negative_of, !i_unsigned_abs_of, div_rem_ok by lia.
  replace (Z.abs b =? 0) with false by lia. cbn [bind]. cbv zeta.
  rewrite !u_as_i256_of.
  pose proof (Z.div_mod (Z.abs a) (Z.abs b) ltac:(lia)) as HD.
  pose proof (Z.mod_pos_bound (Z.abs a) (Z.abs b) ltac:(lia)) as HM.
  set (Q := Z.abs a / Z.abs b) in *. set (R := Z.abs a mod Z.abs b) in *. clearbody Q R.
  assert (HQ0 : 0 <= Q) by nia.
  rewrite i_eq_prim_of by lia.
  destruct (Z.ltb_spec a 0) as [Han|Han]; cbn [andb].
  - destruct (Z.eqb_spec R 0) as [->|HR]; cbn [negb].
    + assert (r = 0 /\ q = if b <? 0 then Q else - Q) as [-> ->].
      { destruct (Z.ltb_spec b 0); apply and_comm; apply (euclid_unique a b q r _ 0); try lia; nia. }
      rewrite Z.eqb_refl. cbn [negb]. rewrite !andb_false_r. cbn [bind].
      rewrite i_is_negative_of, i_as_u256_of, u_ge_of by lia.
      replace ((0 <? 0) || (Z.abs b <=? 0)) with false by lia. cbn [bind].
      destruct (b <? 0); cbn [xorb]; [reflexivity|]. rewrite i_wrapping_neg_of. reflexivity.
    + assert (r = Z.abs b - R /\ q = if b <? 0 then Q + 1 else - Q - 1) as [-> ->].
      { destruct (Z.ltb_spec b 0); apply and_comm; apply (euclid_unique a b q r); try lia; nia. }
      replace (Z.abs b - R =? 0) with false by lia. cbn [negb]. rewrite !andb_true_r.
      destruct (Z.eqb_spec b (- 2 ^ 255)) as [->|Hbm].
      * change (Z.abs (- 2 ^ 255)) with (2 ^ 255) in *.
        assert (EM : iof c (2 ^ 255) = iof c (- 2 ^ 255)) by (apply iof_cong; reflexivity). rewrite EM.
        rewrite i_op_sub_of by lia. unfold dbg. rewrite in_i_256.
        replace ((- 2 ^ 255 <=? - 2 ^ 255 - R) && _) with false by lia. cbn [negb]. rewrite andb_true_r.
        destruct (debug_assertions c) eqn:Hd; [reflexivity|]. cbn [bind].
        assert (EN : iof c (- 2 ^ 255 - R) = iof c (2 ^ 255 - R)).
        { apply iof_cong. replace (2 ^ 255 - R) with (- 2 ^ 255 - R + 1 * 2 ^ 256) by lia.
          rewrite Z.mod_add by lia. reflexivity. }
        rewrite EN, i_is_negative_of, i_as_u256_of, u_ge_of by lia.
        replace ((2 ^ 255 - R <? 0) || (2 ^ 255 <=? 2 ^ 255 - R)) with false by lia. cbn [bind].
        replace (- 2 ^ 255 <? 0) with true by lia. cbn [xorb]. unfold i_rhs_prim.
        rewrite i_new_of, i_op_add_assign_of, i_op_add_of by (try lia; nia). unfold dbg. rewrite Hd. reflexivity.
      * rewrite andb_false_r. 
        rewrite i_op_sub_of by lia. unfold dbg. rewrite in_i_256.
        replace ((- 2 ^ 255 <=? Z.abs b - R) && _) with true by lia. cbn [negb]. rewrite andb_false_r. cbn [bind].
        rewrite i_is_negative_of, i_as_u256_of, u_ge_of by lia.
        replace ((Z.abs b - R <? 0) || (Z.abs b <=? Z.abs b - R)) with false by lia. cbn [bind].
        destruct (Z.ltb_spec b 0); cbn [xorb].
        -- unfold i_rhs_prim. assert (2 <= Z.abs b) by lia. assert (Q < 2 ^ 254 + 1) by nia.
           rewrite i_new_of, i_op_add_assign_of, i_op_add_of by lia. unfold dbg. rewrite in_i_256.
           replace ((- 2 ^ 255 <=? Q + 1) && _) with true by lia. cbn [negb]. rewrite andb_false_r. reflexivity.
        -- rewrite i_op_not_of. reflexivity.
  - assert (r = R /\ q = if b <? 0 then - Q else Q) as [-> ->].
    { destruct (Z.ltb_spec b 0); apply and_comm; apply (euclid_unique a b q r); try lia; nia. }
    rewrite andb_false_r. cbn [andb]. rewrite andb_false_r. cbn [bind].
    rewrite i_is_negative_of, i_as_u256_of, u_ge_of by lia.
    replace ((R <? 0) || (Z.abs b <=? R)) with false by lia. cbn [bind].
    destruct (b <? 0); cbn [xorb]; [|reflexivity]. rewrite i_wrapping_neg_of. reflexivity.
Qed.

Lemma i_wdre_zero c a b : wf_i a -> wf_i b -> ival c b = 0 ->
  Forall (eq (Panic "attempt to divide by zero"))
    [i_wrapping_div_rem_euclid c a b; i_div_rem_euclid c a b; i_saturating_div_rem_euclid c a b] /\
  i_overflowing_div_rem_euclid c a b = Panic "attempt to divide by zero" /\
  i_checked_div_rem_euclid c a b = Ret None.
Proof.
  intros Ha Hb. on_i c a. on_i c b. intros ->.
  assert (E : i_wrapping_div_rem_euclid c (iof c na) (iof c 0) = Panic "attempt to divide by zero").
  { unfold i_wrapping_div_rem_euclid. rewrite !i_unsigned_abs_of, div_rem_ok by lia. reflexivity. }
  unfold i_div_rem_euclid, i_saturating_div_rem_euclid, i_overflowing_div_rem_euclid, i_checked_div_rem_euclid.
  rewrite E, i_div_overflows_of, i_eq_prim_of by lia.
  change (0 =? -1) with false. rewrite andb_false_r. cbn [bind orb].
  repeat split; repeat constructor.
Qed.

Lemma idiv_rem_euclid_family c a b q r : wf_i a -> wf_i b ->
  ival c a = q * ival c b + r -> 0 <= r < Z.abs (ival c b) ->
  (debug_assertions c = true -> ival c b = MINI -> ival c a < 0 -> r = 0) ->
  i_wrapping_div_rem_euclid c a b = Ret (iof c q, iof c r) /\
  i_overflowing_div_rem_euclid c a b = Ret (iof c q, iof c r, negb (in_i 256 q)) /\
  i_checked_div_rem_euclid c a b = Ret (if in_i 256 q then Some (iof c q, iof c r) else None) /\
  i_saturating_div_rem_euclid c a b = Ret (iof c (clamp_i q), iof c r) /\
  i_div_rem_euclid c a b = (if in_i 256 q then Ret (iof c q, iof c r)
                            else Panic "attempt to divide with overflow").
Proof.
  intros Ha Hb. on_i c a. on_i c b. unfold MINI. intros HE Hr Hgood.
  assert (Hb0 : nb <> 0) by lia.
  pose proof (euclid_q_range na nb q r Hna Hnb Hb0 HE Hr) as HQ.
  pose proof (i_wdre_of c na nb q r Hna Hnb HE Hr) as E1.
  assert (EG : debug_assertions c && ((nb =? - 2 ^ 255) && (na <? 0) && negb (r =? 0)) = false).
  { destruct (debug_assertions c); cbn [andb]; [|reflexivity].
    specialize (Hgood eq_refl). lia. }
  rewrite EG in E1.
  unfold i_saturating_div_rem_euclid, i_overflowing_div_rem_euclid, i_checked_div_rem_euclid, i_div_rem_euclid.
  rewrite E1, i_div_overflows_of, i_eq_prim_of, i_cmp_zero_of by lia.
  replace (nb =? 0) with false by lia. cbn [orb].
  destruct ((na =? - 2 ^ 255) && (nb =? -1)) eqn:E; rewrite HQ; cbn [bind negb].
  - assert (Ea : na = - 2 ^ 255) by lia. assert (Eb : nb = -1) by lia.
    assert (q = 2 ^ 255) by lia. assert (r = 0) by lia. rewrite Ea. subst q r.
    assert (EQ : iof c (- 2 ^ 255) = iof c (2 ^ 255)) by (apply iof_cong; reflexivity).
    rewrite EQ, (I256_ZERO_of c), I256_MAX_of. repeat split.
  - assert (HQ' : - 2 ^ 255 <= q < 2 ^ 255) by (rewrite in_i_256 in HQ; lia).
    repeat split. rewrite clamp_i_eq.
    destruct (Z.ltb_spec q (- 2 ^ 255)); [lia|].
    destruct (Z.ltb_spec q (2 ^ 255)); [reflexivity|lia].
Qed.

(** ** Sign functions *)
Lemma i_signum128_of c a : - 2 ^ 255 <= a < 2 ^ 255 -> i_signum128 c (iof c a) = Z.sgn a.
Proof.
  intros. unfold i_signum128, signum_128. rewrite i_into_words_of, ihi_small by lia.
  assert (E : (wrap_i 128 a =? 0) = (a mod 2 ^ 128 =? 0)).
  { apply Bool.eq_true_iff_eq. rewrite !Z.eqb_eq. split; intros E.
    - rewrite <- wrap_i_128_mod, E. reflexivity.
    - rewrite (wrap_i_cong 128 a 0) by (rewrite E; reflexivity). reflexivity. }
  rewrite E. destruct (split_i a H) as (Ea & Hh & Hl).
  destruct (Z.sgn_spec (a / 2 ^ 128)) as [[H1 E1]|[[H1 E1]|[H1 E1]]]; rewrite E1.
  - assert (0 < a) by lia. rewrite Z.sgn_pos by lia. destruct (negb _); reflexivity.
  - destruct (Z.eqb_spec (a mod 2 ^ 128) 0); simpl negb; simpl Z.b2z.
    + assert (a = 0) by lia. subst a. reflexivity.
    + rewrite Z.sgn_pos by lia. reflexivity.
  - rewrite Z.sgn_neg by lia. destruct (negb _); reflexivity.
Qed.

Lemma sign_family c a : wf_i a -> let v := ival c a in
  i_is_negative c a = (v <? 0) /\ i_is_positive c a = (0 <? v) /\
  i_signum128 c a = Z.sgn v /\ i_signum c a = iof c (Z.sgn v).
Proof.
  intros Ha. on_i c a. cbv zeta. unfold i_is_positive, i_signum.
  rewrite i_is_negative_of, i_signum128_of by lia.
  assert (-1 <= Z.sgn na <= 1) by lia. rewrite i_new_of by lia.
  repeat split. destruct (Z.ltb_spec 0 na); lia.
Qed.

Lemma abs_family c a : wf_i a -> let m := Z.abs (ival c a) in
  i_wrapping_abs c a = iof c m /\
  i_overflowing_abs c a = (iof c m, negb (in_i 256 m)) /\
  i_checked_abs c a = Ret (if in_i 256 m then Some (iof c m) else None) /\
  i_saturating_abs c a = iof c (clamp_i m) /\
  i_unsigned_abs c a = uof c m /\
  i_abs c a = (if debug_assertions c && negb (in_i 256 m)
               then Panic "attempt to negate with overflow" else Ret (iof c m)).
Proof.
  intros Ha. on_i c a. cbv zeta.
  unfold i_overflowing_abs, i_checked_abs, i_saturating_abs, i_abs, i_checked_neg, i_overflowing_neg, i_saturating_neg, i_saturating_sub.
  rewrite i_wrapping_abs_of, i_unsigned_abs_of, i_is_negative_of, I256_MIN_of, I256_MAX_of, i_eq_of,
    (I256_ZERO_of c), i_checked_sub_of, i_op_neg_dbg by lia.
  rewrite (proj2 (i_cmp0 c na ltac:(lia))), clamp_i_eq.
  unfold dbg. rewrite !in_i_256.
  destruct (Z.eqb_spec na (- 2 ^ 255)) as [->|].
  { repeat split; reflexivity. }
  replace ((- 2 ^ 255 <=? Z.abs na) && (Z.abs na <? 2 ^ 255)) with true by lia.
  replace ((- 2 ^ 255 <=? - na) && (- na <? 2 ^ 255)) with true by lia.
  replace ((- 2 ^ 255 <=? 0 - na) && (0 - na <? 2 ^ 255)) with true by lia.
  replace (Z.abs na <? - 2 ^ 255) with false by lia. replace (Z.abs na <? 2 ^ 255) with true by lia.
  cbn [negb]. rewrite !andb_false_r. cbn [bind none_if_flag].
  destruct (Z.ltb_spec na 0); repeat split; repeat f_equal; lia.
Qed.

Lemma ineg_family c a : wf_i a -> let m := - ival c a in
  i_wrapping_neg c a = iof c m /\
  i_overflowing_neg c a = Ret (iof c m, negb (in_i 256 m)) /\
  i_checked_neg c a = Ret (if in_i 256 m then Some (iof c m) else None) /\
  i_saturating_neg c a = iof c (clamp_i m) /\
  i_op_neg c a = (if debug_assertions c && negb (in_i 256 m)
               then Panic "attempt to negate with overflow" else Ret (iof c m)).
Proof.
  intros Ha. on_i c a. cbv zeta.
  unfold i_checked_neg, i_overflowing_neg, i_saturating_neg, i_saturating_sub.
  rewrite i_wrapping_neg_of, I256_MIN_of, I256_MAX_of, i_eq_of,
    (I256_ZERO_of c), i_checked_sub_of, i_op_neg_dbg by lia.
  rewrite (proj2 (i_cmp0 c na ltac:(lia))), clamp_i_eq.
  unfold dbg. rewrite !in_i_256.
  destruct (Z.eqb_spec na (- 2 ^ 255)) as [->|].
  { repeat split; reflexivity. }
  replace ((- 2 ^ 255 <=? - na) && (- na <? 2 ^ 255)) with true by lia.
  replace ((- 2 ^ 255 <=? 0 - na) && (0 - na <? 2 ^ 255)) with true by lia.
  replace (- na <? - 2 ^ 255) with false by lia. replace (- na <? 2 ^ 255) with true by lia.
  cbn [negb]. rewrite !andb_false_r. cbn [bind none_if_flag].
  repeat split; repeat f_equal; lia.
Qed.

(** ** Mixed signedness *)
Lemma iof_wrapped_u c b : 0 <= b < 2 ^ 256 -> 
  iof c b = iof c (if b <? 2 ^ 255 then b else b - 2 ^ 256).
Proof.
  intros. destruct (Z.ltb_spec b (2 ^ 255)); [reflexivity|]. apply iof_cong.
  replace b with (b - 2 ^ 256 + 1 * 2 ^ 256) at 1 by lia. rewrite Z.mod_add by lia. reflexivity.
Qed.
Lemma uof_wrapped_i c b : - 2 ^ 255 <= b < 2 ^ 255 -> 
  uof c b = uof c (if b <? 0 then b + 2 ^ 256 else b).
Proof.
  intros. destruct (Z.ltb_spec b 0); [|reflexivity]. apply uof_cong.
  replace (b + 2 ^ 256) with (b + 1 * 2 ^ 256) by lia. rewrite Z.mod_add by lia. reflexivity.
Qed.

Lemma add_signed_family c a b : wf_u a -> wf_i b -> let s := uval c a + ival c b in
  u_wrapping_add_signed c a b = uof c s /\
  u_overflowing_add_signed c a b = (uof c s, negb (in_u 256 s)) /\
  u_checked_add_signed c a b = (if in_u 256 s then Some (uof c s) else None) /\
  u_saturating_add_signed c a b = uof c (clamp_u s).
Proof.
  intros Ha Hb. on_u c a. on_i c b. cbv zeta.
  assert (EO : u_overflowing_add_signed c (uof c na) (iof c nb) = (uof c (na + nb), negb (in_u 256 (na + nb)))).
  { unfold u_overflowing_add_signed. rewrite i_as_u256_of, (proj1 (i_cmp0 c nb ltac:(lia))).
    rewrite (uof_wrapped_i c nb) by lia. destruct (Z.ltb_spec nb 0).
    - rewrite u_overflowing_add_of by lia. f_equal; [|rewrite !in_u_256; lia].
      apply uof_cong. replace (na + (nb + 2 ^ 256)) with (na + nb + 1 * 2 ^ 256) by lia.
      rewrite Z.mod_add by lia. reflexivity.
    - rewrite u_overflowing_add_of by lia. f_equal. rewrite xorb_false_r. reflexivity. }
  split; [unfold u_wrapping_add_signed; rewrite i_as_u256_of; apply add3_of|].
  split; [exact EO|].
  split; [unfold u_checked_add_signed; rewrite EO; cbn; destruct (in_u _ _); reflexivity|].
  unfold u_saturating_add_signed. rewrite i_as_u256_of, (proj1 (i_cmp0 c nb ltac:(lia))).
  rewrite (uof_wrapped_i c nb) by lia. rewrite clamp_u_eq, (U256_MAX_of c), (U256_ZERO_of c).
  destruct (Z.ltb_spec nb 0).
  - rewrite u_overflowing_add_of by lia. flagcase; try lia; cbn [Bool.eqb].
    + replace (na + nb <? 0) with true by lia. reflexivity.
    + replace (na + nb <? 0) with false by lia. replace (na + nb <? 2 ^ 256) with true by lia.
      apply uof_cong. replace (na + (nb + 2 ^ 256)) with (na + nb + 1 * 2 ^ 256) by lia.
      rewrite Z.mod_add by lia. reflexivity.
  - rewrite u_overflowing_add_of by lia. flagcase; try lia; cbn [Bool.eqb];
      replace (na + nb <? 0) with false by lia; reflexivity.
Qed.

Lemma add_unsigned_family c a b : wf_i a -> wf_u b -> let s := ival c a + uval c b in
  i_wrapping_add_unsigned c a b = iof c s /\
  i_overflowing_add_unsigned c a b = (iof c s, negb (in_i 256 s)) /\
  i_checked_add_unsigned c a b = (if in_i 256 s then Some (iof c s) else None) /\
  i_saturating_add_unsigned c a b = iof c (clamp_i s).
Proof.
  intros Ha Hb. on_i c a. on_u c b. cbv zeta.
  assert (EO : i_overflowing_add_unsigned c (iof c na) (uof c nb) = (iof c (na + nb), negb (in_i 256 (na + nb)))).
  { unfold i_overflowing_add_unsigned. rewrite u_as_i256_of.
    rewrite (iof_wrapped_u c nb) by lia. cbv zeta. destruct (Z.ltb_spec nb (2 ^ 255)).
    - rewrite i_overflowing_add_of, (proj1 (i_cmp0 c nb ltac:(lia))) by lia. f_equal.
      replace (nb <? 0) with false by lia. rewrite xorb_false_r. reflexivity.
    - rewrite i_overflowing_add_of, (proj1 (i_cmp0 c (nb - 2 ^ 256) ltac:(lia))) by lia.
      f_equal; [|rewrite !in_i_256; lia].
      apply iof_cong. replace (na + nb) with (na + (nb - 2 ^ 256) + 1 * 2 ^ 256) by lia.
      rewrite Z.mod_add by lia. reflexivity. }
  split; [unfold i_wrapping_add_unsigned; rewrite u_as_i256_of; apply iadd3_of|].
  split; [exact EO|].
  unfold i_saturating_add_unsigned, i_checked_add_unsigned; rewrite EO, I256_MAX_of, clamp_i_eq. cbn [none_if_flag].
  flagcase; try lia; split; try reflexivity.
  - replace (na + nb <? - 2 ^ 255) with false by lia. reflexivity.
  - replace (na + nb <? - 2 ^ 255) with false by lia. reflexivity.
Qed.

Lemma sub_unsigned_family c a b : wf_i a -> wf_u b -> let d := ival c a - uval c b in
  i_wrapping_sub_unsigned c a b = iof c d /\
  i_overflowing_sub_unsigned c a b = (iof c d, negb (in_i 256 d)) /\
  i_checked_sub_unsigned c a b = (if in_i 256 d then Some (iof c d) else None) /\
  i_saturating_sub_unsigned c a b = iof c (clamp_i d).
Proof.
  intros Ha Hb. on_i c a. on_u c b. cbv zeta.
  assert (EO : i_overflowing_sub_unsigned c (iof c na) (uof c nb) = (iof c (na - nb), negb (in_i 256 (na - nb)))).
  { unfold i_overflowing_sub_unsigned. rewrite u_as_i256_of.
    rewrite (iof_wrapped_u c nb) by lia. cbv zeta. destruct (Z.ltb_spec nb (2 ^ 255)).
    - rewrite i_overflowing_sub_of, (proj1 (i_cmp0 c nb ltac:(lia))) by lia. f_equal.
      replace (nb <? 0) with false by lia. rewrite xorb_false_r. reflexivity.
    - rewrite i_overflowing_sub_of, (proj1 (i_cmp0 c (nb - 2 ^ 256) ltac:(lia))) by lia.
      f_equal; [|rewrite !in_i_256; lia].
      apply iof_cong. replace (na - (nb - 2 ^ 256)) with (na - nb + 1 * 2 ^ 256) by lia.
      rewrite Z.mod_add by lia. reflexivity. }
  split; [unfold i_wrapping_sub_unsigned; rewrite u_as_i256_of; apply i_wrapping_sub_of|].
  split; [exact EO|].
  unfold i_saturating_sub_unsigned, i_checked_sub_unsigned; rewrite EO, I256_MIN_of, clamp_i_eq. cbn [none_if_flag].
  flagcase; try lia; split; try reflexivity.
  - replace (na - nb <? - 2 ^ 255) with false by lia. reflexivity.
  - replace (na - nb <? - 2 ^ 255) with true by lia. reflexivity.
Qed.

Lemma iabs_diff_ok c a b : wf_i a -> wf_i b ->
  i_abs_diff c a b = uof c (Z.abs (ival c a - ival c b)).
Proof.
  intros Ha Hb. on_i c a. on_i c b. unfold i_abs_diff, u_wrapping_sub.
  rewrite i_lt_of, !i_as_u256_of, !sub3_of by lia.
  destruct (Z.ltb_spec na nb); f_equal; lia.
Qed.
