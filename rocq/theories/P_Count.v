(** * Bit counting *)

From Coq Require Import ZArith List String Bool Lia ZifyBool.
Import ListNotations.
From Verif Require Import M_Prim M_Words M_Llvm M_Intr M_Div M_Mul M_Ops M_UintApi M_IntApi Spec Spec_Bits
  P_Words P_Llvm P_AddSub P_Bits P_Forms P_BitsApi.
Open Scope Z_scope.

(** ** Population count *)
Lemma ones_app n m v : ones (n + m) v = ones n v + ones m (v / 2 ^ Z.of_nat n).
Proof.
  induction m as [|m IH].
  - rewrite Nat.add_0_r. cbn [ones]. lia.
  - rewrite Nat.add_succ_r. cbn [ones]. rewrite IH, testbit_div_pow2 by lia.
    replace (Z.of_nat m + Z.of_nat n) with (Z.of_nat (n + m)) by lia. lia.
Qed.
Lemma ones_ext n v w : (forall i, 0 <= i < Z.of_nat n -> Z.testbit v i = Z.testbit w i) -> ones n v = ones n w.
Proof.
  induction n as [|n IH]; intros H; cbn [ones]; [reflexivity|].
  rewrite IH, H; [reflexivity|lia|]. intros. apply H. lia.
Qed.
Lemma ones_range n v : 0 <= ones n v <= Z.of_nat n.
Proof. induction n; cbn [ones]; [lia|]. destruct (Z.testbit v _); cbn [Z.b2z]; lia. Qed.
Lemma ones_step n v : ones (S n) v = Z.b2z (Z.odd v) + ones n (v / 2).
Proof.
  change (S n) with (1 + n)%nat. rewrite ones_app. cbn [ones]. change (2 ^ Z.of_nat 1) with 2.
  change (Z.of_nat 0) with 0. rewrite Z.bit0_odd. lia.
Qed.
Lemma count_ones_step v : 0 < v -> count_ones v = Z.b2z (Z.odd v) + count_ones (v / 2).
Proof.
  intros Hv. destruct v as [|p|p]; try lia. rewrite <- Z.div2_div.
  destruct p; cbn [count_ones pos_ones Z.odd Z.b2z Z.div2 Pos.div2]; lia.
Qed.
Lemma count_ones_ok n v : 0 <= v < 2 ^ Z.of_nat n -> count_ones v = ones n v.
Proof.
  revert v. induction n as [|n IH]; intros v Hv.
  - assert (v = 0) by (cbn in Hv; lia). subst. reflexivity.
  - rewrite ones_step. destruct (Z.eq_dec v 0) as [->|Hn].
    + clear. cbn [count_ones Z.odd Z.b2z]. change (0 / 2) with 0. rewrite Z.add_0_l.
      induction n; cbn [ones]; [lia|]. rewrite Z.testbit_0_l. cbn [Z.b2z]. lia.
    + rewrite count_ones_step by lia. rewrite IH; [reflexivity|].
      rewrite Nat2Z.inj_succ, Z.pow_succ_r in Hv by lia. zz.
Qed.
Lemma ones_256 v : ones 256 v = ones 128 (v mod 2 ^ 128) + ones 128 ((v / 2 ^ 128) mod 2 ^ 128).
Proof.
  change 256%nat with (128 + 128)%nat. rewrite ones_app. change (Z.of_nat 128) with 128.
  f_equal; apply ones_ext; intros; rewrite testbit_mod_pow2 by lia;
    replace (i <? 128) with true by lia; reflexivity.
Qed.

Lemma u_count_of c v : u_count_ones c (uof c v) = Ret (ones 256 v) /\
  u_count_zeros c (uof c v) = Ret (256 - ones 256 v).
Proof.
  unfold u_count_ones, u_count_zeros, uof.
  assert (HA : 0 <= v mod 2 ^ 128 < 2 ^ 128) by (apply Z.mod_pos_bound; lia).
  assert (HB : 0 <= (v / 2 ^ 128) mod 2 ^ 128 < 2 ^ 128) by (apply Z.mod_pos_bound; lia).
  rewrite hi_mod, lo_mod, ones_256.
  pose proof (ones_range 128 (v mod 2 ^ 128)). pose proof (ones_range 128 ((v / 2 ^ 128) mod 2 ^ 128)).
  destruct (big_endian c); cbn [uw0 uw1]; rewrite !(count_ones_ok 128) by assumption;
    rewrite !u_add_ok by lia; split; f_equal; lia.
Qed.

Lemma i_as_u_mem x : i_as_u256 x = mkU (as_u 128 (iw0 x)) (as_u 128 (iw1 x)). Proof. reflexivity. Qed.
Lemma i_count_of c v : i_count_ones c (iof c v) = Ret (ones 256 v) /\
  i_count_zeros c (iof c v) = Ret (256 - ones 256 v).
Proof.
  change (i_count_ones c (iof c v)) with (u_count_ones c (i_as_u256 (iof c v))).
  change (i_count_zeros c (iof c v)) with (u_count_zeros c (i_as_u256 (iof c v))).
  rewrite i_as_u256_of. apply u_count_of.
Qed.

Lemma count_family c x y : wf_u x -> wf_i y ->
  u_count_ones c x = Ret (ones 256 (uval c x)) /\ u_count_zeros c x = Ret (256 - ones 256 (uval c x)) /\
  i_count_ones c y = Ret (ones 256 (ival c y)) /\ i_count_zeros c y = Ret (256 - ones 256 (ival c y)).
Proof.
  intros Hx Hy. on_u c x. on_i c y. destruct (u_count_of c nx), (i_count_of c ny). auto.
Qed.

(** ** Leading and trailing runs *)
Lemma land_all x : 0 <= x < 2 ^ 128 -> Z.land x (2 ^ 128 - 1) = x.
Proof.
  intros. replace (2 ^ 128 - 1) with (Z.ones 128) by reflexivity.
  rewrite Z.land_ones, Z.mod_small by lia. reflexivity.
Qed.
Lemma n_ctlz_of c v : 0 <= v < 2 ^ 256 ->
  n_ctlz c (uof c v) = Ret (if v =? 0 then 256 else 255 - Z.log2 v).
Proof.
  intros Hv. unfold n_ctlz. rewrite u_high_of, u_low_of.
  assert (HA : 0 <= v mod 2 ^ 128 < 2 ^ 128) by (apply Z.mod_pos_bound; lia).
  assert (HB : 0 <= v / 2 ^ 128 < 2 ^ 128) by zz.
  rewrite (Z.mod_small (v / 2 ^ 128)) by lia.
  assert (HE : v = v / 2 ^ 128 * 2 ^ 128 + v mod 2 ^ 128) by zz.
  destruct (Z.eqb_spec (v / 2 ^ 128) 0) as [E|E]; cbn [Z.b2z].
  - change (as_u 128 (- (1))) with (2 ^ 128 - 1). change (u_not 128 (2 ^ 128 - 1)) with 0.
    rewrite Z.land_0_r, Z.lor_0_l, land_all by lia.
    change (Z.land (as_u 32 (2 ^ 128 - 1)) 128) with 128. unfold leading_zeros.
    rewrite E in HE. assert (EV : v mod 2 ^ 128 = v) by lia. rewrite EV.
    destruct (Z.eqb_spec v 0).
    + rewrite u_add_ok by lia. reflexivity.
    + pose proof (Z.log2_nonneg v). assert (Z.log2 v < 128) by (apply Z.log2_lt_pow2; lia).
      rewrite u_add_ok by lia. f_equal. lia.
  - change (as_u 128 (- 0)) with 0. change (u_not 128 0) with (2 ^ 128 - 1).
    rewrite Z.land_0_r, Z.lor_0_r, land_all by lia.
    change (Z.land (as_u 32 0) 128) with 0. unfold leading_zeros.
    replace (v / 2 ^ 128 =? 0) with false by lia.
    pose proof (Z.log2_nonneg (v / 2 ^ 128)).
    assert (Z.log2 (v / 2 ^ 128) < 128) by (apply Z.log2_lt_pow2; lia).
    rewrite u_add_ok by lia. replace (v =? 0) with false by lia. f_equal.
    rewrite <- Z.shiftr_div_pow2, Z.log2_shiftr by lia.
    rewrite <- Z.shiftr_div_pow2, Z.log2_shiftr in * by lia.
    assert (128 <= Z.log2 v) by (apply Z.log2_le_pow2; [lia|zz]). lia.
Qed.
Lemma ctlz_of c v : 0 <= v < 2 ^ 256 ->
  ctlz c (uof c v) = Ret (if v =? 0 then 256 else 255 - Z.log2 v).
Proof.
  intros Hv. unfold ctlz. destruct (llvm c); [|apply n_ctlz_of; assumption].
  unfold l_ctlz. rewrite l_load_of, Z.mod_small by lia. reflexivity.
Qed.

(** position of the lowest set bit *)
Lemma pos_tz_spec p : 0 <= pos_tz p /\ Z.testbit (Zpos p) (pos_tz p) = true /\
  (forall i, 0 <= i < pos_tz p -> Z.testbit (Zpos p) i = false).
Proof.
  induction p as [p IH|p IH|]; cbn [pos_tz].
  - split; [lia|]. split; [reflexivity|]. intros. lia.
  - destruct IH as (H0 & H1 & H2). split; [lia|].
    change (Zpos p~0) with (2 * Zpos p). split.
    + replace (1 + pos_tz p) with (Z.succ (pos_tz p)) by lia. rewrite Z.testbit_even_succ by lia. assumption.
    + intros i Hi. destruct (Z.eq_dec i 0) as [->|].
      * apply Z.testbit_even_0.
      * replace i with (Z.succ (i - 1)) by lia. rewrite Z.testbit_even_succ by lia. apply H2. lia.
  - split; [lia|]. split; [reflexivity|]. intros. lia.
Qed.

Definition lowest (v k : Z) : Prop :=
  0 <= k /\ Z.testbit v k = true /\ forall i, 0 <= i < k -> Z.testbit v i = false.
Lemma n_cttz_of c v : 0 <= v < 2 ^ 256 ->
  exists k, n_cttz c (uof c v) = Ret k /\ ((v = 0 /\ k = 256) \/ (v <> 0 /\ k < 256 /\ lowest v k)).
Proof.
  intros Hv. unfold n_cttz. rewrite u_high_of, u_low_of.
  assert (HA : 0 <= v mod 2 ^ 128 < 2 ^ 128) by (apply Z.mod_pos_bound; lia).
  assert (HB : 0 <= v / 2 ^ 128 < 2 ^ 128) by zz.
  rewrite (Z.mod_small (v / 2 ^ 128)) by lia.
  assert (HE : v = v / 2 ^ 128 * 2 ^ 128 + v mod 2 ^ 128) by zz.
  assert (HT : forall p k, lowest (Zpos p) k -> Zpos p < 2 ^ 128 -> k < 128).
  { intros p k (H0 & H1 & H2) Hp. destruct (Z.lt_ge_cases k 128); [assumption|].
    rewrite <- (Z.mod_small (Zpos p) (2 ^ 128)), testbit_mod_pow2 in H1 by lia.
    replace (k <? 128) with false in H1 by lia. discriminate. }
  destruct (Z.eqb_spec (v mod 2 ^ 128) 0) as [E|E]; cbn [Z.b2z].
  - change (as_u 128 (- (1))) with (2 ^ 128 - 1). change (u_not 128 (2 ^ 128 - 1)) with 0.
    rewrite Z.land_0_r, Z.lor_0_r, land_all by lia.
    change (Z.land (as_u 32 (2 ^ 128 - 1)) 128) with 128.
    destruct (v / 2 ^ 128) as [|p|p] eqn:EP; [| |lia]; cbn [trailing_zeros].
    + exists 256. split; [rewrite u_add_ok by lia; reflexivity|]. left. lia.
    + pose proof (pos_tz_spec p) as HL. specialize (HT p _ HL ltac:(lia)). destruct HL as (H0 & H1 & H2).
      exists (pos_tz p + 128). split; [rewrite u_add_ok by lia; reflexivity|]. right.
      split; [lia|]. split; [lia|].
      assert (HS : v = Z.shiftl (Zpos p) 128) by (rewrite Z.shiftl_mul_pow2 by lia; lia).
      rewrite HS. repeat split; [lia|..].
      * rewrite Z.shiftl_spec, Z.add_simpl_r by lia. assumption.
      * intros i Hi. rewrite Z.shiftl_spec by lia.
        destruct (Z.lt_ge_cases i 128); [apply Z.testbit_neg_r; lia|]. apply H2. lia.
  - change (as_u 128 (- 0)) with 0. change (u_not 128 0) with (2 ^ 128 - 1).
    rewrite Z.land_0_r, Z.lor_0_l, land_all by lia.
    change (Z.land (as_u 32 0) 128) with 0.
    destruct (v mod 2 ^ 128) as [|p|p] eqn:EP; [lia| |lia]; cbn [trailing_zeros].
    pose proof (pos_tz_spec p) as HL. specialize (HT p _ HL ltac:(lia)). destruct HL as (H0 & H1 & H2).
    exists (pos_tz p). split; [rewrite u_add_ok by lia; f_equal; lia|]. right.
    split; [lia|]. split; [lia|].
    rewrite <- EP in H1, H2. rewrite testbit_mod_pow2 in H1 by lia.
    split; [lia|]. split; [apply andb_prop in H1; tauto|].
    intros i Hi. specialize (H2 i Hi). rewrite testbit_mod_pow2 in H2 by lia.
    replace (i <? 128) with true in H2 by lia. assumption.
Qed.
Lemma cttz_of c v : 0 <= v < 2 ^ 256 ->
  exists k, cttz c (uof c v) = Ret k /\ ((v = 0 /\ k = 256) \/ (v <> 0 /\ k < 256 /\ lowest v k)).
Proof.
  intros Hv. unfold cttz. destruct (llvm c); [|apply n_cttz_of; assumption].
  unfold l_cttz. rewrite l_load_of, Z.mod_small by lia. eexists. split; [reflexivity|].
  destruct v as [|p|p]; [left; auto| |lia]. right. split; [lia|]. pose proof (pos_tz_spec p) as HL.
  split; [|exact HL]. destruct HL as (H0 & H1 & H2). cbn [trailing_zeros].
  destruct (Z.lt_ge_cases (pos_tz p) 256); [assumption|].
  rewrite <- (Z.mod_small (Zpos p) (2 ^ 256)), testbit_mod_pow2 in H1 by lia.
  replace (pos_tz p <? 256) with false in H1 by lia. discriminate.
Qed.

Lemma run_top_zeros v : 0 <= v < 2 ^ 256 -> run_top false v (if v =? 0 then 256 else 255 - Z.log2 v).
Proof.
  intros Hv. unfold run_top. destruct (Z.eqb_spec v 0) as [->|Hn].
  - split; [lia|]. split; [intros; apply Z.testbit_0_l|lia].
  - pose proof (Z.log2_nonneg v). assert (Z.log2 v < 256) by (apply Z.log2_lt_pow2; lia).
    split; [lia|]. split.
    + intros. apply Z.bits_above_log2; lia.
    + intros. replace (255 - (255 - Z.log2 v)) with (Z.log2 v) by lia. apply Z.bit_log2. lia.
Qed.
Lemma run_bottom_zeros v k : (v = 0 /\ k = 256) \/ (v <> 0 /\ k < 256 /\ lowest v k) -> run_bottom false v k.
Proof.
  intros [[-> ->]|(H & Hk & H0 & H1 & H2)]; unfold run_bottom.
  - split; [lia|]. split; [intros; apply Z.testbit_0_l|lia].
  - split; [lia|]. split; [assumption|]. auto.
Qed.

Lemma run_top_ext b v w k : (forall i, 0 <= i < 256 -> Z.testbit v i = Z.testbit w i) -> run_top b v k -> run_top b w k.
Proof.
  intros HE (H0 & H1 & H2). split; [lia|]. split.
  - intros i Hi. rewrite <- HE by lia. apply H1. lia.
  - intros. rewrite <- HE by lia. auto.
Qed.
Lemma run_bottom_ext b v w k : (forall i, 0 <= i < 256 -> Z.testbit v i = Z.testbit w i) -> run_bottom b v k -> run_bottom b w k.
Proof.
  intros HE (H0 & H1 & H2). split; [lia|]. split.
  - intros i Hi. rewrite <- HE by lia. apply H1. lia.
  - intros. rewrite <- HE by lia. auto.
Qed.
Lemma run_top_not v k : run_top false (- v - 1) k -> run_top true v k.
Proof.
  replace (- v - 1) with (Z.lnot v) by (unfold Z.lnot; lia). intros (H0 & H1 & H2). split; [lia|]. split.
  - intros i Hi. specialize (H1 i Hi). rewrite Z.lnot_spec in H1 by lia. destruct (Z.testbit v i); auto.
  - intros Hk. specialize (H2 Hk). rewrite Z.lnot_spec in H2 by lia. destruct (Z.testbit v _); auto.
Qed.
Lemma run_bottom_not v k : run_bottom false (- v - 1) k -> run_bottom true v k.
Proof.
  replace (- v - 1) with (Z.lnot v) by (unfold Z.lnot; lia). intros (H0 & H1 & H2). split; [lia|]. split.
  - intros i Hi. specialize (H1 i Hi). rewrite Z.lnot_spec in H1 by lia. destruct (Z.testbit v i); auto.
  - intros Hk. specialize (H2 Hk). rewrite Z.lnot_spec in H2 by lia. destruct (Z.testbit v _); auto.
Qed.
Lemma run_unique v k k' : 
  (forall b, run_top b v k -> run_top b v k' -> k = k') /\ (forall b, run_bottom b v k -> run_bottom b v k' -> k = k').
Proof.
  split; intros b (H0 & H1 & H2) (H0' & H1' & H2').
  - destruct (Z.lt_trichotomy k k') as [H|[H|H]]; [|assumption|].
    + rewrite H1' in H2 by lia. specialize (H2 ltac:(lia)). destruct b; discriminate.
    + rewrite H1 in H2' by lia. specialize (H2' ltac:(lia)). destruct b; discriminate.
  - destruct (Z.lt_trichotomy k k') as [H|[H|H]]; [|assumption|].
    + rewrite H1' in H2 by lia. specialize (H2 ltac:(lia)). destruct b; discriminate.
    + rewrite H1 in H2' by lia. specialize (H2' ltac:(lia)). destruct b; discriminate.
Qed.

Lemma bit_mod256 v i : 0 <= i < 256 -> Z.testbit (v mod 2 ^ 256) i = Z.testbit v i.
Proof. intros. apply Z.mod_pow2_bits_low. lia. Qed.

Lemma ctlz_run c v : exists k, ctlz c (uof c v) = Ret k /\ run_top false v k.
Proof.
  assert (H : 0 <= v mod 2 ^ 256 < 2 ^ 256) by (apply Z.mod_pos_bound; lia).
  rewrite <- uof_mod, ctlz_of by assumption. eexists. split; [reflexivity|].
  eapply run_top_ext; [|apply run_top_zeros; assumption]. intros. apply bit_mod256. assumption.
Qed.
Lemma cttz_run c v : exists k, cttz c (uof c v) = Ret k /\ run_bottom false v k.
Proof.
  assert (H : 0 <= v mod 2 ^ 256 < 2 ^ 256) by (apply Z.mod_pos_bound; lia).
  rewrite <- uof_mod. destruct (cttz_of c _ H) as (k & E & HK). exists k. split; [assumption|].
  eapply run_bottom_ext; [|apply run_bottom_zeros; exact HK]. intros. apply bit_mod256. assumption.
Qed.

Lemma runs_family c x y : wf_u x -> wf_i y ->
  (exists k, u_leading_zeros c x = Ret k /\ run_top false (uval c x) k) /\
  (exists k, u_leading_ones c x = Ret k /\ run_top true (uval c x) k) /\
  (exists k, u_trailing_zeros c x = Ret k /\ run_bottom false (uval c x) k) /\
  (exists k, u_trailing_ones c x = Ret k /\ run_bottom true (uval c x) k) /\
  (exists k, i_leading_zeros c y = Ret k /\ run_top false (ival c y) k) /\
  (exists k, i_leading_ones c y = Ret k /\ run_top true (ival c y) k) /\
  (exists k, i_trailing_zeros c y = Ret k /\ run_bottom false (ival c y) k) /\
  (exists k, i_trailing_ones c y = Ret k /\ run_bottom true (ival c y) k).
Proof.
  intros Hx Hy. on_u c x. on_i c y.
  unfold u_leading_ones, u_trailing_ones, u_leading_zeros, u_trailing_zeros,
    i_leading_ones, i_trailing_ones, i_leading_zeros, i_trailing_zeros, ictlz, icttz.
  rewrite u_op_not_of, i_op_not_of, !i_as_u256_of.
  repeat split; try apply ctlz_run; try apply cttz_run.
  - destruct (ctlz_run c (- nx - 1)) as (k & E & H). exists k. auto using run_top_not.
  - destruct (cttz_run c (- nx - 1)) as (k & E & H). exists k. auto using run_bottom_not.
  - destruct (ctlz_run c (- ny - 1)) as (k & E & H). exists k. auto using run_top_not.
  - destruct (cttz_run c (- ny - 1)) as (k & E & H). exists k. auto using run_bottom_not.
Qed.
