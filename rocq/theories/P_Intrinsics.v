(** * Words and the public intrinsics *)

From Coq Require Import ZArith List String Bool Lia ZifyBool.
Import ListNotations.
From Verif Require Import M_Prim M_Words M_Llvm M_Intr M_Div M_Mul M_Ops M_UintApi M_IntApi M_Misc.
From Verif Require Import Spec Spec_Bits P_Words P_AddSub P_Bits P_BitsApi P_Count P_Mul P_Div P_DivKnuth P_IntDiv P_Int.
Open Scope Z_scope.

Lemma u_words c x v w : wf_u x -> 0 <= v < 2 ^ 128 -> 0 <= w < 2 ^ 128 ->
  u_new c v = uof c v /\
  u_from_words c v w = uof c (v * 2 ^ 128 + w) /\
  u_low c x = uval c x mod 2 ^ 128 /\ u_high c x = uval c x / 2 ^ 128 /\
  u_into_words c x = (uval c x / 2 ^ 128, uval c x mod 2 ^ 128) /\
  u_set_low c x v = uof c (uval c x / 2 ^ 128 * 2 ^ 128 + v) /\
  u_set_high c x v = uof c (v * 2 ^ 128 + uval c x mod 2 ^ 128).
Proof.
  intros [H0 H1] Hv Hw.
  assert (D : forall h l, 0 <= h < 2 ^ 128 -> 0 <= l < 2 ^ 128 ->
    (h * 2 ^ 128 + l) / 2 ^ 128 = h /\ (h * 2 ^ 128 + l) mod 2 ^ 128 = l /\
    (h * 2 ^ 128 + l) mod 2 ^ 256 = h * 2 ^ 128 + l).
  { intros h l Hh Hl. split; [|split].
    - rewrite Z.div_add_l by lia. rewrite Z.div_small; lia.
    - rewrite Z.add_comm, Z.mod_add by lia. apply Z.mod_small. lia.
    - apply Z.mod_small. split; [lia|]. change (2 ^ 256) with (2 ^ 128 * 2 ^ 128). nia. }
  assert (F : forall h l, 0 <= h < 2 ^ 128 -> 0 <= l < 2 ^ 128 ->
    uof c (h * 2 ^ 128 + l) = if big_endian c then mkU h l else mkU l h).
  { intros h l Hh Hl. unfold uof. destruct (D h l Hh Hl) as (E1 & E2 & E3). rewrite E3, E1, E2. reflexivity. }
  assert (N : uof c v = if big_endian c then mkU 0 v else mkU v 0).
  { rewrite <- (F 0 v) by lia. f_equal. }
  unfold u_new, u_from_words, u_low, u_high, u_into_words, u_set_low, u_set_high, uval.
  rewrite N. rewrite (F v w Hv Hw).
  destruct (big_endian c) eqn:E.
  - destruct (D (uw0 x) (uw1 x)) as (E1 & E2 & E3); try assumption. rewrite E1, E2.
    rewrite (F (uw0 x) v), (F v (uw1 x)) by assumption. rewrite ?E. repeat split; reflexivity.
  - destruct (D (uw1 x) (uw0 x)) as (E1 & E2 & E3); try assumption. rewrite E1, E2.
    rewrite (F (uw1 x) v), (F v (uw0 x)) by assumption. rewrite ?E. repeat split; reflexivity.
Qed.

Lemma i_words c x v w : wf_i x -> - 2 ^ 127 <= v < 2 ^ 127 -> - 2 ^ 127 <= w < 2 ^ 127 ->
  i_new c v = iof c v /\
  i_from_words c v w = iof c (v * 2 ^ 128 + w mod 2 ^ 128) /\
  i_low c x = wrap_i 128 (ival c x) /\ i_high c x = ival c x / 2 ^ 128 /\
  i_into_words c x = (ival c x / 2 ^ 128, wrap_i 128 (ival c x)) /\
  i_set_low c x v = iof c (ival c x / 2 ^ 128 * 2 ^ 128 + v mod 2 ^ 128) /\
  i_set_high c x v = iof c (v * 2 ^ 128 + ival c x mod 2 ^ 128).
Proof.
  intros [H0 H1] Hv Hw.
  assert (W : forall l, - 2 ^ 127 <= l < 2 ^ 127 -> wrap_i 128 (l mod 2 ^ 128) = l).
  { intros l Hl. rewrite (wrap_i_cong 128 (l mod 2 ^ 128) l) by (rewrite Z.mod_mod by lia; reflexivity).
    apply wrap_i_small; [lia|]. change (2 ^ (128 - 1)) with (2 ^ 127). lia. }
  assert (D : forall h l, - 2 ^ 127 <= h < 2 ^ 127 -> - 2 ^ 127 <= l < 2 ^ 127 ->
    (h * 2 ^ 128 + l mod 2 ^ 128) / 2 ^ 128 = h /\ (h * 2 ^ 128 + l mod 2 ^ 128) mod 2 ^ 128 = l mod 2 ^ 128 /\
    wrap_i 128 (h * 2 ^ 128 + l mod 2 ^ 128) = l).
  { intros h l Hh Hl. pose proof (Z.mod_pos_bound l (2 ^ 128) ltac:(lia)). split; [|split].
    - rewrite Z.div_add_l by lia. rewrite Z.div_small; lia.
    - rewrite Z.add_comm, Z.mod_add by lia. apply Z.mod_small. lia.
    - rewrite <- (W l Hl) at 2. apply wrap_i_cong. rewrite Z.add_comm, Z.mod_add by lia. reflexivity. }
  assert (F : forall h l, - 2 ^ 127 <= h < 2 ^ 127 -> - 2 ^ 127 <= l < 2 ^ 127 ->
    iof c (h * 2 ^ 128 + l mod 2 ^ 128) = if big_endian c then mkI h l else mkI l h).
  { intros h l Hh Hl. rewrite <- (iof_ival c (if big_endian c then mkI h l else mkI l h)).
    - f_equal. unfold ival. destruct (big_endian c); reflexivity.
    - unfold wf_i. destruct (big_endian c); cbn [iw0 iw1]; lia. }
  assert (N : i_new c v = iof c v).
  { unfold i_new, i_from_words. rewrite Z.shiftr_div_pow2 by lia.
    assert (Ev : v / 2 ^ 127 = if v <? 0 then -1 else 0).
    { destruct (Z.ltb_spec v 0).
      - symmetry. apply Z.div_unique with (r := v + 2 ^ 127); lia.
      - rewrite Z.div_small; lia. }
    rewrite Ev.
    assert (Eq : v = (if v <? 0 then -1 else 0) * 2 ^ 128 + v mod 2 ^ 128).
    { destruct (Z.ltb_spec v 0).
      - pose proof (Z.mod_unique v (2 ^ 128) (-1) (v + 2 ^ 128)). lia.
      - rewrite Z.mod_small; lia. }
    transitivity (iof c ((if v <? 0 then -1 else 0) * 2 ^ 128 + v mod 2 ^ 128)); [|f_equal; symmetry; exact Eq].
    rewrite F; [reflexivity| destruct (v <? 0); lia | assumption]. }
  rewrite N. unfold i_from_words, i_low, i_high, i_into_words, i_set_low, i_set_high, ival.
  rewrite (F v w Hv Hw).
  destruct (big_endian c) eqn:E.
  - destruct (D (iw0 x) (iw1 x)) as (E1 & E2 & E3); try assumption. rewrite E1, E2, E3.
    rewrite (F (iw0 x) v), (F v (iw1 x)) by assumption. rewrite ?E. repeat split; reflexivity.
  - destruct (D (iw1 x) (iw0 x)) as (E1 & E2 & E3); try assumption. rewrite E1, E2, E3.
    rewrite (F (iw1 x) v), (F v (iw0 x)) by assumption. rewrite ?E. repeat split; reflexivity.
Qed.

Lemma constants c :
  U256_ZERO = uof c 0 /\ U256_ONE c = uof c 1 /\ U256_MIN = uof c 0 /\ U256_MAX = uof c MAXU /\ u_default = uof c 0 /\
  I256_ZERO = iof c 0 /\ I256_ONE c = iof c 1 /\ I256_MINUS_ONE c = iof c (-1) /\
  I256_MIN c = iof c MINI /\ I256_MAX c = iof c MAXI /\ i_default = iof c 0 /\
  U256_BITS = 256 /\ I256_BITS = 256.
Proof.
  unfold U256_ONE, I256_ONE, I256_MINUS_ONE, I256_MIN, I256_MAX, u_new, i_new, u_from_words, i_from_words, uof, iof.
  destruct (big_endian c); repeat split; vm_compute; reflexivity.
Qed.

(** ** The intrinsics *)

Lemma u_arith c a b : wf_u a -> wf_u b ->
  let x := uval c a in let y := uval c b in
  add2 c a b = uof c (x + y) /\ add3 c a b = uof c (x + y) /\ uaddc c a b = (uof c (x + y), MAXU <? x + y) /\
  sub2 c a b = uof c (x - y) /\ sub3 c a b = uof c (x - y) /\ usubc c a b = (uof c (x - y), x <? y) /\
  mul2 c a b = Ret (uof c (x * y)) /\ mul3 c a b = Ret (uof c (x * y)) /\
  umulc c a b = Ret (uof c (x * y), MAXU <? x * y).
Proof.
  intros Ha Hb. pose proof (uval_range c a Ha). pose proof (uval_range c b Hb).
  cbv zeta. set (x := uval c a) in *. set (y := uval c b) in *.
  rewrite <- (uof_uval c a Ha), <- (uof_uval c b Hb). fold x y.
  rewrite add2_eq, sub2_eq, add3_of, sub3_of, mul2_of, mul3_of, uaddc_of, usubc_of, umulc_of by assumption.
  assert (L : forall v, (2 ^ 256 <=? v) = (MAXU <? v)) by (intros v; unfold MAXU; lia).
  rewrite !L. repeat split; reflexivity.
Qed.

Lemma i_arith c a b : wf_i a -> wf_i b ->
  let x := ival c a in let y := ival c b in
  iadd2 c a b = iof c (x + y) /\ iadd3 c a b = iof c (x + y) /\ iaddc c a b = (iof c (x + y), negb (in_i 256 (x + y))) /\
  isub2 c a b = iof c (x - y) /\ isub3 c a b = iof c (x - y) /\ isubc c a b = (iof c (x - y), negb (in_i 256 (x - y))) /\
  imul2 c a b = Ret (iof c (x * y)) /\ imul3 c a b = Ret (iof c (x * y)) /\
  imulc c a b = Ret (iof c (x * y), negb (in_i 256 (x * y))).
Proof.
  intros Ha Hb. pose proof (ival_range c a Ha). pose proof (ival_range c b Hb).
  cbv zeta. set (x := ival c a) in *. set (y := ival c b) in *.
  rewrite <- (iof_ival c a Ha), <- (iof_ival c b Hb). fold x y.
  rewrite iadd2_of, isub2_of, iadd3_of, isub3_of, imul2_of, imul3_of, iaddc_of, isubc_of, imulc_of by assumption.
  repeat split; reflexivity.
Qed.

Lemma wide_mul c a b : 0 <= a < 2 ^ 128 -> 0 <= b < 2 ^ 128 ->
  exists r, umulddi3 c a b = Ret r /\ wf_u r /\ uval c r = a * b.
Proof.
  intros Ha Hb. exists (uof c (a * b)). split; [apply umulddi3_of; assumption|]. split; [apply wf_uof|].
  rewrite uval_uof. apply Z.mod_small. change (2 ^ 256) with (2 ^ 128 * 2 ^ 128). nia.
Qed.

Lemma u_division c a b : wf_u a -> wf_u b ->
  let x := uval c a in let y := uval c b in
  (y <> 0 ->
    udivmod4 c a b true = Ret (uof c (x / y), Some (uof c (x mod y))) /\ udivmod4 c a b false = Ret (uof c (x / y), None) /\
    udiv2 c a b = Ret (uof c (x / y)) /\ udiv3 c a b = Ret (uof c (x / y)) /\
    urem2 c a b = Ret (uof c (x mod y)) /\ urem3 c a b = Ret (uof c (x mod y))) /\
  (y = 0 ->
    (forall want, udivmod4 c a b want = Panic "attempt to divide by zero") /\
    Forall (eq (Panic "attempt to divide by zero")) [udiv2 c a b; udiv3 c a b; urem2 c a b; urem3 c a b]).
Proof.
  intros Ha Hb. pose proof (uval_range c a Ha). pose proof (uval_range c b Hb).
  cbv zeta. set (x := uval c a) in *. set (y := uval c b) in *.
  rewrite <- (uof_uval c a Ha), <- (uof_uval c b Hb). fold x y.
  split; intros Hy.
  - rewrite udiv2_eq, urem2_eq, !udivmod4_ok, udiv3_of, urem3_of by lia. repeat split; reflexivity.
  - rewrite Hy. split; [intros w; apply udivmod4_zero; assumption|].
    unfold udiv2, udiv3, urem2, urem3. rewrite !udivmod4_zero by assumption.
    repeat (apply Forall_cons; [reflexivity|]). apply Forall_nil.
Qed.

Lemma i_division c a b : wf_i a -> wf_i b ->
  let x := ival c a in let y := ival c b in
  (y <> 0 ->
    idivmod4 c a b true = Ret (iof c (Z.quot x y), Some (iof c (Z.rem x y))) /\ idivmod4 c a b false = Ret (iof c (Z.quot x y), None) /\
    idiv2 c a b = Ret (iof c (Z.quot x y)) /\ idiv3 c a b = Ret (iof c (Z.quot x y)) /\
    irem2 c a b = Ret (iof c (Z.rem x y)) /\ irem3 c a b = Ret (iof c (Z.rem x y))) /\
  (y = 0 ->
    (forall want, idivmod4 c a b want = Panic "attempt to divide by zero") /\
    Forall (eq (Panic "attempt to divide by zero")) [idiv2 c a b; idiv3 c a b; irem2 c a b; irem3 c a b]).
Proof.
  intros Ha Hb. pose proof (ival_range c a Ha). pose proof (ival_range c b Hb).
  cbv zeta. set (x := ival c a) in *. set (y := ival c b) in *.
  rewrite <- (iof_ival c a Ha), <- (iof_ival c b Hb). fold x y.
  split; intros Hy.
  - rewrite idiv2_eq, irem2_eq, !idivmod4_ok, idiv3_of, irem3_of by lia. repeat split; reflexivity.
  - rewrite Hy. split; [intros w; apply idivmod4_zero; assumption|].
    unfold idiv2, idiv3, irem2, irem3. rewrite !idivmod4_zero by assumption.
    repeat (apply Forall_cons; [reflexivity|]). apply Forall_nil.
Qed.

Lemma shift_functions c a b n : wf_u a -> wf_i b -> 0 <= n < 256 ->
  let x := uval c a in let y := ival c b in
  shl2 c a n = Ret (uof c (x * 2 ^ n)) /\ shl3 c a n = Ret (uof c (x * 2 ^ n)) /\
  shr2 c a n = Ret (uof c (x / 2 ^ n)) /\ shr3 c a n = Ret (uof c (x / 2 ^ n)) /\
  ishl2 c b n = Ret (iof c (y * 2 ^ n)) /\ ishl3 c b n = Ret (iof c (y * 2 ^ n)) /\
  sar2 c b n = Ret (iof c (y / 2 ^ n)) /\ sar3 c b n = Ret (iof c (y / 2 ^ n)).
Proof.
  intros Ha Hb Hn. pose proof (uval_range c a Ha). pose proof (ival_range c b Hb).
  cbv zeta. set (x := uval c a) in *. set (y := ival c b) in *.
  rewrite <- (uof_uval c a Ha), <- (iof_ival c b Hb). fold x y.
  rewrite shl2_eq, shr2_eq, ishl2_eq, sar2_eq, shl3_of, shr3_of, ishl3_of, sar3_of by assumption.
  repeat split; reflexivity.
Qed.

Lemma rotate_functions c a b n : wf_u a -> wf_i b -> 0 <= n < 2 ^ 32 ->
  llvm c = true \/ overflow_checks c = false \/ n <= 256 ->
  (exists r, rol3 c a n = Ret r /\ wf_u r /\
     forall i, 0 <= i < 256 -> Z.testbit (uval c r) i = Z.testbit (uval c a) ((i - n) mod 256)) /\
  (exists r, ror3 c a n = Ret r /\ wf_u r /\
     forall i, 0 <= i < 256 -> Z.testbit (uval c r) i = Z.testbit (uval c a) ((i + n) mod 256)) /\
  (exists r, irol3 c b n = Ret r /\ wf_i r /\
     forall i, 0 <= i < 256 -> Z.testbit (ival c r) i = Z.testbit (ival c b) ((i - n) mod 256)) /\
  (exists r, iror3 c b n = Ret r /\ wf_i r /\
     forall i, 0 <= i < 256 -> Z.testbit (ival c r) i = Z.testbit (ival c b) ((i + n) mod 256)).
Proof.
  intros Ha Hb Hn Hok. pose proof (uval_range c a Ha) as Ra.
  assert (Eb : i_as_u256 b = uof c (ival c b mod 2 ^ 256)).
  { rewrite uof_mod, <- i_as_u256_of, iof_ival by assumption. reflexivity. }
  pose proof (Z.mod_pos_bound (ival c b) (2 ^ 256) ltac:(lia)) as Rb.
  repeat apply conj.
  - exists (uof c (rotl_num (uval c a) n)). rewrite <- (uof_uval c a Ha) at 1.
    split; [apply rol3_of; assumption|]. split; [apply wf_uof|]. intros i Hi.
    rewrite bit_uof, rotl_num_bit by assumption. reflexivity.
  - exists (uof c (rotl_num (uval c a) (- n))). rewrite <- (uof_uval c a Ha) at 1.
    split; [apply ror3_of; assumption|]. split; [apply wf_uof|]. intros i Hi.
    rewrite bit_uof, rotl_num_bit by assumption. f_equal. f_equal. lia.
  - exists (iof c (rotl_num (ival c b mod 2 ^ 256) n)). unfold irol3. rewrite Eb, rol3_of by assumption.
    split; [unfold res_map; cbn [bind]; rewrite u_as_i256_of; reflexivity|]. split; [apply wf_iof|]. intros i Hi.
    rewrite bit_iof, rotl_num_bit by assumption. apply bit_mod256. apply Z.mod_pos_bound. lia.
  - exists (iof c (rotl_num (ival c b mod 2 ^ 256) (- n))). unfold iror3. rewrite Eb, ror3_of by assumption.
    split; [unfold res_map; cbn [bind]; rewrite u_as_i256_of; reflexivity|]. split; [apply wf_iof|]. intros i Hi.
    rewrite bit_iof, rotl_num_bit by assumption. rewrite bit_mod256 by (apply Z.mod_pos_bound; lia). f_equal. f_equal. lia.
Qed.

Lemma count_functions c a b : wf_u a -> wf_i b ->
  (exists k, ctlz c a = Ret k /\ run_top false (uval c a) k) /\ (exists k, cttz c a = Ret k /\ run_bottom false (uval c a) k) /\
  (exists k, ictlz c b = Ret k /\ run_top false (ival c b) k) /\ (exists k, icttz c b = Ret k /\ run_bottom false (ival c b) k).
Proof.
  intros Ha Hb.
  assert (Eb : i_as_u256 b = uof c (ival c b)) by (rewrite <- i_as_u256_of, iof_ival by assumption; reflexivity).
  unfold ictlz, icttz. rewrite Eb.
  pose proof (ctlz_run c (uval c a)) as H1. pose proof (cttz_run c (uval c a)) as H2. rewrite uof_uval in H1, H2 by assumption.
  split; [exact H1|]. split; [exact H2|]. split; [apply ctlz_run|apply cttz_run].
Qed.
