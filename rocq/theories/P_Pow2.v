(** * Powers of two; iterator sums and products *)

From Coq Require Import ZArith String List Bool Lia ZifyBool.
Import ListNotations.
From Verif Require Import M_Prim M_Words M_Intr M_Div M_Mul M_Ops M_UintApi M_IntApi Spec Spec_Bits Spec_Fold
  P_Words P_AddSub P_Bits P_Mul P_Div P_DivKnuth P_IntDiv P_Ops P_Uint P_Int P_Forms P_BitsApi P_Count P_Bytes P_Pow.
Open Scope Z_scope.

Lemma ones_zero n v : ones n v = 0 -> forall i, 0 <= i < Z.of_nat n -> Z.testbit v i = false.
Proof.
  induction n as [|n IH]; intros H i Hi; [lia|]. cbn [ones] in H. pose proof (ones_range n v).
  destruct (Z.testbit v (Z.of_nat n)) eqn:E; cbn [Z.b2z] in H; [lia|].
  destruct (Z.eq_dec i (Z.of_nat n)) as [->|]; [assumption|]. apply IH; lia.
Qed.
Lemma ones_one n v : ones n v = 1 -> exists k, 0 <= k < Z.of_nat n /\ forall i, 0 <= i < Z.of_nat n -> Z.testbit v i = (i =? k).
Proof.
  induction n as [|n IH]; intros H; cbn [ones] in H; [lia|].
  destruct (Z.testbit v (Z.of_nat n)) eqn:E; cbn [Z.b2z] in H.
  - assert (H0 : ones n v = 0) by lia. exists (Z.of_nat n). split; [lia|]. intros i Hi.
    destruct (Z.eqb_spec i (Z.of_nat n)) as [->|]; [assumption|]. apply (ones_zero n); [assumption|lia].
  - destruct IH as (k & Hk & HK); [lia|]. exists k. split; [lia|]. intros i Hi.
    destruct (Z.eq_dec i (Z.of_nat n)) as [->|]; [|apply HK; lia]. rewrite E. lia.
Qed.
Lemma ones_pow2 n k : 0 <= k < Z.of_nat n -> ones n (2 ^ k) = 1.
Proof.
  induction n as [|n IH]; intros H; [lia|]. cbn [ones]. rewrite Z.pow2_bits_eqb by lia.
  destruct (Z.eqb_spec k (Z.of_nat n)) as [->|]; cbn [Z.b2z]; [|rewrite IH; lia].
  assert (G : forall m, (m <= n)%nat -> ones m (2 ^ Z.of_nat n) = 0).
  { induction m as [|m IHm]; intros; cbn [ones]; [reflexivity|]. rewrite IHm by lia.
    rewrite Z.pow2_bits_eqb by lia. replace (Z.of_nat n =? Z.of_nat m) with false by lia. reflexivity. }
  rewrite G by lia. reflexivity.
Qed.
Lemma ones_one_iff v : 0 <= v < 2 ^ 256 -> (ones 256 v = 1 <-> exists k, 0 <= k /\ v = 2 ^ k).
Proof.
  intros Hv. split.
  - intros H. destruct (ones_one _ _ H) as (k & Hk & HK). exists k. split; [lia|].
    apply Z.bits_inj'. intros i Hi. rewrite Z.pow2_bits_eqb by lia.
    destruct (Z.ltb_spec i 256); [rewrite HK by lia; apply Z.eqb_sym|].
    replace (k =? i) with false by lia. rewrite <- (Z.mod_small v (2 ^ 256)) by assumption. apply Z.mod_pow2_bits_high. lia.
  - intros (k & Hk & ->). apply ones_pow2. split; [assumption|].
    change (Z.of_nat 256) with 256. apply Z.pow_lt_mono_r_iff with 2; lia.
Qed.

(** [k] is the least exponent with [v <= 2 ^ k] *)
Definition least_exp (v k : Z) : Prop := 0 <= k /\ v <= 2 ^ k /\ forall j, 0 <= j < k -> 2 ^ j < v.
Lemma least_exp_unique v k k' : least_exp v k -> least_exp v k' -> k = k'.
Proof.
  intros (A & B & C) (A' & B' & C'). destruct (Z.lt_trichotomy k k') as [H|[H|H]]; [|assumption|].
  - specialize (C' k ltac:(lia)). lia.
  - specialize (C k' ltac:(lia)). lia.
Qed.

Lemma u_1 c : U256_ONE c = uof c 1. Proof. apply U256_ONE_of. Qed.
Lemma one_less_of c v k : 0 <= v < 2 ^ 256 -> least_exp v k ->
  u_one_less_than_next_power_of_two c (uof c v) = Ret (uof c (2 ^ k - 1)) /\ 0 <= k <= 256.
Proof.
  intros Hv HL. unfold u_one_less_than_next_power_of_two.
  unfold u_cmp_prim. rewrite u_new_of, u_cmp_of by lia.
  destruct (Z.leb_spec v 1).
  - assert (k = 0).
    { apply (least_exp_unique v); [assumption|]. repeat split; try lia. }
    subst k. replace (is_le (v ?= 1)) with true by (unfold is_le; destruct (Z.compare_spec v 1); lia).
    split; [|lia]. rewrite (U256_ZERO_of c). reflexivity.
  - replace (is_le (v ?= 1)) with false by (unfold is_le; destruct (Z.compare_spec v 1); lia).
    unfold u_rhs_prim. rewrite u_new_of by lia. rewrite u_op_sub_of by lia.
    assert (in_u 256 (v - 1) = true) as E by (rewrite in_u_256; lia).
    unfold dbg. rewrite E, andb_false_r. cbn [bind]. unfold u_leading_zeros.
    rewrite ctlz_of by lia. replace (v - 1 =? 0) with false by lia. cbn [bind].
    pose proof (Z.log2_spec (v - 1) ltac:(lia)) as [L1 L2]. pose proof (Z.log2_nonneg (v - 1)).
    assert (Z.log2 (v - 1) < 256) by (apply Z.log2_lt_pow2; lia).
    assert (HK : k = Z.log2 (v - 1) + 1).
    { apply (least_exp_unique v); [assumption|]. split; [lia|]. split; [unfold Z.succ in L2; lia|].
      intros j Hj. assert (2 ^ j <= 2 ^ Z.log2 (v - 1)) by (apply Z.pow_le_mono_r; lia). lia. }
    rewrite (U256_MAX_of c), u_op_shr_of by lia. split; [|lia]. f_equal. f_equal. rewrite HK.
    replace 256 with ((Z.log2 (v - 1) + 1) + (255 - Z.log2 (v - 1))) at 1 by lia.
    rewrite Z.pow_add_r by lia. symmetry. apply Z.div_unique with (2 ^ (255 - Z.log2 (v - 1)) - 1);
      assert (0 < 2 ^ (255 - Z.log2 (v - 1))) by (apply Z.pow_pos_nonneg; lia); lia.
Qed.

Lemma pow2_family c a k : wf_u a -> let v := uval c a in
  (exists b, u_is_power_of_two c a = Ret b /\ (b = true <-> exists j, 0 <= j /\ v = 2 ^ j)) /\
  (0 <= k -> v <= 2 ^ k -> (forall j, 0 <= j < k -> 2 ^ j < v) ->
   u_checked_next_power_of_two c a = Ret (if k <? 256 then Some (uof c (2 ^ k)) else None) /\
   u_next_power_of_two c a =
     (if k <? 256 then Ret (uof c (2 ^ k))
      else if debug_assertions c then Panic "attempt to add with overflow" else Ret (uof c 0))).
Proof.
  intros Ha. on_u c a. cbv zeta. split.
  - unfold u_is_power_of_two. destruct (u_count_of c na) as [-> _]. cbn [bind]. eexists. split; [reflexivity|].
    rewrite Z.eqb_eq. apply ones_one_iff. assumption.
  - intros H0 H1 H2. destruct (one_less_of c na k Hna (conj H0 (conj H1 H2))) as [E HK].
    unfold u_checked_next_power_of_two, u_next_power_of_two. rewrite E. cbn [bind].
    assert (HP : 0 < 2 ^ k) by (apply Z.pow_pos_nonneg; lia).
    assert (HP2 : 2 ^ k <= 2 ^ 256) by (apply Z.pow_le_mono_r; lia).
    rewrite u_1. unfold u_rhs_prim. rewrite u_new_of by lia. rewrite u_checked_add_of, u_op_add_of by lia.
    replace (2 ^ k - 1 + 1) with (2 ^ k) by lia. unfold dbg.
    destruct (Z.ltb_spec k 256).
    + assert (2 ^ k < 2 ^ 256) by (apply Z.pow_lt_mono_r; lia).
      assert (in_u 256 (2 ^ k) = true) as -> by (rewrite in_u_256; lia). rewrite andb_false_r. auto.
    + assert (k = 256) by lia. subst k. change (in_u 256 (2 ^ 256)) with false. cbn [negb]. rewrite andb_true_r.
      split; [reflexivity|]. destruct (debug_assertions c); [reflexivity|]. f_equal. 
Qed.

(** ** Sum and product *)

Section Fold.
Variables (T : Type) (of_ : Z -> T) (rng : Z -> bool) (op : Z -> Z -> Z) (f : T -> T -> res T).
Lemma fold_wrap : (forall x y, f (of_ x) (of_ y) = Ret (of_ (op x y))) ->
  forall l x, fold_res f (of_ x) (map of_ l) = Ret (of_ (fold_left op l x)).
Proof.
  intros H. induction l as [|y l IH]; intros x; cbn [map fold_res fold_left]; [reflexivity|].
  rewrite H. cbn [bind]. apply IH.
Qed.
Lemma fold_dbg msg : 
  (forall x y, rng x = true -> rng y = true -> f (of_ x) (of_ y) = if rng (op x y) then Ret (of_ (op x y)) else Panic msg) ->
  forall l x, rng x = true -> Forall (fun y => rng y = true) l ->
  ((forall n, rng (fold_left op (firstn n l) x) = true) -> fold_res f (of_ x) (map of_ l) = Ret (of_ (fold_left op l x))) /\
  ((exists n, rng (fold_left op (firstn n l) x) = false) -> fold_res f (of_ x) (map of_ l) = Panic msg).
Proof.
  intros H. induction l as [|y l IH]; intros x Rx Rl; cbn [map fold_res fold_left].
  - split; [reflexivity|]. intros [n Hn]. rewrite firstn_nil in Hn. cbn [fold_left] in Hn. congruence.
  - inversion Rl as [|? ? Ry Rl']; subst. rewrite H by assumption.
    destruct (rng (op x y)) eqn:E; cbn [bind].
    + destruct (IH (op x y) E Rl') as [I1 I2]. split.
      * intros G. apply I1. intros n. exact (G (S n)).
      * intros [n Hn]. apply I2. destruct n as [|n]; [cbn in Hn; congruence|]. exists n. exact Hn.
    + split; [|reflexivity]. intros G. specialize (G 1%nat). cbn in G. congruence.
Qed.
End Fold.
Lemma sumz_fold l x : fold_left Z.add l x = x + sumz l.
Proof. revert x. induction l as [|y l IH]; intros x; cbn [fold_left sumz fold_right]; [lia|]. rewrite IH. unfold sumz. lia. Qed.
Lemma prodz_fold l x : fold_left Z.mul l x = x * prodz l.
Proof. revert x. induction l as [|y l IH]; intros x; cbn [fold_left prodz fold_right]; [lia|]. rewrite IH. unfold prodz. ring. Qed.

Lemma map_uof c l : Forall wf_u l -> l = map (uof c) (map (uval c) l) /\ Forall (fun y => in_u 256 y = true) (map (uval c) l).
Proof.
  induction 1 as [|x l Hx Hl [IH1 IH2]]; cbn [map]; [auto|]. split.
  - rewrite uof_uval by assumption. f_equal. assumption.
  - constructor; [|assumption]. rewrite in_u_256. pose proof (uval_range c x Hx). lia.
Qed.
Lemma map_iof c l : Forall wf_i l -> l = map (iof c) (map (ival c) l) /\ Forall (fun y => in_i 256 y = true) (map (ival c) l).
Proof.
  induction 1 as [|x l Hx Hl [IH1 IH2]]; cbn [map]; [auto|]. split.
  - rewrite iof_ival by assumption. f_equal. assumption.
  - constructor; [|assumption]. rewrite in_i_256. pose proof (ival_range c x Hx). lia.
Qed.

Lemma fold_family {T} (of_ : Z -> T) (rng : Z -> bool) op spec unit (dbg_ : bool) (f : T -> T -> res T) z msg l :
  (forall l x, fold_left op l x = op x (spec l)) -> (forall y, op unit y = y) ->
  z = of_ unit -> rng unit = true ->
  (dbg_ = false -> forall x y, f (of_ x) (of_ y) = Ret (of_ (op x y))) ->
  (dbg_ = true -> forall x y, rng x = true -> rng y = true -> f (of_ x) (of_ y) = if rng (op x y) then Ret (of_ (op x y)) else Panic msg) ->
  Forall (fun y => rng y = true) l ->
  (dbg_ = false -> fold_res f z (map of_ l) = Ret (of_ (spec l))) /\
  (dbg_ = true -> (forall n, rng (spec (firstn n l)) = true) -> fold_res f z (map of_ l) = Ret (of_ (spec l))) /\
  (dbg_ = true -> (exists n, rng (spec (firstn n l)) = false) -> fold_res f z (map of_ l) = Panic msg).
Proof.
  intros HF HU -> HR H1 H2 HL. repeat split.
  - intros Hd. rewrite (fold_wrap T of_ op f (H1 Hd)), HF, HU. reflexivity.
  - intros Hd G. destruct (fold_dbg T of_ rng op f msg (H2 Hd) l unit HR HL) as [I _].
    rewrite I, HF, HU; [reflexivity|]. intros n. rewrite HF, HU. apply G.
  - intros Hd [n G]. destruct (fold_dbg T of_ rng op f msg (H2 Hd) l unit HR HL) as [_ I].
    apply I. exists n. rewrite HF, HU. assumption.
Qed.

Lemma iter_u_sum c l : Forall wf_u l -> let vs := map (uval c) l in
  (debug_assertions c = false -> u_sum c l = Ret (uof c (sumz vs))) /\
  (debug_assertions c = true -> (forall n, in_u 256 (sumz (firstn n vs)) = true) -> u_sum c l = Ret (uof c (sumz vs))) /\
  (debug_assertions c = true -> (exists n, in_u 256 (sumz (firstn n vs)) = false) -> u_sum c l = Panic "attempt to add with overflow").
Proof.
  intros Hl. destruct (map_uof c l Hl) as [E R]. cbv zeta. unfold u_sum. rewrite E at 1 3 5.
  apply fold_family with (op := Z.add) (unit := 0); [apply sumz_fold|reflexivity|apply U256_ZERO_of|reflexivity| | |assumption].
  - intros Hd x y. unfold u_op_add. rewrite Hd. rewrite add3_of. reflexivity.
  - intros Hd x y Hx Hy. rewrite u_op_add_of by auto using u_rng_wf. unfold dbg. rewrite Hd. destruct (in_u 256 (x + y)); reflexivity.
Qed.
Lemma iter_u_product c l : Forall wf_u l -> let vs := map (uval c) l in
  (debug_assertions c = false -> u_product c l = Ret (uof c (prodz vs))) /\
  (debug_assertions c = true -> (forall n, in_u 256 (prodz (firstn n vs)) = true) -> u_product c l = Ret (uof c (prodz vs))) /\
  (debug_assertions c = true -> (exists n, in_u 256 (prodz (firstn n vs)) = false) -> u_product c l = Panic "attempt to multiply with overflow").
Proof.
  intros Hl. destruct (map_uof c l Hl) as [E R]. cbv zeta. unfold u_product. rewrite E at 1 3 5.
  apply fold_family with (op := Z.mul) (unit := 1); [apply prodz_fold|apply Z.mul_1_l|apply U256_ONE_of|reflexivity| | |assumption].
  - intros Hd x y. unfold u_op_mul. rewrite Hd. apply mul3_of.
  - intros Hd x y Hx Hy. rewrite u_op_mul_of by auto using u_rng_wf. unfold dbg. rewrite Hd. destruct (in_u 256 (x * y)); reflexivity.
Qed.
Lemma iter_i_sum c l : Forall wf_i l -> let vs := map (ival c) l in
  (debug_assertions c = false -> i_sum c l = Ret (iof c (sumz vs))) /\
  (debug_assertions c = true -> (forall n, in_i 256 (sumz (firstn n vs)) = true) -> i_sum c l = Ret (iof c (sumz vs))) /\
  (debug_assertions c = true -> (exists n, in_i 256 (sumz (firstn n vs)) = false) -> i_sum c l = Panic "attempt to add with overflow").
Proof.
  intros Hl. destruct (map_iof c l Hl) as [E R]. cbv zeta. unfold i_sum. rewrite E at 1 3 5.
  apply fold_family with (op := Z.add) (unit := 0); [apply sumz_fold|reflexivity|apply I256_ZERO_of|reflexivity| | |assumption].
  - intros Hd x y. unfold i_op_add. rewrite Hd. rewrite iadd3_of. reflexivity.
  - intros Hd x y Hx Hy. rewrite i_op_add_of by auto using i_rng_wf. unfold dbg. rewrite Hd. destruct (in_i 256 (x + y)); reflexivity.
Qed.
Lemma iter_i_product c l : Forall wf_i l -> let vs := map (ival c) l in
  (debug_assertions c = false -> i_product c l = Ret (iof c (prodz vs))) /\
  (debug_assertions c = true -> (forall n, in_i 256 (prodz (firstn n vs)) = true) -> i_product c l = Ret (iof c (prodz vs))) /\
  (debug_assertions c = true -> (exists n, in_i 256 (prodz (firstn n vs)) = false) -> i_product c l = Panic "attempt to multiply with overflow").
Proof.
  intros Hl. destruct (map_iof c l Hl) as [E R]. cbv zeta. unfold i_product. rewrite E at 1 3 5.
  apply fold_family with (op := Z.mul) (unit := 1); [apply prodz_fold|apply Z.mul_1_l|apply I256_ONE_of|reflexivity| | |assumption].
  - intros Hd x y. unfold i_op_mul. rewrite Hd. apply imul3_of.
  - intros Hd x y Hx Hy. rewrite i_op_mul_of by auto using i_rng_wf. unfold dbg. rewrite Hd. destruct (in_i 256 (x * y)); reflexivity.
Qed.
Lemma least_exists v : exists k, 0 <= k /\ v <= 2 ^ k /\ (forall j, 0 <= j < k -> 2 ^ j < v) /\
  forall k', 0 <= k' -> v <= 2 ^ k' -> (forall j, 0 <= j < k' -> 2 ^ j < v) -> k' = k.
Proof.
  assert (H : exists k, least_exp v k).
  { destruct (Z.leb_spec v 1).
    - exists 0. repeat split; lia.
    - exists (Z.log2 (v - 1) + 1). pose proof (Z.log2_spec (v - 1) ltac:(lia)) as [L1 L2]. pose proof (Z.log2_nonneg (v - 1)).
      unfold Z.succ in L2. split; [lia|]. split; [lia|].
      intros j Hj. assert (2 ^ j <= 2 ^ Z.log2 (v - 1)) by (apply Z.pow_le_mono_r; lia). lia. }
  destruct H as (k & Hk). exists k. destruct Hk as (A & B & C). repeat split; try assumption.
  intros k' A' B' C'. apply (least_exp_unique v); repeat split; assumption.
Qed.
