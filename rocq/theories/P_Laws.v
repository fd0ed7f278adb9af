(** * Laws relating the operations to each other: proofs of C57 - C61 *)

From Coq Require Import ZArith Zpow_facts List String Bool Lia ZifyBool.
Import ListNotations.
From Verif Require Import M_Prim M_Words M_Intr M_Div M_Mul M_Ops M_UintApi M_IntApi M_Convert Spec Spec_Bits
  P_Words P_AddSub P_Bits P_BitsApi P_Mul P_Div P_DivKnuth P_IntDiv P_Ops P_Uint P_Int P_Pow P_Count P_Bytes.
Open Scope Z_scope.

(** ** Operations on represented numbers, for all integers *)
Lemma uwadd c a b : u_wrapping_add c (uof c a) (uof c b) = uof c (a + b).
Proof. apply add3_of. Qed.
Lemma uwsub c a b : u_wrapping_sub c (uof c a) (uof c b) = uof c (a - b).
Proof. apply sub3_of. Qed.
Lemma uwmul c a b : u_wrapping_mul c (uof c a) (uof c b) = Ret (uof c (a * b)).
Proof. apply mul3_of. Qed.
Lemma uwneg c a : u_wrapping_neg c (uof c a) = uof c (- a).
Proof.
  destruct (neg_family c (uof c a) (wf_uof _ _)) as (E & _). rewrite E, uval_uof. apply uof_cong.
  rewrite <- (Z.sub_0_l (a mod _)), <- (Z.sub_0_l a). apply Zminus_mod_idemp_r.
Qed.
Lemma iwadd c a b : i_wrapping_add c (iof c a) (iof c b) = iof c (a + b).
Proof. apply iadd3_of. Qed.
Lemma iwsub c a b : i_wrapping_sub c (iof c a) (iof c b) = iof c (a - b).
Proof. apply i_wrapping_sub_of. Qed.
Lemma iwmul c a b : i_wrapping_mul c (iof c a) (iof c b) = Ret (iof c (a * b)).
Proof. apply imul3_of. Qed.
Lemma iwneg c a : i_wrapping_neg c (iof c a) = iof c (- a).
Proof. unfold i_wrapping_neg. rewrite (I256_ZERO_of c), i_wrapping_sub_of. reflexivity. Qed.

Ltac law_u c := 
  rewrite ?(U256_ZERO_of c), ?(U256_ONE_of c);
  repeat first [rewrite uwadd|rewrite uwsub|rewrite uwmul|rewrite uwneg|rewrite u_op_not_of|progress cbn [bind]];
  try (f_equal; solve [lia|ring]); try (f_equal; f_equal; solve [lia|ring]).
Ltac law_i c := 
  rewrite ?(I256_ZERO_of c), ?(I256_ONE_of c);
  repeat first [rewrite iwadd|rewrite iwsub|rewrite iwmul|rewrite iwneg|rewrite i_op_not_of|progress cbn [bind]];
  try (f_equal; solve [lia|ring]); try (f_equal; f_equal; solve [lia|ring]).

(** ** The ring of wrapping arithmetic *)
Lemma u_ring c a b d : wf_u a -> wf_u b -> wf_u d ->
  u_wrapping_add c a b = u_wrapping_add c b a /\
  u_wrapping_add c (u_wrapping_add c a b) d = u_wrapping_add c a (u_wrapping_add c b d) /\
  u_wrapping_add c a (U256_ZERO) = a /\
  u_wrapping_add c a (u_wrapping_neg c a) = U256_ZERO /\
  u_wrapping_sub c a b = u_wrapping_add c a (u_wrapping_neg c b) /\
  u_wrapping_neg c a = u_wrapping_add c (u_op_not a) (U256_ONE c) /\
  (exists p, u_wrapping_mul c a b = Ret p) /\
  u_wrapping_mul c a b = u_wrapping_mul c b a /\
  (let! p := u_wrapping_mul c a b in u_wrapping_mul c p d) = (let! p := u_wrapping_mul c b d in u_wrapping_mul c a p) /\
  u_wrapping_mul c a (U256_ONE c) = Ret a /\
  u_wrapping_mul c a U256_ZERO = Ret U256_ZERO /\
  u_wrapping_mul c a (u_wrapping_add c b d) =
    (let! p := u_wrapping_mul c a b in let! q := u_wrapping_mul c a d in Ret (u_wrapping_add c p q)) /\
  u_wrapping_mul c a (u_wrapping_neg c b) = (let! p := u_wrapping_mul c a b in Ret (u_wrapping_neg c p)).
Proof.
  intros Ha Hb Hd. on_u c a. on_u c b. on_u c d. repeat split; law_u c. eexists. reflexivity.
Qed.
Lemma i_ring c a b d : wf_i a -> wf_i b -> wf_i d ->
  i_wrapping_add c a b = i_wrapping_add c b a /\
  i_wrapping_add c (i_wrapping_add c a b) d = i_wrapping_add c a (i_wrapping_add c b d) /\
  i_wrapping_add c a (I256_ZERO) = a /\
  i_wrapping_add c a (i_wrapping_neg c a) = I256_ZERO /\
  i_wrapping_sub c a b = i_wrapping_add c a (i_wrapping_neg c b) /\
  i_wrapping_neg c a = i_wrapping_add c (i_op_not a) (I256_ONE c) /\
  (exists p, i_wrapping_mul c a b = Ret p) /\
  i_wrapping_mul c a b = i_wrapping_mul c b a /\
  (let! p := i_wrapping_mul c a b in i_wrapping_mul c p d) = (let! p := i_wrapping_mul c b d in i_wrapping_mul c a p) /\
  i_wrapping_mul c a (I256_ONE c) = Ret a /\
  i_wrapping_mul c a I256_ZERO = Ret I256_ZERO /\
  i_wrapping_mul c a (i_wrapping_add c b d) =
    (let! p := i_wrapping_mul c a b in let! q := i_wrapping_mul c a d in Ret (i_wrapping_add c p q)) /\
  i_wrapping_mul c a (i_wrapping_neg c b) = (let! p := i_wrapping_mul c a b in Ret (i_wrapping_neg c p)).
Proof.
  intros Ha Hb Hd. on_i c a. on_i c b. on_i c d. repeat split; law_i c. eexists. reflexivity.
Qed.

(** ** Powers *)
Lemma uwpow c x k : 0 <= k < 2 ^ 32 -> u_wrapping_pow c (uof c x) k = Ret (uof c (x ^ k)).
Proof.
  intros Hk. destruct (u_pow_family c (uof c x) k (wf_uof _ _) Hk) as (E & _). rewrite E, uval_uof.
  f_equal. apply uof_cong. symmetry. rewrite Zpower_mod by lia. reflexivity.
Qed.
Lemma iwpow c x k : 0 <= k < 2 ^ 32 -> i_wrapping_pow c (iof c x) k = Ret (iof c (x ^ k)).
Proof.
  intros Hk. destruct (i_pow_family c (iof c x) k (wf_iof _ _) Hk) as (E & _). rewrite E, ival_iof.
  f_equal. apply iof_cong. rewrite Zpower_mod, (wrap_i_mod 256), <- Zpower_mod by lia. reflexivity.
Qed.
Lemma u_pow_laws c a b m n : wf_u a -> wf_u b -> 0 <= m -> 0 <= n -> m + n < 2 ^ 32 ->
  u_wrapping_pow c a 0 = Ret (U256_ONE c) /\ u_wrapping_pow c a 1 = Ret a /\
  u_wrapping_pow c a (m + n) =
    (let! p := u_wrapping_pow c a m in let! q := u_wrapping_pow c a n in u_wrapping_mul c p q) /\
  (let! p := u_wrapping_mul c a b in u_wrapping_pow c p n) =
    (let! p := u_wrapping_pow c a n in let! q := u_wrapping_pow c b n in u_wrapping_mul c p q).
Proof.
  intros Ha Hb Hm Hn Hs. on_u c a. on_u c b. rewrite (U256_ONE_of c), uwmul. cbn [bind].
  rewrite !uwpow by lia. cbn [bind]. rewrite !uwmul.
  rewrite Z.pow_0_r, Z.pow_1_r, Z.pow_add_r, Z.pow_mul_l by lia. repeat split.
Qed.
Lemma i_pow_laws c a b m n : wf_i a -> wf_i b -> 0 <= m -> 0 <= n -> m + n < 2 ^ 32 ->
  i_wrapping_pow c a 0 = Ret (I256_ONE c) /\ i_wrapping_pow c a 1 = Ret a /\
  i_wrapping_pow c a (m + n) =
    (let! p := i_wrapping_pow c a m in let! q := i_wrapping_pow c a n in i_wrapping_mul c p q) /\
  (let! p := i_wrapping_mul c a b in i_wrapping_pow c p n) =
    (let! p := i_wrapping_pow c a n in let! q := i_wrapping_pow c b n in i_wrapping_mul c p q).
Proof.
  intros Ha Hb Hm Hn Hs. on_i c a. on_i c b. rewrite (I256_ONE_of c), iwmul. cbn [bind].
  rewrite !iwpow by lia. cbn [bind]. rewrite !iwmul.
  rewrite Z.pow_0_r, Z.pow_1_r, Z.pow_add_r, Z.pow_mul_l by lia. repeat split.
Qed.

(** ** Division *)
Lemma uval_zero c b : wf_u b -> b <> U256_ZERO -> uval c b <> 0.
Proof. intros Hb H E. apply H. rewrite <- (uof_uval c b Hb), E, (U256_ZERO_of c). reflexivity. Qed.
Lemma ival_zero c b : wf_i b -> b <> I256_ZERO -> ival c b <> 0.
Proof. intros Hb H E. apply H. rewrite <- (iof_ival c b Hb), E, (I256_ZERO_of c). reflexivity. Qed.

Lemma u_division c a b : wf_u a -> wf_u b -> b <> U256_ZERO -> exists q r m,
  u_wrapping_div c a b = Ret q /\ u_wrapping_rem c a b = Ret r /\ u_div_rem c a b = Ret (q, r) /\
  u_checked_mul c q b = Ret (Some m) /\ u_checked_add c m r = Some a /\ u_lt c r b = true.
Proof.
  intros Ha Hb Hz. apply (uval_zero c) in Hz; [|assumption]. revert Hz.
  on_u c a. on_u c b. intros Hz.
  pose proof (Z.div_mod na nb Hz). pose proof (Z.mod_pos_bound na nb ltac:(lia)).
  assert (0 <= na / nb) by (apply Z.div_pos; lia).
  assert (na / nb <= na) by (apply Z.div_le_upper_bound; nia).
  exists (uof c (na / nb)), (uof c (na mod nb)), (uof c (na / nb * nb)).
  pose proof (div_rem_family c (uof c na) (uof c nb) (wf_uof _ _) (wf_uof _ _)) as D. cbv zeta in D.
  rewrite !uval_of_small, (proj2 (Z.eqb_neq nb 0) Hz) in D by lia. destruct D as (D & _). inversion D as [|? ? D1]; subst.
  unfold u_wrapping_div, u_wrapping_rem.
  rewrite u_op_div_of, u_op_rem_of by lia. rewrite (proj2 (Z.eqb_neq nb 0) Hz).
  split; [reflexivity|]. split; [reflexivity|]. split; [congruence|].
  destruct (mul_family c (uof c (na / nb)) (uof c nb) (wf_uof _ _) (wf_uof _ _)) as (_ & _ & E & _).
  rewrite E, !uval_of_small by lia.
  destruct (add_family c (uof c (na / nb * nb)) (uof c (na mod nb)) (wf_uof _ _) (wf_uof _ _)) as (_ & _ & E2 & _).
  rewrite E2, !uval_of_small by nia. rewrite u_lt_of by lia.
  replace (in_u 256 (na / nb * nb)) with true by (rewrite in_u_256; nia).
  replace (na / nb * nb + na mod nb) with na by nia.
  replace (in_u 256 na) with true by (rewrite in_u_256; lia).
  repeat split. lia.
Qed.
Lemma u_cancel c a b p : wf_u a -> wf_u b -> b <> U256_ZERO -> u_checked_mul c a b = Ret (Some p) ->
  u_wrapping_div c p b = Ret a /\ u_wrapping_rem c p b = Ret U256_ZERO.
Proof.
  intros Ha Hb Hz. apply (uval_zero c) in Hz; [|assumption]. revert Hz.
  on_u c a. on_u c b. intros Hz.
  destruct (mul_family c (uof c na) (uof c nb) (wf_uof _ _) (wf_uof _ _)) as (_ & _ & E & _).
  rewrite E, !uval_of_small by lia. rewrite in_u_256.
  destruct (Z.leb_spec 0 (na * nb)), (Z.ltb_spec (na * nb) (2 ^ 256)); cbn [andb]; try discriminate.
  intros [= <-]. unfold u_wrapping_div, u_wrapping_rem.
  rewrite u_op_div_of, u_op_rem_of, (proj2 (Z.eqb_neq nb 0) Hz), Z.div_mul, Z.mod_mul by lia.
  rewrite (U256_ZERO_of c). split; reflexivity.
Qed.

Lemma i_division c a b : wf_i a -> wf_i b -> b <> I256_ZERO -> exists q r,
  i_wrapping_div c a b = Ret q /\ i_wrapping_rem c a b = Ret r /\ i_wrapping_div_rem c a b = Ret (q, r) /\
  (let! m := i_wrapping_mul c q b in Ret (i_wrapping_add c m r)) = Ret a /\
  u_lt c (i_unsigned_abs c r) (i_unsigned_abs c b) = true /\
  (r = I256_ZERO \/ i_signum c r = i_signum c a).
Proof.
  intros Ha Hb Hz. apply (ival_zero c) in Hz; [|assumption]. revert Hz.
  on_i c a. on_i c b. intros Hz.
  pose proof (Z.quot_rem na nb Hz). pose proof (Z.rem_bound_abs na nb Hz).
  pose proof (Z.rem_sign_nz na nb Hz) as S.
  assert (- 2 ^ 255 <= Z.rem na nb < 2 ^ 255) by lia.
  pose proof (idiv_rem_family c (iof c na) (iof c nb) (wf_iof _ _) (wf_iof _ _)) as D.
  pose proof (idiv_family c (iof c na) (iof c nb) (wf_iof _ _) (wf_iof _ _)) as D'.
  cbv zeta in D, D'. rewrite !ival_of_small, (proj2 (Z.eqb_neq nb 0) Hz) in D, D' by lia.
  destruct D as (D & _). destruct D' as (D1 & D2 & _).
  exists (iof c (Z.quot na nb)), (iof c (Z.rem na nb)).
  split. { inversion_clear D1 as [|? ? _ D3]. inversion_clear D3 as [|? ? _ D4]. inversion D4. congruence. }
  split. { inversion_clear D2 as [|? ? _ D3]. inversion_clear D3 as [|? ? _ D4]. inversion D4. congruence. }
  split; [exact D|]. split.
  { rewrite iwmul. cbn [bind]. rewrite iwadd. do 2 f_equal. lia. }
  destruct (abs_family c (iof c (Z.rem na nb)) (wf_iof _ _)) as (_ & _ & _ & _ & E1 & _).
  destruct (abs_family c (iof c nb) (wf_iof _ _)) as (_ & _ & _ & _ & E2 & _).
  rewrite E1, E2, !ival_of_small by lia. rewrite u_lt_of by lia. split; [lia|].
  destruct (Z.eq_dec (Z.rem na nb) 0) as [R|R].
  - left. rewrite R, (I256_ZERO_of c). reflexivity.
  - right. destruct (sign_family c (iof c (Z.rem na nb)) (wf_iof _ _)) as (_ & _ & _ & E3).
    destruct (sign_family c (iof c na) (wf_iof _ _)) as (_ & _ & _ & E4).
    rewrite E3, E4, !ival_of_small by lia. f_equal. apply S. exact R.
Qed.
Lemma i_cancel c a b p : wf_i a -> wf_i b -> b <> I256_ZERO -> i_checked_mul c a b = Ret (Some p) ->
  i_wrapping_div c p b = Ret a /\ i_wrapping_rem c p b = Ret I256_ZERO.
Proof.
  intros Ha Hb Hz. apply (ival_zero c) in Hz; [|assumption]. revert Hz.
  on_i c a. on_i c b. intros Hz.
  destruct (imul_family c (iof c na) (iof c nb) (wf_iof _ _) (wf_iof _ _)) as (_ & _ & E & _).
  rewrite E, !ival_of_small by lia. rewrite in_i_256.
  destruct (Z.leb_spec (- 2 ^ 255) (na * nb)), (Z.ltb_spec (na * nb) (2 ^ 255)); cbn [andb]; try discriminate.
  intros [= <-]. 
  pose proof (idiv_family c (iof c (na * nb)) (iof c nb) (wf_iof _ _) (wf_iof _ _)) as D'.
  cbv zeta in D'. rewrite !ival_of_small, (proj2 (Z.eqb_neq nb 0) Hz), Z.quot_mul, Z.rem_mul in D' by lia.
  destruct D' as (D1 & D2 & _). rewrite (I256_ZERO_of c).
  split. { inversion_clear D1 as [|? ? _ D3]. inversion_clear D3 as [|? ? _ D4]. inversion D4. congruence. }
  inversion_clear D2 as [|? ? _ D3]. inversion_clear D3 as [|? ? _ D4]. inversion D4. congruence.
Qed.
Lemma i_euclid c a b : wf_i a -> wf_i b -> b <> I256_ZERO -> exists q r,
  i_wrapping_div_euclid c a b = Ret q /\ i_wrapping_rem_euclid c a b = Ret r /\
  (let! m := i_wrapping_mul c q b in Ret (i_wrapping_add c m r)) = Ret a /\
  u_lt c (i_as_u256 r) (i_unsigned_abs c b) = true.
Proof.
  intros Ha Hb Hz. apply (ival_zero c) in Hz; [|assumption]. revert Hz.
  on_i c a. on_i c b. intros Hz.
  assert (X : exists q r, na = q * nb + r /\ 0 <= r < Z.abs nb).
  { exists (Z.sgn nb * (na / Z.abs nb)), (na mod Z.abs nb).
    pose proof (Z.div_mod na (Z.abs nb) ltac:(lia)). pose proof (Z.mod_pos_bound na (Z.abs nb) ltac:(lia)).
    split; [|lia]. destruct (Z.abs_spec nb) as [[? EA]|[? EA]]; rewrite EA in *;
      [rewrite Z.sgn_pos by lia|rewrite Z.sgn_neg by lia]; lia. }
  destruct X as (q & r & X1 & X2). exists (iof c q), (iof c r).
  destruct (ieuclid_family c (iof c na) (iof c nb) q r (wf_iof _ _) (wf_iof _ _)) as (E1 & E2 & _);
    [rewrite !ival_of_small by lia; exact X1|rewrite !ival_of_small by lia; exact X2|].
  split. { inversion_clear E1 as [|? ? _ D]. inversion D. congruence. }
  split. { inversion_clear E2 as [|? ? _ D]. inversion D. congruence. }
  split. { rewrite iwmul. cbn [bind]. rewrite iwadd. do 2 f_equal. lia. }
  destruct (abs_family c (iof c nb) (wf_iof _ _)) as (_ & _ & _ & _ & E3 & _).
  rewrite E3, i_as_u256_of, ival_of_small, u_lt_of by lia. lia.
Qed.

(** ** Bits *)
Ltac bitwise := apply Z.bits_inj'; let i := fresh in let Hi := fresh in intros i Hi;
  repeat first [rewrite Z.lor_spec|rewrite Z.lxor_spec|rewrite Z.land_spec|rewrite Z.ldiff_spec
               |rewrite Z.lnot_spec by exact Hi|rewrite Z.bits_0];
  repeat match goal with |- context [Z.testbit ?v i] => destruct (Z.testbit v i) end; reflexivity.
Lemma lor_land_sum a b : Z.lor a b + Z.land a b = a + b.
Proof.
  assert (Z.lor a b = a + Z.ldiff b a) by (rewrite Z.add_nocarry_lxor; bitwise).
  assert (b = Z.ldiff b a + Z.land a b) by (rewrite Z.add_nocarry_lxor; bitwise).
  lia.
Qed.
Lemma lxor_land_sum a b : Z.lxor a b + 2 * Z.land a b = a + b.
Proof.
  assert (Z.lor a b = Z.lxor a b + Z.land a b) by (rewrite Z.add_nocarry_lxor; bitwise).
  pose proof (lor_land_sum a b). lia.
Qed.
Lemma not_lnot a : - a - 1 = Z.lnot a.
Proof. unfold Z.lnot. lia. Qed.

Lemma u_bit_laws c a b d : wf_u a -> wf_u b -> wf_u d ->
  u_op_not (u_op_not a) = a /\
  u_op_not (u_op_and a b) = u_op_or (u_op_not a) (u_op_not b) /\
  u_op_not (u_op_or a b) = u_op_and (u_op_not a) (u_op_not b) /\
  u_op_and a (u_op_or b d) = u_op_or (u_op_and a b) (u_op_and a d) /\
  u_op_and a (u_op_xor b d) = u_op_xor (u_op_and a b) (u_op_and a d) /\
  u_op_xor (u_op_xor a b) b = a /\
  u_op_xor a b = u_op_and (u_op_or a b) (u_op_not (u_op_and a b)) /\
  u_wrapping_add c a b = u_wrapping_add c (u_op_or a b) (u_op_and a b) /\
  (exists t, u_wrapping_shl c (u_op_and a b) 1 = Ret t /\ u_wrapping_add c a b = u_wrapping_add c (u_op_xor a b) t) /\
  u_wrapping_sub c a b = u_wrapping_sub c (u_op_and a (u_op_not b)) (u_op_and (u_op_not a) b).
Proof.
  intros Ha Hb Hd. on_u c a. on_u c b. on_u c d.
  repeat first [rewrite u_op_and_of|rewrite u_op_or_of|rewrite u_op_xor_of|rewrite u_op_not_of].
  rewrite !not_lnot, !uwadd, !uwsub.
  repeat split; try (f_equal; bitwise).
  - rewrite lor_land_sum. reflexivity.
  - eexists. split; [apply shl3_of; change (Z.land 1 255) with 1; lia|]. rewrite uwadd. f_equal.
    change (2 ^ Z.land 1 255) with 2. rewrite <- (lxor_land_sum na nb). lia.
  - f_equal. pose proof (lxor_land_sum na (Z.lnot nb)). pose proof (lor_land_sum na nb).
    assert (E1 : na = Z.land na (Z.lnot nb) + Z.land na nb).
    { rewrite Z.add_nocarry_lxor; bitwise. }
    assert (E2 : nb = Z.land (Z.lnot na) nb + Z.land na nb).
    { rewrite Z.add_nocarry_lxor; bitwise. }
    lia.
Qed.
Lemma i_bit_laws c a b d : wf_i a -> wf_i b -> wf_i d ->
  i_op_not (i_op_not a) = a /\
  i_op_not (i_op_and a b) = i_op_or (i_op_not a) (i_op_not b) /\
  i_op_not (i_op_or a b) = i_op_and (i_op_not a) (i_op_not b) /\
  i_op_and a (i_op_or b d) = i_op_or (i_op_and a b) (i_op_and a d) /\
  i_op_and a (i_op_xor b d) = i_op_xor (i_op_and a b) (i_op_and a d) /\
  i_op_xor (i_op_xor a b) b = a /\
  i_op_xor a b = i_op_and (i_op_or a b) (i_op_not (i_op_and a b)) /\
  i_wrapping_add c a b = i_wrapping_add c (i_op_or a b) (i_op_and a b) /\
  (exists t, i_wrapping_shl c (i_op_and a b) 1 = Ret t /\ i_wrapping_add c a b = i_wrapping_add c (i_op_xor a b) t) /\
  i_wrapping_sub c a b = i_wrapping_sub c (i_op_and a (i_op_not b)) (i_op_and (i_op_not a) b).
Proof.
  intros Ha Hb Hd. on_i c a. on_i c b. on_i c d.
  repeat first [rewrite i_op_and_of|rewrite i_op_or_of|rewrite i_op_xor_of|rewrite i_op_not_of].
  rewrite !not_lnot, !iwadd, !iwsub.
  repeat split; try (f_equal; bitwise).
  - rewrite lor_land_sum. reflexivity.
  - eexists. split; [apply ishl3_of; change (Z.land 1 255) with 1; lia|]. rewrite iwadd. f_equal.
    change (2 ^ Z.land 1 255) with 2. rewrite <- (lxor_land_sum na nb). lia.
  - f_equal.
    assert (E1 : na = Z.land na (Z.lnot nb) + Z.land na nb).
    { rewrite Z.add_nocarry_lxor; bitwise. }
    assert (E2 : nb = Z.land (Z.lnot na) nb + Z.land na nb).
    { rewrite Z.add_nocarry_lxor; bitwise. }
    lia.
Qed.

(** ** Shifts *)
Lemma land_small n : 0 <= n < 256 -> Z.land n 255 = n.
Proof. intros. change 255 with (Z.ones 8). rewrite Z.land_ones by lia. apply Z.mod_small. lia. Qed.
Lemma pow_bound n m : 0 <= n < m -> 1 <= 2 ^ n /\ 2 * 2 ^ n <= 2 ^ m.
Proof.
  intros. split; [pose proof (Z.pow_pos_nonneg 2 n); lia|].
  rewrite <- Z.pow_succ_r by lia. apply Z.pow_le_mono_r; lia.
Qed.

Lemma u_shift_laws c a m n : wf_u a -> 0 <= m -> 0 <= n -> m + n < 256 ->
  u_wrapping_shl c a n = (let! p := u_wrapping_pow c (u_new c 2) n in u_wrapping_mul c a p) /\
  u_wrapping_shr c a n = (let! p := u_wrapping_pow c (u_new c 2) n in u_wrapping_div c a p) /\
  (let! t := u_wrapping_shl c a m in u_wrapping_shl c t n) = u_wrapping_shl c a (m + n) /\
  (let! t := u_wrapping_shr c a m in u_wrapping_shr c t n) = u_wrapping_shr c a (m + n) /\
  (exists t, u_wrapping_shl c a n = Ret t) /\ (exists t, u_wrapping_shr c a n = Ret t).
Proof.
  intros Ha Hm Hn Hs. on_u c a. unfold u_wrapping_shl, u_wrapping_shr. rewrite !land_small by lia.
  rewrite u_new_of, uwpow by lia. cbn [bind]. rewrite uwmul.
  destruct (pow_bound n 256) as [P1 P2]; [lia|]. destruct (pow_bound m 256) as [P3 P4]; [lia|].
  unfold u_wrapping_div. rewrite u_op_div_of by lia. replace (2 ^ n =? 0) with false by lia.
  assert (R : 0 <= na / 2 ^ m < 2 ^ 256).
  { split; [apply Z.div_pos; lia|apply Z.div_lt_upper_bound; nia]. }
  rewrite !shl3_of, !shr3_of by lia. cbn [bind]. rewrite shl3_of, shr3_of by lia.
  rewrite Z.pow_add_r, Z.div_div by lia.
  repeat split; try (eexists; reflexivity). f_equal. f_equal. lia.
Qed.
Lemma i_shift_laws c a m n : wf_i a -> 0 <= m -> 0 <= n -> m + n < 256 ->
  i_wrapping_shl c a n = (let! p := i_wrapping_pow c (i_new c 2) n in i_wrapping_mul c a p) /\
  (n < 255 -> i_wrapping_shr c a n = (let! p := i_wrapping_pow c (i_new c 2) n in i_wrapping_div_euclid c a p)) /\
  (let! t := i_wrapping_shl c a m in i_wrapping_shl c t n) = i_wrapping_shl c a (m + n) /\
  (let! t := i_wrapping_shr c a m in i_wrapping_shr c t n) = i_wrapping_shr c a (m + n) /\
  (exists t, i_wrapping_shl c a n = Ret t) /\ (exists t, i_wrapping_shr c a n = Ret t).
Proof.
  intros Ha Hm Hn Hs. on_i c a. unfold i_wrapping_shl, i_wrapping_shr. rewrite !land_small by lia.
  rewrite i_new_of, iwpow by lia. cbn [bind]. rewrite iwmul.
  destruct (pow_bound n 256) as [P1 P2]; [lia|]. destruct (pow_bound m 256) as [P3 P4]; [lia|].
  assert (R : - 2 ^ 255 <= na / 2 ^ m < 2 ^ 255).
  { split; [apply Z.div_le_lower_bound; nia|apply Z.div_lt_upper_bound; nia]. }
  rewrite !ishl3_of, !sar3_of by lia. cbn [bind]. rewrite ishl3_of, sar3_of by lia.
  rewrite Z.pow_add_r, Z.div_div by lia.
  repeat split; try (eexists; reflexivity).
  - intros Hn'. destruct (pow_bound n 255) as [P5 P6]; [lia|].
    destruct (ieuclid_family c (iof c na) (iof c (2 ^ n)) (na / 2 ^ n) (na mod 2 ^ n) (wf_iof _ _) (wf_iof _ _)) as (E & _).
    + rewrite !ival_of_small by lia. pose proof (Z.div_mod na (2 ^ n)). lia.
    + rewrite !ival_of_small by lia. rewrite Z.abs_eq by lia. apply Z.mod_pos_bound. lia.
    + inversion_clear E as [|? ? _ D]. inversion D. congruence.
  - f_equal. f_equal. lia.
Qed.

(** ** Rotations *)
Lemma u_rotate_laws c a m n : wf_u a -> 0 <= m <= 256 -> 0 <= n <= 256 ->
  (0 < n < 256 -> u_rotate_left c a n =
     (let! x := u_wrapping_shl c a n in let! y := u_wrapping_shr c a (256 - n) in Ret (u_op_or x y))) /\
  u_rotate_left c a n = u_rotate_right c a (256 - n) /\
  (let! t := u_rotate_left c a m in u_rotate_left c t n) = u_rotate_left c a ((m + n) mod 256) /\
  (let! t := u_rotate_left c a m in u_rotate_right c t m) = Ret a.
Proof.
  intros Ha Hm Hn. pose proof (Z.mod_pos_bound (m + n) 256 ltac:(lia)) as HM.
  assert (RO : forall k, k <= 256 -> rotate_ok c k) by (intros; unfold rotate_ok; auto).
  assert (B : forall k v, 0 <= v < 2 ^ 256 -> 0 <= rotl_num v k mod 2 ^ 256 < 2 ^ 256) by (intros; apply Z.mod_pos_bound; lia).
  unfold u_rotate_left, u_rotate_right. on_u c a.
  rewrite !rol3_of, !ror3_of by (try apply RO; lia). cbn [bind].
  rewrite <- (uof_mod c (rotl_num na m)). rewrite rol3_of, ror3_of by (try apply RO; try apply B; lia).
  repeat split.
  - intros H. unfold u_wrapping_shl, u_wrapping_shr. rewrite !land_small by lia.
    rewrite shl3_of, shr3_of by lia. cbn [bind]. rewrite u_op_or_of. f_equal. apply uof_cong, mod256_bits. intros i Hi.
    rewrite rotl_num_bit, Z.lor_spec by lia. rewrite <- Z.shiftl_mul_pow2, <- Z.shiftr_div_pow2, Z.shiftl_spec, Z.shiftr_spec by lia.
    destruct (Z.ltb_spec i n).
    + rewrite (Z.testbit_neg_r _ (i - n)) by lia. cbn [orb].
      f_equal. symmetry. apply Z.mod_unique with (-1); lia.
    + rewrite Z.mod_small by lia. assert (TB : Z.testbit na (i + (256 - n)) = false).
      { rewrite <- (Z.mod_small na (2 ^ 256)) by lia. apply Z.mod_pow2_bits_high. lia. }
      rewrite TB, orb_false_r. reflexivity.
  - f_equal. apply uof_cong, mod256_bits. intros i Hi. rewrite !rotl_num_bit by lia. f_equal.
    replace (i - - (256 - n)) with (i - n + 1 * 256) by lia. rewrite Z.mod_add by lia. reflexivity.
  - f_equal. apply uof_cong, mod256_bits. intros i Hi.
    pose proof (Z.mod_pos_bound (i - n) 256 ltac:(lia)).
    rewrite rotl_num_bit by (try apply B; lia). rewrite Z.mod_pow2_bits_low by lia. rewrite !rotl_num_bit by lia. f_equal.
    rewrite Zminus_mod_idemp_l, Zminus_mod_idemp_r. f_equal. lia.
  - f_equal. apply uof_cong, mod256_bits. intros i Hi.
    pose proof (Z.mod_pos_bound (i - - m) 256 ltac:(lia)).
    rewrite rotl_num_bit by (try apply B; lia). rewrite Z.mod_pow2_bits_low by lia. rewrite !rotl_num_bit by lia. f_equal.
    rewrite Zminus_mod_idemp_l. replace (i - - m - m) with i by lia. apply Z.mod_small. lia.
Qed.

(** ** Counting bits *)
Lemma ones_sum n a b : ones n (Z.land a b) + ones n (Z.lor a b) = ones n a + ones n b.
Proof.
  induction n; cbn [ones]; [reflexivity|]. rewrite Z.land_spec, Z.lor_spec.
  destruct (Z.testbit a _), (Z.testbit b _); cbn [andb orb Z.b2z]; lia.
Qed.
Lemma ones_not n a : ones n (Z.lnot a) = Z.of_nat n - ones n a.
Proof.
  induction n; [reflexivity|]. cbn [ones]. rewrite Z.lnot_spec by lia.
  destruct (Z.testbit a _); cbn [negb Z.b2z]; lia.
Qed.
Lemma run_unique b v k k' : run_bottom b v k -> run_bottom b v k' -> k = k'.
Proof.
  intros (H1 & H2 & H3) (H1' & H2' & H3').
  destruct (Z.lt_trichotomy k k') as [L|[L|L]]; [|assumption|].
  - specialize (H3 ltac:(lia)). rewrite H2' in H3 by lia. destruct b; discriminate.
  - specialize (H3' ltac:(lia)). rewrite H2 in H3' by lia. destruct b; discriminate.
Qed.
Lemma run_mirror b v w k : (forall i, 0 <= i < 256 -> Z.testbit w i = Z.testbit v (255 - i)) ->
  run_top b v k -> run_bottom b w k.
Proof.
  intros H (H1 & H2 & H3). split; [assumption|]. split.
  - intros i Hi. rewrite H by lia. apply H2. lia.
  - intros Hk. rewrite H by lia. apply H3. assumption.
Qed.
Lemma u_count_laws c a b : wf_u a -> wf_u b ->
  (let! x := u_count_ones c a in let! y := u_count_ones c b in Ret (x + y)) =
    (let! x := u_count_ones c (u_op_and a b) in let! y := u_count_ones c (u_op_or a b) in Ret (x + y)) /\
  u_count_zeros c a = u_count_ones c (u_op_not a) /\
  u_leading_zeros c a = u_trailing_zeros c (u_reverse_bits a) /\
  u_leading_ones c a = u_trailing_ones c (u_reverse_bits a) /\
  (exists k, u_count_ones c a = Ret k) /\ (exists k, u_leading_zeros c a = Ret k) /\ (exists k, u_leading_ones c a = Ret k).
Proof.
  intros Ha Hb.
  destruct (permutation_family c a (iof c 0) Ha (wf_iof _ _)) as ((W & _ & R) & _).
  destruct (runs_family c a (iof c 0) Ha (wf_iof _ _)) as ((k1 & E1 & R1) & (k2 & E2 & R2) & _).
  destruct (runs_family c (u_reverse_bits a) (iof c 0) W (wf_iof _ _)) as (_ & _ & (k3 & E3 & R3) & (k4 & E4 & R4) & _).
  rewrite E1, E2, E3, E4.
  apply (run_mirror _ _ _ _ R) in R1, R2. rewrite (run_unique _ _ _ _ R1 R3), (run_unique _ _ _ _ R2 R4).
  clear - Ha Hb. on_u c a. on_u c b. rewrite u_op_and_of, u_op_or_of, u_op_not_of, not_lnot.
  destruct (u_count_of c na) as [C1 C2]. destruct (u_count_of c nb) as [C3 _].
  rewrite C1, C2, C3, (proj1 (u_count_of c (Z.land na nb))), (proj1 (u_count_of c (Z.lor na nb))),
    (proj1 (u_count_of c (Z.lnot na))). cbn [bind]. rewrite ones_sum, ones_not.
  repeat split; eexists; reflexivity.
Qed.
Lemma i_count_laws c a b : wf_i a -> wf_i b ->
  (let! x := i_count_ones c a in let! y := i_count_ones c b in Ret (x + y)) =
    (let! x := i_count_ones c (i_op_and a b) in let! y := i_count_ones c (i_op_or a b) in Ret (x + y)) /\
  i_count_zeros c a = i_count_ones c (i_op_not a) /\
  i_leading_zeros c a = i_trailing_zeros c (i_reverse_bits a) /\
  i_leading_ones c a = i_trailing_ones c (i_reverse_bits a) /\
  (exists k, i_count_ones c a = Ret k) /\ (exists k, i_leading_zeros c a = Ret k) /\ (exists k, i_leading_ones c a = Ret k).
Proof.
  intros Ha Hb.
  destruct (permutation_family c (uof c 0) a (wf_uof _ _) Ha) as (_ & _ & (W & _ & R) & _).
  destruct (runs_family c (uof c 0) a (wf_uof _ _) Ha) as (_ & _ & _ & _ & (k1 & E1 & R1) & (k2 & E2 & R2) & _).
  destruct (runs_family c (uof c 0) (i_reverse_bits a) (wf_uof _ _) W) as (_ & _ & _ & _ & _ & _ & (k3 & E3 & R3) & (k4 & E4 & R4)).
  rewrite E1, E2, E3, E4.
  apply (run_mirror _ _ _ _ R) in R1, R2. rewrite (run_unique _ _ _ _ R1 R3), (run_unique _ _ _ _ R2 R4).
  clear - Ha Hb. on_i c a. on_i c b. rewrite i_op_and_of, i_op_or_of, i_op_not_of, not_lnot.
  destruct (i_count_of c na) as [C1 C2]. destruct (i_count_of c nb) as [C3 _].
  rewrite C1, C2, C3, (proj1 (i_count_of c (Z.land na nb))), (proj1 (i_count_of c (Z.lor na nb))),
    (proj1 (i_count_of c (Z.lnot na))). cbn [bind]. rewrite ones_sum, ones_not.
  repeat split; eexists; reflexivity.
Qed.

(** ** Casts *)
Lemma cast_laws c a b : wf_u a -> wf_u b ->
  i_as_u256 (u_as_i256 a) = a /\
  u_as_i256 (u_wrapping_add c a b) = i_wrapping_add c (u_as_i256 a) (u_as_i256 b) /\
  u_as_i256 (u_wrapping_sub c a b) = i_wrapping_sub c (u_as_i256 a) (u_as_i256 b) /\
  (let! p := u_wrapping_mul c a b in Ret (u_as_i256 p)) = i_wrapping_mul c (u_as_i256 a) (u_as_i256 b) /\
  u_as_i256 (u_wrapping_neg c a) = i_wrapping_neg c (u_as_i256 a) /\
  u_as_i256 (u_op_not a) = i_op_not (u_as_i256 a) /\
  u_as_i256 (u_op_and a b) = i_op_and (u_as_i256 a) (u_as_i256 b) /\
  u_as_i256 (u_op_or a b) = i_op_or (u_as_i256 a) (u_as_i256 b) /\
  u_as_i256 (u_op_xor a b) = i_op_xor (u_as_i256 a) (u_as_i256 b) /\
  u_as_i256 (u_swap_bytes a) = i_swap_bytes (u_as_i256 a) /\
  u_as_i256 (u_reverse_bits a) = i_reverse_bits (u_as_i256 a).
Proof.
  intros Ha Hb. on_u c a. on_u c b. rewrite !u_as_i256_of, i_as_u256_of, uwadd, uwsub, uwmul, uwneg, u_op_not_of,
    u_op_and_of, u_op_or_of, u_op_xor_of. cbn [bind].
  rewrite iwadd, iwsub, iwmul, iwneg, i_op_not_of, i_op_and_of, i_op_or_of, i_op_xor_of, !u_as_i256_of,
    u_swap_of, i_swap_of, u_rev_of, i_rev_of, !u_as_i256_of. repeat split.
Qed.
Lemma cast_shift_laws c a n : wf_u a -> 0 <= n < 2 ^ 32 ->
  (let! t := u_wrapping_shl c a n in Ret (u_as_i256 t)) = i_wrapping_shl c (u_as_i256 a) n /\
  (let! t := u_wrapping_pow c a n in Ret (u_as_i256 t)) = i_wrapping_pow c (u_as_i256 a) n /\
  (n <= 256 -> (let! t := u_rotate_left c a n in Ret (u_as_i256 t)) = i_rotate_left c (u_as_i256 a) n).
Proof.
  intros Ha Hn. on_u c a. rewrite u_as_i256_of.
  assert (0 <= Z.land n 255 < 256).
  { change 255 with (Z.ones 8). rewrite Z.land_ones by lia. apply Z.mod_pos_bound. lia. }
  unfold u_wrapping_shl, i_wrapping_shl. rewrite shl3_of, ishl3_of, uwpow, iwpow by lia. cbn [bind].
  rewrite !u_as_i256_of. repeat split. intros Hn'. unfold i_rotate_left, irol3, u_rotate_left, res_map.
  rewrite i_as_u256_of. reflexivity.
Qed.
(** The rotations of I256, which go through U256. *)
Lemma i_rotate_laws c a m n : wf_i a -> 0 <= m <= 256 -> 0 <= n <= 256 ->
  (0 < n < 256 -> i_rotate_left c a n =
     (let! x := i_wrapping_shl c a n in let! y := u_wrapping_shr c (i_as_u256 a) (256 - n) in Ret (i_op_or x (u_as_i256 y)))) /\
  i_rotate_left c a n = i_rotate_right c a (256 - n) /\
  (let! t := i_rotate_left c a m in i_rotate_left c t n) = i_rotate_left c a ((m + n) mod 256) /\
  (let! t := i_rotate_left c a m in i_rotate_right c t m) = Ret a.
Proof.
  intros Ha Hm Hn. pose proof (Z.mod_pos_bound (m + n) 256 ltac:(lia)) as HM.
  on_i c a. destruct (u_rotate_laws c (uof c na) m n (wf_uof _ _) Hm Hn) as (L1 & L2 & L3 & L4).
  assert (R : forall k, 0 <= k <= 256 -> exists v, u_rotate_left c (uof c na) k = Ret (uof c v)).
  { intros k Hk. unfold u_rotate_left. rewrite <- (uof_mod c na).
    rewrite rol3_of by (try (apply Z.mod_pos_bound; lia); unfold rotate_ok; auto with zarith; lia). eexists. reflexivity. }
  assert (U : forall w k, i_rotate_left c (iof c w) k = (let! t := u_rotate_left c (uof c w) k in Ret (u_as_i256 t))).
  { intros w k. unfold i_rotate_left, irol3, u_rotate_left, res_map. rewrite i_as_u256_of. reflexivity. }
  assert (V : forall w k, i_rotate_right c (iof c w) k = (let! t := u_rotate_right c (uof c w) k in Ret (u_as_i256 t))).
  { intros w k. unfold i_rotate_right, iror3, u_rotate_right, res_map. rewrite i_as_u256_of. reflexivity. }
  rewrite !U, V, <- L2. rewrite i_as_u256_of. destruct (R m Hm) as (v & E). rewrite E in L3, L4 |- *. cbn [bind] in L3, L4 |- *.
  rewrite u_as_i256_of, U, V, L3, L4. cbn [bind]. rewrite u_as_i256_of.
  repeat split. intros H. rewrite (L1 H).
  unfold i_wrapping_shl, u_wrapping_shl, u_wrapping_shr. rewrite !land_small by lia.
  rewrite shl3_of, ishl3_of by lia. cbn [bind]. rewrite <- (uof_mod c na). rewrite shr3_of by (try (apply Z.mod_pos_bound; lia); lia). cbn [bind].
  rewrite u_op_or_of, !u_as_i256_of, i_op_or_of. reflexivity.
Qed.
Lemma land_sign x : 0 <= x < 2 ^ 256 -> Z.land x (2 ^ 255) = Z.b2z (Z.testbit x 255) * 2 ^ 255.
Proof.
  intros Hx. apply Z.bits_inj'. intros i Hi. rewrite Z.land_spec, Z.pow2_bits_eqb by lia.
  destruct (Z.eqb_spec 255 i) as [<-|N].
  - rewrite andb_true_r. destruct (Z.testbit x 255); cbn [Z.b2z]; [|reflexivity].
    rewrite Z.mul_1_l, Z.pow2_bits_true by lia. reflexivity.
  - rewrite andb_false_r. destruct (Z.testbit x 255); cbn [Z.b2z]; [|rewrite Z.bits_0; reflexivity].
    rewrite Z.mul_1_l, Z.pow2_bits_false by lia. reflexivity.
Qed.
Lemma cast_order c a b : wf_i a -> wf_i b ->
  let flip x := u_op_xor (i_as_u256 x) (i_as_u256 (I256_MIN c)) in
  i_cmp c a b = u_cmp c (flip a) (flip b).
Proof.
  intros Ha Hb. cbv zeta. on_i c a. on_i c b. rewrite (I256_MIN_of c), !i_as_u256_of.
  assert (F : forall v, - 2 ^ 255 <= v < 2 ^ 255 -> u_op_xor (uof c v) (uof c (- 2 ^ 255)) = uof c (v + 2 ^ 255)).
  { intros v Hv. rewrite <- (uof_mod c v), <- (uof_mod c (- 2 ^ 255)). change (- 2 ^ 255 mod 2 ^ 256) with (2 ^ 255).
    rewrite u_op_xor_of. apply uof_cong. pose proof (lxor_land_sum (v mod 2 ^ 256) (2 ^ 255)) as L.
    pose proof (Z.mod_pos_bound v (2 ^ 256) ltac:(lia)). rewrite land_sign in L by lia.
    set (k := Z.b2z _) in L. 
    replace (Z.lxor (v mod 2 ^ 256) (2 ^ 255)) with (v mod 2 ^ 256 + 2 ^ 255 + (- k) * 2 ^ 256) by lia.
    rewrite Z.mod_add, Zplus_mod_idemp_l by lia. reflexivity. }
  rewrite !F, i_cmp_of, u_cmp_of by lia.
  destruct (Z.compare_spec na nb), (Z.compare_spec (na + 2 ^ 255) (nb + 2 ^ 255)); lia || reflexivity.
Qed.

(** ** Order, checked and saturating arithmetic *)
Lemma uof_inj c x y : 0 <= x < 2 ^ 256 -> 0 <= y < 2 ^ 256 -> uof c x = uof c y -> x = y.
Proof. intros Hx Hy E. rewrite <- (uval_of_small c x Hx), <- (uval_of_small c y Hy), E. reflexivity. Qed.
Lemma iof_inj c x y : - 2 ^ 255 <= x < 2 ^ 255 -> - 2 ^ 255 <= y < 2 ^ 255 -> iof c x = iof c y -> x = y.
Proof. intros Hx Hy E. rewrite <- (ival_of_small c x Hx), <- (ival_of_small c y Hy), E. reflexivity. Qed.
Lemma u_max_of c x y : 0 <= x < 2 ^ 256 -> 0 <= y < 2 ^ 256 ->
  u_max c (uof c x) (uof c y) = uof c (Z.max x y) /\ u_min c (uof c x) (uof c y) = uof c (Z.min x y).
Proof.
  intros. unfold u_max, u_min. rewrite !u_cmp_of by lia.
  destruct (Z.compare_spec x y); split; f_equal; lia.
Qed.
Lemma i_max_of c x y : - 2 ^ 255 <= x < 2 ^ 255 -> - 2 ^ 255 <= y < 2 ^ 255 ->
  i_max c (iof c x) (iof c y) = iof c (Z.max x y) /\ i_min c (iof c x) (iof c y) = iof c (Z.min x y).
Proof.
  intros. unfold i_max, i_min. rewrite !i_cmp_of by lia.
  destruct (Z.compare_spec x y); split; f_equal; lia.
Qed.
Lemma u_add_of' c x y : 0 <= x < 2 ^ 256 -> 0 <= y < 2 ^ 256 ->
  u_checked_add c (uof c x) (uof c y) = (if x + y <? 2 ^ 256 then Some (uof c (x + y)) else None) /\
  u_saturating_add c (uof c x) (uof c y) = uof c (clamp_u (x + y)) /\
  u_checked_sub c (uof c x) (uof c y) = (if y <=? x then Some (uof c (x - y)) else None) /\
  u_saturating_sub c (uof c x) (uof c y) = uof c (clamp_u (x - y)) /\
  u_abs_diff c (uof c x) (uof c y) = Ret (uof c (Z.abs (x - y))).
Proof.
  intros Hx Hy. destruct (add_family c (uof c x) (uof c y) (wf_uof _ _) (wf_uof _ _)) as (_ & _ & E1 & E2).
  destruct (sub_family c (uof c x) (uof c y) (wf_uof _ _) (wf_uof _ _)) as (_ & _ & E3 & E4 & E5).
  rewrite E1, E2, E3, E4, E5, !uval_of_small, !in_u_256 by lia. repeat split.
  - replace (0 <=? x + y) with true by lia. reflexivity.
  - replace (x - y <? 2 ^ 256) with true by lia. rewrite andb_true_r. replace (0 <=? x - y) with (y <=? x) by lia. reflexivity.
Qed.
Lemma i_add_of' c x y : - 2 ^ 255 <= x < 2 ^ 255 -> - 2 ^ 255 <= y < 2 ^ 255 ->
  i_checked_add c (iof c x) (iof c y) = (if in_i 256 (x + y) then Some (iof c (x + y)) else None) /\
  i_saturating_add c (iof c x) (iof c y) = iof c (clamp_i (x + y)) /\
  i_checked_sub c (iof c x) (iof c y) = (if in_i 256 (x - y) then Some (iof c (x - y)) else None) /\
  i_saturating_sub c (iof c x) (iof c y) = iof c (clamp_i (x - y)) /\
  i_abs_diff c (iof c x) (iof c y) = uof c (Z.abs (x - y)).
Proof.
  intros Hx Hy. destruct (iadd_family c (iof c x) (iof c y) (wf_iof _ _) (wf_iof _ _)) as (_ & _ & E1 & E2).
  destruct (isub_family c (iof c x) (iof c y) (wf_iof _ _) (wf_iof _ _)) as (_ & _ & E3 & E4).
  rewrite (iabs_diff_ok c (iof c x) (iof c y) (wf_iof _ _) (wf_iof _ _)).
  rewrite E1, E2, E3, E4, !ival_of_small by lia. repeat split.
Qed.
Lemma clamp_u_range v : 0 <= clamp_u v < 2 ^ 256.
Proof. unfold clamp_u, MAXU. lia. Qed.
Lemma clamp_i_range v : - 2 ^ 255 <= clamp_i v < 2 ^ 255.
Proof. unfold clamp_i, MINI, MAXI. lia. Qed.

Lemma u_checked_laws c a b d : wf_u a -> wf_u b -> wf_u d ->
  (u_checked_add c a b = Some d <-> u_checked_sub c d b = Some a) /\
  (u_checked_sub c a b = None <-> u_lt c a b = true) /\
  (u_checked_add c a b = None <-> u_lt c (u_op_not a) b = true) /\
  u_saturating_sub c a b = u_wrapping_sub c (u_max c a b) b /\
  u_saturating_add c a b = u_wrapping_add c a (u_min c (u_op_not a) b) /\
  u_abs_diff c a b = Ret (u_wrapping_sub c (u_max c a b) (u_min c a b)).
Proof.
  intros Ha Hb Hd. on_u c a. on_u c b. on_u c d.
  destruct (u_add_of' c na nb) as (E1 & E2 & E3 & E4 & E5); try lia.
  destruct (u_add_of' c nd nb) as (_ & _ & E6 & _ & _); try lia.
  assert (EN : u_op_not (uof c na) = uof c (2 ^ 256 - 1 - na)).
  { rewrite u_op_not_of. apply uof_cong. replace (2 ^ 256 - 1 - na) with (- na - 1 + 1 * 2 ^ 256) by lia.
    symmetry. apply Z.mod_add. lia. }
  destruct (u_max_of c na nb) as [M1 M2]; try lia.
  destruct (u_max_of c (2 ^ 256 - 1 - na) nb) as [_ M3]; try lia.
  rewrite E1, E2, E3, E4, E5, E6, EN, M1, M2, M3, !u_lt_of, !uwsub, uwadd by lia.
  split.
  { destruct (Z.ltb_spec (na + nb) (2 ^ 256)), (Z.leb_spec nb nd); split; intros E; try discriminate; injection E as E.
    - apply uof_inj in E; [|lia|lia]. do 2 f_equal. lia.
    - apply uof_inj in E; [|lia|lia]. do 2 f_equal. lia.
    - apply uof_inj in E; lia.
    - apply uof_inj in E; lia. }
  split; [destruct (Z.leb_spec nb na), (Z.ltb_spec na nb); split; intros; try discriminate; try reflexivity; lia|].
  split; [destruct (Z.ltb_spec (na + nb) (2 ^ 256)), (Z.ltb_spec (2 ^ 256 - 1 - na) nb); split; intros; try discriminate; try reflexivity; lia|].
  unfold clamp_u, MAXU. split; [f_equal; lia|]. split; [f_equal; lia|]. do 2 f_equal. lia.
Qed.
Lemma i_checked_laws c a b d : wf_i a -> wf_i b -> wf_i d ->
  (i_checked_add c a b = Some d <-> i_checked_sub c d b = Some a) /\
  i_abs_diff c a b = u_wrapping_sub c (i_as_u256 (i_max c a b)) (i_as_u256 (i_min c a b)) /\
  (i_checked_sub c a b = None <-> u_lt c (i_as_u256 (I256_MAX c)) (i_abs_diff c a b) = true /\
     (i_lt c b a = true \/ i_wrapping_sub c a b <> I256_MIN c)).
Proof.
  intros Ha Hb Hd. on_i c a. on_i c b. on_i c d.
  destruct (i_add_of' c na nb) as (E1 & E2 & E3 & E4 & E5); try lia.
  destruct (i_add_of' c nd nb) as (_ & _ & E6 & _ & _); try lia.
  destruct (i_max_of c na nb) as [M1 M2]; try lia.
  rewrite E1, E3, E5, E6, M1, M2, (I256_MAX_of c), (I256_MIN_of c), !i_as_u256_of, !uwsub, iwsub, u_lt_of, i_lt_of by lia.
  rewrite !in_i_256. repeat split.
  - intros E. destruct (Z.leb_spec (- 2 ^ 255) (na + nb)), (Z.ltb_spec (na + nb) (2 ^ 255)); try discriminate. injection E as E.
    apply iof_inj in E; [|lia|lia]. replace (nd - nb) with na by lia.
    replace ((- 2 ^ 255 <=? na) && (na <? 2 ^ 255)) with true by lia. reflexivity.
  - intros E. destruct (Z.leb_spec (- 2 ^ 255) (nd - nb)), (Z.ltb_spec (nd - nb) (2 ^ 255)); try discriminate. injection E as E.
    apply iof_inj in E; [|lia|lia]. replace (na + nb) with nd by lia.
    replace ((- 2 ^ 255 <=? nd) && (nd <? 2 ^ 255)) with true by lia. reflexivity.
  - f_equal. lia.
  - destruct (Z.leb_spec (- 2 ^ 255) (na - nb)), (Z.ltb_spec (na - nb) (2 ^ 255)); try discriminate; lia.
  - destruct (Z.leb_spec (- 2 ^ 255) (na - nb)), (Z.ltb_spec (na - nb) (2 ^ 255)); try discriminate; [left; lia| |lia].
    right. intros E. assert (X : ival c (iof c (na - nb)) = - 2 ^ 255) by (rewrite E; apply ival_of_small; lia).
    rewrite <- (iof_cong c (na - nb + 2 ^ 256) (na - nb)), ival_of_small in X; [lia|lia|].
    replace (na - nb + 2 ^ 256) with (na - nb + 1 * 2 ^ 256) by lia. apply Z.mod_add. lia.
  - intros [L [G|N]].
    + destruct (Z.ltb_spec (na - nb) (2 ^ 255)); [lia|]. rewrite andb_false_r. reflexivity.
    + destruct (Z.leb_spec (- 2 ^ 255) (na - nb)), (Z.ltb_spec (na - nb) (2 ^ 255)); cbn [andb]; try reflexivity.
      exfalso. apply N. f_equal. lia.
Qed.
Lemma u_monotone c a b d : wf_u a -> wf_u b -> wf_u d -> u_le c a b = true ->
  u_le c (u_saturating_add c a d) (u_saturating_add c b d) = true /\
  u_le c (u_saturating_sub c a d) (u_saturating_sub c b d) = true /\
  u_le c (u_saturating_sub c d b) (u_saturating_sub c d a) = true.
Proof.
  intros Ha Hb Hd. on_u c a. on_u c b. on_u c d. rewrite u_le_of by lia. intros L.
  destruct (u_add_of' c na nd) as (_ & E1 & _ & E2 & _); try lia.
  destruct (u_add_of' c nb nd) as (_ & E3 & _ & E4 & _); try lia.
  destruct (u_add_of' c nd na) as (_ & _ & _ & E5 & _); try lia.
  destruct (u_add_of' c nd nb) as (_ & _ & _ & E6 & _); try lia.
  rewrite E1, E2, E3, E4, E5, E6, !u_le_of by apply clamp_u_range. unfold clamp_u, MAXU. lia.
Qed.
Lemma i_monotone c a b d : wf_i a -> wf_i b -> wf_i d -> i_le c a b = true ->
  i_le c (i_saturating_add c a d) (i_saturating_add c b d) = true /\
  i_le c (i_saturating_sub c a d) (i_saturating_sub c b d) = true /\
  i_le c (i_saturating_sub c d b) (i_saturating_sub c d a) = true.
Proof.
  intros Ha Hb Hd. on_i c a. on_i c b. on_i c d. rewrite i_le_of by lia. intros L.
  destruct (i_add_of' c na nd) as (_ & E1 & _ & E2 & _); try lia.
  destruct (i_add_of' c nb nd) as (_ & E3 & _ & E4 & _); try lia.
  destruct (i_add_of' c nd na) as (_ & _ & _ & E5 & _); try lia.
  destruct (i_add_of' c nd nb) as (_ & _ & _ & E6 & _); try lia.
  rewrite E1, E2, E3, E4, E5, E6, !i_le_of by apply clamp_i_range. unfold clamp_i, MINI, MAXI. lia.
Qed.
