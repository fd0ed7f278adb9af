(** * The fuzzing target: proofs of C69 *)

From Coq Require Import ZArith List String Bool Lia ZifyBool.
Import ListNotations.
From Verif Require Import M_Prim M_Words M_Intr M_Div M_Mul M_Ops M_UintApi M_IntApi M_Fuzz
  Spec Spec_Bits Spec_Fuzz
  P_Words P_AddSub P_Bits P_Mul P_Div P_DivKnuth P_IntDiv P_Ops P_Uint P_Int P_Bytes P_BuildsBase.
Open Scope Z_scope.
Local Notation length := List.length.

Lemma digits_nth fuel : forall m i, 0 <= m < 2 ^ (64 * Z.of_nat fuel) ->
  nth i (u64_digits fuel m) 0 = (m / 2 ^ (64 * Z.of_nat i)) mod 2 ^ 64.
Proof.
  induction fuel as [|fuel IH]; intros m i H.
  - cbn in H. assert (m = 0) as -> by lia. destruct i; cbn [u64_digits nth]; rewrite Z.div_0_l; try reflexivity; apply Z.pow_nonzero; lia.
  - cbn [u64_digits]. destruct (Z.eqb_spec m 0) as [->|N].
    { destruct i; cbn [nth]; rewrite Z.div_0_l; try reflexivity; apply Z.pow_nonzero; lia. }
    destruct i as [|i]; cbn [nth]; [change (64 * Z.of_nat 0) with 0; rewrite Z.pow_0_r, Z.div_1_r; reflexivity|].
    rewrite IH.
    + rewrite Z.div_div by (try apply Z.pow_pos_nonneg; lia). rewrite <- Z.pow_add_r by lia.
      replace (64 + 64 * Z.of_nat i) with (64 * Z.of_nat (S i)) by lia. reflexivity.
    + split; [apply Z.div_pos; lia|]. apply Z.div_lt_upper_bound; [lia|]. rewrite <- Z.pow_add_r by lia.
      replace (64 + 64 * Z.of_nat fuel) with (64 * Z.of_nat (S fuel)) by lia. lia.
Qed.
Lemma digits_len fuel : forall m k, 0 <= m < 2 ^ (64 * Z.of_nat fuel) ->
  Nat.ltb k (length (u64_digits fuel m)) = (2 ^ (64 * Z.of_nat k) <=? m).
Proof.
  induction fuel as [|fuel IH]; intros m k H.
  - cbn in H. assert (m = 0) as -> by lia. assert (0 < 2 ^ (64 * Z.of_nat k)) by (apply Z.pow_pos_nonneg; lia).
    cbn [u64_digits length]. destruct k; cbn [Nat.ltb Nat.leb]; symmetry; apply Z.leb_gt; lia.
  - cbn [u64_digits]. assert (P : 0 < 2 ^ (64 * Z.of_nat k)) by (apply Z.pow_pos_nonneg; lia).
    destruct (Z.eqb_spec m 0) as [->|N].
    { cbn [length]. destruct k; cbn [Nat.ltb Nat.leb]; symmetry; apply Z.leb_gt; lia. }
    cbn [length]. destruct k as [|k].
    { change (64 * Z.of_nat 0) with 0. rewrite Z.pow_0_r. cbn [Nat.ltb Nat.leb]. symmetry. apply Z.leb_le. lia. }
    change (Nat.ltb (S k) (S ?n)) with (Nat.ltb k n). rewrite IH.
    + replace (64 * Z.of_nat (S k)) with (64 * Z.of_nat k + 64) by lia. rewrite Z.pow_add_r by lia.
      assert (Q : 0 < 2 ^ (64 * Z.of_nat k)) by (apply Z.pow_pos_nonneg; lia).
      apply Bool.eq_true_iff_eq. rewrite !Z.leb_le. split; intros L.
      * apply (Z.mul_le_mono_nonneg_r _ _ (2 ^ 64)) in L; [|lia]. pose proof (Z.mul_div_le m (2 ^ 64)). lia.
      * apply Z.div_le_lower_bound; lia.
    + split; [apply Z.div_pos; lia|]. apply Z.div_lt_upper_bound; [lia|]. rewrite <- Z.pow_add_r by lia.
      replace (64 + 64 * Z.of_nat fuel) with (64 * Z.of_nat (S fuel)) by lia. lia.
Qed.
Lemma digits_fuel m : 0 <= m -> 0 <= m < 2 ^ (64 * Z.of_nat (S (Z.to_nat (Z.log2 m)))).
Proof.
  intros H. split; [assumption|]. pose proof (Z.log2_nonneg m).
  destruct (Z.eq_dec m 0) as [->|N]; [apply Z.pow_pos_nonneg; lia|].
  pose proof (Z.log2_spec m ltac:(lia)) as [_ L]. eapply Z.lt_le_trans; [exact L|]. apply Z.pow_le_mono_r; lia.
Qed.
Lemma iter_nth n i : nth i (iter_u64_digits n) 0 = (Z.abs n / 2 ^ (64 * Z.of_nat i)) mod 2 ^ 64.
Proof. apply digits_nth, digits_fuel. lia. Qed.
Lemma iter_more n : Nat.ltb 4 (length (iter_u64_digits n)) = (2 ^ 256 <=? Z.abs n).
Proof. unfold iter_u64_digits. rewrite digits_len by (apply digits_fuel; lia). reflexivity. Qed.

Lemma join64_ok c h l : 0 <= h < 2 ^ 64 -> 0 <= l < 2 ^ 64 -> join64 c h l = Ret (h * 2 ^ 64 + l).
Proof.
  intros H L. unfold join64, as_u. rewrite (Z.mod_small h), (Z.mod_small l) by lia.
  unfold u_shl. change ((0 <=? 64) && (64 <? 128)) with true. cbv iota. cbn [bind].
  rewrite Z.shiftl_mul_pow2 by lia. rewrite (Z.mod_small (h * 2 ^ 64)) by lia. unfold u_add.
  destruct (Z.ltb_spec (h * 2 ^ 64 + l) (2 ^ 128)); [reflexivity|lia].
Qed.
Lemma halves m : 0 <= m ->
  (m / 2 ^ 192) mod 2 ^ 64 * 2 ^ 64 + (m / 2 ^ 128) mod 2 ^ 64 = m mod 2 ^ 256 / 2 ^ 128 /\
  (m / 2 ^ 64) mod 2 ^ 64 * 2 ^ 64 + m mod 2 ^ 64 = m mod 2 ^ 256 mod 2 ^ 128.
Proof.
  intros H. split.
  - change (2 ^ 192) with (2 ^ 128 * 2 ^ 64). rewrite <- Z.div_div by lia.
    assert (E : m mod 2 ^ 256 / 2 ^ 128 = (m / 2 ^ 128) mod 2 ^ 128) by zz. rewrite E.
    generalize (m / 2 ^ 128). intros q. zz.
  - assert (E : m mod 2 ^ 256 mod 2 ^ 128 = m mod 2 ^ 128) by zz. rewrite E. zz.
Qed.
Lemma nibbles_words c n :
  let digit i := nth i (iter_u64_digits n) 0 in
  join64 c (digit 3%nat) (digit 2%nat) = Ret (Z.abs n mod 2 ^ 256 / 2 ^ 128) /\
  join64 c (digit 1%nat) (digit 0%nat) = Ret (Z.abs n mod 2 ^ 256 mod 2 ^ 128).
Proof.
  cbv beta zeta. rewrite !iter_nth.
  change (64 * Z.of_nat 3) with 192. change (64 * Z.of_nat 2) with 128. change (64 * Z.of_nat 1) with 64. change (64 * Z.of_nat 0) with 0.
  rewrite Z.pow_0_r, Z.div_1_r. destruct (halves (Z.abs n) ltac:(lia)) as [E1 E2].
  rewrite !join64_ok by (apply Z.mod_pos_bound; lia). rewrite E1, E2. auto.
Qed.

Lemma u_reference c n : from_bigint (u_int c) n = Ret (uof c n, negb (in_u 256 n)).
Proof.
  unfold from_bigint. cbv beta zeta. cbn [from_nibbles u_int nth int_neg].
  destruct (nibbles_words c n) as [E1 E2]. cbv beta zeta in E1, E2. rewrite E1, E2. cbn [bind].
  rewrite iter_more. set (m := Z.abs n).
  assert (M : 0 <= m mod 2 ^ 256 < 2 ^ 256) by (apply Z.mod_pos_bound; lia).
  rewrite u_from_words_of by zz.
  replace (m mod 2 ^ 256 / 2 ^ 128 * 2 ^ 128 + m mod 2 ^ 256 mod 2 ^ 128) with (m mod 2 ^ 256) by zz.
  rewrite u_cmp_prim_of, is_lt_cmp by lia. replace (m mod 2 ^ 256 <? 0) with false by lia.
  destruct (Z.ltb_spec n 0) as [L|L].
  - rewrite u_overflowing_neg_of by assumption. cbn [bind]. rewrite xorb_false_l. f_equal. f_equal.
    + apply uof_cong. subst m. rewrite Z.abs_neq by lia. zz.
    + rewrite !in_u_256. subst m. rewrite Z.abs_neq in * by lia.
      destruct (Z.leb_spec (2 ^ 256) (- n)); cbn [orb]; [lia|]. rewrite Z.mod_small by lia. lia.
  - rewrite orb_false_r. f_equal. f_equal.
    + apply uof_cong. subst m. rewrite Z.abs_eq by lia. apply Z.mod_mod. lia.
    + rewrite in_u_256. subst m. rewrite Z.abs_eq by lia. lia.
Qed.
Lemma as_i_pattern c v : 0 <= v < 2 ^ 256 -> i_from_words c (as_i 128 (v / 2 ^ 128)) (as_i 128 (v mod 2 ^ 128)) = iof c v.
Proof.
  intros H. rewrite !as_i_wrap by lia.
  assert (0 <= v / 2 ^ 128 < 2 ^ 128) by zz. assert (0 <= v mod 2 ^ 128 < 2 ^ 128) by zz.
  unfold iof, i_from_words. rewrite (Z.mod_small v (2 ^ 256)) by assumption. reflexivity.
Qed.
Lemma i_reference c n : from_bigint (i_int c) n = Ret (iof c n, negb (in_i 256 n)).
Proof.
  unfold from_bigint. cbv beta zeta. cbn [from_nibbles i_int nth int_neg].
  destruct (nibbles_words c n) as [E1 E2]. cbv beta zeta in E1, E2. rewrite E1, E2. cbn [bind].
  rewrite iter_more. set (m := Z.abs n).
  assert (M : 0 <= m mod 2 ^ 256 < 2 ^ 256) by (apply Z.mod_pos_bound; lia).
  rewrite as_i_pattern by assumption.
  destruct (i_cmp_prim_family c (iof c (m mod 2 ^ 256)) 0 (wf_iof _ _) ltac:(lia)) as (_ & _ & -> & _).
  rewrite is_lt_cmp, ival_iof.
  destruct (ineg_family c (iof c (m mod 2 ^ 256)) (wf_iof _ _)) as (_ & -> & _). rewrite ival_iof.
  unfold wrap_i. change (256 - 1) with 255.
  destruct (Z.ltb_spec n 0) as [L|L].
  - cbn [bind]. f_equal. f_equal.
    + apply iof_cong. subst m. rewrite Z.abs_neq by lia. zz.
    + rewrite !in_i_256. subst m. rewrite Z.abs_neq in * by lia.
      destruct (Z.leb_spec (2 ^ 256) (- n)); cbn [orb]; [lia|]. rewrite !(Z.mod_small (- n)) by lia. zz.
  - f_equal. f_equal.
    + apply iof_cong. subst m. rewrite Z.abs_eq by lia. apply Z.mod_mod. lia.
    + rewrite in_i_256. subst m. rewrite Z.abs_eq by lia.
      destruct (Z.leb_spec (2 ^ 256) n); cbn [orb]; [lia|]. rewrite !(Z.mod_small n) by lia. zz.
Qed.

Lemma signed_bytes l s : length l = 32%nat -> In s [0; 255] ->
  from_signed_bytes_le (l ++ [s]) = of_le_bytes l - (if s =? 255 then 2 ^ 256 else 0).
Proof.
  intros L S. unfold from_signed_bytes_le. rewrite app_length, L. cbn [length Nat.add Nat.sub].
  rewrite app_nth2 by lia. rewrite L. cbn [Nat.sub nth].
  rewrite !of_le_bytes_value.
  rewrite value_le_app, L. change (value_le [s]) with (s + 256 * 0). change (256 ^ Z.of_nat 32) with (2 ^ 256). change (8 * Z.of_nat 33) with 264.
  cbv beta zeta.
  destruct S as [<-|[<-|[]]];
    [change (128 <=? 0) with false; change (0 =? 255) with false|change (128 <=? 255) with true; change (255 =? 255) with true];
    cbv iota; rewrite (of_le_bytes_value l); lia.
Qed.
Lemma u_to_big c x : wf_u x -> to_bigint (u_int c) x = uval c x.
Proof.
  intros X. unfold to_bigint. cbn [u_int int_le]. on_u c x.
  destruct (u_bytes_of c nx) as (-> & _). rewrite u_cmp_prim_of, is_lt_cmp by lia.
  replace (nx <? 0) with false by lia. rewrite signed_bytes by (try apply le_bytes_length; cbn; auto).
  rewrite of_le_bytes_value, value_le_bytes. change (256 ^ Z.of_nat 32) with (2 ^ 256). cbn [Z.eqb].
  rewrite Z.mod_small by lia. lia.
Qed.
Lemma i_to_big c x : wf_i x -> to_bigint (i_int c) x = ival c x.
Proof.
  intros X. unfold to_bigint. cbn [i_int int_le]. on_i c x.
  destruct (i_bytes_nums c nx) as (-> & _). rewrite i_cmp_prim_of, is_lt_cmp by lia.
  rewrite signed_bytes by (try apply le_bytes_length; destruct (nx <? 0); cbn; auto).
  rewrite of_le_bytes_value, value_le_bytes. change (256 ^ Z.of_nat 32) with (2 ^ 256).
  destruct (Z.ltb_spec nx 0); cbn [Z.eqb Pos.eqb]; zz.
Qed.

Lemma num_u_range n : num_ok n -> 0 <= num_u n < 2 ^ 256.
Proof. intros [H L]. unfold num_u. lia. Qed.
Lemma num_i_range n : num_ok n -> - 2 ^ 255 <= num_i n < 2 ^ 255.
Proof. intros H. unfold num_i, wrap_i. change (256 - 1) with 255. zz. Qed.
Lemma num_u256 c n : num_ok n -> num_as_u256 c n = uof c (num_u n).
Proof. intros [H L]. apply u_from_words_of; assumption. Qed.
Lemma num_i256 c n : num_ok n -> num_as_i256 c n = iof c (num_i n).
Proof.
  intros H. unfold num_i. rewrite iof_wrap, <- as_i_pattern by (apply num_u_range; assumption).
  destruct H as [H L]. unfold num_as_i256, num_u. rewrite Z.div_add_l, (Z.div_small (num_lo n)), Z.add_0_r by lia.
  rewrite Z.add_comm, Z.mod_add, (Z.mod_small (num_lo n)) by lia. reflexivity.
Qed.
Lemma zero_num n : num_ok n -> num_eqb n NUM_ZERO = (num_u n =? 0).
Proof. intros [H L]. unfold num_eqb, num_u. cbn [NUM_ZERO num_hi num_lo]. lia. Qed.
Lemma imin_num n : num_ok n -> num_eqb n NUM_IMIN = (num_i n =? MINI).
Proof.
  intros [H L]. unfold num_eqb, num_i, num_u, wrap_i, MINI. cbn [NUM_IMIN num_hi num_lo]. change (256 - 1) with 255.
  change (as_u 128 (- 2 ^ 127)) with (2 ^ 127). zz.
Qed.
Lemma umax_num n : num_ok n -> num_eqb n NUM_UMAX = (num_i n =? -1).
Proof.
  intros [H L]. unfold num_eqb, num_i, num_u, wrap_i. cbn [NUM_UMAX num_hi num_lo]. change (256 - 1) with 255. zz.
Qed.
Lemma zero_i n : num_ok n -> (num_i n =? 0) = (num_u n =? 0).
Proof. intros [H L]. unfold num_i, num_u, wrap_i. change (256 - 1) with 255. zz. Qed.

Lemma same_u c v b : assert_same (u_eq c) (Ret (uof c v, b)) (Ret (uof c v, b)) = Ret tt.
Proof.
  unfold assert_same. cbn [bind]. rewrite Bool.eqb_reflx, andb_true_r.
  rewrite (uof_cong c v (v mod 2 ^ 256)) by (symmetry; apply Z.mod_mod; lia).
  rewrite u_eq_of, Z.eqb_refl by (apply Z.mod_pos_bound; lia). reflexivity.
Qed.
Lemma i_eq_refl c v : i_eq c (iof c v) (iof c v) = true.
Proof.
  rewrite <- (iof_wrap c v). rewrite i_eq_of, Z.eqb_refl; [reflexivity|unfold wrap_i; change (256 - 1) with 255; zz..].
Qed.
Lemma same_i c v b : assert_same (i_eq c) (Ret (iof c v, b)) (Ret (iof c v, b)) = Ret tt.
Proof. unfold assert_same. cbn [bind]. rewrite Bool.eqb_reflx, i_eq_refl. reflexivity. Qed.

Lemma quot_fits a b : - 2 ^ 255 <= a < 2 ^ 255 -> - 2 ^ 255 <= b < 2 ^ 255 -> b <> 0 ->
  in_i 256 (Z.quot a b) = negb ((a =? MINI) && (b =? -1)).
Proof.
  intros A B N. rewrite in_i_256. unfold MINI.
  destruct (Z.eqb_spec a (- 2 ^ 255)) as [->|NA].
  - destruct (Z.eqb_spec b (-1)) as [->|NB]; [reflexivity|]. cbn [andb negb].
    assert (Z.abs (Z.quot (- 2 ^ 255) b) <= 2 ^ 255) by (rewrite <- Z.quot_abs by assumption; apply Z.quot_le_upper_bound; lia).
    assert (Z.quot (- 2 ^ 255) b <> 2 ^ 255).
    { intros E. pose proof (Z.quot_rem' (- 2 ^ 255) b). pose proof (Z.rem_bound_abs (- 2 ^ 255) b N). nia. }
    lia.
  - cbn [andb negb]. assert (Z.abs (Z.quot a b) <= Z.abs a).
    { rewrite <- Z.quot_abs by assumption. apply Z.quot_le_upper_bound; [lia|]. nia. }
    lia.
Qed.
Lemma rem_fits a b : - 2 ^ 255 <= a < 2 ^ 255 -> - 2 ^ 255 <= b < 2 ^ 255 -> b <> 0 -> in_i 256 (Z.rem a b) = true.
Proof.
  intros A B N. rewrite in_i_256. pose proof (Z.rem_bound_abs a b N). lia.
Qed.
Lemma u_ref c f a b : wf_u a -> wf_u b ->
  reference (u_int c) f a b = Ret (uof c (f (uval c a) (uval c b)), negb (in_u 256 (f (uval c a) (uval c b)))).
Proof. intros A B. unfold reference. rewrite !u_to_big by assumption. apply u_reference. Qed.
Lemma i_ref c f a b : wf_i a -> wf_i b ->
  reference (i_int c) f a b = Ret (iof c (f (ival c a) (ival c b)), negb (in_i 256 (f (ival c a) (ival c b)))).
Proof. intros A B. unfold reference. rewrite !i_to_big by assumption. apply i_reference. Qed.

(** All the reference functions are exact. *)
Lemma references c f n a b x y : wf_u a -> wf_u b -> wf_i x -> wf_i y ->
  to_bigint (u_int c) a = uval c a /\ to_bigint (i_int c) x = ival c x /\
  from_bigint (u_int c) n = Ret (uof c n, negb (in_u 256 n)) /\
  from_bigint (i_int c) n = Ret (iof c n, negb (in_i 256 n)) /\
  (let v := f (uval c a) (uval c b) in reference (u_int c) f a b = Ret (uof c v, negb (in_u 256 v))) /\
  (let v := f (ival c x) (ival c y) in reference (i_int c) f x y = Ret (iof c v, negb (in_i 256 v))).
Proof.
  intros A B X Y. repeat apply conj; cbv beta zeta; auto using u_to_big, i_to_big, u_reference, i_reference, u_ref, i_ref.
Qed.

Lemma u_ops_all c o : fop_ok o ->
  match o with
  | F_div _ b | F_rem _ b => if num_u b =? 0 then panics (u_ops c o) else u_ops c o = Ret tt
  | _ => u_ops c o = Ret tt
  end.
Proof.
  destruct o as [a b|a b|a b|a b|a b]; intros [A B]; unfold u_ops; rewrite !num_u256 by assumption;
    pose proof (num_u_range a A) as RA; pose proof (num_u_range b B) as RB;
    rewrite u_ref, !uval_of_small by auto using wf_uof.
  - rewrite u_overflowing_add_of by assumption. apply same_u.
  - rewrite u_overflowing_sub_of by assumption. apply same_u.
  - rewrite u_overflowing_mul_of by assumption. apply same_u.
  - unfold u_overflowing_div, u_wrapping_div, res_map. rewrite u_op_div_of by assumption.
    destruct (Z.eqb_spec (num_u b) 0); [eexists; reflexivity|]. cbn [bind].
    rewrite Z.quot_div_nonneg by lia. replace (in_u 256 (num_u a / num_u b)) with true; [apply same_u|].
    symmetry. rewrite in_u_256. assert (0 <= num_u a / num_u b <= num_u a); [|lia].
    split; [apply Z.div_pos; lia|apply Z.div_le_upper_bound; nia].
  - unfold u_overflowing_rem, u_wrapping_rem, res_map. rewrite u_op_rem_of by assumption.
    destruct (Z.eqb_spec (num_u b) 0); [eexists; reflexivity|]. cbn [bind].
    rewrite Z.rem_mod_nonneg by lia. replace (in_u 256 (num_u a mod num_u b)) with true; [apply same_u|].
    symmetry. rewrite in_u_256. pose proof (Z.mod_pos_bound (num_u a) (num_u b)). lia.
Qed.
Lemma i_ops_all c o : fop_ok o ->
  match o with
  | F_div _ b => if num_u b =? 0 then panics (i_ops c o) else i_ops c o = Ret tt
  | F_rem a b => if (num_u b =? 0) || ((num_i a =? MINI) && (num_i b =? -1)) then panics (i_ops c o) else i_ops c o = Ret tt
  | _ => i_ops c o = Ret tt
  end.
Proof.
  destruct o as [a b|a b|a b|a b|a b]; intros [A B]; unfold i_ops; rewrite !num_i256 by assumption;
    pose proof (num_i_range a A) as RA; pose proof (num_i_range b B) as RB;
    rewrite i_ref, !ival_of_small by auto using wf_iof.
  - rewrite i_overflowing_add_of by assumption. apply same_i.
  - rewrite i_overflowing_sub_of by assumption. apply same_i.
  - rewrite i_overflowing_mul_of by assumption. apply same_i.
  - pose proof (idiv_family c (iof c (num_i a)) (iof c (num_i b)) (wf_iof _ _) (wf_iof _ _)) as F. cbv beta zeta in F.
    rewrite !ival_of_small in F by assumption. rewrite <- zero_i by assumption.
    destruct (num_i b =? 0); [destruct F as (_ & -> & _); eexists; reflexivity|].
    destruct F as (_ & _ & -> & _). apply same_i.
  - pose proof (idiv_family c (iof c (num_i a)) (iof c (num_i b)) (wf_iof _ _) (wf_iof _ _)) as F. cbv beta zeta in F.
    rewrite !ival_of_small in F by assumption. rewrite <- zero_i by assumption.
    destruct (Z.eqb_spec (num_i b) 0) as [Z0|N]; [destruct F as (_ & _ & _ & -> & _); eexists; reflexivity|].
    destruct F as (_ & _ & _ & -> & _). rewrite rem_fits, quot_fits by assumption. cbn [orb negb].
    destruct ((num_i a =? MINI) && (num_i b =? -1)); [|apply same_i].
    unfold assert_same. cbn [bind negb Bool.eqb]. rewrite andb_false_r. eexists; reflexivity.
Qed.

Lemma interesting_iff t : target_ok t -> is_interesting t = true <-> ~ left_out t.
Proof.
  destruct t as [o|o]; destruct o as [a b|a b|a b|a b|a b]; intros [A B]; cbn [is_interesting left_out];
    rewrite ?zero_num, ?imin_num, ?umax_num by assumption; try tauto;
    try (destruct (Z.eqb_spec (num_u b) 0); split; intros; try tauto; congruence).
  - destruct (Z.eqb_spec (num_u b) 0); [split; [discriminate|tauto]|].
    destruct (Z.eqb_spec (num_i a) MINI), (Z.eqb_spec (num_i b) (-1)); cbn [andb negb]; intuition congruence.
Qed.
Lemma fuzz_ok c t : target_ok t -> fuzz c t = Ret tt.
Proof.
  intros H. unfold fuzz. destruct (is_interesting t) eqn:I; [|reflexivity].
  pose proof (proj1 (interesting_iff t H) I) as L.
  destruct t as [o|o]; cbn [target_ok] in H.
  - pose proof (i_ops_all c o H) as K. destruct o; cbn [left_out] in L; try exact K.
    + rewrite (proj2 (Z.eqb_neq _ _)) in K by exact L. exact K.
    + replace ((num_u b =? 0) || (num_i a =? MINI) && (num_i b =? -1)) with false in K by lia. exact K.
  - pose proof (u_ops_all c o H) as K. destruct o; cbn [left_out] in L; try exact K;
      rewrite (proj2 (Z.eqb_neq _ _)) in K by exact L; exact K.
Qed.
Lemma fuzz_left_out c t : target_ok t -> (is_interesting t = false <-> left_out t) /\ (left_out t <-> panics (checks c t)).
Proof.
  intros H. pose proof (interesting_iff t H) as I. split.
  - assert (D : left_out t \/ ~ left_out t) by (destruct t as [[]|[]]; cbn [left_out]; lia).
    destruct (is_interesting t); split; intros; try congruence; try tauto.
    destruct D as [D|D]; [exact D|]. apply I in D. discriminate.
  - destruct t as [o|o]; cbn [target_ok checks] in *.
    + pose proof (i_ops_all c o H) as K. destruct o; cbn [left_out];
        try (rewrite K; split; [tauto|intros [? ?]; discriminate]).
      * destruct (Z.eqb_spec (num_u b) 0); [tauto|]. rewrite K. split; [tauto|intros [? ?]; discriminate].
      * destruct ((num_u b =? 0) || (num_i a =? MINI) && (num_i b =? -1)) eqn:E; [split; [auto|lia]|].
        rewrite K. split; [lia|intros [? ?]; discriminate].
    + pose proof (u_ops_all c o H) as K. destruct o; cbn [left_out];
        try (rewrite K; split; [tauto|intros [? ?]; discriminate]);
        (destruct (Z.eqb_spec (num_u b) 0); [tauto|]; rewrite K; split; [tauto|intros [? ?]; discriminate]).
Qed.
