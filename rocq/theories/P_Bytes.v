(** * Byte and bit permutations, byte arrays, comparison, hashing *)

From Coq Require Import ZArith String List Bool Lia ZifyBool.
Import ListNotations.
From Verif Require Import M_Prim M_Words M_Intr M_Div M_Mul M_Ops M_UintApi M_IntApi Spec Spec_Bits
  P_Words P_AddSub P_Bits P_Forms P_BitsApi.
Open Scope Z_scope.

(** ** Digit lists *)
Lemma le_bytes_length n v : length (le_bytes n v) = n.
Proof. revert v. induction n; intros; cbn [le_bytes length]; auto. Qed.
Lemma le_bytes_range n v : Forall (fun b => 0 <= b < 256) (le_bytes n v).
Proof. revert v. induction n; intros; cbn [le_bytes]; constructor; auto. apply Z.mod_pos_bound; lia. Qed.
Lemma of_le_bytes_value l : of_le_bytes l = value_le l.
Proof. induction l; cbn [of_le_bytes value_le fold_right]; [reflexivity|]. rewrite IHl. reflexivity. Qed.
Lemma value_le_range l : Forall (fun b => 0 <= b < 256) l -> 0 <= value_le l < 256 ^ Z.of_nat (length l).
Proof.
  induction 1; cbn [value_le fold_right length]; [cbn; lia|]. fold (value_le l).
  rewrite Nat2Z.inj_succ, Z.pow_succ_r by lia. lia.
Qed.
Lemma value_le_bytes n v : value_le (le_bytes n v) = v mod 256 ^ Z.of_nat n.
Proof.
  revert v. induction n as [|n IH]; intros v.
  - cbn. rewrite Z.mod_1_r. reflexivity.
  - cbn [le_bytes value_le fold_right]. fold (value_le (le_bytes n (v / 256))). rewrite IH.
    rewrite Nat2Z.inj_succ, Z.pow_succ_r, Z.rem_mul_r by lia. reflexivity.
Qed.
Lemma le_bytes_value l : Forall (fun b => 0 <= b < 256) l -> le_bytes (length l) (value_le l) = l.
Proof.
  induction 1 as [|b l Hb Hl IH]; cbn [length le_bytes value_le fold_right]; [reflexivity|]. fold (value_le l).
  replace (b + 256 * value_le l) with (b + value_le l * 256) by lia.
  rewrite Z.mod_add, Z.mod_small, Z.div_add, Z.div_small, Z.add_0_l, IH by lia. reflexivity.
Qed.
Lemma le_bytes_app n m v : le_bytes (n + m) v = le_bytes n v ++ le_bytes m (v / 256 ^ Z.of_nat n).
Proof.
  revert v. induction n as [|n IH]; intros v; cbn [Nat.add le_bytes app].
  - cbn. rewrite Z.div_1_r. reflexivity.
  - rewrite IH, Nat2Z.inj_succ, Z.pow_succ_r, Z.div_div by lia. reflexivity.
Qed.
Lemma le_bytes_mod n v : le_bytes n (v mod 256 ^ Z.of_nat n) = le_bytes n v.
Proof.
  rewrite <- value_le_bytes. rewrite <- (le_bytes_length n v) at 1. apply le_bytes_value, le_bytes_range.
Qed.
Lemma value_le_app a b : value_le (a ++ b) = value_le a + 256 ^ Z.of_nat (length a) * value_le b.
Proof.
  induction a as [|x a IH]; cbn [app value_le fold_right length].
  - change (Z.of_nat 0) with 0. rewrite Z.pow_0_r, Z.mul_1_l. reflexivity.
  - fold (value_le (a ++ b)) (value_le a). rewrite IH, Nat2Z.inj_succ, Z.pow_succ_r by lia. ring.
Qed.
Lemma le_bytes_digits n v : le_bytes n v = map (fun i => byte v (Z.of_nat i)) (seq 0 n).
Proof.
  revert v. induction n as [|n IH]; intros v; [reflexivity|].
  cbn [le_bytes seq map]. f_equal.
  - unfold byte. change (8 * Z.of_nat 0) with 0. rewrite Z.pow_0_r, Z.div_1_r. reflexivity.
  - rewrite IH, <- seq_shift, map_map. apply map_ext. intros i. unfold byte.
    rewrite Z.div_div by (try lia; apply Z.pow_pos_nonneg; lia). f_equal. f_equal.
    change 256 with (2 ^ 8). rewrite <- Z.pow_add_r by lia. f_equal. lia.
Qed.
Lemma p16 : 256 ^ Z.of_nat 16 = 2 ^ 128. Proof. reflexivity. Qed.
Lemma p32 : 256 ^ Z.of_nat 32 = 2 ^ 256. Proof. reflexivity. Qed.

Lemma value_bytes16 v : 0 <= v < 2 ^ 128 -> of_le_bytes (le_bytes 16 v) = v.
Proof. intros. rewrite of_le_bytes_value, value_le_bytes, p16, Z.mod_small by lia. reflexivity. Qed.

Lemma Forall_rev' {A} (P : A -> Prop) l : Forall P l -> Forall P (rev l).
Proof. intros H. apply Forall_forall. intros x Hx. rewrite Forall_forall in H. apply H. apply in_rev. assumption. Qed.

Lemma swap128_range v : 0 <= swap_bytes_128 v < 2 ^ 128.
Proof.
  unfold swap_bytes_128. rewrite of_le_bytes_value.
  pose proof (value_le_range (rev (le_bytes 16 v)) (Forall_rev' _ _ (le_bytes_range 16 v))) as H.
  rewrite rev_length, le_bytes_length, p16 in H. assumption.
Qed.

Lemma swap128_eq v : swap_bytes_128 v = value_le (rev (le_bytes 16 v)).
Proof. apply of_le_bytes_value. Qed.
Definition swap_num (v : Z) : Z := value_le (rev (le_bytes 32 v)).
Lemma swap_num_words v : swap_num v = swap_bytes_128 (v mod 2 ^ 128) * 2 ^ 128 + swap_bytes_128 ((v / 2 ^ 128) mod 2 ^ 128).
Proof.
  unfold swap_num. rewrite (swap128_eq (v mod 2 ^ 128)), (swap128_eq ((v / 2 ^ 128) mod 2 ^ 128)).
  change 32%nat with (16 + 16)%nat.
  rewrite le_bytes_app, rev_app_distr, value_le_app, rev_length, le_bytes_length.
  rewrite <- p16, !le_bytes_mod. lia.
Qed.
Lemma u_swap_of c v : u_swap_bytes (uof c v) = uof c (swap_num v).
Proof.
  pose proof (swap128_range (v mod 2 ^ 128)). pose proof (swap128_range ((v / 2 ^ 128) mod 2 ^ 128)).
  unfold u_swap_bytes. rewrite swap_num_words. rewrite <- u_from_words_of by lia.
  unfold u_from_words, uof. rewrite hi_mod, lo_mod. destruct (big_endian c); reflexivity.
Qed.
Lemma i_swap_of c v : i_swap_bytes (iof c v) = iof c (swap_num v).
Proof.
  change (i_swap_bytes (iof c v)) with (u_as_i256 (u_swap_bytes (i_as_u256 (iof c v)))).
  rewrite i_as_u256_of, u_swap_of, u_as_i256_of. reflexivity.
Qed.

Lemma nth_le_bytes n v i : (i < n)%nat -> nth i (le_bytes n v) 0 = byte v (Z.of_nat i).
Proof.
  intros. rewrite le_bytes_digits.
  rewrite (nth_indep _ 0 (byte v (Z.of_nat 0))) by (rewrite map_length, seq_length; lia).
  rewrite map_nth with (f := fun j => byte v (Z.of_nat j)), seq_nth by lia. reflexivity.
Qed.
Lemma byte_mod_256 v i : 0 <= i < 32 -> byte (v mod 2 ^ 256) i = byte v i.
Proof.
  intros Hi. rewrite <- (Z2Nat.id i) by lia.
  rewrite <- !(nth_le_bytes 32) by lia. rewrite <- p32, le_bytes_mod. reflexivity.
Qed.
Lemma byte_wrap_256 v i : 0 <= i < 32 -> byte (wrap_i 256 v) i = byte v i.
Proof.
  intros Hi. rewrite <- byte_mod_256, wrap_i_mod, byte_mod_256 by lia. reflexivity.
Qed.
Lemma swap_num_le v : le_bytes 32 (swap_num v) = rev (le_bytes 32 v).
Proof.
  unfold swap_num. rewrite <- (le_bytes_length 32 v) at 1. rewrite <- rev_length at 1.
  apply le_bytes_value, Forall_rev', le_bytes_range.
Qed.
Lemma swap_num_byte v i : 0 <= i < 32 -> byte (swap_num v) i = byte v (31 - i).
Proof.
  intros Hi. rewrite <- (Z2Nat.id i) at 1 by lia. rewrite <- (nth_le_bytes 32), swap_num_le by lia.
  rewrite rev_nth, le_bytes_length by (rewrite le_bytes_length; lia).
  rewrite nth_le_bytes by lia. f_equal. lia.
Qed.
Lemma swap_num_invol v : swap_num (swap_num v) = v mod 2 ^ 256.
Proof.
  unfold swap_num at 1. rewrite swap_num_le, rev_involutive, value_le_bytes, p32. reflexivity.
Qed.

(** ** Bits *)
Lemma le_bits_length n v : length (le_bits n v) = n.
Proof. revert v. induction n; intros; cbn [le_bits length]; auto. Qed.
Lemma of_le_bits_range l : 0 <= of_le_bits l < 2 ^ Z.of_nat (length l).
Proof.
  induction l as [|b l IH]; cbn [of_le_bits length]; [cbn; lia|].
  rewrite Nat2Z.inj_succ, Z.pow_succ_r by lia. destruct b; cbn [Z.b2z]; lia.
Qed.
Lemma of_le_bits_bit l i : (i < length l)%nat -> Z.testbit (of_le_bits l) (Z.of_nat i) = nth i l false.
Proof.
  revert i. induction l as [|b l IH]; intros i Hi; [cbn in Hi; lia|]. cbn [of_le_bits].
  rewrite Z.add_comm. destruct i as [|i].
  - cbn [nth]. destruct b; cbn [Z.b2z].
    + apply Z.testbit_odd_0.
    + rewrite Z.add_0_r. apply Z.testbit_even_0.
  - rewrite Nat2Z.inj_succ. cbn [nth]. cbn [length] in Hi. rewrite <- IH by lia.
    destruct b; cbn [Z.b2z]; [apply Z.testbit_odd_succ; lia|].
    rewrite Z.add_0_r. apply Z.testbit_even_succ. lia.
Qed.
Lemma nth_le_bits n v i : (i < n)%nat -> nth i (le_bits n v) false = Z.testbit v (Z.of_nat i).
Proof.
  revert v i. induction n as [|n IH]; intros v i Hi; [lia|]. destruct i as [|i]; cbn [le_bits nth].
  - symmetry. apply Z.bit0_odd.
  - rewrite IH by lia. change 2 with (2 ^ 1). rewrite testbit_div_pow2 by lia. f_equal. lia.
Qed.
Lemma rev128_range v : 0 <= reverse_bits_128 v < 2 ^ 128.
Proof.
  unfold reverse_bits_128. pose proof (of_le_bits_range (rev (le_bits 128 v))) as H.
  rewrite rev_length, le_bits_length in H. exact H.
Qed.
Lemma rev128_bit v i : 0 <= i < 128 -> Z.testbit (reverse_bits_128 v) i = Z.testbit v (127 - i).
Proof.
  intros Hi. unfold reverse_bits_128. rewrite <- (Z2Nat.id i) at 1 by lia.
  rewrite of_le_bits_bit by (rewrite rev_length, le_bits_length; lia).
  rewrite rev_nth, le_bits_length by (rewrite le_bits_length; lia).
  rewrite nth_le_bits by lia. f_equal. lia.
Qed.

Definition rev_num (v : Z) : Z :=
  reverse_bits_128 (v mod 2 ^ 128) * 2 ^ 128 + reverse_bits_128 ((v / 2 ^ 128) mod 2 ^ 128).
Lemma u_rev_of c v : u_reverse_bits (uof c v) = uof c (rev_num v).
Proof.
  pose proof (rev128_range (v mod 2 ^ 128)). pose proof (rev128_range ((v / 2 ^ 128) mod 2 ^ 128)).
  unfold u_reverse_bits, rev_num. rewrite <- u_from_words_of by lia.
  unfold u_from_words, uof. rewrite hi_mod, lo_mod. destruct (big_endian c); reflexivity.
Qed.
Lemma i_rev_of c v : i_reverse_bits (iof c v) = iof c (rev_num v).
Proof.
  change (i_reverse_bits (iof c v)) with (u_as_i256 (u_reverse_bits (i_as_u256 (iof c v)))).
  rewrite i_as_u256_of, u_rev_of, u_as_i256_of. reflexivity.
Qed.
Lemma rev_num_bit v i : 0 <= i < 256 -> Z.testbit (rev_num v) i = Z.testbit v (255 - i).
Proof.
  intros Hi. unfold rev_num.
  pose proof (rev128_range (v mod 2 ^ 128)) as H1. pose proof (rev128_range ((v / 2 ^ 128) mod 2 ^ 128)) as H2.
  rewrite <- lor_disjoint by lia. rewrite Z.lor_spec, <- Z.shiftl_mul_pow2, Z.shiftl_spec by lia.
  destruct (Z.lt_ge_cases i 128).
  - rewrite Z.testbit_neg_r, rev128_bit, testbit_mod_pow2, testbit_div_pow2 by lia.
    replace (127 - i <? 128) with true by lia. cbn [orb andb]. f_equal. lia.
  - rewrite rev128_bit, testbit_mod_pow2 by lia. replace (127 - (i - 128) <? 128) with true by lia. cbn [andb].
    rewrite <- (Z.mod_small _ (2 ^ 128) H2), (testbit_mod_pow2 (reverse_bits_128 _)) by lia.
    replace (i <? 128) with false by lia. rewrite orb_false_r. f_equal. lia.
Qed.

Lemma permutation_family c x y : wf_u x -> wf_i y ->
  (wf_u (u_reverse_bits x) /\ u_reverse_bits (u_reverse_bits x) = x /\
   forall i, 0 <= i < 256 -> Z.testbit (uval c (u_reverse_bits x)) i = Z.testbit (uval c x) (255 - i)) /\
  (wf_u (u_swap_bytes x) /\ u_swap_bytes (u_swap_bytes x) = x /\
   forall i, 0 <= i < 32 -> byte (uval c (u_swap_bytes x)) i = byte (uval c x) (31 - i)) /\
  (wf_i (i_reverse_bits y) /\ i_reverse_bits (i_reverse_bits y) = y /\
   forall i, 0 <= i < 256 -> Z.testbit (ival c (i_reverse_bits y)) i = Z.testbit (ival c y) (255 - i)) /\
  (wf_i (i_swap_bytes y) /\ i_swap_bytes (i_swap_bytes y) = y /\
   forall i, 0 <= i < 32 -> byte (ival c (i_swap_bytes y)) i = byte (ival c y) (31 - i)).
Proof.
  intros Hx Hy. on_u c x. on_i c y.
  rewrite !u_rev_of, !u_swap_of, !i_rev_of, !i_swap_of, !swap_num_invol.
  assert (HR : forall v, rev_num (rev_num v) mod 2 ^ 256 = v mod 2 ^ 256).
  { intros v. apply mod256_bits. intros i Hi. rewrite !rev_num_bit by lia. f_equal. lia. }
  repeat split; try apply wf_uof; try apply wf_iof.
  - apply uof_cong, HR.
  - intros. rewrite bit_uof, rev_num_bit by lia. reflexivity.
  - apply uof_mod.
  - intros. rewrite uval_uof, byte_mod_256, swap_num_byte by lia. reflexivity.
  - apply iof_cong, HR.
  - intros. rewrite bit_iof, rev_num_bit by lia. reflexivity.
  - apply iof_mod.
  - intros. rewrite ival_iof, byte_wrap_256, swap_num_byte by lia. reflexivity.
Qed.

Lemma endian_family c x y :
  (if big_endian c then u_to_be c x = x /\ u_from_be c x = x /\
                        u_to_le c x = u_swap_bytes x /\ u_from_le c x = u_swap_bytes x
   else u_to_le c x = x /\ u_from_le c x = x /\
        u_to_be c x = u_swap_bytes x /\ u_from_be c x = u_swap_bytes x) /\
  (if big_endian c then i_to_be c y = y /\ i_from_be c y = y /\
                        i_to_le c y = i_swap_bytes y /\ i_from_le c y = i_swap_bytes y
   else i_to_le c y = y /\ i_from_le c y = y /\
        i_to_be c y = i_swap_bytes y /\ i_from_be c y = i_swap_bytes y).
Proof.
  unfold u_to_be, u_from_be, u_to_le, u_from_le, i_to_be, i_from_be, i_to_le, i_from_le.
  destruct (big_endian c); cbn [negb]; auto 10.
Qed.

(** ** Byte arrays *)
Lemma u_to_ne_of c v : u_to_ne_bytes c (uof c v) = if big_endian c then rev (le_bytes 32 v) else le_bytes 32 v.
Proof.
  unfold u_to_ne_bytes, ne_bytes_128, uof. rewrite hi_mod, lo_mod. change 32%nat with (16 + 16)%nat.
  rewrite le_bytes_app, rev_app_distr. rewrite <- p16, !p16.
  destruct (big_endian c); cbn [uw0 uw1]; rewrite <- p16, !le_bytes_mod; reflexivity.
Qed.
Lemma i_to_ne_eq c x : i_to_ne_bytes c x = u_to_ne_bytes c (i_as_u256 x). Proof. reflexivity. Qed.
Lemma i_from_ne_eq c l : i_from_ne_bytes c l = u_as_i256 (u_from_ne_bytes c l). Proof. reflexivity. Qed.

Lemma is_bytes_split l : is_bytes 32 l -> 
  is_bytes 16 (firstn 16 l) /\ is_bytes 16 (skipn 16 l) /\ l = firstn 16 l ++ skipn 16 l.
Proof.
  intros [HL HF]. pose proof (firstn_skipn 16 l) as E. rewrite <- E in HF. apply Forall_app in HF. destruct HF.
  repeat split; auto; [rewrite firstn_length_le; lia|rewrite skipn_length; lia].
Qed.
Lemma of16_range l : is_bytes 16 l -> 0 <= value_le l < 2 ^ 128.
Proof. intros [HL HF]. pose proof (value_le_range l HF) as H. rewrite HL, p16 in H. assumption. Qed.
Lemma is_bytes_rev n l : is_bytes n l -> is_bytes n (rev l).
Proof. intros [H1 H2]. split; [rewrite rev_length; assumption|apply Forall_rev'; assumption]. Qed.
Lemma of_ne_eq c l : of_ne_bytes_128 c l = value_le (if big_endian c then rev l else l).
Proof. unfold of_ne_bytes_128. destruct (big_endian c); apply of_le_bytes_value. Qed.
Lemma u_from_ne_of c l : is_bytes 32 l -> 
  u_from_ne_bytes c l = uof c (value_le (if big_endian c then rev l else l)).
Proof.
  intros H. destruct (is_bytes_split l H) as (H1 & H2 & E).
  unfold u_from_ne_bytes. rewrite (of_ne_eq c (firstn 16 l)), (of_ne_eq c (skipn 16 l)).
  pose proof (of16_range _ H1) as R1. pose proof (of16_range _ H2) as R2.
  pose proof (of16_range _ (is_bytes_rev _ _ H1)) as R3. pose proof (of16_range _ (is_bytes_rev _ _ H2)) as R4.
  set (a := firstn 16 l) in *. set (b := skipn 16 l) in *. rewrite E.
  destruct H1 as [L1 F1], H2 as [L2 F2].
  destruct (big_endian c) eqn:HB.
  - rewrite rev_app_distr, value_le_app, rev_length, L2, p16, Z.mul_comm, Z.add_comm.
    rewrite <- u_from_words_of by assumption. unfold u_from_words. rewrite HB. reflexivity.
  - rewrite value_le_app, L1, p16, Z.mul_comm, Z.add_comm.
    rewrite <- u_from_words_of by assumption. unfold u_from_words. rewrite HB. reflexivity.
Qed.
Lemma rev_le_swap v : rev (le_bytes 32 v) = le_bytes 32 (swap_num v).
Proof. symmetry. apply swap_num_le. Qed.
Lemma u_bytes_of c v : 
  u_to_le_bytes c (uof c v) = le_bytes 32 v /\ u_to_be_bytes c (uof c v) = rev (le_bytes 32 v) /\
  u_to_ne_bytes c (uof c v) = (if big_endian c then rev (le_bytes 32 v) else le_bytes 32 v).
Proof.
  unfold u_to_le_bytes, u_to_be_bytes, u_to_le, u_to_be. rewrite u_swap_of.
  destruct (big_endian c) eqn:HB; cbn [negb]; rewrite !u_to_ne_of, HB, swap_num_le, ?rev_involutive; auto.
Qed.
Lemma u_from_bytes_of c l : is_bytes 32 l ->
  u_from_le_bytes c l = uof c (value_le l) /\ u_from_be_bytes c l = uof c (value_le (rev l)) /\
  u_from_ne_bytes c l = uof c (value_le (if big_endian c then rev l else l)).
Proof.
  intros H. unfold u_from_le_bytes, u_from_be_bytes, u_from_le, u_from_be.
  rewrite u_from_ne_of by assumption. rewrite u_swap_of.
  assert (HS : forall k, is_bytes 32 k -> swap_num (value_le k) = value_le (rev k)).
  { intros k [HL HF]. unfold swap_num. f_equal. f_equal. rewrite <- HL. apply le_bytes_value. assumption. }
  destruct (big_endian c); cbn [negb]; rewrite HS, ?rev_involutive by auto using is_bytes_rev; auto.
Qed.
Lemma digits_le_eq v : digits_le v = le_bytes 32 v.
Proof. symmetry. apply le_bytes_digits. Qed.
Lemma value_le_inj_bytes l : is_bytes 32 l -> le_bytes 32 (value_le l) = l.
Proof. intros [HL HF]. rewrite <- HL. apply le_bytes_value. assumption. Qed.

Lemma u_bytes_family c x l : wf_u x -> is_bytes 32 l ->
  u_to_le_bytes c x = digits_le (uval c x) /\
  u_to_be_bytes c x = rev (digits_le (uval c x)) /\
  u_to_ne_bytes c x = (if big_endian c then u_to_be_bytes c x else u_to_le_bytes c x) /\
  u_from_le_bytes c l = uof c (value_le l) /\
  u_from_be_bytes c l = uof c (value_le (rev l)) /\
  u_from_ne_bytes c l = (if big_endian c then u_from_be_bytes c l else u_from_le_bytes c l) /\
  u_from_le_bytes c (u_to_le_bytes c x) = x /\ u_to_le_bytes c (u_from_le_bytes c l) = l /\
  u_from_be_bytes c (u_to_be_bytes c x) = x /\ u_to_be_bytes c (u_from_be_bytes c l) = l /\
  u_from_ne_bytes c (u_to_ne_bytes c x) = x /\ u_to_ne_bytes c (u_from_ne_bytes c l) = l.
Proof.
  intros Hx Hl. on_u c x. rewrite digits_le_eq.
  assert (HB : is_bytes 32 (le_bytes 32 nx)) by (split; [apply le_bytes_length|apply le_bytes_range]).
  destruct (u_bytes_of c nx) as (E1 & E2 & E3). destruct (u_from_bytes_of c l Hl) as (F1 & F2 & F3).
  rewrite E1, E2, E3, F1, F2, F3.
  destruct (u_from_bytes_of c _ HB) as (G1 & G2 & G3).
  destruct (u_from_bytes_of c _ (is_bytes_rev _ _ HB)) as (K1 & K2 & K3).
  destruct (u_bytes_of c (value_le l)) as (L1 & L2 & L3).
  destruct (u_bytes_of c (value_le (rev l))) as (M1 & M2 & M3).
  assert (EV : uof c (value_le (le_bytes 32 nx)) = uof c nx) by (rewrite value_le_bytes, p32; apply uof_mod).
  rewrite G1, K2, L1, M2, rev_involutive, EV, !value_le_inj_bytes, rev_involutive by auto using is_bytes_rev.
  destruct (big_endian c).
  - rewrite K3, M3, rev_involutive, EV, value_le_inj_bytes, rev_involutive by auto using is_bytes_rev. auto 20.
  - rewrite G3, L3, EV, value_le_inj_bytes by assumption. auto 20.
Qed.
Lemma i_bytes_family c x l : wf_i x -> is_bytes 32 l ->
  i_to_le_bytes c x = digits_le (ival c x) /\
  i_to_be_bytes c x = rev (digits_le (ival c x)) /\
  i_to_ne_bytes c x = (if big_endian c then i_to_be_bytes c x else i_to_le_bytes c x) /\
  i_from_le_bytes c l = iof c (value_le l) /\
  i_from_be_bytes c l = iof c (value_le (rev l)) /\
  i_from_ne_bytes c l = (if big_endian c then i_from_be_bytes c l else i_from_le_bytes c l) /\
  i_from_le_bytes c (i_to_le_bytes c x) = x /\ i_to_le_bytes c (i_from_le_bytes c l) = l /\
  i_from_be_bytes c (i_to_be_bytes c x) = x /\ i_to_be_bytes c (i_from_be_bytes c l) = l /\
  i_from_ne_bytes c (i_to_ne_bytes c x) = x /\ i_to_ne_bytes c (i_from_ne_bytes c l) = l.
Proof.
  intros Hx Hl.
  assert (A1 : forall l, is_bytes 32 l -> i_from_ne_bytes c l = u_as_i256 (u_from_ne_bytes c l)) by reflexivity.
  assert (S1 : forall v, i_swap_bytes (u_as_i256 (uof c v)) = u_as_i256 (u_swap_bytes (uof c v))).
  { intros v. rewrite u_as_i256_of, i_swap_of, u_swap_of, u_as_i256_of. reflexivity. }
  assert (A2 : forall l, is_bytes 32 l -> i_from_le_bytes c l = u_as_i256 (u_from_le_bytes c l)).
  { intros k Hk. unfold i_from_le_bytes, u_from_le_bytes, i_from_le, u_from_le.
    rewrite i_from_ne_eq, u_from_ne_of by assumption. destruct (big_endian c); cbn [negb]; [apply S1|reflexivity]. }
  assert (A3 : forall l, is_bytes 32 l -> i_from_be_bytes c l = u_as_i256 (u_from_be_bytes c l)).
  { intros k Hk. unfold i_from_be_bytes, u_from_be_bytes, i_from_be, u_from_be.
    rewrite i_from_ne_eq, u_from_ne_of by assumption. destruct (big_endian c); cbn [negb]; [reflexivity|apply S1]. }
  assert (B0 : forall v, i_as_u256 (i_swap_bytes (iof c v)) = u_swap_bytes (i_as_u256 (iof c v))).
  { intros v. rewrite i_swap_of, !i_as_u256_of, u_swap_of. reflexivity. }
  assert (B1 : forall v, i_to_le_bytes c (iof c v) = u_to_le_bytes c (i_as_u256 (iof c v))).
  { intros v. unfold i_to_le_bytes, u_to_le_bytes, i_to_le, u_to_le. rewrite i_to_ne_eq.
    destruct (big_endian c); cbn [negb]; [rewrite B0; reflexivity|reflexivity]. }
  assert (B2 : forall v, i_to_be_bytes c (iof c v) = u_to_be_bytes c (i_as_u256 (iof c v))).
  { intros v. unfold i_to_be_bytes, u_to_be_bytes, i_to_be, u_to_be. rewrite i_to_ne_eq.
    destruct (big_endian c); cbn [negb]; [reflexivity|rewrite B0; reflexivity]. }
  on_i c x.
  pose proof (u_bytes_family c (uof c nx) l (wf_uof _ _) Hl) as H.
  rewrite digits_le_eq in *. rewrite uval_uof, <- p32, le_bytes_mod in H.
  destruct H as (E1 & E2 & E3 & F1 & F2 & F3 & G1 & G2 & K1 & K2 & L1 & L2).
  assert (HB : is_bytes 32 (le_bytes 32 nx)) by (split; [apply le_bytes_length|apply le_bytes_range]).
  assert (HN : is_bytes 32 (u_to_ne_bytes c (uof c nx))).
  { rewrite E3, E1, E2. destruct (big_endian c); auto using is_bytes_rev. }
  rewrite !A2, !A3, !A1 by (rewrite ?B1, ?B2, ?i_to_ne_eq, ?i_as_u256_of, ?E1, ?E2; auto using is_bytes_rev).
  rewrite F1, F2 in *. rewrite !u_as_i256_of.
  rewrite !B1, !B2, !i_to_ne_eq, !i_as_u256_of, E1, E2 in *.
  rewrite G1, K1, L1, G2, K2, u_as_i256_of.
  assert (F3' : u_from_ne_bytes c l = uof c (value_le (if big_endian c then rev l else l))) by (apply u_from_ne_of; assumption).
  rewrite F3' in *. rewrite u_as_i256_of, i_as_u256_of, L2, E3.
  destruct (big_endian c); auto 20.
Qed.

(** ** Comparison and hashing *)
Lemma u_cmp_val c a b : wf_u a -> wf_u b -> u_cmp c a b = (uval c a ?= uval c b).
Proof.
  intros Ha Hb. rewrite <- (u_cmp_of c) by auto using uval_range.
  rewrite !uof_uval by assumption. reflexivity.
Qed.
Lemma i_cmp_val c a b : wf_i a -> wf_i b -> i_cmp c a b = (ival c a ?= ival c b).
Proof.
  intros Ha Hb. rewrite <- (i_cmp_of c) by auto using ival_range.
  rewrite !iof_ival by assumption. reflexivity.
Qed.
Lemma u_eq_val c a b : wf_u a -> wf_u b -> u_eq c a b = (uval c a =? uval c b).
Proof.
  intros Ha Hb. rewrite <- (u_eq_of c) by auto using uval_range.
  rewrite !uof_uval by assumption. reflexivity.
Qed.
Lemma i_eq_val c a b : wf_i a -> wf_i b -> i_eq c a b = (ival c a =? ival c b).
Proof.
  intros Ha Hb. rewrite <- (i_eq_of c) by auto using ival_range.
  rewrite !iof_ival by assumption. reflexivity.
Qed.
Lemma uval_inj c a b : wf_u a -> wf_u b -> (a = b <-> uval c a = uval c b).
Proof.
  intros. split; [congruence|]. intros E. rewrite <- (uof_uval c a), <- (uof_uval c b), E by assumption. reflexivity.
Qed.
Lemma ival_inj c a b : wf_i a -> wf_i b -> (a = b <-> ival c a = ival c b).
Proof.
  intros. split; [congruence|]. intros E. rewrite <- (iof_ival c a), <- (iof_ival c b), E by assumption. reflexivity.
Qed.
Lemma u_cmp_family c a b : wf_u a -> wf_u b -> let x := uval c a in let y := uval c b in
  u_cmp c a b = (x ?= y) /\ u_eq c a b = (x =? y) /\
  u_lt c a b = (x <? y) /\ u_le c a b = (x <=? y) /\ u_gt c a b = (y <? x) /\ u_ge c a b = (y <=? x) /\
  uval c (u_max c a b) = Z.max x y /\ uval c (u_min c a b) = Z.min x y /\ (a = b <-> x = y).
Proof.
  intros Ha Hb. cbv zeta. unfold u_lt, u_le, u_gt, u_ge, u_max, u_min.
  rewrite u_cmp_val, u_eq_val, is_lt_cmp, is_le_cmp, is_gt_cmp, is_ge_cmp by assumption.
  pose proof (uval_inj c a b Ha Hb).
  destruct (Z.compare_spec (uval c a) (uval c b)); repeat split; try (tauto || lia).
Qed.
Lemma i_cmp_family c a b : wf_i a -> wf_i b -> let x := ival c a in let y := ival c b in
  i_cmp c a b = (x ?= y) /\ i_eq c a b = (x =? y) /\
  i_lt c a b = (x <? y) /\ i_le c a b = (x <=? y) /\ i_gt c a b = (y <? x) /\ i_ge c a b = (y <=? x) /\
  ival c (i_max c a b) = Z.max x y /\ ival c (i_min c a b) = Z.min x y /\ (a = b <-> x = y).
Proof.
  intros Ha Hb. cbv zeta. unfold i_lt, i_le, i_gt, i_ge, i_max, i_min.
  rewrite i_cmp_val, i_eq_val, is_lt_cmp, is_le_cmp, is_gt_cmp, is_ge_cmp by assumption.
  pose proof (ival_inj c a b Ha Hb).
  destruct (Z.compare_spec (ival c a) (ival c b)); repeat split; try (tauto || lia).
Qed.
Lemma u_cmp_prim_family c a p : wf_u a -> 0 <= p < 2 ^ 128 -> let x := uval c a in
  u_eq_prim c a p = (x =? p) /\ prim_eq_u c p a = (p =? x) /\
  u_cmp_prim c a p = (x ?= p) /\ prim_cmp_u c p a = (p ?= x).
Proof.
  intros Ha Hp. on_u c a. cbv zeta. unfold u_eq_prim, prim_eq_u, u_cmp_prim, prim_cmp_u.
  rewrite u_new_of, !u_eq_of, !u_cmp_of by lia. auto.
Qed.
Lemma i_cmp_prim_family c a p : wf_i a -> - 2 ^ 127 <= p < 2 ^ 127 -> let x := ival c a in
  i_eq_prim c a p = (x =? p) /\ prim_eq_i c p a = (p =? x) /\
  i_cmp_prim c a p = (x ?= p) /\ prim_cmp_i c p a = (p ?= x).
Proof.
  intros Ha Hp. on_i c a. cbv zeta. unfold i_eq_prim, prim_eq_i, i_cmp_prim, prim_cmp_i.
  rewrite i_new_of, !i_eq_of, !i_cmp_of by lia. auto.
Qed.

Lemma u_mem_inj c a b : wf_u a -> wf_u b -> u_mem_bytes c a = u_mem_bytes c b -> a = b.
Proof.
  change (u_mem_bytes c a) with (u_to_ne_bytes c a). change (u_mem_bytes c b) with (u_to_ne_bytes c b).
  intros Ha Hb E.
  assert (HB : is_bytes 32 (le_bytes 32 0)) by (split; [apply le_bytes_length|apply le_bytes_range]).
  destruct (u_bytes_family c a _ Ha HB) as (_ & _ & _ & _ & _ & _ & _ & _ & _ & _ & E1 & _).
  destruct (u_bytes_family c b _ Hb HB) as (_ & _ & _ & _ & _ & _ & _ & _ & _ & _ & E2 & _).
  rewrite <- E1, <- E2, E. reflexivity.
Qed.
Lemma i_mem_inj c a b : wf_i a -> wf_i b -> i_mem_bytes c a = i_mem_bytes c b -> a = b.
Proof.
  change (i_mem_bytes c a) with (i_to_ne_bytes c a). change (i_mem_bytes c b) with (i_to_ne_bytes c b).
  intros Ha Hb E.
  assert (HB : is_bytes 32 (le_bytes 32 0)) by (split; [apply le_bytes_length|apply le_bytes_range]).
  destruct (i_bytes_family c a _ Ha HB) as (_ & _ & _ & _ & _ & _ & _ & _ & _ & _ & E1 & _).
  destruct (i_bytes_family c b _ Hb HB) as (_ & _ & _ & _ & _ & _ & _ & _ & _ & _ & E2 & _).
  rewrite <- E1, <- E2, E. reflexivity.
Qed.
Lemma hash_family c : 
  (forall a b, wf_u a -> wf_u b ->
     (u_eq c a b = true -> forall S wu w (h : S), u_hash wu w c a h = u_hash wu w c b h) /\
     (u_eq c a b = false -> exists S wu w (h : S), u_hash wu w c a h <> u_hash wu w c b h)) /\
  (forall a b, wf_i a -> wf_i b ->
     (i_eq c a b = true -> forall S wu w (h : S), i_hash wu w c a h = i_hash wu w c b h) /\
     (i_eq c a b = false -> exists S wu w (h : S), i_hash wu w c a h <> i_hash wu w c b h)).
Proof.
  split; intros a b Ha Hb.
  - rewrite u_eq_val by assumption. pose proof (uval_inj c a b Ha Hb) as HI. split; intros E.
    + intros. replace b with a by (apply HI; lia). reflexivity.
    + exists (list Z), (fun h _ => h), (fun _ l => l), []. unfold u_hash. intros E2.
      apply u_mem_inj in E2; [|assumption..]. apply HI in E2. lia.
  - rewrite i_eq_val by assumption. pose proof (ival_inj c a b Ha Hb) as HI. split; intros E.
    + intros. replace b with a by (apply HI; lia). reflexivity.
    + exists (list Z), (fun h _ => h), (fun _ l => l), []. unfold i_hash. intros E2.
      apply i_mem_inj in E2; [|assumption..]. apply HI in E2. lia.
Qed.
