(** * Laws of byte orders *)

From Coq Require Import ZArith List Bool Lia ZifyBool.
Import ListNotations.
From Verif Require Import M_Prim M_Words M_Intr M_UintApi M_IntApi M_Ops
  Spec Spec_Bits Spec_ByteLaws P_Words P_AddSub P_Bits P_Ops P_BitsApi P_Count P_Bytes P_Laws.
Open Scope Z_scope.

(** ** Lists *)

Lemma rev_repeat' {A} (b : A) k : rev (repeat b k) = repeat b k.
Proof.
  induction k as [|k IH]; [reflexivity|]. cbn [repeat rev]. rewrite IH. symmetry. apply (repeat_cons k b).
Qed.
Lemma rev_push_front {A} k (b : A) l : rev (push_front k b l) = push_back k b (rev l).
Proof. unfold push_front, push_back. rewrite rev_app_distr, rev_repeat', skipn_rev. reflexivity. Qed.
Lemma rev_push_back {A} k (b : A) l : (k <= length l)%nat -> rev (push_back k b l) = push_front k b (rev l).
Proof.
  intros H. unfold push_front, push_back. rewrite rev_app_distr, rev_repeat', firstn_rev, rev_length.
  replace (length l - (length l - k))%nat with k by lia. reflexivity.
Qed.
Lemma rev_turn {A} k (l : list A) : (k <= length l)%nat -> rev (turn k l) = turn (length l - k) (rev l).
Proof.
  intros H. unfold turn. rewrite rev_app_distr, firstn_rev, skipn_rev.
  replace (length l - (length l - k))%nat with k by lia. reflexivity.
Qed.
Lemma map_rev_combine {A B C} (f : A * B -> C) l m : length l = length m -> map f (combine (rev l) (rev m)) = rev (map f (combine l m)).
Proof.
  revert m. induction l as [|a l IH]; intros [|b m] H; try discriminate; [reflexivity|].
  injection H as H. cbn [rev combine map]. rewrite <- IH by exact H.
  assert (E : forall (l1 : list A) (m1 : list B) l2 m2, length l1 = length m1 -> combine (l1 ++ l2) (m1 ++ m2) = combine l1 m1 ++ combine l2 m2).
  { induction l1 as [|x l1 IH1]; intros [|y m1] l2 m2 L; try discriminate; [reflexivity|].
    injection L as L. cbn [app combine]. rewrite IH1 by exact L. reflexivity. }
  rewrite E by (rewrite !rev_length; exact H). rewrite map_app. reflexivity.
Qed.
Lemma rev_bytewise f l m : length l = length m -> rev (bytewise f l m) = bytewise f (rev l) (rev m).
Proof. intros H. unfold bytewise. symmetry. apply map_rev_combine. exact H. Qed.

(** ** Digits *)

Lemma firstn_le k n v : (k <= n)%nat -> firstn k (le_bytes n v) = le_bytes k v.
Proof.
  intros H. replace n with (k + (n - k))%nat by lia. rewrite le_bytes_app.
  rewrite firstn_app, le_bytes_length, Nat.sub_diag, firstn_O, app_nil_r. apply firstn_all2. rewrite le_bytes_length. lia.
Qed.
Lemma skipn_le k n v : (k <= n)%nat -> skipn k (le_bytes n v) = le_bytes (n - k) (v / 256 ^ Z.of_nat k).
Proof.
  intros H. replace n with (k + (n - k))%nat at 1 by lia. rewrite le_bytes_app.
  rewrite skipn_app, le_bytes_length, Nat.sub_diag, skipn_O, skipn_all2 by (rewrite le_bytes_length; lia). reflexivity.
Qed.
Lemma le_bytes_zero k : le_bytes k 0 = repeat 0 k.
Proof. induction k as [|k IH]; [reflexivity|]. cbn [le_bytes repeat]. rewrite Z.mod_0_l, Z.div_0_l, IH by lia. reflexivity. Qed.
Lemma le_bytes_ones k : le_bytes k (-1) = repeat 255 k.
Proof.
  induction k as [|k IH]; [reflexivity|]. cbn [le_bytes repeat].
  change (-1 / 256) with (-1). rewrite IH. reflexivity.
Qed.
Lemma le_bytes_cong n v w : v mod 256 ^ Z.of_nat n = w mod 256 ^ Z.of_nat n -> le_bytes n v = le_bytes n w.
Proof. intros H. rewrite <- (le_bytes_mod n v), <- (le_bytes_mod n w), H. reflexivity. Qed.
Lemma pow256 k : 2 ^ (8 * Z.of_nat k) = 256 ^ Z.of_nat k.
Proof. rewrite Z.pow_mul_r by lia. reflexivity. Qed.
Lemma pow256_pos k : 0 < 256 ^ Z.of_nat k. Proof. apply Z.pow_pos_nonneg; lia. Qed.
Lemma pow256_split k : (k <= 32)%nat -> 2 ^ 256 = 256 ^ Z.of_nat k * 256 ^ Z.of_nat (32 - k).
Proof. intros H. rewrite <- Z.pow_add_r by lia. change (2 ^ 256) with (256 ^ 32). f_equal. lia. Qed.

Lemma bytes_shl k v : (k <= 32)%nat -> le_bytes 32 (v * 2 ^ (8 * Z.of_nat k)) = push_front k 0 (le_bytes 32 v).
Proof.
  intros H. rewrite pow256. unfold push_front. rewrite le_bytes_length, firstn_le by lia.
  pose proof (pow256_pos k). replace 32%nat with (k + (32 - k))%nat at 1 by lia. rewrite le_bytes_app, Z.div_mul by lia.
  f_equal. rewrite <- le_bytes_zero. apply le_bytes_cong. rewrite Z.mod_mul, Z.mod_0_l by lia. reflexivity.
Qed.
Lemma bytes_shr k v : (k <= 32)%nat -> le_bytes 32 (v / 2 ^ (8 * Z.of_nat k)) = skipn k (le_bytes 32 v) ++ le_bytes k (v / 2 ^ 256).
Proof.
  intros H. rewrite pow256, skipn_le by lia. pose proof (pow256_pos k). pose proof (pow256_pos (32 - k)).
  replace 32%nat with ((32 - k) + k)%nat at 1 by lia. rewrite le_bytes_app, Z.div_div by lia.
  rewrite (pow256_split k H). reflexivity.
Qed.
Lemma bytes_rot k v : 0 <= v < 2 ^ 256 -> (k <= 32)%nat -> le_bytes 32 (rotl_num v (8 * Z.of_nat k)) = turn (32 - k) (le_bytes 32 v).
Proof.
  intros Hv H. unfold turn. rewrite skipn_le, firstn_le by lia. replace (32 - (32 - k))%nat with k by lia.
  set (c := Build_cfg false false false 64 false).
  pose proof (rotl_num_sum c v (8 * Z.of_nat k) Hv) as E. apply (f_equal (uval c)) in E. rewrite !uval_uof in E.
  rewrite (le_bytes_cong 32 _ _ E). clear E c.
  destruct (Z.eqb_spec ((8 * Z.of_nat k) mod 256) 0) as [E|E].
  - assert (K : k = 0%nat \/ k = 32%nat).
    { destruct (Nat.eq_dec k 32); [auto|]. rewrite Z.mod_small in E by lia. lia. }
    destruct K as [-> | ->].
    + change (le_bytes 0 _) with (@nil Z). reflexivity.
    + change (32 - 32)%nat with 0%nat. change (le_bytes 0 v) with (@nil Z). rewrite app_nil_r.
      change (256 ^ Z.of_nat 0) with 1. rewrite Z.div_1_r. reflexivity.
  - assert (k < 32)%nat by (destruct (Nat.eq_dec k 32); [subst k; cbn in E; lia|lia]).
    rewrite Z.mod_small by lia. replace (256 - 8 * Z.of_nat k) with (8 * Z.of_nat (32 - k)) by lia. rewrite !pow256.
    pose proof (pow256_pos k). pose proof (pow256_pos (32 - k)).
    assert (B : 0 <= v / 256 ^ Z.of_nat (32 - k) < 256 ^ Z.of_nat k).
    { split; [apply Z.div_pos; lia|]. apply Z.div_lt_upper_bound; [lia|]. rewrite (pow256_split k) in Hv by lia. lia. }
    replace 32%nat with (k + (32 - k))%nat at 1 by lia. rewrite le_bytes_app. f_equal.
    + apply le_bytes_cong. rewrite Z.add_comm, Z.mod_add by lia. reflexivity.
    + rewrite Z.add_comm, Z.div_add, (Z.div_small _ _ B) by lia. reflexivity.
Qed.
Lemma bytes_rotr k v : 0 <= v < 2 ^ 256 -> (k <= 32)%nat -> le_bytes 32 (rotl_num v (- (8 * Z.of_nat k))) = turn k (le_bytes 32 v).
Proof.
  intros Hv H. replace k with (32 - (32 - k))%nat at 2 by lia. rewrite <- bytes_rot by (assumption || lia).
  unfold rotl_num. f_equal. f_equal; f_equal; f_equal.
  - replace (8 * Z.of_nat (32 - k)) with (- (8 * Z.of_nat k) + 1 * 256) by lia. rewrite Z.mod_add by lia. reflexivity.
  - replace (- (8 * Z.of_nat (32 - k))) with (- - (8 * Z.of_nat k) + (-1) * 256) by lia. rewrite Z.mod_add by lia. reflexivity.
Qed.

Lemma bytes_map2 (f : Z -> Z -> Z) (g : bool -> bool -> bool) : g false false = false ->
  (forall a b i, 0 <= i -> Z.testbit (f a b) i = g (Z.testbit a i) (Z.testbit b i)) ->
  forall n a b, le_bytes n (f a b) = bytewise f (le_bytes n a) (le_bytes n b).
Proof.
  intros G F. induction n as [|n IH]; intros a b; [reflexivity|].
  unfold bytewise in *. cbn [le_bytes combine map fst snd]. rewrite <- IH. change 256 with (2 ^ 8). f_equal.
  - apply Z.bits_inj'. intros i Hi. rewrite F by lia. rewrite !testbit_mod_pow2, F by lia.
    destruct (i <? 8); cbn [andb]; [reflexivity|congruence].
  - f_equal. rewrite <- !Z.shiftr_div_pow2 by lia. apply Z.bits_inj'. intros i Hi.
    rewrite F, !Z.shiftr_spec, F by lia. reflexivity.
Qed.
Lemma bytes_not n v : le_bytes n (Z.lnot v) = map (fun b => 255 - b) (le_bytes n v).
Proof.
  revert v. induction n as [|n IH]; intros v; [reflexivity|]. cbn [le_bytes map]. rewrite <- IH. unfold Z.lnot.
  pose proof (Z.div_mod v 256 ltac:(lia)). pose proof (Z.mod_pos_bound v 256 ltac:(lia)). f_equal.
  - symmetry. apply Z.mod_unique with (- (v / 256) - 1); lia.
  - f_equal. symmetry. apply Z.div_unique with (255 - v mod 256); lia.
Qed.

(** ** Bits *)

Lemma swap_num_bit v i : 0 <= i < 256 -> Z.testbit (swap_num v) i = Z.testbit v (8 * (31 - i / 8) + i mod 8).
Proof.
  intros Hi. pose proof (Z.div_mod i 8 ltac:(lia)). pose proof (Z.mod_pos_bound i 8 ltac:(lia)).
  assert (B : forall v j k, 0 <= j -> 0 <= k < 8 -> Z.testbit (byte v j) k = Z.testbit v (8 * j + k)).
  { intros u j k Hj Hk. unfold byte. change 256 with (2 ^ 8). rewrite Z.mod_pow2_bits_low, <- Z.shiftr_div_pow2, Z.shiftr_spec by lia.
    f_equal. lia. }
  rewrite H at 1. rewrite <- B by lia. rewrite swap_num_byte by lia. apply B; lia.
Qed.
Lemma ones_app a b v : ones (a + b) v = ones a v + ones b (v / 2 ^ Z.of_nat a).
Proof.
  induction b as [|b IH]; [rewrite Nat.add_0_r; cbn [ones]; lia|].
  rewrite Nat.add_succ_r. cbn [ones]. rewrite IH, <- Z.shiftr_div_pow2, Z.shiftr_spec by lia.
  replace (Z.of_nat b + Z.of_nat a) with (Z.of_nat (a + b)) by lia. lia.
Qed.
Lemma ones_flip n : forall v w, (forall i, 0 <= i < Z.of_nat n -> Z.testbit w i = Z.testbit v (Z.of_nat n - 1 - i)) -> ones n w = ones n v.
Proof.
  induction n as [|n IH]; intros v w H; [reflexivity|]. cbn [ones]. rewrite (H (Z.of_nat n)) by lia.
  rewrite (IH (v / 2)).
  - change (ones n (v / 2)) with (ones n (v / 2 ^ Z.of_nat 1)).
    pose proof (ones_app 1 n v) as E. cbn [Nat.add] in E. cbn [ones] in E. rewrite Z.add_0_l in E.
    replace (Z.of_nat (S n) - 1 - Z.of_nat n) with (Z.of_nat 0) by lia. lia.
  - intros i Hi. rewrite H by lia. rewrite Z.div2_bits by lia. f_equal. lia.
Qed.
Fixpoint total (l : list Z) : Z := match l with [] => 0 | x :: l => x + total l end.
Lemma total_app l m : total (l ++ m) = total l + total m.
Proof. induction l as [|x l IH]; [reflexivity|]. cbn [app total]. rewrite IH. lia. Qed.
Lemma total_rev l : total (rev l) = total l.
Proof. induction l as [|x l IH]; [reflexivity|]. cbn [rev]. rewrite total_app, IH. cbn [total]. lia. Qed.
Lemma ones_bytes n v : ones (n * 8) v = total (map (ones 8) (le_bytes n v)).
Proof.
  revert v. induction n as [|n IH]; intros v; [reflexivity|]. cbn [le_bytes map total]. rewrite <- IH.
  change (S n * 8)%nat with (8 + n * 8)%nat. rewrite ones_app. f_equal.
  apply ones_ext. intros i Hi. change 256 with (2 ^ 8). rewrite Z.mod_pow2_bits_low by lia. reflexivity.
Qed.
Lemma ones_swap v : ones 256 (swap_num v) = ones 256 v.
Proof.
  change 256%nat with (32 * 8)%nat. rewrite !ones_bytes, swap_num_le, map_rev. apply total_rev.
Qed.
Lemma ones_rev v : ones 256 (rev_num v) = ones 256 v.
Proof. apply ones_flip. intros i Hi. change (Z.of_nat 256) with 256 in *. rewrite rev_num_bit by lia. first [reflexivity|f_equal; lia]. Qed.
Lemma ones_rot v n : 0 <= v < 2 ^ 256 -> ones 256 (rotl_num v n) = ones 256 v.
Proof.
  intros Hv. pose proof (Z.mod_pos_bound n 256 ltac:(lia)) as Hn. set (k := Z.to_nat (n mod 256)).
  assert (K : Z.of_nat k = n mod 256) by (unfold k; lia).
  assert (MOD : forall i, (i - n) mod 256 = (i - Z.of_nat k) mod 256) by (intros i; rewrite K, Zminus_mod_idemp_r; reflexivity).
  replace 256%nat with (k + (256 - k))%nat at 1 by lia. rewrite ones_app.
  replace 256%nat with ((256 - k) + k)%nat at 2 by lia. rewrite ones_app. rewrite Z.add_comm. f_equal; apply ones_ext; intros i Hi.
  - rewrite <- Z.shiftr_div_pow2, Z.shiftr_spec by lia. rewrite rotl_num_bit, MOD by lia. f_equal. rewrite Z.mod_small by lia. lia.
  - rewrite <- Z.shiftr_div_pow2, Z.shiftr_spec by lia. rewrite rotl_num_bit, MOD by lia. f_equal.
    symmetry. apply Z.mod_unique with (-1); lia.
Qed.

(** ** The two types *)

Lemma i_bytes_of c v : i_to_le_bytes c (iof c v) = le_bytes 32 v /\ i_to_be_bytes c (iof c v) = rev (le_bytes 32 v) /\
  i_to_ne_bytes c (iof c v) = (if big_endian c then rev (le_bytes 32 v) else le_bytes 32 v).
Proof.
  assert (B : is_bytes 32 (le_bytes 32 0)) by (split; [apply le_bytes_length|apply le_bytes_range]).
  destruct (i_bytes_family c (iof c v) (le_bytes 32 0) (wf_iof _ _) B) as (E1 & E2 & E3 & _).
  rewrite E3, E1, E2, digits_le_eq, ival_iof.
  rewrite (le_bytes_cong 32 (wrap_i 256 v) v) by (rewrite p32; apply wrap_i_mod; lia). auto.
Qed.
Lemma i_rol_of c v n : 0 <= n <= 256 -> i_rotate_left c (iof c v) n = Ret (iof c (rotl_num (v mod 2 ^ 256) n)).
Proof.
  intros H. unfold i_rotate_left, irol3, res_map. rewrite i_as_u256_of, <- uof_mod.
  rewrite rol3_of by (try apply Z.mod_pos_bound; unfold rotate_ok; auto with zarith; lia).
  cbn [bind]. rewrite u_as_i256_of. reflexivity.
Qed.
Lemma i_ror_of c v n : 0 <= n <= 256 -> i_rotate_right c (iof c v) n = Ret (iof c (rotl_num (v mod 2 ^ 256) (- n))).
Proof.
  intros H. unfold i_rotate_right, iror3, res_map. rewrite i_as_u256_of, <- uof_mod.
  rewrite ror3_of by (try apply Z.mod_pos_bound; unfold rotate_ok; auto with zarith; lia).
  cbn [bind]. rewrite u_as_i256_of. reflexivity.
Qed.
Lemma u_rol_of c v n : 0 <= n <= 256 -> u_rotate_left c (uof c v) n = Ret (uof c (rotl_num (v mod 2 ^ 256) n)).
Proof.
  intros H. unfold u_rotate_left. rewrite <- uof_mod.
  rewrite rol3_of by (try apply Z.mod_pos_bound; unfold rotate_ok; auto with zarith; lia). reflexivity.
Qed.
Lemma u_ror_of c v n : 0 <= n <= 256 -> u_rotate_right c (uof c v) n = Ret (uof c (rotl_num (v mod 2 ^ 256) (- n))).
Proof.
  intros H. unfold u_rotate_right. rewrite <- uof_mod.
  rewrite ror3_of by (try apply Z.mod_pos_bound; unfold rotate_ok; auto with zarith; lia). reflexivity.
Qed.
Lemma swap_mod v : swap_num (v mod 2 ^ 256) = swap_num v.
Proof. unfold swap_num. rewrite <- p32, le_bytes_mod. reflexivity. Qed.
Lemma mod_bit v i : 0 <= i < 256 -> Z.testbit (v mod 2 ^ 256) i = Z.testbit v i.
Proof. intros H. apply Z.mod_pow2_bits_low. lia. Qed.
Lemma swap_index i : 0 <= i < 256 -> 0 <= 8 * (31 - i / 8) + i mod 8 < 256.
Proof. intros H. pose proof (Z.div_mod i 8 ltac:(lia)). pose proof (Z.mod_pos_bound i 8 ltac:(lia)). lia. Qed.
Lemma le_eq_mod v w : le_bytes 32 v = le_bytes 32 w -> v mod 2 ^ 256 = w mod 2 ^ 256.
Proof. intros H. rewrite <- p32, <- (value_le_bytes 32 v), <- (value_le_bytes 32 w), H. reflexivity. Qed.
Lemma swap_turn v k : 0 <= v < 2 ^ 256 -> (k <= 32)%nat ->
  swap_num (rotl_num v (8 * Z.of_nat k)) mod 2 ^ 256 = rotl_num (swap_num v mod 2 ^ 256) (- (8 * Z.of_nat k)) mod 2 ^ 256.
Proof.
  intros Hv Hk. apply le_eq_mod. rewrite swap_num_le, bytes_rot, bytes_rotr by (try apply Z.mod_pos_bound; lia).
  rewrite <- p32, le_bytes_mod, swap_num_le, rev_turn, le_bytes_length by (rewrite le_bytes_length; lia).
  f_equal. lia.
Qed.
Lemma rev_rot v n : 0 <= v < 2 ^ 256 -> rev_num (rotl_num v n) mod 2 ^ 256 = rotl_num (rev_num v mod 2 ^ 256) (- n) mod 2 ^ 256.
Proof.
  intros Hv. apply mod256_bits. intros i Hi.
  pose proof (Z.mod_pos_bound (i - - n) 256 ltac:(lia)).
  rewrite rev_num_bit, !rotl_num_bit by (try apply Z.mod_pos_bound; lia). rewrite mod_bit, rev_num_bit by lia. f_equal.
  pose proof (Z.div_mod (i - - n) 256 ltac:(lia)).
  symmetry. apply Z.mod_unique with (- ((i - - n) / 256)); lia.
Qed.

Lemma u_from_of c l : is_bytes 32 l -> u_from_le_bytes c l = uof c (value_le l) /\ u_from_be_bytes c l = uof c (value_le (rev l)).
Proof. intros H. destruct (u_from_bytes_of c l H) as (A & B & _). auto. Qed.
Lemma i_from_of c l : is_bytes 32 l -> i_from_le_bytes c l = iof c (value_le l) /\ i_from_be_bytes c l = iof c (value_le (rev l)).
Proof. intros H. destruct (i_bytes_family c (iof c 0) l (wf_iof _ _) H) as (_ & _ & _ & A & B & _). auto. Qed.

Lemma u_order_laws c x : wf_u x ->
  u_from_be_bytes c (u_to_le_bytes c x) = u_swap_bytes x /\
  u_from_le_bytes c (u_to_be_bytes c x) = u_swap_bytes x /\
  u_to_be_bytes c (u_swap_bytes x) = u_to_le_bytes c x /\
  u_to_le_bytes c (u_swap_bytes x) = u_to_be_bytes c x /\
  u_to_be_bytes c x = rev (u_to_le_bytes c x) /\
  u_from_be c (u_to_be c x) = x /\ u_from_le c (u_to_le c x) = x /\
  u_to_be c (u_from_be c x) = x /\ u_to_le c (u_from_le c x) = x /\
  u_to_be c (u_to_le c x) = u_swap_bytes x.
Proof.
  intros H. on_u c x.
  assert (B : is_bytes 32 (le_bytes 32 nx)) by (split; [apply le_bytes_length|apply le_bytes_range]).
  assert (S : uof c (value_le (rev (le_bytes 32 nx))) = uof c (swap_num nx)) by reflexivity.
  assert (SS : uof c (swap_num (swap_num nx)) = uof c nx).
  { apply uof_cong. apply le_eq_mod. rewrite !swap_num_le. apply rev_involutive. }
  destruct (u_bytes_of c nx) as (L & E & _). destruct (u_bytes_of c (swap_num nx)) as (L' & E' & _).
  destruct (u_from_of c (le_bytes 32 nx) B) as (_ & F1). destruct (u_from_of c (rev (le_bytes 32 nx)) (is_bytes_rev _ _ B)) as (F2 & _).
  unfold u_from_be, u_to_be, u_from_le, u_to_le.
  rewrite u_swap_of, L, E, L', E', F1, F2, swap_num_le, rev_involutive, S.
  destruct (big_endian c); cbn [negb]; rewrite ?u_swap_of, ?SS; auto 12.
Qed.
Lemma u_byte_moves c x k : wf_u x -> (k < 32)%nat -> exists l r p q,
  u_wrapping_shl c x (8 * Z.of_nat k) = Ret l /\ u_to_be_bytes c l = push_back k 0 (u_to_be_bytes c x) /\
  u_wrapping_shr c x (8 * Z.of_nat k) = Ret r /\ u_to_be_bytes c r = push_front k 0 (u_to_be_bytes c x) /\
  u_rotate_left c x (8 * Z.of_nat k) = Ret p /\ u_to_be_bytes c p = turn k (u_to_be_bytes c x) /\
  u_rotate_right c x (8 * Z.of_nat k) = Ret q /\ u_to_be_bytes c q = turn (32 - k) (u_to_be_bytes c x).
Proof.
  intros H Hk. on_u c x. unfold u_wrapping_shl, u_wrapping_shr. rewrite land_small by lia.
  rewrite shl3_of, shr3_of, u_rol_of, u_ror_of by lia.
  do 4 eexists.
  assert (B : forall v, u_to_be_bytes c (uof c v) = rev (le_bytes 32 v)) by (intros v; exact (proj1 (proj2 (u_bytes_of c v)))).
  assert (M : le_bytes 32 (nx mod 2 ^ 256) = le_bytes 32 nx) by (rewrite <- p32; apply le_bytes_mod).
  pose proof (Z.mod_pos_bound nx (2 ^ 256) ltac:(lia)) as HM.
  split; [reflexivity|]. split.
  { rewrite !B, bytes_shl, rev_push_front by lia. reflexivity. }
  split; [reflexivity|]. split.
  { rewrite !B, bytes_shr by lia. rewrite (Z.div_small nx (2 ^ 256)), le_bytes_zero by lia.
    apply rev_push_back. rewrite le_bytes_length. lia. }
  split; [reflexivity|]. split.
  { rewrite !B, bytes_rot, rev_turn, le_bytes_length, M by (rewrite ?le_bytes_length; lia). f_equal. lia. }
  split; [reflexivity|].
  rewrite !B, bytes_rotr, rev_turn, le_bytes_length, M by (rewrite ?le_bytes_length; lia). reflexivity.
Qed.
Lemma u_byte_logic c x y : wf_u x -> wf_u y ->
  u_to_be_bytes c (u_op_and x y) = bytewise Z.land (u_to_be_bytes c x) (u_to_be_bytes c y) /\
  u_to_be_bytes c (u_op_or x y) = bytewise Z.lor (u_to_be_bytes c x) (u_to_be_bytes c y) /\
  u_to_be_bytes c (u_op_xor x y) = bytewise Z.lxor (u_to_be_bytes c x) (u_to_be_bytes c y) /\
  u_to_be_bytes c (u_op_not x) = map (fun b => 255 - b) (u_to_be_bytes c x).
Proof.
  intros Hx Hy. on_u c x. on_u c y.
  assert (B : forall v, u_to_be_bytes c (uof c v) = rev (le_bytes 32 v)) by (intros v; exact (proj1 (proj2 (u_bytes_of c v)))).
  rewrite u_op_and_of, u_op_or_of, u_op_xor_of, u_op_not_of, not_lnot, !B.
  rewrite (bytes_map2 Z.land andb eq_refl) by (intros; apply Z.land_spec).
  rewrite (bytes_map2 Z.lor orb eq_refl) by (intros; apply Z.lor_spec).
  rewrite (bytes_map2 Z.lxor xorb eq_refl) by (intros; apply Z.lxor_spec).
  rewrite bytes_not, map_rev, !rev_bytewise by (rewrite !le_bytes_length; reflexivity). auto.
Qed.
Lemma u_permutation_laws c x y n k : wf_u x -> wf_u y -> 0 <= n <= 256 -> (k <= 32)%nat ->
  u_count_ones c (u_swap_bytes x) = u_count_ones c x /\ u_count_ones c (u_reverse_bits x) = u_count_ones c x /\
  (let! r := u_rotate_left c x n in u_count_ones c r) = u_count_ones c x /\
  (let! r := u_rotate_right c x n in u_count_ones c r) = u_count_ones c x /\
  u_swap_bytes (u_reverse_bits x) = u_reverse_bits (u_swap_bytes x) /\
  (let! r := u_rotate_left c x (8 * Z.of_nat k) in Ret (u_swap_bytes r)) = u_rotate_right c (u_swap_bytes x) (8 * Z.of_nat k) /\
  (let! r := u_rotate_left c x n in Ret (u_reverse_bits r)) = u_rotate_right c (u_reverse_bits x) n /\
  u_swap_bytes (u_op_and x y) = u_op_and (u_swap_bytes x) (u_swap_bytes y) /\
  u_swap_bytes (u_op_or x y) = u_op_or (u_swap_bytes x) (u_swap_bytes y) /\
  u_swap_bytes (u_op_xor x y) = u_op_xor (u_swap_bytes x) (u_swap_bytes y) /\
  u_swap_bytes (u_op_not x) = u_op_not (u_swap_bytes x) /\
  u_reverse_bits (u_op_and x y) = u_op_and (u_reverse_bits x) (u_reverse_bits y) /\
  u_reverse_bits (u_op_or x y) = u_op_or (u_reverse_bits x) (u_reverse_bits y) /\
  u_reverse_bits (u_op_xor x y) = u_op_xor (u_reverse_bits x) (u_reverse_bits y) /\
  u_reverse_bits (u_op_not x) = u_op_not (u_reverse_bits x).
Proof.
  intros Hx Hy Hn Hk. on_u c x. on_u c y.
  pose proof (Z.mod_pos_bound nx (2 ^ 256) ltac:(lia)) as HM.
  assert (CN : forall v, u_count_ones c (uof c v) = Ret (ones 256 v)) by (intros v; exact (proj1 (u_count_of c v))).
  assert (OM : ones 256 (nx mod 2 ^ 256) = ones 256 nx) by (apply ones_ext; intros; apply mod_bit; assumption).
  rewrite !u_rol_of, !u_ror_of, !u_swap_of, !u_rev_of by lia. cbn [bind].
  rewrite !u_ror_of, !u_op_and_of, !u_op_or_of, !u_op_xor_of, !u_op_not_of, !not_lnot, !u_swap_of, !u_rev_of, !CN by lia.
  rewrite ones_swap, ones_rev, !ones_rot, OM by lia.
  do 4 (split; [reflexivity|]).
  split; [apply uof_cong, mod256_bits; intros i Hi; pose proof (swap_index i Hi); pose proof (swap_index (255 - i) ltac:(lia));
    rewrite swap_num_bit, !rev_num_bit, swap_num_bit by lia; f_equal; zz|].
  split; [f_equal; apply uof_cong; rewrite swap_turn, swap_mod by lia; reflexivity|].
  split; [f_equal; apply uof_cong; rewrite rev_rot by lia; f_equal; f_equal; apply mod256_bits; intros i Hi; rewrite !rev_num_bit, mod_bit by lia; reflexivity|].
  repeat split; apply uof_cong, mod256_bits; intros i Hi; pose proof (swap_index i Hi);
    rewrite ?Z.land_spec, ?Z.lor_spec, ?Z.lxor_spec, ?Z.lnot_spec by lia;
    rewrite ?swap_num_bit, ?rev_num_bit by lia;
    rewrite ?Z.land_spec, ?Z.lor_spec, ?Z.lxor_spec, ?Z.lnot_spec by lia; reflexivity.
Qed.

Lemma rev_push_back_aux {A} k (r l : list A) : (k <= length l)%nat -> rev (skipn k l ++ r) = rev r ++ firstn (length l - k) (rev l).
Proof. intros H. rewrite rev_app_distr, firstn_rev. replace (length l - (length l - k))%nat with k by lia. reflexivity. Qed.
Lemma i_order_laws c x : wf_i x ->
  i_from_be_bytes c (i_to_le_bytes c x) = i_swap_bytes x /\
  i_from_le_bytes c (i_to_be_bytes c x) = i_swap_bytes x /\
  i_to_be_bytes c (i_swap_bytes x) = i_to_le_bytes c x /\
  i_to_le_bytes c (i_swap_bytes x) = i_to_be_bytes c x /\
  i_to_be_bytes c x = rev (i_to_le_bytes c x) /\
  i_from_be c (i_to_be c x) = x /\ i_from_le c (i_to_le c x) = x /\
  i_to_be c (i_from_be c x) = x /\ i_to_le c (i_from_le c x) = x /\
  i_to_be c (i_to_le c x) = i_swap_bytes x.
Proof.
  intros H. on_i c x.
  assert (B : is_bytes 32 (le_bytes 32 nx)) by (split; [apply le_bytes_length|apply le_bytes_range]).
  assert (S : iof c (value_le (rev (le_bytes 32 nx))) = iof c (swap_num nx)) by reflexivity.
  assert (SS : iof c (swap_num (swap_num nx)) = iof c nx).
  { apply iof_cong. apply le_eq_mod. rewrite !swap_num_le. apply rev_involutive. }
  destruct (i_bytes_of c nx) as (L & E & _). destruct (i_bytes_of c (swap_num nx)) as (L' & E' & _).
  destruct (i_from_of c (le_bytes 32 nx) B) as (_ & F1). destruct (i_from_of c (rev (le_bytes 32 nx)) (is_bytes_rev _ _ B)) as (F2 & _).
  unfold i_from_be, i_to_be, i_from_le, i_to_le.
  rewrite i_swap_of, L, E, L', E', F1, F2, swap_num_le, rev_involutive, S.
  destruct (big_endian c); cbn [negb]; rewrite ?i_swap_of, ?SS; auto 12.
Qed.
Lemma i_byte_moves c x k : wf_i x -> (k < 32)%nat -> exists l r p q,
  i_wrapping_shl c x (8 * Z.of_nat k) = Ret l /\ i_to_be_bytes c l = push_back k 0 (i_to_be_bytes c x) /\
  i_wrapping_shr c x (8 * Z.of_nat k) = Ret r /\ i_to_be_bytes c r = push_front k (if i_is_negative c x then 255 else 0) (i_to_be_bytes c x) /\
  i_rotate_left c x (8 * Z.of_nat k) = Ret p /\ i_to_be_bytes c p = turn k (i_to_be_bytes c x) /\
  i_rotate_right c x (8 * Z.of_nat k) = Ret q /\ i_to_be_bytes c q = turn (32 - k) (i_to_be_bytes c x).
Proof.
  intros H Hk. on_i c x. unfold i_wrapping_shl, i_wrapping_shr. rewrite land_small by lia.
  rewrite ishl3_of, sar3_of, i_rol_of, i_ror_of by lia.
  do 4 eexists.
  assert (B : forall v, i_to_be_bytes c (iof c v) = rev (le_bytes 32 v)) by (intros v; exact (proj1 (proj2 (i_bytes_of c v)))).
  assert (M : le_bytes 32 (nx mod 2 ^ 256) = le_bytes 32 nx) by (rewrite <- p32; apply le_bytes_mod).
  pose proof (Z.mod_pos_bound nx (2 ^ 256) ltac:(lia)) as HM.
  split; [reflexivity|]. split.
  { rewrite !B, bytes_shl, rev_push_front by lia. reflexivity. }
  split; [reflexivity|]. split.
  { rewrite !B, bytes_shr by lia. rewrite i_is_negative_of by lia. unfold push_front. rewrite <- rev_repeat', rev_length, <- rev_push_back_aux by (rewrite le_bytes_length; lia).
    f_equal. f_equal. destruct (Z.ltb_spec nx 0).
    - rewrite <- le_bytes_ones. f_equal. symmetry. apply Z.div_unique with (nx + 2 ^ 256); lia.
    - rewrite <- le_bytes_zero. f_equal. apply Z.div_small. lia. }
  split; [reflexivity|]. split.
  { rewrite !B, bytes_rot, rev_turn, le_bytes_length, M by (rewrite ?le_bytes_length; lia). f_equal. lia. }
  split; [reflexivity|].
  rewrite !B, bytes_rotr, rev_turn, le_bytes_length, M by (rewrite ?le_bytes_length; lia). reflexivity.
Qed.
Lemma i_byte_logic c x y : wf_i x -> wf_i y ->
  i_to_be_bytes c (i_op_and x y) = bytewise Z.land (i_to_be_bytes c x) (i_to_be_bytes c y) /\
  i_to_be_bytes c (i_op_or x y) = bytewise Z.lor (i_to_be_bytes c x) (i_to_be_bytes c y) /\
  i_to_be_bytes c (i_op_xor x y) = bytewise Z.lxor (i_to_be_bytes c x) (i_to_be_bytes c y) /\
  i_to_be_bytes c (i_op_not x) = map (fun b => 255 - b) (i_to_be_bytes c x).
Proof.
  intros Hx Hy. on_i c x. on_i c y.
  assert (B : forall v, i_to_be_bytes c (iof c v) = rev (le_bytes 32 v)) by (intros v; exact (proj1 (proj2 (i_bytes_of c v)))).
  rewrite i_op_and_of, i_op_or_of, i_op_xor_of, i_op_not_of, not_lnot, !B.
  rewrite (bytes_map2 Z.land andb eq_refl) by (intros; apply Z.land_spec).
  rewrite (bytes_map2 Z.lor orb eq_refl) by (intros; apply Z.lor_spec).
  rewrite (bytes_map2 Z.lxor xorb eq_refl) by (intros; apply Z.lxor_spec).
  rewrite bytes_not, map_rev, !rev_bytewise by (rewrite !le_bytes_length; reflexivity). auto.
Qed.
Lemma i_permutation_laws c x y n k : wf_i x -> wf_i y -> 0 <= n <= 256 -> (k <= 32)%nat ->
  i_count_ones c (i_swap_bytes x) = i_count_ones c x /\ i_count_ones c (i_reverse_bits x) = i_count_ones c x /\
  (let! r := i_rotate_left c x n in i_count_ones c r) = i_count_ones c x /\
  (let! r := i_rotate_right c x n in i_count_ones c r) = i_count_ones c x /\
  i_swap_bytes (i_reverse_bits x) = i_reverse_bits (i_swap_bytes x) /\
  (let! r := i_rotate_left c x (8 * Z.of_nat k) in Ret (i_swap_bytes r)) = i_rotate_right c (i_swap_bytes x) (8 * Z.of_nat k) /\
  (let! r := i_rotate_left c x n in Ret (i_reverse_bits r)) = i_rotate_right c (i_reverse_bits x) n /\
  i_swap_bytes (i_op_and x y) = i_op_and (i_swap_bytes x) (i_swap_bytes y) /\
  i_swap_bytes (i_op_or x y) = i_op_or (i_swap_bytes x) (i_swap_bytes y) /\
  i_swap_bytes (i_op_xor x y) = i_op_xor (i_swap_bytes x) (i_swap_bytes y) /\
  i_swap_bytes (i_op_not x) = i_op_not (i_swap_bytes x) /\
  i_reverse_bits (i_op_and x y) = i_op_and (i_reverse_bits x) (i_reverse_bits y) /\
  i_reverse_bits (i_op_or x y) = i_op_or (i_reverse_bits x) (i_reverse_bits y) /\
  i_reverse_bits (i_op_xor x y) = i_op_xor (i_reverse_bits x) (i_reverse_bits y) /\
  i_reverse_bits (i_op_not x) = i_op_not (i_reverse_bits x).
Proof.
  intros Hx Hy Hn Hk. on_i c x. on_i c y.
  pose proof (Z.mod_pos_bound nx (2 ^ 256) ltac:(lia)) as HM.
  assert (CN : forall v, i_count_ones c (iof c v) = Ret (ones 256 v)) by (intros v; exact (proj1 (i_count_of c v))).
  assert (OM : ones 256 (nx mod 2 ^ 256) = ones 256 nx) by (apply ones_ext; intros; apply mod_bit; assumption).
  rewrite !i_rol_of, !i_ror_of, !i_swap_of, !i_rev_of by lia. cbn [bind].
  rewrite !i_ror_of, !i_op_and_of, !i_op_or_of, !i_op_xor_of, !i_op_not_of, !not_lnot, !i_swap_of, !i_rev_of, !CN by lia.
  rewrite ones_swap, ones_rev, !ones_rot, OM by lia.
  do 4 (split; [reflexivity|]).
  split; [apply iof_cong, mod256_bits; intros i Hi; pose proof (swap_index i Hi); pose proof (swap_index (255 - i) ltac:(lia));
    rewrite swap_num_bit, !rev_num_bit, swap_num_bit by lia; f_equal; zz|].
  split; [f_equal; apply iof_cong; rewrite swap_turn, swap_mod by lia; reflexivity|].
  split; [f_equal; apply iof_cong; rewrite rev_rot by lia; f_equal; f_equal; apply mod256_bits; intros i Hi; rewrite !rev_num_bit, mod_bit by lia; reflexivity|].
  repeat split; apply iof_cong, mod256_bits; intros i Hi; pose proof (swap_index i Hi);
    rewrite ?Z.land_spec, ?Z.lor_spec, ?Z.lxor_spec, ?Z.lnot_spec by lia;
    rewrite ?swap_num_bit, ?rev_num_bit by lia;
    rewrite ?Z.land_spec, ?Z.lor_spec, ?Z.lxor_spec, ?Z.lnot_spec by lia; reflexivity.
Qed.
