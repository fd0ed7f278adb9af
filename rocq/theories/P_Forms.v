(** * Operator forms and shifts *)

From Coq Require Import ZArith List String Bool Lia ZifyBool.
Import ListNotations.
From Verif Require Import M_Prim M_Words M_Llvm M_Intr M_Div M_Mul M_Ops M_UintApi M_IntApi Spec Spec_Shift
  P_Words P_Llvm P_AddSub P_Bits P_Mul P_Div P_DivKnuth P_IntDiv P_Ops.
Open Scope Z_scope.

Ltac all_eq := repeat (apply Forall_cons; [|]); try apply Forall_nil.

Lemma u_prim_forms {R} (op : cfg -> u256 -> u256 -> R) c x p : 0 <= p < 2 ^ 128 ->
  u_rhs_prim op c x p = op c x (uof c p) /\ u_lhs_prim op c p x = op c (uof c p) x.
Proof. intros. unfold u_rhs_prim, u_lhs_prim. rewrite u_new_of by lia. auto. Qed.
Lemma i_prim_forms {R} (op : cfg -> i256 -> i256 -> R) c x p : - 2 ^ 127 <= p < 2 ^ 127 ->
  i_rhs_prim op c x p = op c x (iof c p) /\ i_lhs_prim op c p x = op c (iof c p) x.
Proof. intros. unfold i_rhs_prim, i_lhs_prim. rewrite i_new_of by lia. auto. Qed.

Lemma u_operators c a b : wf_u a -> wf_u b ->
  let out s msg := if debug_assertions c && negb (in_u 256 s) then Panic msg else Ret (uof c s) in
  Forall (eq (out (uval c a + uval c b) "attempt to add with overflow"%string))
    [u_op_add c a b; u_op_add_assign c a b] /\
  Forall (eq (out (uval c a - uval c b) "attempt to subtract with overflow"%string))
    [u_op_sub c a b; u_op_sub_assign c a b] /\
  Forall (eq (out (uval c a * uval c b) "attempt to multiply with overflow"%string))
    [u_op_mul c a b; u_op_mul_assign c a b].
Proof.
  intros Ha Hb. on_u c a. on_u c b. cbv zeta.
  repeat split; all_eq; rewrite ?u_op_add_assign_of, ?u_op_sub_assign_of, ?u_op_mul_assign_of,
    ?u_op_add_of, ?u_op_sub_of, ?u_op_mul_of by lia; reflexivity.
Qed.
Lemma i_operators c a b : wf_i a -> wf_i b ->
  let out s msg := if debug_assertions c && negb (in_i 256 s) then Panic msg else Ret (iof c s) in
  Forall (eq (out (ival c a + ival c b) "attempt to add with overflow"%string))
    [i_op_add c a b; i_op_add_assign c a b] /\
  Forall (eq (out (ival c a - ival c b) "attempt to subtract with overflow"%string))
    [i_op_sub c a b; i_op_sub_assign c a b] /\
  Forall (eq (out (ival c a * ival c b) "attempt to multiply with overflow"%string))
    [i_op_mul c a b; i_op_mul_assign c a b] /\
  i_op_neg c a = out (- ival c a) "attempt to negate with overflow"%string.
Proof.
  intros Ha Hb. on_i c a. on_i c b. cbv zeta.
  repeat split; all_eq; rewrite ?i_op_add_assign_of, ?i_op_sub_assign_of, ?i_op_mul_assign_of,
    ?i_op_add_of, ?i_op_sub_of, ?i_op_mul_of, ?i_op_neg_dbg by lia; reflexivity.
Qed.
Lemma u_mixed_operators c a p : wf_u a -> 0 <= p < 2 ^ 128 ->
  let out s msg := if debug_assertions c && negb (in_u 256 s) then Panic msg else Ret (uof c s) in
  Forall (eq (out (uval c a + p) "attempt to add with overflow"%string))
    [u_rhs_prim u_op_add c a p; u_lhs_prim u_op_add c p a; u_rhs_prim u_op_add_assign c a p] /\
  Forall (eq (out (uval c a - p) "attempt to subtract with overflow"%string))
    [u_rhs_prim u_op_sub c a p; u_rhs_prim u_op_sub_assign c a p] /\
  u_lhs_prim u_op_sub c p a = out (p - uval c a) "attempt to subtract with overflow"%string /\
  Forall (eq (out (uval c a * p) "attempt to multiply with overflow"%string))
    [u_rhs_prim u_op_mul c a p; u_lhs_prim u_op_mul c p a; u_rhs_prim u_op_mul_assign c a p] /\
  (p <> 0 -> u_rhs_prim u_op_div c a p = Ret (uof c (uval c a / p)) /\
             u_rhs_prim u_op_rem c a p = Ret (uof c (uval c a mod p)) /\
             u_rhs_prim u_op_div_assign c a p = Ret (uof c (uval c a / p)) /\
             u_rhs_prim u_op_rem_assign c a p = Ret (uof c (uval c a mod p))) /\
  (uval c a <> 0 -> u_lhs_prim u_op_div c p a = Ret (uof c (p / uval c a)) /\
                    u_lhs_prim u_op_rem c p a = Ret (uof c (p mod uval c a))) /\
  (p = 0 -> Forall panics [u_rhs_prim u_op_div c a p; u_rhs_prim u_op_rem c a p;
                           u_rhs_prim u_op_div_assign c a p; u_rhs_prim u_op_rem_assign c a p]) /\
  (uval c a = 0 -> Forall panics [u_lhs_prim u_op_div c p a; u_lhs_prim u_op_rem c p a]).
Proof.
  intros Ha Hp. on_u c a. cbv zeta. unfold u_rhs_prim, u_lhs_prim. rewrite u_new_of by lia.
  rewrite ?u_op_add_assign_of, ?u_op_sub_assign_of, ?u_op_mul_assign_of,
    ?u_op_add_of, ?u_op_sub_of, ?u_op_mul_of, ?u_op_div_of, ?u_op_rem_of, ?u_op_div_assign_of, ?u_op_rem_assign_of by lia.
  rewrite (Z.add_comm p), (Z.mul_comm p).
  repeat split; all_eq; try reflexivity; intros.
  all: try (repeat split; rewrite (proj2 (Z.eqb_neq _ 0)) by assumption; reflexivity).
  all: rewrite (proj2 (Z.eqb_eq _ 0)) by assumption; repeat constructor; eexists; reflexivity.
Qed.
Lemma i_mixed_operators c a p : wf_i a -> - 2 ^ 127 <= p < 2 ^ 127 ->
  let out s msg := if debug_assertions c && negb (in_i 256 s) then Panic msg else Ret (iof c s) in
  Forall (eq (out (ival c a + p) "attempt to add with overflow"%string))
    [i_rhs_prim i_op_add c a p; i_lhs_prim i_op_add c p a; i_rhs_prim i_op_add_assign c a p] /\
  Forall (eq (out (ival c a - p) "attempt to subtract with overflow"%string))
    [i_rhs_prim i_op_sub c a p; i_rhs_prim i_op_sub_assign c a p] /\
  i_lhs_prim i_op_sub c p a = out (p - ival c a) "attempt to subtract with overflow"%string /\
  Forall (eq (out (ival c a * p) "attempt to multiply with overflow"%string))
    [i_rhs_prim i_op_mul c a p; i_lhs_prim i_op_mul c p a; i_rhs_prim i_op_mul_assign c a p] /\
  (p <> 0 -> i_rhs_prim i_op_div c a p = Ret (iof c (Z.quot (ival c a) p)) /\
             i_rhs_prim i_op_rem c a p = Ret (iof c (Z.rem (ival c a) p)) /\
             i_rhs_prim i_op_div_assign c a p = Ret (iof c (Z.quot (ival c a) p)) /\
             i_rhs_prim i_op_rem_assign c a p = Ret (iof c (Z.rem (ival c a) p))) /\
  (ival c a <> 0 -> i_lhs_prim i_op_div c p a = Ret (iof c (Z.quot p (ival c a))) /\
                    i_lhs_prim i_op_rem c p a = Ret (iof c (Z.rem p (ival c a)))) /\
  (p = 0 -> Forall panics [i_rhs_prim i_op_div c a p; i_rhs_prim i_op_rem c a p;
                           i_rhs_prim i_op_div_assign c a p; i_rhs_prim i_op_rem_assign c a p]) /\
  (ival c a = 0 -> Forall panics [i_lhs_prim i_op_div c p a; i_lhs_prim i_op_rem c p a]).
Proof.
  intros Ha Hp. on_i c a. cbv zeta. unfold i_rhs_prim, i_lhs_prim. rewrite i_new_of by lia.
  rewrite ?i_op_add_assign_of, ?i_op_sub_assign_of, ?i_op_mul_assign_of,
    ?i_op_add_of, ?i_op_sub_of, ?i_op_mul_of, ?i_op_div_of, ?i_op_rem_of, ?i_op_div_assign_of, ?i_op_rem_assign_of by lia.
  rewrite (Z.add_comm p), (Z.mul_comm p).
  repeat split; all_eq; try reflexivity; intros.
  all: try (repeat split; rewrite (proj2 (Z.eqb_neq _ 0)) by assumption; reflexivity).
  all: rewrite (proj2 (Z.eqb_eq _ 0)) by assumption; repeat constructor; eexists; reflexivity.
Qed.

(** ** Shift amounts *)
Lemma u_low_uval c x : wf_u x -> u_low c x = uval c x mod 2 ^ 128.
Proof. intros H. on_u c x. apply u_low_of. Qed.

Lemma mod_mod_pow a m n : 0 <= m <= n -> (a mod 2 ^ n) mod 2 ^ m = a mod 2 ^ m.
Proof.
  intros. replace (2 ^ n) with (2 ^ m * 2 ^ (n - m)) by (rewrite <- Z.pow_add_r; [f_equal|..]; lia).
  rewrite Z.rem_mul_r by (try apply Z.pow_nonzero; try apply Z.pow_pos_nonneg; lia).
  rewrite (Z.mul_comm (2 ^ m)), Z.mod_add, Z.mod_mod by (apply Z.pow_nonzero; lia). reflexivity.
Qed.

Lemma u32_max_of c : u32_max_as_u256 c = uof c (2 ^ 32 - 1).
Proof. unfold u32_max_as_u256. rewrite u_from_words_of by lia. f_equal. Qed.
Lemma u32_as_i256_of c v : 0 <= v < 2 ^ 32 -> u32_as_i256 c v = iof c v.
Proof.
  intros. unfold u32_as_i256. rewrite as_i_wrap, wrap_i_small by (change (128 - 1) with 127; lia).
  rewrite i_from_words_of, Z.mod_small by lia. f_equal.
Qed.

Lemma amount_as_u32_ok c a : amt_ok a -> amount_as_u32 c a = amt_val c a mod 2 ^ 32.
Proof.
  destruct a as [v|v|v|v]; cbn [amt_ok amt_val amount_as_u32]; intros H.
  - rewrite Z.mod_small by lia. reflexivity.
  - reflexivity.
  - on_i c v. rewrite i_into_words_of. unfold as_u.
    rewrite <- (mod_mod_pow (wrap_i 128 nv) 32 128), wrap_i_mod, mod_mod_pow by lia. reflexivity.
  - on_u c v. rewrite u_into_words_of. unfold as_u. rewrite mod_mod_pow by lia. reflexivity.
Qed.
Lemma amount_try_u32_ok c a : amt_ok a ->
  amount_try_u32 c a = if in_u 32 (amt_val c a) then Some (amt_val c a) else None.
Proof.
  unfold in_u.
  destruct a as [v|v|v|v]; cbn [amt_ok amt_val amount_try_u32]; intros H.
  - replace ((0 <=? v) && (v <? 2 ^ 32)) with true by lia. reflexivity.
  - replace (v <=? 2 ^ 32 - 1) with (v <? 2 ^ 32) by lia. reflexivity.
  - on_i c v. rewrite !u32_as_i256_of, i_ge_of, i_le_of by lia.
    replace (nv <=? 2 ^ 32 - 1) with (nv <? 2 ^ 32) by lia.
    destruct ((0 <=? nv) && (nv <? 2 ^ 32)) eqn:E; [|reflexivity].
    rewrite i_low_of. unfold as_u.
    rewrite <- (mod_mod_pow (wrap_i 128 nv) 32 128), wrap_i_mod, mod_mod_pow, Z.mod_small by lia. reflexivity.
  - on_u c v. rewrite u32_max_of, u_le_of, u_low_of by lia. unfold as_u. rewrite mod_mod_pow by lia.
    destruct (Z.leb_spec nv (2 ^ 32 - 1)).
    + rewrite Z.mod_small by lia. replace ((0 <=? nv) && (nv <? 2 ^ 32)) with true by lia. reflexivity.
    + replace ((0 <=? nv) && (nv <? 2 ^ 32)) with false by lia. reflexivity.
Qed.
Lemma amount_to_u32_ok c a : amt_ok a ->
  amount_to_u32 c a =
  if debug_assertions c then (if in_u 32 (amt_val c a) then amt_val c a else 2 ^ 32 - 1)
  else amt_val c a mod 2 ^ 32.
Proof.
  intros. unfold amount_to_u32. rewrite amount_as_u32_ok, amount_try_u32_ok by assumption.
  destruct (in_u _ _); reflexivity.
Qed.

(** what the release shift does with an amount *)
Definition rel_amt (c : cfg) (s : Z) : Z :=
  if llvm c then s mod 256 else if s <? 256 then s else 128 + s mod 128.

Section release.
Variable c : cfg.
Hypothesis Hd : debug_assertions c = false.
Lemma n_shl3_big x s : 256 <= s -> n_shl3 c (uof c x) s = Ret (uof c (x * 2 ^ (128 + s mod 128))).
Proof.
  intros Hs. unfold n_shl3, debug_assert. rewrite Hd. cbn [andb bind].
  replace (s =? 0) with false by lia. replace (s <? 128) with false by lia.
  rewrite land_127, u_low_of. assert (0 <= s mod 128 < 128) by zz. rewrite u_shl_ok by lia. cbn [bind].
  rewrite u_from_words_of by (try (apply Z.mod_pos_bound; lia); lia). f_equal. apply uof_cong.
  rewrite Z.pow_add_r, Z.add_0_r by lia.
  replace (x * (2 ^ 128 * 2 ^ (s mod 128))) with (x * 2 ^ (s mod 128) * 2 ^ 128) by ring.
  rewrite pow256, !Z.mul_mod_distr_r by lia. f_equal. rewrite Z.mod_mod by lia.
  rewrite Z.mul_mod_idemp_l by lia. reflexivity.
Qed.
Lemma n_shr3_big x s : 0 <= x < 2 ^ 256 -> 256 <= s -> n_shr3 c (uof c x) s = Ret (uof c (x / 2 ^ (128 + s mod 128))).
Proof.
  intros Hx Hs. unfold n_shr3, debug_assert. rewrite Hd. cbn [andb bind].
  replace (s =? 0) with false by lia. replace (s <? 128) with false by lia.
  rewrite land_127, u_high_of. assert (0 <= s mod 128 < 128) by zz. rewrite p_shr_ok by lia. cbn [bind].
  assert (0 <= x / 2 ^ 128 < 2 ^ 128) by zz. rewrite Z.mod_small by lia.
  assert (Hp : 0 < 2 ^ (s mod 128)) by lia.
  assert (0 <= x / 2 ^ 128 / 2 ^ (s mod 128) < 2 ^ 128).
  { split; [apply Z.div_pos; lia|]. apply Z.div_lt_upper_bound; [lia|]. nia. }
  rewrite u_from_words_of by lia. f_equal. f_equal.
  rewrite Z.pow_add_r, Z.div_div by lia. lia.
Qed.
Lemma n_sar3_big x s : - 2 ^ 255 <= x < 2 ^ 255 -> 256 <= s ->
  n_sar3 c (iof c x) s = Ret (iof c (x / 2 ^ (128 + s mod 128))).
Proof.
  intros Hx Hs. unfold n_sar3, debug_assert. rewrite Hd. cbn [andb bind].
  replace (s =? 0) with false by lia. replace (s <? 128) with false by lia.
  rewrite land_127, i_high_of, ihi_small by lia. assert (0 <= s mod 128 < 128) by zz.
  rewrite !p_shr_ok by lia. cbn [bind].
  assert (- 2 ^ 127 <= x / 2 ^ 128 < 2 ^ 127) by zz.
  assert (Hp : 0 < 2 ^ (s mod 128)) by lia.
  assert (HB : - 2 ^ 127 <= x / 2 ^ 128 / 2 ^ (s mod 128) < 2 ^ 127) by (apply div_pow2_range; lia).
  assert (HC : - 2 ^ 127 <= x / 2 ^ 128 / 2 ^ 127 < 2 ^ 127) by (apply div_pow2_range; lia).
  rewrite i_from_words_of by lia. f_equal.
  rewrite Z.pow_add_r, <- Z.div_div by lia.
  set (q := x / 2 ^ 128 / 2 ^ (s mod 128)) in *.
  assert (HS : x / 2 ^ 128 / 2 ^ 127 = if q <? 0 then -1 else 0).
  { assert (q < 0 <-> x / 2 ^ 128 < 0).
    { unfold q. pose proof (Z.div_pos (x / 2 ^ 128) (2 ^ (s mod 128))).
      split; intros; [lia|]. apply Z.div_lt_upper_bound; lia. }
    destruct (Z.ltb_spec q 0); zz. }
  rewrite HS. f_equal. destruct (Z.ltb_spec q 0); zz.
Qed.
End release.

Lemma shl3_big c x s : debug_assertions c = false -> 256 <= s -> shl3 c (uof c x) s = Ret (uof c (x * 2 ^ rel_amt c s)).
Proof.
  intros Hd Hs. unfold shl3, rel_amt. destruct (llvm c); [rewrite l_shl3_of; reflexivity|].
  replace (s <? 256) with false by lia. apply n_shl3_big; assumption.
Qed.
Lemma shr3_big c x s : debug_assertions c = false -> 0 <= x < 2 ^ 256 -> 256 <= s ->
  shr3 c (uof c x) s = Ret (uof c (x / 2 ^ rel_amt c s)).
Proof.
  intros Hd Hx Hs. unfold shr3, rel_amt. destruct (llvm c); [rewrite l_shr3_of by lia; reflexivity|].
  replace (s <? 256) with false by lia. apply n_shr3_big; assumption.
Qed.
Lemma sar3_big c x s : debug_assertions c = false -> - 2 ^ 255 <= x < 2 ^ 255 -> 256 <= s ->
  sar3 c (iof c x) s = Ret (iof c (x / 2 ^ rel_amt c s)).
Proof.
  intros Hd Hx Hs. unfold sar3, rel_amt. destruct (llvm c); [rewrite l_sar3_of by lia; reflexivity|].
  replace (s <? 256) with false by lia. apply n_sar3_big; assumption.
Qed.
Lemma rel_amt_small c s : 0 <= s < 256 -> rel_amt c s = s.
Proof. intros. unfold rel_amt. rewrite Z.mod_small by lia. replace (s <? 256) with true by lia. destruct (llvm c); reflexivity. Qed.

Lemma iofu c x : i_as_u256 (iof c x) = uof c x. Proof. apply i_as_u256_of. Qed.

Definition shift_out {A} (c : cfg) (s : Z) (msg : string) (v : Z -> A) : res A :=
  if debug_assertions c then (if in_u 8 s then Ret (v s) else Panic msg)
  else Ret (v (rel_amt c (s mod 2 ^ 32))).

Lemma in_u8_spec s : in_u 8 s = (0 <=? s) && (s <? 256). Proof. reflexivity. Qed.

Lemma shift_generic {A} c a msg (f : Z -> res A) (v : Z -> A) : amt_ok a ->
  (forall s, 0 <= s < 256 -> f s = Ret (v s)) ->
  (debug_assertions c = false -> forall s, 256 <= s -> f s = Ret (v (rel_amt c s))) ->
  (if debug_assertions c && (255 <? amount_to_u32 c a) then Panic msg else f (amount_to_u32 c a)) =
  shift_out c (amt_val c a) msg v.
Proof.
  intros Ha Hs Hb. rewrite amount_to_u32_ok by assumption. unfold shift_out.
  destruct (debug_assertions c) eqn:Hd; cbn [andb].
  - rewrite in_u8_spec. unfold in_u. generalize (amt_val c a). intros s.
    destruct ((0 <=? s) && (s <? 2 ^ 32)) eqn:E1.
    + destruct (Z.ltb_spec s 256).
      * replace (255 <? s) with false by lia. replace ((0 <=? s) && true) with true by lia. apply Hs. lia.
      * replace (255 <? s) with true by lia. rewrite andb_false_r. reflexivity.
    + replace ((0 <=? s) && (s <? 256)) with false by lia. reflexivity.
  - pose proof (Z.mod_pos_bound (amt_val c a) (2 ^ 32) ltac:(lia)) as H.
    revert H. generalize (amt_val c a mod 2 ^ 32). intros s H.
    destruct (Z.ltb_spec s 256); [rewrite rel_amt_small by lia; apply Hs; lia|apply Hb; auto].
Qed.

Lemma ishl3_big c x s : debug_assertions c = false -> 256 <= s ->
  ishl3 c (iof c x) s = Ret (iof c (x * 2 ^ rel_amt c s)).
Proof.
  intros. unfold ishl3, res_map. rewrite i_as_u256_of, shl3_big by assumption. cbn [bind].
  rewrite u_as_i256_of. reflexivity.
Qed.

Lemma u_shl_amt_of c x a : 0 <= x < 2 ^ 256 -> amt_ok a ->
  u_shl_amt c (uof c x) a =
  shift_out c (amt_val c a) "attempt to shift left with overflow" (fun s => uof c (x * 2 ^ s)).
Proof. intros Hx Ha. unfold u_shl_amt, u_op_shl.
  apply (shift_generic c a _ _ (fun s => _)); auto using shl3_big, shl3_of. Qed.
Lemma u_shr_amt_of c x a : 0 <= x < 2 ^ 256 -> amt_ok a ->
  u_shr_amt c (uof c x) a =
  shift_out c (amt_val c a) "attempt to shift right with overflow" (fun s => uof c (x / 2 ^ s)).
Proof. intros Hx Ha. unfold u_shr_amt, u_op_shr.
  apply (shift_generic c a _ _ (fun s => _)); auto using shr3_big, shr3_of. Qed.
Lemma i_shl_amt_of c x a : - 2 ^ 255 <= x < 2 ^ 255 -> amt_ok a ->
  i_shl_amt c (iof c x) a =
  shift_out c (amt_val c a) "attempt to shift left with overflow" (fun s => iof c (x * 2 ^ s)).
Proof. intros Hx Ha. unfold i_shl_amt, i_op_shl.
  apply (shift_generic c a _ _ (fun s => _)); auto using ishl3_big, ishl3_of. Qed.
Lemma i_shr_amt_of c x a : - 2 ^ 255 <= x < 2 ^ 255 -> amt_ok a ->
  i_shr_amt c (iof c x) a =
  shift_out c (amt_val c a) "attempt to shift right with overflow" (fun s => iof c (x / 2 ^ s)).
Proof. intros Hx Ha. unfold i_shr_amt, i_op_shr.
  apply (shift_generic c a _ _ (fun s => _)); auto using sar3_big, sar3_of. Qed.
Lemma shift_assign_eq c x y a :
  u_shl_assign c x a = u_shl_amt c x a /\ u_shr_assign c x a = u_shr_amt c x a /\
  i_shl_assign c y a = i_shl_amt c y a /\ i_shr_assign c y a = i_shr_amt c y a.
Proof.
  unfold u_shl_assign, u_shr_assign, i_shl_assign, i_shr_assign, u_shl_amt, u_shr_amt, i_shl_amt, i_shr_amt.
  unfold u_op_shl, u_op_shr, i_op_shl, i_op_shr.
  destruct (debug_assertions c); cbn [andb]; rewrite ?shl2_eq, ?shr2_eq, ?ishl2_eq, ?sar2_eq; auto.
Qed.

Lemma shift_small {A} c s msg (v : Z -> A) : 0 <= s < 256 -> shift_out c s msg v = Ret (v s).
Proof.
  intros. unfold shift_out. rewrite in_u8_spec, Z.mod_small, rel_amt_small by lia.
  replace ((0 <=? s) && (s <? 256)) with true by lia.
  destruct (debug_assertions c); reflexivity.
Qed.

Lemma shift_family c x y a : wf_u x -> wf_i y -> amt_ok a -> let s := amt_val c a in 0 <= s < 256 ->
  Forall (eq (Ret (uof c (uval c x * 2 ^ s)))) [u_shl_amt c x a; u_shl_assign c x a; u_wrapping_shl c x s] /\
  Forall (eq (Ret (uof c (uval c x / 2 ^ s)))) [u_shr_amt c x a; u_shr_assign c x a; u_wrapping_shr c x s] /\
  Forall (eq (Ret (iof c (ival c y * 2 ^ s)))) [i_shl_amt c y a; i_shl_assign c y a; i_wrapping_shl c y s] /\
  Forall (eq (Ret (iof c (ival c y / 2 ^ s)))) [i_shr_amt c y a; i_shr_assign c y a; i_wrapping_shr c y s].
Proof.
  intros Hx Hy Ha. on_u c x. on_i c y. cbv zeta. intros Hs.
  destruct (shift_assign_eq c (uof c nx) (iof c ny) a) as (E1 & E2 & E3 & E4).
  unfold u_wrapping_shl, u_wrapping_shr, i_wrapping_shl, i_wrapping_shr.
  rewrite E1, E2, E3, E4, u_shl_amt_of, u_shr_amt_of, i_shl_amt_of, i_shr_amt_of, !shift_small by (assumption || lia).
  rewrite land_255, Z.mod_small by lia.
  rewrite shl3_of, shr3_of, ishl3_of, sar3_of by lia.
  repeat split; all_eq; reflexivity.
Qed.

Lemma named_shift_family c x y s : wf_u x -> wf_i y -> 0 <= s < 2 ^ 32 -> let k := s mod 256 in
  (let r := uof c (uval c x * 2 ^ k) in
   u_wrapping_shl c x s = Ret r /\ u_overflowing_shl c x s = Ret (r, 256 <=? s) /\
   u_checked_shl c x s = Ret (if 256 <=? s then None else Some r)) /\
  (let r := uof c (uval c x / 2 ^ k) in
   u_wrapping_shr c x s = Ret r /\ u_overflowing_shr c x s = Ret (r, 256 <=? s) /\
   u_checked_shr c x s = Ret (if 256 <=? s then None else Some r)) /\
  (let r := iof c (ival c y * 2 ^ k) in
   i_wrapping_shl c y s = Ret r /\ i_overflowing_shl c y s = Ret (r, 256 <=? s) /\
   i_checked_shl c y s = Ret (if 256 <=? s then None else Some r)) /\
  (let r := iof c (ival c y / 2 ^ k) in
   i_wrapping_shr c y s = Ret r /\ i_overflowing_shr c y s = Ret (r, 256 <=? s) /\
   i_checked_shr c y s = Ret (if 256 <=? s then None else Some r)).
Proof.
  intros Hx Hy Hs. on_u c x. on_i c y. cbv zeta.
  unfold u_checked_shl, u_checked_shr, i_checked_shl, i_checked_shr,
    u_overflowing_shl, u_overflowing_shr, i_overflowing_shl, i_overflowing_shr,
    u_wrapping_shl, u_wrapping_shr, i_wrapping_shl, i_wrapping_shr.
  assert (0 <= s mod 256 < 256) by zz.
  rewrite land_255, shl3_of, shr3_of, ishl3_of, sar3_of by lia. cbn [bind none_if_flag].
  replace (255 <? s) with (256 <=? s) by lia. auto 20.
Qed.

Lemma shift_debug_panics c x y a : wf_u x -> wf_i y -> amt_ok a -> debug_assertions c = true ->
  ~ (0 <= amt_val c a < 256) ->
  Forall (eq (Panic "attempt to shift left with overflow")) [u_shl_amt c x a; u_shl_assign c x a] /\
  Forall (eq (Panic "attempt to shift left with overflow")) [i_shl_amt c y a; i_shl_assign c y a] /\
  Forall (eq (Panic "attempt to shift right with overflow")) [u_shr_amt c x a; u_shr_assign c x a] /\
  Forall (eq (Panic "attempt to shift right with overflow")) [i_shr_amt c y a; i_shr_assign c y a].
Proof.
  intros Hx Hy Ha Hd Hs. on_u c x. on_i c y.
  destruct (shift_assign_eq c (uof c nx) (iof c ny) a) as (E1 & E2 & E3 & E4).
  rewrite E1, E2, E3, E4, u_shl_amt_of, u_shr_amt_of, i_shl_amt_of, i_shr_amt_of by (assumption || lia).
  unfold shift_out. rewrite Hd, in_u8_spec. replace ((0 <=? amt_val c a) && (amt_val c a <? 256)) with false by lia.
  repeat split; all_eq; reflexivity.
Qed.

Lemma shift_release c x y a : wf_u x -> wf_i y -> amt_ok a -> debug_assertions c = false ->
  let m := amt_val c a mod 2 ^ 32 in
  let k := if llvm c then m mod 256 else if m <? 256 then m else 128 + m mod 128 in
  Forall (eq (Ret (uof c (uval c x * 2 ^ k)))) [u_shl_amt c x a; u_shl_assign c x a] /\
  Forall (eq (Ret (uof c (uval c x / 2 ^ k)))) [u_shr_amt c x a; u_shr_assign c x a] /\
  Forall (eq (Ret (iof c (ival c y * 2 ^ k)))) [i_shl_amt c y a; i_shl_assign c y a] /\
  Forall (eq (Ret (iof c (ival c y / 2 ^ k)))) [i_shr_amt c y a; i_shr_assign c y a].
Proof.
  intros Hx Hy Ha Hd. on_u c x. on_i c y. cbv zeta.
  destruct (shift_assign_eq c (uof c nx) (iof c ny) a) as (E1 & E2 & E3 & E4).
  rewrite E1, E2, E3, E4, u_shl_amt_of, u_shr_amt_of, i_shl_amt_of, i_shr_amt_of by (assumption || lia).
  unfold shift_out, rel_amt. rewrite Hd.
  repeat split; all_eq; reflexivity.
Qed.

Lemma shift_release_masked c x y a : wf_u x -> wf_i y -> amt_ok a -> debug_assertions c = false ->
  llvm c = true \/ amt_val c a mod 2 ^ 32 < 256 \/ 128 <= amt_val c a mod 256 ->
  let k := amt_val c a mod 256 in
  Forall (eq (Ret (uof c (uval c x * 2 ^ k)))) [u_shl_amt c x a; u_shl_assign c x a] /\
  Forall (eq (Ret (uof c (uval c x / 2 ^ k)))) [u_shr_amt c x a; u_shr_assign c x a] /\
  Forall (eq (Ret (iof c (ival c y * 2 ^ k)))) [i_shl_amt c y a; i_shl_assign c y a] /\
  Forall (eq (Ret (iof c (ival c y / 2 ^ k)))) [i_shr_amt c y a; i_shr_assign c y a].
Proof.
  intros Hx Hy Ha Hd Hk. pose proof (shift_release c x y a Hx Hy Ha Hd) as H. cbv zeta in *.
  replace (amt_val c a mod 256) with ((amt_val c a mod 2 ^ 32) mod 256) in * by (change 256 with (2 ^ 8); apply mod_mod_pow; lia).
  assert (HM : 0 <= amt_val c a mod 2 ^ 32) by (apply Z.mod_pos_bound; lia).
  generalize dependent (amt_val c a mod 2 ^ 32). intros m Hk H Hm.
  replace (m mod 256) with (if llvm c then m mod 256 else if m <? 256 then m else 128 + m mod 128); [assumption|].
  destruct (llvm c); [reflexivity|]. destruct Hk as [Hk|Hk]; [discriminate|]. destruct (Z.ltb_spec m 256); zz.
Qed.
