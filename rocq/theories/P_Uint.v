(** * U256 arithmetic methods: proofs of C01 - C05 *)

From Coq Require Import ZArith List String Bool Lia ZifyBool.
Import ListNotations.
From Verif Require Import M_Prim M_Words M_Intr M_Div M_Mul M_Ops M_UintApi M_IntApi Spec
  P_Words P_AddSub P_Bits P_Mul P_Div P_DivKnuth P_IntDiv P_Ops.
Open Scope Z_scope.

Lemma clamp_u_eq s : clamp_u s = if s <? 0 then 0 else if s <? 2 ^ 256 then s else 2 ^ 256 - 1.
Proof. unfold clamp_u, MAXU. destruct (Z.ltb_spec s 0), (Z.ltb_spec s (2 ^ 256)); lia. Qed.
Lemma clamp_i_eq s : clamp_i s = if s <? - 2 ^ 255 then - 2 ^ 255 else if s <? 2 ^ 255 then s else 2 ^ 255 - 1.
Proof. unfold clamp_i, MINI, MAXI. destruct (Z.ltb_spec s (- 2 ^ 255)), (Z.ltb_spec s (2 ^ 255)); lia. Qed.

Ltac flagcase := match goal with |- context [in_u 256 ?s] => 
    rewrite (in_u_256 s); destruct (Z.leb_spec 0 s), (Z.ltb_spec s (2 ^ 256)); cbn [andb negb]
  | |- context [in_i 256 ?s] => 
    rewrite (in_i_256 s); destruct (Z.leb_spec (- 2 ^ 255) s), (Z.ltb_spec s (2 ^ 255)); cbn [andb negb] end.

Lemma add_family c a b : wf_u a -> wf_u b -> let s := uval c a + uval c b in
  u_wrapping_add c a b = uof c s /\
  u_overflowing_add c a b = (uof c s, negb (in_u 256 s)) /\
  u_checked_add c a b = (if in_u 256 s then Some (uof c s) else None) /\
  u_saturating_add c a b = uof c (clamp_u s).
Proof.
  intros Ha Hb. on_u c a. on_u c b. cbv zeta.
  split; [apply add3_of|]. split; [apply u_overflowing_add_of; lia|].
  unfold u_saturating_add. rewrite u_checked_add_of by lia. split; [reflexivity|].
  rewrite clamp_u_eq, (U256_MAX_of c). flagcase; try lia.
  - replace (na + nb <? 0) with false by lia. reflexivity.
  - replace (na + nb <? 0) with false by lia. reflexivity.
Qed.

Lemma sub_family c a b : wf_u a -> wf_u b -> let d := uval c a - uval c b in
  u_wrapping_sub c a b = uof c d /\
  u_overflowing_sub c a b = (uof c d, negb (in_u 256 d)) /\
  u_checked_sub c a b = (if in_u 256 d then Some (uof c d) else None) /\
  u_saturating_sub c a b = uof c (clamp_u d) /\
  u_abs_diff c a b = Ret (uof c (Z.abs d)).
Proof.
  intros Ha Hb. on_u c a. on_u c b. cbv zeta.
  split; [apply sub3_of|]. split; [apply u_overflowing_sub_of; lia|].
  unfold u_saturating_sub. rewrite u_checked_sub_of by lia. split; [reflexivity|].
  split.
  - rewrite clamp_u_eq, (U256_MIN_of c). flagcase; try lia.
    + replace (na - nb <? 0) with false by lia. reflexivity.
    + replace (na - nb <? 0) with true by lia. reflexivity.
  - unfold u_abs_diff. rewrite u_lt_of, !u_op_sub_of by lia. unfold dbg. rewrite !in_u_256.
    destruct (Z.ltb_spec na nb).
    + replace ((0 <=? nb - na) && (nb - na <? 2 ^ 256)) with true by lia. rewrite andb_false_r.
      do 2 f_equal. lia.
    + replace ((0 <=? na - nb) && (na - nb <? 2 ^ 256)) with true by lia. rewrite andb_false_r.
      do 2 f_equal. lia.
Qed.

Lemma neg_family c a : wf_u a -> let m := - uval c a in
  u_wrapping_neg c a = uof c m /\
  u_overflowing_neg c a = (uof c m, negb (in_u 256 m)) /\
  u_checked_neg c a = (if in_u 256 m then Some (uof c m) else None).
Proof.
  intros Ha. on_u c a. cbv zeta. unfold u_wrapping_neg, u_checked_neg.
  rewrite u_overflowing_neg_of by lia. repeat split. cbn. destruct (in_u _ _); reflexivity.
Qed.

Lemma mul_family c a b : wf_u a -> wf_u b -> let p := uval c a * uval c b in
  u_wrapping_mul c a b = Ret (uof c p) /\
  u_overflowing_mul c a b = Ret (uof c p, negb (in_u 256 p)) /\
  u_checked_mul c a b = Ret (if in_u 256 p then Some (uof c p) else None) /\
  u_saturating_mul c a b = Ret (uof c (clamp_u p)).
Proof.
  intros Ha Hb. on_u c a. on_u c b. cbv zeta.
  split; [apply mul3_of|]. split; [apply u_overflowing_mul_of; lia|].
  unfold u_saturating_mul. rewrite u_checked_mul_of by lia. split; [reflexivity|].
  rewrite clamp_u_eq, (U256_MAX_of c). cbn [bind]. flagcase; try nia.
  - replace (na * nb <? 0) with false by lia. reflexivity.
  - replace (na * nb <? 0) with false by lia. reflexivity.
Qed.

Lemma div_family c a b : wf_u a -> wf_u b ->
  let q := uval c a / uval c b in let r := uval c a mod uval c b in
  if uval c b =? 0 then
    Forall (eq (Panic "attempt to divide by zero"))
      [u_op_div c a b; u_op_div_assign c a b; u_div_euclid c a b; u_wrapping_div c a b; u_wrapping_div_euclid c a b;
       u_saturating_div c a b] /\
    Forall (eq (Panic "attempt to divide by zero"))
      [u_overflowing_div c a b; u_overflowing_div_euclid c a b] /\
    Forall (eq (Panic "attempt to calculate the remainder with a divisor of zero"))
      [u_op_rem c a b; u_rem_euclid c a b; u_wrapping_rem c a b; u_wrapping_rem_euclid c a b] /\
    Forall (eq (Panic "attempt to calculate the remainder with a divisor of zero"))
      [u_overflowing_rem c a b; u_overflowing_rem_euclid c a b] /\
    panics (u_op_rem_assign c a b) /\
    Forall (eq (Ret None))
      [u_checked_div c a b; u_checked_div_euclid c a b; u_checked_rem c a b; u_checked_rem_euclid c a b]
  else
    Forall (eq (Ret (uof c q)))
      [u_op_div c a b; u_op_div_assign c a b; u_div_euclid c a b; u_wrapping_div c a b; u_wrapping_div_euclid c a b;
       u_saturating_div c a b] /\
    Forall (eq (Ret (uof c r)))
      [u_op_rem c a b; u_op_rem_assign c a b; u_rem_euclid c a b; u_wrapping_rem c a b; u_wrapping_rem_euclid c a b] /\
    Forall (eq (Ret (uof c q, false))) [u_overflowing_div c a b; u_overflowing_div_euclid c a b] /\
    Forall (eq (Ret (uof c r, false))) [u_overflowing_rem c a b; u_overflowing_rem_euclid c a b] /\
    Forall (eq (Ret (Some (uof c q)))) [u_checked_div c a b; u_checked_div_euclid c a b] /\
    Forall (eq (Ret (Some (uof c r)))) [u_checked_rem c a b; u_checked_rem_euclid c a b].
Proof.
  intros Ha Hb. on_u c a. on_u c b. cbv zeta.
  unfold u_checked_div, u_checked_div_euclid, u_checked_rem, u_checked_rem_euclid,
    u_overflowing_div, u_overflowing_div_euclid, u_overflowing_rem, u_overflowing_rem_euclid,
    u_div_euclid, u_rem_euclid, u_saturating_div, u_wrapping_div, u_wrapping_div_euclid,
    u_wrapping_rem, u_wrapping_rem_euclid, panics.
  rewrite u_op_div_of, u_op_rem_of, u_op_div_assign_of, u_op_rem_assign_of, (U256_ZERO_of c), u_eq_of by lia.
  destruct (Z.eqb_spec nb 0); cbn [bind]; repeat split; repeat constructor.
  eexists; reflexivity.
Qed.

Lemma div_rem_ok c a b : 0 <= a < 2 ^ 256 -> 0 <= b < 2 ^ 256 ->
  u_div_rem c (uof c a) (uof c b) =
  if b =? 0 then Panic "attempt to divide by zero" else Ret (uof c (a / b), uof c (a mod b)).
Proof.
  intros. unfold u_div_rem. rewrite u_eq_prim_of, !u_cmp_prim_of, is_gt_cmp, is_le_cmp by lia.
  destruct (Z.eqb_spec b 0) as [->|]; [reflexivity|].
  replace (b <=? 0) with false by lia. rewrite udivmod4_ok by lia. cbn [bind assume_init].
  pose proof (Z.mod_pos_bound a b ltac:(lia)).
  assert (a mod b <= a) by (apply Z.mod_le; lia).
  assert (0 <= a / b <= a) by (split; [apply Z.div_pos; lia | apply Z.div_le_upper_bound; nia]).
  rewrite u_ge_of, !u_gt_of by lia.
  replace (b <=? a mod b) with false by lia. replace (a <? a mod b) with false by lia.
  replace (a <? a / b) with false by lia. reflexivity.
Qed.

Lemma div_rem_family c a b : wf_u a -> wf_u b ->
  let q := uval c a / uval c b in let r := uval c a mod uval c b in
  if uval c b =? 0 then
    Forall (eq (Panic "attempt to divide by zero"))
      [u_div_rem c a b; u_div_rem_euclid c a b; u_wrapping_div_rem c a b; u_wrapping_div_rem_euclid c a b;
       u_saturating_div_rem c a b; u_saturating_div_rem_euclid c a b] /\
    Forall (eq (Panic "attempt to divide by zero"))
      [u_overflowing_div_rem c a b; u_overflowing_div_rem_euclid c a b] /\
    Forall (eq (Ret None)) [u_checked_div_rem c a b; u_checked_div_rem_euclid c a b]
  else
    Forall (eq (Ret (uof c q, uof c r)))
      [u_div_rem c a b; u_div_rem_euclid c a b; u_wrapping_div_rem c a b; u_wrapping_div_rem_euclid c a b;
       u_saturating_div_rem c a b; u_saturating_div_rem_euclid c a b] /\
    Forall (eq (Ret (uof c q, uof c r, false)))
      [u_overflowing_div_rem c a b; u_overflowing_div_rem_euclid c a b] /\
    Forall (eq (Ret (Some (uof c q, uof c r))))
      [u_checked_div_rem c a b; u_checked_div_rem_euclid c a b].
Proof.
  intros Ha Hb. on_u c a. on_u c b. cbv zeta.
  unfold u_saturating_div_rem, u_saturating_div_rem_euclid, u_overflowing_div_rem, u_overflowing_div_rem_euclid,
    u_checked_div_rem_euclid, u_checked_div_rem, u_wrapping_div_rem, u_wrapping_div_rem_euclid, u_div_rem_euclid.
  rewrite div_rem_ok, (U256_ZERO_of c), u_eq_of, !u_cmp_prim_of, is_gt_cmp, is_le_cmp by lia.
  destruct (Z.eqb_spec nb 0) as [->|]; cbn [bind].
  - repeat split; repeat constructor.
  - replace (nb <=? 0) with false by lia. repeat split; repeat constructor.
Qed.
