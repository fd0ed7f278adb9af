(** * Numbers of several U256 limbs: proofs of C79 *)

From Coq Require Import ZArith List String Bool Lia ZifyBool.
Import ListNotations.
From Verif Require Import M_Prim M_Words M_Intr M_Mul M_Ops M_UintApi M_Convert Spec Spec_Limbs
  P_Words P_AddSub P_Bits P_Mul P_Ops P_Embed P_Laws P_Idioms.
Local Notation length := List.length.
Open Scope Z_scope.

Lemma from_bool_of c b : u_from_bool c b = uof c (Z.b2z b).
Proof. unfold u_from_bool. apply u_new_of. destruct b; cbn [Z.b2z]; lia. Qed.
Lemma b2z_range b : 0 <= Z.b2z b <= 1.
Proof. destruct b; cbn; lia. Qed.

(** ** Addition and subtraction *)
Lemma add_of c x y : 0 <= x < 2 ^ 256 -> 0 <= y < 2 ^ 256 -> exists s o,
  u_overflowing_add c (uof c x) (uof c y) = (uof c s, o) /\ 0 <= s < 2 ^ 256 /\ s + 2 ^ 256 * Z.b2z o = x + y.
Proof.
  intros X Y. unfold u_overflowing_add. rewrite uaddc_of by assumption.
  destruct (Z.leb_spec (2 ^ 256) (x + y)).
  - exists (x + y - 2 ^ 256), true. split; [|cbn [Z.b2z]; lia]. f_equal. apply uof_cong.
    rewrite <- (Z.mod_add (x + y - 2 ^ 256) 1) by lia. f_equal; lia.
  - exists (x + y), false. split; [reflexivity|cbn [Z.b2z]; lia].
Qed.
Lemma sub_of c x y : 0 <= x < 2 ^ 256 -> 0 <= y < 2 ^ 256 -> exists s o,
  u_overflowing_sub c (uof c x) (uof c y) = (uof c s, o) /\ 0 <= s < 2 ^ 256 /\ s - 2 ^ 256 * Z.b2z o = x - y.
Proof.
  intros X Y. unfold u_overflowing_sub. rewrite usubc_of by assumption.
  destruct (Z.ltb_spec x y).
  - exists (x - y + 2 ^ 256), true. split; [|cbn [Z.b2z]; lia]. f_equal. apply uof_cong.
    rewrite <- (Z.mod_add (x - y) 1) by lia. f_equal; lia.
  - exists (x - y), false. split; [reflexivity|cbn [Z.b2z]; lia].
Qed.

Definition base (n : nat) : Z := 2 ^ (256 * Z.of_nat n).
Lemma base_S n : base (S n) = 2 ^ 256 * base n.
Proof. unfold base. rewrite <- Z.pow_add_r by lia. f_equal. lia. Qed.

Lemma add_limbs_ok c l : forall m carry, length m = length l -> Forall wf_u l -> Forall wf_u m ->
  exists r k, add_limbs c l m carry = (r, k) /\ length r = length l /\ Forall wf_u r /\
    number c r + base (length l) * Z.b2z k = number c l + number c m + Z.b2z carry.
Proof.
  induction l as [|a l IH]; intros m carry L Wl Wm.
  - destruct m; [|discriminate L]. exists [], carry. repeat split; auto. cbn [number length]. change (base 0) with 1. lia.
  - destruct m as [|b m]; [discriminate L|]. injection L as L.
    pose proof (Forall_inv Wl) as Ha. pose proof (Forall_inv_tail Wl) as Wl'. pose proof (Forall_inv Wm) as Hb.
    pose proof (Forall_inv_tail Wm) as Wm'. clear Wl Wm.
    cbn [add_limbs number length]. rewrite base_S. on_u c a. on_u c b.
    destruct (add_of c na nb Hna Hnb) as (s & o & E & S & V). rewrite E.
    pose proof (b2z_range carry) as K.
    destruct (add_of c s (Z.b2z carry) S ltac:(lia)) as (s' & p & E' & S' & V'). rewrite from_bool_of, E'.
    destruct (IH m (o || p) L Wl' Wm') as (r & k & -> & R & Wr & N).
    exists (uof c s' :: r), k. split; [reflexivity|]. split; [cbn [length]; congruence|]. split; [constructor; [apply wf_uof|exact Wr]|].
    cbn [number]. rewrite uval_of_small by exact S'.
    assert (O : Z.b2z (o || p) = Z.b2z o + Z.b2z p) by (destruct o, p; cbn [Z.b2z orb] in *; lia).
    rewrite O in N. lia.
Qed.
Lemma sub_limbs_ok c l : forall m borrow, length m = length l -> Forall wf_u l -> Forall wf_u m ->
  exists r k, sub_limbs c l m borrow = (r, k) /\ length r = length l /\ Forall wf_u r /\
    number c r - base (length l) * Z.b2z k = number c l - number c m - Z.b2z borrow.
Proof.
  induction l as [|a l IH]; intros m borrow L Wl Wm.
  - destruct m; [|discriminate L]. exists [], borrow. repeat split; auto. cbn [number length]. change (base 0) with 1. lia.
  - destruct m as [|b m]; [discriminate L|]. injection L as L.
    pose proof (Forall_inv Wl) as Ha. pose proof (Forall_inv_tail Wl) as Wl'. pose proof (Forall_inv Wm) as Hb.
    pose proof (Forall_inv_tail Wm) as Wm'. clear Wl Wm.
    cbn [sub_limbs number length]. rewrite base_S. on_u c a. on_u c b.
    destruct (sub_of c na nb Hna Hnb) as (s & o & E & S & V). rewrite E.
    pose proof (b2z_range borrow) as K.
    destruct (sub_of c s (Z.b2z borrow) S ltac:(lia)) as (s' & p & E' & S' & V'). rewrite from_bool_of, E'.
    destruct (IH m (o || p) L Wl' Wm') as (r & k & -> & R & Wr & N).
    exists (uof c s' :: r), k. split; [reflexivity|]. split; [cbn [length]; congruence|]. split; [constructor; [apply wf_uof|exact Wr]|].
    cbn [number]. rewrite uval_of_small by exact S'.
    assert (O : Z.b2z (o || p) = Z.b2z o + Z.b2z p) by (destruct o, p; cbn [Z.b2z orb] in *; lia).
    rewrite O in N. lia.
Qed.

(** ** The full product *)
Lemma word_product W x y : 0 <= x < W -> 0 <= y < W -> 0 <= x * y <= (W - 1) * (W - 1).
Proof. intros X Y. split; [nia|]. apply Z.mul_le_mono_nonneg; lia. Qed.
Lemma wide W ah al bh bl q1 r1 q2 r2 q3 r3 :
  0 <= ah < W -> 0 <= al < W -> 0 <= bh < W -> 0 <= bl < W ->
  0 <= r1 < W -> 0 <= r2 < W -> 0 <= r3 < W ->
  al * bl = W * q1 + r1 -> al * bh + q1 = W * q2 + r2 -> ah * bl + r2 = W * q3 + r3 ->
  0 <= q1 < W /\ 0 <= q2 < W /\ 0 <= q3 < W /\
  0 <= al * bl < W * W /\ 0 <= al * bh < W * W /\ 0 <= ah * bl < W * W /\ 0 <= ah * bh < W * W /\
  al * bh + q1 < W * W /\ ah * bl + r2 < W * W /\
  (ah * W + al) * (bh * W + bl) = (ah * bh + q2 + q3) * (W * W) + (r3 * W + r1) /\
  ah * bh + q2 + q3 < W * W.
Proof.
  intros A1 A2 B1 B2 R1 R2 R3 E1 E2 E3.
  pose proof (word_product W _ _ A2 B2) as P1. pose proof (word_product W _ _ A2 B1) as P2.
  pose proof (word_product W _ _ A1 B2) as P3. pose proof (word_product W _ _ A1 B1) as P4.
  assert (S : (W - 1) * (W - 1) = W * W - 2 * W + 1) by ring.
  assert (Q1 : 0 <= q1 < W) by (split; nia).
  assert (Q2 : 0 <= q2 < W) by (split; nia).
  assert (Q3 : 0 <= q3 < W) by (split; nia).
  assert (E : (ah * W + al) * (bh * W + bl) = (ah * bh + q2 + q3) * (W * W) + (r3 * W + r1)).
  { transitivity (ah * bh * (W * W) + (ah * bl) * W + (al * bh) * W + al * bl); [ring|].
    replace (ah * bl) with (W * q3 + r3 - r2) by lia. replace (al * bh) with (W * q2 + r2 - q1) by lia. rewrite E1. ring. }
  repeat apply conj; try lia.
Qed.

Lemma mul_ok c x y : 0 <= x < 2 ^ 256 -> 0 <= y < 2 ^ 256 -> 0 <= x * y < 2 ^ 256 ->
  u_op_mul c (uof c x) (uof c y) = Ret (uof c (x * y)).
Proof. intros. rewrite u_op_mul_of by assumption. apply dbg_ok, in_u_ok. assumption. Qed.
Lemma plus_ok c x y : 0 <= x < 2 ^ 256 -> 0 <= y < 2 ^ 256 -> x + y < 2 ^ 256 ->
  u_op_add c (uof c x) (uof c y) = Ret (uof c (x + y)).
Proof. intros. rewrite u_op_add_of by assumption. apply dbg_ok, in_u_ok. lia. Qed.

Lemma mul_wide_of c x y : 0 <= x < 2 ^ 256 -> 0 <= y < 2 ^ 256 -> exists hi lo,
  mul_wide c (uof c x) (uof c y) = Ret (uof c hi, uof c lo) /\ 0 <= hi < 2 ^ 256 /\ 0 <= lo < 2 ^ 256 /\
  x * y = hi * 2 ^ 256 + lo.
Proof.
  intros X Y. unfold mul_wide. rewrite !u_into_words_of. unfold u_from_prim.
  pose proof pow256 as W2.
  assert (S : forall v, 0 <= v < 2 ^ 256 -> (v / 2 ^ 128) mod 2 ^ 128 = v / 2 ^ 128 /\ 0 <= v / 2 ^ 128 < 2 ^ 128 /\
    0 <= v mod 2 ^ 128 < 2 ^ 128 /\ v = v / 2 ^ 128 * 2 ^ 128 + v mod 2 ^ 128).
  { intros v V. assert (0 <= v / 2 ^ 128 < 2 ^ 128).
    { split; [apply Z.div_pos; lia|apply Z.div_lt_upper_bound; lia]. }
    rewrite Z.mod_small by assumption. split; [reflexivity|]. split; [assumption|].
    split; [apply Z.mod_pos_bound; lia|]. pose proof (Z.div_mod v (2 ^ 128) ltac:(lia)). lia. }
  destruct (S x X) as (-> & A1 & A2 & EX). destruct (S y Y) as (-> & B1 & B2 & EY). clear S.
  revert A1 A2 EX B1 B2 EY.
  generalize (x / 2 ^ 128) as ah, (x mod 2 ^ 128) as al, (y / 2 ^ 128) as bh, (y mod 2 ^ 128) as bl.
  intros ah al bh bl A1 A2 EX B1 B2 EY.
  pose proof (Z.div_mod (al * bl) (2 ^ 128) ltac:(lia)) as E1. pose proof (Z.mod_pos_bound (al * bl) (2 ^ 128) ltac:(lia)) as R1.
  set (q1 := al * bl / 2 ^ 128) in *. set (r1 := (al * bl) mod 2 ^ 128) in *.
  pose proof (Z.div_mod (al * bh + q1) (2 ^ 128) ltac:(lia)) as E2.
  pose proof (Z.mod_pos_bound (al * bh + q1) (2 ^ 128) ltac:(lia)) as R2.
  set (q2 := (al * bh + q1) / 2 ^ 128) in *. set (r2 := (al * bh + q1) mod 2 ^ 128) in *.
  pose proof (Z.div_mod (ah * bl + r2) (2 ^ 128) ltac:(lia)) as E3.
  pose proof (Z.mod_pos_bound (ah * bl + r2) (2 ^ 128) ltac:(lia)) as R3.
  set (q3 := (ah * bl + r2) / 2 ^ 128) in *. set (r3 := (ah * bl + r2) mod 2 ^ 128) in *.
  destruct (wide _ ah al bh bl q1 r1 q2 r2 q3 r3 A1 A2 B1 B2 R1 R2 R3 E1 E2 E3)
    as (Q1 & Q2 & Q3 & P1 & P2 & P3 & P4 & M1 & M2 & EQ & HI).
  rewrite <- W2 in P1, P2, P3, P4, M1, M2, EQ, HI.
  assert (F : forall v, 0 <= v < 2 ^ 128 -> 0 <= v < 2 ^ 256) by (intros; lia).
  rewrite !u_new_of by lia.
  rewrite (mul_ok c al bl) by auto. cbn [bind].
  rewrite (mul_ok c al bh) by auto. cbn [bind].
  rewrite (u_op_shr_of c (al * bl)) by lia. cbn [bind]. fold q1.
  rewrite (plus_ok c (al * bh) q1) by auto. cbn [bind].
  rewrite (mul_ok c ah bl) by auto. cbn [bind].
  rewrite (u_op_and_of c (al * bh + q1)), pow_ones, Z.land_ones by lia. fold r2.
  rewrite (plus_ok c (ah * bl) r2) by auto. cbn [bind].
  rewrite (mul_ok c ah bh) by auto. cbn [bind].
  rewrite (u_op_shr_of c (al * bh + q1)) by lia. cbn [bind]. fold q2.
  rewrite (plus_ok c (ah * bh) q2) by (auto; lia). cbn [bind].
  rewrite (u_op_shr_of c (ah * bl + r2)) by lia. cbn [bind]. fold q3.
  rewrite (plus_ok c (ah * bh + q2) q3) by (auto; lia). cbn [bind].
  rewrite u_op_shl_of by lia. cbn [bind].
  rewrite u_op_and_of, Z.land_ones by lia. fold r1.
  rewrite u_op_or_of, lor_disjoint by lia.
  exists (ah * bh + q2 + q3), (r3 * 2 ^ 128 + r1).
  split; [|split; [lia|split; [lia|rewrite <- EQ, EX, EY; reflexivity]]].
  do 2 f_equal. apply uof_cong. rewrite <- (Z.mod_add (r3 * 2 ^ 128 + r1) q3) by lia. f_equal.
  rewrite E3, W2. ring.
Qed.

Lemma mul_wide_ok c a b : wf_u a -> wf_u b -> exists hi lo,
  mul_wide c a b = Ret (hi, lo) /\ wf_u hi /\ wf_u lo /\
  uval c a * uval c b = uval c hi * 2 ^ 256 + uval c lo /\
  u_wrapping_mul c a b = Ret lo /\ u_overflowing_mul c a b = Ret (lo, negb (u_eq c hi U256_ZERO)).
Proof.
  intros Ha Hb. on_u c a. on_u c b. destruct (mul_wide_of c na nb Hna Hnb) as (hi & lo & E & H & L & V).
  exists (uof c hi), (uof c lo). split; [exact E|]. split; [apply wf_uof|]. split; [apply wf_uof|].
  rewrite !uval_of_small by assumption. split; [exact V|].
  assert (U : uof c (na * nb) = uof c lo).
  { apply uof_cong. rewrite V, Z.add_comm. apply Z.mod_add. lia. }
  rewrite uwmul, U. split; [reflexivity|]. rewrite u_overflowing_mul_of, U by assumption.
  rewrite (U256_ZERO_of c), u_eq_of by lia. do 2 f_equal. f_equal. rewrite in_u_256, V.
  destruct (Z.eqb_spec hi 0) as [->|N]; [|assert (1 <= hi) by lia].
  - apply andb_true_intro. split; [apply Z.leb_le|apply Z.ltb_lt]; lia.
  - apply andb_false_intro2. apply Z.ltb_ge. lia.
Qed.

(** ** A number times one limb *)
Lemma carry_fits B a k carry hi lo s o : 0 <= a < B -> 0 <= k < B -> 0 <= carry < B ->
  a * k = hi * B + lo -> s + B * Z.b2z o = lo + carry -> 0 <= s -> hi + Z.b2z o < B.
Proof.
  intros A K C E V S. assert (a * k <= (B - 1) * (B - 1)) by (apply Z.mul_le_mono_nonneg; lia).
  destruct (Z.lt_ge_cases (hi + Z.b2z o) B) as [|G]; [assumption|exfalso].
  assert (B * B <= (hi + Z.b2z o) * B) by (apply Z.mul_le_mono_nonneg_r; lia). nia.
Qed.
Lemma scale_limbs_ok c k : wf_u k -> forall l carry, Forall wf_u l -> wf_u carry ->
  exists r t, scale_limbs c l k carry = Ret (r, t) /\ length r = length l /\ Forall wf_u r /\ wf_u t /\
    number c r + base (length l) * uval c t = number c l * uval c k + uval c carry.
Proof.
  intros Hk. on_u c k. induction l as [|a l IH]; intros carry Wl Wc.
  - exists [], carry. repeat split; auto; try apply Wc. cbn [number length]. change (base 0) with 1. lia.
  - pose proof (Forall_inv Wl) as Ha. pose proof (Forall_inv_tail Wl) as Wl'. clear Wl. cbn [scale_limbs number length]. rewrite base_S. on_u c a. on_u c carry.
    destruct (mul_wide_of c na nk Hna Hnk) as (hi & lo & E & H & L & V). rewrite E. cbn [bind].
    destruct (add_of c lo ncarry L Hncarry) as (s & o & E' & S & V'). rewrite E'.
    pose proof (carry_fits _ _ _ _ _ _ _ _ Hna Hnk Hncarry V V' (proj1 S)) as F. pose proof (b2z_range o) as O.
    rewrite from_bool_of, plus_ok by lia. cbn [bind].
    destruct (IH (uof c (hi + Z.b2z o)) Wl' (wf_uof _ _)) as (r & t & -> & R & Wr & Wt & N). cbn [bind].
    exists (uof c s :: r), t. split; [reflexivity|]. split; [cbn [length]; congruence|].
    split; [constructor; [apply wf_uof|exact Wr]|]. split; [exact Wt|].
    cbn [number]. rewrite uval_of_small by exact S. rewrite (uval_of_small c (hi + Z.b2z o)) in N by lia.
    transitivity (s + 2 ^ 256 * (number c r + base (length l) * uval c t)); [ring|]. rewrite N.
    transitivity (na * nk + 2 ^ 256 * (number c l * nk) + ncarry); [|ring]. rewrite V.
    replace s with (lo + ncarry - 2 ^ 256 * Z.b2z o) by lia. ring.
Qed.
