(** * Primitive integers inside the 256-bit types, and truncating casts: proofs of C63 and C65 *)

From Coq Require Import ZArith Zpow_facts List String Bool Lia ZifyBool.
Import ListNotations.
From Verif Require Import M_Prim M_Words M_Intr M_Div M_Mul M_Ops M_UintApi M_IntApi M_Convert M_Float
  Spec Spec_Bits Spec_Convert Spec_Float Spec_Embed
  P_Words P_AddSub P_Bits P_BitsApi P_Mul P_Div P_DivKnuth P_IntDiv P_Ops P_Uint P_Int P_Pow P_Count P_Bytes P_Convert
  P_Round P_FloatTrip P_Laws.
Open Scope Z_scope.

Lemma from_in t : In t u_from_types -> In t int_types. Proof. cbn. intuition. Qed.
Lemma ifrom_in t : In t i_from_types -> In t int_types. Proof. cbn. intuition. Qed.
Lemma u_from_is c t a : usize_ok c -> In t u_from_types -> t_in c t a = true ->
  u_from_prim c a = uof c a /\ 0 <= a < 2 ^ 128.
Proof.
  intros U T A. destruct (from_family c t a true U A) as (H & _). destruct (H T).
  pose proof (t_in_bounds c t a U (from_in t T) A). split; [assumption|lia].
Qed.
Lemma i_from_is c t a : usize_ok c -> In t i_from_types -> t_in c t a = true ->
  i_from_prim c a = iof c a /\ - 2 ^ 127 <= a < 2 ^ 128.
Proof.
  intros U T A. destruct (from_family c t a true U A) as (_ & _ & H & _). destruct (H T).
  pose proof (t_in_bounds c t a U (ifrom_in t T) A). split; assumption.
Qed.
Lemma u_out c t v : usize_ok c -> In t int_types -> 0 <= v < 2 ^ 256 ->
  u_try_into c t (uof c v) = checked c t v /\ u_as c t (uof c v) = t_wrap c t v.
Proof.
  intros U T V. rewrite (proj1 (into_family c t (uof c v) (iof c 0) U T (wf_uof _ _) (wf_iof _ _))).
  rewrite (proj1 (as_family c t (uof c v) (iof c 0) U T (wf_uof _ _) (wf_iof _ _))).
  rewrite uval_of_small by assumption. split; reflexivity.
Qed.
Lemma i_out c t v : usize_ok c -> In t int_types -> - 2 ^ 255 <= v < 2 ^ 255 ->
  i_try_into c t (iof c v) = checked c t v /\ i_as c t (iof c v) = t_wrap c t v.
Proof.
  intros U T V. rewrite (proj2 (into_family c t (uof c 0) (iof c v) U T (wf_uof _ _) (wf_iof _ _))).
  rewrite (proj2 (as_family c t (uof c 0) (iof c v) U T (wf_uof _ _) (wf_iof _ _))).
  rewrite ival_of_small by assumption. split; reflexivity.
Qed.
Lemma dbg_in {A} c b msg (v : A) : b = true -> dbg c b msg v = Ret v.
Proof. intros ->. unfold dbg. rewrite andb_false_r. reflexivity. Qed.

Lemma land_bound a b n : 0 <= n -> 0 <= a < 2 ^ n -> 0 <= b -> 0 <= Z.land a b < 2 ^ n.
Proof.
  intros Hn Ha Hb. assert (N : 0 <= Z.land a b) by (apply Z.land_nonneg; lia). split; [assumption|].
  assert (E : Z.land a b = Z.land a b mod 2 ^ n).
  { apply Z.bits_inj'. intros i Hi. rewrite testbit_mod_pow2 by lia. rewrite Z.land_spec.
    destruct (Z.ltb_spec i n); [reflexivity|].
    rewrite <- (Z.mod_small a (2 ^ n)) by lia. rewrite testbit_mod_pow2 by lia.
    replace (i <? n) with false by lia. reflexivity. }
  rewrite E. apply Z.mod_pos_bound. lia.
Qed.
Lemma lor_bound a b n : 0 <= n -> 0 <= a < 2 ^ n -> 0 <= b < 2 ^ n -> 0 <= Z.lor a b < 2 ^ n.
Proof.
  intros Hn Ha Hb. assert (N : 0 <= Z.lor a b) by (apply Z.lor_nonneg; lia). split; [assumption|].
  assert (E : Z.lor a b = Z.lor a b mod 2 ^ n).
  { rewrite <- (Z.mod_small a (2 ^ n)), <- (Z.mod_small b (2 ^ n)) by lia.
    apply Z.bits_inj'. intros i Hi. rewrite testbit_mod_pow2, Z.lor_spec, !testbit_mod_pow2 by lia.
    destruct (Z.ltb_spec i n); reflexivity. }
  rewrite E. apply Z.mod_pos_bound. lia.
Qed.
Lemma lxor_bound a b n : 0 <= n -> 0 <= a < 2 ^ n -> 0 <= b < 2 ^ n -> 0 <= Z.lxor a b < 2 ^ n.
Proof.
  intros Hn Ha Hb. assert (N : 0 <= Z.lxor a b) by (apply Z.lxor_nonneg; lia). split; [assumption|].
  assert (E : Z.lxor a b = Z.lxor a b mod 2 ^ n).
  { rewrite <- (Z.mod_small a (2 ^ n)), <- (Z.mod_small b (2 ^ n)) by lia.
    apply Z.bits_inj'. intros i Hi. rewrite testbit_mod_pow2, Z.lxor_spec, !testbit_mod_pow2 by lia.
    destruct (Z.ltb_spec i n); reflexivity. }
  rewrite E. apply Z.mod_pos_bound. lia.
Qed.

Lemma u64r_low v : 0 <= v < 2 ^ 128 -> u64r v = rne 53 v.
Proof.
  intros Hv. unfold u64r. rewrite Z.div_small, Z.mod_small by lia.
  change (rne 53 0) with 0. rewrite Z.mul_0_l, Z.add_0_l.
  apply rne_rep; [lia|apply rne_nonneg; lia|apply rne_is_rep; lia].
Qed.
Lemma rnd_low v : - 2 ^ 128 < v < 2 ^ 128 -> rnd F64 v = Fin (Z.sgn v * rne 53 (Z.abs v)).
Proof.
  intros Hv. unfold rnd. change (f_digits F64) with 53. change (f_emax F64) with 1024.
  pose proof (rne_nonneg 53 ltac:(lia) (Z.abs v) ltac:(lia)).
  pose proof (rne_le_pow2 53 ltac:(lia) (Z.abs v) 128 ltac:(lia) ltac:(lia)).
  assert (2 ^ 128 < 2 ^ 1024) by (apply Z.pow_lt_mono_r; lia).
  replace (2 ^ 1024 <=? _) with false; [reflexivity|]. symmetry. apply Z.leb_gt.
  rewrite Z.abs_mul, (Z.abs_eq (rne _ _)) by lia. assert (Z.abs (Z.sgn v) <= 1) by lia. nia.
Qed.

(** ** C63: widen, compute, narrow *)
Lemma u_widen_arith c t t' a b : usize_ok c -> In t u_from_types -> In t' int_types ->
  t_in c t a = true -> t_in c t b = true ->
  let X := u_from_prim c a in let Y := u_from_prim c b in
  let back r v := (let! x := r in Ret (u_try_into c t' x, u_as c t' x)) = Ret (checked c t' v, t_wrap c t' v) in
  back (u_op_add c X Y) (a + b) /\ back (u_op_mul c X Y) (a * b) /\
  (b <= a -> back (u_op_sub c X Y) (a - b)) /\
  (if b =? 0 then u_op_div c X Y = Panic "attempt to divide by zero" /\ panics (u_op_rem c X Y)
   else back (u_op_div c X Y) (a / b) /\ back (u_op_rem c X Y) (a mod b)) /\
  back (Ret (u_op_and X Y)) (Z.land a b) /\ back (Ret (u_op_or X Y)) (Z.lor a b) /\ back (Ret (u_op_xor X Y)) (Z.lxor a b) /\
  u_as c t' (u_wrapping_sub c X Y) = t_wrap c t' (a - b).
Proof.
  intros U T T' A B. cbv zeta.
  destruct (u_from_is c t a U T A) as [-> HA]. destruct (u_from_is c t b U T B) as [-> HB].
  assert (out : forall v, 0 <= v < 2 ^ 256 ->
    (let! x := Ret (uof c v) in Ret (u_try_into c t' x, u_as c t' x)) = Ret (checked c t' v, t_wrap c t' v)).
  { intros v V. cbn [bind]. destruct (u_out c t' v U T' V) as [-> ->]. reflexivity. }
  assert (HM : 0 <= a * b < 2 ^ 256) by (change (2 ^ 256) with (2 ^ 128 * 2 ^ 128); nia).
  rewrite u_op_add_of, u_op_sub_of, u_op_mul_of, u_op_div_of, u_op_rem_of, u_op_and_of, u_op_or_of, u_op_xor_of, uwsub by lia.
  split; [rewrite dbg_in by (rewrite in_u_256; lia); apply out; lia|].
  split; [rewrite dbg_in by (rewrite in_u_256; lia); apply out; lia|].
  split; [intros; rewrite dbg_in by (rewrite in_u_256; lia); apply out; lia|].
  split.
  { destruct (Z.eqb_spec b 0); [split; [reflexivity|eexists; reflexivity]|].
    assert (0 <= a / b <= a) by (split; [apply Z.div_pos; lia|apply Z.div_le_upper_bound; nia]).
    assert (0 <= a mod b < b) by (apply Z.mod_pos_bound; lia).
    split; apply out; lia. }
  pose proof (land_bound a b 128 ltac:(lia) HA ltac:(lia)). pose proof (lor_bound a b 128 ltac:(lia) HA HB).
  pose proof (lxor_bound a b 128 ltac:(lia) HA HB).
  split; [apply out; lia|]. split; [apply out; lia|]. split; [apply out; lia|].
  rewrite (proj1 (as_family c t' (uof c (a - b)) (iof c 0) U T' (wf_uof _ _) (wf_iof _ _))), uval_uof.
  apply t_wrap_cong with 256; try assumption; try lia. apply Z.mod_mod. lia.
Qed.

Lemma u_embed_observe c t t' a b : usize_ok c -> In t u_from_types -> In t' int_types ->
  t_in c t a = true -> t_in c t b = true ->
  let X := u_from_prim c a in let Y := u_from_prim c b in
  u_cmp c X Y = (a ?= b) /\ u_eq c X Y = (a =? b) /\ u_max c X Y = u_from_prim c (Z.max a b) /\ u_min c X Y = u_from_prim c (Z.min a b) /\
  u_try_into c t' X = checked c t' a /\ u_as c t' X = t_wrap c t' a /\
  u_as_i256 X = i_from_prim c a /\
  correctly_rounded F32 a (u_as_f32 c X) /\ correctly_rounded F64 a (u_as_f64 c X) /\
  u_count_ones c X = Ret (ones (Z.to_nat (bits c t)) a) /\
  u_leading_zeros c X = Ret (if a =? 0 then 256 else 255 - Z.log2 a).
Proof.
  intros U T T' A B. cbv zeta.
  destruct (u_from_is c t a U T A) as [-> HA]. destruct (u_from_is c t b U T B) as [-> HB].
  assert (R : forall v, 0 <= v < 2 ^ 128 -> u_from_prim c v = uof c v) by (intros; apply u_new_of; assumption).
  destruct (u_cmp_family c (uof c a) (uof c b) (wf_uof _ _) (wf_uof _ _)) as (C1 & C2 & _).
  rewrite C1, C2, !uval_of_small by lia. split; [reflexivity|]. split; [reflexivity|].
  destruct (u_max_of c a b ltac:(lia) ltac:(lia)) as [-> ->].
  rewrite !R by lia. split; [reflexivity|]. split; [reflexivity|].
  destruct (u_out c t' a U T' ltac:(lia)) as [-> ->]. split; [reflexivity|]. split; [reflexivity|].
  split. { unfold i_from_prim. rewrite prim_as_i256_of by lia. apply u_as_i256_of. }
  split. { rewrite <- (uval_of_small c a) at 1 by lia. apply u_f32_correct, wf_uof. }
  split. { rewrite u_as_f64_of, u64r_low by lia. apply rounding_unique; [auto|]. rewrite rnd_low by lia.
    rewrite (Z.abs_eq a) by lia. f_equal. destruct (Z.eq_dec a 0) as [->|]; [reflexivity|]. rewrite Z.sgn_pos by lia. lia. }
  split. { rewrite (proj1 (u_count_of c a)). f_equal.
    assert (W : 0 <= a < 2 ^ bits c t /\ 0 <= bits c t <= 256).
    { cbn in T. intuition (subst t; cbn [t_in bits] in *; unfold in_u in A; lia). }
    replace 256%nat with (Z.to_nat (bits c t) + Z.to_nat (256 - bits c t))%nat by lia. rewrite ones_app.
    rewrite Z2Nat.id, Z.div_small by lia.
    assert (E : forall n, ones n 0 = 0) by (induction n; cbn [ones]; rewrite ?Z.bits_0; cbn [Z.b2z]; lia).
    rewrite E. lia. }
  unfold u_leading_zeros. rewrite ctlz_of by lia. reflexivity.
Qed.

Lemma signed_range n v : 0 <= n -> (- 2 ^ n <= v < 2 ^ n <-> Z.shiftr v n = 0 \/ Z.shiftr v n = -1).
Proof.
  intros Hn. assert (0 < 2 ^ n) by (apply Z.pow_pos_nonneg; lia). rewrite Z.shiftr_div_pow2 by assumption.
  pose proof (Z.div_mod v (2 ^ n) ltac:(lia)). pose proof (Z.mod_pos_bound v (2 ^ n) ltac:(lia)). split; [|nia].
  intros B. assert (-1 <= v / 2 ^ n < 1) by nia. lia.
Qed.
Lemma signed_bitwise a b n : 0 <= n -> - 2 ^ n <= a < 2 ^ n -> - 2 ^ n <= b < 2 ^ n ->
  (- 2 ^ n <= Z.land a b < 2 ^ n) /\ (- 2 ^ n <= Z.lor a b < 2 ^ n) /\ (- 2 ^ n <= Z.lxor a b < 2 ^ n).
Proof.
  intros Hn Ha Hb. apply (signed_range n a Hn) in Ha. apply (signed_range n b Hn) in Hb.
  rewrite !signed_range, Z.shiftr_land, Z.shiftr_lor, Z.shiftr_lxor by assumption.
  destruct Ha as [-> | ->], Hb as [-> | ->]; cbn; auto.
Qed.
Lemma i_widen_arith c t t' a b : usize_ok c -> In t i_from_types -> In t' int_types ->
  t_in c t a = true -> t_in c t b = true ->
  let X := i_from_prim c a in let Y := i_from_prim c b in
  let back r v := (let! x := r in Ret (i_try_into c t' x, i_as c t' x)) = Ret (checked c t' v, t_wrap c t' v) in
  back (i_op_add c X Y) (a + b) /\ back (i_op_sub c X Y) (a - b) /\
  (t <> TU 128 -> back (i_op_mul c X Y) (a * b)) /\
  back (i_op_neg c X) (- a) /\ back (i_abs c X) (Z.abs a) /\ back (Ret (i_signum c X)) (Z.sgn a) /\
  back (Ret (i_op_and X Y)) (Z.land a b) /\ back (Ret (i_op_or X Y)) (Z.lor a b) /\ back (Ret (i_op_xor X Y)) (Z.lxor a b) /\
  (if b =? 0 then i_op_div c X Y = Panic "attempt to divide by zero" /\ panics (i_op_rem c X Y) /\
     panics (i_div_euclid c X Y) /\ panics (i_rem_euclid c X Y)
   else back (i_op_div c X Y) (Z.quot a b) /\ back (i_op_rem c X Y) (Z.rem a b) /\
     (forall q r, a = q * b + r -> 0 <= r < Z.abs b -> back (i_div_euclid c X Y) q /\ back (i_rem_euclid c X Y) r)) /\
  (let! p := i_wrapping_mul c X Y in Ret (i_as c t' p)) = Ret (t_wrap c t' (a * b)).
Proof.
  intros U T T' A B. cbv zeta.
  destruct (i_from_is c t a U T A) as [-> HA]. destruct (i_from_is c t b U T B) as [-> HB].
  assert (out : forall v, - 2 ^ 255 <= v < 2 ^ 255 ->
    (let! x := Ret (iof c v) in Ret (i_try_into c t' x, i_as c t' x)) = Ret (checked c t' v, t_wrap c t' v)).
  { intros v V. cbn [bind]. destruct (i_out c t' v U T' V) as [-> ->]. reflexivity. }
  destruct (abs_family c (iof c a) (wf_iof _ _)) as (_ & _ & _ & _ & _ & EA).
  destruct (sign_family c (iof c a) (wf_iof _ _)) as (_ & _ & _ & ES).
  rewrite ival_of_small in EA, ES by lia. rewrite EA, ES.
  rewrite i_op_add_of, i_op_sub_of, i_op_mul_of, i_op_div_of, i_op_rem_of, i_op_neg_of, iwmul, i_op_and_of, i_op_or_of, i_op_xor_of by lia.
  split; [rewrite dbg_in by (rewrite in_i_256; lia); apply out; lia|].
  split; [rewrite dbg_in by (rewrite in_i_256; lia); apply out; lia|].
  split.
  { intros N. assert (P : - 2 ^ 255 <= a * b < 2 ^ 255).
    { assert (Q : - 2 ^ 127 <= a < 2 ^ 127 /\ - 2 ^ 127 <= b < 2 ^ 127).
      { cbn in T. intuition (try congruence; subst t; cbn [t_in] in A, B; unfold in_u, in_i in A, B; lia). }
      change (2 ^ 255) with (2 * (2 ^ 127 * 2 ^ 127)). nia. }
    rewrite dbg_in by (rewrite in_i_256; lia). apply out. exact P. }
  split; [replace (a =? - 2 ^ 255) with false by lia; rewrite andb_false_r; apply out; lia|].
  split; [replace (in_i 256 (Z.abs a)) with true by (rewrite in_i_256; lia); cbn [negb]; rewrite andb_false_r; apply out; lia|].
  split; [apply out; lia|].
  destruct (signed_bitwise a b 128 ltac:(lia) ltac:(lia) ltac:(lia)) as (B1 & B2 & B3).
  split; [apply out; lia|]. split; [apply out; lia|]. split; [apply out; lia|].
  split.
  { destruct (Z.eqb_spec b 0) as [->|Hb].
    - destruct (ieuclid_zero c (iof c a) (iof c 0) (wf_iof _ _) (wf_iof _ _) (ival_of_small c 0 ltac:(lia))) as [EZ _].
      inversion_clear EZ as [|? ? E1 EZ']. inversion_clear EZ' as [|? ? E2 _].
      split; [reflexivity|]. split; [eexists; reflexivity|].
      split; assumption.
    - assert (Q : Z.abs (Z.quot a b) <= Z.abs a).
      { rewrite <- Z.quot_abs by assumption. rewrite <- (Z.quot_1_r (Z.abs a)) at 2. apply Z.quot_le_compat_l; lia. }
      assert (R : Z.abs (Z.rem a b) <= Z.abs b) by (pose proof (Z.rem_bound_abs a b Hb); lia).
      split; [apply out; lia|]. split; [apply out; lia|].
      intros q r E Hr.
      destruct (ieuclid_family c (iof c a) (iof c b) q r (wf_iof _ _) (wf_iof _ _)) as (F1 & F2 & _);
        rewrite ?ival_of_small by lia; try assumption.
      inversion_clear F1. inversion_clear F2. rewrite <- H, <- H1.
      assert (Z.abs q <= Z.abs a + 1) by nia.
      split; apply out; lia. }
  cbn [bind]. f_equal.
  rewrite (proj2 (as_family c t' (uof c 0) (iof c (a * b)) U T' (wf_uof _ _) (wf_iof _ _))), ival_iof.
  apply t_wrap_cong with 256; try assumption; try lia. apply (wrap_i_mod 256). lia.
Qed.

Lemma i_embed_observe c t t' a b : usize_ok c -> In t i_from_types -> In t' int_types ->
  t_in c t a = true -> t_in c t b = true ->
  let X := i_from_prim c a in let Y := i_from_prim c b in
  i_cmp c X Y = (a ?= b) /\ i_eq c X Y = (a =? b) /\ i_max c X Y = i_from_prim c (Z.max a b) /\ i_min c X Y = i_from_prim c (Z.min a b) /\
  i_try_into c t' X = checked c t' a /\ i_as c t' X = t_wrap c t' a /\
  i_is_negative c X = (a <? 0) /\ i_is_positive c X = (0 <? a) /\
  correctly_rounded F64 a (i_as_f64 c X) /\
  (representable 53 a -> correctly_rounded F32 a (i_as_f32 c X)).
Proof.
  intros U T T' A B. cbv zeta.
  destruct (i_from_is c t a U T A) as [-> HA]. destruct (i_from_is c t b U T B) as [-> HB].
  assert (R : forall v, - 2 ^ 127 <= v < 2 ^ 128 -> i_from_prim c v = iof c v) by (intros; apply prim_as_i256_of; assumption).
  destruct (i_cmp_family c (iof c a) (iof c b) (wf_iof _ _) (wf_iof _ _)) as (C1 & C2 & _).
  rewrite C1, C2, !ival_of_small by lia. split; [reflexivity|]. split; [reflexivity|].
  destruct (i_max_of c a b ltac:(lia) ltac:(lia)) as [-> ->].
  rewrite !R by lia. split; [reflexivity|]. split; [reflexivity|].
  destruct (i_out c t' a U T' ltac:(lia)) as [-> ->]. split; [reflexivity|]. split; [reflexivity|].
  destruct (sign_family c (iof c a) (wf_iof _ _)) as (S1 & S2 & _). rewrite ival_of_small in S1, S2 by lia.
  split; [assumption|]. split; [assumption|].
  assert (F : i_as_f64 c (iof c a) = rnd F64 a) by (rewrite i_as_f64_of, u64r_low, rnd_low by lia; reflexivity).
  split; [rewrite F; apply rounding_unique; auto|].
  intros RP. apply rounding_unique; [auto|]. unfold i_as_f32. rewrite F.
  rewrite (rnd_rep F64); [reflexivity|apply ok64|exact RP|].
  change (f_emax F64) with 1024. assert (2 ^ 128 < 2 ^ 1024) by (apply Z.pow_lt_mono_r; lia). lia.
Qed.

(** ** C65: truncating casts *)
Lemma u_trunc c t v : usize_ok c -> In t int_types -> u_as c t (uof c v) = t_wrap c t v.
Proof.
  intros U T. rewrite (proj1 (as_family c t (uof c v) (iof c 0) U T (wf_uof _ _) (wf_iof _ _))), uval_uof.
  apply t_wrap_cong with 256; try assumption; try lia. apply Z.mod_mod. lia.
Qed.
Lemma i_trunc c t v : usize_ok c -> In t int_types -> i_as c t (iof c v) = t_wrap c t v.
Proof.
  intros U T. rewrite (proj2 (as_family c t (uof c 0) (iof c v) U T (wf_uof _ _) (wf_iof _ _))), ival_iof.
  apply t_wrap_cong with 256; try assumption; try lia. apply (wrap_i_mod 256). lia.
Qed.
Lemma bits_width c t : bits c t = t_width c t. Proof. destruct t; reflexivity. Qed.
Lemma t_mod c t v : usize_ok c -> In t int_types -> t_wrap c t v mod 2 ^ bits c t = v mod 2 ^ bits c t.
Proof.
  intros U T. rewrite bits_width. destruct (t_cases c t U T) as (W & _ & _ & HI & HU). destruct (t_signed t).
  - rewrite HI by reflexivity. apply wrap_i_mod. lia.
  - rewrite HU by reflexivity. apply Z.mod_mod. apply Z.pow_nonzero; lia.
Qed.
Lemma t_cong c t a b : usize_ok c -> In t int_types -> a mod 2 ^ bits c t = b mod 2 ^ bits c t -> t_wrap c t a = t_wrap c t b.
Proof.
  intros U T. rewrite bits_width. destruct (t_cases c t U T) as (W & _ & _ & HI & HU). intros H. destruct (t_signed t).
  - rewrite HI by reflexivity. apply wrap_i_cong. assumption.
  - rewrite HU by reflexivity. exact H.
Qed.
Lemma bits_pos c t : usize_ok c -> In t int_types -> 8 <= bits c t <= 128.
Proof. intros U T. rewrite bits_width. apply (t_cases c t U T). Qed.
Lemma mod_bits a b n : 0 <= n -> (forall i, 0 <= i < n -> Z.testbit a i = Z.testbit b i) -> a mod 2 ^ n = b mod 2 ^ n.
Proof.
  intros Hn H. apply Z.bits_inj'. intros i Hi. rewrite !testbit_mod_pow2 by lia.
  destruct (Z.ltb_spec i n); [apply H; lia|reflexivity].
Qed.
Lemma bits_mod a b n i : 0 <= i < n -> a mod 2 ^ n = b mod 2 ^ n -> Z.testbit a i = Z.testbit b i.
Proof.
  intros Hi H. apply (f_equal (fun z => Z.testbit z i)) in H. rewrite !testbit_mod_pow2 in H by lia.
  replace (i <? n) with true in H by lia. exact H.
Qed.

Section Trunc.
  Context (c : cfg) (t : ity) (U : usize_ok c) (T : In t int_types).
  Let W := t_wrap c t.
  Lemma tw_add a b : W (a + b) = W (W a + W b).
  Proof. apply t_cong; auto. rewrite Zplus_mod. rewrite <- (t_mod c t a), <- (t_mod c t b), <- Zplus_mod by assumption. reflexivity. Qed.
  Lemma tw_sub a b : W (a - b) = W (W a - W b).
  Proof. apply t_cong; auto. rewrite Zminus_mod. rewrite <- (t_mod c t a), <- (t_mod c t b), <- Zminus_mod by assumption. reflexivity. Qed.
  Lemma tw_mul a b : W (a * b) = W (W a * W b).
  Proof. apply t_cong; auto. rewrite Zmult_mod. rewrite <- (t_mod c t a), <- (t_mod c t b), <- Zmult_mod by assumption. reflexivity. Qed.
  Lemma tw_opp a : W (- a) = W (- W a).
  Proof. rewrite <- (Z.sub_0_l a), <- (Z.sub_0_l (W a)), tw_sub. rewrite (tw_sub 0 (W a)). f_equal. f_equal. symmetry. apply t_cong; auto. apply t_mod; assumption. Qed.
  Lemma tw_not a : W (- a - 1) = W (- W a - 1).
  Proof.
    apply t_cong; auto. pose proof (bits_pos c t U T).
    rewrite Zminus_mod, <- (Z.sub_0_l a), (Zminus_mod 0 a), <- (t_mod c t a), <- (Zminus_mod 0), <- Zminus_mod by assumption.
    reflexivity.
  Qed.
  Lemma tw_pow a n : 0 <= n -> W (a ^ n) = W (W a ^ n).
  Proof.
    intros Hn. pose proof (bits_pos c t U T). assert (0 < 2 ^ bits c t) by (apply Z.pow_pos_nonneg; lia).
    apply t_cong; auto. rewrite Zpower_mod, <- (t_mod c t a), <- Zpower_mod by (assumption || lia). reflexivity.
  Qed.
  Lemma tw_bits a i : 0 <= i < bits c t -> Z.testbit (W a) i = Z.testbit a i.
  Proof. intros Hi. apply bits_mod with (bits c t); [assumption|]. apply t_mod; assumption. Qed.
  Lemma tw_land a b : W (Z.land a b) = W (Z.land (W a) (W b)).
  Proof.
    pose proof (bits_pos c t U T). apply t_cong; auto. apply mod_bits; [lia|]. intros. rewrite !Z.land_spec, !tw_bits by lia. reflexivity.
  Qed.
  Lemma tw_lor a b : W (Z.lor a b) = W (Z.lor (W a) (W b)).
  Proof.
    pose proof (bits_pos c t U T). apply t_cong; auto. apply mod_bits; [lia|]. intros. rewrite !Z.lor_spec, !tw_bits by lia. reflexivity.
  Qed.
  Lemma tw_lxor a b : W (Z.lxor a b) = W (Z.lxor (W a) (W b)).
  Proof.
    pose proof (bits_pos c t U T). apply t_cong; auto. apply mod_bits; [lia|]. intros. rewrite !Z.lxor_spec, !tw_bits by lia. reflexivity.
  Qed.
End Trunc.

Lemma u_trunc_laws c t a b n : usize_ok c -> In t int_types -> wf_u a -> wf_u b -> 0 <= n < 2 ^ 32 ->
  let x := u_as c t a in let y := u_as c t b in
  u_as c t (u_wrapping_add c a b) = t_wrap c t (x + y) /\
  u_as c t (u_wrapping_sub c a b) = t_wrap c t (x - y) /\
  u_as c t (u_wrapping_neg c a) = t_wrap c t (- x) /\
  (let! p := u_wrapping_mul c a b in Ret (u_as c t p)) = Ret (t_wrap c t (x * y)) /\
  (let! p := u_wrapping_pow c a n in Ret (u_as c t p)) = Ret (t_wrap c t (x ^ n)) /\
  u_as c t (u_op_and a b) = t_wrap c t (Z.land x y) /\
  u_as c t (u_op_or a b) = t_wrap c t (Z.lor x y) /\
  u_as c t (u_op_xor a b) = t_wrap c t (Z.lxor x y) /\
  u_as c t (u_op_not a) = t_wrap c t (Z.lnot x) /\
  (n < 256 -> (let! p := u_op_shl c a n in Ret (u_as c t p)) = Ret (t_wrap c t (x * 2 ^ n))).
Proof.
  intros U T Ha Hb Hn. on_u c a. on_u c b. cbv zeta.
  rewrite !u_trunc by assumption.
  rewrite uwadd, uwsub, uwneg, uwmul, uwpow, u_op_and_of, u_op_or_of, u_op_xor_of, u_op_not_of by assumption. cbn [bind].
  rewrite !u_trunc by assumption.
  split; [apply tw_add; assumption|]. split; [apply tw_sub; assumption|]. split; [apply tw_opp; assumption|].
  split; [f_equal; apply tw_mul; assumption|]. split; [f_equal; apply tw_pow; [assumption..|lia]|].
  split; [apply tw_land; assumption|]. split; [apply tw_lor; assumption|]. split; [apply tw_lxor; assumption|].
  split; [rewrite <- not_lnot; apply tw_not; assumption|].
  intros. rewrite u_op_shl_of by lia. cbn [bind]. f_equal. rewrite u_trunc by assumption.
  rewrite tw_mul by assumption. rewrite (tw_mul c t U T (t_wrap c t na) (2 ^ n)). f_equal. f_equal.
  symmetry. apply t_cong; auto. apply t_mod; assumption.
Qed.
Lemma i_trunc_laws c t a b n : usize_ok c -> In t int_types -> wf_i a -> wf_i b -> 0 <= n < 2 ^ 32 ->
  let x := i_as c t a in let y := i_as c t b in
  i_as c t (i_wrapping_add c a b) = t_wrap c t (x + y) /\
  i_as c t (i_wrapping_sub c a b) = t_wrap c t (x - y) /\
  i_as c t (i_wrapping_neg c a) = t_wrap c t (- x) /\
  (let! p := i_wrapping_mul c a b in Ret (i_as c t p)) = Ret (t_wrap c t (x * y)) /\
  (let! p := i_wrapping_pow c a n in Ret (i_as c t p)) = Ret (t_wrap c t (x ^ n)) /\
  i_as c t (i_op_and a b) = t_wrap c t (Z.land x y) /\
  i_as c t (i_op_or a b) = t_wrap c t (Z.lor x y) /\
  i_as c t (i_op_xor a b) = t_wrap c t (Z.lxor x y) /\
  i_as c t (i_op_not a) = t_wrap c t (Z.lnot x) /\
  (n < 256 -> (let! p := i_op_shl c a n in Ret (i_as c t p)) = Ret (t_wrap c t (x * 2 ^ n))).
Proof.
  intros U T Ha Hb Hn. on_i c a. on_i c b. cbv zeta.
  rewrite !i_trunc by assumption.
  rewrite iwadd, iwsub, iwneg, iwmul, iwpow, i_op_and_of, i_op_or_of, i_op_xor_of, i_op_not_of by assumption. cbn [bind].
  rewrite !i_trunc by assumption.
  split; [apply tw_add; assumption|]. split; [apply tw_sub; assumption|]. split; [apply tw_opp; assumption|].
  split; [f_equal; apply tw_mul; assumption|]. split; [f_equal; apply tw_pow; [assumption..|lia]|].
  split; [apply tw_land; assumption|]. split; [apply tw_lor; assumption|]. split; [apply tw_lxor; assumption|].
  split; [rewrite <- not_lnot; apply tw_not; assumption|].
  intros. rewrite i_op_shl_of by lia. cbn [bind]. f_equal. rewrite i_trunc by assumption.
  rewrite tw_mul by assumption. rewrite (tw_mul c t U T (t_wrap c t na) (2 ^ n)). f_equal. f_equal.
  symmetry. apply t_cong; auto. apply t_mod; assumption.
Qed.

Lemma cast_chain c t t' x y : usize_ok c -> In t int_types -> In t' int_types -> wf_u x -> wf_i y ->
  (bits c t' <= bits c t -> t_wrap c t' (u_as c t x) = u_as c t' x /\ t_wrap c t' (i_as c t y) = i_as c t' y) /\
  i_as c t (u_as_i256 x) = u_as c t x /\ u_as c t (i_as_u256 y) = i_as c t y /\
  (prim_as_u256 c (u_as c t x) = x <->
     t_in c t (uval c x) = true \/ t_in c t (uval c x - 2 ^ 256) = true) /\
  (prim_as_i256 c (i_as c t y) = y <-> t_in c t (ival c y) = true) /\
  (u_try_into c t x <> None <-> prim_as_u256 c (u_as c t x) = x /\ 0 <= u_as c t x) /\
  (i_try_into c t y <> None <-> prim_as_i256 c (i_as c t y) = y).
Proof.
  intros U T T' Hx Hy.
  rewrite (proj1 (into_family c t x y U T Hx Hy)), (proj2 (into_family c t x y U T Hx Hy)).
  on_u c x. on_i c y.
  rewrite u_as_i256_of, i_as_u256_of, !u_trunc, !i_trunc by assumption.
  pose proof (bits_pos c t U T). pose proof (bits_pos c t' U T').
  split.
  { intros L. assert (G : forall v, t_wrap c t' (t_wrap c t v) = t_wrap c t' v).
    { intros v. apply t_cong; auto.
      assert (D : forall z, z mod 2 ^ bits c t' = (z mod 2 ^ bits c t) mod 2 ^ bits c t').
      { intros z. apply mod_bits; [lia|]. intros i Hi. rewrite testbit_mod_pow2 by lia.
        replace (i <? bits c t) with true by lia. reflexivity. }
      rewrite D, t_mod, <- D by assumption. reflexivity. }
    split; apply G. }
  split; [reflexivity|]. split; [reflexivity|].
  assert (IN : forall v, t_in c t (t_wrap c t v) = true).
  { intros v. destruct (t_cases c t U T) as (HW & _ & HIn & HI & HU). rewrite HIn. unfold t_min, t_max.
    destruct (t_signed t).
    - rewrite HI by reflexivity. pose proof (wrap_i_range (t_width c t) v ltac:(lia)). lia.
    - rewrite HU by reflexivity. unfold wrap_u. assert (0 < 2 ^ t_width c t) by (apply Z.pow_pos_nonneg; lia).
      pose proof (Z.mod_pos_bound v (2 ^ t_width c t)). lia. }
  pose proof (t_in_bounds c t _ U T (IN nx)) as BX. pose proof (t_in_bounds c t _ U T (IN ny)) as BY.
  rewrite prim_as_u256_of, prim_as_i256_of by assumption.
  assert (EU : forall p q, uof c p = uof c q <-> p mod 2 ^ 256 = q mod 2 ^ 256).
  { intros p q. split; [|apply uof_cong]. intros E. apply (f_equal (uval c)) in E. rewrite !uval_uof in E. exact E. }
  assert (EI : forall p q, - 2 ^ 255 <= p < 2 ^ 255 -> - 2 ^ 255 <= q < 2 ^ 255 -> (iof c p = iof c q <-> p = q)).
  { intros p q Hp Hq. split; [|intros ->; reflexivity]. intros E. apply (f_equal (ival c)) in E. rewrite !ival_of_small in E by lia. exact E. }
  rewrite EI by lia. rewrite EU. rewrite (Z.mod_small nx) by lia.
  assert (QI : t_wrap c t ny = ny <-> t_in c t ny = true).
  { split; [intros <-; apply IN|apply t_wrap_id; assumption]. }
  assert (QU : t_wrap c t nx mod 2 ^ 256 = nx <-> t_in c t nx = true \/ t_in c t (nx - 2 ^ 256) = true).
  { split.
    - intros E. destruct (Z.ltb_spec (t_wrap c t nx) 0).
      + right. rewrite <- E. rewrite <- (Z.mod_add (t_wrap c t nx) 1 (2 ^ 256)) by lia.
        rewrite Z.mod_small by lia. replace (_ - _) with (t_wrap c t nx) by lia. apply IN.
      + left. rewrite <- E. rewrite Z.mod_small by lia. apply IN.
    - intros [E|E].
      + rewrite t_wrap_id by assumption. apply Z.mod_small. lia.
      + rewrite (t_wrap_cong c t nx (nx - 2 ^ 256) 256); try assumption; try lia.
        * rewrite t_wrap_id by assumption. rewrite <- (Z.mod_add _ 1 (2 ^ 256)) by lia. rewrite Z.mod_small; lia.
        * rewrite <- (Z.mod_add (nx - _) 1 (2 ^ 256)) by lia. f_equal. lia. }
  split; [exact QU|]. split; [exact QI|]. split.
  - rewrite QU. destruct (t_in c t nx) eqn:E.
    + rewrite t_wrap_id by assumption. split; [intros _; split; [auto|lia]|discriminate].
    + split; [congruence|]. intros [[?|E'] P]; [congruence|]. exfalso.
      rewrite (t_wrap_cong c t nx (nx - 2 ^ 256) 256) in P; try assumption; try lia.
      * rewrite t_wrap_id in P by assumption. lia.
      * rewrite <- (Z.mod_add (nx - _) 1 (2 ^ 256)) by lia. f_equal. lia.
  - rewrite QI. destruct (t_in c t ny); split; congruence.
Qed.
Lemma i_f32_embed_bad :
  ~ (forall c t a, usize_ok c -> In t i_from_types -> t_in c t a = true -> correctly_rounded F32 a (i_as_f32 c (i_from_prim c a))).
Proof.
  intros H. set (c := Build_cfg true true false 64 false).
  assert (U : usize_ok c) by (unfold usize_ok; cbn; auto).
  assert (T : In (TI 64) i_from_types) by (cbn; auto 20).
  assert (A : t_in c (TI 64) (2 ^ 54 + 2 ^ 30 + 1) = true) by reflexivity.
  specialize (H c (TI 64) _ U T A). destruct (i_from_is c (TI 64) _ U T A) as [E _]. rewrite E in H.
  exact (proj2 (i_f32_double c) H).
Qed.
