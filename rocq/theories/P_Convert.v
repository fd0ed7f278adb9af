(** * Conversions with primitive integers *)

From Coq Require Import ZArith String List Bool Lia ZifyBool.
Import ListNotations.
From Verif Require Import M_Prim M_Words M_Intr M_Ops M_Convert Spec Spec_Convert P_Words P_Ops P_Uint P_Int P_Bytes.
Open Scope Z_scope.

Lemma t_cases c t : usize_ok c -> In t int_types -> 
  8 <= t_width c t <= 128 /\ (forall v, t_cast c t v = t_wrap c t v) /\
  (forall v, t_in c t v = (t_min c t <=? v) && (v <=? t_max c t)) /\
  (t_signed t = true -> t_wrap c t = wrap_i (t_width c t)) /\ (t_signed t = false -> t_wrap c t = wrap_u (t_width c t)).
Proof.
  intros Hu Ht. assert (HW : 8 <= usize_bits c <= 128).
  { destruct Hu as [H|[H|[H|[]]]]; rewrite <- H; lia. }
  assert (G : forall w v, 8 <= w <= 128 -> as_i w v = wrap_i w v) by (intros; apply as_i_wrap; lia).
  assert (GI : forall w v, in_i w v = (- 2 ^ (w - 1) <=? v) && (v <=? 2 ^ (w - 1) - 1)) by (intros; unfold in_i; lia).
  assert (GU : forall w v, in_u w v = (0 <=? v) && (v <=? 2 ^ w - 1)) by (intros; unfold in_u; lia).
  repeat (destruct Ht as [<-|Ht]; [unfold t_cast, t_wrap, t_in, t_min, t_max; cbn [t_width t_signed];
    split; [lia|]; split; [intros; solve [apply G; lia|reflexivity]|];
    split; [intros; solve [apply GI|apply GU]|]; split; (discriminate || reflexivity)|]).
  destruct Ht.
Qed.

Lemma wrap_mod w v : 0 <= w <= 128 -> forall k, w <= k -> wrap_u w (v mod 2 ^ k) = wrap_u w v.
Proof.
  intros Hw k Hk. unfold wrap_u. replace k with (w + (k - w)) by lia. rewrite Z.pow_add_r by lia.
  assert (0 < 2 ^ w) by (apply Z.pow_pos_nonneg; lia).
  assert (0 < 2 ^ (k - w)) by (apply Z.pow_pos_nonneg; lia).
  rewrite Z.rem_mul_r by lia.
  rewrite Z.mul_comm, Z.mod_add, Z.mod_mod by lia. reflexivity.
Qed.
Lemma t_wrap_cong c t a b k : usize_ok c -> In t int_types -> 128 <= k -> a mod 2 ^ k = b mod 2 ^ k -> t_wrap c t a = t_wrap c t b.
Proof.
  intros Hu Ht Hk H. destruct (t_cases c t Hu Ht) as (HW & _ & _ & HI & HU).
  assert (E : a mod 2 ^ t_width c t = b mod 2 ^ t_width c t).
  { pose proof (wrap_mod (t_width c t) a ltac:(lia) k ltac:(lia)) as E1.
    pose proof (wrap_mod (t_width c t) b ltac:(lia) k ltac:(lia)) as E2.
    unfold wrap_u in *. rewrite <- E1, <- E2, H. reflexivity. }
  destruct (t_signed t).
  - rewrite HI by reflexivity. apply wrap_i_cong. assumption.
  - rewrite HU by reflexivity. exact E.
Qed.
Lemma t_wrap_id c t v : usize_ok c -> In t int_types -> t_in c t v = true -> t_wrap c t v = v.
Proof.
  intros Hu Ht Hv. destruct (t_cases c t Hu Ht) as (HW & _ & HIn & HI & HU).
  rewrite HIn in Hv. unfold t_min, t_max in Hv. destruct (t_signed t).
  - rewrite HI by reflexivity. apply wrap_i_small; lia.
  - rewrite HU by reflexivity. unfold wrap_u. apply Z.mod_small. lia.
Qed.
Lemma t_in_bounds c t v : usize_ok c -> In t int_types -> t_in c t v = true -> - 2 ^ 127 <= v < 2 ^ 128.
Proof.
  intros Hu Ht Hv. destruct (t_cases c t Hu Ht) as (HW & _ & HIn & _). rewrite HIn in Hv.
  unfold t_min, t_max in Hv. destruct (t_signed t).
  - assert (2 ^ (t_width c t - 1) <= 2 ^ 127) by (apply Z.pow_le_mono_r; lia). lia.
  - assert (2 ^ t_width c t <= 2 ^ 128) by (apply Z.pow_le_mono_r; lia). lia.
Qed.
Lemma t_bounds c t : usize_ok c -> In t int_types -> 
  - 2 ^ 127 <= t_min c t <= 0 /\ 0 < t_max c t < 2 ^ 128.
Proof.
  intros Hu Ht. destruct (t_cases c t Hu Ht) as (HW & _).
  unfold t_min, t_max. destruct (t_signed t).
  - assert (2 ^ 7 <= 2 ^ (t_width c t - 1) <= 2 ^ 127) by (split; apply Z.pow_le_mono_r; lia). lia.
  - assert (2 ^ 8 <= 2 ^ t_width c t <= 2 ^ 128) by (split; apply Z.pow_le_mono_r; lia). lia.
Qed.

Lemma prim_as_u256_of c v : - 2 ^ 127 <= v < 2 ^ 128 -> prim_as_u256 c v = uof c v.
Proof.
  intros Hv. unfold prim_as_u256, u_from_words, uof, as_u, u_not. rewrite hi_mod, lo_mod.
  replace ((v / 2 ^ 128) mod 2 ^ 128) with (if 0 <=? v then 0 else 2 ^ 128 - 1 - 0); [reflexivity|].
  destruct (Z.leb_spec 0 v); [|]; zz.
Qed.
Lemma u_as_i_of c v : u_as_i256 (uof c v) = iof c v. Proof. apply u_as_i256_of. Qed.
Lemma prim_as_i256_of c v : - 2 ^ 127 <= v < 2 ^ 128 -> prim_as_i256 c v = iof c v.
Proof.
  intros Hv. rewrite <- u_as_i256_of, <- prim_as_u256_of by assumption.
  unfold prim_as_i256, prim_as_u256, u_as_i256, i_from_words, u_from_words, u_not, as_u.
  assert (E : as_i 128 v = as_i 128 (v mod 2 ^ 128)) by (unfold as_i; rewrite Z.mod_mod by lia; reflexivity).
  destruct (0 <=? v); destruct (big_endian c); cbn [uw0 uw1]; rewrite E; reflexivity.
Qed.

Lemma as_family c t x y : usize_ok c -> In t int_types -> wf_u x -> wf_i y ->
  u_as c t x = t_wrap c t (uval c x) /\ i_as c t y = t_wrap c t (ival c y).
Proof.
  intros Hu Ht Hx Hy. on_u c x. on_i c y. unfold u_as, i_as. rewrite u_into_words_of, i_into_words_of.
  destruct (t_cases c t Hu Ht) as (_ & HC & _). rewrite !HC.
  split; apply t_wrap_cong with 128; try assumption; try lia.
  - rewrite Z.mod_mod by lia. reflexivity.
  - apply wrap_i_128_mod.
Qed.
Lemma as256_family c x y v b : wf_u x -> wf_i y -> - 2 ^ 127 <= v < 2 ^ 128 ->
  u256_as_i256 x = iof c (uval c x) /\ i256_as_u256 y = uof c (ival c y) /\
  u_as_i256 x = iof c (uval c x) /\ i_as_u256 y = uof c (ival c y) /\
  u256_as_u256 x = x /\ i256_as_i256 y = y /\
  prim_as_u256 c v = uof c v /\ prim_as_i256 c v = iof c v /\
  bool_as_u256 c b = uof c (if b then 1 else 0) /\ bool_as_i256 c b = iof c (if b then 1 else 0).
Proof.
  intros Hx Hy Hv. on_u c x. on_i c y. unfold u256_as_i256, i256_as_u256, bool_as_u256, bool_as_i256.
  rewrite i_as_u256_of, u_as_i256_of, prim_as_u256_of, prim_as_i256_of by assumption.
  repeat split.
  - rewrite u_new_of by (destruct b; cbn [Z.b2z]; lia). destruct b; reflexivity.
  - rewrite i_new_of by (destruct b; cbn [Z.b2z]; lia). destruct b; reflexivity.
Qed.
Lemma widen_narrow c t v : usize_ok c -> In t int_types -> t_in c t v = true ->
  u_as c t (prim_as_u256 c v) = v /\ i_as c t (prim_as_i256 c v) = v.
Proof.
  intros Hu Ht Hv. pose proof (t_in_bounds c t v Hu Ht Hv) as HB.
  rewrite prim_as_u256_of, prim_as_i256_of by assumption.
  unfold u_as, i_as. rewrite u_into_words_of, i_into_words_of.
  destruct (t_cases c t Hu Ht) as (_ & HC & _). rewrite !HC.
  split; (etransitivity; [|apply t_wrap_id; eassumption]); apply t_wrap_cong with 128; try assumption; try lia.
  - rewrite Z.mod_mod by lia. reflexivity.
  - apply wrap_i_128_mod.
Qed.

(** [u_try_from_prim] and the others apply to values of their types only *)
Lemma from_family c t v b : usize_ok c -> t_in c t v = true ->
  (In t u_from_types -> u_from_prim c v = uof c v /\ 0 <= v < 2 ^ 256) /\
  (In t u_try_from_types -> u_try_from_prim c v = if 0 <=? v then Some (uof c v) else None) /\
  (In t i_from_types -> i_from_prim c v = iof c v /\ - 2 ^ 255 <= v < 2 ^ 255) /\
  u_from_bool c b = uof c (if b then 1 else 0) /\ i_from_bool c b = iof c (if b then 1 else 0).
Proof.
  intros Hu Hv. repeat split.
  - assert (HT : In t int_types) by (cbn in *; intuition).
    pose proof (t_in_bounds c t v Hu HT Hv).
    assert (0 <= v) by (cbn in H; intuition (subst t; cbn in Hv; unfold in_u in Hv; lia)).
    unfold u_from_prim. apply u_new_of. lia.
  - assert (HT : In t int_types) by (cbn in *; intuition).
    pose proof (t_in_bounds c t v Hu HT Hv).
    cbn in H; intuition (subst t; cbn in Hv; unfold in_u in Hv; lia).
  - assert (HT : In t int_types) by (cbn in *; intuition).
    pose proof (t_in_bounds c t v Hu HT Hv). lia.
  - intros H. assert (HT : In t int_types) by (cbn in *; intuition).
    pose proof (t_in_bounds c t v Hu HT Hv). unfold u_try_from_prim.
    replace (v <? 2 ^ 128) with true by lia. rewrite andb_true_r. destruct (Z.leb_spec 0 v); [|reflexivity].
    rewrite u_new_of by lia. reflexivity.
  - assert (HT : In t int_types) by (cbn in *; intuition).
    pose proof (t_in_bounds c t v Hu HT Hv). apply prim_as_i256_of. lia.
  - assert (HT : In t int_types) by (cbn in *; intuition).
    pose proof (t_in_bounds c t v Hu HT Hv). lia.
  - assert (HT : In t int_types) by (cbn in *; intuition).
    pose proof (t_in_bounds c t v Hu HT Hv). lia.
  - unfold u_from_bool. rewrite u_new_of by (destruct b; cbn [Z.b2z]; lia). destruct b; reflexivity.
  - unfold i_from_bool, bool_as_i256. rewrite i_new_of by (destruct b; cbn [Z.b2z]; lia). destruct b; reflexivity.
Qed.

Lemma into_family c t x y : usize_ok c -> In t int_types -> wf_u x -> wf_i y ->
  u_try_into c t x = (if t_in c t (uval c x) then Some (uval c x) else None) /\
  i_try_into c t y = (if t_in c t (ival c y) then Some (ival c y) else None).
Proof.
  intros Hu Ht Hx Hy. on_u c x. on_i c y. unfold u_try_into, i_try_into, u_le, i_ge, i_le.
  destruct (t_bounds c t Hu Ht) as [B1 B2]. destruct (t_cases c t Hu Ht) as (_ & HC & HIn & _).
  rewrite prim_as_u256_of, !prim_as_i256_of by lia.
  rewrite u_cmp_of, !i_cmp_of by lia. rewrite u_low_of, i_low_of, !HC, !HIn.
  split.
  - replace (is_le (nx ?= t_max c t)) with (nx <=? t_max c t) by (unfold is_le, Z.leb; destruct (nx ?= t_max c t); reflexivity).
    replace ((t_min c t <=? nx) && (nx <=? t_max c t)) with (nx <=? t_max c t) by lia.
    destruct (Z.leb_spec nx (t_max c t)); [|reflexivity]. f_equal.
    etransitivity; [|apply t_wrap_id; try eassumption; rewrite HIn; lia].
    apply t_wrap_cong with 128; try assumption; try lia. apply Z.mod_mod. lia.
  - replace (is_le (ny ?= t_max c t)) with (ny <=? t_max c t) by (unfold is_le, Z.leb; destruct (ny ?= t_max c t); reflexivity).
    replace (is_ge (ny ?= t_min c t)) with (t_min c t <=? ny)
      by (unfold is_ge; destruct (Z.compare_spec ny (t_min c t)); lia).
    destruct ((t_min c t <=? ny) && (ny <=? t_max c t)) eqn:E; [|reflexivity]. f_equal.
    etransitivity; [|apply t_wrap_id; try eassumption; rewrite HIn; lia].
    apply t_wrap_cong with 128; try assumption; try lia. apply wrap_i_128_mod.
Qed.
Lemma between_family c x y : wf_u x -> wf_i y ->
  u_try_from_i256 c y = (if in_u 256 (ival c y) then Some (uof c (ival c y)) else None) /\
  i_try_from_u256 c x = (if in_i 256 (uval c x) then Some (iof c (uval c x)) else None).
Proof.
  intros Hx Hy. on_u c x. on_i c y. unfold u_try_from_i256, i_try_from_u256, i_cmp_prim, u_gt.
  rewrite I256_MAX_of, i_new_of, i_cmp_of, i_as_u256_of, u_as_i256_of, i_as_u256_of, u_cmp_of by (unfold MAXI; lia).
  rewrite in_u_256, in_i_256. split.
  - unfold is_lt. destruct (Z.compare_spec ny 0); destruct (Z.leb_spec 0 ny); cbn [andb]; try lia; try reflexivity;
      replace (ny <? 2 ^ 256) with true by lia; reflexivity.
  - unfold is_gt. match goal with |- context [nx ?= ?m] => destruct (Z.compare_spec nx m) end;
      match goal with |- _ = if ?b then _ else _ => destruct b eqn:E end; unfold MAXI in *; try reflexivity; lia.
Qed.
