(** * Basic facts about representations *)

From Coq Require Import ZArith List Bool Lia ZifyBool Zquot Setoid Morphisms.
From Verif Require Import M_Prim M_Words Spec.
Open Scope Z_scope.

Ltac zz := Z.div_mod_to_equations; lia.

Lemma mod_small_256 v : 0 <= v < 2 ^ 256 -> v mod 2 ^ 256 = v.
Proof. apply Z.mod_small. Qed.

Lemma pow256 : 2 ^ 256 = 2 ^ 128 * 2 ^ 128.
Proof. reflexivity. Qed.

Lemma hi_mod v : (v mod 2 ^ 256) / 2 ^ 128 = (v / 2 ^ 128) mod 2 ^ 128.
Proof.
  rewrite pow256, Z.rem_mul_r by lia.
  rewrite Z.mul_comm, Z.div_add by lia.
  rewrite Z.div_small by (apply Z.mod_pos_bound; lia). lia.
Qed.

Lemma lo_mod v : (v mod 2 ^ 256) mod 2 ^ 128 = v mod 2 ^ 128.
Proof.
  rewrite pow256, Z.rem_mul_r by lia.
  rewrite Z.mul_comm, Z.mod_add by lia. apply Z.mod_mod. lia.
Qed.

(** ** wrap_i *)
Lemma wrap_i_range n v : 0 < n -> - 2 ^ (n - 1) <= wrap_i n v < 2 ^ (n - 1).
Proof.
  intros Hn. unfold wrap_i.
  assert (2 ^ n = 2 * 2 ^ (n - 1)) by (rewrite <- Z.pow_succ_r by lia; f_equal; lia).
  assert (0 < 2 ^ (n - 1)) by (apply Z.pow_pos_nonneg; lia).
  pose proof (Z.mod_pos_bound (v + 2 ^ (n - 1)) (2 ^ n)). lia.
Qed.

Lemma wrap_i_small n v : 0 < n -> - 2 ^ (n - 1) <= v < 2 ^ (n - 1) -> wrap_i n v = v.
Proof.
  intros Hn H. unfold wrap_i.
  assert (2 ^ n = 2 * 2 ^ (n - 1)) by (rewrite <- Z.pow_succ_r by lia; f_equal; lia).
  rewrite Z.mod_small; lia.
Qed.

Lemma wrap_i_mod n v : 0 < n -> wrap_i n v mod 2 ^ n = v mod 2 ^ n.
Proof.
  intros Hn. unfold wrap_i.
  rewrite Zminus_mod_idemp_l. f_equal. lia.
Qed.

Lemma wrap_i_cong n a b : a mod 2 ^ n = b mod 2 ^ n -> wrap_i n a = wrap_i n b.
Proof.
  intros H. unfold wrap_i. rewrite <- (Zplus_mod_idemp_l a), H, Zplus_mod_idemp_l. reflexivity.
Qed.

Lemma as_i_wrap n v : 0 < n -> as_i n v = wrap_i n v.
Proof.
  intros Hn. unfold as_i.
  assert (E : 2 ^ n = 2 * 2 ^ (n - 1)) by (rewrite <- Z.pow_succ_r by lia; f_equal; lia).
  assert (0 < 2 ^ (n - 1)) by (apply Z.pow_pos_nonneg; lia).
  pose proof (Z.mod_pos_bound v (2 ^ n)).
  rewrite <- (wrap_i_cong n (v mod 2 ^ n) v) by (apply Z.mod_mod; lia).
  destruct (Z.ltb_spec (v mod 2 ^ n) (2 ^ (n - 1))).
  - rewrite wrap_i_small; lia.
  - unfold wrap_i. set (m := v mod 2 ^ n) in *. 
    replace (m + 2 ^ (n - 1)) with (m - 2 ^ (n - 1) + 1 * 2 ^ n) by lia.
    rewrite Z.mod_add by lia. rewrite Z.mod_small; lia.
Qed.

(** ** Representations *)
Lemma wf_uof c v : wf_u (uof c v).
Proof.
  unfold wf_u, uof. rewrite hi_mod, lo_mod.
  destruct (big_endian c); simpl uw0; simpl uw1; split; apply Z.mod_pos_bound; lia.
Qed.

Lemma wf_iof c v : wf_i (iof c v).
Proof.
  unfold wf_i, iof.
  destruct (big_endian c); simpl iw0; simpl iw1; split; apply (wrap_i_range 128); lia.
Qed.

Lemma uval_uof c v : uval c (uof c v) = v mod 2 ^ 256.
Proof.
  unfold uval, uof. pose proof (Z.div_mod (v mod 2 ^ 256) (2 ^ 128)).
  destruct (big_endian c); simpl uw0; simpl uw1; lia.
Qed.

Lemma uof_uval c x : wf_u x -> uof c (uval c x) = x.
Proof.
  destruct x as [a b]. unfold wf_u, uval, uof; simpl uw0; simpl uw1. intros [Ha Hb].
  rewrite hi_mod, lo_mod.
  destruct (big_endian c); f_equal.
  all: rewrite ?Z.div_add_l, ?(Z.div_small _ (2 ^ 128)), ?Z.add_0_r by lia.
  all: rewrite ?(Z.add_comm (_ * _)), ?Z.mod_add by lia; apply Z.mod_small; lia.
Qed.

Lemma uval_range c x : wf_u x -> 0 <= uval c x < 2 ^ 256.
Proof.
  intros H. rewrite <- (uof_uval c x H), uval_uof. apply Z.mod_pos_bound. lia.
Qed.

Lemma uof_cong c a b : a mod 2 ^ 256 = b mod 2 ^ 256 -> uof c a = uof c b.
Proof. intros H. unfold uof. rewrite H. reflexivity. Qed.

Lemma iof_cong c a b : a mod 2 ^ 256 = b mod 2 ^ 256 -> iof c a = iof c b.
Proof. intros H. unfold iof. rewrite H. reflexivity. Qed.

Lemma uof_mod c v : uof c (v mod 2 ^ 256) = uof c v.
Proof. apply uof_cong, Z.mod_mod. lia. Qed.

Lemma iof_mod c v : iof c (v mod 2 ^ 256) = iof c v.
Proof. apply iof_cong, Z.mod_mod. lia. Qed.

Lemma iof_wrap c v : iof c (wrap_i 256 v) = iof c v.
Proof. apply iof_cong, (wrap_i_mod 256). lia. Qed.

Lemma wrap_i_128_mod v : wrap_i 128 v mod 2 ^ 128 = v mod 2 ^ 128.
Proof. apply wrap_i_mod. lia. Qed.

Lemma ival_iof c v : ival c (iof c v) = wrap_i 256 v.
Proof.
  unfold ival, iof.
  assert (wrap_i 128 ((v mod 2 ^ 256) / 2 ^ 128) * 2 ^ 128
          + wrap_i 128 ((v mod 2 ^ 256) mod 2 ^ 128) mod 2 ^ 128 = wrap_i 256 v).
  { rewrite wrap_i_128_mod, Z.mod_mod by lia.
    rewrite <- (wrap_i_cong 256 (v mod 2 ^ 256) v) by (apply Z.mod_mod; lia).
    pose proof (Z.mod_pos_bound v (2 ^ 256)).
    set (m := v mod 2 ^ 256) in *.
    unfold wrap_i. change (2 ^ (128 - 1)) with (2 ^ 127). change (2 ^ (256 - 1)) with (2 ^ 255). zz. }
  destruct (big_endian c); simpl iw0; simpl iw1; assumption.
Qed.

Lemma wrap_i_words hi lo : - 2 ^ 127 <= hi < 2 ^ 127 -> 0 <= lo < 2 ^ 128 ->
  wrap_i 128 (((hi * 2 ^ 128 + lo) mod 2 ^ 256) / 2 ^ 128) = hi /\
  ((hi * 2 ^ 128 + lo) mod 2 ^ 256) mod 2 ^ 128 = lo.
Proof.
  intros Hh Hl. rewrite hi_mod, lo_mod. split.
  - rewrite Z.div_add_l, (Z.div_small lo), Z.add_0_r by lia.
    rewrite (wrap_i_cong 128 _ hi) by (apply Z.mod_mod; lia).
    apply wrap_i_small; lia.
  - rewrite Z.add_comm, Z.mod_add by lia. apply Z.mod_small. lia.
Qed.

Lemma iof_ival c x : wf_i x -> iof c (ival c x) = x.
Proof.
  destruct x as [a b]. unfold wf_i, ival, iof; simpl iw0; simpl iw1. intros [Ha Hb].
  assert (L : forall w, - 2 ^ 127 <= w < 2 ^ 127 -> wrap_i 128 (w mod 2 ^ 128) = w).
  { intros w Hw. rewrite (wrap_i_cong 128 _ w) by (apply Z.mod_mod; lia).
    apply wrap_i_small; lia. }
  destruct (big_endian c);
    match goal with |- context [(?h * 2 ^ 128 + ?l) mod 2 ^ 256] =>
      destruct (wrap_i_words h l) as [E1 E2]; [lia | apply Z.mod_pos_bound; lia | rewrite E1, E2]
    end; rewrite L by lia; reflexivity.
Qed.

Lemma ival_range c x : wf_i x -> - 2 ^ 255 <= ival c x < 2 ^ 255.
Proof.
  intros H. rewrite <- (iof_ival c x H), ival_iof. apply (wrap_i_range 256). lia.
Qed.

(** ** Words of a representation *)
Lemma u_high_of c v : u_high c (uof c v) = (v / 2 ^ 128) mod 2 ^ 128.
Proof. unfold u_high, uof. rewrite hi_mod. destruct (big_endian c); reflexivity. Qed.

Lemma u_low_of c v : u_low c (uof c v) = v mod 2 ^ 128.
Proof. unfold u_low, uof. rewrite lo_mod. destruct (big_endian c); reflexivity. Qed.

Lemma u_into_words_of c v : u_into_words c (uof c v) = ((v / 2 ^ 128) mod 2 ^ 128, v mod 2 ^ 128).
Proof. unfold u_into_words, uof. rewrite hi_mod, lo_mod. destruct (big_endian c); reflexivity. Qed.

Lemma u_from_words_of c hi lo : 0 <= hi < 2 ^ 128 -> 0 <= lo < 2 ^ 128 ->
  u_from_words c hi lo = uof c (hi * 2 ^ 128 + lo).
Proof.
  intros Hh Hl. unfold u_from_words, uof. rewrite hi_mod, lo_mod.
  rewrite Z.div_add_l, (Z.div_small lo), Z.add_0_r, (Z.mod_small hi) by lia.
  rewrite Z.add_comm, Z.mod_add, Z.mod_small by lia. reflexivity.
Qed.

Lemma u_set_low_from c x v : u_set_low c x v = u_from_words c (u_high c x) v.
Proof. unfold u_set_low, u_from_words, u_high. destruct (big_endian c); reflexivity. Qed.
Lemma u_set_high_from c x v : u_set_high c x v = u_from_words c v (u_low c x).
Proof. unfold u_set_high, u_from_words, u_low. destruct (big_endian c); reflexivity. Qed.
Lemma u_high_from c h l : u_high c (u_from_words c h l) = h.
Proof. unfold u_high, u_from_words. destruct (big_endian c); reflexivity. Qed.
Lemma u_low_from c h l : u_low c (u_from_words c h l) = l.
Proof. unfold u_low, u_from_words. destruct (big_endian c); reflexivity. Qed.
Lemma u_from_high_low c x : u_from_words c (u_high c x) (u_low c x) = x.
Proof. destruct x; unfold u_high, u_low, u_from_words. destruct (big_endian c); reflexivity. Qed.

Lemma i_high_of c v : i_high c (iof c v) = wrap_i 128 (v / 2 ^ 128).
Proof.
  unfold i_high, iof. rewrite hi_mod.
  rewrite (wrap_i_cong 128 ((v / 2 ^ 128) mod 2 ^ 128) (v / 2 ^ 128)) by (apply Z.mod_mod; lia).
  destruct (big_endian c); reflexivity.
Qed.
Lemma i_low_of c v : i_low c (iof c v) = wrap_i 128 v.
Proof.
  unfold i_low, iof. rewrite lo_mod.
  rewrite (wrap_i_cong 128 (v mod 2 ^ 128) v) by (apply Z.mod_mod; lia).
  destruct (big_endian c); reflexivity.
Qed.
Lemma i_into_words_hl c x : i_into_words c x = (i_high c x, i_low c x).
Proof. unfold i_into_words, i_high, i_low. destruct (big_endian c); reflexivity. Qed.
Lemma u_into_words_hl c x : u_into_words c x = (u_high c x, u_low c x).
Proof. unfold u_into_words, u_high, u_low. destruct (big_endian c); reflexivity. Qed.
Lemma i_into_words_of c v :
  i_into_words c (iof c v) = (wrap_i 128 (v / 2 ^ 128), wrap_i 128 v).
Proof. rewrite i_into_words_hl, i_high_of, i_low_of. reflexivity. Qed.
Lemma i_from_high_low c x : i_from_words c (i_high c x) (i_low c x) = x.
Proof. destruct x; unfold i_high, i_low, i_from_words. destruct (big_endian c); reflexivity. Qed.

Lemma i_from_words_of c hi lo : - 2 ^ 127 <= hi < 2 ^ 127 -> - 2 ^ 127 <= lo < 2 ^ 127 ->
  i_from_words c hi lo = iof c (hi * 2 ^ 128 + lo mod 2 ^ 128).
Proof.
  intros Hh Hl. unfold i_from_words, iof.
  destruct (wrap_i_words hi (lo mod 2 ^ 128)) as [E1 E2]; [lia | apply Z.mod_pos_bound; lia|].
  rewrite E1, E2.
  assert (wrap_i 128 (lo mod 2 ^ 128) = lo) as ->.
  { rewrite (wrap_i_cong 128 _ lo) by (apply Z.mod_mod; lia). apply wrap_i_small; lia. }
  reflexivity.
Qed.

(** ** Reinterpretation *)
Lemma u_as_i256_of c v : u_as_i256 (uof c v) = iof c v.
Proof.
  unfold u_as_i256, uof, iof.
  destruct (big_endian c); simpl uw0; simpl uw1; f_equal; apply as_i_wrap; lia.
Qed.

Lemma i_as_u256_of c v : i_as_u256 (iof c v) = uof c v.
Proof.
  unfold i_as_u256, uof, iof, as_u. rewrite hi_mod, lo_mod.
  destruct (big_endian c); simpl iw0; simpl iw1; f_equal;
    rewrite wrap_i_128_mod, Z.mod_mod by lia; reflexivity.
Qed.

(** ** Constants *)
Lemma u_new_of c v : 0 <= v < 2 ^ 128 -> u_new c v = uof c v.
Proof. intros. unfold u_new. rewrite u_from_words_of by lia. f_equal. Qed.

Lemma i_new_of c v : - 2 ^ 127 <= v < 2 ^ 127 -> i_new c v = iof c v.
Proof.
  intros. unfold i_new. rewrite Z.shiftr_div_pow2 by lia.
  assert (v / 2 ^ 127 = if v <? 0 then -1 else 0) as E.
  { destruct (Z.ltb_spec v 0); zz. }
  rewrite i_from_words_of by (rewrite ?E; destruct (v <? 0); lia).
  f_equal. rewrite E. destruct (Z.ltb_spec v 0); zz.
Qed.

Lemma U256_ZERO_of c : U256_ZERO = uof c 0.
Proof. unfold U256_ZERO, uof. destruct (big_endian c); reflexivity. Qed.
Lemma U256_MIN_of c : U256_MIN = uof c 0.
Proof. apply U256_ZERO_of. Qed.
Lemma U256_ONE_of c : U256_ONE c = uof c 1.
Proof. apply u_new_of. lia. Qed.
Lemma U256_MAX_of c : U256_MAX = uof c (2 ^ 256 - 1).
Proof. unfold U256_MAX, uof. destruct (big_endian c); reflexivity. Qed.
Lemma I256_ZERO_of c : I256_ZERO = iof c 0.
Proof. unfold I256_ZERO, iof. destruct (big_endian c); reflexivity. Qed.
Lemma I256_ONE_of c : I256_ONE c = iof c 1.
Proof. apply i_new_of. lia. Qed.
Lemma I256_MINUS_ONE_of c : I256_MINUS_ONE c = iof c (-1).
Proof. apply i_new_of. lia. Qed.
Lemma I256_MIN_of c : I256_MIN c = iof c (- 2 ^ 255).
Proof. unfold I256_MIN. rewrite i_from_words_of by lia. f_equal. Qed.
Lemma I256_MAX_of c : I256_MAX c = iof c (2 ^ 255 - 1).
Proof. unfold I256_MAX. rewrite i_from_words_of by lia. f_equal. Qed.

(** ** Case analysis on wf values *)
Lemma wf_u_ind c (P : u256 -> Prop) :
  (forall v, 0 <= v < 2 ^ 256 -> P (uof c v)) -> forall x, wf_u x -> P x.
Proof. intros H x Hx. rewrite <- (uof_uval c x Hx). apply H, uval_range, Hx. Qed.
Lemma wf_i_ind c (P : i256 -> Prop) :
  (forall v, - 2 ^ 255 <= v < 2 ^ 255 -> P (iof c v)) -> forall x, wf_i x -> P x.
Proof. intros H x Hx. rewrite <- (iof_ival c x Hx). apply H, ival_range, Hx. Qed.

Lemma uval_of_small c v : 0 <= v < 2 ^ 256 -> uval c (uof c v) = v.
Proof. intros. rewrite uval_uof. apply Z.mod_small. lia. Qed.
Lemma ival_of_small c v : - 2 ^ 255 <= v < 2 ^ 255 -> ival c (iof c v) = v.
Proof. intros. rewrite ival_iof. apply wrap_i_small; lia. Qed.

(** ** Comparison *)
Lemma u_eq_of c a b : 0 <= a < 2 ^ 256 -> 0 <= b < 2 ^ 256 ->
  u_eq c (uof c a) (uof c b) = (a =? b).
Proof.
  intros. unfold u_eq. rewrite !u_into_words_of. rewrite !(Z.mod_small (_ / _)) by zz.
  destruct (Z.eqb_spec a b) as [->|N]; [now rewrite !Z.eqb_refl|].
  apply Bool.not_true_iff_false. rewrite andb_true_iff, !Z.eqb_eq. zz.
Qed.

Lemma lex_cmp ah al bh bl : 0 <= al < 2 ^ 128 -> 0 <= bl < 2 ^ 128 ->
  lex (ah ?= bh) (al ?= bl) = (ah * 2 ^ 128 + al ?= bh * 2 ^ 128 + bl).
Proof.
  intros. destruct (Z.compare_spec ah bh); simpl lex.
  - subst. destruct (Z.compare_spec al bl); symmetry;
      [apply Z.compare_eq_iff | apply Z.compare_lt_iff | apply Z.compare_gt_iff]; lia.
  - symmetry. apply Z.compare_lt_iff. lia.
  - symmetry. apply Z.compare_gt_iff. lia.
Qed.

Lemma u_cmp_of c a b : 0 <= a < 2 ^ 256 -> 0 <= b < 2 ^ 256 ->
  u_cmp c (uof c a) (uof c b) = (a ?= b).
Proof.
  intros. unfold u_cmp. rewrite !u_into_words_of. rewrite !(Z.mod_small (_ / _)) by zz.
  rewrite lex_cmp by (apply Z.mod_pos_bound; lia).
  f_equal; zz.
Qed.

Lemma ihi_small v : - 2 ^ 255 <= v < 2 ^ 255 -> wrap_i 128 (v / 2 ^ 128) = v / 2 ^ 128.
Proof. intros. apply wrap_i_small; [lia|]. change (2 ^ (128 - 1)) with (2 ^ 127). zz. Qed.

Lemma wrap_i_128_inj a b : wrap_i 128 a = wrap_i 128 b -> a mod 2 ^ 128 = b mod 2 ^ 128.
Proof. intros H. rewrite <- (wrap_i_128_mod a), <- (wrap_i_128_mod b), H. reflexivity. Qed.

Lemma i_eq_of c a b : - 2 ^ 255 <= a < 2 ^ 255 -> - 2 ^ 255 <= b < 2 ^ 255 ->
  i_eq c (iof c a) (iof c b) = (a =? b).
Proof.
  intros. unfold i_eq. rewrite !i_into_words_of. rewrite !ihi_small by lia.
  destruct (Z.eqb_spec a b) as [->|N]; [now rewrite !Z.eqb_refl|].
  apply Bool.not_true_iff_false. rewrite andb_true_iff, !Z.eqb_eq.
  intros [E1 E2]. apply wrap_i_128_inj in E2. zz.
Qed.

Lemma i_cmp_of c a b : - 2 ^ 255 <= a < 2 ^ 255 -> - 2 ^ 255 <= b < 2 ^ 255 ->
  i_cmp c (iof c a) (iof c b) = (a ?= b).
Proof.
  intros. unfold i_cmp, as_u. rewrite !i_into_words_of. rewrite !ihi_small by lia.
  rewrite !wrap_i_128_mod.
  rewrite lex_cmp by (apply Z.mod_pos_bound; lia).
  f_equal; zz.
Qed.

Lemma u_eq_prim_of c a b : 0 <= a < 2 ^ 256 -> 0 <= b < 2 ^ 128 ->
  u_eq_prim c (uof c a) b = (a =? b).
Proof. intros. unfold u_eq_prim. rewrite u_new_of, u_eq_of by lia. reflexivity. Qed.
Lemma u_cmp_prim_of c a b : 0 <= a < 2 ^ 256 -> 0 <= b < 2 ^ 128 ->
  u_cmp_prim c (uof c a) b = (a ?= b).
Proof. intros. unfold u_cmp_prim. rewrite u_new_of, u_cmp_of by lia. reflexivity. Qed.
Lemma i_eq_prim_of c a b : - 2 ^ 255 <= a < 2 ^ 255 -> - 2 ^ 127 <= b < 2 ^ 127 ->
  i_eq_prim c (iof c a) b = (a =? b).
Proof. intros. unfold i_eq_prim. rewrite i_new_of, i_eq_of by lia. reflexivity. Qed.
Lemma i_cmp_prim_of c a b : - 2 ^ 255 <= a < 2 ^ 255 -> - 2 ^ 127 <= b < 2 ^ 127 ->
  i_cmp_prim c (iof c a) b = (a ?= b).
Proof. intros. unfold i_cmp_prim. rewrite i_new_of, i_cmp_of by lia. reflexivity. Qed.

Lemma is_lt_cmp a b : is_lt (a ?= b) = (a <? b).
Proof. unfold is_lt, Z.ltb. reflexivity. Qed.
Lemma is_gt_cmp a b : is_gt (a ?= b) = (b <? a).
Proof. unfold is_gt. rewrite <- Z.gtb_ltb. reflexivity. Qed.
Lemma is_le_cmp a b : is_le (a ?= b) = (a <=? b).
Proof. unfold is_le, Z.leb. destruct (a ?= b); reflexivity. Qed.
Lemma is_ge_cmp a b : is_ge (a ?= b) = (b <=? a).
Proof. unfold is_ge. rewrite <- Z.geb_leb. unfold Z.geb. destruct (a ?= b); reflexivity. Qed.


Lemma u_lt_of c a b : 0 <= a < 2 ^ 256 -> 0 <= b < 2 ^ 256 -> u_lt c (uof c a) (uof c b) = (a <? b).
Proof. intros. unfold u_lt. rewrite u_cmp_of, is_lt_cmp by lia. reflexivity. Qed.
Lemma u_gt_of c a b : 0 <= a < 2 ^ 256 -> 0 <= b < 2 ^ 256 -> u_gt c (uof c a) (uof c b) = (b <? a).
Proof. intros. unfold u_gt. rewrite u_cmp_of, is_gt_cmp by lia. reflexivity. Qed.
Lemma u_le_of c a b : 0 <= a < 2 ^ 256 -> 0 <= b < 2 ^ 256 -> u_le c (uof c a) (uof c b) = (a <=? b).
Proof. intros. unfold u_le. rewrite u_cmp_of, is_le_cmp by lia. reflexivity. Qed.
Lemma u_ge_of c a b : 0 <= a < 2 ^ 256 -> 0 <= b < 2 ^ 256 -> u_ge c (uof c a) (uof c b) = (b <=? a).
Proof. intros. unfold u_ge. rewrite u_cmp_of, is_ge_cmp by lia. reflexivity. Qed.
Lemma i_lt_of c a b : - 2 ^ 255 <= a < 2 ^ 255 -> - 2 ^ 255 <= b < 2 ^ 255 ->
  i_lt c (iof c a) (iof c b) = (a <? b).
Proof. intros. unfold i_lt. rewrite i_cmp_of, is_lt_cmp by lia. reflexivity. Qed.
Lemma i_gt_of c a b : - 2 ^ 255 <= a < 2 ^ 255 -> - 2 ^ 255 <= b < 2 ^ 255 ->
  i_gt c (iof c a) (iof c b) = (b <? a).
Proof. intros. unfold i_gt. rewrite i_cmp_of, is_gt_cmp by lia. reflexivity. Qed.
Lemma i_le_of c a b : - 2 ^ 255 <= a < 2 ^ 255 -> - 2 ^ 255 <= b < 2 ^ 255 ->
  i_le c (iof c a) (iof c b) = (a <=? b).
Proof. intros. unfold i_le. rewrite i_cmp_of, is_le_cmp by lia. reflexivity. Qed.
Lemma i_ge_of c a b : - 2 ^ 255 <= a < 2 ^ 255 -> - 2 ^ 255 <= b < 2 ^ 255 ->
  i_ge c (iof c a) (iof c b) = (b <=? a).
Proof. intros. unfold i_ge. rewrite i_cmp_of, is_ge_cmp by lia. reflexivity. Qed.

(** ** Modular rewriting *)
#[global] Existing Instance eqm_setoid.
#[global] Existing Instance Zplus_eqm.
#[global] Existing Instance Zminus_eqm.
#[global] Existing Instance Zmult_eqm.
#[global] Existing Instance Zopp_eqm.
(** turns [X mod n = Y mod n] into the same goal without [_ mod n] inside sums,
    differences and products *)
Ltac strip_mod n t :=
  lazymatch t with
  | ?a mod n => strip_mod n a
  | ?a + ?b => let a' := strip_mod n a in let b' := strip_mod n b in constr:(a' + b')
  | ?a - ?b => let a' := strip_mod n a in let b' := strip_mod n b in constr:(a' - b')
  | ?a * ?b => let a' := strip_mod n a in let b' := strip_mod n b in constr:(a' * b')
  | - ?a => let a' := strip_mod n a in constr:(- a')
  | _ => t
  end.

Lemma eqm_strip n a b : eqm n a b -> eqm n (a mod n) b.
Proof. unfold eqm. rewrite Zmod_mod. trivial. Qed.
Lemma eqm_refl' n a : eqm n a a.
Proof. reflexivity. Qed.
Lemma eqm_add n a a' b b' : eqm n a a' -> eqm n b b' -> eqm n (a + b) (a' + b').
Proof. intros H1 H2. apply Zplus_eqm; assumption. Qed.
Lemma eqm_sub n a a' b b' : eqm n a a' -> eqm n b b' -> eqm n (a - b) (a' - b').
Proof. intros H1 H2. apply Zminus_eqm; assumption. Qed.
Lemma eqm_mul n a a' b b' : eqm n a a' -> eqm n b b' -> eqm n (a * b) (a' * b').
Proof. intros H1 H2. apply Zmult_eqm; assumption. Qed.
Lemma eqm_opp n a a' : eqm n a a' -> eqm n (- a) (- a').
Proof. intros H1. apply Zopp_eqm; assumption. Qed.

Ltac strip_proof :=
  repeat first
    [ apply eqm_refl' | apply eqm_strip | apply eqm_add | apply eqm_sub
    | apply eqm_mul | apply eqm_opp ].

Ltac pull_mod :=
  match goal with
  | |- ?X mod ?n = ?Y mod ?n =>
      let X' := strip_mod n X in
      let Y' := strip_mod n Y in
      let H1 := fresh in let H2 := fresh in
      assert (H1 : eqm n X X') by strip_proof;
      assert (H2 : eqm n Y Y') by strip_proof;
      refine (eq_trans H1 (eq_trans _ (eq_sym H2))); clear H1 H2
  end.

(** the high word of a representation only matters modulo 2^128 *)
Lemma uof_hi_cong c h h' l : h mod 2 ^ 128 = h' mod 2 ^ 128 ->
  uof c (h * 2 ^ 128 + l) = uof c (h' * 2 ^ 128 + l).
Proof.
  intros H. apply uof_cong. rewrite <- (Zplus_mod_idemp_l (h * _)), <- (Zplus_mod_idemp_l (h' * _)).
  rewrite pow256, !Zmult_mod_distr_r, H. reflexivity.
Qed.

Lemma uof_words c h l : 0 <= l < 2 ^ 128 ->
  u_from_words c (h mod 2 ^ 128) l = uof c (h * 2 ^ 128 + l).
Proof.
  intros. rewrite u_from_words_of by (try apply Z.mod_pos_bound; lia).
  apply uof_hi_cong, Zmod_mod.
Qed.

(** replace a well-formed value by the number it stands for *)
Ltac on_u c x :=
  match goal with H : wf_u x |- _ =>
    let v := fresh "n" x in let Hv := fresh "H" v in let E := fresh in
    pose proof (uval_range c x H) as Hv; pose proof (uof_uval c x H) as E;
    revert Hv E; generalize (uval c x); intros v Hv E; subst x; clear H end.
Ltac on_i c x :=
  match goal with H : wf_i x |- _ =>
    let v := fresh "n" x in let Hv := fresh "H" v in let E := fresh in
    pose proof (ival_range c x H) as Hv; pose proof (iof_ival c x H) as E;
    revert Hv E; generalize (ival c x); intros v Hv E; subst x; clear H end.
