(** * Rounding to nearest even, and the integer to float conversions *)

From Coq Require Import ZArith String List Bool Lia ZifyBool.
Import ListNotations.
From Verif Require Import M_Prim M_Words M_Intr M_Ops M_IntApi M_Convert M_Float Spec Spec_Float
  P_Words P_Bits P_Ops P_Uint P_Int.
Open Scope Z_scope.

Section Round.
Variable p : Z.
Hypothesis Hp : 2 <= p.

Lemma pow_pos k : 0 <= k -> 0 < 2 ^ k. Proof. intros. apply Z.pow_pos_nonneg; lia. Qed.
Lemma pow_S k : 0 < k -> 2 ^ k = 2 * 2 ^ (k - 1).
Proof. intros. rewrite <- Z.pow_succ_r by lia. f_equal. lia. Qed.

(** decomposition of a number of more than [p] bits *)
Lemma decomp z : 2 ^ p <= z -> exists q a l, 1 <= a /\ 2 ^ (p - 1) <= q < 2 ^ p /\ 0 <= l < 2 ^ a /\ z = q * 2 ^ a + l /\ a = Z.log2 z + 1 - p.
Proof.
  intros Hz. pose proof (pow_pos p ltac:(lia)). pose proof (Z.log2_spec z ltac:(lia)) as [L1 L2].
  assert (p <= Z.log2 z) by (apply Z.log2_le_pow2; lia).
  set (a := Z.log2 z + 1 - p). pose proof (pow_pos a ltac:(lia)) as Pa.
  exists (z / 2 ^ a), a, (z mod 2 ^ a). split; [lia|]. split.
  - split.
    + apply Z.div_le_lower_bound; [lia|]. rewrite <- Z.pow_add_r by lia. replace (a + (p - 1)) with (Z.log2 z) by lia. lia.
    + apply Z.div_lt_upper_bound; [lia|]. rewrite <- Z.pow_add_r by lia. replace (a + p) with (Z.succ (Z.log2 z)) by lia. lia.
  - split; [apply Z.mod_pos_bound; lia|]. split; [|reflexivity]. rewrite Z.mul_comm. apply Z.div_mod. lia.
Qed.

Definition rq (a q l : Z) : Z :=
  if 2 * l <? 2 ^ a then q * 2 ^ a
  else if 2 ^ a <? 2 * l then (q + 1) * 2 ^ a
  else if Z.even q then q * 2 ^ a else (q + 1) * 2 ^ a.
Lemma rne_norm q a l : 1 <= a -> 2 ^ (p - 1) <= q < 2 ^ p -> 0 <= l < 2 ^ a -> rne p (q * 2 ^ a + l) = rq a q l.
Proof.
  intros Ha Hq Hl. unfold rne. pose proof (pow_pos a ltac:(lia)) as Pa. pose proof (pow_pos (p - 1) ltac:(lia)) as Pp.
  pose proof (pow_S p ltac:(lia)) as PS. pose proof (pow_S a ltac:(lia)) as PA. pose proof (pow_pos (a - 1) ltac:(lia)) as Pa'.
  assert (B : 2 ^ p <= q * 2 ^ a + l) by (rewrite PS, PA; nia).
  replace (q * 2 ^ a + l <? 2 ^ p) with false by lia.
  assert (L : Z.log2 (q * 2 ^ a + l) = a + p - 1).
  { apply Z.log2_unique; [lia|]. unfold Z.succ. replace (a + p - 1 + 1) with (p + a) by lia. replace (a + p - 1) with (p - 1 + a) by lia.
    rewrite !Z.pow_add_r by lia. nia. }
  rewrite L. replace (a + p - 1 + 1 - p) with a by lia. unfold rne_at, rq.
  rewrite Z.add_comm, Z.div_add, Z.mod_add, Z.div_small, Z.mod_small by lia. rewrite Z.add_0_l. reflexivity.
Qed.

Lemma rne_small z : z < 2 ^ p -> rne p z = z.
Proof. intros. unfold rne. replace (z <? 2 ^ p) with true by lia. reflexivity. Qed.

Lemma rq_cases a q l : rq a q l = q * 2 ^ a /\ 2 * l <= 2 ^ a /\ (2 * l = 2 ^ a -> Z.even q = true) \/
  rq a q l = (q + 1) * 2 ^ a /\ 2 ^ a <= 2 * l /\ (2 * l = 2 ^ a -> Z.even q = false).
Proof.
  unfold rq. destruct (Z.ltb_spec (2 * l) (2 ^ a)); [left; split; [reflexivity|lia]|].
  destruct (Z.ltb_spec (2 ^ a) (2 * l)); [right; split; [reflexivity|lia]|].
  destruct (Z.even q) eqn:Eq; [left|right]; (split; [reflexivity|]); (split; [lia|auto]).
Qed.

(** numbers with [p] bits leave the gap between two neighbours empty *)
Lemma gap q a y : 1 <= a -> 2 ^ (p - 1) <= q < 2 ^ p -> representable p y -> y <= q * 2 ^ a \/ (q + 1) * 2 ^ a <= y.
Proof.
  intros Ha Hq (m & e & He & Hm & ->). pose proof (pow_pos a ltac:(lia)) as Pa. pose proof (pow_pos e He) as Pe.
  pose proof (pow_S p ltac:(lia)) as PS. pose proof (pow_S a ltac:(lia)) as PA.
  destruct (Z.leb_spec a e).
  - replace e with ((e - a) + a) by lia. rewrite Z.pow_add_r, Z.mul_assoc by lia.
    destruct (Z.le_gt_cases (m * 2 ^ (e - a)) q); [left|right]; apply Z.mul_le_mono_nonneg_r; lia.
  - left. assert (2 ^ e <= 2 ^ (a - 1)) by (apply Z.pow_le_mono_r; lia).
    pose proof (pow_pos (a - 1) ltac:(lia)).
    assert (m * 2 ^ e <= (2 ^ p) * 2 ^ (a - 1)); [|nia].
    apply Z.le_trans with (2 ^ p * 2 ^ e); [apply Z.mul_le_mono_nonneg_r; lia|]. apply Z.mul_le_mono_nonneg_l; lia.
Qed.

Lemma rep_q q a : 0 <= a -> 0 <= q <= 2 ^ p -> representable p (q * 2 ^ a).
Proof.
  intros Ha Hq. destruct (Z.eq_dec q (2 ^ p)) as [->|].
  - exists 1, (p + a). split; [lia|]. split; [pose proof (pow_S p ltac:(lia)); pose proof (pow_pos (p - 1) ltac:(lia)); lia|].
    rewrite Z.pow_add_r by lia. lia.
  - exists q, a. lia.
Qed.
Lemma rep_even q a : 0 <= a -> 0 <= q <= 2 ^ p -> Z.even q = true -> representable (p - 1) (q * 2 ^ a).
Proof.
  intros Ha Hq Ev. apply Z.even_spec in Ev. destruct Ev as [h ->].
  pose proof (pow_S p ltac:(lia)) as PS.
  destruct (Z.eq_dec h (2 ^ (p - 1))) as [->|].
  - exists 1, (p + a). split; [lia|]. split. { pose proof (pow_S (p - 1) ltac:(lia)); pose proof (pow_pos (p - 1 - 1) ltac:(lia)); lia. }
    rewrite Z.pow_add_r by lia. lia.
  - exists h, (a + 1). split; [lia|]. split; [lia|]. rewrite Z.pow_add_r by lia. lia.
Qed.
(** an odd multiple has no shorter representation *)
Lemma rep_odd q a : 0 <= a -> 2 ^ (p - 1) <= q -> representable (p - 1) (q * 2 ^ a) -> Z.even q = true.
Proof.
  intros Ha Hq (m & e & He & Hm & E). pose proof (pow_pos a Ha). pose proof (pow_pos e He).
  destruct (Z.leb_spec e a).
  - exfalso. replace a with ((a - e) + e) in E by lia. rewrite Z.pow_add_r, Z.mul_assoc in E by lia.
    apply Z.mul_cancel_r in E; [|lia]. pose proof (pow_pos (a - e) ltac:(lia)). pose proof (pow_pos (p - 1) ltac:(lia)). nia.
  - replace e with ((e - a) + a) in E by lia. rewrite Z.pow_add_r, Z.mul_assoc in E by lia.
    apply Z.mul_cancel_r in E; [|lia]. rewrite E, (pow_S (e - a)) by lia.
    rewrite Z.even_mul, Z.even_mul. cbn [Z.even orb]. apply orb_true_r.
Qed.

Lemma rep_small z : Z.abs z < 2 ^ p -> representable p z.
Proof. intros. exists z, 0. lia. Qed.

Lemma rne_nearest z : 0 <= z -> nearest_even p z (rne p z).
Proof.
  intros Hz. destruct (Z.ltb_spec z (2 ^ p)) as [H|H].
  - rewrite rne_small by assumption. split; [apply rep_small; lia|]. split; [intros; lia|]. intros. exfalso. lia.
  - destruct (decomp z H) as (q & a & l & Ha & Hq & Hl & Ez & _). subst z. rewrite rne_norm by assumption.
    pose proof (pow_pos a ltac:(lia)) as Pa. pose proof (pow_pos (p - 1) ltac:(lia)) as Pp.
    destruct (rq_cases a q l) as [(-> & R1 & R2)|(-> & R1 & R2)].
    + split; [apply rep_q; lia|]. split.
      * intros y' Hy'. destruct (gap q a y' Ha Hq Hy'); lia.
      * intros y' Hy' Hne Heq. apply rep_even; [lia|lia|]. apply R2. destruct (gap q a y' Ha Hq Hy'); lia.
    + split; [apply rep_q; lia|]. split.
      * intros y' Hy'. destruct (gap q a y' Ha Hq Hy'); lia.
      * intros y' Hy' Hne Heq. apply rep_even; [lia|lia|].
        rewrite Z.add_1_r, Z.even_succ, <- Z.negb_even. rewrite R2; [reflexivity|].
        destruct (gap q a y' Ha Hq Hy'); lia.
Qed.

Lemma nearest_unique z y : 0 <= z -> nearest_even p z y -> y = rne p z.
Proof.
  intros Hz (N1 & N2 & N3). destruct (rne_nearest z Hz) as (M1 & M2 & M3).
  destruct (Z.eq_dec y (rne p z)) as [|Hne]; [assumption|exfalso].
  specialize (N2 _ M1) as D1. specialize (M2 _ N1) as D2.
  assert (DE : Z.abs (z - y) = Z.abs (z - rne p z)) by lia.
  specialize (N3 _ M1 ltac:(congruence) ltac:(lia)).
  destruct (Z.ltb_spec z (2 ^ p)) as [H|H]. { rewrite rne_small in * by assumption. lia. }
  destruct (decomp z H) as (q & a & l & Ha & Hq & Hl & Ez & _). subst z. rewrite rne_norm in * by assumption.
  pose proof (pow_pos a ltac:(lia)) as Pa.
  destruct (rq_cases a q l) as [(ER & R1 & R2)|(ER & R1 & R2)]; rewrite ER in *.
  - assert (Y : y = (q + 1) * 2 ^ a /\ 2 * l = 2 ^ a) by (destruct (gap q a y Ha Hq N1); lia).
    destruct Y as [-> Y]. apply rep_odd in N3; [|lia|lia].
    rewrite Z.add_1_r, Z.even_succ, <- Z.negb_even, R2 in N3 by assumption. discriminate.
  - assert (Y : y = q * 2 ^ a /\ 2 * l = 2 ^ a) by (destruct (gap q a y Ha Hq N1); lia).
    destruct Y as [-> Y]. apply rep_odd in N3; [|lia|lia]. rewrite R2 in N3 by assumption. discriminate.
Qed.

Lemma rep_opp k y : representable k y -> representable k (- y).
Proof. intros (m & e & He & Hm & ->). exists (- m), e. split; [lia|]. split; lia. Qed.
Lemma nearest_opp z y : nearest_even p z y -> nearest_even p (- z) (- y).
Proof.
  intros (N1 & N2 & N3). split; [apply rep_opp; assumption|]. split.
  - intros y' Hy'. specialize (N2 (- y') (rep_opp _ _ Hy')). lia.
  - intros y' Hy' Hne Heq. apply rep_opp. apply (N3 (- y') (rep_opp _ _ Hy')); lia.
Qed.
(** rounding, signed *)
Lemma nearest_iff z y : nearest_even p z y <-> y = Z.sgn z * rne p (Z.abs z).
Proof.
  destruct (Z.le_gt_cases 0 z) as [H|H].
  - replace (Z.sgn z * rne p (Z.abs z)) with (rne p z).
    + split; [apply nearest_unique; assumption|]. intros ->. apply rne_nearest. assumption.
    + destruct (Z.eq_dec z 0) as [->|]; [|rewrite Z.sgn_pos, Z.abs_eq by lia; lia].
      pose proof (pow_pos p ltac:(lia)). rewrite rne_small by lia. reflexivity.
  - rewrite Z.sgn_neg, Z.abs_neq by lia. split.
    + intros N. apply nearest_opp in N. apply nearest_unique in N; lia.
    + intros ->. pose proof (nearest_opp _ _ (rne_nearest (- z) ltac:(lia))) as N. rewrite Z.opp_involutive in N.
      replace (-1 * rne p (- z)) with (- rne p (- z)) by lia. assumption.
Qed.

Lemma rne_rep y : 0 <= y -> representable p y -> rne p y = y.
Proof.
  intros Hy R. symmetry. apply nearest_unique; [assumption|]. split; [assumption|]. split; [intros; lia|]. intros. exfalso. lia.
Qed.
Lemma rne_mono z z' : 0 <= z <= z' -> rne p z <= rne p z'.
Proof.
  intros H. destruct (Z.eq_dec z z') as [->|]; [lia|].
  destruct (rne_nearest z ltac:(lia)) as (A1 & A2 & _). destruct (rne_nearest z' ltac:(lia)) as (B1 & B2 & _).
  specialize (A2 _ B1). specialize (B2 _ A1). lia.
Qed.
Lemma rne_nonneg z : 0 <= z -> 0 <= rne p z.
Proof. intros. pose proof (pow_pos p ltac:(lia)). rewrite <- (rne_small 0) by lia. apply rne_mono. lia. Qed.
Lemma rne_le_pow2 z k : 0 <= k -> 0 <= z <= 2 ^ k -> rne p z <= 2 ^ k.
Proof.
  intros Hk Hz. rewrite <- (rne_rep (2 ^ k)).
  - apply rne_mono. assumption.
  - apply Z.pow_nonneg. lia.
  - exists 1, k. split; [assumption|]. split; [|lia].
    pose proof (pow_S p ltac:(lia)); pose proof (pow_pos (p - 1) ltac:(lia)); lia.
Qed.
Lemma rne_is_rep z : 0 <= z -> representable p (rne p z).
Proof. intros. apply rne_nearest. assumption. Qed.
(** half a unit in the last place *)
Lemma rne_error z : 0 <= z -> Z.abs (rne p z - z) * 2 ^ p <= z.
Proof.
  intros Hz. pose proof (pow_pos p ltac:(lia)). destruct (Z.ltb_spec z (2 ^ p)) as [H1|H1].
  - rewrite rne_small by assumption. replace (z - z) with 0 by lia. rewrite Z.abs_0. lia.
  - destruct (decomp z H1) as (q & a & l & Ha & Hq & Hl & Ez & _). subst z. rewrite rne_norm by assumption.
    pose proof (pow_pos a ltac:(lia)) as Pa. pose proof (pow_pos (p - 1) ltac:(lia)) as Pp. pose proof (pow_S p ltac:(lia)) as PS.
    assert (HB : 2 * Z.abs (rq a q l - (q * 2 ^ a + l)) <= 2 ^ a).
    { destruct (rq_cases a q l) as [(-> & R1 & R2)|(-> & R1 & R2)]; lia. }
    rewrite PS. nia.
Qed.

(** adding at most half a unit to a number that several integers round to *)
Lemma rne_collapse h1 h2 k l : 0 <= k -> 0 <= h1 < h2 -> rne p h1 = rne p h2 -> 0 <= l <= 2 ^ k ->
  rne p (rne p h2 * 2 ^ k + l) = rne p h2 * 2 ^ k.
Proof.
  intros Hk Hh Heq Hl. pose proof (pow_pos p ltac:(lia)) as P1. pose proof (pow_pos k Hk) as Pk.
  destruct (Z.ltb_spec h2 (2 ^ p)) as [H|H]. { rewrite !rne_small in Heq by lia. lia. }
  pose proof (pow_S p ltac:(lia)) as PS. pose proof (pow_pos (p - 1) ltac:(lia)) as Pp.
  assert (KEY : forall q a, 1 <= a -> 2 ^ (p - 1) <= q < 2 ^ p -> rne p h2 = q * 2 ^ a -> (a = 1 -> Z.even q = true) ->
            rne p (rne p h2 * 2 ^ k + l) = rne p h2 * 2 ^ k).
  { intros q a Ha Hq -> Hev. rewrite <- Z.mul_assoc, <- Z.pow_add_r by lia.
    assert (PA : 2 ^ (a + k) = 2 ^ a * 2 ^ k) by (apply Z.pow_add_r; lia).
    pose proof (pow_S a ltac:(lia)) as PA'. pose proof (pow_pos (a - 1) ltac:(lia)) as PA2.
    assert (2 * l <= 2 ^ (a + k)) by (rewrite PA; nia).
    rewrite rne_norm by lia. unfold rq.
    destruct (Z.ltb_spec (2 * l) (2 ^ (a + k))); [reflexivity|].
    destruct (Z.ltb_spec (2 ^ (a + k)) (2 * l)); [lia|].
    rewrite Hev; [reflexivity|]. destruct (Z.eq_dec a 1); [assumption|exfalso].
    pose proof (pow_S (a - 1) ltac:(lia)). pose proof (pow_pos (a - 1 - 1) ltac:(lia)). nia. }
  destruct (decomp h2 H) as (q & a & r & Ha & Hq & Hr & E2 & _). 
  pose proof (pow_pos a ltac:(lia)) as Pa.
  assert (E3 : rne p h2 = rq a q r) by (rewrite E2; apply rne_norm; assumption).
  destruct (rq_cases a q r) as [(ER & R1 & R2)|(ER & R1 & R2)]; rewrite ER in E3.
  - apply (KEY q a Ha Hq E3). intros ->. change (2 ^ 1) with 2 in *.
    destruct (Z.eq_dec r 1) as [->|]; [apply R2; reflexivity|]. assert (r = 0) by lia. subst r.
    (* h2 is even and exact; h1 < h2 rounds to it *)
    destruct (Z.even q) eqn:Ev; [reflexivity|exfalso].
    rewrite E3 in Heq.
    destruct (Z.ltb_spec h1 (2 ^ p)) as [H1|H1]; [rewrite rne_small in Heq by assumption; lia|].
    destruct (Z.eq_dec h1 (h2 - 1)) as [E1|Hn].
    + assert (E4 : h1 = (q - 1) * 2 ^ 1 + 1) by (change (2 ^ 1) with 2; lia).
      rewrite E4, rne_norm in Heq by (change (2 ^ 1) with 2; lia).
      unfold rq in Heq. change (2 ^ 1) with 2 in Heq. cbn [Z.ltb Z.compare Z.mul Pos.mul Pos.compare Pos.compare_cont] in Heq.
      assert (Ev' : Z.even (q - 1) = true) by (rewrite Z.sub_1_r, Z.even_pred, <- Z.negb_even, Ev; reflexivity).
      rewrite Ev' in Heq. lia.
    + assert (HM : rne p h1 <= rne p (h2 - 2)) by (apply rne_mono; lia).
      assert (E4 : h2 - 2 = (q - 1) * 2 ^ 1) by (change (2 ^ 1) with 2; lia).
      rewrite E4, (rne_rep ((q - 1) * 2 ^ 1)) in HM; [|change (2 ^ 1) with 2; lia|apply rep_q; lia]. change (2 ^ 1) with 2 in HM. lia.
  - destruct (Z.eq_dec (q + 1) (2 ^ p)) as [EQ|].
    + apply (KEY (2 ^ (p - 1)) (a + 1)); [lia|lia| |lia].
      rewrite E3, EQ, PS, Z.pow_add_r by lia. change (2 ^ 1) with 2. ring.
    + apply (KEY (q + 1) a Ha ltac:(lia) E3). intros ->. change (2 ^ 1) with 2 in *.
      rewrite Z.add_1_r, Z.even_succ, <- Z.negb_even, R2 by lia. reflexivity.
Qed.
End Round.

(** ** The conversions *)

Lemma rnd_correct f z : 2 <= f_digits f -> 0 <= f_emax f -> correctly_rounded f z (rnd f z).
Proof.
  intros Hd He. exists (Z.sgn z * rne (f_digits f) (Z.abs z)). split; [apply nearest_iff; [assumption|reflexivity]|].
  unfold rnd. destruct (Z.leb_spec (2 ^ f_emax f) (Z.abs (Z.sgn z * rne (f_digits f) (Z.abs z)))) as [H|H]; [|reflexivity].
  f_equal. pose proof (pow_pos (f_emax f) He). pose proof (rne_nonneg (f_digits f) Hd (Z.abs z) ltac:(lia)).
  revert H H1. generalize (rne (f_digits f) (Z.abs z)). intros. destruct (Z.sgn_spec z) as [[A ->]|[[A ->]|[A ->]]]; lia.
Qed.
Lemma rnd_unique f z r : 2 <= f_digits f -> 0 <= f_emax f -> correctly_rounded f z r -> r = rnd f z.
Proof.
  intros Hd He (y & N & ->). apply nearest_iff in N; [|assumption]. subst y.
  pose proof (rnd_correct f z Hd He) as (y' & N' & ->). apply nearest_iff in N'; [|assumption]. subst y'. reflexivity.
Qed.

Lemma rnd64_fin z : 0 <= z < 2 ^ 1000 -> rnd F64 z = Fin (rne 53 z).
Proof.
  intros Hz. unfold rnd. change (f_digits F64) with 53. change (f_emax F64) with 1024.
  assert (E : Z.sgn z * rne 53 (Z.abs z) = rne 53 z).
  { destruct (Z.eq_dec z 0) as [->|]; [reflexivity|]. rewrite Z.sgn_pos, Z.abs_eq by lia. lia. }
  rewrite E. pose proof (rne_nonneg 53 ltac:(lia) z ltac:(lia)).
  pose proof (rne_le_pow2 53 ltac:(lia) z 1000 ltac:(lia) ltac:(lia)).
  assert (2 ^ 1000 < 2 ^ 1024) by reflexivity.
  replace (2 ^ 1024 <=? Z.abs (rne 53 z)) with false by lia. reflexivity.
Qed.

Definition u64r (v : Z) : Z := rne 53 (rne 53 (v / 2 ^ 128) * 2 ^ 128 + rne 53 (v mod 2 ^ 128)).
Lemma r53_bound z : 0 <= z < 2 ^ 128 -> 0 <= rne 53 z <= 2 ^ 128.
Proof. intros. split; [apply rne_nonneg; lia|]. apply rne_le_pow2; lia. Qed.
Lemma rep_mul_pow p y k : 0 <= k -> representable p y -> representable p (y * 2 ^ k).
Proof. intros Hk (m & e & He & Hm & ->). exists m, (e + k). split; [lia|]. split; [assumption|]. rewrite Z.pow_add_r by lia. ring. Qed.
Lemma u_as_f64_of c v : 0 <= v < 2 ^ 256 -> u_as_f64 c (uof c v) = Fin (u64r v).
Proof.
  intros Hv. unfold u_as_f64. rewrite u_into_words_of.
  assert (H1 : 0 <= v / 2 ^ 128 < 2 ^ 128) by zz. assert (H2 : 0 <= v mod 2 ^ 128 < 2 ^ 128) by (apply Z.mod_pos_bound; lia).
  rewrite (Z.mod_small (v / 2 ^ 128)) by lia.
  replace (match f_of_bits F64 5183643171103440896 with FNum false m e => Fin (m * 2 ^ e) | _ => Inf false end) with (Fin (2 ^ 128)) by reflexivity.
  assert (B : 2 ^ 128 < 2 ^ 1000) by reflexivity. assert (B2 : 2 ^ 256 < 2 ^ 1000) by reflexivity.
  assert (B3 : 2 ^ 256 + 2 ^ 128 < 2 ^ 1000) by reflexivity.
  rewrite !rnd64_fin by lia. cbn [fl_mul fl_add].
  pose proof (r53_bound _ H1). pose proof (r53_bound _ H2).
  rewrite rnd64_fin by nia. cbn [fl_add]. rewrite (rne_rep 53 ltac:(lia) (rne 53 (v / 2 ^ 128) * 2 ^ 128)).
  - rewrite rnd64_fin by nia. reflexivity.
  - nia.
  - apply rep_mul_pow; [lia|]. apply rne_is_rep; lia.
Qed.
Lemma u64r_nonneg v : 0 <= v < 2 ^ 256 -> 0 <= u64r v <= 2 ^ 257.
Proof.
  intros Hv. unfold u64r.
  assert (H1 : 0 <= v / 2 ^ 128 < 2 ^ 128) by zz. assert (H2 : 0 <= v mod 2 ^ 128 < 2 ^ 128) by (apply Z.mod_pos_bound; lia).
  pose proof (r53_bound _ H1). pose proof (r53_bound _ H2). split; [apply rne_nonneg; nia|apply rne_le_pow2; nia].
Qed.
Lemma u64r_mono v w : 0 <= v <= w -> w < 2 ^ 256 -> u64r v <= u64r w.
Proof.
  intros Hv Hw. unfold u64r.
  assert (V1 : 0 <= v / 2 ^ 128 < 2 ^ 128) by zz. assert (V2 : 0 <= v mod 2 ^ 128 < 2 ^ 128) by (apply Z.mod_pos_bound; lia).
  assert (W1 : 0 <= w / 2 ^ 128 < 2 ^ 128) by zz. assert (W2 : 0 <= w mod 2 ^ 128 < 2 ^ 128) by (apply Z.mod_pos_bound; lia).
  assert (D : v / 2 ^ 128 < w / 2 ^ 128 \/ (v / 2 ^ 128 = w / 2 ^ 128 /\ v mod 2 ^ 128 <= w mod 2 ^ 128)) by zz.
  pose proof (r53_bound _ V1). pose proof (r53_bound _ V2). pose proof (r53_bound _ W1). pose proof (r53_bound _ W2).
  destruct D as [D|[D1 D2]].
  - pose proof (rne_mono 53 ltac:(lia) (v / 2 ^ 128) (w / 2 ^ 128) ltac:(lia)) as HM.
    destruct (Z.eq_dec (rne 53 (v / 2 ^ 128)) (rne 53 (w / 2 ^ 128))) as [E|E].
    + rewrite E. rewrite (rne_collapse 53 ltac:(lia) (v / 2 ^ 128) (w / 2 ^ 128) 128) by (assumption || lia).
      rewrite <- (rne_rep 53 ltac:(lia) (rne 53 (w / 2 ^ 128) * 2 ^ 128)) at 1.
      * apply rne_mono; nia.
      * nia.
      * apply rep_mul_pow; [lia|]. apply rne_is_rep; lia.
    + apply rne_mono; nia.
  - rewrite D1. pose proof (rne_mono 53 ltac:(lia) (v mod 2 ^ 128) (w mod 2 ^ 128) ltac:(lia)). apply rne_mono; nia.
Qed.
Lemma u64r_error v : 0 <= v < 2 ^ 256 -> Z.abs (u64r v - v) * 2 ^ 106 <= (2 ^ 54 + 1) * v.
Proof.
  intros Hv. unfold u64r.
  assert (H1 : 0 <= v / 2 ^ 128 < 2 ^ 128) by zz. assert (H2 : 0 <= v mod 2 ^ 128 < 2 ^ 128) by (apply Z.mod_pos_bound; lia).
  pose proof (rne_error 53 ltac:(lia) _ (proj1 H1)) as E1. pose proof (rne_error 53 ltac:(lia) _ (proj1 H2)) as E2.
  assert (EV : v = 2 ^ 128 * (v / 2 ^ 128) + v mod 2 ^ 128) by (apply Z.div_mod; lia).
  pose proof (rne_nonneg 53 ltac:(lia) _ (proj1 H1)) as N1. pose proof (rne_nonneg 53 ltac:(lia) _ (proj1 H2)) as N2.
  pose proof (rne_error 53 ltac:(lia) (rne 53 (v / 2 ^ 128) * 2 ^ 128 + rne 53 (v mod 2 ^ 128)) ltac:(lia)) as E3.
  revert E1 E2 E3 N1 N2 EV. generalize (rne 53 (rne 53 (v / 2 ^ 128) * 2 ^ 128 + rne 53 (v mod 2 ^ 128))).
  generalize (rne 53 (v / 2 ^ 128)), (rne 53 (v mod 2 ^ 128)). generalize (v / 2 ^ 128), (v mod 2 ^ 128). intros a b h l r **.
  set (S := h * 2 ^ 128 + l) in *.
  assert (Z.abs (S - v) <= Z.abs (h - a) * 2 ^ 128 + Z.abs (l - b)) by (unfold S; lia).
  assert (Z.abs (S - v) * 2 ^ 53 <= v) by lia.
  assert (Z.abs (r - v) <= Z.abs (r - S) + Z.abs (S - v)) by lia.
  assert (S * 2 ^ 53 <= (2 ^ 53 + 1) * v) by lia. lia.
Qed.
Lemma rep_div k y : 0 <= k -> 0 <= y -> representable 53 y -> representable 53 (y / 2 ^ k) /\ representable 53 (y mod 2 ^ k).
Proof.
  intros Hk Hy (m & e & He & Hm & ->). pose proof (pow_pos k Hk) as Pk. pose proof (pow_pos e He) as Pe.
  assert (Hm0 : 0 <= m) by nia.
  destruct (Z.leb_spec k e).
  - replace e with ((e - k) + k) by lia. rewrite Z.pow_add_r, Z.mul_assoc, Z.div_mul, Z.mod_mul by lia. split.
    + exists m, (e - k). lia.
    + exists 0, 0. lia.
  - assert (EK : 2 ^ k = 2 ^ (k - e) * 2 ^ e) by (rewrite <- Z.pow_add_r by lia; f_equal; lia).
    pose proof (pow_pos (k - e) ltac:(lia)) as Pke.
    rewrite EK, Z.div_mul_cancel_r, Z.mul_mod_distr_r by lia. split.
    + exists (m / 2 ^ (k - e)), 0. split; [lia|]. split; [|lia].
      assert (0 <= m / 2 ^ (k - e) <= m). { split; [apply Z.div_pos; lia|]. apply Z.div_le_upper_bound; [lia|]. nia. } lia.
    + exists (m mod 2 ^ (k - e)), e. split; [lia|]. split; [|reflexivity].
      assert (0 <= m mod 2 ^ (k - e) <= m). { split; [apply Z.mod_pos_bound; lia|]. apply Z.mod_le; lia. } lia.
Qed.
Lemma u64r_exact v : 0 <= v < 2 ^ 256 -> representable 53 v -> u64r v = v.
Proof.
  intros Hv R. unfold u64r. destruct (rep_div 128 v ltac:(lia) ltac:(lia) R) as [R1 R2].
  rewrite (rne_rep 53 ltac:(lia) (v / 2 ^ 128)), (rne_rep 53 ltac:(lia) (v mod 2 ^ 128)); try assumption; try zz.
  rewrite (Z.mul_comm _ (2 ^ 128)), <- Z.div_mod by lia. apply rne_rep; lia || assumption.
Qed.
Lemma u64r_low v : 0 <= v < 2 ^ 128 -> u64r v = rne 53 v.
Proof.
  intros Hv. unfold u64r. rewrite Z.div_small, Z.mod_small by lia. change (rne 53 0) with 0. rewrite Z.mul_0_l, Z.add_0_l.
  apply rne_rep; [lia|apply rne_nonneg; lia|apply rne_is_rep; lia].
Qed.

Lemma i_as_f64_of c v : - 2 ^ 255 <= v < 2 ^ 255 -> i_as_f64 c (iof c v) = Fin (Z.sgn v * u64r (Z.abs v)).
Proof.
  intros Hv. unfold i_as_f64. rewrite i_signum128_of, i_unsigned_abs_of, u_as_f64_of by lia.
  destruct (u64r_nonneg (Z.abs v) ltac:(lia)) as [B1 B2].
  assert (R : representable 53 (u64r (Z.abs v))).
  { unfold u64r. apply rne_is_rep; [lia|]. pose proof (rne_nonneg 53 ltac:(lia) (Z.abs v / 2 ^ 128) ltac:(zz)).
    pose proof (rne_nonneg 53 ltac:(lia) (Z.abs v mod 2 ^ 128) ltac:(zz)). lia. }
  assert (ES : rnd F64 (Z.sgn v) = Fin (Z.sgn v)).
  { destruct (Z.sgn_spec v) as [[_ ->]|[[_ ->]|[_ ->]]]; reflexivity. }
  rewrite ES. cbn [fl_mul]. unfold rnd. change (f_digits F64) with 53. change (f_emax F64) with 1024.
  assert (E : Z.sgn (u64r (Z.abs v) * Z.sgn v) * rne 53 (Z.abs (u64r (Z.abs v) * Z.sgn v)) = Z.sgn v * u64r (Z.abs v)).
  { set (y := Z.sgn v * u64r (Z.abs v)). replace (u64r (Z.abs v) * Z.sgn v) with y by (unfold y; ring).
    symmetry. apply nearest_iff; [lia|]. split.
    - unfold y. destruct (Z.sgn_spec v) as [[_ ->]|[[_ ->]|[_ ->]]].
      + rewrite Z.mul_1_l. assumption.
      + exists 0, 0. split; [lia|]. split; [reflexivity|reflexivity].
      + replace (-1 * u64r (Z.abs v)) with (- u64r (Z.abs v)) by lia. apply rep_opp. assumption.
    - split; [intros; lia|]. intros. exfalso. lia. }
  rewrite E. assert (2 ^ 257 < 2 ^ 1024) by reflexivity.
  assert (Z.abs (Z.sgn v * u64r (Z.abs v)) < 2 ^ 1024).
  { rewrite Z.abs_mul. destruct (Z.sgn_spec v) as [[_ ->]|[[_ ->]|[_ ->]]]; cbn [Z.abs]; lia. }
  replace (2 ^ 1024 <=? Z.abs (Z.sgn v * u64r (Z.abs v))) with false by lia. reflexivity.
Qed.

(** ** Property lemmas *)

(** [rnd] is the only function satisfying the specification of rounding *)
Lemma rounding_unique f z r : f = F32 \/ f = F64 -> (correctly_rounded f z r <-> r = rnd f z).
Proof.
  intros Hf. assert (2 <= f_digits f /\ 0 <= f_emax f) as [H1 H2] by (destruct Hf as [-> | ->]; vm_compute; split; discriminate).
  split; [apply rnd_unique; assumption|]. intros ->. apply rnd_correct; assumption.
Qed.

Lemma u_f32_correct c x : wf_u x -> correctly_rounded F32 (uval c x) (u_as_f32 c x).
Proof.
  intros Hx. on_u c x. unfold u_as_f32. rewrite u_into_words_of.
  assert (H1 : 0 <= nx / 2 ^ 128 < 2 ^ 128) by zz. rewrite (Z.mod_small (nx / 2 ^ 128)) by lia.
  destruct (Z.eqb_spec (nx / 2 ^ 128) 0) as [E|E].
  - assert (nx < 2 ^ 128) by zz. rewrite Z.mod_small by lia. apply rnd_correct; vm_compute; discriminate.
  - assert (2 ^ 128 <= nx) by zz. exists (rne 24 nx). change (f_digits F32) with 24. change (f_emax F32) with 128.
    split; [apply rne_nearest; lia|].
    assert (2 ^ 128 <= rne 24 nx).
    { rewrite <- (rne_rep 24 ltac:(lia) (2 ^ 128)); [apply rne_mono; lia|lia|]. exists 1, 128. split; [lia|]. split; reflexivity. }
    replace (2 ^ 128 <=? Z.abs (rne 24 nx)) with true by lia. replace (nx <? 0) with false by lia. reflexivity.
Qed.

Lemma f64_exact c x y : wf_u x -> wf_i y ->
  (representable 53 (uval c x) -> u_as_f64 c x = Fin (uval c x)) /\
  (representable 53 (ival c y) -> i_as_f64 c y = Fin (ival c y)).
Proof.
  intros Hx Hy. on_u c x. on_i c y. rewrite u_as_f64_of, i_as_f64_of by assumption. split; intros R; f_equal.
  - apply u64r_exact; assumption.
  - rewrite u64r_exact; [lia|lia|]. destruct (Z.abs_spec ny) as [[_ ->]|[_ ->]]; [assumption|apply rep_opp; assumption].
Qed.
Lemma f64_small c x y : wf_u x -> wf_i y ->
  (uval c x < 2 ^ 53 -> u_as_f64 c x = Fin (uval c x)) /\ (Z.abs (ival c y) < 2 ^ 53 -> i_as_f64 c y = Fin (ival c y)).
Proof.
  intros Hx Hy. destruct (f64_exact c x y Hx Hy) as [A B]. pose proof (uval_range c x Hx).
  split; intros; [apply A|apply B]; apply rep_small; lia.
Qed.
Lemma f64_mono c x x' y y' : wf_u x -> wf_u x' -> wf_i y -> wf_i y' ->
  (uval c x <= uval c x' -> fl_le (u_as_f64 c x) (u_as_f64 c x')) /\
  (ival c y <= ival c y' -> fl_le (i_as_f64 c y) (i_as_f64 c y')).
Proof.
  intros Hx Hx' Hy Hy'. on_u c x. on_u c x'. on_i c y. on_i c y'. rewrite !u_as_f64_of, !i_as_f64_of by assumption.
  cbn [fl_le]. split; intros H.
  - apply u64r_mono; lia.
  - pose proof (u64r_nonneg (Z.abs ny) ltac:(lia)). pose proof (u64r_nonneg (Z.abs ny') ltac:(lia)).
    destruct (Z.sgn_spec ny) as [[A ->]|[[A ->]|[A ->]]]; destruct (Z.sgn_spec ny') as [[B ->]|[[B ->]|[B ->]]]; try lia.
    + pose proof (u64r_mono (Z.abs ny) (Z.abs ny') ltac:(lia) ltac:(lia)). lia.
    + pose proof (u64r_mono (Z.abs ny') (Z.abs ny) ltac:(lia) ltac:(lia)). lia.
Qed.
Lemma f64_error c x y : wf_u x -> wf_i y ->
  (exists r, u_as_f64 c x = Fin r /\ Z.abs (r - uval c x) * 2 ^ 106 <= (2 ^ 54 + 1) * uval c x) /\
  (exists r, i_as_f64 c y = Fin r /\ Z.abs (r - ival c y) * 2 ^ 106 <= (2 ^ 54 + 1) * Z.abs (ival c y)).
Proof.
  intros Hx Hy. on_u c x. on_i c y. rewrite u_as_f64_of, i_as_f64_of by assumption. split.
  - eexists. split; [reflexivity|]. apply u64r_error. assumption.
  - eexists. split; [reflexivity|]. pose proof (u64r_error (Z.abs ny) ltac:(lia)).
    replace (Z.abs (Z.sgn ny * u64r (Z.abs ny) - ny)) with (Z.abs (u64r (Z.abs ny) - Z.abs ny)); [assumption|].
    destruct (Z.sgn_spec ny) as [[A ->]|[[A ->]|[A ->]]]; lia.
Qed.
Lemma f64_low_correct c x y : wf_u x -> wf_i y ->
  (uval c x < 2 ^ 128 -> correctly_rounded F64 (uval c x) (u_as_f64 c x)) /\
  (Z.abs (ival c y) < 2 ^ 128 -> correctly_rounded F64 (ival c y) (i_as_f64 c y)).
Proof.
  intros Hx Hy. on_u c x. on_i c y. rewrite u_as_f64_of, i_as_f64_of by assumption.
  assert (B : 2 ^ 128 < 2 ^ 1024) by reflexivity.
  split; intros H; rewrite u64r_low by lia.
  - exists (rne 53 nx). split; [apply rne_nearest; lia|]. change (f_emax F64) with 1024.
    pose proof (r53_bound nx ltac:(lia)). replace (2 ^ 1024 <=? Z.abs (rne 53 nx)) with false by lia. reflexivity.
  - exists (Z.sgn ny * rne 53 (Z.abs ny)). change (f_digits F64) with 53. change (f_emax F64) with 1024. split; [apply nearest_iff; [lia|reflexivity]|].
    pose proof (r53_bound (Z.abs ny) ltac:(lia)).
    assert (Z.abs (Z.sgn ny * rne 53 (Z.abs ny)) <= 2 ^ 128).
    { rewrite Z.abs_mul. destruct (Z.sgn_spec ny) as [[_ ->]|[[_ ->]|[_ ->]]]; cbn [Z.abs]; lia. }
    replace (2 ^ 1024 <=? Z.abs (Z.sgn ny * rne 53 (Z.abs ny))) with false by lia. reflexivity.
Qed.
(** double rounding *)
Lemma f64_not_correct c : let v := 2 ^ 128 + 2 ^ 75 + 1 in
  u_as_f64 c (uof c v) = Fin (2 ^ 128) /\ ~ correctly_rounded F64 v (u_as_f64 c (uof c v)) /\
  i_as_f64 c (iof c (- v)) = Fin (- 2 ^ 128) /\ ~ correctly_rounded F64 (- v) (i_as_f64 c (iof c (- v))).
Proof.
  cbv zeta. rewrite u_as_f64_of, i_as_f64_of by lia.
  split; [reflexivity|]. split; [rewrite rounding_unique by auto; intros H; vm_compute in H; discriminate H|].
  split; [reflexivity|]. rewrite rounding_unique by auto. intros H. vm_compute in H. discriminate H.
Qed.
Lemma i_f32_double c : let v := 2 ^ 54 + 2 ^ 30 + 1 in
  i_as_f32 c (iof c v) = Fin (2 ^ 54) /\ ~ correctly_rounded F32 v (i_as_f32 c (iof c v)).
Proof.
  cbv zeta. unfold i_as_f32. rewrite i_as_f64_of by lia. split; [reflexivity|]. rewrite rounding_unique by auto. intros H. vm_compute in H. discriminate H.
Qed.
Lemma rnd_mono f a b : 2 <= f_digits f -> 0 <= f_emax f -> a <= b -> fl_le (rnd f a) (rnd f b).
Proof.
  intros Hd He H. unfold rnd. pose proof (rne_nonneg _ Hd (Z.abs a) ltac:(lia)). pose proof (rne_nonneg _ Hd (Z.abs b) ltac:(lia)).
  pose proof (pow_pos (f_emax f) He).
  assert (M : Z.sgn a * rne (f_digits f) (Z.abs a) <= Z.sgn b * rne (f_digits f) (Z.abs b)).
  { destruct (Z.sgn_spec a) as [[A ->]|[[A ->]|[A ->]]]; destruct (Z.sgn_spec b) as [[B ->]|[[B ->]|[B ->]]]; try lia.
    - pose proof (rne_mono _ Hd (Z.abs a) (Z.abs b) ltac:(lia)). lia.
    - pose proof (rne_mono _ Hd (Z.abs b) (Z.abs a) ltac:(lia)). lia. }
  revert M. generalize (Z.sgn a * rne (f_digits f) (Z.abs a)), (Z.sgn b * rne (f_digits f) (Z.abs b)). intros u v M.
  destruct (Z.leb_spec (2 ^ f_emax f) (Z.abs u)); destruct (Z.leb_spec (2 ^ f_emax f) (Z.abs v)); unfold fl_le.
  - destruct (Z.ltb_spec u 0); destruct (Z.ltb_spec v 0); auto. lia.
  - destruct (Z.ltb_spec u 0); auto. lia.
  - destruct (Z.ltb_spec v 0); auto. lia.
  - assumption.
Qed.
Lemma f32_mono c x x' y y' : wf_u x -> wf_u x' -> wf_i y -> wf_i y' ->
  (uval c x <= uval c x' -> fl_le (u_as_f32 c x) (u_as_f32 c x')) /\
  (ival c y <= ival c y' -> fl_le (i_as_f32 c y) (i_as_f32 c y')).
Proof.
  intros Hx Hx' Hy Hy'. assert (HD : 2 <= f_digits F32 /\ 0 <= f_emax F32) by (vm_compute; split; discriminate). destruct HD as [Hd He].
  assert (HF : F32 = F32 \/ F32 = F64) by auto.
  split; intros H.
  - pose proof (u_f32_correct c x Hx) as C1. pose proof (u_f32_correct c x' Hx') as C2.
    apply (rounding_unique F32) in C1; [|exact HF]. apply (rounding_unique F32) in C2; [|exact HF]. rewrite C1, C2. apply rnd_mono; assumption.
  - destruct (f64_mono c x x' y y' Hx Hx' Hy Hy') as [_ M]. specialize (M H). unfold i_as_f32.
    rewrite <- (iof_ival c y), <- (iof_ival c y') in M |- * by assumption.
    pose proof (ival_range c y Hy). pose proof (ival_range c y' Hy'). rewrite !i_as_f64_of in * by assumption.
    cbn [fl_cast fl_le] in *. apply rnd_mono; assumption.
Qed.
