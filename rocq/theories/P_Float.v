(** * Conversions from floats *)

From Coq Require Import ZArith String List Bool Lia ZifyBool.
Import ListNotations.
From Verif Require Import M_Prim M_Words M_Intr M_Ops M_IntApi M_Convert M_Float Spec Spec_Shift Spec_Float
  P_Words P_Bits P_Mul P_Ops P_Uint P_Int P_Forms P_Convert.
Open Scope Z_scope.

(** What the proof needs to know about a format; [M] fraction bits, [E] exponent bits. *)
Record fok (f : ffmt) (M E : Z) : Prop := {
  k_w : f_width f = M + E + 1;
  k_d : f_digits f = M + 1;
  k_M : 1 < M < 64;
  k_E : 1 < E < 32;
  k_mm : c_MAN_MASK f = Z.ones M;
  k_mo : c_MAN_ONE f = 2 ^ M;
  k_em : c_EXP_MASK f = Z.ones E;
  k_eo : c_EXP_OFFSET f = 2 ^ (E - 1) - 1;
  k_ab : c_ABS_MASK f = Z.ones (M + E);
  k_sg : c_SIG_MASK f = 2 ^ (M + E);
  k_bias : f_bias f = 2 ^ (E - 1) - 1;
  k_mb : M <= 2 ^ (E - 1) - 1;
  k_am : forall s, 0 <= s < 256 -> amt_ok (f_amount f s) /\ forall c, amt_val c (f_amount f s) = s
}.
Lemma fok32 : fok F32 23 8.
Proof.
  constructor; [reflexivity|reflexivity|lia|lia|reflexivity|reflexivity|reflexivity|reflexivity|reflexivity|reflexivity|reflexivity|vm_compute; discriminate|].
  intros s Hs. change (f_amount F32 s) with (Amt_u32 s). cbn [amt_ok amt_val]. split; [lia|reflexivity].
Qed.
Lemma fok64 : fok F64 52 11.
Proof.
  constructor; [reflexivity|reflexivity|lia|lia|reflexivity|reflexivity|reflexivity|reflexivity|reflexivity|reflexivity|reflexivity|vm_compute; discriminate|].
  intros s Hs. change (f_amount F64 s) with (Amt_prim s). cbn [amt_ok amt_val]. split; [lia|reflexivity].
Qed.

Lemma u_shl_small c f M E m s : fok f M E -> 0 <= m < 2 ^ 256 -> 0 <= s < 256 -> 
  u_shl_amt c (uof c m) (f_amount f s) = Ret (uof c (m * 2 ^ s)).
Proof.
  intros K Hm Hs. destruct (k_am f M E K s Hs) as [A1 A2]. rewrite u_shl_amt_of, A2 by assumption.
  apply (shift_small c s _ (fun s => uof c (m * 2 ^ s))). assumption.
Qed.
Lemma i_shl_small c f M E m s : fok f M E -> - 2 ^ 255 <= m < 2 ^ 255 -> 0 <= s < 256 -> 
  i_shl_amt c (iof c m) (f_amount f s) = Ret (iof c (m * 2 ^ s)).
Proof.
  intros K Hm Hs. destruct (k_am f M E K s Hs) as [A1 A2]. rewrite i_shl_amt_of, A2 by assumption.
  apply (shift_small c s _ (fun s => iof c (m * 2 ^ s))). assumption.
Qed.

Lemma p_shr_in c n a k : 0 <= k < n -> p_shr c n a k = Ret (a / 2 ^ k).
Proof. intros. unfold p_shr. replace ((0 <=? k) && (k <? n)) with true by lia. rewrite Z.shiftr_div_pow2 by lia. reflexivity. Qed.
Lemma u_sub_in c n a b : b <= a -> u_sub c n a b = Ret (a - b).
Proof. intros. unfold u_sub. replace (0 <=? a - b) with true by lia. reflexivity. Qed.

Lemma pow_top M E : 0 <= M -> 0 <= E -> 2 ^ (M + E + 1) = 2 * 2 ^ (M + E).
Proof. intros. rewrite Z.add_1_r, Z.pow_succ_r by lia. reflexivity. Qed.

Section Dec.
Variables (f : ffmt) (M E : Z).
Hypothesis K : fok f M E.
Let HM := k_M f M E K.
Let HE := k_E f M E K.
Notation bias := (2 ^ (E - 1) - 1).

Lemma pow_facts : 2 <= 2 ^ (E - 1) /\ 2 ^ E = 2 * 2 ^ (E - 1) /\ 0 < 2 ^ M /\ 2 ^ (M + 1) = 2 * 2 ^ M /\ 2 ^ (M + 1) <= 2 ^ 64.
Proof.
  clear -HM HE. repeat split.
  - change 2 with (2 ^ 1) at 1. apply Z.pow_le_mono_r; lia.
  - rewrite <- Z.pow_succ_r by lia. f_equal. lia.
  - apply Z.pow_pos_nonneg; lia.
  - rewrite Z.pow_add_r by lia. lia.
  - apply Z.pow_le_mono_r; lia.
Qed.

(** decoding a pattern with a clear sign bit *)
Lemma decode_pos b : 0 <= b < 2 ^ (M + E) ->
  let ex := b / 2 ^ M in let man := b mod 2 ^ M in
  0 <= ex < 2 ^ E /\ 0 <= man < 2 ^ M /\
  f_of_bits f b =
    if ex =? 2 ^ E - 1 then (if man =? 0 then FInf false else FNan)
    else if ex =? 0 then FNum false man (1 - bias - M)
    else FNum false (2 ^ M + man) (ex - bias - M).
Proof.
  intros Hb ex man. destruct pow_facts as (P1 & P2 & P3 & P4 & P5).
  assert (Hex : 0 <= ex < 2 ^ E).
  { unfold ex. split; [apply Z.div_pos; lia|]. apply Z.div_lt_upper_bound; [lia|]. rewrite <- Z.pow_add_r by lia. lia. }
  split; [assumption|]. split; [unfold man; apply Z.mod_pos_bound; lia|].
  unfold f_of_bits. rewrite (k_w f M E K), (k_d f M E K), (k_bias f M E K).
  replace (M + E + 1 - (M + 1)) with E by lia. replace (M + 1 - 1) with M by lia. replace (M + E + 1 - 1) with (M + E) by lia.
  rewrite (Z.div_small b (2 ^ (M + E))) by lia.
  fold ex man. rewrite (Z.mod_small ex) by lia. reflexivity.
Qed.
(** the sign bit *)
Lemma decode_neg b : 2 ^ (M + E) <= b < 2 ^ (M + E + 1) ->
  f_of_bits f b = match f_of_bits f (b - 2 ^ (M + E)) with FNan => FNan | FInf _ => FInf true | FNum _ m e => FNum true m e end.
Proof.
  intros Hb. destruct pow_facts as (P1 & P2 & P3 & P4 & P5).
  rewrite (pow_top M E) in Hb by lia.
  destruct (decode_pos (b - 2 ^ (M + E)) ltac:(lia)) as (_ & _ & ->).
  unfold f_of_bits. rewrite (k_w f M E K), (k_d f M E K), (k_bias f M E K).
  replace (M + E + 1 - (M + 1)) with E by lia. replace (M + 1 - 1) with M by lia. replace (M + E + 1 - 1) with (M + E) by lia.
  assert (Q : b / 2 ^ (M + E) = 1). { symmetry. apply Z.div_unique with (b - 2 ^ (M + E)); lia. }
  rewrite Q. change (0 <? 1) with true.
  assert (HP : 2 ^ (M + E) = 2 ^ E * 2 ^ M) by (rewrite Z.pow_add_r by lia; ring).
  assert (Q1 : b mod 2 ^ M = (b - 2 ^ (M + E)) mod 2 ^ M).
  { rewrite HP. rewrite <- (Z.mod_add (b - 2 ^ E * 2 ^ M) (2 ^ E) (2 ^ M)) by lia. f_equal. lia. }
  assert (Q2 : (b / 2 ^ M) mod 2 ^ E = (b - 2 ^ (M + E)) / 2 ^ M).
  { replace b with (b - 2 ^ (M + E) + 2 ^ E * 2 ^ M) at 1 by lia. rewrite Z.div_add by lia.
    replace (2 ^ E) with (1 * 2 ^ E) at 1 by lia. rewrite Z.mod_add by lia. apply Z.mod_small.
    split; [apply Z.div_pos; lia|]. apply Z.div_lt_upper_bound; [lia|]. lia. }
  rewrite Q1, Q2. 
  destruct (_ =? 2 ^ E - 1); [destruct (_ =? 0); reflexivity|]. destruct (_ =? 0); reflexivity.
Qed.

Lemma mantissa_eq b : 0 <= b -> Z.lor (Z.land b (c_MAN_MASK f)) (c_MAN_ONE f) = 2 ^ M + b mod 2 ^ M.
Proof.
  intros. destruct pow_facts as (P1 & P2 & P3 & P4 & P5). rewrite (k_mm f M E K), (k_mo f M E K), Z.land_ones by lia.
  rewrite Z.lor_comm. rewrite <- (Z.mul_1_l (2 ^ M)) at 1. rewrite lor_disjoint by (try apply Z.mod_pos_bound; lia). lia.
Qed.

(** a normal number of exponent [k], against the shift performed by the code *)
Lemma trunc_small man k : 0 <= man < 2 ^ M -> 0 <= k <= M -> 
  (if 0 <=? k - M then (2 ^ M + man) * 2 ^ (k - M) else (2 ^ M + man) / 2 ^ (- (k - M))) = (2 ^ M + man) / 2 ^ (M - k) /\
  0 < (2 ^ M + man) / 2 ^ (M - k) < 2 ^ 64.
Proof.
  intros Hm Hk. destruct pow_facts as (P1 & P2 & P3 & P4 & P5). split.
  - destruct (Z.leb_spec 0 (k - M)).
    + replace (k - M) with 0 by lia. replace (M - k) with 0 by lia. rewrite Z.pow_0_r, Z.div_1_r. lia.
    + f_equal. f_equal. lia.
  - assert (0 < 2 ^ (M - k) <= 2 ^ M).
    { split; [apply Z.pow_pos_nonneg; lia|]. apply Z.pow_le_mono_r; lia. }
    split.
    + apply Z.div_str_pos. lia.
    + apply Z.le_lt_trans with (2 ^ M + man); [|lia]. apply Z.div_le_upper_bound; [lia|]. nia.
Qed.
Lemma trunc_big man k : 0 <= man < 2 ^ M -> M <= k -> 
  2 ^ k <= (2 ^ M + man) * 2 ^ (k - M) < 2 ^ (k + 1).
Proof.
  intros Hm Hk. destruct pow_facts as (P1 & P2 & P3 & P4 & P5).
  assert (0 < 2 ^ (k - M)) by (apply Z.pow_pos_nonneg; lia).
  assert (E1 : 2 ^ k = 2 ^ M * 2 ^ (k - M)) by (rewrite <- Z.pow_add_r by lia; f_equal; lia).
  assert (E2 : 2 ^ (k + 1) = 2 ^ (M + 1) * 2 ^ (k - M)) by (rewrite <- Z.pow_add_r by lia; f_equal; lia).
  rewrite E1, E2, P4. nia.
Qed.

(** a decoded number below one *)
Lemma small_zero b neg m e : 0 <= b < 2 ^ (M + E) -> f_of_bits f b = FNum neg m e -> f_ge_one (FNum neg m e) = false ->
  neg = false /\ (if 0 <=? e then m * 2 ^ e else m / 2 ^ (- e)) = 0.
Proof.
  intros Hb. destruct (decode_pos b Hb) as (H1 & H2 & ->). set (ex := b / 2 ^ M) in *. set (man := b mod 2 ^ M) in *.
  destruct pow_facts as (P1 & P2 & P3 & P4 & P5).
  destruct (ex =? 2 ^ E - 1); [destruct (man =? 0); discriminate|].
  assert (G : forall m' e', 0 <= m' -> f_ge_one (FNum false m' e') = false -> (if 0 <=? e' then m' * 2 ^ e' else m' / 2 ^ (- e')) = 0).
  { intros m' e' Hm'. cbn [f_ge_one negb andb]. destruct (Z.leb_spec 0 e').
    - intros HH. assert (0 < 2 ^ e') by (apply Z.pow_pos_nonneg; lia). assert (0 <= m' * 2 ^ e') by nia. lia.
    - intros HH. apply Z.div_small. lia. }
  destruct (ex =? 0); intros HH HG; inversion HH; subst; (split; [reflexivity|]); apply G; auto; lia.
Qed.
End Dec.

Lemma fl_u_generic f M E c b : fok f M E -> 0 <= b < 2 ^ (M + E + 1) ->
  (f_of_bits f b = FInf false -> 256 <= 2 ^ (E - 1)) ->
  float_as_u256 f c b = Ret (uof c (f_int (f_of_bits f b) 0 MAXU)).
Proof.
  intros K Hb HI. pose proof (k_M f M E K) as HM. pose proof (k_E f M E K) as HE.
  destruct (pow_facts f M E K) as (P1 & P2 & P3 & P4 & P5).
  unfold float_as_u256. destruct (Z.ltb_spec b (2 ^ (M + E))) as [Hs|Hs].
  2:{ rewrite (decode_neg f M E K b) by lia.
      assert (Hb2 : 0 <= b - 2 ^ (M + E) < 2 ^ (M + E)) by (rewrite (pow_top M E) in Hb by lia; lia).
      destruct (f_of_bits f (b - 2 ^ (M + E))) as [|neg|neg m e] eqn:E1; cbn [f_ge_one negb andb f_int];
        rewrite (U256_ZERO_of c); [reflexivity..|].
      f_equal. f_equal. assert (0 <= m).
      { destruct (decode_pos f M E K _ Hb2) as (H1 & H2 & H3). rewrite H3 in E1.
        destruct (_ =? 2 ^ E - 1); [destruct (_ =? 0); discriminate|].
        destruct (_ =? 0); inversion E1; subst; lia. }
      assert (0 <= (if 0 <=? e then m * 2 ^ e else m / 2 ^ (- e))).
      { destruct (Z.leb_spec 0 e); [assert (0 < 2 ^ e) by (apply Z.pow_pos_nonneg; lia); nia|].
        apply Z.div_pos; [assumption|]. apply Z.pow_pos_nonneg; lia. }
      unfold MAXU. lia. }
  destruct (f_ge_one (f_of_bits f b)) eqn:G.
  2:{ rewrite (U256_ZERO_of c). f_equal. f_equal. destruct (f_of_bits f b) as [|neg|neg m e] eqn:E1; [reflexivity| |].
      - destruct neg; [reflexivity|discriminate].
      - destruct (small_zero f M E K b neg m e ltac:(lia) E1 G) as [-> Z0]. cbn [f_int]. rewrite Z0. reflexivity. }
  rewrite (k_w f M E K), (k_em f M E K), (k_eo f M E K), (mantissa_eq f M E K) by lia.
  assert (CM : c_M f = M) by (unfold c_M; rewrite (k_d f M E K); lia). rewrite CM.
  rewrite p_shr_in by lia. cbn [bind].
  destruct (decode_pos f M E K b ltac:(lia)) as (H1 & H2 & H3).
  rewrite H3 in G |- *. rewrite H3 in HI. clear H3. set (ex := b / 2 ^ M) in *. set (man := b mod 2 ^ M) in *.
  rewrite Z.land_ones, (Z.mod_small ex) by lia.
  destruct (Z.eqb_spec ex (2 ^ E - 1)) as [Ee|Ee].
  { destruct (man =? 0); [|discriminate]. specialize (HI eq_refl).
    rewrite u_sub_in by lia. cbn [bind].
    pose proof (k_mb f M E K).
    replace (ex - (2 ^ (E - 1) - 1) <=? M) with false by lia.
    replace (ex - (2 ^ (E - 1) - 1) <? 256) with false by lia.
    rewrite (U256_MAX_of c). reflexivity. }
  destruct (Z.eqb_spec ex 0) as [E0|E0].
  { exfalso. cbn [f_ge_one negb andb] in G. pose proof (k_mb f M E K).
    destruct (Z.leb_spec 0 (1 - (2 ^ (E - 1) - 1) - M)); [lia|].
    assert (2 ^ M <= 2 ^ (- (1 - (2 ^ (E - 1) - 1) - M))) by (apply Z.pow_le_mono_r; lia). lia. }
  cbn [f_ge_one negb andb] in G.
  assert (Hk : 2 ^ (E - 1) - 1 <= ex).
  { destruct (Z.leb_spec 0 (ex - (2 ^ (E - 1) - 1) - M)); [lia|].
    destruct (Z.le_gt_cases (2 ^ (E - 1) - 1) ex); [assumption|exfalso].
    assert (2 ^ (M + 1) <= 2 ^ (- (ex - (2 ^ (E - 1) - 1) - M))) by (apply Z.pow_le_mono_r; lia). lia. }
  rewrite u_sub_in by lia. cbn [bind f_int]. set (k := ex - (2 ^ (E - 1) - 1)) in *.
  destruct (Z.leb_spec k M).
  - rewrite u_sub_in by lia. cbn [bind]. rewrite p_shr_in by lia. cbn [bind].
    destruct (trunc_small f M E K man k H2 ltac:(lia)) as [T1 T2]. rewrite T1.
    unfold u_from_prim. rewrite u_new_of by lia. f_equal. f_equal. unfold MAXU. lia.
  - pose proof (trunc_big f M E K man k H2 ltac:(lia)) as T.
    replace (0 <=? k - M) with true by lia.
    destruct (Z.ltb_spec k 256).
    + rewrite u_sub_in by lia. cbn [bind]. unfold u_from_prim. rewrite u_new_of by lia.
      rewrite (u_shl_small c f M E) by (assumption || lia). f_equal. f_equal.
      assert (2 ^ (k + 1) <= 2 ^ 256) by (apply Z.pow_le_mono_r; lia). unfold MAXU.
      assert (0 < 2 ^ k) by (apply Z.pow_pos_nonneg; lia). lia.
    + rewrite (U256_MAX_of c). f_equal. f_equal.
      assert (2 ^ 256 <= 2 ^ k) by (apply Z.pow_le_mono_r; lia). unfold MAXU. lia.
Qed.

Lemma sign_eq f M E b c : fok f M E -> 0 <= b < 2 ^ (M + E + 1) ->
  p_shr c (f_width f) (Z.land b (c_SIG_MASK f)) (f_width f - 2) = Ret (2 * (b / 2 ^ (M + E))) /\
  Z.land b (c_ABS_MASK f) = b mod 2 ^ (M + E) /\ (b / 2 ^ (M + E) = 0 \/ b / 2 ^ (M + E) = 1).
Proof.
  intros K Hb. pose proof (k_M f M E K) as HM. pose proof (k_E f M E K) as HE.
  rewrite (k_w f M E K), (k_sg f M E K), (k_ab f M E K), Z.land_ones by lia.
  rewrite p_shr_in by lia. assert (HP : 0 < 2 ^ (M + E)) by (apply Z.pow_pos_nonneg; lia).
  rewrite (pow_top M E) in Hb by lia.
  assert (Q : b / 2 ^ (M + E) = 0 \/ b / 2 ^ (M + E) = 1).
  { assert (0 <= b / 2 ^ (M + E) < 2); [|lia]. split; [apply Z.div_pos; lia|apply Z.div_lt_upper_bound; lia]. }
  split; [|auto]. f_equal.
  rewrite <- Z.shiftr_div_pow2, Z.shiftr_land, !Z.shiftr_div_pow2 by lia.
  replace (2 ^ (M + E)) with (2 * 2 ^ (M + E - 1)) in * by (rewrite <- Z.pow_succ_r by lia; f_equal; lia).
  replace (M + E + 1 - 2) with (M + E - 1) by lia.
  assert (HP' : 0 < 2 ^ (M + E - 1)) by (apply Z.pow_pos_nonneg; lia).
  rewrite Z.div_mul by lia. rewrite <- (Z.mul_comm (2 ^ (M + E - 1)) 2), <- Z.div_div by lia.
  assert (0 <= b / 2 ^ (M + E - 1) < 4).
  { split; [apply Z.div_pos; lia|apply Z.div_lt_upper_bound; lia]. }
  assert (b / 2 ^ (M + E - 1) = 0 \/ b / 2 ^ (M + E - 1) = 1 \/ b / 2 ^ (M + E - 1) = 2 \/ b / 2 ^ (M + E - 1) = 3) as [->|[->|[->| ->]]] by lia; reflexivity.
Qed.

Lemma fl_i_generic f M E c b : fok f M E -> 0 <= b < 2 ^ (M + E + 1) ->
  (forall s, f_of_bits f b = FInf s -> 255 <= 2 ^ (E - 1)) ->
  float_as_i256 f c b = Ret (iof c (f_int (f_of_bits f b) MINI MAXI)).
Proof.
  intros K Hb HI. pose proof (k_M f M E K) as HM. pose proof (k_E f M E K) as HE.
  destruct (pow_facts f M E K) as (P1 & P2 & P3 & P4 & P5).
  unfold float_as_i256. destruct (sign_eq f M E b c K Hb) as (S1 & S2 & S3). rewrite S1, S2. cbn [bind].
  set (sg := if b / 2 ^ (M + E) =? 0 then 1 else -1).
  replace (- as_i 128 (as_i 128 (2 * (b / 2 ^ (M + E))) - 1)) with sg by (unfold sg; destruct S3 as [-> | ->]; reflexivity).
  assert (HP : 0 < 2 ^ (M + E)) by (apply Z.pow_pos_nonneg; lia).
  set (a := b mod 2 ^ (M + E)). assert (Ha : 0 <= a < 2 ^ (M + E)) by (apply Z.mod_pos_bound; lia).
  assert (D : f_of_bits f b = match f_of_bits f a with FNan => FNan | FInf _ => FInf (sg <? 0)
              | FNum _ m e => FNum (sg <? 0) m e end).
  { assert (Eb : b = 2 ^ (M + E) * (b / 2 ^ (M + E)) + a) by (apply Z.div_mod; lia).
    unfold sg. destruct S3 as [E1|E1]; rewrite E1 in *; cbn [Z.eqb Z.ltb Z.compare].
    - replace a with b by lia. destruct (decode_pos f M E K b ltac:(lia)) as (_ & _ & ->).
      destruct (b / 2 ^ M =? 2 ^ E - 1); [destruct (b mod 2 ^ M =? 0); reflexivity|]. destruct (b / 2 ^ M =? 0); reflexivity.
    - rewrite (decode_neg f M E K b) by lia. replace (b - 2 ^ (M + E)) with a by lia. reflexivity. }
  rewrite D in HI |- *. clear D S1 S2.
  assert (HS : sg = 1 /\ (sg <? 0) = false \/ sg = -1 /\ (sg <? 0) = true) by (unfold sg; destruct (_ =? 0); auto).
  clearbody sg. 
  destruct (f_ge_one (f_of_bits f a)) eqn:G.
  2:{ rewrite (I256_ZERO_of c). f_equal. f_equal. destruct (f_of_bits f a) as [|neg|neg m e] eqn:E1; [reflexivity| |].
      - exfalso. destruct (decode_pos f M E K a Ha) as (_ & _ & E2). rewrite E2 in E1.
        destruct (_ =? 2 ^ E - 1); [destruct (_ =? 0)|destruct (_ =? 0)]; try discriminate. inversion E1; subst. discriminate.
      - destruct (small_zero f M E K a neg m e Ha E1 G) as [-> Z0]. cbn [f_int]. rewrite Z0. 
        destruct (sg <? 0); reflexivity. }
  rewrite (k_w f M E K), (k_em f M E K), (k_eo f M E K), (mantissa_eq f M E K) by lia.
  assert (CM : c_M f = M) by (unfold c_M; rewrite (k_d f M E K); lia). rewrite CM.
  rewrite p_shr_in by lia. cbn [bind].
  destruct (decode_pos f M E K a Ha) as (H1 & H2 & H3).
  rewrite H3 in G |- *. rewrite H3 in HI. clear H3. set (ex := a / 2 ^ M) in *. set (man := a mod 2 ^ M) in *.
  rewrite Z.land_ones, (Z.mod_small ex) by lia.
  destruct (Z.eqb_spec ex (2 ^ E - 1)) as [Ee|Ee].
  { destruct (man =? 0); [|discriminate]. specialize (HI _ eq_refl).
    rewrite u_sub_in by lia. cbn [bind].
    pose proof (k_mb f M E K).
    replace (ex - (2 ^ (E - 1) - 1) <=? M) with false by lia.
    replace (ex - (2 ^ (E - 1) - 1) <? 255) with false by lia.
    rewrite I256_MAX_of, I256_MIN_of. destruct HS as [[-> _]|[-> _]]; reflexivity. }
  destruct (Z.eqb_spec ex 0) as [E0|E0].
  { exfalso. cbn [f_ge_one negb andb] in G. pose proof (k_mb f M E K).
    destruct (Z.leb_spec 0 (1 - (2 ^ (E - 1) - 1) - M)); [lia|].
    assert (2 ^ M <= 2 ^ (- (1 - (2 ^ (E - 1) - 1) - M))) by (apply Z.pow_le_mono_r; lia). lia. }
  cbn [f_ge_one negb andb] in G.
  assert (Hk : 2 ^ (E - 1) - 1 <= ex).
  { destruct (Z.leb_spec 0 (ex - (2 ^ (E - 1) - 1) - M)); [lia|].
    destruct (Z.le_gt_cases (2 ^ (E - 1) - 1) ex); [assumption|exfalso].
    assert (2 ^ (M + 1) <= 2 ^ (- (ex - (2 ^ (E - 1) - 1) - M))) by (apply Z.pow_le_mono_r; lia). lia. }
  rewrite u_sub_in by lia. cbn [bind f_int]. set (k := ex - (2 ^ (E - 1) - 1)) in *.
  assert (MUL : forall v, 0 <= v < 2 ^ 255 -> i_rhs_prim i_op_mul c (iof c v) sg =
     Ret (iof c (Z.max MINI (Z.min MAXI (if sg <? 0 then - v else v))))).
  { intros v Hv. unfold i_rhs_prim. rewrite i_new_of by lia. rewrite i_op_mul_of by lia. unfold dbg.
    assert (in_i 256 (v * sg) = true) as -> by (rewrite in_i_256; lia). rewrite andb_false_r. f_equal. f_equal.
    unfold MINI, MAXI. destruct HS as [[-> ->]|[-> ->]]; lia. }
  destruct (Z.leb_spec k M).
  - rewrite u_sub_in by lia. cbn [bind]. rewrite p_shr_in by lia. cbn [bind].
    destruct (trunc_small f M E K man k H2 ltac:(lia)) as [T1 T2]. rewrite T1.
    unfold i_from_prim. rewrite prim_as_i256_of by lia. apply MUL. lia.
  - pose proof (trunc_big f M E K man k H2 ltac:(lia)) as T.
    replace (0 <=? k - M) with true by lia. assert (0 < 2 ^ k) by (apply Z.pow_pos_nonneg; lia).
    destruct (Z.ltb_spec k 255).
    + rewrite u_sub_in by lia. cbn [bind]. unfold i_from_prim. rewrite prim_as_i256_of by lia.
      rewrite (i_shl_small c f M E) by (assumption || lia). cbn [bind]. apply MUL.
      assert (2 ^ (k + 1) <= 2 ^ 255) by (apply Z.pow_le_mono_r; lia). lia.
    + assert (2 ^ 255 <= 2 ^ k) by (apply Z.pow_le_mono_r; lia). rewrite I256_MAX_of, I256_MIN_of.
      unfold MINI, MAXI. destruct HS as [[-> ->]|[-> ->]]; change (0 <? 1) with true; change (0 <? -1) with false; cbv iota;
        f_equal; f_equal; lia.
Qed.

Lemma f64_to_int c b : 0 <= b < 2 ^ 64 ->
  float_as_u256 F64 c b = Ret (uof c (f_int (f_of_bits F64 b) 0 MAXU)) /\
  float_as_i256 F64 c b = Ret (iof c (f_int (f_of_bits F64 b) MINI MAXI)).
Proof.
  intros Hb. split.
  - apply (fl_u_generic F64 52 11); [apply fok64|assumption|]. intros _. vm_compute. discriminate.
  - apply (fl_i_generic F64 52 11); [apply fok64|assumption|]. intros _ _. vm_compute. discriminate.
Qed.
Lemma f32_to_int c b : 0 <= b < 2 ^ 32 -> (forall s, f_of_bits F32 b <> FInf s) ->
  float_as_u256 F32 c b = Ret (uof c (f_int (f_of_bits F32 b) 0 MAXU)) /\
  float_as_i256 F32 c b = Ret (iof c (f_int (f_of_bits F32 b) MINI MAXI)).
Proof.
  intros Hb HI. split.
  - apply (fl_u_generic F32 23 8); [apply fok32|assumption|]. intros H. destruct (HI _ H).
  - apply (fl_i_generic F32 23 8); [apply fok32|assumption|]. intros s H. destruct (HI _ H).
Qed.
(** the infinities of f32 become 2^128 and -2^128 *)
Lemma f32_infinity c :
  f_of_bits F32 0x7f800000 = FInf false /\ f_of_bits F32 0xff800000 = FInf true /\
  float_as_u256 F32 c 0x7f800000 = Ret (uof c (2 ^ 128)) /\
  float_as_u256 F32 c 0xff800000 = Ret (uof c 0) /\
  float_as_i256 F32 c 0x7f800000 = Ret (iof c (2 ^ 128)) /\
  float_as_i256 F32 c 0xff800000 = Ret (iof c (- 2 ^ 128)).
Proof.
  destruct c as [d o g u l]; destruct d, o, g, l; vm_compute; intuition.
Qed.
