(** * Round trips through floating point numbers *)

From Coq Require Import ZArith String List Bool Lia ZifyBool.
Import ListNotations.
From Verif Require Import M_Prim M_Words M_Intr M_Ops M_IntApi M_Convert M_Float Spec Spec_Shift Spec_Float Spec_Serde Spec_FloatTrip.
From Verif Require Import P_Words P_Bits P_Mul P_Ops P_Uint P_Int P_Forms P_Convert P_Float P_Round P_SerdeNum.
Open Scope Z_scope.

(** ** Every whole number with enough digits has a bit pattern *)

Section Enc.
Variables (f : ffmt) (M E : Z).
Hypothesis K : fok f M E.
Let HM := k_M f M E K.
Let HE := k_E f M E K.
Notation bias := (2 ^ (E - 1) - 1).

Lemma enc_pos v : 0 <= v < 2 ^ 2 ^ (E - 1) -> representable (M + 1) v ->
  exists b, 0 <= b < 2 ^ (M + E) /\ f_is (f_of_bits f b) v.
Proof.
  intros Hv (m' & e' & He' & Hm' & Ev). destruct (pow_facts f M E K) as (P1 & P2 & P3 & P4 & P5).
  destruct (Z.eq_dec v 0) as [->|NZ].
  { exists 0. assert (0 < 2 ^ (M + E)) by (apply Z.pow_pos_nonneg; lia). split; [lia|].
    destruct (decode_pos f M E K 0 ltac:(lia)) as (_ & _ & ->). rewrite Z.div_0_l, Z.mod_0_l by lia.
    destruct (Z.eqb_spec 0 (2 ^ E - 1)); [lia|]. cbn [Z.eqb f_is]. destruct (Z.leb_spec 0 (1 - bias - M)); lia. }
  set (k := Z.log2 v). destruct (Z.log2_spec v ltac:(lia)) as [L1 L2]. fold k in L1, L2.
  assert (K0 : 0 <= k) by (apply Z.log2_nonneg).
  assert (VP : 0 < v) by (destruct Hv; lia). assert (K1 : k < 2 ^ (E - 1)) by (exact (proj1 (Z.log2_lt_pow2 v (2 ^ (E - 1)) VP) (proj2 Hv))).
  rewrite Z.pow_succ_r in L2 by lia.
  assert (HS : exists m, 2 ^ M <= m < 2 ^ (M + 1) /\ f_is (FNum false m (k - M)) v).
  { destruct (Z.leb_spec 0 (k - M)) as [G|G].
    - assert (D : (2 ^ (k - M) | v)).
      { subst v. assert (k - M <= e').
        { destruct (Z.le_gt_cases (k - M) e'); [assumption|exfalso].
          assert (B : 2 ^ k = 2 ^ (k - M - 1 - e') * 2 ^ (M + 1) * 2 ^ e') by (rewrite <- !Z.pow_add_r by lia; f_equal; lia).
          assert (1 <= 2 ^ (k - M - 1 - e')) by (apply (Z.pow_le_mono_r 2 0); lia).
          assert (0 < 2 ^ e') by (apply Z.pow_pos_nonneg; lia).
          assert (m' * 2 ^ e' < 2 ^ (M + 1) * 2 ^ e') by (apply Z.mul_lt_mono_pos_r; lia).
          assert (1 * (2 ^ (M + 1) * 2 ^ e') <= 2 ^ (k - M - 1 - e') * (2 ^ (M + 1) * 2 ^ e')) by (apply Z.mul_le_mono_nonneg_r; nia).
          lia. }
        exists (m' * 2 ^ (e' - (k - M))). rewrite <- Z.mul_assoc, <- Z.pow_add_r by lia. do 2 f_equal. lia. }
      destruct D as [m Em]. exists m. split.
      + assert (B : 2 ^ k = 2 ^ M * 2 ^ (k - M)) by (rewrite <- Z.pow_add_r by lia; f_equal; lia).
        assert (0 < 2 ^ (k - M)) by (apply Z.pow_pos_nonneg; lia). nia.
      + cbn [f_is]. rewrite (proj2 (Z.leb_le _ _) G). symmetry. exact Em.
    - exists (v * 2 ^ (M - k)). split.
      + assert (B : 2 ^ M = 2 ^ k * 2 ^ (M - k)) by (rewrite <- Z.pow_add_r by lia; f_equal; lia).
        assert (0 < 2 ^ (M - k)) by (apply Z.pow_pos_nonneg; lia). nia.
      + cbn [f_is]. destruct (Z.leb_spec 0 (k - M)); [lia|]. f_equal. f_equal. lia. }
  destruct HS as (m & Hm & HF).
  exists ((k + bias) * 2 ^ M + (m - 2 ^ M)).
  assert (Hb : 0 <= (k + bias) * 2 ^ M + (m - 2 ^ M) < 2 ^ (M + E)).
  { rewrite Z.pow_add_r by lia. nia. }
  split; [exact Hb|]. destruct (decode_pos f M E K _ Hb) as (_ & _ & ->).
  rewrite Z.div_add_l, (Z.div_small (m - 2 ^ M)) by lia. rewrite (Z.add_comm (_ * _)), Z.mod_add, Z.mod_small by lia.
  destruct (Z.eqb_spec (k + bias + 0) (2 ^ E - 1)); [lia|]. destruct (Z.eqb_spec (k + bias + 0) 0); [lia|].
  replace (2 ^ M + (m - 2 ^ M)) with m by lia. replace (k + bias + 0 - bias - M) with (k - M) by lia. exact HF.
Qed.

Lemma enc_neg b r : 0 <= b < 2 ^ (M + E) ->
  f_of_bits f (b + 2 ^ (M + E)) = match f_of_bits f b with FNan => FNan | FInf _ => FInf true | FNum _ m e => FNum true m e end /\
  (f_is (f_of_bits f b) r -> f_is (f_of_bits f (b + 2 ^ (M + E))) (- r)).
Proof.
  intros Hb. pose proof (decode_neg f M E K (b + 2 ^ (M + E))) as D. rewrite (pow_top M E) in D by lia. specialize (D ltac:(lia)).
  replace (b + 2 ^ (M + E) - 2 ^ (M + E)) with b in D by lia. split; [exact D|]. rewrite D.
  destruct (decode_pos f M E K b Hb) as (_ & _ & ->).
  destruct (_ =? 2 ^ E - 1); [destruct (_ =? 0); cbn [f_is]; tauto|].
  destruct (_ =? 0); cbn [f_is]; cbv zeta; destruct (0 <=? _); intros; lia.
Qed.

Lemma enc_exists z : exists b, encodes f b (rnd f z).
Proof.
  assert (Hd : f_digits f = M + 1) by apply K. assert (Hw : f_width f = M + E + 1) by apply K.
  assert (He : f_emax f = 2 ^ (E - 1)) by (unfold f_emax; rewrite Hd, Hw; f_equal; lia).
  destruct (pow_facts f M E K) as (P1 & P2 & P3 & P4 & P5).
  assert (PT : 2 ^ (M + E + 1) = 2 * 2 ^ (M + E)) by (apply pow_top; lia).
  unfold encodes. rewrite Hw, PT. unfold rnd. rewrite Hd, He.
  set (v := rne (M + 1) (Z.abs z)).
  assert (V0 : 0 <= v) by (apply rne_nonneg; lia).
  assert (VR : representable (M + 1) v) by (apply rne_is_rep; lia).
  set (y := Z.sgn z * v).
  assert (HY : y = v /\ 0 <= y \/ y = - v /\ y < 0).
  { unfold y. destruct (Z.sgn_spec z) as [[? Q]|[[? Q]|[? Q]]]; rewrite Q; try lia.
    assert (v = 0) by (unfold v; subst z; change (Z.abs 0) with 0; apply rne_small; apply Z.pow_pos_nonneg; lia). lia. }
  assert (HI : 0 <= (2 ^ E - 1) * 2 ^ M < 2 ^ (M + E)) by (rewrite Z.pow_add_r by lia; nia).
  assert (DI : f_of_bits f ((2 ^ E - 1) * 2 ^ M) = FInf false).
  { destruct (decode_pos f M E K _ HI) as (_ & _ & ->). rewrite Z.div_mul, Z.mod_mul by lia. rewrite !Z.eqb_refl. reflexivity. }
  assert (AY : Z.abs y = v) by lia. rewrite AY.
  destruct (Z.leb_spec (2 ^ 2 ^ (E - 1)) v) as [G|G].
  - assert (Z.abs y = v) by lia. destruct (Z.ltb_spec y 0) as [N|N].
    + exists ((2 ^ E - 1) * 2 ^ M + 2 ^ (M + E)). split; [lia|]. destruct (enc_neg _ 0 HI) as [-> _]. rewrite DI. reflexivity.
    + exists ((2 ^ E - 1) * 2 ^ M). split; [lia|exact DI].
  - destruct (enc_pos v ltac:(lia) VR) as (b & Hb & F). destruct HY as [[-> _]|[-> _]].
    + exists b. split; [lia|exact F].
    + exists (b + 2 ^ (M + E)). split; [lia|]. apply enc_neg; assumption.
Qed.

(** a whole number that has a bit pattern has few enough digits and is in range *)
Lemma dec_rep b v : 0 <= b < 2 ^ (M + E + 1) -> f_is (f_of_bits f b) v ->
  representable (M + 1) v /\ Z.abs v < 2 ^ 2 ^ (E - 1).
Proof.
  intros Hb. destruct (pow_facts f M E K) as (P1 & P2 & P3 & P4 & P5). pose proof (k_mb f M E K) as HB.
  assert (HM1 : match f_of_bits f b with FNum _ m e => 0 <= m < 2 ^ (M + 1) /\ e <= 2 ^ (E - 1) - 1 - M | _ => True end).
  { assert (PT : 2 ^ (M + E + 1) = 2 * 2 ^ (M + E)) by (apply pow_top; lia).
    destruct (Z.ltb_spec b (2 ^ (M + E))) as [L|L].
    - destruct (decode_pos f M E K b ltac:(lia)) as (A & B & ->).
      destruct (Z.eqb_spec (b / 2 ^ M) (2 ^ E - 1)); [destruct (_ =? 0); exact I|]. destruct (_ =? 0); lia.
    - rewrite (decode_neg f M E K b) by lia. destruct (decode_pos f M E K (b - 2 ^ (M + E)) ltac:(lia)) as (A & B & ->).
      destruct (Z.eqb_spec ((b - 2 ^ (M + E)) / 2 ^ M) (2 ^ E - 1)); [destruct (_ =? 0); exact I|]. destruct (_ =? 0); lia. }
  destruct (f_of_bits f b) as [|s|s m e]; cbn [f_is]; try contradiction. cbv zeta. destruct HM1 as [HM1 HE1].
  assert (PB : 2 ^ (M + 1) <= 2 ^ 2 ^ (E - 1)) by (apply Z.pow_le_mono_r; lia).
  destruct (Z.leb_spec 0 e) as [G|G]; intros F.
  - split.
    + exists (if s then - m else m), e. split; [assumption|]. split; [destruct s; lia|congruence].
    + assert (P : 0 < 2 ^ e) by (apply Z.pow_pos_nonneg; lia).
      assert (Q : m * 2 ^ e < 2 ^ (M + 1) * 2 ^ e) by (apply Z.mul_lt_mono_pos_r; lia).
      assert (R : 2 ^ (M + 1) * 2 ^ e <= 2 ^ 2 ^ (E - 1)) by (rewrite <- Z.pow_add_r by lia; apply Z.pow_le_mono_r; lia).
      assert (0 <= m * 2 ^ e) by nia.
      assert (Z.abs v = m * 2 ^ e) by (destruct s; [replace v with (- (m * 2 ^ e)) by (rewrite <- F; ring)|rewrite <- F]; lia). lia.
  - assert (B : Z.abs v < 2 ^ (M + 1)) by (assert (1 <= 2 ^ (- e)) by (apply (Z.pow_le_mono_r 2 0); lia); destruct s; nia).
    split; [apply rep_small; assumption|lia].
Qed.

Lemma dec_inf b s : 0 <= b < 2 ^ (M + E + 1) -> f_of_bits f b = FInf s ->
  b = (2 ^ E - 1) * 2 ^ M + if s then 2 ^ (M + E) else 0.
Proof.
  intros Hb. destruct (pow_facts f M E K) as (P1 & P2 & P3 & P4 & P5).
  assert (PT : 2 ^ (M + E + 1) = 2 * 2 ^ (M + E)) by (apply pow_top; lia).
  assert (POS : forall b s, 0 <= b < 2 ^ (M + E) -> f_of_bits f b = FInf s -> s = false /\ b = (2 ^ E - 1) * 2 ^ M).
  { clear b s Hb. intros b s Hb. destruct (decode_pos f M E K b Hb) as (_ & _ & ->).
    destruct (Z.eqb_spec (b / 2 ^ M) (2 ^ E - 1)) as [Q|Q]; [|destruct (_ =? 0); discriminate].
    destruct (Z.eqb_spec (b mod 2 ^ M) 0) as [R|R]; [|discriminate]. intros X. split; [congruence|].
    pose proof (Z.div_mod b (2 ^ M) ltac:(lia)). rewrite Q, R in *. lia. }
  destruct (Z.ltb_spec b (2 ^ (M + E))) as [L|L]; intros X.
  - destruct (POS b s ltac:(lia) X) as [-> ->]. lia.
  - rewrite (decode_neg f M E K b) in X by lia.
    destruct (f_of_bits f (b - 2 ^ (M + E))) as [|s'|s' m e] eqn:Q; try discriminate.
    assert (BB : 0 <= b - 2 ^ (M + E) < 2 ^ (M + E)) by lia. destruct (POS _ _ BB Q) as [_ R]. injection X as <-. lia.
Qed.
End Enc.

Lemma f_int_is x z lo hi : nonneg_m x -> f_is x z -> f_int x lo hi = Z.max lo (Z.min hi z).
Proof.
  destruct x as [|s|s m e]; cbn [f_is f_int nonneg_m]; try contradiction. cbv zeta. intros Hm F. do 2 f_equal.
  destruct (Z.leb_spec 0 e) as [G|G]; [destruct s; [rewrite <- F; ring | exact F]|].
  assert (0 < 2 ^ (- e)) by (apply Z.pow_pos_nonneg; lia).
  destruct s.
  - assert (m = (- z) * 2 ^ (- e)) by lia. subst m. rewrite Z.div_mul by lia. lia.
  - subst m. apply Z.div_mul; lia.
Qed.

(** ** Encodings exist *)

Lemma encoding_exists f z : f = F32 \/ f = F64 -> exists b, encodes f b (rnd f z).
Proof. intros [-> | ->]; [exact (enc_exists F32 23 8 fok32 z)|exact (enc_exists F64 52 11 fok64 z)]. Qed.

Lemma u64r_rep v : 0 <= v < 2 ^ 256 -> representable 53 (u64r v).
Proof.
  intros Hv. apply rne_is_rep; [lia|].
  assert (0 <= rne 53 (v / 2 ^ 128)) by (apply rne_nonneg; [lia|]; apply Z.div_pos; lia).
  assert (0 <= rne 53 (v mod 2 ^ 128)) by (apply rne_nonneg; [lia|]; apply Z.mod_pos_bound; lia). nia.
Qed.
Lemma u64r_top v : 0 <= v < 2 ^ 256 -> 0 <= u64r v <= 2 ^ 256.
Proof.
  intros Hv. split; [apply u64r_nonneg; assumption|]. replace (2 ^ 256) with (u64r (2 ^ 256 - 1)) by (vm_compute; reflexivity).
  apply u64r_mono; lia.
Qed.
Lemma u64r_top_i v : 0 <= v <= 2 ^ 255 -> 0 <= u64r v <= 2 ^ 255.
Proof.
  intros Hv. split; [apply u64r_nonneg; lia|]. replace (2 ^ 255) with (u64r (2 ^ 255)) by (vm_compute; reflexivity).
  apply u64r_mono; lia.
Qed.

Lemma ok32 : 2 <= f_digits F32 /\ 0 <= f_emax F32. Proof. vm_compute. split; discriminate. Qed.
Lemma ok64 : 2 <= f_digits F64 /\ 0 <= f_emax F64. Proof. vm_compute. split; discriminate. Qed.
Lemma rep_abs p y : representable p y -> representable p (Z.abs y).
Proof. intros R. destruct (Z.abs_spec y) as [[_ ->]|[_ ->]]; [|apply rep_opp]; assumption. Qed.
Lemma rnd_rep f y : 2 <= f_digits f -> representable (f_digits f) y -> Z.abs y < 2 ^ f_emax f -> rnd f y = Fin y.
Proof.
  intros D R B. unfold rnd. rewrite (rne_rep (f_digits f) D (Z.abs y)) by (try apply rep_abs; try assumption; lia).
  replace (Z.sgn y * Z.abs y) with y by lia. destruct (Z.leb_spec (2 ^ f_emax f) (Z.abs y)); [lia|reflexivity].
Qed.
Lemma rnd_fin f z v : 2 <= f_digits f -> rnd f z = Fin v -> representable (f_digits f) v /\ Z.abs v < 2 ^ f_emax f.
Proof.
  intros D. unfold rnd. pose proof (rne_is_rep (f_digits f) D (Z.abs z) ltac:(lia)) as R.
  destruct (Z.leb_spec (2 ^ f_emax f) (Z.abs (Z.sgn z * rne (f_digits f) (Z.abs z)))) as [|L]; [discriminate|].
  intros X. injection X as <-. split; [|assumption].
  destruct (Z.sgn_spec z) as [[_ ->]|[[_ ->]|[_ ->]]].
  - rewrite Z.mul_1_l. assumption.
  - rewrite Z.mul_0_l. exists 0, 0. split; [lia|]. split; [|reflexivity]. apply Z.pow_pos_nonneg; lia.
  - replace (-1 * rne (f_digits f) (Z.abs z)) with (- rne (f_digits f) (Z.abs z)) by lia. apply rep_opp. assumption.
Qed.
Lemma f64_u_of c v : 0 <= v < 2 ^ 256 -> representable 53 v -> u_as_f64 c (uof c v) = Fin v.
Proof. intros H R. rewrite u_as_f64_of, u64r_exact by assumption. reflexivity. Qed.
Lemma f64_i_of c v : - 2 ^ 255 <= v < 2 ^ 255 -> representable 53 v -> i_as_f64 c (iof c v) = Fin v.
Proof.
  intros H R. rewrite i_as_f64_of, u64r_exact by (try apply rep_abs; try assumption; lia). f_equal. lia.
Qed.
Lemma u_f32_of c x : wf_u x -> u_as_f32 c x = rnd F32 (uval c x).
Proof. intros H. apply (rounding_unique F32); [auto|]. apply u_f32_correct. assumption. Qed.
Lemma rep_weaken p q v : 0 <= p <= q -> representable p v -> representable q v.
Proof. intros H (m & e & H1 & H2 & H3). exists m, e. split; [assumption|]. split; [|assumption]. assert (2 ^ p <= 2 ^ q) by (apply Z.pow_le_mono_r; lia). lia. Qed.
Lemma f32_i_of c v : - 2 ^ 255 <= v < 2 ^ 255 -> representable 24 v -> i_as_f32 c (iof c v) = rnd F32 v.
Proof. intros H R. unfold i_as_f32. rewrite f64_i_of; [reflexivity|assumption|]. apply (rep_weaken 24); [lia|assumption]. Qed.

(** ** Whole floats survive *)

Lemma float_trip c b z :
  (0 <= b < 2 ^ 64 -> f_is (f_of_bits F64 b) z ->
    (0 <= z < 2 ^ 256 -> float_as_u256 F64 c b = Ret (uof c z) /\ u_as_f64 c (uof c z) = Fin z) /\
    (- 2 ^ 255 <= z < 2 ^ 255 -> float_as_i256 F64 c b = Ret (iof c z) /\ i_as_f64 c (iof c z) = Fin z)) /\
  (0 <= b < 2 ^ 32 -> f_is (f_of_bits F32 b) z ->
    (0 <= z -> float_as_u256 F32 c b = Ret (uof c z) /\ u_as_f32 c (uof c z) = Fin z) /\
    float_as_i256 F32 c b = Ret (iof c z) /\ i_as_f32 c (iof c z) = Fin z).
Proof.
  split; intros Hb F.
  - destruct (dec_rep F64 52 11 fok64 b z Hb F) as [R _]. change (52 + 1) with 53 in R.
    destruct (f64_to_int c b Hb) as [-> ->]. rewrite !(f_int_is _ z _ _ (of_bits_m F64 b ltac:(vm_compute; discriminate)) F).
    unfold MAXU, MINI, MAXI. split; intros Hz.
    + replace (Z.max 0 (Z.min (2 ^ 256 - 1) z)) with z by lia. split; [reflexivity|]. apply f64_u_of; assumption.
    + replace (Z.max (- 2 ^ 255) (Z.min (2 ^ 255 - 1) z)) with z by lia. split; [reflexivity|]. apply f64_i_of; assumption.
  - destruct (dec_rep F32 23 8 fok32 b z Hb F) as [R B]. change (2 ^ 2 ^ (8 - 1)) with (2 ^ 128) in B. change (23 + 1) with 24 in R.
    assert (NI : forall s, f_of_bits F32 b <> FInf s) by (intros s X; rewrite X in F; exact F).
    destruct (f32_to_int c b Hb NI) as [-> ->]. rewrite !(f_int_is _ z _ _ (of_bits_m F32 b ltac:(vm_compute; discriminate)) F).
    unfold MAXU, MINI, MAXI. assert (0 < 2 ^ 128 < 2 ^ 255) by lia. split; [intros Hz|].
    + replace (Z.max 0 (Z.min (2 ^ 256 - 1) z)) with z by lia. split; [reflexivity|].
      rewrite u_f32_of, uval_uof by (try apply wf_uof; lia). rewrite Z.mod_small by lia. apply (rnd_rep F32); [apply ok32|exact R|exact B].
    + replace (Z.max (- 2 ^ 255) (Z.min (2 ^ 255 - 1) z)) with z by lia. split; [reflexivity|].
      rewrite f32_i_of by (try assumption; lia). apply (rnd_rep F32); [apply ok32|exact R|exact B].
Qed.

(** ** From integers and back *)

Lemma f64_ints_encode c x : wf_u x -> exists b, encodes F64 b (u_as_f64 c x).
Proof.
  intros H. rewrite <- (uof_uval c x) by assumption. pose proof (uval_range c x H). rewrite u_as_f64_of by assumption.
  destruct (encoding_exists F64 (u64r (uval c x))) as [b Hb]; [auto|]. exists b.
  rewrite (rnd_rep F64) in Hb; [exact Hb|apply ok64|apply u64r_rep; assumption|].
  pose proof (u64r_top _ H0). change (f_emax F64) with 1024. assert (2 ^ 256 < 2 ^ 1024) by (apply Z.pow_lt_mono_r; lia). lia.
Qed.
Lemma i64_rep v : - 2 ^ 255 <= v < 2 ^ 255 -> representable 53 (Z.sgn v * u64r (Z.abs v)) /\ Z.abs (Z.sgn v * u64r (Z.abs v)) <= 2 ^ 255.
Proof.
  intros H. pose proof (u64r_top_i (Z.abs v) ltac:(lia)) as T. pose proof (u64r_rep (Z.abs v) ltac:(lia)) as R.
  destruct (Z.sgn_spec v) as [[_ ->]|[[_ ->]|[_ ->]]].
  - rewrite Z.mul_1_l. split; [assumption|lia].
  - rewrite Z.mul_0_l. split; [|lia]. exists 0, 0. split; [lia|]. split; [|reflexivity]. vm_compute. reflexivity.
  - replace (-1 * u64r (Z.abs v)) with (- u64r (Z.abs v)) by lia. split; [apply rep_opp; assumption|lia].
Qed.
Lemma f64_ints_encode_i c x : wf_i x -> exists b, encodes F64 b (i_as_f64 c x).
Proof.
  intros H. rewrite <- (iof_ival c x) by assumption. pose proof (ival_range c x H) as B. rewrite i_as_f64_of by assumption.
  destruct (i64_rep _ B) as [R A]. set (y := Z.sgn _ * _) in *.
  destruct (encoding_exists F64 y) as [b Hb]; [auto|]. exists b.
  rewrite (rnd_rep F64) in Hb; [exact Hb|apply ok64|exact R|].
  change (f_emax F64) with 1024. assert (2 ^ 255 < 2 ^ 1024) by (apply Z.pow_lt_mono_r; lia). lia.
Qed.
Lemma ints_encode c x y : wf_u x -> wf_i y ->
  (exists b, encodes F64 b (u_as_f64 c x)) /\ (exists b, encodes F64 b (i_as_f64 c y)) /\
  (exists b, encodes F32 b (u_as_f32 c x)) /\ (exists b, encodes F32 b (i_as_f32 c y)).
Proof.
  intros Hx Hy. split; [apply f64_ints_encode; assumption|]. split; [apply f64_ints_encode_i; assumption|].
  split; [rewrite u_f32_of by assumption; apply encoding_exists; auto|].
  rewrite <- (iof_ival c y) by assumption. pose proof (ival_range c y Hy) as B. unfold i_as_f32. rewrite i_as_f64_of by assumption.
  apply encoding_exists; auto.
Qed.

Lemma u_trip64 c x b : wf_u x -> encodes F64 b (u_as_f64 c x) ->
  exists y, wf_u y /\ float_as_u256 F64 c b = Ret y /\ u_as_f64 c y = u_as_f64 c x /\ (representable 53 (uval c x) -> y = x).
Proof.
  intros Hx [Hb F]. change (f_width F64) with 64 in Hb. pose proof (uval_range c x Hx) as B. set (v := uval c x) in *.
  assert (Ex : uof c v = x) by (apply uof_uval; assumption). rewrite <- Ex in *. rewrite u_as_f64_of in * by assumption.
  pose proof (u64r_top v B) as T.
  destruct (Z.ltb_spec (u64r v) (2 ^ 256)) as [L|L].
  - destruct (float_trip c b (u64r v)) as [FT _]. destruct (FT Hb F) as [FU _]. destruct (FU ltac:(lia)) as [F1 F2].
    exists (uof c (u64r v)). split; [apply wf_uof|]. split; [assumption|]. split; [assumption|].
    intros R. rewrite u64r_exact by assumption. reflexivity.
  - assert (E : u64r v = 2 ^ 256) by lia. rewrite E in *.
    destruct (f64_to_int c b Hb) as [-> _]. rewrite (f_int_is _ _ _ _ (of_bits_m F64 b ltac:(vm_compute; discriminate)) F).
    exists (uof c MAXU). split; [apply wf_uof|]. split; [replace (Z.max 0 (Z.min MAXU (2 ^ 256))) with MAXU by (vm_compute; reflexivity); reflexivity|]. split.
    + rewrite u_as_f64_of by (unfold MAXU; lia). f_equal; try (vm_compute; reflexivity).
    + intros R. rewrite u64r_exact in E by assumption. lia.
Qed.
Lemma i_trip64 c x b : wf_i x -> encodes F64 b (i_as_f64 c x) ->
  exists y, wf_i y /\ float_as_i256 F64 c b = Ret y /\ i_as_f64 c y = i_as_f64 c x /\ (representable 53 (ival c x) -> y = x).
Proof.
  intros Hx [Hb F]. change (f_width F64) with 64 in Hb. pose proof (ival_range c x Hx) as B. set (v := ival c x) in *.
  assert (Ex : iof c v = x) by (apply iof_ival; assumption). rewrite <- Ex in *. rewrite i_as_f64_of in * by assumption.
  destruct (i64_rep v B) as [R T]. set (y := Z.sgn v * u64r (Z.abs v)) in *.
  assert (EX : representable 53 v -> y = v).
  { intros Rv. unfold y. rewrite u64r_exact by (try apply rep_abs; try assumption; lia). lia. }
  destruct (Z.ltb_spec y (2 ^ 255)) as [L|L].
  - destruct (float_trip c b y) as [FT _]. destruct (FT Hb F) as [_ FI]. destruct (FI ltac:(lia)) as [F1 F2].
    exists (iof c y). split; [apply wf_iof|]. split; [assumption|]. split; [assumption|].
    intros Rv. rewrite EX by assumption. reflexivity.
  - assert (E : y = 2 ^ 255) by lia. rewrite E in *.
    destruct (f64_to_int c b Hb) as [_ ->]. rewrite (f_int_is _ _ _ _ (of_bits_m F64 b ltac:(vm_compute; discriminate)) F).
    exists (iof c MAXI). split; [apply wf_iof|]. split; [replace (Z.max MINI (Z.min MAXI (2 ^ 255))) with MAXI by (vm_compute; reflexivity); reflexivity|]. split.
    + rewrite i_as_f64_of by (unfold MAXI; lia). f_equal; try (vm_compute; reflexivity).
    + intros Rv. specialize (EX Rv). lia.
Qed.
Lemma inf32 b s : 0 <= b < 2 ^ 32 -> f_of_bits F32 b = FInf s -> b = if s then 0xff800000 else 0x7f800000.
Proof. intros Hb X. rewrite (dec_inf F32 23 8 fok32 b s Hb X). destruct s; reflexivity. Qed.
Lemma u_trip32 c x b : wf_u x -> encodes F32 b (u_as_f32 c x) ->
  exists y, wf_u y /\ float_as_u256 F32 c b = Ret y /\ u_as_f32 c y = u_as_f32 c x /\
    (representable 24 (uval c x) -> uval c x < 2 ^ 128 -> y = x).
Proof.
  intros Hx [Hb F]. change (f_width F32) with 32 in Hb. pose proof (uval_range c x Hx) as B.
  rewrite (u_f32_of c x) in * by assumption. set (v := uval c x) in *.
  destruct (rnd F32 v) as [r|s] eqn:RV.
  - destruct (rnd_fin F32 v r (proj1 ok32) RV) as [R T].
    assert (R0 : 0 <= r). { unfold rnd in RV. destruct (_ <=? _) in RV; [discriminate|]. injection RV as <-.
      apply Z.mul_nonneg_nonneg; [lia|]. apply rne_nonneg; lia. }
    destruct (float_trip c b r) as [_ FT]. destruct (FT Hb F) as [FU _]. destruct (FU R0) as [F1 F2].
    exists (uof c r). split; [apply wf_uof|]. split; [assumption|]. split; [assumption|].
    intros Rv Bv. rewrite (rnd_rep F32 v) in RV; [|apply ok32|exact Rv|change (f_emax F32) with 128; lia].
    injection RV as <-. unfold v. apply uof_uval. assumption.
  - assert (s = false).
    { unfold rnd in RV. destruct (_ <=? _) in RV; [|discriminate]. injection RV as <-.
      apply Z.ltb_ge. apply Z.mul_nonneg_nonneg; [lia|]. apply rne_nonneg; lia. }
    subst s. rewrite (inf32 b false Hb F). destruct (f32_infinity c) as (_ & _ & -> & _).
    exists (uof c (2 ^ 128)). split; [apply wf_uof|]. split; [reflexivity|]. split.
    + rewrite u_f32_of, uval_uof by apply wf_uof. vm_compute. reflexivity.
    + intros Rv Bv. rewrite (rnd_rep F32 v) in RV; [discriminate|apply ok32|exact Rv|change (f_emax F32) with 128; lia].
Qed.
Lemma i_trip32 c x b : wf_i x -> encodes F32 b (i_as_f32 c x) ->
  exists y, wf_i y /\ float_as_i256 F32 c b = Ret y /\ i_as_f32 c y = i_as_f32 c x /\
    (representable 24 (ival c x) -> Z.abs (ival c x) < 2 ^ 128 -> y = x).
Proof.
  intros Hx [Hb F]. change (f_width F32) with 32 in Hb. pose proof (ival_range c x Hx) as B. set (v := ival c x) in *.
  assert (Ex : iof c v = x) by (apply iof_ival; assumption). rewrite <- Ex in *.
  assert (EX : representable 24 v -> Z.abs v < 2 ^ 128 -> i_as_f32 c (iof c v) = Fin v).
  { intros Rv Bv. rewrite f32_i_of by assumption. apply (rnd_rep F32); [apply ok32|exact Rv|exact Bv]. }
  destruct (i_as_f32 c (iof c v)) as [r|s] eqn:RV.
  - destruct (float_trip c b r) as [_ FT]. destruct (FT Hb F) as [_ [F1 F2]].
    exists (iof c r). split; [apply wf_iof|]. split; [assumption|]. split; [assumption|].
    intros Rv Bv. specialize (EX Rv Bv). injection EX as ->. reflexivity.
  - rewrite (inf32 b s Hb F). destruct (f32_infinity c) as (_ & _ & _ & _ & I1 & I2).
    exists (iof c (if s then - 2 ^ 128 else 2 ^ 128)). split; [apply wf_iof|]. split; [destruct s; assumption|]. split.
    + rewrite f32_i_of.
      * destruct s; vm_compute; reflexivity.
      * destruct s; lia.
      * destruct s; [exists (-1), 128|exists 1, 128]; vm_compute; intuition congruence.
    + intros Rv Bv. specialize (EX Rv Bv). discriminate.
Qed.

(** ** Faithful rounding *)

Lemma f64_faithful c x y : wf_u x -> wf_i y -> faithful F64 (uval c x) (u_as_f64 c x) /\ faithful F64 (ival c y) (i_as_f64 c y).
Proof.
  intros Hx Hy. pose proof (uval_range c x Hx) as B. pose proof (ival_range c y Hy) as B'.
  split; intros w R Hw; change (f_digits F64) with 53 in R; split; intros L.
  - assert (U : u_as_f64 c x = Fin (u64r (uval c x))) by (rewrite <- u_as_f64_of with (c := c), uof_uval by assumption; reflexivity).
    rewrite U. cbn [fl_le]. destruct (Z.ltb_spec w 0); [pose proof (u64r_top _ B); lia|].
    rewrite <- (u64r_exact w) by (try assumption; lia). apply u64r_mono; lia.
  - assert (U : u_as_f64 c x = Fin (u64r (uval c x))) by (rewrite <- u_as_f64_of with (c := c), uof_uval by assumption; reflexivity).
    rewrite U. cbn [fl_le]. destruct (Z.ltb_spec w (2 ^ 256)); [|pose proof (u64r_top _ B); lia].
    rewrite <- (u64r_exact w) by (try assumption; lia). apply u64r_mono; lia.
  - destruct (Z.ltb_spec w (- 2 ^ 255)) as [O|O].
    + rewrite <- (iof_ival c y), i_as_f64_of by assumption. cbn [fl_le]. destruct (i64_rep _ B'). lia.
    + rewrite <- (f64_i_of c w) by (try assumption; lia).
      apply (f64_mono c x x (iof c w) y); try assumption; [apply wf_iof|]. rewrite ival_iof, wrap_i_small by lia. assumption.
  - destruct (Z.ltb_spec w (2 ^ 255)) as [O|O].
    + rewrite <- (f64_i_of c w) by (try assumption; lia).
      apply (f64_mono c x x y (iof c w)); try assumption; [apply wf_iof|]. rewrite ival_iof, wrap_i_small by lia. assumption.
    + rewrite <- (iof_ival c y), i_as_f64_of by assumption. cbn [fl_le]. destruct (i64_rep _ B'). lia.
Qed.
Lemma i_f32_faithful c y : wf_i y -> faithful F32 (ival c y) (i_as_f32 c y).
Proof.
  intros Hy w R Hw. change (f_emax F32) with 128 in Hw. pose proof (ival_range c y Hy) as B'.
  assert (E : i_as_f32 c (iof c w) = Fin w).
  { rewrite f32_i_of by (try exact R; lia). apply (rnd_rep F32); [apply ok32|exact R|exact Hw]. }
  assert (V : ival c (iof c w) = w) by (rewrite ival_iof, wrap_i_small by lia; reflexivity).
  assert (W : wf_u (uof c 0)) by apply wf_uof. pose proof (wf_iof c w) as Ww.
  split; intros L; rewrite <- E.
  - apply (f32_mono c (uof c 0) (uof c 0) (iof c w) y); try assumption. lia.
  - apply (f32_mono c (uof c 0) (uof c 0) y (iof c w)); try assumption. lia.
Qed.
(** ** What [as_f64] computes *)
Lemma u_f64_actual c x : wf_u x ->
  exists h l y, nearest_even 53 (uval c x / 2 ^ 128) h /\ nearest_even 53 (uval c x mod 2 ^ 128) l /\
    nearest_even 53 (h * 2 ^ 128 + l) y /\ u_as_f64 c x = Fin y.
Proof.
  intros Hx. pose proof (uval_range c x Hx) as B. set (v := uval c x) in *.
  assert (0 <= v / 2 ^ 128) by (apply Z.div_pos; lia). assert (0 <= v mod 2 ^ 128) by (apply Z.mod_pos_bound; lia).
  exists (rne 53 (v / 2 ^ 128)), (rne 53 (v mod 2 ^ 128)), (u64r v).
  split; [apply rne_nearest; lia|]. split; [apply rne_nearest; lia|].
  pose proof (rne_nonneg 53 ltac:(lia) (v / 2 ^ 128) ltac:(lia)). pose proof (rne_nonneg 53 ltac:(lia) (v mod 2 ^ 128) ltac:(lia)).
  split; [apply rne_nearest; nia|]. rewrite <- (uof_uval c x) by assumption. apply u_as_f64_of. assumption.
Qed.
Lemma i_f64_actual c x y : wf_i x -> wf_u y -> uval c y = Z.abs (ival c x) ->
  exists r, u_as_f64 c y = Fin r /\ i_as_f64 c x = Fin (if ival c x <? 0 then - r else r) /\
    i_as_f32 c x = rnd F32 (if ival c x <? 0 then - r else r).
Proof.
  intros Hx Hy E. pose proof (ival_range c x Hx) as B. exists (u64r (Z.abs (ival c x))).
  assert (S : (if ival c x <? 0 then - u64r (Z.abs (ival c x)) else u64r (Z.abs (ival c x))) = Z.sgn (ival c x) * u64r (Z.abs (ival c x))).
  { destruct (Z.ltb_spec (ival c x) 0); [lia|]. destruct (Z.eq_dec (ival c x) 0) as [->|]; [vm_compute; reflexivity|lia]. }
  rewrite S. split; [rewrite <- (uof_uval c y), E by assumption; apply u_as_f64_of; lia|].
  assert (F : i_as_f64 c x = Fin (Z.sgn (ival c x) * u64r (Z.abs (ival c x)))) by (rewrite <- (iof_ival c x) at 1 by assumption; apply i_as_f64_of; assumption).
  split; [exact F|]. unfold i_as_f32. rewrite F. reflexivity.
Qed.
(** ** The [From] implementations *)
Lemma from_floats c x y : wf_u x -> wf_i y ->
  correctly_rounded F32 (uval c x) (f32_from_u256 c x) /\ faithful F32 (ival c y) (f32_from_i256 c y) /\
  faithful F64 (uval c x) (f64_from_u256 c x) /\ faithful F64 (ival c y) (f64_from_i256 c y) /\
  f32_from_u256 c x = u_as_f32 c x /\ f64_from_u256 c x = u_as_f64 c x /\
  f32_from_i256 c y = i_as_f32 c y /\ f64_from_i256 c y = i_as_f64 c y.
Proof.
  intros Hx Hy. destruct (f64_faithful c x y Hx Hy) as [A B].
  split; [apply u_f32_correct; exact Hx|]. split; [apply i_f32_faithful; exact Hy|]. split; [exact A|]. split; [exact B|].
  repeat split; reflexivity.
Qed.
