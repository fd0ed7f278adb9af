(** * Operations compared in two builds: auxiliary lemmas *)

From Coq Require Import ZArith List String Bool Lia ZifyBool.
Import ListNotations.
From Verif Require Import M_Prim M_Words M_Intr M_Div M_Mul M_Ops M_UintApi M_IntApi M_Convert M_Float M_Parse M_Fmt M_Serde
  Spec Spec_Shift Spec_Bits Spec_Serde Spec_Convert Spec_Float Spec_Builds Spec_Api
  P_Words P_AddSub P_Bits P_Ops P_IntDiv P_Uint P_Int P_Forms P_BitsApi P_Count P_Bytes P_Pow P_Pow2 P_Convert P_Float P_Round P_Builds.
Open Scope Z_scope.

(** ** Arithmetic *)

Lemma euclid_exists a b : b <> 0 -> exists q r, a = q * b + r /\ 0 <= r < Z.abs b.
Proof.
  intros Hb. exists (Z.sgn b * (a / Z.abs b)), (a mod Z.abs b). split.
  - pose proof (Z.div_mod a (Z.abs b) ltac:(lia)).
    replace (Z.sgn b * (a / Z.abs b) * b) with (Z.abs b * (a / Z.abs b)); [lia|].
    rewrite <- (Z.sgn_abs b) at 1. ring.
  - apply Z.mod_pos_bound. lia.
Qed.

Definition ieuclid_ops (c : cfg) a b q r : Prop :=
  i_div_euclid c a b = Ret (iof c q) /\ i_wrapping_div_euclid c a b = Ret (iof c q) /\
  i_rem_euclid c a b = Ret (iof c r) /\ i_wrapping_rem_euclid c a b = Ret (iof c r) /\
  i_overflowing_div_euclid c a b = Ret (iof c q, negb (in_i 256 q)) /\
  i_overflowing_rem_euclid c a b = Ret (iof c r, negb (in_i 256 q)) /\
  i_checked_div_euclid c a b = Ret (if in_i 256 q then Some (iof c q) else None) /\
  i_checked_rem_euclid c a b = Ret (if in_i 256 q then Some (iof c r) else None).
Definition ieuclid_zero_ops (c : cfg) a b : Prop :=
  i_div_euclid c a b = Panic "attempt to divide by zero" /\
  i_wrapping_div_euclid c a b = Panic "attempt to divide by zero" /\
  i_overflowing_div_euclid c a b = Panic "attempt to divide by zero" /\
  i_rem_euclid c a b = Panic "attempt to calculate the remainder with a divisor of zero" /\
  i_wrapping_rem_euclid c a b = Panic "attempt to calculate the remainder with a divisor of zero" /\
  i_overflowing_rem_euclid c a b = Panic "attempt to calculate the remainder with a divisor of zero" /\
  i_checked_div_euclid c a b = Ret None /\ i_checked_rem_euclid c a b = Ret None.
Lemma ieuclid_all a b : - 2 ^ 255 <= a < 2 ^ 255 -> - 2 ^ 255 <= b < 2 ^ 255 ->
  (forall c, ieuclid_zero_ops c (iof c a) (iof c b)) \/
  exists q r, forall c, ieuclid_ops c (iof c a) (iof c b) q r.
Proof.
  intros Ha Hb. destruct (Z.eq_dec b 0) as [->|Hb0].
  - left. intros c. unfold ieuclid_zero_ops, i_wrapping_div_euclid, i_wrapping_rem_euclid,
      i_overflowing_div_euclid, i_overflowing_rem_euclid, i_checked_div_euclid, i_checked_rem_euclid,
      i_div_euclid, i_rem_euclid.
    rewrite i_op_div_of, i_op_rem_of, i_div_overflows_of, i_eq_prim_of by lia.
    rewrite andb_false_r. repeat split.
  - right. destruct (euclid_exists a b Hb0) as (q & r & E & R). exists q, r. intros c.
    pose proof (ieuclid_family c (iof c a) (iof c b) q r (wf_iof c a) (wf_iof c b)) as F.
    rewrite !ival_of_small in F by assumption. specialize (F E R). flat_all. unfold ieuclid_ops. intuition.
Qed.

Definition idre_ops (c : cfg) a b q r (bad : bool) : Prop :=
  let out A (v : A) : res A := if debug_assertions c && bad then Panic "attempt to subtract with overflow" else Ret v in
  i_wrapping_div_rem_euclid c a b = out _ (iof c q, iof c r) /\
  i_overflowing_div_rem_euclid c a b = out _ (iof c q, iof c r, negb (in_i 256 q)) /\
  i_checked_div_rem_euclid c a b = out _ (if in_i 256 q then Some (iof c q, iof c r) else None) /\
  i_saturating_div_rem_euclid c a b = out _ (iof c (clamp_i q), iof c r) /\
  i_div_rem_euclid c a b = (if in_i 256 q then out _ (iof c q, iof c r) else Panic "attempt to divide with overflow").
Definition idre_zero_ops (c : cfg) a b : Prop :=
  Forall (eq (Panic "attempt to divide by zero"))
    [i_wrapping_div_rem_euclid c a b; i_div_rem_euclid c a b; i_saturating_div_rem_euclid c a b] /\
  i_overflowing_div_rem_euclid c a b = Panic "attempt to divide by zero" /\
  i_checked_div_rem_euclid c a b = Ret None.
Lemma idre_all a b : - 2 ^ 255 <= a < 2 ^ 255 -> - 2 ^ 255 <= b < 2 ^ 255 ->
  (forall c, idre_zero_ops c (iof c a) (iof c b)) \/
  exists q r bad, forall c, idre_ops c (iof c a) (iof c b) q r bad.
Proof.
  intros Ha Hb. destruct (Z.eq_dec b 0) as [->|Hb0].
  - left. intros c. apply (i_wdre_zero c); auto using wf_iof. rewrite ival_of_small; lia.
  - right. destruct (euclid_exists a b Hb0) as (q & r & E & R).
    exists q, r, ((b =? - 2 ^ 255) && (a <? 0) && negb (r =? 0)). intros c.
    destruct (debug_assertions c && ((b =? - 2 ^ 255) && (a <? 0) && negb (r =? 0))) eqn:B.
    + assert (W := i_wdre_of c a b q r Ha Hb E R). rewrite B in W.
      pose proof (euclid_q_range a b q r Ha Hb Hb0 E R) as Q.
      assert (O : (a =? - 2 ^ 255) && (b =? -1) = false) by lia.
      rewrite O in Q. cbn [negb] in Q.
      unfold idre_ops, i_saturating_div_rem_euclid, i_overflowing_div_rem_euclid, i_checked_div_rem_euclid, i_div_rem_euclid.
      rewrite B, Q, W, i_div_overflows_of, i_eq_prim_of, i_cmp_zero_of, O by lia.
      replace (b =? 0) with false by lia. repeat split.
    + assert (F := idiv_rem_euclid_family c (iof c a) (iof c b) q r (wf_iof c a) (wf_iof c b)).
      rewrite !ival_of_small in F by assumption.
      unfold idre_ops. rewrite B. apply F; try assumption.
      intros D M N. change MINI with (- 2 ^ 255) in M. lia.
Qed.

(** ** Iterators *)

Definition fine {A} (r : res A) : Prop := match r with Ret _ | Panic _ => True | _ => False end.
Lemma cmp_fine c1 c2 A (R : A -> A -> Prop) r1 r2 : cmp_outcome c1 c2 A R r1 r2 -> fine r1 /\ fine r2.
Proof. unfold cmp_outcome, fine. destruct r1, r2; tauto. Qed.
Lemma fine_bind {A B} (r : res A) (k : A -> res B) : fine r -> (forall a, r = Ret a -> fine (k a)) -> fine (bind r k).
Proof. destruct r; cbn; auto. Qed.
Lemma not_same_more c1 c2 : more_checks c1 c2 -> same_checks c1 c2 -> False.
Proof. unfold more_checks, same_checks. intuition congruence. Qed.
Lemma cmp_bind c1 c2 A B (R : A -> A -> Prop) (S : B -> B -> Prop) r1 r2 k1 k2 :
  cmp_outcome c1 c2 A R r1 r2 ->
  (forall a b, R a b -> cmp_outcome c1 c2 B S (k1 a) (k2 b)) ->
  (forall a, r1 = Ret a -> fine (k1 a)) -> (forall b, r2 = Ret b -> fine (k2 b)) ->
  cmp_outcome c1 c2 B S (bind r1 k1) (bind r2 k2).
Proof.
  intros H K F1 F2. destruct r1, r2; cbn [cmp_outcome bind] in *; try contradiction; auto.
  - specialize (F1 _ eq_refl). destruct (k1 _); cbn in *; try contradiction; auto.
    intros E. exfalso. apply (not_same_more c2 c1 H). destruct E; split; auto.
  - specialize (F2 _ eq_refl). destruct (k2 _); cbn in *; try contradiction; auto.
    intros E. exfalso. apply (not_same_more c1 c2 H E).
Qed.

Lemma good_fold c1 c2 k (f1 f2 : den k -> den k -> res (den k)) :
  in_builds (cmp_outcome c1 c2) c1 c2 (k --> k --> Runs k) f1 f2 ->
  in_builds (cmp_outcome c1 c1) c1 c1 (k --> k --> Runs k) f1 f1 ->
  in_builds (cmp_outcome c2 c2) c2 c2 (k --> k --> Runs k) f2 f2 ->
  (forall x y, same c1 c2 k x y -> same c1 c1 k x x /\ same c2 c2 k y y) ->
  forall l1 l2, Forall2 (same c1 c2 k) l1 l2 -> forall z1 z2, same c1 c2 k z1 z2 ->
  in_builds (cmp_outcome c1 c2) c1 c2 (Runs k) (fold_res f1 z1 l1) (fold_res f2 z2 l2).
Proof.
  cbn [in_builds]. intros G G1 G2 S.
  assert (FF : forall c f, (forall x y, same c c k x y -> forall u v, same c c k u v -> cmp_outcome c c (den k) (same c c k) (f x u) (f y v)) ->
            forall l, Forall (fun x => same c c k x x) l -> forall z, same c c k z z -> fine (fold_res f z l)).
  { intros c f Gf. induction 1 as [|x l Hx Hl IH]; intros z Hz; cbn [fold_res]; [exact Logic.I|].
    pose proof (Gf z z Hz x x Hx) as H. destruct (cmp_fine _ _ _ _ _ _ H) as [H1 _].
    apply fine_bind; [assumption|]. intros a E. rewrite E in H. cbn in H. auto. }
  assert (L : forall l1 l2, Forall2 (same c1 c2 k) l1 l2 -> Forall (fun x => same c1 c1 k x x) l1 /\ Forall (fun x => same c2 c2 k x x) l2).
  { induction 1 as [|? ? ? ? Hxy]; [split; constructor|]. destruct IHForall2. destruct (S _ _ Hxy). split; constructor; assumption. }
  induction 1 as [|x y l1 l2 Hxy Hl IH]; intros z1 z2 Hz; cbn [fold_res]; [exact Hz|].
  destruct (S _ _ Hxy), (S _ _ Hz), (L _ _ Hl).
  apply (cmp_bind c1 c2 _ _ (same c1 c2 k)); [apply G; assumption|exact IH| |].
  - intros a E. apply (FF c1); try assumption. pose proof (G1 z1 z1 H1 x x H) as K. rewrite E in K. exact K.
  - intros a E. apply (FF c2); try assumption. pose proof (G2 z2 z2 H2 y y H0) as K. rewrite E in K. exact K.
Qed.
Lemma legal_u c1 c2 x y : same c1 c2 U x y -> same c1 c1 U x x /\ same c2 c2 U y y.
Proof. cbn [same]. intuition. Qed.
Lemma legal_i c1 c2 x y : same c1 c2 I x y -> same c1 c1 I x x /\ same c2 c2 I y y.
Proof. cbn [same]. intuition. Qed.
Lemma comparable_l c1 c2 : comparable c1 c2 -> comparable c1 c1 /\ comparable c2 c2.
Proof. intros [E K]. unfold comparable, usize_ok in *. rewrite <- E. auto. Qed.
Lemma good_fold_of k f z : good (k --> k --> Runs k) f ->
  (forall c1 c2 x y, same c1 c2 k x y -> same c1 c1 k x x /\ same c2 c2 k y y) ->
  (forall c1 c2, same c1 c2 k (z c1) (z c2)) -> good (List k --> Runs k) (fun c => fold_res (f c) (z c)).
Proof.
  intros G S Z. begin. intros l1 l2 H. destruct (comparable_l _ _ CM).
  apply good_fold; auto; try (apply G; auto; exact Logic.I).
Qed.

(** ** Words and bits *)

Lemma u_words_of c v : u_high c (uof c v) = (v / 2 ^ 128) mod 2 ^ 128 /\ u_low c (uof c v) = v mod 2 ^ 128.
Proof. split; [apply u_high_of|apply u_low_of]. Qed.
Lemma same_amount_val c1 c2 a b : same_amount c1 c2 a b -> amt_val c1 a = amt_val c2 b.
Proof. destruct a, b; cbn [same_amount]; tauto. Qed.
Lemma cmp_shift c1 c2 k s msg (v1 v2 : Z -> den k) : llvm c1 = llvm c2 ->
  (forall n, same c1 c2 k (v1 n) (v2 n)) ->
  in_builds (cmp_outcome c1 c2) c1 c2 (Runs k) (shift_out c1 s msg v1) (shift_out c2 s msg v2).
Proof.
  intros E S. cbn [in_builds]. unfold shift_out, rel_amt. rewrite E.
  destruct (debug_assertions c1) eqn:D1, (debug_assertions c2) eqn:D2; destruct (in_u 8 s) eqn:I8;
    cbn [cmp_outcome]; auto; try (left; auto; fail).
  all: assert (0 <= s < 256) by (unfold in_u in I8; change (2 ^ 8) with 256 in I8; lia);
    rewrite (Z.mod_small s (2 ^ 32)) by lia; destruct (llvm c2); rewrite ?(Z.mod_small s) by lia;
    replace (s <? 256) with true by lia; auto.
Qed.
Lemma rotate_u c n v (left : bool) : 0 <= n < 2 ^ 32 ->
  (if left then u_rotate_left else u_rotate_right) c (uof c (v mod 2 ^ 256)) n =
  if negb (llvm c) && overflow_checks c && (256 <? n) then Panic "attempt to subtract with overflow"
  else Ret (uof c (rotl_num (v mod 2 ^ 256) (if left then n else - n))).
Proof.
  intros Hn. assert (R : 0 <= v mod 2 ^ 256 < 2 ^ 256) by (apply Z.mod_pos_bound; lia).
  destruct (negb (llvm c) && overflow_checks c && (256 <? n)) eqn:B.
  - assert (H := rotation_panics c (uof c (v mod 2 ^ 256)) (iof c 0) n (wf_uof _ _) (wf_iof _ _)
      ltac:(destruct (llvm c); [discriminate|reflexivity]) ltac:(destruct (llvm c), (overflow_checks c); try discriminate; reflexivity) ltac:(lia)).
    flat_all. destruct left; congruence.
  - destruct left; [apply rol3_of|apply ror3_of]; try assumption; unfold rotate_ok; destruct (llvm c), (overflow_checks c); cbn in B; auto; right; right; lia.
Qed.
Lemma rotate_u_small c n v (left : bool) : 0 <= n < 2 ^ 32 -> 0 <= v < 2 ^ 256 ->
  (if left then u_rotate_left else u_rotate_right) c (uof c v) n =
  if negb (llvm c) && overflow_checks c && (256 <? n) then Panic "attempt to subtract with overflow"
  else Ret (uof c (rotl_num v (if left then n else - n))).
Proof. intros Hn Hv. rewrite <- (Z.mod_small v (2 ^ 256) Hv). apply rotate_u. assumption. Qed.
Lemma rotate_i c n v (left : bool) : 0 <= n < 2 ^ 32 ->
  (if left then i_rotate_left else i_rotate_right) c (iof c v) n =
  if negb (llvm c) && overflow_checks c && (256 <? n) then Panic "attempt to subtract with overflow"
  else Ret (iof c (rotl_num (v mod 2 ^ 256) (if left then n else - n))).
Proof.
  intros Hn. assert (H := rotate_u c n v left Hn). 
  assert (E : (if left then i_rotate_left else i_rotate_right) c (iof c v) n =
              res_map u_as_i256 ((if left then u_rotate_left else u_rotate_right) c (uof c (v mod 2 ^ 256)) n)).
  { unfold i_rotate_left, i_rotate_right, irol3, iror3, u_rotate_left, u_rotate_right.
    destruct left; rewrite i_as_u256_of; do 2 f_equal; apply uof_cong; rewrite Z.mod_mod by lia; reflexivity. }
  rewrite E, H. destruct (_ && _ && _); cbn [res_map bind]; rewrite ?u_as_i256_of; reflexivity.
Qed.
Lemma rot_cmp c1 c2 k n (a b : den k) : (llvm c1 = llvm c2 \/ n <= 256) -> same c1 c2 k a b ->
  in_builds (cmp_outcome c1 c2) c1 c2 (Runs k)
    (if negb (llvm c1) && overflow_checks c1 && (256 <? n) then Panic "attempt to subtract with overflow" else Ret a)
    (if negb (llvm c2) && overflow_checks c2 && (256 <? n) then Panic "attempt to subtract with overflow" else Ret b).
Proof.
  intros H S. cbn [in_builds]. destruct (256 <? n) eqn:L.
  - destruct H as [H|H]; [|lia]. rewrite H. destruct (llvm c2); cbn [negb andb]; [exact S|].
    destruct (overflow_checks c1) eqn:O1, (overflow_checks c2) eqn:O2; cbn [andb cmp_outcome]; auto; right; auto.
  - rewrite !andb_false_r. exact S.
Qed.
Lemma u_cmp_of' c a b : 0 <= a < 2 ^ 256 -> 0 <= b < 2 ^ 256 -> u_cmp c (uof c a) (uof c b) = (a ?= b).
Proof. intros. rewrite u_cmp_val, !uval_of_small by auto using wf_uof. reflexivity. Qed.
Lemma i_cmp_of' c a b : - 2 ^ 255 <= a < 2 ^ 255 -> - 2 ^ 255 <= b < 2 ^ 255 -> i_cmp c (iof c a) (iof c b) = (a ?= b).
Proof. intros. rewrite i_cmp_val, !ival_of_small by auto using wf_iof. reflexivity. Qed.
Lemma runs_same c1 c2 x y r1 r2 (P : Z -> Z -> Prop) : x = y ->
  (exists k, r1 = Ret k /\ P x k) -> (exists k, r2 = Ret k /\ P y k) ->
  (forall k k', P y k -> P y k' -> k = k') -> in_builds (cmp_outcome c1 c2) c1 c2 (Runs Int) r1 r2.
Proof.
  intros <- (k & -> & H) (k' & -> & H') W. rewrite (W _ _ H H'). apply run_ret. split; [reflexivity|exact Logic.I].
Qed.
Lemma le_bytes_ok n v : bytes_ok (le_bytes n v).
Proof. apply le_bytes_range. Qed.
Lemma pow2_of c a : 0 <= a < 2 ^ 256 -> exists k b,
  u_is_power_of_two c (uof c a) = Ret b /\ (b = true <-> exists j, 0 <= j /\ a = 2 ^ j) /\
  least_exp a k /\
  u_checked_next_power_of_two c (uof c a) = Ret (if k <? 256 then Some (uof c (2 ^ k)) else None) /\
   u_next_power_of_two c (uof c a) =
     (if k <? 256 then Ret (uof c (2 ^ k))
      else if debug_assertions c then Panic "attempt to add with overflow" else Ret (uof c 0)).
Proof.
  intros Ha. destruct (least_exists a) as (k & K0 & K1 & K2 & _).
  pose proof (pow2_family c (uof c a) k (wf_uof c a)) as F. cbv zeta in F. rewrite uval_of_small in F by assumption.
  destruct F as ((b & Eb & Hb) & F). destruct (F K0 K1 K2) as [F1 F2].
  exists k, b. repeat split; try apply Hb; assumption.
Qed.

(** ** Floats *)
Lemma f32_inf_bits b s : 0 <= b < 2 ^ 32 -> f_of_bits F32 b = FInf s -> b = 0x7f800000 \/ b = 0xff800000.
Proof.
  intros Hb. assert (P : forall b s, 0 <= b < 2 ^ 31 -> f_of_bits F32 b = FInf s -> b = 0x7f800000).
  { clear. intros b s Hb. destruct (decode_pos F32 23 8 fok32 b Hb) as (_ & _ & ->).
    destruct (b / 2 ^ 23 =? 2 ^ 8 - 1) eqn:E1; [|destruct (b / 2 ^ 23 =? 0); discriminate].
    destruct (b mod 2 ^ 23 =? 0) eqn:E2; [|discriminate]. intros _.
    rewrite (Z.div_mod b (2 ^ 23)) by lia. apply Z.eqb_eq in E1, E2. rewrite E1, E2. reflexivity. }
  destruct (Z.lt_ge_cases b (2 ^ 31)) as [L|L]; [left; eapply P; eauto; lia|].
  rewrite (decode_neg F32 23 8 fok32 b) by (change (2 ^ (23 + 8)) with (2 ^ 31); change (2 ^ (23 + 8 + 1)) with (2 ^ 32); lia).
  change (2 ^ (23 + 8)) with (2 ^ 31). destruct (f_of_bits F32 (b - 2 ^ 31)) eqn:E; try discriminate. intros _.
  apply P in E; [right|]; lia.
Qed.
Lemma float_nums f b : f = F32 /\ 0 <= b < 2 ^ 32 \/ f = F64 /\ 0 <= b < 2 ^ 64 ->
  exists v w, forall c, float_as_u256 f c b = Ret (uof c v) /\ float_as_i256 f c b = Ret (iof c w).
Proof.
  intros [[-> Hb]|[-> Hb]]; [|exists (f_int (f_of_bits F64 b) 0 MAXU), (f_int (f_of_bits F64 b) MINI MAXI); intros c; exact (f64_to_int c b Hb)].
  destruct (Z.eq_dec b 0x7f800000) as [->|N1].
  { exists (2 ^ 128), (2 ^ 128). intros c. destruct (f32_infinity c) as (_ & _ & A & _ & B & _). exact (conj A B). }
  destruct (Z.eq_dec b 0xff800000) as [->|N2].
  { exists 0, (- 2 ^ 128). intros c. destruct (f32_infinity c) as (_ & _ & _ & A & _ & B). exact (conj A B). }
  exists (f_int (f_of_bits F32 b) 0 MAXU), (f_int (f_of_bits F32 b) MINI MAXI). intros c. apply (f32_to_int c b); [assumption|]. intros s H. apply f32_inf_bits in H; intuition.
Qed.
Lemma u_as_f32_rnd c v : 0 <= v < 2 ^ 256 -> u_as_f32 c (uof c v) = rnd F32 v.
Proof.
  intros Hv. apply rounding_unique; [auto|]. rewrite <- (uval_of_small c v Hv) at 1. apply u_f32_correct, wf_uof.
Qed.
Lemma cmp_shift_small c1 c2 k s msg (v1 v2 : Z -> den k) : 0 <= s < 256 ->
  (forall n, same c1 c2 k (v1 n) (v2 n)) ->
  in_builds (cmp_outcome c1 c2) c1 c2 (Runs k) (shift_out c1 s msg v1) (shift_out c2 s msg v2).
Proof. intros R S. rewrite (shift_small c1 s msg v1 R), (shift_small c2 s msg v2 R). apply run_ret, S. Qed.
Lemma u_as_of c t a : usize_ok c -> In t int_types -> 0 <= a < 2 ^ 256 -> u_as c t (uof c a) = t_wrap c t a.
Proof.
  intros U T Ha. rewrite (proj1 (as_family c t (uof c a) (iof c 0) U T (wf_uof _ _) (wf_iof _ _))), uval_of_small by assumption. reflexivity.
Qed.
Lemma i_as_of c t a : usize_ok c -> In t int_types -> - 2 ^ 255 <= a < 2 ^ 255 -> i_as c t (iof c a) = t_wrap c t a.
Proof.
  intros U T Ha. rewrite (proj2 (as_family c t (uof c 0) (iof c a) U T (wf_uof _ _) (wf_iof _ _))), ival_of_small by assumption. reflexivity.
Qed.
Lemma u_try_into_of c t a : usize_ok c -> In t int_types -> 0 <= a < 2 ^ 256 ->
  u_try_into c t (uof c a) = if t_in c t a then Some a else None.
Proof.
  intros U T Ha. rewrite (proj1 (into_family c t (uof c a) (iof c 0) U T (wf_uof _ _) (wf_iof _ _))), uval_of_small by assumption. reflexivity.
Qed.
Lemma i_try_into_of c t a : usize_ok c -> In t int_types -> - 2 ^ 255 <= a < 2 ^ 255 ->
  i_try_into c t (iof c a) = if t_in c t a then Some a else None.
Proof.
  intros U T Ha. rewrite (proj2 (into_family c t (uof c 0) (iof c a) U T (wf_uof _ _) (wf_iof _ _))), ival_of_small by assumption. reflexivity.
Qed.
Lemma usize_same c1 c2 : comparable c1 c2 -> usize_ok c1 /\ usize_ok c2.
Proof. intros [E K]. unfold usize_ok in *. rewrite <- E. auto. Qed.
Lemma t_wrap_same c1 c2 t v : comparable c1 c2 -> t_wrap c1 t v = t_wrap c2 t v.
Proof. intros [E _]. unfold t_wrap, t_width. rewrite E. reflexivity. Qed.
Lemma t_in_same c1 c2 t v : comparable c1 c2 -> t_in c1 t v = t_in c2 t v.
Proof. intros [E _]. unfold t_in, t_width. rewrite E. reflexivity. Qed.
Lemma i_bytes_nums c v :
  i_to_le_bytes c (iof c v) = le_bytes 32 v /\ i_to_be_bytes c (iof c v) = rev (le_bytes 32 v) /\
  i_to_ne_bytes c (iof c v) = (if big_endian c then rev (le_bytes 32 v) else le_bytes 32 v).
Proof.
  assert (is_bytes 32 (le_bytes 32 0)) as Z0 by (split; [apply le_bytes_length|apply le_bytes_range]).
  destruct (i_bytes_family c (iof c v) (le_bytes 32 0) (wf_iof _ _) Z0) as (A & B & C & _).
  rewrite C, A, B, digits_le_eq, ival_iof. rewrite <- (le_bytes_mod 32 v), <- (le_bytes_mod 32 (wrap_i 256 v)), !p32.
  replace (wrap_i 256 v mod 2 ^ 256) with (v mod 2 ^ 256); [auto|]. symmetry. apply wrap_i_mod. lia.
Qed.
Lemma i_from_bytes_nums c l : is_bytes 32 l ->
  i_from_le_bytes c l = iof c (value_le l) /\ i_from_be_bytes c l = iof c (value_le (rev l)) /\
  i_from_ne_bytes c l = iof c (value_le (if big_endian c then rev l else l)).
Proof.
  intros H. destruct (i_bytes_family c (iof c 0) l (wf_iof _ _) H) as (_ & _ & _ & A & B & C & _).
  rewrite C, A, B. destruct (big_endian c); auto.
Qed.
Lemma u_shl_assign_eq c x a : u_shl_assign c x a = u_shl_amt c x a.
Proof. apply (shift_assign_eq c x (iof c 0) a). Qed.
Lemma u_shr_assign_eq c x a : u_shr_assign c x a = u_shr_amt c x a.
Proof. apply (shift_assign_eq c x (iof c 0) a). Qed.
Lemma i_shl_assign_eq c x a : i_shl_assign c x a = i_shl_amt c x a.
Proof. apply (shift_assign_eq c (uof c 0) x a). Qed.
Lemma i_shr_assign_eq c x a : i_shr_assign c x a = i_shr_amt c x a.
Proof. apply (shift_assign_eq c (uof c 0) x a). Qed.
