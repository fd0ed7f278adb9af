(** * The programs of [Spec_Clients] compute what they should: proofs *)

From Coq Require Import ZArith List String Bool Lia ZifyBool Znumtheory Zpow_facts.
Import ListNotations.
From Verif Require Import M_Prim M_Words M_Intr M_Div M_Mul M_Ops M_UintApi Spec Spec_Shift Spec_Builds Spec_Api Spec_Program Spec_Clients
  P_Words P_AddSub P_Bits P_BitsApi P_Mul P_Div P_DivKnuth P_Ops P_Uint P_Bytes P_Laws.
Open Scope Z_scope.

(** ** The greatest common divisor *)
Lemma gcd_round_of c G (e : env G) a b : 0 <= a < 2 ^ 256 -> 0 <= b < 2 ^ 256 ->
  run c gcd_round ((uof c a, uof c b), e) =
  if b =? 0 then Ret (false, (uof c a, uof c b)) else Ret (true, (uof c b, uof c (a mod b))).
Proof.
  intros Ha Hb. cbn [gcd_round run call get fst snd bind op_fn op_sig]. rewrite u_eq_prim_of by lia.
  destruct (b =? 0) eqn:E; [reflexivity|]. rewrite u_op_rem_of by lia. rewrite E. reflexivity.
Qed.
Lemma gcd_rounds c G (e : env G) m k : forall a b, 0 <= a < 2 ^ 256 -> 0 <= b < 2 ^ 256 -> b < 2 ^ Z.of_nat k ->
  exists z, rounds (fun s => run c gcd_round (s, e)) (2 * k + 1 + m) (uof c a, uof c b) = Ret (uof c (Z.gcd a b), z).
Proof.
  induction k as [|k IH]; intros a b Ha Hb H.
  - change (2 ^ Z.of_nat 0) with 1 in H. assert (b = 0) by lia. subst b.
    cbn [Nat.mul Nat.add rounds]. rewrite gcd_round_of by lia. cbn [Z.eqb bind fst snd].
    rewrite Z.gcd_0_r, Z.abs_eq by lia. eauto.
  - replace (2 * S k + 1 + m)%nat with (S (S (2 * k + 1 + m))) by lia. cbn [rounds]. rewrite gcd_round_of by lia.
    destruct (Z.eqb_spec b 0) as [->|N]; cbn [bind fst snd].
    { rewrite Z.gcd_0_r, Z.abs_eq by lia. eauto. }
    pose proof (Z.mod_pos_bound a b ltac:(lia)) as R. rewrite gcd_round_of by lia.
    assert (G1 : Z.gcd a b = Z.gcd b (a mod b)) by (rewrite (Z.gcd_comm b), Z.gcd_mod, Z.gcd_comm by lia; reflexivity).
    destruct (Z.eqb_spec (a mod b) 0) as [Z0|N']; cbn [bind fst snd].
    { rewrite G1, Z0, Z.gcd_0_r, Z.abs_eq by lia. eauto. }
    pose proof (Z.mod_pos_bound b (a mod b) ltac:(lia)) as R'.
    rewrite G1. rewrite (Z.gcd_comm b). rewrite <- (Z.gcd_mod b) by lia. rewrite Z.gcd_comm.
    apply IH; try lia. rewrite Nat2Z.inj_succ, Z.pow_succ_r in H by lia.
    set (q := a mod b) in *. clearbody q. pose proof (Z.div_mod b q ltac:(lia)) as D.
    assert (1 <= b / q) by (apply Z.div_le_lower_bound; lia). nia.
Qed.
Lemma gcd_of c n a b : wf_u a -> wf_u b -> (513 <= n)%nat ->
  run c (gcd n) (a, (b, tt)) = Ret (uof c (Z.gcd (uval c a) (uval c b))).
Proof.
  intros Ha Hb Hn. pose proof (uval_range c a Ha). pose proof (uval_range c b Hb).
  rewrite <- (uof_uval c a Ha), <- (uof_uval c b Hb). rewrite !uval_of_small by assumption.
  unfold gcd. cbn [run get fst snd].
  replace n with (2 * 256 + 1 + (n - 513))%nat by lia.
  edestruct gcd_rounds as (z & ->); [assumption|assumption| |reflexivity]. change (Z.of_nat 256) with 256. lia.
Qed.

(** ** The square root *)
Lemma lor_add a i : 0 <= i -> a mod 2 ^ (i + 1) = 0 -> Z.lor a (2 ^ i) = a + 2 ^ i.
Proof.
  intros Hi Ha.
  assert (N : Z.land a (2 ^ i) = 0).
  { apply Z.bits_inj'. intros j Hj. rewrite Z.land_spec, Z.pow2_bits_eqb, Z.bits_0 by lia.
    destruct (Z.eqb_spec i j) as [<-|]; [|apply andb_false_r].
    rewrite <- (Z.mod_pow2_bits_low a (i + 1)) by lia. rewrite Ha, Z.bits_0. reflexivity. }
  rewrite Z.add_nocarry_lxor by exact N. symmetry. apply Z.lxor_lor. exact N.
Qed.
Lemma isqrt_round_of c G (e : env G) r i n : 0 <= i < 128 -> 0 <= r < 2 ^ 128 -> r mod 2 ^ (i + 1) = 0 -> 0 <= n < 2 ^ 256 ->
  let t := r + 2 ^ i in
  run c isqrt_round ((uof c r, (i, uof c n)), e) =
  Ret (negb (i =? 0), (uof c (if t * t <=? n then t else r), (Z.max (i - 1) 0, uof c n))) /\ t < 2 ^ 128.
Proof.
  intros Hi Hr Hm Hn t.
  assert (P : 0 < 2 ^ i) by (apply Z.pow_pos_nonneg; lia).
  assert (T : t < 2 ^ 128).
  { unfold t. pose proof (Z.div_mod r (2 ^ (i + 1)) ltac:(rewrite Z.pow_add_r by lia; lia)) as D. rewrite Hm in D.
    assert (E : 2 ^ 128 = 2 ^ (127 - i) * (2 * 2 ^ i)) by (rewrite <- Z.pow_succ_r, <- Z.pow_add_r by lia; f_equal; lia).
    assert (E' : 2 ^ (i + 1) = 2 * 2 ^ i) by (rewrite <- Z.pow_succ_r by lia; reflexivity).
    rewrite E' in D. rewrite E in Hr |- *. generalize dependent (2 ^ (127 - i)). intros K E Hr.
    generalize dependent (r / (2 * 2 ^ i)). intros q D.
    assert (q < K) by nia. nia. }
  split; [|exact T].
  cbn [isqrt_round run call get fst snd bind op_fn op_sig]. rewrite u_new_of by lia.
  unfold u_wrapping_shl. rewrite land_small by lia. rewrite shl3_of by lia. cbn [bind].
  rewrite u_op_or_of, Z.mul_1_l, lor_add by (assumption || lia). fold t.
  assert (0 <= t) by (unfold t; lia). rewrite u_op_mul_of by lia.
  unfold dbg. replace (in_u 256 (t * t)) with true by (unfold in_u; symmetry; change (2 ^ 256) with (2 ^ 128 * 2 ^ 128); nia).
  cbn [negb]. rewrite andb_false_r. cbn [bind]. rewrite u_le_of by (try assumption; change (2 ^ 256) with (2 ^ 128 * 2 ^ 128); nia).
  destruct (t * t <=? n); reflexivity.
Qed.
Lemma isqrt_rounds c G (e : env G) m k : forall r n, 0 <= n < 2 ^ 256 -> (k < 128)%nat -> 0 <= r < 2 ^ 128 ->
  r mod 2 ^ (Z.of_nat k + 1) = 0 -> r * r <= n < (r + 2 ^ (Z.of_nat k + 1)) * (r + 2 ^ (Z.of_nat k + 1)) ->
  exists z, rounds (fun s => run c isqrt_round (s, e)) (k + 1 + m) (uof c r, (Z.of_nat k, uof c n)) = Ret (uof c (Z.sqrt n), z).
Proof.
  induction k as [|k IH]; intros r n Hn Hk Hr Hm HR.
  - cbn [Nat.add rounds]. destruct (isqrt_round_of c G e r (Z.of_nat 0) n) as (E & T); try assumption; [lia|].
    match type of E with _ = ?r => match goal with |- context [run c isqrt_round ?x] => replace (run c isqrt_round x) with r by (symmetry; exact E) end end.
    clear E. cbn [bind fst snd]. change (negb (Z.of_nat 0 =? 0)) with false. cbn match.
    change (2 ^ Z.of_nat 0) with 1 in *. change (2 ^ (Z.of_nat 0 + 1)) with 2 in *.
    assert (R : (if (r + 1) * (r + 1) <=? n then r + 1 else r) = Z.sqrt n).
    { destruct (Z.leb_spec ((r + 1) * (r + 1)) n); symmetry; apply Z.sqrt_unique; nia. }
    rewrite R. eexists. reflexivity.
  - cbn [Nat.add rounds]. destruct (isqrt_round_of c G e r (Z.of_nat (S k)) n) as (E & T); try assumption; [lia|].
    match type of E with _ = ?r => match goal with |- context [run c isqrt_round ?x] => replace (run c isqrt_round x) with r by (symmetry; exact E) end end.
    clear E. cbn [bind fst snd]. replace (negb (Z.of_nat (S k) =? 0)) with true by lia.
    replace (Z.max (Z.of_nat (S k) - 1) 0) with (Z.of_nat k) by lia.
    replace (Z.of_nat k + 1) with (Z.of_nat (S k)) in IH by lia.
    set (j := Z.of_nat (S k)) in *. assert (J : 0 <= j) by lia. clearbody j.
    assert (P : 0 < 2 ^ j) by (apply Z.pow_pos_nonneg; lia).
    rewrite Z.pow_add_r, Z.pow_1_r in Hm, HR by lia.
    assert (Hm' : r mod 2 ^ j = 0).
    { apply Z.mod_divide; [lia|]. apply Z.mod_divide in Hm; [|lia]. destruct Hm as [q ->]. exists (q * 2). lia. }
    apply IH; try lia.
    + destruct (_ <=? _); lia.
    + destruct (_ <=? _); [|exact Hm']. rewrite <- (Z.mul_1_l (2 ^ j)) at 1. rewrite Z.mod_add by lia. exact Hm'.
    + destruct (Z.leb_spec ((r + 2 ^ j) * (r + 2 ^ j)) n); nia.
Qed.
Lemma isqrt_of c m n : wf_u n -> (128 <= m)%nat -> run c (isqrt m) (n, tt) = Ret (uof c (Z.sqrt (uval c n))).
Proof.
  intros Hw Hm. pose proof (uval_range c n Hw) as Hn. rewrite <- (uof_uval c n Hw). rewrite !uval_of_small by assumption.
  generalize dependent (uval c n). clear n Hw. intros n Hn.
  unfold isqrt. cbn [run call get fst snd bind op_fn op_sig]. rewrite u_new_of by lia.
  replace m with (127 + 1 + (m - 128))%nat by lia.
  match goal with |- context [rounds (fun s => run c isqrt_round (s, ?e)) _ _] =>
    destruct (isqrt_rounds c [Pair U (Pair U32 U); Pair U32 U; U32; U; U128; U] e (m - 128) 127 0 n Hn ltac:(lia) ltac:(lia) eq_refl) as (z & E) end.
  { change ((0 + 2 ^ (Z.of_nat 127 + 1)) * (0 + 2 ^ (Z.of_nat 127 + 1))) with (2 ^ 256). lia. }
  match goal with |- bind ?x _ = _ => replace x with (Ret (uof c (Z.sqrt n), z)) by (symmetry; exact E) end. reflexivity.
Qed.

(** ** Powers modulo a number *)
Lemma mulmod_of c G (e : env G) (x y m : var G U) a b n : get x e = uof c a -> get y e = uof c b -> get m e = uof c n ->
  0 < n <= 2 ^ 128 -> 0 <= a < n -> 0 <= b < n -> run c (mulmod x y m) e = Ret (uof c (a * b mod n)).
Proof.
  intros X Y M Hn Ha Hb. unfold mulmod. cbn [run call get fst snd bind op_fn op_sig]. rewrite X, Y, M.
  assert (0 <= a * b < 2 ^ 256) by (change (2 ^ 256) with (2 ^ 128 * 2 ^ 128); nia).
  rewrite u_op_mul_of by lia. unfold dbg. replace (in_u 256 (a * b)) with true by (unfold in_u; lia). cbn [negb]. rewrite andb_false_r. cbn [bind].
  rewrite u_op_rem_of by lia. replace (n =? 0) with false by lia. reflexivity.
Qed.
Lemma powmod_round_of c G (e : env G) r b x m : 0 < m <= 2 ^ 128 -> 0 <= r < m -> 0 <= b < m -> 0 <= x < 2 ^ 256 ->
  run c powmod_round ((uof c r, (uof c b, (uof c x, uof c m))), e) =
  if x =? 0 then Ret (false, (uof c r, (uof c b, (uof c x, uof c m))))
  else Ret (true, (uof c (if Z.even x then r else r * b mod m), (uof c (b * b mod m), (uof c (x / 2), uof c m)))).
Proof.
  intros Hm Hr Hb Hx. unfold powmod_round. cbn [run call get fst snd bind op_fn op_sig]. rewrite u_eq_prim_of by lia.
  destruct (x =? 0) eqn:X; [reflexivity|]. rewrite u_new_of by lia. rewrite u_op_and_of.
  assert (L : Z.land x 1 = x mod 2) by (change 1 with (Z.ones 1); rewrite Z.land_ones by lia; reflexivity).
  pose proof (Z.mod_pos_bound x 2 ltac:(lia)). rewrite L, u_eq_prim_of by lia. cbn [bind].
  erewrite mulmod_of by (try reflexivity; assumption). cbn [bind].
  unfold u_wrapping_shr. rewrite land_small by lia. rewrite shr3_of by lia. cbn [bind]. change (2 ^ 1) with 2.
  rewrite Zmod_even. destruct (Z.even x); cbn [Z.eqb]; [reflexivity|].
  erewrite mulmod_of by (try reflexivity; assumption). reflexivity.
Qed.
Lemma powmod_step m r b x : 0 < m -> 0 < x ->
  (if Z.even x then r else r * b mod m) * (b * b mod m) ^ (x / 2) mod m = r * b ^ x mod m.
Proof.
  intros Hm Hx. pose proof (Z.div_mod x 2 ltac:(lia)) as D. rewrite Zmod_even in D.
  assert (0 <= x / 2) by (apply Z.div_pos; lia).
  rewrite (Zmult_mod _ ((b * b mod m) ^ (x / 2))), <- Zpower_mod, <- Zmult_mod by lia.
  rewrite <- Z.pow_2_r, <- Z.pow_mul_r by lia.
  destruct (Z.even x).
  - f_equal. f_equal. f_equal. lia.
  - rewrite Zmult_mod_idemp_l, <- Z.mul_assoc, <- Z.pow_succ_r by lia. f_equal. f_equal. f_equal. lia.
Qed.
Lemma powmod_rounds c G (e : env G) f m k : forall r b x, 0 < m <= 2 ^ 128 -> 0 <= r < m -> 0 <= b < m -> 0 <= x < 2 ^ 256 ->
  x < 2 ^ Z.of_nat k ->
  exists z, rounds (fun s => run c powmod_round (s, e)) (k + 1 + f) (uof c r, (uof c b, (uof c x, uof c m))) =
    Ret (uof c (r * b ^ x mod m), z).
Proof.
  assert (STOP : forall r b, 0 < m -> 0 <= r < m -> r * b ^ 0 mod m = r) by (intros; rewrite Z.pow_0_r, Z.mul_1_r, Z.mod_small by lia; reflexivity).
  induction k as [|k IH]; intros r b x Hm Hr Hb Hx H.
  - change (2 ^ Z.of_nat 0) with 1 in H. assert (x = 0) by lia. subst x. cbn [Nat.add rounds].
    rewrite powmod_round_of by assumption. cbn [Z.eqb bind fst snd]. rewrite STOP by lia. eauto.
  - cbn [Nat.add rounds]. rewrite powmod_round_of by assumption.
    destruct (Z.eqb_spec x 0) as [->|N]; cbn [bind fst snd]; [rewrite STOP by lia; eauto|].
    rewrite <- (powmod_step m r b x) by lia. rewrite Nat2Z.inj_succ, Z.pow_succ_r in H by lia.
    assert (0 <= x / 2 < 2 ^ Z.of_nat k) by (split; [apply Z.div_pos; lia|apply Z.div_lt_upper_bound; lia]).
    assert (x / 2 <= x) by (apply Z.div_le_upper_bound; lia).
    apply IH; try lia.
    + destruct (Z.even x); [assumption|apply Z.mod_pos_bound; lia].
    + apply Z.mod_pos_bound; lia.
Qed.
Lemma powmod_of c n b x m : wf_u b -> wf_u x -> wf_u m -> 0 < uval c m <= 2 ^ 128 -> (257 <= n)%nat ->
  run c (powmod n) (b, (x, (m, tt))) = Ret (uof c (uval c b ^ uval c x mod uval c m)).
Proof.
  intros Hb Hx Hw Hm Hn. on_u c b. on_u c x. on_u c m. rewrite !uval_of_small in * by lia.
  unfold powmod. cbn [run call get fst snd bind op_fn op_sig]. rewrite u_new_of by lia.
  rewrite !u_op_rem_of by lia. replace (nm =? 0) with false by lia. cbn [bind].
  replace n with (256 + 1 + (n - 257))%nat by lia.
  match goal with |- context [rounds (fun s => run c powmod_round (s, ?e)) _ _] =>
    destruct (powmod_rounds c [state; Pair U (Pair U U); Pair U U; U; U; U; U128; U; U; U] e (n - 257) nm 256 (1 mod nm) (nb mod nm) nx Hm) as (z & E) end.
  - apply Z.mod_pos_bound; lia.
  - apply Z.mod_pos_bound; lia.
  - assumption.
  - change (Z.of_nat 256) with 256. lia.
  - match goal with |- bind ?x _ = _ => replace x with (Ret (uof c ((1 mod nm) * (nb mod nm) ^ nx mod nm), z)) by (symmetry; exact E) end.
    cbn [bind run get fst snd]. do 2 f_equal. rewrite Zmult_mod_idemp_l, Z.mul_1_l, <- Zpower_mod by lia. reflexivity.
Qed.

(** ** The operations they call *)
Lemma in_mul : In (Op (U --> U --> Runs U) u_op_mul) api. Proof. apply (nth_error_In _ 17). reflexivity. Qed.
Lemma in_rem : In (Op (U --> U --> Runs U) u_op_rem) api. Proof. apply (nth_error_In _ 21). reflexivity. Qed.
Lemma in_le : In (Op (U --> U --> Gives Flag) u_le) api. Proof. apply (nth_error_In _ 179). reflexivity. Qed.
Lemma in_eq_prim : In (Op (U --> U128 --> Gives Flag) u_eq_prim) api. Proof. apply (nth_error_In _ 189). reflexivity. Qed.
Lemma in_new : In (Op (U128 --> Gives U) u_new) api. Proof. apply (nth_error_In _ 205). reflexivity. Qed.
Lemma in_and : In (Op (U --> U --> Gives U) (fun _ => u_op_and)) api. Proof. apply (nth_error_In _ 207). reflexivity. Qed.
Lemma in_or' : In (Op (U --> U --> Gives U) (fun _ => u_op_or)) api. Proof. apply (nth_error_In _ 211). reflexivity. Qed.
Lemma in_shl : In (Op (U --> U32 --> Runs U) u_wrapping_shl) api. Proof. apply (nth_error_In _ 241). reflexivity. Qed.
Lemma in_shr : In (Op (U --> U32 --> Runs U) u_wrapping_shr) api. Proof. apply (nth_error_In _ 251). reflexivity. Qed.
Lemma clients_lawful n : lawful api (gcd n) /\ lawful api (isqrt n) /\ lawful api (powmod n).
Proof.
  pose proof in_mul. pose proof in_rem. pose proof in_le. pose proof in_eq_prim. pose proof in_new.
  pose proof in_and. pose proof in_or'. pose proof in_shl. pose proof in_shr.
  unfold gcd, gcd_round, isqrt, isqrt_round, powmod, powmod_round, mulmod, word, word32, range, any. cbn [lawful].
  repeat match goal with |- _ /\ _ => split end; try assumption; try exact Logic.I; intros; try lia.
Qed.
