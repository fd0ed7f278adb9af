(** * C07 - C14, C26, C47: I256 arithmetic

    Every theorem is for all build configurations [c] and all well-formed
    operands.  [iof c v] is the I256 representing [v] modulo 2^256, that is
    [wrap_i 256 v]; [Ret x] says "returns x: no panic, no undefined behaviour". *)

From Coq Require Import ZArith List String Bool Lia ZifyBool.
Import ListNotations.
From Verif Require Import M_Prim M_Words M_Intr M_Div M_Mul M_Ops M_UintApi M_IntApi Spec P_Words P_Int T_Base.
Open Scope Z_scope.

(** C07: addition. *)
Theorem C07_i256_add : forall c a b,
  wf_i a -> wf_i b -> let s := ival c a + ival c b in
  i_wrapping_add c a b = iof c s /\
  i_overflowing_add c a b = (iof c s, negb (in_i 256 s)) /\
  i_checked_add c a b = (if in_i 256 s then Some (iof c s) else None) /\
  i_saturating_add c a b = iof c (clamp_i s).
Proof. exact iadd_family. Qed.
Print Assumptions C07_i256_add.

Example C07_add_case :
  let a := iof dev MAXI in let b := iof dev 1 in
  wf_i a /\ wf_i b /\ i_checked_add dev a b = None /\ i_overflowing_add dev a b = (iof dev MINI, true) /\
  i_saturating_add devB (iof devB (-5)) (iof devB MINI) = iof devB MINI.
Proof. vm_compute. intuition congruence. Qed.

(** C07: subtraction. *)
Theorem C07_i256_sub : forall c a b,
  wf_i a -> wf_i b -> let d := ival c a - ival c b in
  i_wrapping_sub c a b = iof c d /\
  i_overflowing_sub c a b = (iof c d, negb (in_i 256 d)) /\
  i_checked_sub c a b = (if in_i 256 d then Some (iof c d) else None) /\
  i_saturating_sub c a b = iof c (clamp_i d).
Proof. exact isub_family. Qed.
Print Assumptions C07_i256_sub.

Example C07_sub_case :
  let a := iof dev 0 in let b := iof dev MINI in
  wf_i a /\ wf_i b /\ i_checked_sub dev a b = None /\ i_overflowing_sub dev a b = (iof dev MINI, true) /\
  i_saturating_sub devB (iof devB 0) (iof devB MINI) = iof devB MAXI.
Proof. vm_compute. intuition congruence. Qed.

(** C08: multiplication. *)
Theorem C08_i256_mul : forall c a b,
  wf_i a -> wf_i b -> let p := ival c a * ival c b in
  i_wrapping_mul c a b = Ret (iof c p) /\
  i_overflowing_mul c a b = Ret (iof c p, negb (in_i 256 p)) /\
  i_checked_mul c a b = Ret (if in_i 256 p then Some (iof c p) else None) /\
  i_saturating_mul c a b = Ret (iof c (clamp_i p)).
Proof. exact imul_family. Qed.
Print Assumptions C08_i256_mul.

Example C08_case :
  let a := iof dev (2 ^ 127) in let b := iof dev (- 2 ^ 128) in
  wf_i a /\ wf_i b /\ i_checked_mul dev a b = Ret (Some (iof dev MINI)) /\
  i_overflowing_mul dev a (iof dev (2 ^ 128)) = Ret (iof dev MINI, true) /\
  i_saturating_mul mixB (iof mixB MINI) (iof mixB (-1)) = Ret (iof mixB MAXI).
Proof. vm_compute. intuition congruence. Qed.

(** C09: truncated division ([Z.quot], [Z.rem] round toward zero; the remainder has
    the sign of the dividend).  [in_i 256 q] fails exactly for MIN / -1, see
    [C09_overflow_only_min_neg_one]. *)
Theorem C09_i256_div : forall c a b,
  wf_i a -> wf_i b ->
  let q := Z.quot (ival c a) (ival c b) in let r := Z.rem (ival c a) (ival c b) in
  if ival c b =? 0 then
    Forall (eq (Panic "attempt to divide by zero"))
      [i_op_div c a b; i_op_div_assign c a b; i_wrapping_div c a b; i_saturating_div c a b] /\
    i_overflowing_div c a b = Panic "attempt to divide by zero" /\
    Forall (eq (Panic "attempt to calculate the remainder with a divisor of zero"))
      [i_op_rem c a b; i_wrapping_rem c a b] /\
    i_overflowing_rem c a b = Panic "attempt to calculate the remainder with a divisor of zero" /\
    panics (i_op_rem_assign c a b) /\
    Forall (eq (Ret None)) [i_checked_div c a b; i_checked_rem c a b]
  else
    Forall (eq (Ret (iof c q))) [i_op_div c a b; i_op_div_assign c a b; i_wrapping_div c a b] /\
    Forall (eq (Ret (iof c r))) [i_op_rem c a b; i_op_rem_assign c a b; i_wrapping_rem c a b] /\
    i_overflowing_div c a b = Ret (iof c q, negb (in_i 256 q)) /\
    i_overflowing_rem c a b = Ret (iof c r, negb (in_i 256 q)) /\
    i_checked_div c a b = Ret (if in_i 256 q then Some (iof c q) else None) /\
    i_checked_rem c a b = Ret (if in_i 256 q then Some (iof c r) else None) /\
    i_saturating_div c a b = Ret (iof c (clamp_i q)).
Proof. exact idiv_family. Qed.
Print Assumptions C09_i256_div.

Example C09_case :
  let a := iof dev (-(2 ^ 200) - 7) in let b := iof dev (2 ^ 130) in
  wf_i a /\ wf_i b /\ i_op_div dev a b = Ret (iof dev (- 2 ^ 70)) /\ i_op_rem dev a b = Ret (iof dev (-7)) /\
  i_checked_div dev (iof dev MINI) (iof dev (-1)) = Ret None /\
  i_saturating_div rel (iof rel MINI) (iof rel (-1)) = Ret (iof rel MAXI).
Proof. vm_compute. intuition congruence. Qed.

(** The only overflowing quotient. *)
Theorem C09_overflow_only_min_neg_one : forall a b, in_i 256 a = true -> in_i 256 b = true -> b <> 0 ->
  (in_i 256 (Z.quot a b) = false <-> a = MINI /\ b = -1).
Proof.
  intros a b Ha Hb Hb0. rewrite P_Ops.in_i_256 in Ha.
  pose proof (quot_flag a b ltac:(lia) Hb0). unfold MINI. lia.
Qed.
Print Assumptions C09_overflow_only_min_neg_one.

(** C10 claims that these panic.  They do not, in any build: *)
Theorem C10_min_div_neg_one_refuted : forall c,
  let m := iof c MINI in let n := iof c (-1) in
  ~ panics (i_op_div c m n) /\ ~ panics (i_op_rem c m n) /\
  ~ panics (i_div_euclid c m n) /\ ~ panics (i_rem_euclid c m n).
Proof.
  intros c. destruct (min_div_m1 c) as (E1 & E2 & E3 & E4). cbv zeta in *.
  rewrite E1, E2, E3, E4. repeat split; intros [s E]; discriminate.
Qed.
Print Assumptions C10_min_div_neg_one_refuted.

(** What the code does instead: it wraps to MIN, with remainder 0. *)
Theorem C10_min_div_neg_one_actual : forall c,
  let m := iof c MINI in let n := iof c (-1) in
  i_op_div c m n = Ret m /\ i_op_rem c m n = Ret (iof c 0) /\
  i_div_euclid c m n = Ret m /\ i_rem_euclid c m n = Ret (iof c 0).
Proof. exact min_div_m1. Qed.
Print Assumptions C10_min_div_neg_one_actual.

Example C10_case : wf_i (iof dev MINI) /\ i_op_div dev (I256_MIN dev) (iof dev (-1)) = Ret (I256_MIN dev).
Proof. vm_compute. intuition congruence. Qed.

(** C11: Euclidean division: for the unique [q], [r] with [a = q*b + r] and
    [0 <= r < |b|] (which exist exactly when [b <> 0]).  [in_i 256 q] fails only for
    (MIN, -1), where the unchecked methods wrap. *)
Theorem C11_i256_euclid : forall c a b q r,
  wf_i a -> wf_i b ->
  ival c a = q * ival c b + r -> 0 <= r < Z.abs (ival c b) ->
  Forall (eq (Ret (iof c q))) [i_div_euclid c a b; i_wrapping_div_euclid c a b] /\
  Forall (eq (Ret (iof c r))) [i_rem_euclid c a b; i_wrapping_rem_euclid c a b] /\
  i_overflowing_div_euclid c a b = Ret (iof c q, negb (in_i 256 q)) /\
  i_overflowing_rem_euclid c a b = Ret (iof c r, negb (in_i 256 q)) /\
  i_checked_div_euclid c a b = Ret (if in_i 256 q then Some (iof c q) else None) /\
  i_checked_rem_euclid c a b = Ret (if in_i 256 q then Some (iof c r) else None).
Proof. exact ieuclid_family. Qed.
Print Assumptions C11_i256_euclid.

Example C11_case :
  let a := iof dev (-(2 ^ 200)) in let b := iof dev (-(2 ^ 199) + 1) in
  wf_i a /\ wf_i b /\ ival dev a = 3 * ival dev b + (2 ^ 199 - 3) /\ 0 <= 2 ^ 199 - 3 < Z.abs (ival dev b) /\
  i_div_euclid dev a b = Ret (iof dev 3) /\ i_rem_euclid dev a b = Ret (iof dev (2 ^ 199 - 3)).
Proof. vm_compute. intuition congruence. Qed.

(** Existence and uniqueness of the Euclidean pair, and its overflow. *)
Theorem C11_euclid_pair : forall a b, b <> 0 ->
  (exists q r, a = q * b + r /\ 0 <= r < Z.abs b) /\
  (forall q r q' r', a = q * b + r -> 0 <= r < Z.abs b -> a = q' * b + r' -> 0 <= r' < Z.abs b -> q = q' /\ r = r') /\
  (forall q r, in_i 256 a = true -> in_i 256 b = true -> a = q * b + r -> 0 <= r < Z.abs b ->
    (in_i 256 q = false <-> a = MINI /\ b = -1)).
Proof.
  intros a b Hb. split; [|split].
  - exists (a / Z.abs b * Z.sgn b), (a mod Z.abs b).
    pose proof (Z.div_mod a (Z.abs b) ltac:(lia)). pose proof (Z.mod_pos_bound a (Z.abs b) ltac:(lia)).
    split; [|lia]. destruct (Z.abs_spec b) as [[Hs E]|[Hs E]];
      [rewrite Z.sgn_pos by lia|rewrite Z.sgn_neg by lia]; rewrite E in *; nia.
  - intros. eapply euclid_unique; eassumption.
  - intros q r Ha Hb' HE Hr. rewrite P_Ops.in_i_256 in Ha, Hb'.
    pose proof (euclid_q_range a b q r ltac:(lia) ltac:(lia) Hb HE Hr). unfold MINI. lia.
Qed.
Print Assumptions C11_euclid_pair.

(** C11: a zero divisor panics, or is None for the checked methods. *)
Theorem C11_i256_euclid_zero : forall c a b,
  wf_i a -> wf_i b -> ival c b = 0 ->
  Forall panics [i_div_euclid c a b; i_rem_euclid c a b; i_wrapping_div_euclid c a b; i_wrapping_rem_euclid c a b] /\
  Forall panics [i_overflowing_div_euclid c a b; i_overflowing_rem_euclid c a b] /\
  Forall (eq (Ret None)) [i_checked_div_euclid c a b; i_checked_rem_euclid c a b].
Proof. exact ieuclid_zero. Qed.
Print Assumptions C11_i256_euclid_zero.

Example C11_zero_case : wf_i (iof dev 7) /\ ival dev (iof dev 0) = 0 /\ i_checked_rem_euclid dev (iof dev 7) (iof dev 0) = Ret None.
Proof. vm_compute. intuition congruence. Qed.

(** C12: the combined methods return the truncated quotient and remainder;
    [div_rem] itself panics for MIN / -1 (in every build, see C14). *)
Theorem C12_i256_div_rem : forall c a b,
  wf_i a -> wf_i b ->
  let q := Z.quot (ival c a) (ival c b) in let r := Z.rem (ival c a) (ival c b) in
  if ival c b =? 0 then
    Forall (eq (Panic "attempt to divide by zero"))
      [i_div_rem c a b; i_wrapping_div_rem c a b; i_saturating_div_rem c a b] /\
    i_overflowing_div_rem c a b = Panic "attempt to divide by zero" /\
    i_checked_div_rem c a b = Ret None
  else
    i_wrapping_div_rem c a b = Ret (iof c q, iof c r) /\
    i_overflowing_div_rem c a b = Ret (iof c q, iof c r, negb (in_i 256 q)) /\
    i_checked_div_rem c a b = Ret (if in_i 256 q then Some (iof c q, iof c r) else None) /\
    i_saturating_div_rem c a b = Ret (iof c (clamp_i q), iof c r) /\
    i_div_rem c a b = (if in_i 256 q then Ret (iof c q, iof c r)
                       else Panic "attempt to divide with overflow").
Proof. exact idiv_rem_family. Qed.
Print Assumptions C12_i256_div_rem.

Example C12_case :
  let a := iof dev (-(2 ^ 200) - 7) in let b := iof dev (2 ^ 130) in
  wf_i a /\ wf_i b /\ i_div_rem dev a b = Ret (iof dev (- 2 ^ 70), iof dev (-7)).
Proof. vm_compute. intuition congruence. Qed.

(** C13: the full claim, that the combined Euclidean methods return the Euclidean
    pair in every build, is false: with debug assertions, divisor MIN and a
    negative dividend that is not a multiple of it, an intermediate subtraction
    overflows. *)
Theorem C13_i256_div_rem_euclid_refuted : exists c a b q r,
  wf_i a /\ wf_i b /\ ival c a = q * ival c b + r /\ 0 <= r < Z.abs (ival c b) /\
  in_i 256 q = true /\
  panics (i_wrapping_div_rem_euclid c a b) /\ panics (i_div_rem_euclid c a b) /\
  panics (i_overflowing_div_rem_euclid c a b) /\ panics (i_checked_div_rem_euclid c a b) /\
  panics (i_saturating_div_rem_euclid c a b).
Proof.
  exists dev, (iof dev (-1)), (iof dev MINI), 1, MAXI.
  vm_compute. intuition (try congruence); eexists; reflexivity.
Qed.
Print Assumptions C13_i256_div_rem_euclid_refuted.

(** C13 outside that case (missing: debug build, divisor MIN, negative dividend,
    non-zero remainder): the Euclidean pair is returned.  [div_rem_euclid] itself
    panics for (MIN, -1). *)
Theorem C13_i256_div_rem_euclid_partial : forall c a b q r,
  wf_i a -> wf_i b ->
  ival c a = q * ival c b + r -> 0 <= r < Z.abs (ival c b) ->
  (debug_assertions c = true -> ival c b = MINI -> ival c a < 0 -> r = 0) ->
  i_wrapping_div_rem_euclid c a b = Ret (iof c q, iof c r) /\
  i_overflowing_div_rem_euclid c a b = Ret (iof c q, iof c r, negb (in_i 256 q)) /\
  i_checked_div_rem_euclid c a b = Ret (if in_i 256 q then Some (iof c q, iof c r) else None) /\
  i_saturating_div_rem_euclid c a b = Ret (iof c (clamp_i q), iof c r) /\
  i_div_rem_euclid c a b = (if in_i 256 q then Ret (iof c q, iof c r)
                            else Panic "attempt to divide with overflow").
Proof. exact idiv_rem_euclid_family. Qed.
Print Assumptions C13_i256_div_rem_euclid_partial.

Example C13_case :
  let a := iof dev (-(2 ^ 200)) in let b := iof dev (-(2 ^ 199) + 1) in
  wf_i a /\ wf_i b /\ ival dev a = 3 * ival dev b + (2 ^ 199 - 3) /\ 0 <= 2 ^ 199 - 3 < Z.abs (ival dev b) /\
  ival dev b <> MINI /\ i_checked_div_rem_euclid dev a b = Ret (Some (iof dev 3, iof dev (2 ^ 199 - 3))).
Proof. vm_compute. intuition congruence. Qed.

(** C13: the exact outcome of [wrapping_div_rem_euclid] in all cases, on numbers. *)
Theorem C13_wrapping_exact : forall c a b q r,
  - 2 ^ 255 <= a < 2 ^ 255 -> - 2 ^ 255 <= b < 2 ^ 255 ->
  a = q * b + r -> 0 <= r < Z.abs b ->
  i_wrapping_div_rem_euclid c (iof c a) (iof c b) =
  if debug_assertions c && ((b =? - 2 ^ 255) && (a <? 0) && negb (r =? 0))
  then Panic "attempt to subtract with overflow" else Ret (iof c q, iof c r).
Proof. exact i_wdre_of. Qed.
Print Assumptions C13_wrapping_exact.

Example C13_exact_case :
  -1 = 1 * MINI + MAXI /\ 0 <= MAXI < Z.abs MINI /\
  i_wrapping_div_rem_euclid dev (iof dev (-1)) (iof dev MINI) = Panic "attempt to subtract with overflow" /\
  i_wrapping_div_rem_euclid rel (iof rel (-1)) (iof rel MINI) = Ret (iof rel 1, iof rel MAXI).
Proof. vm_compute. intuition congruence. Qed.

(** C13: a zero divisor panics, or is None for the checked method. *)
Theorem C13_i256_div_rem_euclid_zero : forall c a b,
  wf_i a -> wf_i b -> ival c b = 0 ->
  Forall (eq (Panic "attempt to divide by zero"))
    [i_wrapping_div_rem_euclid c a b; i_div_rem_euclid c a b; i_saturating_div_rem_euclid c a b] /\
  i_overflowing_div_rem_euclid c a b = Panic "attempt to divide by zero" /\
  i_checked_div_rem_euclid c a b = Ret None.
Proof. exact i_wdre_zero. Qed.
Print Assumptions C13_i256_div_rem_euclid_zero.

Example C13_zero_case : wf_i (iof dev 7) /\ ival dev (iof dev 0) = 0 /\ i_checked_div_rem_euclid dev (iof dev 7) (iof dev 0) = Ret None.
Proof. vm_compute. intuition congruence. Qed.

(** C14 claims that without debug assertions these do not panic.  They do, in every build: *)
Theorem C14_div_rem_overflow_refuted : forall c,
  panics (i_div_rem c (iof c MINI) (iof c (-1))) /\ panics (i_div_rem_euclid c (iof c MINI) (iof c (-1))).
Proof.
  intros c. unfold i_div_rem, i_div_rem_euclid, MINI.
  rewrite P_Ops.i_div_overflows_of by lia. split; eexists; reflexivity.
Qed.
Print Assumptions C14_div_rem_overflow_refuted.
Example C14_case : debug_assertions rel = false /\ i_div_rem rel (I256_MIN rel) (iof rel (-1)) = Panic "attempt to divide with overflow".
Proof. vm_compute. intuition congruence. Qed.

(** C26: sign tests. *)
Theorem C26_sign : forall c a,
  wf_i a -> let v := ival c a in
  i_is_negative c a = (v <? 0) /\ i_is_positive c a = (0 <? v) /\
  i_signum128 c a = Z.sgn v /\ i_signum c a = iof c (Z.sgn v).
Proof. exact sign_family. Qed.
Print Assumptions C26_sign.

Example C26_sign_case : wf_i (iof dev (2 ^ 128)) /\ i_signum128 dev (iof dev (2 ^ 128)) = 1 /\
  i_is_positive dev (iof dev 5) = true /\ i_signum devB (iof devB (- 2 ^ 128)) = iof devB (-1).
Proof. vm_compute. intuition congruence. Qed.

(** C26: absolute values; [in_i 256 |a|] fails only for MIN. *)
Theorem C26_abs : forall c a,
  wf_i a -> let m := Z.abs (ival c a) in
  i_wrapping_abs c a = iof c m /\
  i_overflowing_abs c a = (iof c m, negb (in_i 256 m)) /\
  i_checked_abs c a = Ret (if in_i 256 m then Some (iof c m) else None) /\
  i_saturating_abs c a = iof c (clamp_i m) /\
  i_unsigned_abs c a = uof c m /\
  i_abs c a = (if debug_assertions c && negb (in_i 256 m)
               then Panic "attempt to negate with overflow" else Ret (iof c m)).
Proof. exact abs_family. Qed.
Print Assumptions C26_abs.

Example C26_abs_case : wf_i (iof dev MINI) /\ i_unsigned_abs dev (iof dev MINI) = uof dev (2 ^ 255) /\
  i_checked_abs dev (iof dev MINI) = Ret None /\ i_saturating_abs dev (iof dev MINI) = iof dev MAXI /\
  panics (i_abs dev (iof dev MINI)) /\ i_abs rel (iof rel MINI) = Ret (iof rel MINI).
Proof. vm_compute. intuition (try congruence). eexists; reflexivity. Qed.

(** C26: negation. *)
Theorem C26_neg : forall c a,
  wf_i a -> let m := - ival c a in
  i_wrapping_neg c a = iof c m /\
  i_overflowing_neg c a = Ret (iof c m, negb (in_i 256 m)) /\
  i_checked_neg c a = Ret (if in_i 256 m then Some (iof c m) else None) /\
  i_saturating_neg c a = iof c (clamp_i m) /\
  i_op_neg c a = (if debug_assertions c && negb (in_i 256 m)
               then Panic "attempt to negate with overflow" else Ret (iof c m)).
Proof. exact ineg_family. Qed.
Print Assumptions C26_neg.

Example C26_neg_case : wf_i (iof dev MINI) /\ i_overflowing_neg dev (iof dev MINI) = Ret (iof dev MINI, true) /\
  i_saturating_neg dev (iof dev MINI) = iof dev MAXI /\ i_checked_neg dev (iof dev 3) = Ret (Some (iof dev (-3))).
Proof. vm_compute. intuition congruence. Qed.

(** C47: U256 + I256. *)
Theorem C47_add_signed : forall c a b,
  wf_u a -> wf_i b -> let s := uval c a + ival c b in
  u_wrapping_add_signed c a b = uof c s /\
  u_overflowing_add_signed c a b = (uof c s, negb (in_u 256 s)) /\
  u_checked_add_signed c a b = (if in_u 256 s then Some (uof c s) else None) /\
  u_saturating_add_signed c a b = uof c (clamp_u s).
Proof. exact add_signed_family. Qed.
Print Assumptions C47_add_signed.

Example C47_add_signed_case : wf_u (uof dev 3) /\ wf_i (iof dev (-5)) /\
  u_checked_add_signed dev (uof dev 3) (iof dev (-5)) = None /\
  u_saturating_add_signed dev (uof dev 3) (iof dev (-5)) = uof dev 0 /\
  u_overflowing_add_signed dev (uof dev 7) (iof dev (-5)) = (uof dev 2, false).
Proof. vm_compute. intuition congruence. Qed.

(** C47: I256 + U256. *)
Theorem C47_add_unsigned : forall c a b,
  wf_i a -> wf_u b -> let s := ival c a + uval c b in
  i_wrapping_add_unsigned c a b = iof c s /\
  i_overflowing_add_unsigned c a b = (iof c s, negb (in_i 256 s)) /\
  i_checked_add_unsigned c a b = (if in_i 256 s then Some (iof c s) else None) /\
  i_saturating_add_unsigned c a b = iof c (clamp_i s).
Proof. exact add_unsigned_family. Qed.
Print Assumptions C47_add_unsigned.

Example C47_add_unsigned_case : wf_i (iof dev MINI) /\ wf_u (uof dev (2 ^ 256 - 1)) /\
  i_checked_add_unsigned dev (iof dev MINI) (uof dev (2 ^ 256 - 1)) = Some (iof dev MAXI) /\
  i_saturating_add_unsigned dev (iof dev 0) (uof dev (2 ^ 255)) = iof dev MAXI.
Proof. vm_compute. intuition congruence. Qed.

(** C47: I256 - U256. *)
Theorem C47_sub_unsigned : forall c a b,
  wf_i a -> wf_u b -> let d := ival c a - uval c b in
  i_wrapping_sub_unsigned c a b = iof c d /\
  i_overflowing_sub_unsigned c a b = (iof c d, negb (in_i 256 d)) /\
  i_checked_sub_unsigned c a b = (if in_i 256 d then Some (iof c d) else None) /\
  i_saturating_sub_unsigned c a b = iof c (clamp_i d).
Proof. exact sub_unsigned_family. Qed.
Print Assumptions C47_sub_unsigned.

Example C47_sub_unsigned_case : wf_i (iof dev MAXI) /\ wf_u (uof dev (2 ^ 256 - 1)) /\
  i_checked_sub_unsigned dev (iof dev MAXI) (uof dev (2 ^ 256 - 1)) = Some (iof dev MINI) /\
  i_saturating_sub_unsigned dev (iof dev (-1)) (uof dev (2 ^ 255)) = iof dev MINI.
Proof. vm_compute. intuition congruence. Qed.

(** C47: I256::abs_diff. *)
Theorem C47_abs_diff : forall c a b,
  wf_i a -> wf_i b ->
  i_abs_diff c a b = uof c (Z.abs (ival c a - ival c b)).
Proof. exact iabs_diff_ok. Qed.
Print Assumptions C47_abs_diff.

Example C47_abs_diff_case : wf_i (iof dev MINI) /\ wf_i (iof dev MAXI) /\
  i_abs_diff dev (iof dev MINI) (iof dev MAXI) = uof dev (2 ^ 256 - 1).
Proof. vm_compute. intuition congruence. Qed.

