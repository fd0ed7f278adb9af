(** * The vocabulary of Spec.v is sound, and the configurations used in examples *)

From Coq Require Import ZArith List String Bool Lia.
From Verif Require Import M_Prim M_Words Spec P_Words.
Open Scope Z_scope.

(** Configurations for the examples: dev build on x86-64, release build on
    x86-64, dev build on a big-endian 64-bit target, and one with debug
    assertions but no overflow checks on a big-endian 32-bit target, and a dev
    and a release build with the llvm-intrinsics feature. *)
Definition dev  : cfg := Build_cfg true true false 64 false.
Definition rel  : cfg := Build_cfg false false false 64 false.
Definition devB : cfg := Build_cfg true true true 64 false.
Definition mixB : cfg := Build_cfg true false true 32 false.
Definition devL : cfg := Build_cfg true true false 64 true.
Definition relL : cfg := Build_cfg false false true 32 true.

(** [uval] is a bijection between well-formed U256 values and [0, 2^256), with
    inverse [uof]; [uof] of any integer represents it modulo 2^256. *)
Theorem vocab_unsigned : forall c,
  (forall x, wf_u x -> 0 <= uval c x < 2 ^ 256 /\ uof c (uval c x) = x) /\
  (forall v, wf_u (uof c v) /\ uval c (uof c v) = wrap_u 256 v) /\
  (forall v, in_u 256 v = true -> uval c (uof c v) = v).
Proof.
  intros c. split; [|split].
  - intros x H. split; [apply uval_range|apply uof_uval]; exact H.
  - intros v. split; [apply wf_uof|apply uval_uof].
  - intros v H. apply uval_of_small. unfold in_u in H. lia.
Qed.
Print Assumptions vocab_unsigned.

(** Same for I256 and [-2^255, 2^255). *)
Theorem vocab_signed : forall c,
  (forall x, wf_i x -> - 2 ^ 255 <= ival c x < 2 ^ 255 /\ iof c (ival c x) = x) /\
  (forall v, wf_i (iof c v) /\ ival c (iof c v) = wrap_i 256 v) /\
  (forall v, in_i 256 v = true -> ival c (iof c v) = v).
Proof.
  intros c. split; [|split].
  - intros x H. split; [apply ival_range|apply iof_ival]; exact H.
  - intros v. split; [apply wf_iof|apply ival_iof].
  - intros v H. apply ival_of_small. unfold in_i in H. change (2 ^ (256 - 1)) with (2 ^ 255) in H. lia.
Qed.
Print Assumptions vocab_signed.

(** [wrap_u n v] and [wrap_i n v] are the only numbers of their range congruent to
    [v] modulo 2^n. *)
Theorem vocab_wrap : forall n v w, 0 < n ->
  (in_u n w = true /\ (exists k, v = w + k * 2 ^ n) <-> w = wrap_u n v) /\
  (in_i n w = true /\ (exists k, v = w + k * 2 ^ n) <-> w = wrap_i n v).
Proof.
  intros n v w Hn. unfold in_u, in_i.
  assert (Hp : 0 < 2 ^ n) by (apply Z.pow_pos_nonneg; lia).
  split; split.
  - intros [H [k ->]]. unfold wrap_u. rewrite Z.mod_add by lia. rewrite Z.mod_small; lia.
  - intros ->. unfold wrap_u. pose proof (Z.mod_pos_bound v (2 ^ n) Hp). split; [lia|].
    exists (v / 2 ^ n). pose proof (Z.div_mod v (2 ^ n)). lia.
  - intros [H [k ->]]. rewrite <- (wrap_i_small n w) at 1 by lia. apply wrap_i_cong.
    rewrite Z.mod_add by lia. reflexivity.
  - intros ->. pose proof (wrap_i_range n v Hn). split; [lia|].
    unfold wrap_i. exists ((v + 2 ^ (n - 1)) / 2 ^ n).
    pose proof (Z.div_mod (v + 2 ^ (n - 1)) (2 ^ n)). lia.
Qed.
Print Assumptions vocab_wrap.

Example vocab_case :
  uof dev (2 ^ 128 + 5) = mkU 5 1 /\ uof devB (2 ^ 128 + 5) = mkU 1 5 /\
  iof dev (-2) = mkI (-2) (-1) /\ ival devB (mkI (-1) (-2)) = -2 /\ wrap_i 8 200 = -56.
Proof. repeat split; reflexivity. Qed.
