(** * C76: programs that use the crate compute what they should *)

From Coq Require Import ZArith List String Bool Lia.
Import ListNotations.
From Verif Require Import M_Prim M_Words Spec Spec_Builds Spec_Api Spec_Program Spec_Clients P_Words P_Clients T_Base.
Open Scope Z_scope.

(** C76: Euclid's algorithm on U256 gives the greatest common divisor of all numbers, within 513 rounds, without a panic
    in any build. *)
Theorem C76_gcd : forall c n a b,
  wf_u a -> wf_u b -> (513 <= n)%nat ->
  run c (gcd n) (a, (b, tt)) = Ret (uof c (Z.gcd (uval c a) (uval c b))).
Proof. exact gcd_of. Qed.
Print Assumptions C76_gcd.

Example C76_gcd_case :
  wf_u (uof dev (3 * 2 ^ 200)) /\ wf_u (uof dev (5 * 2 ^ 150)) /\ (513 <= 600)%nat /\
  run dev (gcd 600) (uof dev (3 * 2 ^ 200), (uof dev (5 * 2 ^ 150), tt)) = Ret (uof dev (2 ^ 150)).
Proof. split; [apply wf_uof|]. split; [apply wf_uof|]. split; [lia|]. vm_compute. reflexivity. Qed.

(** C76: the square root, bit by bit. *)
Theorem C76_isqrt : forall c m n,
  wf_u n -> (128 <= m)%nat -> run c (isqrt m) (n, tt) = Ret (uof c (Z.sqrt (uval c n))).
Proof. exact isqrt_of. Qed.
Print Assumptions C76_isqrt.

Example C76_isqrt_case :
  wf_u (uof devB MAXU) /\ (128 <= 128)%nat /\ run devB (isqrt 128) (uof devB MAXU, tt) = Ret (uof devB (2 ^ 128 - 1)).
Proof. split; [apply wf_uof|]. split; [lia|]. vm_compute. reflexivity. Qed.

(** C76: powers modulo a number that is at most 2^128, by squaring. *)
Theorem C76_powmod : forall c n b x m,
  wf_u b -> wf_u x -> wf_u m -> 0 < uval c m <= 2 ^ 128 -> (257 <= n)%nat ->
  run c (powmod n) (b, (x, (m, tt))) = Ret (uof c (uval c b ^ uval c x mod uval c m)).
Proof. exact powmod_of. Qed.
Print Assumptions C76_powmod.

Example C76_powmod_case :
  0 < uval relL (uof relL 1000) <= 2 ^ 128 /\
  run relL (powmod 257) (uof relL 7, (uof relL 13, (uof relL 1000, tt))) = Ret (uof relL 407) /\
  panics (run relL (powmod 257) (uof relL 7, (uof relL 13, (uof relL 0, tt)))).
Proof. split; [vm_compute; intuition congruence|]. split; [vm_compute; reflexivity|eexists; vm_compute; reflexivity]. Qed.

(** C76: the three programs only call operations of [api], so that C75 applies to them. *)
Theorem C76_lawful : forall n, lawful api (gcd n) /\ lawful api (isqrt n) /\ lawful api (powmod n).
Proof. exact clients_lawful. Qed.
Print Assumptions C76_lawful.

Example C76_lawful_case : ~ lawful [] (gcd 1).
Proof. intros [[_ [[] _]] _]. Qed.
