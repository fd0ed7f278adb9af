(** * C69: the fuzzing target never reports a difference *)

From Coq Require Import ZArith String List Bool Lia.
Import ListNotations.
From Verif Require Import M_Prim M_Words M_Fuzz.
From Verif Require Import Spec Spec_Fuzz P_Fuzz T_Base.
Open Scope Z_scope.

(** C69: for every target the comparison with the big-integer reference succeeds. *)
Theorem C69_fuzz : forall c t,
  target_ok t -> fuzz c t = Ret tt.
Proof. exact fuzz_ok. Qed.
Print Assumptions C69_fuzz.

Example C69_fuzz_case :
  let t := Signed (F_mul (Num (2 ^ 128 - 1) 5) (Num (2 ^ 127) 0)) in
  target_ok t /\ is_interesting t = true /\ checks dev t = Ret tt /\ fuzz relL t = Ret tt /\
  checks devB (Unsigned (F_sub (Num 0 1) (Num 0 2))) = Ret tt.
Proof. vm_compute. intuition congruence. Qed.

(** C69: the targets it leaves out are the divisions by zero and the signed remainder of the minimum by -1, and
    these are exactly the ones whose check would fail. *)
Theorem C69_left_out : forall c t,
  target_ok t -> (is_interesting t = false <-> left_out t) /\ (left_out t <-> panics (checks c t)).
Proof. exact fuzz_left_out. Qed.
Print Assumptions C69_left_out.

Example C69_left_out_case :
  target_ok (Signed (F_rem (Num (2 ^ 127) 0) (Num (2 ^ 128 - 1) (2 ^ 128 - 1)))) /\
  left_out (Signed (F_rem (Num (2 ^ 127) 0) (Num (2 ^ 128 - 1) (2 ^ 128 - 1)))) /\
  checks dev (Signed (F_rem (Num (2 ^ 127) 0) (Num (2 ^ 128 - 1) (2 ^ 128 - 1)))) = Panic "assertion failed: `(left == right)`" /\
  checks dev (Signed (F_div (Num (2 ^ 127) 0) (Num (2 ^ 128 - 1) (2 ^ 128 - 1)))) = Ret tt.
Proof. split; [vm_compute; intuition congruence|]. split; [right; vm_compute; auto|]. vm_compute. auto. Qed.

(** C69: the reference is exact: the conversions keep the number, and a reference function gives the exact result
    modulo 2^256 with a flag telling whether it is out of range. *)
Theorem C69_reference : forall c f n a b x y,
  wf_u a -> wf_u b -> wf_i x -> wf_i y ->
  to_bigint (u_int c) a = uval c a /\ to_bigint (i_int c) x = ival c x /\
  from_bigint (u_int c) n = Ret (uof c n, negb (in_u 256 n)) /\
  from_bigint (i_int c) n = Ret (iof c n, negb (in_i 256 n)) /\
  (let v := f (uval c a) (uval c b) in reference (u_int c) f a b = Ret (uof c v, negb (in_u 256 v))) /\
  (let v := f (ival c x) (ival c y) in reference (i_int c) f x y = Ret (iof c v, negb (in_i 256 v))).
Proof. exact references. Qed.
Print Assumptions C69_reference.

Example C69_reference_case :
  wf_i (iof dev MINI) /\ to_bigint (i_int dev) (iof dev MINI) = MINI /\
  from_bigint (i_int dev) (2 ^ 255) = Ret (iof dev MINI, true) /\ from_bigint (i_int dev) (- 2 ^ 255) = Ret (iof dev MINI, false) /\
  from_bigint (u_int dev) (-1) = Ret (uof dev MAXU, true) /\
  reference (u_int dev) Z.mul (uof dev (2 ^ 200)) (uof dev (2 ^ 56 + 1)) = Ret (uof dev (2 ^ 200), true).
Proof. vm_compute. intuition congruence. Qed.

