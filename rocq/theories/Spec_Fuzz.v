(** * Vocabulary for the fuzzing target *)

From Coq Require Import ZArith List Bool.
From Verif Require Import M_Prim M_Fuzz Spec.
Open Scope Z_scope.

(** A pair of u128. *)
Definition num_ok (n : num) : Prop := 0 <= num_hi n < 2 ^ 128 /\ 0 <= num_lo n < 2 ^ 128.
Definition fop_ok (o : fop) : Prop :=
  match o with F_add a b | F_sub a b | F_mul a b | F_div a b | F_rem a b => num_ok a /\ num_ok b end.
Definition target_ok (t : target) : Prop := match t with Signed o | Unsigned o => fop_ok o end.
(** The 256-bit pattern the pair stands for, read without and with a sign. *)
Definition num_u (n : num) : Z := num_hi n * 2 ^ 128 + num_lo n.
Definition num_i (n : num) : Z := wrap_i 256 (num_u n).
(** The comparison the target makes. *)
Definition checks (c : cfg) (t : target) : res unit := match t with Signed o => i_ops c o | Unsigned o => u_ops c o end.
(** The targets that are left out: a zero divisor, and the signed remainder of the minimum by minus one. *)
Definition left_out (t : target) : Prop :=
  match t with
  | Signed (F_div _ b) | Unsigned (F_div _ b) | Unsigned (F_rem _ b) => num_u b = 0
  | Signed (F_rem a b) => num_u b = 0 \/ (num_i a = MINI /\ num_i b = -1)
  | _ => False
  end.
